(* Facts about the string functions of PyText.v. *)
From Coq Require Import Lia.
From Verif Require Import Py PyProofs Utf8 Utf8Proofs SpecUtf8 Utf8More IO IOProofs Arr PyText
  SpecCompat.
Local Open Scope N_scope.
Local Open Scope list_scope.
#[local] Ltac Zify.zify_post_hook ::= Z.to_euclidean_division_equations.

(* ---------------------------------------------------------------- *)
(* Decimal numbers                                                   *)

Definition digit (c : N) : Prop := 48 <= c <= 57.

Lemma dec_digits_digit fuel n : Forall digit (dec_digits fuel n).
Proof.
  revert n; induction fuel as [|f IH]; intros n; simpl; [constructor|].
  destruct (N.ltb_spec n 10); [constructor; [unfold digit; lia|constructor]|].
  apply Forall_app. split; [easy|]. constructor; [unfold digit; lia|constructor].
Qed.
Lemma str_of_N_digit n : Forall digit (str_of_N n).
Proof. apply dec_digits_digit. Qed.
Lemma str_of_N_nonempty n : str_of_N n <> [].
Proof.
  unfold str_of_N. cbn [dec_digits]. destruct (n <? 10); [easy|].
  intros H. apply app_eq_nil in H. easy.
Qed.

Lemma int_digits_app s : forall prev acc t, Forall digit s -> s <> [] ->
  int_digits prev acc (s ++ t) = int_digits true (fold_left (fun a c => a * 10 + (c - 48)) s acc) t.
Proof.
  induction s as [|c s IH]; intros prev acc t H N; [easy|].
  inversion H as [|? ? D Hs]; subst. unfold digit in D. cbn [app int_digits fold_left].
  replace ((48 <=? c) && (c <=? 57)) with true by (symmetry; apply andb_true_iff; split; apply N.leb_le; lia).
  destruct s as [|c' s']; [reflexivity|]. now rewrite IH.
Qed.
Lemma dec_digits_S f n :
  dec_digits (S f) n = if n <? 10 then [48 + n] else dec_digits f (n / 10) ++ [48 + n mod 10].
Proof. reflexivity. Qed.
Lemma dec_digits_val : forall fuel n, n < 2 ^ N.of_nat fuel ->
  fold_left (fun a c => a * 10 + (c - 48)) (dec_digits (S fuel) n) 0 = n.
Proof.
  induction fuel as [|f IH]; intros n H.
  - change (2 ^ N.of_nat 0) with 1 in H. assert (n = 0) as -> by lia. reflexivity.
  - rewrite dec_digits_S. destruct (N.ltb_spec n 10) as [L|L]; [simpl; lia|].
    rewrite fold_left_app, IH; [cbn [fold_left]; lia|].
    rewrite Nat2N.inj_succ, N.pow_succ_r' in H. lia.
Qed.
Lemma str_of_N_val n : fold_left (fun a c => a * 10 + (c - 48)) (str_of_N n) 0 = n.
Proof.
  destruct (N.eq_dec n 0) as [->|NZ]; [reflexivity|].
  unfold str_of_N.
  (* one more unit of fuel does not change the result *)
  assert (MORE : forall f m, m < 2 ^ N.of_nat f -> dec_digits (S f) m = dec_digits f m \/ f = 0%nat).
  { induction f as [|f IH]; intros m Hm; [now right|]. left.
    rewrite (dec_digits_S (S f) m), (dec_digits_S f m). destruct (N.ltb_spec m 10); [reflexivity|].
    destruct (IH (m / 10)) as [E| ->]; [|now rewrite E|].
    - rewrite Nat2N.inj_succ, N.pow_succ_r' in Hm. lia.
    - change (2 ^ N.of_nat 1) with 2 in Hm. lia. }
  set (f := S (N.to_nat (N.log2 n))).
  assert (B : n < 2 ^ N.of_nat f).
  { unfold f. rewrite Nat2N.inj_succ, N2Nat.id. apply N.log2_spec. lia. }
  destruct (MORE f n B) as [E|E]; [|unfold f in E; easy].
  rewrite <- E. now apply dec_digits_val.
Qed.

Lemma digits_int s : Forall digit s -> s <> [] ->
  py_int s = Ok (Z.of_N (fold_left (fun a c => a * 10 + (c - 48)) s 0)).
Proof.
  intros D N. unfold py_int. destruct s as [|c s]; [easy|].
  inversion D as [|? ? Dc _]; subst. unfold digit in Dc.
  destruct (N.eqb_spec c 45); [lia|]. destruct (N.eqb_spec c 43); [lia|].
  rewrite <- (app_nil_r (c :: s)), int_digits_app by easy. cbn [int_digits]. rewrite app_nil_r.
  f_equal. lia.
Qed.
Lemma py_int_str n : py_int (str_of_N n) = Ok (Z.of_N n).
Proof. rewrite digits_int, str_of_N_val; [easy|apply str_of_N_digit|apply str_of_N_nonempty]. Qed.

(* ---------------------------------------------------------------- *)
(* Whitespace                                                        *)

Lemma digit_not_space c : digit c -> is_space c = false.
Proof.
  unfold digit, is_space. intros H.
  repeat (rewrite orb_false_iff || rewrite andb_false_iff || rewrite N.leb_gt || rewrite N.eqb_neq). lia.
Qed.
Lemma ascii_space c : is_ascii_space c = true <-> 9 <= c <= 13 \/ c = 32.
Proof.
  unfold is_ascii_space. rewrite orb_true_iff, andb_true_iff, !N.leb_le, N.eqb_eq. lia.
Qed.
Lemma ascii_is_space c : is_ascii_space c = true -> is_space c = true.
Proof.
  rewrite ascii_space. unfold is_space. intros H.
  assert (E : (9 <=? c) && (c <=? 13) || (28 <=? c) && (c <=? 32) = true)
    by (rewrite orb_true_iff, !andb_true_iff, !N.leb_le; lia).
  now rewrite E.
Qed.

Lemma split_runs_word sep w : Forall (fun c => sep c = false) w -> forall b cur s,
  split_runs sep b cur (w ++ s)
  = match w with [] => split_runs sep b cur s | _ => split_runs sep false (rev w ++ cur) s end.
Proof.
  induction w as [|c w IH]; intros H b cur s; [reflexivity|].
  inversion H as [|? ? Hc Hw]; subst. cbn [app split_runs]. rewrite Hc, IH by easy.
  destruct w; [reflexivity|]. cbn [rev]. now rewrite <- !app_assoc.
Qed.
Lemma split_runs_seps sep w : Forall (fun c => sep c = true) w -> forall s,
  split_runs sep true [] (w ++ s) = split_runs sep true [] s.
Proof.
  induction w as [|c w IH]; intros H s; [reflexivity|].
  inversion H as [|? ? Hc Hw]; subst. cbn [app split_runs]. now rewrite Hc, IH.
Qed.

(* a word followed by a separator *)
Lemma split_runs_first sep w g s : Forall (fun c => sep c = false) w ->
  g <> [] -> Forall (fun c => sep c = true) g ->
  split_runs sep false [] (w ++ g ++ s) = w :: split_runs sep true [] s.
Proof.
  intros Hw G Hg. destruct g as [|c g]; [easy|]. inversion Hg as [|? ? Hc Hg']; subst.
  rewrite split_runs_word by easy.
  destruct w as [|x w].
  - cbn [app split_runs]. rewrite Hc. now rewrite split_runs_seps.
  - cbn [app split_runs]. rewrite Hc, app_nil_r, split_runs_seps by easy. now rewrite rev_involutive.
Qed.
(* the same after a separator, for words that are not empty *)
Lemma split_runs_next sep w g s : w <> [] -> Forall (fun c => sep c = false) w ->
  g <> [] -> Forall (fun c => sep c = true) g ->
  split_runs sep true [] (w ++ g ++ s) = w :: split_runs sep true [] s.
Proof.
  intros W Hw G Hg. destruct g as [|c g]; [easy|]. inversion Hg as [|? ? Hc Hg']; subst.
  rewrite split_runs_word by easy. destruct w as [|x w]; [easy|].
  cbn [app split_runs]. rewrite Hc, app_nil_r, split_runs_seps by easy. now rewrite rev_involutive.
Qed.
Lemma split_runs_last sep b w : w <> [] -> Forall (fun c => sep c = false) w ->
  split_runs sep b [] w = [w].
Proof.
  intros W Hw. rewrite <- (app_nil_r w) at 1. rewrite split_runs_word by easy.
  destruct w; [easy|]. cbn [split_runs]. now rewrite app_nil_r, rev_involutive.
Qed.

(* "rows cols\n" *)
Lemma py_split_two a b : a <> [] -> b <> [] -> Forall (fun c => is_space c = false) a ->
  Forall (fun c => is_space c = false) b -> py_split (a ++ [32] ++ b ++ [10]) = [a; b].
Proof.
  intros A B Ha Hb. unfold py_split.
  rewrite split_runs_first; [|easy|easy|now repeat constructor].
  rewrite <- (app_nil_r [10]), split_runs_next; [|easy..|now repeat constructor].
  cbn [split_runs rev filter]. destruct a; [easy|]. destruct b; [easy|]. reflexivity.
Qed.

(* strip *)

Lemma lstrip_id w : match w with [] => True | c :: _ => is_space c = false end -> lstrip w = w.
Proof. destruct w as [|c w]; simpl; [easy|]. now intros ->. Qed.
Lemma rstrip_id w : match rev w with [] => True | c :: _ => is_space c = false end -> rstrip w = w.
Proof. intros H. unfold rstrip. rewrite lstrip_id by easy. apply rev_involutive. Qed.
Lemma strip_id w : no_edge_space w -> strip w = w.
Proof. intros [H1 H2]. unfold strip. rewrite lstrip_id, rstrip_id; easy. Qed.
Lemma lstrip_spaces g w : Forall (fun c => is_space c = true) g -> lstrip (g ++ w) = lstrip w.
Proof.
  induction g as [|c g IH]; intros H; [reflexivity|]. inversion H as [|? ? Hc Hg]; subst. simpl.
  rewrite Hc. auto.
Qed.
Lemma strip_spaces g w : Forall (fun c => is_space c = true) g -> no_edge_space w -> strip (g ++ w) = w.
Proof. intros G H. unfold strip. rewrite lstrip_spaces by easy. now apply strip_id. Qed.
Lemma rstrip_spaces w g : Forall (fun c => is_space c = true) g -> rstrip (w ++ g) = rstrip w.
Proof.
  intros H. unfold rstrip. rewrite rev_app_distr, lstrip_spaces; [easy|].
  apply Forall_rev in H. easy.
Qed.
(* what strip returns has no whitespace at its ends *)
Lemma lstrip_edge w : match lstrip w with [] => True | c :: _ => is_space c = false end.
Proof. induction w as [|c w IH]; simpl; [easy|]. destruct (is_space c) eqn:E; easy. Qed.
Lemma lstrip_suffix w : exists g, w = g ++ lstrip w /\ Forall (fun c => is_space c = true) g.
Proof.
  induction w as [|c w (g & E & H)]; simpl; [now exists []|].
  destruct (is_space c) eqn:S; [|now exists []].
  exists (c :: g). split; [now rewrite <- app_comm_cons, <- E|now constructor].
Qed.
Lemma rstrip_prefix w : exists g, w = rstrip w ++ g /\ Forall (fun c => is_space c = true) g.
Proof.
  destruct (lstrip_suffix (rev w)) as (g & E & H). exists (rev g). split; [|now apply Forall_rev].
  unfold rstrip. rewrite <- rev_app_distr, <- E. now rewrite rev_involutive.
Qed.
Lemma strip_edge w : no_edge_space (strip w).
Proof.
  unfold strip. pose proof (lstrip_edge w) as L. set (u := lstrip w) in *. clearbody u.
  destruct (rstrip_prefix u) as (g & E & _). split.
  - destruct (rstrip u) as [|c r]; [easy|]. rewrite E in L. exact L.
  - unfold rstrip. rewrite rev_involutive. apply lstrip_edge.
Qed.

(* ---------------------------------------------------------------- *)
(* Bytes                                                             *)

Lemma until_app delim w rest : ~ In delim w -> until delim (w ++ delim :: rest) = Some w.
Proof.
  induction w as [|b w IH]; intros H; cbn [app until].
  - now rewrite (proj2 (byte_eqb_eq delim delim) eq_refl).
  - destruct (Byte.eqb b delim) eqn:E; [apply byte_eqb_eq in E; subst; exfalso; apply H; now left|].
    rewrite IH; [easy|]. intros I. apply H. now right.
Qed.
Lemma until_some delim bs w : until delim bs = Some w ->
  exists rest, bs = w ++ delim :: rest /\ ~ In delim w.
Proof.
  revert w; induction bs as [|b bs IH]; intros w H; [discriminate|]. cbn [until] in H.
  destruct (Byte.eqb b delim) eqn:E.
  - inversion H; subst. apply byte_eqb_eq in E. subst. now exists bs.
  - destruct (until delim bs) as [u|]; [|discriminate]. inversion H; subst.
    destruct (IH u eq_refl) as (rest & -> & N). exists rest. split; [reflexivity|].
    intros [X|X]; [|auto]. subst. now rewrite (proj2 (byte_eqb_eq delim delim) eq_refl) in E.
Qed.
Lemma until_none delim bs : until delim bs = None <-> ~ In delim bs.
Proof.
  split.
  - induction bs as [|b bs IH]; cbn [until]; [easy|].
    destruct (Byte.eqb b delim) eqn:E; [easy|].
    destruct (until delim bs) as [u|]; [easy|]. intros _ [Y|Y]; [|now apply IH].
    subst. now rewrite (proj2 (byte_eqb_eq delim delim) eq_refl) in E.
  - intros N. destruct (until delim bs) as [u|] eqn:E; [|easy].
    apply until_some in E as (rest & -> & _). exfalso. apply N. apply in_app_iff. right. now left.
Qed.

(* ASCII bytes of encoded strings *)
Lemma form_ascii c b x : utf8_form c b -> In x b -> Byte.to_N x < 128 -> c = Byte.to_N x.
Proof.
  intros F. unfold tail in *. inversion F; subst; simpl; unfold tail in *; intros I L;
    repeat match goal with H : _ \/ _ |- _ => destruct H | H : False |- _ => easy | H : _ /\ _ |- _ => destruct H end;
    subst; try lia.
Qed.
Lemma encode_ascii s b x : utf8_encode s = Ok b -> In x b -> Byte.to_N x < 128 -> In (Byte.to_N x) s.
Proof.
  intros H. apply encode_iff in H. induction H as [|c s b bs F _ IH]; intros I L; [easy|].
  apply in_app_iff in I as [I|I]; [left; now apply (form_ascii c b x)|right; auto].
Qed.
Lemma encode_one c : c < 128 -> utf8_encode [c] = Ok [byte_of_N c].
Proof.
  intros L. apply encode_iff. change [byte_of_N c] with ([byte_of_N c] ++ []). constructor; [|constructor].
  apply Form1; [lia|]. rewrite to_N_byte_of_N. lia.
Qed.
Lemma encode_ascii_str s : Forall (fun c => c < 128) s -> utf8_encode s = Ok (map byte_of_N s).
Proof.
  induction 1 as [|c s L _ IH]; [reflexivity|]. change (c :: s) with ([c] ++ s).
  pose proof (encode_one c L) as E.
  apply encode_iff. apply encode_iff in IH. cbn [map app].
  change (byte_of_N c :: map byte_of_N s) with ([byte_of_N c] ++ map byte_of_N s). constructor; [|easy].
  apply Form1; [lia|]. rewrite to_N_byte_of_N. lia.
Qed.
Lemma ascii_decode_map s : Forall (fun c => c < 128) s -> ascii_decode (map byte_of_N s) = Ok s.
Proof.
  intros H. unfold ascii_decode.
  assert (E : map Byte.to_N (map byte_of_N s) = s).
  { rewrite map_map. rewrite <- (map_id s) at 2. apply map_ext_in. intros c I.
    rewrite Forall_forall in H. specialize (H c I). rewrite to_N_byte_of_N. lia. }
  rewrite E.
  replace (forallb _ _) with true; [easy|]. symmetry. apply forallb_forall. intros b I.
  apply in_map_iff in I as (c & <- & I). rewrite Forall_forall in H. specialize (H c I).
  apply N.ltb_lt. rewrite to_N_byte_of_N. lia.
Qed.

Lemma first_line_app w rest : ~ In x0a w -> first_line (w ++ x0a :: rest) = w ++ [x0a].
Proof.
  induction w as [|b w IH]; intros H; [reflexivity|]. cbn [app first_line].
  destruct (Byte.eqb b x0a) eqn:E; [apply byte_eqb_eq in E; subst; exfalso; apply H; now left|].
  rewrite IH; [easy|]. intros I. apply H. now right.
Qed.

(* ---------------------------------------------------------------- *)
(* Lines                                                             *)

Lemma newlines_id s : ~ In 13 s -> newlines s = s.
Proof.
  induction s as [|c s IH]; intros H; [reflexivity|]. cbn [newlines].
  destruct (N.eqb_spec c 13); [subst; exfalso; apply H; now left|].
  rewrite IH; [easy|]. intros I. apply H. now right.
Qed.
Lemma split_lines_line l : ~ In 10 l -> forall cur s,
  split_lines cur (l ++ 10 :: s) = (rev cur ++ l ++ [10]) :: split_lines [] s.
Proof.
  induction l as [|c l IH]; intros H cur s; cbn [app split_lines].
  - reflexivity.
  - destruct (N.eqb_spec c 10); [subst; exfalso; apply H; now left|].
    rewrite IH by (intros I; apply H; now right). cbn [rev]. now rewrite <- !app_assoc.
Qed.
Lemma split_lines_concat ls : Forall (fun l => ~ In 10 l) ls ->
  split_lines [] (concat (map (fun l => l ++ [10]) ls)) = map (fun l => l ++ [10]) ls.
Proof.
  induction 1 as [|l ls H _ IH]; [reflexivity|]. cbn [map concat].
  rewrite <- app_assoc. cbn [app]. rewrite split_lines_line by easy. cbn [rev app]. now rewrite IH.
Qed.
