(* What the text loaders accept, and what they return. *)
From Coq Require Import Lia.
From Verif Require Import Py PyProofs Utf8 Utf8Proofs Utf8More SpecUtf8 IO IOProofs Arr
  Subword Vocab VocabProofs Storage Chunks Embeddings Spec SpecVocab SpecLookup VocabFacts
  ArrProofs StorageGet LookupProofs PyText SpecCompat PyTextProofs Compat CompatProofs TextProofs SpecText.
Local Open Scope N_scope.
Local Open Scope list_scope.

(* ---------------------------------------------------------------- *)
(* lines                                                             *)

Lemma lines_exist_from n : forall s, (length s <= n)%nat -> forall l, ~ In 10 l -> ~ In 13 l ->
  exists ls, text_has_lines (l ++ s) ls.
Proof.
  induction n as [|n IH]; intros s L l H1 H2.
  - destruct s; [|simpl in L; lia]. rewrite app_nil_r.
    destruct l as [|c l]; [exists []; constructor|]. eexists. now apply last_line.
  - destruct s as [|c s].
    { rewrite app_nil_r. destruct l as [|c l]; [exists []; constructor|]. eexists. now apply last_line. }
    simpl in L. destruct (N.eq_dec c 10) as [->|N10].
    { destruct (IH s ltac:(lia) [] ltac:(easy) ltac:(easy)) as [ls H]. exists (l :: ls). now apply (line_lf l s). }
    destruct (N.eq_dec c 13) as [->|N13].
    + destruct s as [|c s].
      { exists [l]. apply (line_cr l []); try easy. constructor. }
      destruct (N.eq_dec c 10) as [->|N10'].
      * simpl in L. destruct (IH s ltac:(lia) [] ltac:(easy) ltac:(easy)) as [ls H]. exists (l :: ls). now apply (line_crlf l s).
      * destruct (IH (c :: s) ltac:(lia) [] ltac:(easy) ltac:(easy)) as [ls H].
        exists (l :: ls). apply (line_cr l (c :: s)); try easy. congruence.
    + destruct (IH s ltac:(lia) (l ++ [c])) as [ls H].
      1,2: rewrite in_app_iff; simpl; intros [?|[?|[]]]; easy.
      exists ls. now rewrite <- app_assoc in H.
Qed.
Lemma lines_exist s : exists ls, text_has_lines s ls.
Proof. exact (lines_exist_from (length s) s (le_n _) [] (fun H => H) (fun H => H)). Qed.

Definition same_line (a b : str) : Prop := b = a \/ b = a ++ [10].
Lemma newlines_app l s : ~ In 13 l -> newlines (l ++ s) = l ++ newlines s.
Proof.
  induction l as [|c l IH]; intros H; [easy|]. cbn [app newlines].
  destruct (N.eqb_spec c 13) as [->|N]; [exfalso; apply H; now left|].
  rewrite IH; [easy|]. intros I. apply H. now right.
Qed.
Lemma split_line l s : ~ In 10 l -> split_lines [] (l ++ 10 :: s) = (l ++ [10]) :: split_lines [] s.
Proof.
  intros H.
  enough (G : forall cur, split_lines cur (l ++ 10 :: s) = (rev cur ++ l ++ [10]) :: split_lines [] s) by apply G.
  induction l as [|c l IH]; intros cur; cbn [app split_lines].
  - now rewrite N.eqb_refl.
  - destruct (N.eqb_spec c 10) as [->|N]; [exfalso; apply H; now left|].
    rewrite IH by (intros I; apply H; now right). simpl. now rewrite <- app_assoc.
Qed.
Lemma split_rest l : ~ In 10 l -> l <> [] -> split_lines [] l = [l].
Proof.
  intros H N.
  assert (G : forall cur, cur <> [] \/ l <> [] -> split_lines cur l = [rev cur ++ l]).
  { clear N. induction l as [|c l IH]; intros cur NE; cbn [app split_lines].
    - rewrite app_nil_r. destruct cur; [now destruct NE|easy].
    - destruct (N.eqb_spec c 10) as [->|N]; [exfalso; apply H; now left|].
      rewrite IH by ((intros I; apply H; now right) || now left). simpl. now rewrite <- app_assoc. }
  apply (G []). now right.
Qed.
Lemma lines_split s ls : text_has_lines s ls -> Forall2 same_line ls (split_lines [] (newlines s)).
Proof.
  induction 1 as [|l H1 H2 H3|l s ls H1 H2 H IH|l s ls H1 H2 H IH|l s ls H1 H2 HN H IH].
  - constructor.
  - rewrite newlines_id, split_rest by easy. constructor; [now left|constructor].
  - rewrite newlines_app by easy. cbn [app newlines N.eqb]. change (10 =? 13) with false; cbv iota beta.
    rewrite split_line by easy. constructor; [now right|exact IH].
  - rewrite newlines_app by easy. cbn [app newlines]. rewrite !N.eqb_refl.
    rewrite split_line by easy. constructor; [now right|exact IH].
  - rewrite newlines_app by easy. cbn [app newlines]. rewrite N.eqb_refl.
    assert (E : match s with c' :: s'' => if c' =? 10 then newlines s'' else newlines s | [] => [] end = newlines s).
    { destruct s as [|c s]; [easy|]. destruct (N.eqb_spec c 10) as [->|]; [|easy]. now destruct (HN s). }
    rewrite E, split_line by easy. constructor; [now right|exact IH].
Qed.
Lemma file_lines lossy d s ls : file_text lossy d s -> text_has_lines s ls ->
  exists ls', text_lines lossy d = Ok ls' /\ Forall2 same_line ls ls'.
Proof.
  intros T L. exists (split_lines [] (newlines s)). split; [|now apply lines_split].
  unfold text_lines, decode_word, file_text in *. destruct lossy; [now subst|]. now rewrite T.
Qed.
Lemma lines_file lossy d ls' : text_lines lossy d = Ok ls' ->
  exists s ls, file_text lossy d s /\ text_has_lines s ls /\ Forall2 same_line ls ls'.
Proof.
  intros H. unfold text_lines in H. apply bind_ok in H as (s & D & E). apply Ok_inj in E. subst ls'.
  destruct (lines_exist s) as [ls L]. exists s, ls. split; [|split; [easy|now apply lines_split]].
  unfold decode_word, file_text in *. destruct lossy; [now injection D as <-|easy].
Qed.

(* ---------------------------------------------------------------- *)
(* words and components                                              *)

Lemma span_of (p : N -> bool) s : exists a b, s = a ++ b /\ Forall (fun c => p c = true) a
  /\ (b = [] \/ exists c b', b = c :: b' /\ p c = false).
Proof.
  induction s as [|c s (a & b & E & A & B)]; [exists [], []; auto|].
  destruct (p c) eqn:P.
  - exists (c :: a), b. subst s. split; [easy|]. split; [now constructor|easy].
  - exists [], (c :: s). split; [easy|]. split; [constructor|]. right. now exists c, s.
Qed.
Lemma rev_head_app {A} (a b : list A) (P : A -> Prop) : b <> [] ->
  match rev (a ++ b) with [] => True | c :: _ => P c end -> match rev b with [] => True | c :: _ => P c end.
Proof.
  intros N. rewrite rev_app_distr. destruct (rev b) as [|c r] eqn:E; [|easy].
  exfalso. apply N. rewrite <- (rev_involutive b), E. easy.
Qed.
Lemma parts_exist n : forall s, (length s <= n)%nat ->
  match rev s with [] => True | c :: _ => is_space c = false end ->
  exists w gaps comps, length gaps = length comps /\ s = w ++ concat (map2 (@app N) gaps comps)
    /\ no_ascii_space w /\ Forall gap gaps /\ Forall (fun x => x <> [] /\ no_ascii_space x) comps
    /\ match rev (last comps w) with [] => True | c :: _ => is_space c = false end.
Proof.
  induction n as [|n IH]; intros s L E.
  { destruct s; [|simpl in L; lia]. exists [], [], []. repeat split; try constructor. }
  destruct (span_of (fun c => negb (is_ascii_space c)) s) as (w & r & Es & W & R).
  assert (W' : no_ascii_space w). { eapply Forall_impl; [|exact W]. intros c. apply negb_true_iff. }
  destruct R as [->|(c & r' & -> & C)].
  { rewrite app_nil_r in Es. subst w. exists s, [], []. cbn. rewrite app_nil_r. repeat split; try easy; constructor. }
  apply negb_false_iff in C.
  destruct (span_of is_ascii_space r') as (g & r & Er & G & R). subst r'.
  destruct r as [|c2 r'].
  { exfalso. subst s. rewrite app_nil_r in E. apply (rev_head_app w (c :: g) (fun c => is_space c = false)) in E; [|easy].
    assert (X : Forall (fun c => is_space c = true) (rev (c :: g))).
    { apply Forall_rev. constructor; [now apply ascii_is_space|]. eapply Forall_impl; [|exact G]. apply ascii_is_space. }
    destruct (rev (c :: g)) as [|x y] eqn:Q.
    - apply (f_equal (@length N)) in Q. rewrite rev_length in Q. easy.
    - inversion X. congruence. }
  destruct R as [|(c2' & r2 & [= <- <-] & C2)]; [easy|].
  destruct (IH (c2 :: r')) as (w' & gaps & comps & L1 & E1 & W1 & G1 & C1 & E2).
  { subst s. rewrite !app_length in L. cbn [length] in L. rewrite app_length in L. cbn [length] in *. lia. }
  { subst s. apply (rev_head_app (w ++ c :: g) (c2 :: r') (fun c => is_space c = false)); [easy|].
    rewrite <- app_assoc. exact E. }
  assert (NW : w' <> []).
  { intros ->. destruct gaps as [|g0 gaps], comps as [|c0 comps]; try easy.
    inversion G1 as [|? ? [N0 F0] _]; subst. destruct g0 as [|x g0]; [easy|]. inversion F0; subst.
    cbn [map2 concat app] in E1. injection E1 as -> _. congruence. }
  exists w, ((c :: g) :: gaps), (w' :: comps). split; [cbn; lia|]. split.
  { subst s. cbn [map2 concat]. rewrite E1. rewrite <- !app_assoc. reflexivity. }
  split; [easy|]. split; [constructor; [|easy]; split; [easy|]; now constructor|].
  split; [now constructor|]. cbn [last]. destruct comps as [|c0 comps]; [exact E2|].
  rewrite (last_default _ w w') by easy. exact E2.
Qed.
Lemma line_exists line : exists w comps, text_line line w comps.
Proof.
  destruct (rstrip_prefix line) as (tail & E & T).
  destruct (parts_exist _ (rstrip line) (le_n _)) as (w & gaps & comps & L1 & E1 & W1 & G1 & C1 & E2).
  { unfold rstrip. rewrite rev_involutive. apply lstrip_edge. }
  exists w, comps, gaps, tail. split; [easy|]. split; [rewrite E at 1; rewrite E1, <- app_assoc; easy|]. easy.
Qed.
Lemma same_line_parts a b w comps : same_line a b -> text_line a w comps -> text_line b w comps.
Proof. intros [->| ->] H; [easy|now apply text_line_nl]. Qed.

(* ---------------------------------------------------------------- *)
(* integers                                                          *)

Definition digs (s : str) : Prop := Forall (fun c => 48 <= c <= 57) s.
Definition value_from (acc : N) (s : str) : N := fold_left (fun a c => a * 10 + (c - 48)) s acc.
Lemma digits_after s : forall acc n,
  int_digits true acc s = Some n <->
  exists d ds, s = d ++ concat (map (fun g => 95 :: g) ds) /\ digs d /\ Forall digits ds
    /\ n = value_from acc (d ++ concat ds).
Proof.
  assert (H : forall m s, (length s <= m)%nat -> forall acc n, int_digits true acc s = Some n <->
    exists d ds, s = d ++ concat (map (fun g => 95 :: g) ds) /\ digs d /\ Forall digits ds
      /\ n = value_from acc (d ++ concat ds)).
  2: { intros acc n. exact (H (length s) s (le_n _) acc n). }
  clear s. induction m as [|m IH]; intros s L acc n.
  - destruct s; [|simpl in L; lia]. cbn. split.
    + intros [= <-]. exists [], []. repeat split; constructor.
    + intros (d & ds & E & _ & FD & ->). symmetry in E. apply app_eq_nil in E as [-> E].
      destruct ds as [|g ds]; [easy|discriminate].
  - destruct s as [|c s]; [apply (IH []); simpl; lia|]. simpl in L. cbn [int_digits].
    destruct (_ && _) eqn:D.
    + apply andb_true_iff in D as [D1 D2]. apply N.leb_le in D1, D2. rewrite IH by lia. split.
      * intros (d & ds & -> & HD & FD & ->). exists (c :: d), ds. split; [easy|]. split; [now constructor|easy].
      * intros (d & ds & E & HD & FD & ->). destruct d as [|c' d].
        { destruct ds as [|g ds]; [discriminate|]. injection E as -> _. lia. }
        injection E as <- ->. inversion HD; subst. exists d, ds. easy.
    + assert (ND : ~ 48 <= c <= 57).
      { intros [H1 H2]. apply N.leb_le in H1, H2. rewrite H1, H2 in D. discriminate. }
      rewrite andb_true_r. destruct (N.eqb_spec c 95) as [->|N95].
      * destruct s as [|c2 s].
        { cbn. split; [easy|]. intros (d & ds & E & HD & FD & _). exfalso.
          destruct d as [|c' d]; [|injection E as <- _; inversion HD; easy].
          destruct ds as [|g ds]; [discriminate|]. inversion FD as [|? ? [NG _] _]; subst.
          injection E as E. symmetry in E. apply app_eq_nil in E as [-> _]. easy. }
        cbn [int_digits]. simpl in L. destruct ((48 <=? c2) && (c2 <=? 57)) eqn:D2.
        -- apply andb_true_iff in D2 as [D1 D2]. apply N.leb_le in D1, D2. rewrite IH by lia. split.
           ++ intros (d & ds & -> & HD & FD & ->). exists [], ((c2 :: d) :: ds). split; [easy|].
              split; [constructor|]. split; [constructor; [|easy]; split; [easy|now constructor]|easy].
           ++ intros (d & ds & E & HD & FD & ->). destruct d as [|c' d]; [|injection E as <- _; inversion HD; easy].
              destruct ds as [|g ds]; [discriminate|]. inversion FD as [|? ? [NG HG] FD']; subst.
              destruct g as [|c' g]; [easy|]. injection E as <- ->. inversion HG; subst. exists g, ds. easy.
        -- rewrite andb_false_r. split; [easy|]. intros (d & ds & E & HD & FD & ->). exfalso.
           destruct d as [|c' d]; [|injection E as <- _; inversion HD; easy].
           destruct ds as [|g ds]; [discriminate|]. inversion FD as [|? ? [NG HG] FD']; subst.
           destruct g as [|c' g]; [easy|]. injection E as <- _. inversion HG as [|? ? [Q1 Q2] _]; subst.
           apply N.leb_le in Q1, Q2. rewrite Q1, Q2 in D2. discriminate.
      * split; [easy|]. intros (d & ds & E & HD & FD & _). exfalso.
        destruct d as [|c' d]; [|injection E as <- _; inversion HD; easy].
        destruct ds as [|g ds]; [discriminate|]. injection E as -> _. easy.
Qed.
Lemma digits_first s acc n :
  int_digits false acc s = Some n <->
  exists d ds, s = d ++ concat (map (fun g => 95 :: g) ds) /\ digits d /\ Forall digits ds
    /\ n = value_from acc (d ++ concat ds).
Proof.
  destruct s as [|c s]; cbn [int_digits].
  - split; [easy|]. intros (d & ds & E & [N _] & _). symmetry in E. now apply app_eq_nil in E as [-> _].
  - rewrite andb_false_r. destruct (_ && _) eqn:D.
    + apply andb_true_iff in D as [D1 D2]. apply N.leb_le in D1, D2. rewrite digits_after. split.
      * intros (d & ds & -> & HD & FD & ->). exists (c :: d), ds. split; [easy|].
        split; [split; [easy|now constructor]|easy].
      * intros (d & ds & E & [N HD] & FD & ->). destruct d as [|c' d]; [easy|]. injection E as <- ->.
        inversion HD; subst. exists d, ds. easy.
    + split; [easy|]. intros (d & ds & E & [N HD] & _). destruct d as [|c' d]; [easy|]. injection E as <- _.
      inversion HD as [|? ? [Q1 Q2] _]; subst. apply N.leb_le in Q1, Q2. rewrite Q1, Q2 in D. discriminate.
Qed.
Lemma value_from_Z s : Forall (fun c => 48 <= c <= 57) s -> forall acc,
  Z.of_N (value_from acc s) = fold_left (fun a c => a * 10 + (Z.of_N c - 48))%Z s (Z.of_N acc).
Proof.
  induction 1 as [|c s H _ IH]; intros acc; [easy|]. unfold value_from in *. cbn [fold_left]. rewrite IH.
  f_equal. lia.
Qed.
Lemma groups_digs d ds : digits d -> Forall digits ds -> Forall (fun c => 48 <= c <= 57) (d ++ concat ds).
Proof.
  intros [_ H] HS. apply Forall_app. split; [easy|]. apply Forall_concat.
  eapply Forall_impl; [|exact HS]. now intros g [_ G].
Qed.
Lemma py_int_iff s z : py_int s = Ok z <-> int_text s z.
Proof.
  assert (X : forall sg r, (match int_digits false 0 r with Some n => Ok (sg * Z.of_N n)%Z | None => Err ValueError end) = Ok z
     <-> exists d ds, r = d ++ concat (map (fun g => 95 :: g) ds) /\ digits d /\ Forall digits ds
          /\ z = (sg * digits_value (d ++ concat ds))%Z).
  { intros sg r. destruct (int_digits false 0 r) as [n|] eqn:E.
    - apply digits_first in E as (d & ds & -> & HD & FD & ->). split.
      + intros Q. apply Ok_inj in Q. subst z. exists d, ds. repeat (split; [easy|]). f_equal.
        rewrite (value_from_Z _ (groups_digs _ _ HD FD)). reflexivity.
      + intros (d' & ds' & E & HD' & FD' & ->). f_equal. f_equal.
        assert (Y : int_digits false 0 (d ++ concat (map (fun g => 95 :: g) ds)) = Some (value_from 0 (d' ++ concat ds')))
          by (apply digits_first; exists d', ds'; easy).
        assert (Y' : int_digits false 0 (d ++ concat (map (fun g => 95 :: g) ds)) = Some (value_from 0 (d ++ concat ds)))
          by (apply digits_first; exists d, ds; easy).
        rewrite Y in Y'. injection Y' as <-. rewrite (value_from_Z _ (groups_digs _ _ HD' FD')). reflexivity.
    - split; [easy|]. intros (d & ds & E' & HD & FD & _).
      assert (Y : int_digits false 0 r = Some (value_from 0 (d ++ concat ds))) by (apply digits_first; exists d, ds; easy).
      congruence. }
  assert (NS : forall c s', ~ 48 <= c <= 57 -> forall d ds,
             c :: s' = d ++ concat (map (fun g => 95 :: g) ds) -> digits d -> False).
  { intros c s' NC d ds E [N HD]. destruct d as [|c' d]; [easy|]. injection E as <- _. inversion HD; easy. }
  unfold py_int, int_text. destruct s as [|c s].
  - rewrite X. split.
    + intros (d & ds & E & H1 & H2 & ->). exists [], d, ds. repeat (split; [easy|]). left. split; [now left|lia].
    + intros (sg & d & ds & E & H1 & H2 & H3). symmetry in E. apply app_eq_nil in E as [-> E].
      exists d, ds. repeat (split; [easy|]). destruct H3 as [[_ ->]|[? _]]; [lia|easy].
  - destruct (N.eqb_spec c 45) as [->|N45]; [|destruct (N.eqb_spec c 43) as [->|N43]].
    + rewrite X. split.
      * intros (d & ds & -> & H1 & H2 & ->). exists [45], d, ds. repeat (split; [easy|]). right. split; [easy|lia].
      * intros (sg & d & ds & E & H1 & H2 & H3). destruct H3 as [[[->| ->] _]|[-> ->]].
        -- exfalso. now apply (NS 45 s ltac:(lia) d ds).
        -- easy.
        -- injection E as ->. exists d, ds. repeat (split; [easy|]). lia.
    + rewrite X. split.
      * intros (d & ds & -> & H1 & H2 & ->). exists [43], d, ds. repeat (split; [easy|]). left. split; [now right|lia].
      * intros (sg & d & ds & E & H1 & H2 & H3). destruct H3 as [[[->| ->] ->]|[-> ->]].
        -- exfalso. now apply (NS 43 s ltac:(lia) d ds).
        -- injection E as ->. exists d, ds. repeat (split; [easy|]). lia.
        -- easy.
    + rewrite X. split.
      * intros (d & ds & E & H1 & H2 & ->). exists [], d, ds. repeat (split; [easy|]). left. split; [now left|lia].
      * intros (sg & d & ds & E & H1 & H2 & H3). destruct H3 as [[[->| ->] ->]|[-> ->]].
        -- exists d, ds. repeat (split; [easy|]). lia.
        -- injection E as ? _. easy.
        -- injection E as ? _. easy.
Qed.

(* ---------------------------------------------------------------- *)
(* the first line                                                    *)

Notation spaces g := (Forall (fun c => is_space c = true) g).
Notation no_spaces a := (Forall (fun c => is_space c = false) a).
Notation keep := (filter (fun w : str => match w with [] => false | _ => true end)).
Lemma keep_sep s : keep (split_runs is_space true [] s) = py_split s.
Proof.
  unfold py_split. destruct s as [|c s]; [easy|]. cbn [split_runs]. now destruct (is_space c).
Qed.
Lemma py_split_spaces g s : spaces g -> py_split (g ++ s) = py_split s.
Proof.
  intros G. rewrite <- !keep_sep. now rewrite split_runs_seps.
Qed.
Lemma py_split_nil : py_split [] = [].
Proof. reflexivity. Qed.
Lemma py_split_only g : spaces g -> py_split g = [].
Proof. intros G. rewrite <- (app_nil_r g), py_split_spaces by easy. easy. Qed.
Lemma py_split_last a : a <> [] -> no_spaces a -> py_split a = [a].
Proof.
  intros N H. unfold py_split. rewrite split_runs_last by easy. now destruct a.
Qed.
Lemma py_split_word a g s : a <> [] -> no_spaces a -> g <> [] -> spaces g -> py_split (a ++ g ++ s) = a :: py_split s.
Proof.
  intros N H NG G. unfold py_split at 1. rewrite split_runs_first by easy. cbn [filter]. rewrite keep_sep. now destruct a.
Qed.
Lemma py_split_gap s : exists g r, s = g ++ r /\ spaces g /\ (r = [] \/ exists c r', r = c :: r' /\ is_space c = false).
Proof. exact (span_of is_space s). Qed.
Lemma py_split_run c s : is_space c = false -> exists a r, c :: s = a ++ r /\ a <> [] /\ no_spaces a
  /\ (r = [] \/ exists c' r', r = c' :: r' /\ is_space c' = true).
Proof.
  intros C. destruct (span_of (fun c => negb (is_space c)) (c :: s)) as (a & r & E & A & R).
  exists a, r. split; [easy|]. split.
  { intros ->. cbn in E. subst r. destruct R as [|(c' & r' & [= <- <-] & R)]; [easy|]. rewrite C in R. easy. }
  split; [eapply Forall_impl; [|exact A]; intros ?; apply negb_true_iff|].
  destruct R as [|(c' & r' & -> & R)]; [now left|]. right. exists c', r'. split; [easy|]. now apply negb_false_iff in R.
Qed.
(* the first word of a string *)
Lemma py_split_cons s a l : py_split s = a :: l ->
  exists g r, s = g ++ a ++ r /\ spaces g /\ a <> [] /\ no_spaces a
    /\ (r = [] /\ l = [] \/ exists c r', r = c :: r' /\ is_space c = true /\ py_split r' = l).
Proof.
  intros H. destruct (py_split_gap s) as (g & r & -> & G & R). rewrite py_split_spaces in H by easy.
  destruct R as [->|(c & r' & -> & C)]; [discriminate|].
  destruct (py_split_run c r' C) as (a' & r & E & N & A & R). rewrite E in *.
  destruct R as [->|(c' & r2 & -> & C')].
  - rewrite app_nil_r in *. rewrite py_split_last in H by easy. injection H as -> <-. exists g, [].
    rewrite app_nil_r. repeat (split; [easy|]). now left.
  - change (c' :: r2) with ([c'] ++ r2) in H. rewrite py_split_word in H by (easy || (now repeat constructor)).
    injection H as -> <-. exists g, (c' :: r2). repeat (split; [easy|]). right. now exists c', r2.
Qed.
Lemma py_split_none s : py_split s = [] -> spaces s.
Proof.
  intros H. destruct (py_split_gap s) as (g & r & -> & G & R). rewrite py_split_spaces in H by easy.
  destruct R as [->|(c & r' & -> & C)]; [now rewrite app_nil_r|].
  destruct (py_split_run c r' C) as (a' & r & E & N & A & R). rewrite E in *.
  destruct R as [->|(c' & r2 & -> & C')].
  - rewrite app_nil_r in H. rewrite py_split_last in H by easy. discriminate.
  - change (c' :: r2) with ([c'] ++ r2) in H. rewrite py_split_word in H by (easy || (now repeat constructor)). discriminate.
Qed.
Lemma py_split_two_iff s a b : py_split s = [a; b] <->
  exists g1 g2 g3, s = g1 ++ a ++ g2 ++ b ++ g3 /\ spaces (g1 ++ g2 ++ g3) /\ g2 <> []
    /\ no_spaces (a ++ b) /\ a <> [] /\ b <> [].
Proof.
  split.
  - intros H. apply py_split_cons in H as (g1 & r & -> & G1 & NA & A & [[_ ?]|(c & r' & -> & C & H)]); [easy|].
    apply py_split_cons in H as (g2 & r & -> & G2 & NB & B & H).
    exists g1, (c :: g2), r. split; [easy|].
    assert (G3 : spaces r).
    { destruct H as [[-> _]|(c' & r' & -> & C' & H)]; [constructor|]. constructor; [easy|]. now apply py_split_none. }
    split; [apply Forall_app; split; [easy|]; apply Forall_app; split; [now constructor|easy]|].
    split; [easy|]. split; [now apply Forall_app|easy].
  - intros (g1 & g2 & g3 & -> & G & N2 & AB & NA & NB).
    apply Forall_app in G as [G1 G]. apply Forall_app in G as [G2 G3]. apply Forall_app in AB as [A B].
    rewrite py_split_spaces by easy. rewrite py_split_word by easy. f_equal.
    destruct g3 as [|c g3]; [rewrite app_nil_r; now apply py_split_last|].
    rewrite <- (app_nil_r (c :: g3)), py_split_word by easy. reflexivity.
Qed.
Lemma int_text_nonempty s z : int_text s z -> s <> [].
Proof.
  intros (sg & d & ds & -> & [N _] & _) E. apply app_eq_nil in E as [_ E]. now apply app_eq_nil in E as [-> _].
Qed.
Lemma header_split line rows cols :
  (exists r k, py_split line = [r; k] /\ py_int r = Ok rows /\ py_int k = Ok cols) <-> header_line line rows cols.
Proof.
  split.
  - intros (r & k & H & HR & HK). apply py_split_two_iff in H as (g1 & g2 & g3 & H1 & H2 & H3 & H4 & _).
    apply py_int_iff in HR, HK. exists g1, r, g2, k, g3. easy.
  - intros (g1 & a & g2 & b & g3 & H1 & H2 & H3 & H4 & H5 & H6). exists a, b. rewrite !py_int_iff. split; [|easy].
    apply py_split_two_iff. exists g1, g2, g3. repeat (split; [easy|]). split; now apply int_text_nonempty in H5, H6.
Qed.
Lemma same_line_split a b : same_line a b -> py_split b = py_split a.
Proof.
  intros [->| ->]; [easy|].
  enough (G : forall n s, (length s <= n)%nat -> py_split (s ++ [10]) = py_split s) by exact (G _ a (le_n _)).
  induction n as [|n IH]; intros s L.
  { destruct s; [easy|simpl in L; lia]. }
  destruct (py_split_gap s) as (g & r & -> & G & R). rewrite <- app_assoc, (py_split_spaces g r) by easy. rewrite (py_split_spaces g (r ++ [10])) by easy.
  destruct R as [->|(c & r' & -> & C)]; [easy|].
  destruct (py_split_run c r' C) as (a' & r & E & N & A & R). rewrite E in *.
  destruct R as [->|(c' & r2 & -> & C')].
  - rewrite app_nil_r in *. rewrite (py_split_last a') by easy.
    rewrite <- (app_nil_r [10]), py_split_word by (easy || (now repeat constructor)). reflexivity.
  - rewrite <- app_assoc. change (c' :: r2) with ([c'] ++ r2). rewrite <- app_assoc.
    rewrite !py_split_word by (easy || (now repeat constructor)). f_equal. apply IH.
    rewrite !app_length in L. cbn [length] in L. destruct a'; [easy|]. cbn [length] in L. lia.
Qed.

(* ---------------------------------------------------------------- *)
(* the loaders                                                       *)

Section Loaders.
  Context {F : Type} (o : fops F) (parse : str -> result F).

  Lemma mapM_forall2 {A B} (f : A -> result B) l r : mapM f l = Ok r <-> Forall2 (fun a b => f a = Ok b) l r.
  Proof.
    revert r. induction l as [|a l IH]; intros r; cbn [mapM].
    - split; [intros [= <-]; constructor|intros H; now inversion H].
    - split.
      + intros H. apply bind_ok in H as (b & HB & H). apply bind_ok in H as (bs & HBS & H). apply Ok_inj in H.
        subst r. constructor; [easy|]. now apply IH.
      + intros H. inversion H as [|? b ? bs HB HBS]; subst. rewrite HB. cbn [bind].
        apply IH in HBS. now rewrite HBS.
  Qed.
  Lemma assign_from cols comps xs row : Forall2 (fun s x => parse s = Ok x) comps xs ->
    np_assign cols xs = Ok row -> row_from parse cols comps row.
  Proof.
    intros H A. exists xs. split; [exact H|]. unfold np_assign in A.
    destruct (N.eqb_spec (lenN xs) cols); [left; now injection A as <-|].
    right. destruct xs as [|x [|]]; try discriminate. exists x. now injection A as <-.
  Qed.
  Lemma row_assign cols comps row : row_from parse cols comps row ->
    (xs <- mapM parse comps ;; np_assign cols xs) = Ok row.
  Proof.
    intros (xs & H & R). apply mapM_forall2 in H. rewrite H. cbn [bind]. unfold np_assign.
    destruct R as [[L ->]|(x & -> & ->)]; [now rewrite L, N.eqb_refl|].
    destruct (N.eqb_spec (lenN [x]) cols) as [<-|]; reflexivity.
  Qed.
  Lemma row_from_len cols comps row : row_from parse cols comps row -> lenN row = cols.
  Proof.
    intros (xs & _ & [[L ->]|(x & -> & ->)]); [easy|]. unfold lenN. rewrite repeat_length. lia.
  Qed.
  Lemma text_row_iff cols line line' w row : same_line line line' ->
    text_row parse cols line' = Ok (w, row) <-> exists comps, text_line line w comps /\ row_from parse cols comps row.
  Proof.
    intros SL. destruct (line_exists line) as (w' & comps' & T).
    rewrite (text_row_line parse cols line' w' comps' (same_line_parts _ _ _ _ SL T)). split.
    - intros H. apply bind_ok in H as (xs & HX & H). apply bind_ok in H as (r & HR & H). injection H as -> ->.
      exists comps'. split; [easy|]. apply (assign_from cols comps' xs); [|easy]. now apply mapM_forall2.
    - intros (comps & T2 & R).
      pose proof (line_parts _ _ _ T) as P1. rewrite (line_parts _ _ _ T2) in P1. injection P1 as -> ->.
      apply row_assign in R. apply bind_ok in R as (xs & HX & R). rewrite HX. cbn [bind]. now rewrite R.
  Qed.
  Lemma text_items_iff cols : forall lines lines', Forall2 same_line lines lines' -> forall items,
    mapM (text_row parse cols) lines' = Ok items <-> text_rows parse cols lines (map fst items) (map snd items).
  Proof.
    induction 1 as [|l l' ls ls' SL FL IH]; intros items; cbn [mapM].
    - split; [intros [= <-]; constructor|]. intros H. inversion H as [E|]. destruct items; easy.
    - split.
      + intros H. apply bind_ok in H as ([w row] & HR & H). apply bind_ok in H as (it & HI & H). apply Ok_inj in H.
        subst items. apply (text_row_iff _ _ _ _ _ SL) in HR as (comps & T & R). apply IH in HI.
        cbn [map fst snd]. now apply (more_rows parse cols l w comps).
      + intros H. destruct items as [|[w row] items]; [inversion H|]. cbn [map fst snd] in H.
        inversion H as [|? ? comps ? ? ? ? T R H']; subst.
        apply IH in H'. rewrite H'.
        rewrite (proj2 (text_row_iff cols l l' w row SL) (ex_intro _ comps (conj T R))). reflexivity.
  Qed.
  Lemma text_rows_len cols lines ws rows : text_rows parse cols lines ws rows ->
    length ws = length lines /\ length rows = length lines.
  Proof. induction 1; simpl; lia. Qed.
  Lemma combine_fst {A B} (a : list A) (b : list B) : length a = length b -> map fst (combine a b) = a.
  Proof. revert b. induction a as [|x a IH]; intros [|y b] L; try easy. simpl. now rewrite IH by (simpl in L; lia). Qed.
  Lemma combine_snd {A B} (a : list A) (b : list B) : length a = length b -> map snd (combine a b) = b.
  Proof. revert b. induction a as [|x a IH]; intros [|y b] L; try easy. simpl. now rewrite IH by (simpl in L; lia). Qed.

  Lemma zeros_iff rows cols r c : np_zeros_shape rows cols = Ok (r, c) <->
    rows = Z.of_N r /\ cols = Z.of_N c /\ array_fits r c.
  Proof.
    unfold np_zeros_shape, array_fits. destruct (_ || _) eqn:E.
    - split; [easy|]. intros (-> & -> & _). apply orb_true_iff in E as [E|E]; apply Z.ltb_lt in E; lia.
    - apply orb_false_iff in E as [E1 E2]. apply Z.ltb_ge in E1, E2.
      destruct (Z.leb_spec (2 ^ 63) (Z.max 1 rows * Z.max 1 cols * 4)) as [H|H].
      + split; [easy|]. intros (-> & -> & A). exfalso. apply N2Z.inj_lt in A.
        rewrite !N2Z.inj_mul, !N2Z.inj_max in A. change (Z.of_N (2 ^ 63)) with (2 ^ 63)%Z in A. lia.
      + split.
        * intros [= <- <-]. rewrite !Z2N.id by lia. split; [easy|]. split; [easy|]. apply N2Z.inj_lt.
          rewrite !N2Z.inj_mul, !N2Z.inj_max, !Z2N.id by lia. change (Z.of_N (2 ^ 63)) with (2 ^ 63)%Z. exact H.
        * intros (-> & -> & _). now rewrite !N2Z.id.
  Qed.

  Lemma lines_only rows cols lines lines' e : Forall2 same_line lines lines' ->
    load_text_lines o parse rows cols lines' = Ok e ->
    exists used rest c ws ms, lines = used ++ rest /\ rows = Z.of_nat (length used) /\ cols = Z.of_N c
      /\ array_fits (lenN used) c /\ text_rows parse c used ws ms /\ NoDup ws /\ simple_embeddings o e ws c ms.
  Proof.
    intros FL H. pose proof (text_lines_counts o parse rows cols lines' e H) as (D & NW & R & _).
    assert (LL : length lines = length lines') by (clear - FL; induction FL; simpl; lia).
    unfold load_text_lines in H. apply bind_ok in H as ([r c] & HZ & H). apply zeros_iff in HZ as (ER & EC & A).
    apply bind_ok in H as (items & HI & H).
    assert (FU : Forall2 same_line (firstn (N.to_nat r) lines) (takeN r lines')).
    { rewrite takeN_firstn. clear - FL. generalize (N.to_nat r). intros n. revert n.
      induction FL as [|a b la lb Hab FL IH]; intros [|n]; simpl; constructor; [easy|apply IH]. }
    apply (text_items_iff c _ _ FU) in HI.
    pose proof (text_rows_len _ _ _ _ HI) as [L1 _]. rewrite map_length, firstn_length in L1.
    assert (LI : length items = N.to_nat r) by lia.
    replace (N.to_nat r - length items)%nat with 0%nat in H by lia. cbn [repeat] in H. rewrite app_nil_r in H.
    rewrite normalize_rows in H. apply bind_ok in H as (v & HV & H).
    unfold simple_vocab_new in HV. apply bind_ok in HV as (idx & HX & HV). injection HV as <-.
    apply validate_ok in HX as [ND ->].
    exists (firstn (N.to_nat r) lines), (skipn (N.to_nat r) lines), c, (map fst items), (map snd items).
    split; [now rewrite firstn_skipn|].
    assert (LF : length (firstn (N.to_nat r) lines) = N.to_nat r) by (rewrite firstn_length; lia).
    split; [rewrite LF; lia|]. split; [easy|].
    split; [unfold lenN; rewrite LF, N2Nat.id; exact A|]. split; [exact HI|]. split; [exact ND|].
    unfold embeddings_new in H. apply bind_ok in H as (u & _ & H). apply bind_ok in H as (u2 & _ & H).
    apply Ok_inj in H. subst e. split; [reflexivity|]. split; [reflexivity|].
    split; [now apply enumerate_indexed|]. split; reflexivity.
  Qed.
  Lemma lines_any lines lines' rest' c ws ms : Forall2 same_line lines lines' ->
    array_fits (lenN lines) c -> text_rows parse c lines ws ms -> NoDup ws ->
    exists e, load_text_lines o parse (Z.of_nat (length lines)) (Z.of_N c) (lines' ++ rest') = Ok e
              /\ simple_embeddings o e ws c ms.
  Proof.
    intros FL A T ND.
    assert (LL : length lines = length lines') by (clear - FL; induction FL; simpl; lia).
    pose proof (text_rows_len _ _ _ _ T) as [L1 L2].
    unfold load_text_lines.
    rewrite (proj2 (zeros_iff _ _ (lenN lines) c)) by (unfold lenN in *; repeat split; (lia || easy)). cbn [bind].
    replace (takeN (lenN lines) (lines' ++ rest')) with lines'.
    2: { rewrite takeN_firstn. unfold lenN. rewrite Nat2N.id, LL, firstn_app, Nat.sub_diag, firstn_all. now rewrite app_nil_r. }
    assert (HI : mapM (text_row parse c) lines' = Ok (combine ws ms)).
    { apply (text_items_iff c lines lines' FL). rewrite combine_fst, combine_snd by lia. exact T. }
    rewrite HI. cbn [bind]. rewrite combine_fst, combine_snd by lia. rewrite combine_length.
    replace (N.to_nat (lenN lines) - Nat.min (length ws) (length ms))%nat with 0%nat by (unfold lenN; lia).
    cbn [repeat]. rewrite app_nil_r. apply simple_result; try easy. lia.
  Qed.

  Lemma dims_of_first first first' w0 comps0 : same_line first first' -> text_line first w0 comps0 ->
    length (tl (re_split_ws (rstrip first'))) = length comps0.
  Proof. intros SL T. now rewrite (line_parts _ _ _ (same_line_parts _ _ _ _ SL T)). Qed.

  Theorem load_text_only lossy d e : load_text o parse lossy d = Ok e ->
    exists s first lines w0 comps0 ws ms,
      file_text lossy d s /\ text_has_lines s (first :: lines) /\ text_line first w0 comps0
      /\ array_fits (lenN (first :: lines)) (lenN comps0)
      /\ text_rows parse (lenN comps0) (first :: lines) ws ms /\ NoDup ws
      /\ simple_embeddings o e ws (lenN comps0) ms.
  Proof.
    intros H. unfold load_text in H. apply bind_ok in H as (ls' & HL & H).
    apply lines_file in HL as (s & ls & FT & TL & FL).
    destruct FL as [|first first' lines lines' SL FL]; [discriminate|]. cbv zeta in H.
    destruct (line_exists first) as (w0 & comps0 & T0).
    rewrite (dims_of_first _ _ _ _ SL T0) in H.
    apply (lines_only _ _ (first :: lines)) in H as (used & rest & c & ws & ms & E & R & C & A & TR & ND & SE);
      [|now constructor].
    assert (LL : length lines = length lines') by (clear - FL; induction FL; simpl; lia).
    assert (rest = []) as ->.
    { apply length_zero_iff_nil. apply (f_equal (@length str)) in E. rewrite app_length in E. cbn [length] in E. lia. }
    rewrite app_nil_r in E. subst used. replace c with (lenN comps0) in * by (unfold lenN; lia).
    exists s, first, lines, w0, comps0, ws, ms. easy.
  Qed.
  Theorem load_text_any lossy d s first lines w0 comps0 ws ms :
    file_text lossy d s -> text_has_lines s (first :: lines) -> text_line first w0 comps0 ->
    array_fits (lenN (first :: lines)) (lenN comps0) ->
    text_rows parse (lenN comps0) (first :: lines) ws ms -> NoDup ws ->
    exists e, load_text o parse lossy d = Ok e /\ simple_embeddings o e ws (lenN comps0) ms.
  Proof.
    intros FT TL T0 A TR ND. destruct (file_lines _ _ _ _ FT TL) as (ls' & HL & FL).
    unfold load_text. rewrite HL. cbn [bind].
    inversion FL as [|? first' ? lines' SL FL' E1 E2]; subst. cbv zeta.
    rewrite (dims_of_first _ _ _ _ SL T0).
    assert (LL : length lines = length lines') by (clear - FL'; induction FL'; simpl; lia).
    destruct (lines_any _ _ [] _ _ _ FL A TR ND) as (e & H & SE). rewrite app_nil_r in H.
    exists e. split; [|exact SE]. rewrite <- H. f_equal; unfold lenN; cbn [length]; lia.
  Qed.
  Theorem load_text_dims_only lossy d e : load_text_dims o parse lossy d = Ok e ->
    exists s first lines rest c ws ms,
      file_text lossy d s /\ text_has_lines s (first :: lines ++ rest)
      /\ header_line first (Z.of_nat (length lines)) (Z.of_N c)
      /\ array_fits (lenN lines) c /\ text_rows parse c lines ws ms /\ NoDup ws
      /\ simple_embeddings o e ws c ms.
  Proof.
    intros H. unfold load_text_dims in H. apply bind_ok in H as (ls' & HL & H).
    apply lines_file in HL as (s & ls & FT & TL & FL).
    destruct FL as [|first first' lines lines' SL FL]; [discriminate|].
    destruct (py_split first') as [|r [|k [|]]] eqn:SP; try discriminate.
    apply bind_ok in H as (rows & HR & H). apply bind_ok in H as (cols & HC & H).
    apply (lines_only _ _ lines) in H as (used & rest & c & ws & ms & E & R & C & A & TR & ND & SE); [|easy].
    subst lines rows cols. exists s, first, used, rest, c, ws, ms. repeat (split; [easy|]). split; [|easy].
    apply header_split. exists r, k. now rewrite <- (same_line_split _ _ SL).
  Qed.
  Theorem load_text_dims_any lossy d s first lines rest c ws ms :
    file_text lossy d s -> text_has_lines s (first :: lines ++ rest) ->
    header_line first (Z.of_nat (length lines)) (Z.of_N c) ->
    array_fits (lenN lines) c -> text_rows parse c lines ws ms -> NoDup ws ->
    exists e, load_text_dims o parse lossy d = Ok e /\ simple_embeddings o e ws c ms.
  Proof.
    intros FT TL HL A TR ND. destruct (file_lines _ _ _ _ FT TL) as (ls' & H & FL).
    unfold load_text_dims. rewrite H. cbn [bind].
    inversion FL as [|? first' ? lines' SL FL' E1 E2]; subst.
    apply header_split in HL as (r & k & SP & HR & HK). rewrite (same_line_split _ _ SL), SP, HR, HK. cbn [bind].
    apply Forall2_app_inv_l in FL' as (l1 & l2 & F1 & F2 & ->).
    exact (lines_any _ _ l2 _ _ _ F1 A TR ND).
  Qed.
  Lemma decode_ascii_app lossy h d : Forall (fun c => c < 128) h ->
    decode_word lossy (map byte_of_N h ++ d) = (s <- decode_word lossy d ;; Ok (h ++ s)).
  Proof.
    induction 1 as [|c h HC _ IH]; cbn [map app].
    - now destruct (decode_word lossy d).
    - assert (B : Byte.to_N (byte_of_N c) = c) by (rewrite to_N_byte_of_N; apply N.mod_small; lia).
      unfold decode_word, utf8_decode in *. destruct lossy.
      + cbn [decode_replace]. rewrite B. destruct (N.ltb_spec c 0x80); [|lia].
        cbn [bind] in *. apply Ok_inj in IH. now rewrite IH.
      + cbn [decode_strict]. rewrite B. destruct (N.ltb_spec c 0x80); [|lia].
        destruct (decode_strict d) as [s|]; cbn [bind] in *;
          destruct (decode_strict (map byte_of_N h ++ d)) as [s'|]; cbn [option_map] in *; try discriminate.
        * apply Ok_inj in IH. now rewrite IH.
        * easy.
  Qed.
  Theorem dims_like_text lossy h d s first lines w0 comps0 :
    Forall (fun c => c < 128) h -> ~ In 10 h -> ~ In 13 h ->
    file_text lossy d s -> text_has_lines s (first :: lines) -> text_line first w0 comps0 ->
    header_line h (Z.of_nat (length (first :: lines))) (Z.of_nat (length comps0)) ->
    load_text_dims o parse lossy (map byte_of_N h ++ [x0a] ++ d) = load_text o parse lossy d.
  Proof.
    intros A N10 N13 FT TL T0 HL. destruct (file_lines _ _ _ _ FT TL) as (ls' & H & FL).
    unfold load_text_dims, load_text. rewrite H. cbn [bind].
    inversion FL as [|? first' ? lines' SL FL' E1 E2]; subst. cbv zeta.
    rewrite (dims_of_first _ _ _ _ SL T0).
    assert (LL : length lines = length lines') by (clear - FL'; induction FL'; simpl; lia).
    assert (E : text_lines lossy (map byte_of_N h ++ [x0a] ++ d) = Ok ((h ++ [10]) :: first' :: lines')).
    { unfold text_lines in *. apply bind_ok in H as (s' & D & E). apply Ok_inj in E.
      rewrite decode_ascii_app by easy. change ([x0a] ++ d) with (map byte_of_N [10] ++ d). rewrite (decode_ascii_app lossy [10] d) by (constructor; [lia|constructor]).
      rewrite D. cbn [bind app]. f_equal. rewrite newlines_app by easy. cbn [newlines].
      change (10 =? 13) with false; cbv iota beta. rewrite split_line by easy. now rewrite E. }
    rewrite E. cbn [bind]. apply header_split in HL as (r & k & SP & HR & HK).
    rewrite (same_line_split h (h ++ [10]) (or_intror eq_refl)), SP, HR, HK. cbn [bind].
    f_equal. cbn [length]. lia.
  Qed.
  Theorem empty_text lossy : load_text o parse lossy [] = Err ValueError /\ load_text_dims o parse lossy [] = Err StopIteration.
  Proof. now destruct lossy. Qed.
End Loaders.
