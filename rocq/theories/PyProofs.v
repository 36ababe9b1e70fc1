(* Facts about the Python runtime layer. *)
From Coq Require Import Lia.
From Verif Require Import Py.

#[global] Arguments N.add : simpl never.
#[global] Arguments N.sub : simpl never.
#[global] Arguments N.mul : simpl never.
#[global] Arguments N.div : simpl never.
#[global] Arguments N.modulo : simpl never.
#[global] Arguments N.pow : simpl never.
#[global] Arguments N.of_nat : simpl never.
#[global] Arguments N.to_nat : simpl never.
#[global] Arguments N.shiftl : simpl never.
#[global] Arguments N.shiftr : simpl never.
#[global] Arguments N.land : simpl never.
#[global] Arguments N.min : simpl never.
#[global] Arguments Z.add : simpl never.
#[global] Arguments Z.sub : simpl never.
#[global] Arguments Z.mul : simpl never.
#[global] Arguments Z.div : simpl never.
#[global] Arguments Z.modulo : simpl never.
#[global] Arguments Z.pow : simpl never.
#[global] Arguments Z.of_nat : simpl never.
#[global] Arguments Z.of_N : simpl never.
#[global] Arguments Z.to_N : simpl never.
#[global] Arguments Z.to_nat : simpl never.
#[global] Arguments Byte.to_N : simpl never.
#[global] Arguments Byte.of_N : simpl never.
#[global] Arguments N.leb : simpl never.
#[global] Arguments N.ltb : simpl never.
#[global] Arguments N.eqb : simpl never.
#[global] Arguments Z.leb : simpl never.
#[global] Arguments Z.ltb : simpl never.
#[global] Arguments Z.eqb : simpl never.

(* ---------------------------------------------------------------- *)
(* lists                                                             *)

Lemma lenN_nil {A} : lenN (@nil A) = 0.
Proof. reflexivity. Qed.
Lemma lenN_cons {A} (a : A) l : lenN (a :: l) = 1 + lenN l.
Proof. unfold lenN; simpl length; lia. Qed.
Lemma lenN_app {A} (x y : list A) : lenN (x ++ y) = lenN x + lenN y.
Proof. unfold lenN; rewrite app_length; lia. Qed.
Lemma lenN_map {A B} (f : A -> B) l : lenN (map f l) = lenN l.
Proof. unfold lenN; now rewrite map_length. Qed.
Lemma lenN_rev {A} (l : list A) : lenN (rev l) = lenN l.
Proof. unfold lenN; now rewrite rev_length. Qed.
Lemma lenN_repeat {A} (a : A) n : lenN (repeat a n) = N.of_nat n.
Proof. unfold lenN; now rewrite repeat_length. Qed.
Lemma to_nat_lenN {A} (l : list A) : N.to_nat (lenN l) = length l.
Proof. unfold lenN; lia. Qed.
Lemma lenN_0 {A} (l : list A) : lenN l = 0 -> l = [].
Proof. destruct l; [easy | rewrite lenN_cons; lia]. Qed.

Lemma takeN_firstn {A} n (l : list A) : takeN n l = firstn (N.to_nat n) l.
Proof.
  unfold takeN, lenN. destruct (N.leb_spec (N.of_nat (length l)) n); [|easy].
  symmetry; apply firstn_all2; lia.
Qed.
Lemma dropN_skipn {A} n (l : list A) : dropN n l = skipn (N.to_nat n) l.
Proof.
  unfold dropN, lenN. destruct (N.leb_spec (N.of_nat (length l)) n); [|easy].
  symmetry; apply skipn_all2; lia.
Qed.
Lemma takeN_dropN {A} n (l : list A) : takeN n l ++ dropN n l = l.
Proof. rewrite takeN_firstn, dropN_skipn. apply firstn_skipn. Qed.
Lemma lenN_takeN {A} n (l : list A) : lenN (takeN n l) = N.min n (lenN l).
Proof. rewrite takeN_firstn; unfold lenN; rewrite firstn_length; lia. Qed.
Lemma lenN_dropN {A} n (l : list A) : lenN (dropN n l) = lenN l - n.
Proof. rewrite dropN_skipn; unfold lenN; rewrite skipn_length; lia. Qed.
Lemma takeN_all {A} n (l : list A) : lenN l <= n -> takeN n l = l.
Proof. unfold takeN; intros H; now rewrite (proj2 (N.leb_le _ _) H). Qed.
Lemma dropN_all {A} n (l : list A) : lenN l <= n -> dropN n l = [].
Proof. unfold dropN; intros H; now rewrite (proj2 (N.leb_le _ _) H). Qed.
Lemma dropN_0 {A} (l : list A) : dropN 0 l = l.
Proof. now rewrite dropN_skipn. Qed.
Lemma takeN_0 {A} (l : list A) : takeN 0 l = [].
Proof. now rewrite takeN_firstn. Qed.
Lemma firstn_app_l {A} k (x y : list A) : length x = k -> firstn k (x ++ y) = x.
Proof.
  intros <-. rewrite firstn_app, firstn_all, Nat.sub_diag. apply app_nil_r.
Qed.
Lemma skipn_app_l {A} k (x y : list A) : length x = k -> skipn k (x ++ y) = y.
Proof. intros <-. now rewrite skipn_app, skipn_all, Nat.sub_diag. Qed.
Lemma takeN_app_l {A} (x y : list A) : takeN (lenN x) (x ++ y) = x.
Proof.
  rewrite takeN_firstn, to_nat_lenN, firstn_app, firstn_all, Nat.sub_diag.
  simpl; apply app_nil_r.
Qed.
Lemma dropN_app_l {A} (x y : list A) : dropN (lenN x) (x ++ y) = y.
Proof.
  rewrite dropN_skipn, to_nat_lenN, skipn_app, skipn_all, Nat.sub_diag. easy.
Qed.
Lemma skipn_skipn' {A} (a b : nat) (l : list A) : skipn a (skipn b l) = skipn (b + a) l.
Proof.
  revert l; induction b as [|b IH]; intros l; [easy|].
  destruct l as [|x l]; simpl; [apply skipn_nil | apply IH].
Qed.
Lemma dropN_dropN {A} a b (l : list A) : dropN a (dropN b l) = dropN (b + a) l.
Proof.
  rewrite !dropN_skipn, skipn_skipn'.
  f_equal; lia.
Qed.
Lemma dropN_app {A} n (x y : list A) : dropN n (x ++ y) = dropN n x ++ dropN (n - lenN x) y.
Proof.
  rewrite !dropN_skipn, skipn_app. f_equal. f_equal. unfold lenN; lia.
Qed.
Lemma takeN_app {A} n (x y : list A) : takeN n (x ++ y) = takeN n x ++ takeN (n - lenN x) y.
Proof.
  rewrite !takeN_firstn, firstn_app. f_equal. f_equal. unfold lenN; lia.
Qed.

Lemma list_eqb_eq {A} (eqb : A -> A -> bool) :
  (forall a b, eqb a b = true <-> a = b) ->
  forall x y, list_eqb eqb x y = true <-> x = y.
Proof.
  intros H x; induction x as [|a x IH]; intros [|b y]; simpl; try easy.
  rewrite andb_true_iff, H, IH. split; [intros [-> ->]; easy | now intros [= -> ->]].
Qed.
Lemma str_eqb_eq x y : str_eqb x y = true <-> x = y.
Proof. apply list_eqb_eq, N.eqb_eq. Qed.
Lemma str_eqb_refl x : str_eqb x x = true.
Proof. now apply str_eqb_eq. Qed.
Lemma str_eqb_neq x y : str_eqb x y = false <-> x <> y.
Proof.
  rewrite <- str_eqb_eq. destruct (str_eqb x y); split; congruence.
Qed.
Lemma str_dec (x y : str) : {x = y} + {x <> y}.
Proof.
  destruct (str_eqb x y) eqn:E; [left; now apply str_eqb_eq | right; now apply str_eqb_neq].
Qed.
Lemma byte_eqb_eq a b : Byte.eqb a b = true <-> a = b.
Proof.
  split; intros H.
  - now apply Byte.byte_dec_bl.
  - now apply Byte.byte_dec_lb.
Qed.
Lemma bytes_eqb_eq x y : bytes_eqb x y = true <-> x = y.
Proof. apply list_eqb_eq, byte_eqb_eq. Qed.

Lemma mem_eqb_In {A} (eqb : A -> A -> bool) :
  (forall a b, eqb a b = true <-> a = b) ->
  forall a l, mem_eqb eqb a l = true <-> In a l.
Proof.
  intros H a l; induction l as [|b l IH]; simpl; [easy|].
  rewrite orb_true_iff, H, IH. intuition congruence.
Qed.
Lemma mem_eqb_not_In {A} (eqb : A -> A -> bool) :
  (forall a b, eqb a b = true <-> a = b) ->
  forall a l, mem_eqb eqb a l = false <-> ~ In a l.
Proof.
  intros H a l. rewrite <- (mem_eqb_In eqb H). destruct (mem_eqb eqb a l); split; congruence.
Qed.

Lemma dedup_In {A} (eqb : A -> A -> bool) :
  (forall a b, eqb a b = true <-> a = b) ->
  forall a l, In a (dedup eqb l) <-> In a l.
Proof.
  intros H a l; induction l as [|b l IH]; simpl; [easy|].
  destruct (mem_eqb eqb b l) eqn:E.
  - rewrite IH. apply (mem_eqb_In eqb H) in E. intuition congruence.
  - simpl; rewrite IH. easy.
Qed.
Lemma dedup_NoDup {A} (eqb : A -> A -> bool) :
  (forall a b, eqb a b = true <-> a = b) ->
  forall l, NoDup (dedup eqb l).
Proof.
  intros H l; induction l as [|b l IH]; simpl; [constructor|].
  destruct (mem_eqb eqb b l) eqn:E; [easy|].
  constructor; [|easy]. rewrite (dedup_In eqb H). now apply (mem_eqb_not_In eqb H).
Qed.
Lemma dedup_length_le {A} (eqb : A -> A -> bool) l :
  (length (dedup eqb l) <= length l)%nat.
Proof.
  induction l as [|b l IH]; simpl; [easy|]. destruct (mem_eqb eqb b l); simpl; lia.
Qed.
Lemma dedup_length_NoDup {A} (eqb : A -> A -> bool) :
  (forall a b, eqb a b = true <-> a = b) ->
  forall l, length (dedup eqb l) = length l <-> NoDup l.
Proof.
  intros H l; split.
  - induction l as [|b l IH]; simpl; [constructor|].
    destruct (mem_eqb eqb b l) eqn:E; simpl; intros L.
    + pose proof (dedup_length_le eqb l); lia.
    + constructor; [now apply (mem_eqb_not_In eqb H) | apply IH; lia].
  - induction 1 as [|b l Hb Hl IH]; simpl; [easy|].
    apply (mem_eqb_not_In eqb H) in Hb. rewrite Hb; simpl; lia.
Qed.
Lemma dedup_id {A} (eqb : A -> A -> bool) :
  (forall a b, eqb a b = true <-> a = b) ->
  forall l, NoDup l -> dedup eqb l = l.
Proof.
  intros H l; induction 1 as [|b l Hb Hl IH]; simpl; [easy|].
  apply (mem_eqb_not_In eqb H) in Hb. rewrite Hb; now f_equal.
Qed.

Lemma NoDup_snoc {A} (l : list A) a : NoDup l -> ~ In a l -> NoDup (l ++ [a]).
Proof.
  intros H H'. apply (NoDup_Add (a:=a) (l:=l ++ [])); rewrite ?app_nil_r; [|easy].
  rewrite <- (app_nil_r l) at 1. apply Add_app.
Qed.
Lemma NoDup_snoc_inv {A} (l : list A) a : NoDup (l ++ [a]) -> NoDup l /\ ~ In a l.
Proof.
  intros H. apply (NoDup_Add (a:=a) (l:=l ++ [])) in H; rewrite ?app_nil_r in *; [easy|].
  rewrite <- (app_nil_r l) at 1. apply Add_app.
Qed.

(* ---------------------------------------------------------------- *)
(* results                                                           *)

Lemma Ok_inj {A} (a b : A) : Ok a = Ok b -> a = b.
Proof. now intros [= ->]. Qed.
Lemma bind_ok {A B} (m : result A) (k : A -> result B) b :
  bind m k = Ok b -> exists a, m = Ok a /\ k a = Ok b.
Proof. destruct m; simpl; [eauto | easy]. Qed.
Lemma py_assert_ok c u : py_assert c = Ok u -> c = true.
Proof. unfold py_assert; now destruct c. Qed.

(* ---------------------------------------------------------------- *)
(* dicts                                                             *)

Section Dict.
  Context {K V : Type} (eqb : K -> K -> bool).
  Hypothesis eqb_eq : forall a b, eqb a b = true <-> a = b.

  Lemma eqb_refl' k : eqb k k = true.
  Proof. now apply eqb_eq. Qed.
  Lemma eqb_neq' a b : a <> b -> eqb a b = false.
  Proof.
    intros H. destruct (eqb a b) eqn:E; [|easy]. apply eqb_eq in E; contradiction.
  Qed.

  Lemma dget_In k v (d : dict K V) : dget eqb k d = Some v -> In (k, v) d.
  Proof.
    induction d as [|[k' v'] d IH]; simpl; [easy|].
    destruct (eqb k k') eqn:E; intros H.
    - apply eqb_eq in E; injection H; left; congruence.
    - right; auto.
  Qed.
  Lemma dget_None k (d : dict K V) : dget eqb k d = None <-> ~ In k (map fst d).
  Proof.
    induction d as [|[k' v'] d IH]; simpl; [easy|].
    destruct (eqb k k') eqn:E.
    - apply eqb_eq in E; subst. split; [easy|]. intros H; exfalso; auto.
    - rewrite IH. split; intros H; [|auto]. intros [->|]; [|auto].
      now rewrite eqb_refl' in E.
  Qed.
  Lemma dget_Some_In k (d : dict K V) : In k (map fst d) -> exists v, dget eqb k d = Some v.
  Proof.
    intros H. destruct (dget eqb k d) eqn:E; [eauto|]. apply dget_None in E; contradiction.
  Qed.
  Lemma In_dget k v (d : dict K V) :
    NoDup (map fst d) -> In (k, v) d -> dget eqb k d = Some v.
  Proof.
    induction d as [|[k' v'] d IH]; simpl; [easy|].
    inversion 1; subst; intros [[= -> ->]|H'].
    - now rewrite eqb_refl'.
    - rewrite eqb_neq'; [auto|]. intros ->. apply H2. now apply (in_map fst) in H'.
  Qed.
  Lemma dmem_In k (d : dict K V) : dmem eqb k d = true <-> In k (map fst d).
  Proof.
    unfold dmem. destruct (dget eqb k d) eqn:E.
    - split; [intros _|easy]. apply dget_In in E. now apply (in_map fst) in E.
    - apply dget_None in E. split; [easy|contradiction].
  Qed.
  Lemma dmem_false k (d : dict K V) : dmem eqb k d = false <-> ~ In k (map fst d).
  Proof. rewrite <- dmem_In. destruct (dmem eqb k d); split; congruence. Qed.

  Lemma dget_dset k k' v (d : dict K V) :
    dget eqb k (dset eqb k' v d) = if eqb k k' then Some v else dget eqb k d.
  Proof.
    induction d as [|[k2 v2] d IH]; simpl; [easy|].
    destruct (eqb k' k2) eqn:E; simpl.
    - apply eqb_eq in E; subst. now destruct (eqb k k2).
    - destruct (eqb k k2) eqn:E2; [|easy].
      apply eqb_eq in E2; subst. destruct (eqb k2 k') eqn:E3; [|easy].
      apply eqb_eq in E3; subst. now rewrite eqb_refl' in E.
  Qed.
  Lemma dset_new k v (d : dict K V) : ~ In k (map fst d) -> dset eqb k v d = d ++ [(k, v)].
  Proof.
    induction d as [|[k2 v2] d IH]; simpl; [easy|]. intros H.
    rewrite eqb_neq' by (intros ->; auto). now rewrite IH by auto.
  Qed.
  Lemma dset_keys_old k v (d : dict K V) :
    In k (map fst d) -> map fst (dset eqb k v d) = map fst d.
  Proof.
    induction d as [|[k2 v2] d IH]; simpl; [easy|].
    destruct (eqb k k2) eqn:E; [easy|]. simpl. intros [->|H].
    - now rewrite eqb_refl' in E.
    - now rewrite IH.
  Qed.
  Lemma dset_keys_In k k' v (d : dict K V) :
    In k (map fst (dset eqb k' v d)) <-> k = k' \/ In k (map fst d).
  Proof.
    destruct (dmem eqb k' d) eqn:E.
    - apply dmem_In in E. rewrite dset_keys_old by easy. split; [auto|]. intros [->|]; auto.
    - apply dmem_false in E. rewrite dset_new by easy.
      rewrite map_app, in_app_iff; simpl. intuition congruence.
  Qed.
  Lemma dset_NoDup k v (d : dict K V) :
    NoDup (map fst d) -> NoDup (map fst (dset eqb k v d)).
  Proof.
    intros H. destruct (dmem eqb k d) eqn:E.
    - apply dmem_In in E. now rewrite dset_keys_old.
    - apply dmem_false in E. rewrite dset_new, map_app by easy. simpl.
      apply NoDup_rev in H. rewrite <- (rev_involutive (map fst d ++ [k])).
      apply NoDup_rev. rewrite rev_app_distr; simpl. constructor; [|easy].
      now rewrite <- in_rev.
  Qed.
  Lemma dset_length k v (d : dict K V) :
    length (dset eqb k v d) = if dmem eqb k d then length d else S (length d).
  Proof.
    destruct (dmem eqb k d) eqn:E.
    - apply dmem_In in E. rewrite <- (map_length fst), dset_keys_old, map_length; easy.
    - apply dmem_false in E. rewrite dset_new, app_length; simpl; [lia|easy].
  Qed.

  Lemma dict_of_snoc kvs kv :
    dict_of eqb (kvs ++ [kv]) = dset eqb (fst kv) (snd kv) (dict_of (V:=V) eqb kvs).
  Proof. unfold dict_of. now rewrite fold_left_app. Qed.

  Lemma dict_of_NoDup_keys kvs : NoDup (map fst (dict_of (V:=V) eqb kvs)).
  Proof.
    induction kvs as [|kv kvs IH] using rev_ind; [constructor|].
    rewrite dict_of_snoc. now apply dset_NoDup.
  Qed.
  Lemma dict_of_keys kvs k : In k (map fst (dict_of (V:=V) eqb kvs)) <-> In k (map fst kvs).
  Proof.
    induction kvs as [|kv kvs IH] using rev_ind; [easy|].
    rewrite dict_of_snoc, dset_keys_In, IH, map_app, in_app_iff; simpl. intuition.
  Qed.
  Lemma dict_of_id kvs : NoDup (map fst kvs) -> dict_of (V:=V) eqb kvs = kvs.
  Proof.
    induction kvs as [|kv kvs IH] using rev_ind; [easy|].
    rewrite map_app; simpl. intros H.
    assert (H1 : NoDup (map fst kvs) /\ ~ In (fst kv) (map fst kvs)).
    { apply NoDup_remove in H. rewrite app_nil_r in H. easy. }
    rewrite dict_of_snoc, IH by easy. rewrite dset_new by easy. now destruct kv.
  Qed.
  Lemma dict_of_length_le kvs : (length (dict_of (V:=V) eqb kvs) <= length kvs)%nat.
  Proof.
    induction kvs as [|kv kvs IH] using rev_ind; [easy|].
    rewrite dict_of_snoc, dset_length, app_length; simpl.
    destruct (dmem eqb _ _); lia.
  Qed.
  Lemma dict_of_length kvs :
    length (dict_of (V:=V) eqb kvs) = length kvs <-> NoDup (map fst kvs).
  Proof.
    split; intros H; [|now rewrite dict_of_id].
    induction kvs as [|kv kvs IH] using rev_ind; [constructor|].
    rewrite dict_of_snoc, dset_length, app_length in H; simpl in H.
    pose proof (dict_of_length_le kvs).
    destruct (dmem eqb (fst kv) (dict_of eqb kvs)) eqn:E; [lia|].
    apply dmem_false in E. rewrite dict_of_keys in E.
    rewrite map_app; simpl. apply NoDup_snoc; [|easy]. apply IH; lia.
  Qed.
End Dict.
Arguments dget_In {K V} eqb eqb_eq k v d _.

Lemma sget_sset {V} k k' v (d : dict str V) :
  sget k (sset k' v d) = if str_eqb k k' then Some v else sget k d.
Proof. apply dget_dset, str_eqb_eq. Qed.

Lemma enumerate_from_length {A} i (l : list A) : length (enumerate_from i l) = length l.
Proof. revert i; induction l; simpl; auto. Qed.
Lemma enumerate_from_fst {A} i (l : list A) : map fst (enumerate_from i l) = l.
Proof. revert i; induction l; simpl; intros; f_equal; auto. Qed.
Lemma enumerate_from_nth {A} i (l : list A) k :
  nth_error (enumerate_from i l) k
  = match nth_error l k with Some a => Some (a, i + Z.of_nat k)%Z | None => None end.
Proof.
  revert i k; induction l as [|a l IH]; intros i [|k]; simpl; try easy.
  - now rewrite Z.add_0_r.
  - rewrite IH. destruct (nth_error l k); [|easy]. do 2 f_equal. lia.
Qed.
Lemma enumerate_nth {A} (l : list A) k :
  nth_error (enumerate l) k
  = match nth_error l k with Some a => Some (a, Z.of_nat k) | None => None end.
Proof. unfold enumerate. now rewrite enumerate_from_nth. Qed.

(* ---------------------------------------------------------------- *)
(* bytes and struct                                                  *)

Lemma byte_of_N_to_N b : byte_of_N (Byte.to_N b) = b.
Proof.
  unfold byte_of_N. pose proof (Byte.to_N_bounded b).
  rewrite N.mod_small by lia. now rewrite Byte.of_to_N.
Qed.
Lemma to_N_byte_of_N n : Byte.to_N (byte_of_N n) = n mod 256.
Proof.
  unfold byte_of_N. destruct (Byte.of_N (n mod 256)) eqn:E.
  - now apply Byte.to_of_N in E.
  - apply Byte.of_N_None_iff in E. pose proof (N.mod_lt n 256). lia.
Qed.
Lemma to_N_lt b : Byte.to_N b < 256.
Proof. pose proof (Byte.to_N_bounded b); lia. Qed.
Lemma to_N_inj a b : Byte.to_N a = Byte.to_N b -> a = b.
Proof. intros H. rewrite <- (byte_of_N_to_N a), H. apply byte_of_N_to_N. Qed.

Lemma le_bytes_length k n : length (le_bytes k n) = k.
Proof. revert n; induction k; simpl; auto. Qed.
Lemma le_val_le_bytes k n : le_val (le_bytes k n) = n mod 256 ^ N.of_nat k.
Proof.
  revert n; induction k as [|k IH]; intros n.
  - simpl. now rewrite N.mod_1_r.
  - cbn [le_bytes le_val]. rewrite IH, to_N_byte_of_N.
    rewrite Nat2N.inj_succ, N.pow_succ_r'.
    rewrite N.mod_mul_r; [easy | lia | apply N.pow_nonzero; lia].
Qed.
Lemma le_val_small k n : n < 256 ^ N.of_nat k -> le_val (le_bytes k n) = n.
Proof. intros H; rewrite le_val_le_bytes. now apply N.mod_small. Qed.
Lemma le_val_lt bs : le_val bs < 256 ^ lenN bs.
Proof.
  induction bs as [|b bs IH]; simpl le_val; [easy|].
  rewrite lenN_cons, N.add_1_l, N.pow_succ_r'.
  pose proof (to_N_lt b). revert IH. generalize (256 ^ lenN bs). intros; lia.
Qed.
Lemma le_bytes_le_val bs : le_bytes (length bs) (le_val bs) = bs.
Proof.
  induction bs as [|b bs IH]; simpl; [easy|].
  pose proof (to_N_lt b).
  f_equal.
  - unfold byte_of_N.
    rewrite N.mul_comm, N.mod_add, N.mod_small by lia. now rewrite Byte.of_to_N.
  - rewrite N.mul_comm, N.div_add, N.div_small by lia. exact IH.
Qed.

Definition canonical (f : field) (v : Z) : Prop :=
  match f with fBool => v = 0%Z \/ v = 1%Z | _ => True end.

Lemma in_range_spec lo hi v : in_range lo hi v = true <-> (lo <= v < hi)%Z.
Proof.
  unfold in_range. rewrite andb_true_iff, Z.leb_le, Z.ltb_lt. easy.
Qed.

Lemma signed_bytes_length k v : length (signed_bytes k v) = k.
Proof. apply le_bytes_length. Qed.
Lemma signed_roundtrip k v :
  (0 < k)%nat ->
  (- 2 ^ (8 * Z.of_nat k - 1) <= v < 2 ^ (8 * Z.of_nat k - 1))%Z ->
  signed_val k (signed_bytes k v) = v.
Proof.
  intros Hk H. unfold signed_val, signed_bytes.
  rewrite le_val_le_bytes.
  set (M := (2 ^ (8 * Z.of_nat k))%Z) in *.
  set (H2 := (2 ^ (8 * Z.of_nat k - 1))%Z) in *.
  assert (HM : M = (2 * H2)%Z).
  { unfold M, H2. rewrite <- Z.pow_succ_r by lia. f_equal; lia. }
  assert (HP : (0 < H2)%Z) by (apply Z.pow_pos_nonneg; lia).
  assert (E : (256 ^ N.of_nat k = Z.to_N M)%N).
  { apply N2Z.inj. rewrite N2Z.inj_pow, Z2N.id by lia. unfold M.
    rewrite nat_N_Z. change (Z.of_N 256) with (2 ^ 8)%Z.
    rewrite <- Z.pow_mul_r by lia. easy. }
  rewrite E.
  pose proof (Z.mod_pos_bound v M ltac:(lia)).
  rewrite N.mod_small by lia. rewrite Z2N.id by lia.
  destruct (Z.ltb_spec (v mod M) H2) as [L|L].
  - destruct (Z_lt_le_dec v 0).
    + rewrite <- (Z.mod_add v 1 M) in * by lia.
      rewrite Z.mod_small in * by lia. lia.
    + rewrite Z.mod_small in * by lia. easy.
  - destruct (Z_lt_le_dec v 0).
    + rewrite <- (Z.mod_add v 1 M) in * by lia.
      rewrite Z.mod_small in * by lia. lia.
    + rewrite Z.mod_small in * by lia. lia.
Qed.

Lemma pack_field_length f v bs : pack_field f v = Ok bs -> length bs = field_size f.
Proof.
  destruct f; simpl; intros H;
    repeat match goal with
    | H : (if ?c then _ else _) = _ |- _ => destruct c; [|easy]
    end; injection H as <-; try easy;
    rewrite ?le_bytes_length, ?signed_bytes_length; easy.
Qed.
Lemma pack_field_roundtrip f v bs :
  f <> fPad -> canonical f v -> pack_field f v = Ok bs -> unpack_field f bs = v.
Proof.
  intros Hf Hc.
  destruct f; cbn [pack_field unpack_field canonical] in *; intros H; try easy;
    repeat match goal with
    | H : (if ?c then _ else _) = _ |- _ => destruct c eqn:?; [|easy]
    | H : in_range _ _ _ = true |- _ => apply in_range_spec in H
    end; apply Ok_inj in H; subst bs.
  - rewrite le_val_small; [lia|]. change (256 ^ N.of_nat 4) with (2 ^ 32). lia.
  - rewrite le_val_small; [lia|]. change (256 ^ N.of_nat 8) with (2 ^ 64). lia.
  - apply signed_roundtrip; [lia|]. exact Heqb.
  - apply signed_roundtrip; [lia|]. exact Heqb.
  - apply signed_roundtrip; [lia|]. exact Heqb.
  - destruct Hc as [->| ->]; easy.
  - rewrite le_val_small; [lia|]. change (256 ^ N.of_nat 8) with (2 ^ 64). lia.
Qed.

Lemma pack_length fmt vs bs : pack fmt vs = Ok bs -> length bs = calcsize fmt.
Proof.
  revert vs bs; induction fmt as [|f fmt IH]; intros vs bs.
  - destruct vs; simpl; [now intros [= <-] | easy].
  - cbn [pack calcsize]. destruct f; 
    try (destruct vs as [|v vs]; [easy|]; intros H;
      apply bind_ok in H as (b & Hb & H); apply bind_ok in H as (bs' & Hbs & H);
      injection H as <-; apply pack_field_length in Hb; apply IH in Hbs;
      rewrite app_length; lia).
    intros H. apply bind_ok in H as (bs' & Hbs & H). injection H as <-.
    apply IH in Hbs. simpl; lia.
Qed.

(* the fields of a format that carry a value *)
Definition valued (fmt : list field) : list field :=
  filter (fun f => match f with fPad => false | _ => true end) fmt.

Lemma unpack_pack fmt vs bs :
  pack fmt vs = Ok bs -> Forall2 canonical (valued fmt) vs -> unpack fmt bs = vs.
Proof.
  revert vs bs; induction fmt as [|f fmt IH]; intros vs bs.
  - destruct vs; simpl; [easy|easy].
  - cbn [pack valued filter unpack]. 
    destruct f;
    try (destruct vs as [|v vs]; [easy|]; intros H C;
      apply bind_ok in H as (b & Hb & H); apply bind_ok in H as (bs' & Hbs & H);
      injection H as <-; inversion C; subst;
      pose proof (pack_field_length _ _ _ Hb) as L;
      apply pack_field_roundtrip in Hb; [|easy|easy];
      rewrite <- L;
      rewrite firstn_app, firstn_all, Nat.sub_diag, skipn_app, skipn_all, Nat.sub_diag;
      simpl; rewrite app_nil_r; f_equal; [exact Hb | apply IH; easy]).
    intros H C. apply bind_ok in H as (bs' & Hbs & H). injection H as <-.
    simpl. apply IH; easy.
Qed.

Lemma canonical_no_bool fmt vs :
  (forall f, In f fmt -> f <> fBool) -> length vs = length fmt ->
  Forall2 canonical fmt vs.
Proof.
  revert vs; induction fmt as [|f fmt IH]; intros [|v vs]; simpl; try easy.
  intros H [=L]. constructor; [|apply IH; auto].
  specialize (H f (or_introl eq_refl)). destruct f; simpl; easy.
Qed.

Lemma pack_args_length fmt vs bs : pack fmt vs = Ok bs -> length vs = length (valued fmt).
Proof.
  revert vs bs; induction fmt as [|f fmt IH]; intros vs bs.
  - destruct vs; simpl; easy.
  - cbn [pack valued filter].
    destruct f;
    try (destruct vs as [|v vs]; [easy|]; intros H;
      apply bind_ok in H as (b & Hb & H); apply bind_ok in H as (bs' & Hbs & H);
      simpl; f_equal; eapply IH; eauto).
    intros H. apply bind_ok in H as (bs' & Hbs & H). eapply IH; eauto.
Qed.

Lemma unpack_pack_no_bool fmt vs bs :
  (forall f, In f fmt -> f <> fBool) -> pack fmt vs = Ok bs -> unpack fmt bs = vs.
Proof.
  intros Hb H. apply unpack_pack; [easy|]. apply canonical_no_bool.
  - intros f Hf. apply filter_In in Hf as [Hf _]. now apply Hb.
  - now apply pack_args_length in H.
Qed.

Lemma unpack_length fmt bs : length (unpack fmt bs) = length (valued fmt).
Proof.
  revert bs; induction fmt as [|f fmt IH]; intros bs; [easy|].
  cbn [unpack valued filter]; destruct f; simpl; rewrite ?IH; easy.
Qed.

(* ---------------------------------------------------------------- *)
(* readers: data found at a position                                 *)

Definition at_pos (d : bytes) (p : N) (bs : bytes) : Prop :=
  exists pre post, d = pre ++ bs ++ post /\ lenN pre = p.

Lemma at_pos_app d p a b :
  at_pos d p (a ++ b) <-> at_pos d p a /\ at_pos d (p + lenN a) b.
Proof.
  split.
  - intros (pre & post & -> & <-). split.
    + exists pre, (b ++ post). now rewrite <- app_assoc.
    + exists (pre ++ a), post. rewrite lenN_app, <- !app_assoc. easy.
  - intros [(pre & post & Hd & Hp) (pre' & post' & Hd' & Hp')].
    exists pre, post'. split; [|easy]. rewrite Hd.
    assert (E : pre' = pre ++ a).
    { assert (E : takeN (lenN pre') d = takeN (lenN (pre ++ a)) d)
        by (rewrite Hp', lenN_app, Hp; easy).
      rewrite Hd' in E at 1. rewrite Hd in E. rewrite takeN_app_l in E.
      rewrite app_assoc, takeN_app_l in E. easy. }
    subst pre'. rewrite Hd in Hd'. rewrite <- !app_assoc in Hd' |- *.
    apply app_inv_head in Hd'. apply app_inv_head in Hd'. now rewrite Hd'.
Qed.
Lemma at_pos_0 d bs : (exists post, d = bs ++ post) -> at_pos d 0 bs.
Proof. intros [post ->]. exists [], post. easy. Qed.
Lemma at_pos_self d : at_pos d 0 d.
Proof. exists [], []. now rewrite app_nil_r. Qed.
Lemma at_pos_bound d p bs : at_pos d p bs -> p + lenN bs <= lenN d.
Proof. intros (pre & post & -> & <-). rewrite !lenN_app. lia. Qed.
Lemma at_pos_drop d p bs : at_pos d p bs -> exists post, dropN p d = bs ++ post.
Proof. intros (pre & post & -> & <-). exists post. now rewrite dropN_app_l. Qed.
Lemma at_pos_extend d p bs ext : at_pos d p bs -> at_pos (d ++ ext) p bs.
Proof.
  intros (pre & post & -> & <-). exists pre, (post ++ ext). now rewrite <- !app_assoc.
Qed.

Lemma read_at d p bs :
  at_pos d p bs -> lenN bs < ssize_limit -> read (lenN bs) d p = Ok (bs, p + lenN bs).
Proof.
  intros H L. unfold read. destruct (N.leb_spec ssize_limit (lenN bs)); [lia|].
  apply at_pos_drop in H as [post ->]. now rewrite takeN_app_l.
Qed.

(* ---------------------------------------------------------------- *)
(* writers                                                           *)

Lemma wseq_ok w1 w2 p bs :
  wseq w1 w2 p = (bs, Ok tt) ->
  exists b1 b2, w1 p = (b1, Ok tt) /\ w2 (p + lenN b1) = (b2, Ok tt) /\ bs = b1 ++ b2.
Proof.
  unfold wseq. destruct (w1 p) as [b1 [[]|e]]; [|easy].
  destruct (w2 (p + lenN b1)) as [b2 r2] eqn:E. intros [= <- ->]. eauto.
Qed.
Lemma wlet_ok {A} (r : result A) k p bs :
  wlet r k p = (bs, Ok tt) -> exists a, r = Ok a /\ k a p = (bs, Ok tt).
Proof. unfold wlet. destruct r; [eauto | easy]. Qed.
Lemma wbytes_ok b p bs : wbytes b p = (bs, Ok tt) -> bs = b.
Proof. unfold wbytes. now intros [= <-]. Qed.
Lemma wret_ok p bs : wret p = (bs, Ok tt) -> bs = [].
Proof. unfold wret. now intros [= <-]. Qed.

Lemma rbind_ok {A B} (m : reader A) (k : A -> reader B) d p b q :
  rbind m k d p = Ok (b, q) ->
  exists a p', m d p = Ok (a, p') /\ k a d p' = Ok (b, q).
Proof. unfold rbind. destruct (m d p) as [[a p']|]; [eauto|easy]. Qed.
Lemma rbind_step {A B} (m : reader A) (k : A -> reader B) d p a p' :
  m d p = Ok (a, p') -> rbind m k d p = k a d p'.
Proof. unfold rbind. now intros ->. Qed.
Ltac rstep H := erewrite rbind_step by (exact H); cbn beta iota.

Lemma rlift_ok {A} (r : result A) d p a q :
  rlift r d p = Ok (a, q) -> r = Ok a /\ q = p.
Proof. unfold rlift. destruct r; [|easy]. now intros [= <- <-]. Qed.

Lemma mapM_length {A B} (f : A -> result B) l bs :
  (fix mapM (l : list A) : result (list B) := match l with
    | [] => Ok [] | a :: l' => b <- f a ;; bs <- mapM l' ;; Ok (b :: bs) end) l = Ok bs ->
  length bs = length l.
Proof.
  revert bs; induction l as [|a l IH]; intros bs; [now intros [= <-]|].
  intros H. apply bind_ok in H as (b & Hb & H). apply bind_ok in H as (bs' & Hbs & H).
  injection H as <-. simpl; f_equal; auto.
Qed.
