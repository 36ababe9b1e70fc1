(* Indexing and slicing. *)
From Coq Require Import Lia.
From Verif Require Import Py PyProofs Arr SpecLookup.

Lemma nth_error_ext' {A} (x y : list A) : (forall k, nth_error x k = nth_error y k) -> x = y.
Proof.
  revert y. induction x as [|a x IH]; intros [|b y] H; [easy|now specialize (H O)|now specialize (H O)|].
  pose proof (H O) as H0. injection H0 as ->. f_equal. apply IH. intros k. apply (H (S k)).
Qed.

Definition zslice_indices (n : Z) (s : pslice) : result (list Z) :=
  '(start, stop, step) <- slice_bounds n s ;;
  Ok (map (fun k => (start + Z.of_nat k * step)%Z) (seq 0 (range_len start stop step))).

Lemma range_len_spec start stop step k : (step <> 0)%Z ->
  ((k < range_len start stop step)%nat <->
   if (step <? 0)%Z then (stop < start + Z.of_nat k * step)%Z
   else (start + Z.of_nat k * step < stop)%Z).
Proof.
  intros H. unfold range_len. destruct (Z.ltb_spec step 0) as [L|L].
  - destruct (Z.ltb_spec stop start) as [M|M].
    + set (a := (start - stop - 1)%Z). set (b := (- step)%Z).
      assert (Hb : (0 < b)%Z) by lia.
      pose proof (Z.div_mod a b ltac:(lia)). pose proof (Z.mod_pos_bound a b Hb).
      assert (0 <= a / b)%Z by (apply Z.div_pos; lia).
      split; intros X.
      * assert (Z.of_nat k <= a / b)%Z by lia.
        assert (Z.of_nat k * b <= a)%Z by nia. lia.
      * assert (Z.of_nat k * b <= a)%Z by lia.
        assert (Z.of_nat k <= a / b)%Z by (apply Z.div_le_lower_bound; lia). lia.
    + split; intros X; [lia|]. nia.
  - destruct (Z.ltb_spec start stop) as [M|M].
    + set (a := (stop - start - 1)%Z). assert (Hb : (0 < step)%Z) by lia.
      pose proof (Z.div_mod a step ltac:(lia)). pose proof (Z.mod_pos_bound a step Hb).
      assert (0 <= a / step)%Z by (apply Z.div_pos; lia).
      split; intros X.
      * assert (Z.of_nat k <= a / step)%Z by lia.
        assert (Z.of_nat k * step <= a)%Z by nia. lia.
      * assert (Z.of_nat k * step <= a)%Z by lia.
        assert (Z.of_nat k <= a / step)%Z by (apply Z.div_le_lower_bound; lia). lia.
    + split; intros X; [lia|]. nia.
Qed.

Lemma nth_map_seq {A} (f : nat -> A) m k :
  nth_error (map f (seq 0 m)) k = if (k <? m)%nat then Some (f k) else None.
Proof.
  destruct (Nat.ltb_spec k m) as [L|L].
  - rewrite nth_error_map, (nth_error_nth' _ 0%nat) by (now rewrite seq_length).
    now rewrite seq_nth.
  - apply nth_error_None. now rewrite map_length, seq_length.
Qed.

Lemma clip_clamp n step b : (0 <= n)%Z ->
  clip_bound n step b
  = clamp (if (step <? 0)%Z then (-1)%Z else 0%Z) (if (step <? 0)%Z then (n - 1)%Z else n) (from_end n b).
Proof.
  intros H. unfold clip_bound, clamp, from_end.
  destruct (Z.ltb_spec b 0).
  - destruct (Z.ltb_spec (b + n) 0), (Z.ltb_spec step 0); lia.
  - destruct (Z.leb_spec n b), (Z.ltb_spec step 0); lia.
Qed.

Lemma zslice_spec n s : (0 <= n)%Z -> sl_step s <> Some 0%Z ->
  exists idx, zslice_indices n s = Ok idx /\ slice_positions n s idx.
Proof.
  intros Hn Hs. unfold zslice_indices, slice_bounds.
  set (step := match sl_step s with Some z => z | None => 1%Z end).
  assert (H0 : (step <> 0)%Z) by (unfold step; destruct (sl_step s); congruence).
  destruct (Z.eqb_spec step 0); [easy|]. cbn [bind].
  eexists. split; [reflexivity|]. unfold slice_positions. fold step. rewrite map_length, seq_length.
  assert (E1 : match sl_start s with Some b => clip_bound n step b
                | None => if (step <? 0)%Z then (n - 1)%Z else 0%Z end
    = match sl_start s with
      | Some b => clamp (if (step <? 0)%Z then (-1)%Z else 0%Z) (if (step <? 0)%Z then (n - 1)%Z else n) (from_end n b)
      | None => if (step <? 0)%Z then (if (step <? 0)%Z then (n - 1)%Z else n)
                else (if (step <? 0)%Z then (-1)%Z else 0%Z) end).
  { destruct (sl_start s); [now apply clip_clamp|]. now destruct (step <? 0)%Z. }
  assert (E2 : match sl_stop s with Some b => clip_bound n step b
                | None => if (step <? 0)%Z then (-1)%Z else n end
    = match sl_stop s with
      | Some b => clamp (if (step <? 0)%Z then (-1)%Z else 0%Z) (if (step <? 0)%Z then (n - 1)%Z else n) (from_end n b)
      | None => if (step <? 0)%Z then (if (step <? 0)%Z then (-1)%Z else 0%Z)
                else (if (step <? 0)%Z then (n - 1)%Z else n) end).
  { destruct (sl_stop s); [now apply clip_clamp|]. now destruct (step <? 0)%Z. }
  rewrite E1, E2. split.
  - intros k i H. rewrite nth_map_seq in H. destruct (_ <? _)%nat; [|easy]. now injection H as <-.
  - intros k. now apply range_len_spec.
Qed.

Lemma slice_positions_bound n s idx : (0 <= n)%Z -> sl_step s <> Some 0%Z ->
  slice_positions n s idx -> Forall (fun i => 0 <= i < n)%Z idx.
Proof.
  intros Hn Hs [P1 P2]. apply Forall_forall. intros i Hi. apply In_nth_error in Hi as [k Hk].
  assert (Lk : (k < length idx)%nat) by (apply nth_error_Some; congruence).
  apply P1 in Hk. apply P2 in Lk. unfold clamp in *.
  set (step := match sl_step s with Some z => z | None => 1%Z end) in *.
  assert (H0 : (step <> 0)%Z) by (unfold step; destruct (sl_step s); congruence).
  destruct (Z.ltb_spec step 0); destruct (sl_start s), (sl_stop s); nia.
Qed.

Lemma slice_positions_unique n s i1 i2 :
  slice_positions n s i1 -> slice_positions n s i2 -> i1 = i2.
Proof.
  intros [A1 B1] [A2 B2].
  assert (X : forall k, (k < length i1)%nat <-> (k < length i2)%nat).
  { intros k. rewrite B1, B2. reflexivity. }
  assert (L : length i1 = length i2).
  { destruct (Nat.lt_trichotomy (length i1) (length i2)) as [H|[H|H]]; [|easy|].
    - apply X in H. lia.
    - apply X in H. lia. }
  apply nth_error_ext'. intros k. destruct (nth_error i1 k) as [a|] eqn:E1.
  - assert (K : (k < length i2)%nat) by (rewrite <- L; apply nth_error_Some; congruence).
    apply nth_error_Some in K. destruct (nth_error i2 k) as [b|] eqn:E2; [|easy].
    apply A1 in E1. apply A2 in E2. congruence.
  - symmetry. apply nth_error_None. rewrite <- L. now apply nth_error_None.
Qed.

Lemma slice_indices_z n s : slice_indices n s = (idx <- zslice_indices (Z.of_nat n) s ;; Ok (map Z.to_nat idx)).
Proof.
  unfold slice_indices, zslice_indices. destruct (slice_bounds (Z.of_nat n) s) as [[[a b] c]|e]; [|easy].
  cbn [bind]. now rewrite map_map.
Qed.

Lemma py_slice_zero {A} (l : list A) s : sl_step s = Some 0%Z -> py_slice l s = Err ValueError.
Proof.
  intros H. unfold py_slice, slice_indices, slice_bounds. rewrite H. reflexivity.
Qed.

Lemma py_slice_spec {A} (l : list A) s : sl_step s <> Some 0%Z ->
  exists idx l', slice_positions (Z.of_nat (length l)) s idx /\ py_slice l s = Ok l'
    /\ Forall2 (fun i a => (0 <= i < Z.of_nat (length l))%Z /\ nth_error l (Z.to_nat i) = Some a) idx l'.
Proof.
  intros H. destruct (zslice_spec (Z.of_nat (length l)) s ltac:(lia) H) as (idx & E & P).
  pose proof (slice_positions_bound _ _ _ (Nat2Z.is_nonneg _) H P) as B.
  exists idx. unfold py_slice. rewrite slice_indices_z, E. cbn [bind].
  eexists. split; [easy|]. split; [reflexivity|]. clear P E. induction B as [|i idx Hi B IH]; [constructor|].
  simpl. destruct (nth_error l (Z.to_nat i)) as [a|] eqn:Ei.
  - constructor; [easy|exact IH].
  - apply nth_error_None in Ei. lia.
Qed.

Lemma Forall2_nth_r {A B} (R : A -> B -> Prop) x y : Forall2 R x y ->
  forall k a, nth_error x k = Some a -> exists b, nth_error y k = Some b /\ R a b.
Proof.
  induction 1; intros [|k] c Hc; try easy; simpl in *; [injection Hc as <-; eauto|eauto].
Qed.

(* a slice as a function of the positions *)
Lemma py_slice_inv {A} (l l' : list A) s : py_slice l s = Ok l' ->
  exists idx, slice_positions (Z.of_nat (length l)) s idx
    /\ Forall2 (fun i a => (0 <= i < Z.of_nat (length l))%Z /\ nth_error l (Z.to_nat i) = Some a) idx l'.
Proof.
  intros H. destruct (option_map (Z.eqb 0) (sl_step s)) as [[]|] eqn:E.
  - destruct (sl_step s) as [z|] eqn:S; [|easy]. injection E as E. apply Z.eqb_eq in E. subst.
    rewrite (py_slice_zero l s S) in H. easy.
  - destruct (py_slice_spec l s) as (idx & l2 & P & E2 & F).
    { destruct (sl_step s); [|easy]. injection E as E. apply Z.eqb_neq in E. congruence. }
    rewrite H in E2. injection E2 as <-. eauto.
  - destruct (py_slice_spec l s) as (idx & l2 & P & E2 & F).
    { now destruct (sl_step s). }
    rewrite H in E2. injection E2 as <-. eauto.
Qed.

Lemma py_slice_range {A} (l : list A) s a b :
  sl_step s = None ->
  slice_bounds (Z.of_nat (length l)) s = Ok (Z.of_nat a, Z.of_nat b, 1%Z) ->
  (b <= length l)%nat -> py_slice l s = Ok (firstn (b - a) (skipn a l)).
Proof.
  intros Hs Hb L. unfold py_slice, slice_indices. rewrite Hb. cbn [bind]. f_equal.
  assert (E : range_len (Z.of_nat a) (Z.of_nat b) 1 = (b - a)%nat).
  { unfold range_len. simpl. destruct (Z.ltb_spec (Z.of_nat a) (Z.of_nat b)); [|lia].
    rewrite Z.div_1_r. lia. }
  rewrite E. clear E Hb Hs s. remember (b - a)%nat as m eqn:Em.
  assert (Hm : (a + m <= length l)%nat \/ m = O) by lia. clear b L Em.
  revert a Hm. induction m as [|m IH]; intros a Hm; [easy|].
  destruct Hm as [Hm|Hm]; [|easy]. rewrite <- cons_seq. cbn [map flat_map].
  replace (Z.to_nat (Z.of_nat a + Z.of_nat 0 * 1)) with a by lia.
  destruct (nth_error l a) as [x|] eqn:Ex.
  2:{ apply nth_error_None in Ex. lia. }
  assert (Sk : skipn a l = x :: skipn (S a) l).
  { clear -Ex. revert a Ex. induction l as [|y l IH]; intros [|a] H; try easy.
    - now injection H as ->.
    - simpl in H. now apply IH. }
  rewrite Sk. cbn [firstn app]. f_equal. rewrite <- IH by (left; lia).
  rewrite <- seq_shift, map_map. f_equal. apply map_ext. intros k. f_equal. lia.
Qed.

Lemma py_slice_to {A} (l : list A) n : (0 <= n)%Z -> py_slice l (slice_to n) = Ok (firstn (Z.to_nat n) l).
Proof.
  intros H. assert (E : slice_bounds (Z.of_nat (length l)) (slice_to n)
    = Ok (Z.of_nat 0, Z.of_nat (Nat.min (Z.to_nat n) (length l)), 1%Z)).
  { unfold slice_bounds, slice_to. simpl. unfold clip_bound. simpl.
    destruct (Z.ltb_spec n 0); [lia|]. destruct (Z.leb_spec (Z.of_nat (length l)) n); do 3 f_equal; lia. }
  rewrite (py_slice_range l (slice_to n) 0 _ eq_refl E) by lia. f_equal. rewrite Nat.sub_0_r. cbn [skipn].
  destruct (Nat.min_spec (Z.to_nat n) (length l)) as [[_ ->]|[L ->]]; [easy|].
  now rewrite firstn_all, firstn_all2.
Qed.

Lemma py_slice_last {A} (l : list A) m : (0 < m <= Z.of_nat (length l))%Z ->
  py_slice l (slice_from (- m)) = Ok (skipn (length l - Z.to_nat m) l).
Proof.
  intros H. assert (E : slice_bounds (Z.of_nat (length l)) (slice_from (- m))
    = Ok (Z.of_nat (length l - Z.to_nat m), Z.of_nat (length l), 1%Z)).
  { unfold slice_bounds, slice_from. simpl. unfold clip_bound. simpl.
    destruct (Z.ltb_spec (-m) 0); [|lia].
    destruct (Z.ltb_spec (-m + Z.of_nat (length l)) 0); [lia|]. do 3 f_equal. lia. }
  rewrite (py_slice_range l (slice_from _) _ _ eq_refl E) by lia. f_equal.
  apply firstn_all2. rewrite skipn_length. lia.
Qed.

Lemma py_slice_all {A} (l : list A) : py_slice l (slice_from 0) = Ok l.
Proof.
  assert (E : slice_bounds (Z.of_nat (length l)) (slice_from 0)
    = Ok (Z.of_nat 0, Z.of_nat (length l), 1%Z)).
  { unfold slice_bounds, slice_from. simpl. unfold clip_bound. simpl.
    destruct (Z.leb_spec (Z.of_nat (length l)) 0); do 3 f_equal; lia. }
  rewrite (py_slice_range l (slice_from _) _ _ eq_refl E) by lia. f_equal. rewrite Nat.sub_0_r. cbn [skipn].
  apply firstn_all.
Qed.

Lemma py_index_nth {A} (l : list A) k a : nth_error l k = Some a -> py_index l (Z.of_nat k) = Ok a.
Proof.
  intros H. assert (k < length l)%nat by (apply nth_error_Some; congruence).
  unfold py_index. destruct (Z.ltb_spec (Z.of_nat k) 0); [lia|].
  assert (R : in_range 0 (Z.of_nat (length l)) (Z.of_nat k) = true) by (apply in_range_spec; lia).
  rewrite R, Nat2Z.id, H. easy.
Qed.
Lemma py_index_z {A} (l : list A) i a : (0 <= i)%Z -> nth_error l (Z.to_nat i) = Some a -> py_index l i = Ok a.
Proof. intros H E. rewrite <- (Z2Nat.id i H). now apply py_index_nth. Qed.
(* py_index is indexing with the position counted from the end *)
Lemma py_index_from_end {A} (l : list A) i :
  py_index l i = match nth_error l (Z.to_nat (from_end (Z.of_nat (length l)) i)) with
                 | Some a => if (from_end (Z.of_nat (length l)) i <? 0)%Z then Err IndexError else Ok a
                 | None => Err IndexError
                 end.
Proof.
  unfold py_index, from_end. set (j := if (i <? 0)%Z then (i + Z.of_nat (length l))%Z else i).
  unfold in_range. destruct (Z.leb_spec 0 j), (Z.ltb_spec j (Z.of_nat (length l))); simpl;
    destruct (Z.ltb_spec j 0); try lia; destruct (nth_error l (Z.to_nat j)) eqn:E; try easy.
  assert (Z.to_nat j < length l)%nat by (apply nth_error_Some; congruence). lia.
Qed.
