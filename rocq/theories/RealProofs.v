(* Lookup in exact arithmetic. *)
From Coq Require Import Reals Lra Lia.
From Verif Require Import Py PyProofs Arr Vocab Storage Chunks Embeddings
  Spec SpecVocab SpecLookup SpecReal LookupProofs SimProofs.

Lemma sum_squares_nonneg x : (0 <= sum_squares x)%R.
Proof.
  induction x as [|a x IH]; simpl; [lra|]. pose proof (Rle_0_sqr a) as H. unfold Rsqr in H. lra.
Qed.
Lemma sum_squares_pos x : Exists (fun a => a <> 0%R) x -> (0 < sum_squares x)%R.
Proof.
  induction 1 as [a x H|a x H IH]; simpl.
  - pose proof (Rsqr_pos_lt a H) as P. unfold Rsqr in P. pose proof (sum_squares_nonneg x). lra.
  - pose proof (Rle_0_sqr a) as P. unfold Rsqr in P. lra.
Qed.
Lemma sum_squares_div x n : (n <> 0)%R -> (sum_squares (map (fun a => a / n) x) = sum_squares x / (n * n))%R.
Proof. intros H. induction x as [|a x IH]; simpl; [field; easy|]. rewrite IH. now field. Qed.

Lemma normalised s : Exists (fun a => a <> 0%R) s ->
  let n := fnorm r_ops s in
  let v := map (fun x => fdiv r_ops x n) s in
  (0 < n)%R /\ (n * n = sum_squares s)%R /\ (sum_squares v = 1)%R /\ map (fun x => n * x)%R v = s.
Proof.
  intros H n v. pose proof (sum_squares_pos s H) as P.
  assert (N : (n * n = sum_squares s)%R) by (apply sqrt_sqrt; lra).
  assert (N0 : (0 < n)%R) by (now apply sqrt_lt_R0). split; [easy|]. split; [easy|]. split.
  - unfold v. simpl. rewrite sum_squares_div, N by lra. now field; lra.
  - unfold v. rewrite map_map. simpl. rewrite <- (map_id s) at 2. apply map_ext. intros a. field. lra.
Qed.

Lemma unit_embedding (e : embeddings R) w l d dn rows s :
  built_embeddings e -> valid_codes (em_storage e) ->
  nonneg_index (em_vocab e) -> machine_size (em_vocab e) ->
  ~ In w (vocab_words (em_vocab e)) -> has_subwords (em_vocab e) w l ->
  rows_at r_ops (em_storage e) l rows -> is_sum r_ops (N.to_nat (em_dims e)) rows s ->
  Exists (fun a => a <> 0%R) s ->
  exists v n, (0 < n)%R /\ (n * n = sum_squares s)%R /\ sum_squares v = 1%R /\ map (fun x => n * x)%R v = s
    /\ em_getitem r_ops e w = Ok v
    /\ em_embedding r_ops e w d = Ok (Some v)
    /\ (em_norms e <> None -> em_embedding_with_norm r_ops e w dn = Ok (Some (v, Some n))).
Proof.
  intros BE V N M H S Hr Hs Ne.
  destruct (embedding_unknown r_ops e w l d dn BE V N M H S) as (rows' & s' & Hr' & Hs' & E1 & E2 & E3).
  assert (rows' = rows) as ->.
  { unfold rows_at in *. clear -Hr Hr'. revert rows' Hr'. induction Hr as [|i r l rows Hi Hr IH]; intros rows' H.
    - now inversion H.
    - inversion H as [|i' r' l' t' H1 H2]; subst. rewrite Hi in H1. injection H1 as <-. f_equal. auto. }
  assert (s' = s) as -> by (eapply is_sum_unique; eauto).
  destruct (normalised s Ne) as (P1 & P2 & P3 & P4). do 2 eexists. eauto 10.
Qed.

(* real numbers are ordered *)
Lemma r_ordered l : ordered_on r_ops l.
Proof.
  split; simpl.
  - intros a b _ _. destruct (Rle_dec a b), (Rle_dec b a); auto. lra.
  - intros a b c _ _ _. destruct (Rle_dec a b), (Rle_dec b c), (Rle_dec a c); auto. lra.
Qed.
Lemma r_le a b : fle r_ops a b = true <-> (a <= b)%R.
Proof. simpl. destruct (Rle_dec a b); easy. Qed.
