(* Concrete embeddings, buffers and oracles for the theorems about lookups. *)
From Coq Require Import Lia Sorted Permutation Reals Lra.
From Verif Require Import Py PyProofs Utf8 IO Arr ArrProofs Subword Vocab Storage Chunks Embeddings Heap
  Spec SpecVocab SpecLookup SpecHeap SpecReal Samples VocabWitness LoaderProofs.
Local Open Scope N_scope.

(* ---------------------------------------------------------------- *)
(* an argpartition and a heappush that meet their contracts          *)

Section Sorting.
  Context {F : Type} (o : fops F).
  Definition key (sims : list F) (i : nat) : F := nth i sims (fzero o).
  Fixpoint ins (sims : list F) (i : nat) (l : list nat) : list nat :=
    match l with
    | [] => [i]
    | j :: l' => if fle o (key sims i) (key sims j) then i :: l else j :: ins sims i l'
    end.
  Definition argsort (sims : list F) (_ : nat) : list nat :=
    fold_right (ins sims) [] (seq 0 (length sims)).
  Definition push (h : list (str * F)) (x : str * F) : list (str * F) := x :: h.

  Lemma ins_perm sims i l : Permutation (ins sims i l) (i :: l).
  Proof.
    induction l as [|j l IH]; simpl; [easy|]. destruct (fle o _ _); [easy|]. rewrite IH. apply perm_swap.
  Qed.
  Lemma argsort_perm sims k : Permutation (argsort sims k) (seq 0 (length sims)).
  Proof.
    unfold argsort. induction (seq 0 (length sims)) as [|i l IH]; simpl; [easy|]. rewrite ins_perm. now constructor.
  Qed.
  Lemma ins_sorted sims i l : ordered_on o sims -> (i < length sims)%nat ->
    Forall (fun j => (j < length sims)%nat) l ->
    StronglySorted (fun a b => fle o (key sims a) (key sims b) = true) l ->
    StronglySorted (fun a b => fle o (key sims a) (key sims b) = true) (ins sims i l).
  Proof.
    intros [T Tr] Hi Hl H. assert (K : forall j, (j < length sims)%nat -> In (key sims j) sims) by (intros; now apply nth_In).
    induction H as [|j l H IH HF]; simpl; [constructor; constructor|].
    pose proof (Forall_inv Hl) as Hj. apply Forall_inv_tail in Hl. destruct (fle o (key sims i) (key sims j)) eqn:E.
    - constructor; [now constructor|]. constructor; [easy|]. rewrite Forall_forall in *. intros x Hx.
      apply (Tr _ (key sims j)); auto.
    - constructor; [auto|]. apply Forall_forall. intros x Hx. apply (Permutation_in _ (ins_perm sims i l)) in Hx.
      destruct Hx as [<-|Hx]; [|rewrite Forall_forall in HF; auto].
      destruct (T (key sims i) (key sims j)); auto. congruence.
  Qed.
  Lemma argsort_sorted sims k : ordered_on o sims ->
    StronglySorted (fun a b => fle o (key sims a) (key sims b) = true) (argsort sims k).
  Proof.
    intros O. unfold argsort. assert (B : Forall (fun j => (j < length sims)%nat) (seq 0 (length sims))).
    { apply Forall_forall. intros x Hx. apply in_seq in Hx. lia. }
    induction (seq 0 (length sims)) as [|i l IH]; simpl; [constructor|].
    pose proof (Forall_inv B) as Bi. apply Forall_inv_tail in B. apply ins_sorted; auto.
    apply Forall_forall. intros x Hx. rewrite Forall_forall in B. apply B. clear -Hx.
    induction l as [|j l IHl]; simpl in *; [easy|]. apply (Permutation_in _ (ins_perm sims j _)) in Hx.
    destruct Hx as [<-|Hx]; auto.
  Qed.
  Lemma sorted_nth {A} (R : A -> A -> Prop) l : StronglySorted R l ->
    forall i j a b, (i < j)%nat -> nth_error l i = Some a -> nth_error l j = Some b -> R a b.
  Proof.
    induction 1 as [|x l H IH HF]; intros [|i] [|j] a b L Ha Hb; simpl in *; try easy; try lia.
    - injection Ha as <-. rewrite Forall_forall in HF. apply HF. now apply nth_error_In in Hb.
    - eapply IH; [|eassumption|eassumption]. lia.
  Qed.
  Lemma argsort_partitions : partitions o argsort.
  Proof.
    intros sims kth L p. split; [apply argsort_perm|]. intros O i c a x y Hc Hy Ha Hx.
    pose proof (argsort_sorted sims kth O) as S. fold p in S.
    assert (K : forall j z, nth_error sims j = Some z -> key sims j = z) by (intros; now apply nth_error_nth).
    split; intros H.
    - pose proof (sorted_nth _ _ S i kth a c H Ha Hc) as R. cbv beta in R. now rewrite (K a x Hx), (K c y Hy) in R.
    - pose proof (sorted_nth _ _ S kth i c a H Hc Ha) as R. cbv beta in R. now rewrite (K a x Hx), (K c y Hy) in R.
  Qed.
  Lemma push_pushes : pushes push.
  Proof. intros h x. easy. Qed.
End Sorting.

Lemma z_ordered l : ordered_on z_ops l.
Proof. split; simpl; intros; rewrite ?Z.leb_le in *; lia. Qed.

(* ---------------------------------------------------------------- *)
(* array storages                                                    *)

(* words ab, ce, d *)
Definition e_sim : embeddings Z :=
  Emb (SNd (NdA BoNative 2 [[1; 0]; [3; 1]; [2; 2]]%Z)) v_simple (Some (Norms BoNative [5; 6; 7]%Z)) None.
Lemma e_sim_built : built_embeddings e_sim.
Proof. split; [simpl; wf|]. split; [apply v_simple_built|]. split; [|reflexivity]. intros n [= <-]. easy. Qed.

(* words ab, ce and 2 buckets; an array of 4 rows *)
Definition e_sub : embeddings Z :=
  Emb (SNd (NdA BoNative 2 [[1; 2]; [3; 4]; [5; 6]; [7; 8]]%Z)) v_bucket (Some (Norms BoNative [9; 10]%Z)) None.
Lemma e_sub_built : built_embeddings e_sub.
Proof. split; [simpl; wf|]. split; [apply v_bucket_built|]. split; [|reflexivity]. intros n [= <-]. easy. Qed.

(* fastText vocabulary with the word "ce" *)
Definition e_ft : embeddings Z :=
  Emb (SNd (NdA BoNative 1 [[1]; [2]; [3]; [4]]%Z)) v_fasttext None None.
Lemma e_ft_built : built_embeddings e_ft.
Proof. split; [simpl; wf|]. split; [apply v_fasttext_built|]. split; [|reflexivity]. easy. Qed.
Lemma surrogate_query : em_embedding z_ops e_ft [55296] None = Err UnicodeEncodeError.
Proof. vm_compute. reflexivity. Qed.

(* a quantizer with projection, and norms *)
Definition zq_proj : qarray Z :=
  QA (PQ BoNative 2 1 [[[1]; [2]]; [[3]; [5]]]%Z (Some (BoNative, [[0; 1]; [1; 1]]%Z))) 2
     [[x00; x01]; [x01; x01]; [x00; x00]; [x01; x00]] (Some (BoNative, [1; 2; 3; 4]%Z)).

(* ---------------------------------------------------------------- *)
(* real numbers                                                      *)

Definition e_real : embeddings R :=
  Emb (SNd (NdA BoNative 2 [[1; 2]; [3; 4]; [1; 2]; [1; 2]]%R)) v_bucket (Some (Norms BoNative [1; 1]%R)) None.
Lemma e_real_built : built_embeddings e_real.
Proof. split; [simpl; wf|]. split; [apply v_bucket_built|]. split; [|reflexivity]. intros n [= <-]. easy. Qed.
Lemma e_real_sample : exists l rows s,
  ~ In [97; 98; 99] (vocab_words v_bucket) /\ has_subwords v_bucket [97; 98; 99] l
  /\ rows_at r_ops (em_storage e_real) l rows /\ is_sum r_ops 2 rows s /\ Exists (fun a => a <> 0%R) s.
Proof.
  eexists. exists (repeat [1; 2]%R 6), [6; 12]%R.
  split; [intros [H|[H|[]]]; discriminate H|].
  split; [split; [|eexists; split; [vm_compute; reflexivity|reflexivity]]; vm_compute; discriminate|].
  split; [|split].
  - unfold rows_at. cbn [map sw_index repeat]. repeat (constructor; [reflexivity|]). constructor.
  - split; [reflexivity|]. intros j Hj. destruct j as [|[|j]]; [| |lia]; unfold column_sum; simpl; f_equal; lra.
  - constructor. lra.
Qed.

(* ---------------------------------------------------------------- *)
(* memory: a matrix of 4 rows, 2 norms and a buffer                  *)

Definition h_z : heap Z := [1; 2; 3; 4; 5; 6; 7; 8; 9; 10; 0; 0]%Z.
Definition he_z : hembeddings Z :=
  {| he_storage := HNd BoNative 2 [[0; 1]; [2; 3]; [4; 5]; [6; 7]]%nat; he_vocab := v_bucket;
     he_norms := Some (BoNative, [8; 9]%nat); he_metadata := None |}.
Definition out_z : aref := [11; 10]%nat.

Lemma he_z_value : he_value z_ops h_z he_z = e_sub.
Proof. reflexivity. Qed.
Ltac all_lt := repeat (constructor; [simpl; lia|]); constructor.
Lemma he_z_memory : in_memory h_z he_z.
Proof. split; unfold allocated; simpl; all_lt. Qed.
Lemma out_z_buffer : buffer h_z he_z out_z.
Proof. split; [unfold allocated, out_z; simpl; all_lt|]. split; [repeat constructor; simpl; intuition lia|reflexivity]. Qed.
Lemma out_z_disjoint : disjoint out_z (storage_cells he_z) /\ disjoint out_z (norms_cells he_z).
Proof. split; intros a; simpl; intuition lia. Qed.

(* ---------------------------------------------------------------- *)
(* norms with 64 bits per element: 1.0                               *)

Definition n_f64 : np_array :=
  NpArray DFloat64 BoNative [1] [[x00; x00; x00; x00; x00; x00; xf0; x3f]].
Definition n_f64_file : bytes := fst (run_writer (chunk_write CNdNorms (np_norms_write_chunk Little n_f64))).
Lemma n_f64_written : run_writer (chunk_write CNdNorms (np_norms_write_chunk Little n_f64)) = (n_f64_file, Ok tt).
Proof. vm_compute. reflexivity. Qed.
Lemma n_f64_loaded : run_reader (load_norms Little) n_f64_file = Ok (Norms BoNative [F32 x00 x00 x00 x00]).
Proof. vm_compute. reflexivity. Qed.

Lemma norms_dims a : norms_new a = Err TypeError <-> length (na_shape a) <> 1%nat.
Proof.
  unfold norms_new. cbn [bool_ne_class negb orb]. destruct (Nat.eqb_spec (length (na_shape a)) 1); split; easy.
Qed.

(* iteration over a quantized matrix with norms *)
Lemma iter_norms_ignored : exists row, storage_iter z_ops (SQuant zq) = Ok [[1; 5]; [2; 5]; [1; 3]; [2; 3]]%Z
  /\ storage_get z_ops (SQuant zq) 1 = Ok row /\ row = [4; 10]%Z.
Proof. eexists. repeat split. Qed.

Lemma norms_float32 h1 h2 bo vals out : bo_wf bo ->
  let a := NpArray DFloat32 bo [lenN vals] (f32s_le vals) in
  norms_new a = Ok a
  /\ (run_writer (chunk_write CNdNorms (np_norms_write_chunk h1 a)) = (out, Ok tt) -> lenN out < ssize_limit ->
      run_reader (load_norms h2) out = Ok (Norms BoNative vals)).
Proof.
  intros B a. split; [reflexivity|]. intros H L. exact (norms_file h1 h2 (Norms bo vals) out B H L).
Qed.

Lemma e_sim_similarities : all_similarities z_ops e_sim [1; 1]%Z [1; 4; 4]%Z.
Proof.
  split; [reflexivity|]. intros i s H.
  destruct i as [|[|[|i]]]; cbn in H; try (destruct i; discriminate); inversion H; subst; eexists; split; reflexivity.
Qed.

(* integer arithmetic with a norm of 1, so that division loses nothing *)
Definition z_ops1 : fops Z :=
  FOps Z 0%Z Z.add Z.sub Z.mul Z.div (fun z => z) Z.leb (fdot z_ops) (fun _ => 1%Z).
