(* Facts about vocabularies accepted by the constructors. *)
From Coq Require Import Lia.
From Verif Require Import Py PyProofs Utf8 Utf8Proofs IO IOProofs Arr Subword Vocab VocabProofs
  Storage Chunks Embeddings Spec SpecVocab.

Lemma enumerate_length {A} (l : list A) : length (enumerate l) = length l.
Proof. apply enumerate_from_length. Qed.
Lemma enumerate_fst {A} (l : list A) : map fst (enumerate l) = l.
Proof. apply enumerate_from_fst. Qed.
Lemma In_enumerate {A} (l : list A) a i :
  In (a, i) (enumerate l) <-> (0 <= i)%Z /\ nth_error l (Z.to_nat i) = Some a.
Proof.
  split.
  - intros H. apply In_nth_error in H as [k H]. rewrite enumerate_nth in H.
    destruct (nth_error l k) as [b|] eqn:E; [|easy]. injection H as -> <-.
    split; [lia|]. now rewrite Nat2Z.id.
  - intros [Hi H]. apply (nth_error_In _ (Z.to_nat i)). rewrite enumerate_nth, H, Z2Nat.id; easy.
Qed.
Lemma sget_enumerate ws w i :
  NoDup ws -> (sget w (enumerate ws) = Some i <-> (0 <= i)%Z /\ nth_error ws (Z.to_nat i) = Some w).
Proof.
  intros H. rewrite <- In_enumerate. split.
  - apply (dget_In str_eqb str_eqb_eq).
  - apply (In_dget str_eqb str_eqb_eq). now rewrite enumerate_fst.
Qed.

Lemma enumerate_indexed ws : NoDup ws -> indexed_words ws (enumerate ws).
Proof. intros H. split; [easy|]. intros. now apply sget_enumerate. Qed.

(* the index of every vocabulary is the enumeration of its words *)
Lemma built_vocab_index v :
  built_vocab v -> NoDup (vocab_words v) /\ vocab_index v = enumerate (vocab_words v).
Proof.
  assert (X : forall ws (k : dict str Z -> vocab) v,
    (idx <- validate_items_and_create_index ws ;; Ok (k idx)) = Ok v ->
    NoDup ws /\ v = k (enumerate ws)).
  { intros ws k w H. apply bind_ok in H as (idx & H & E). injection E as <-.
    apply validate_ok in H as [H ->]. auto. }
  intros [ws w H|ws e mn mx ix w _ H|ws b mn mx ix w _ H|ws g mn mx i ix w _ _ H].
  - apply (X ws (VSimple ws)) in H as [H ->]. auto.
  - apply (X ws (fun i => VBucket ws i ix)) in H as [H ->]. auto.
  - apply (X ws (fun i => VFastText ws i ix)) in H as [H ->]. auto.
  - apply (X ws (fun i => VExplicit ws i ix)) in H as [H ->]. auto.
Qed.

Lemma built_indexed v : built_vocab v -> indexed_words (vocab_words v) (vocab_index v).
Proof. intros H. apply built_vocab_index in H as [H ->]. now apply enumerate_indexed. Qed.
Lemma built_len v : built_vocab v -> vocab_len v = lenN (vocab_words v).
Proof.
  intros H. apply built_vocab_index in H as [_ E]. unfold vocab_len, lenN.
  now rewrite E, enumerate_length.
Qed.

(* ---------------------------------------------------------------- *)
(* the explicit indexer                                              *)

Definition zrange (n : nat) : list Z := map Z.of_nat (seq 0 n).
Lemma zrange_In n i : In i (zrange n) <-> (0 <= i < Z.of_nat n)%Z.
Proof.
  unfold zrange. rewrite in_map_iff. split.
  - intros (k & <- & H). apply in_seq in H. lia.
  - intros H. exists (Z.to_nat i). split; [lia|]. apply in_seq. lia.
Qed.
Lemma zrange_length n : length (zrange n) = n.
Proof. unfold zrange. now rewrite map_length, seq_length. Qed.

Lemma sget_values (d : dict str Z) i :
  dict_wf d -> (In i (map snd d) <-> exists g, sget g d = Some i).
Proof.
  intros W. rewrite in_map_iff. split.
  - intros ([g j] & <- & H). exists g. now apply (In_dget str_eqb str_eqb_eq).
  - intros (g & H). exists (g, i). split; [easy|]. now apply (dget_In str_eqb str_eqb_eq).
Qed.

Lemma ex_new_covers ngrams mn mx index ix :
  (forall i, index = Some i -> dict_wf i) ->
  (forall i, index = Some i -> Forall (fun kv => 0 <= snd kv)%Z i) ->
  ex_new ngrams mn mx index = Ok ix ->
  covers (ex_ngrams ix) (ex_index ix) (ex_bound ix).
Proof.
  intros Hd Hn H. destruct (ex_new_inv _ _ _ _ _ Hd H) as ((N1 & N2 & K & _) & En & _ & _ & Ei).
  split; [easy|]. split.
  { intros g. rewrite <- K. split.
    - apply (dget_Some_In str_eqb str_eqb_eq).
    - intros (i & Hi). apply (dget_In str_eqb str_eqb_eq) in Hi. now apply (in_map fst) in Hi. }
  intros i. rewrite <- (sget_values _ _ N2).
  unfold ex_new in H. apply bind_ok in H as (u & _ & H). apply bind_ok in H as (a & _ & H).
  apply bind_ok in H as (b & _ & H). destruct index as [d|].
  - apply bind_ok in H as (u1 & _ & H). apply bind_ok in H as (u2 & _ & H).
    apply bind_ok in H as (m & Hm & H). apply bind_ok in H as (u3 & Hu & H).
    apply py_assert_ok, Z.eqb_eq in Hu. injection H as <-. simpl.
    apply py_max_spec in Hm as [Im Bm].
    set (vals := dedup Z.eqb (map snd d)) in *.
    assert (I : incl vals (zrange (length vals))).
    { intros x Hx. unfold vals in Hx. rewrite (dedup_In Z.eqb Zeqb_eq) in Hx.
      apply zrange_In. split.
      - apply in_map_iff in Hx as ([g y] & <- & Hx). specialize (Hn d eq_refl).
        rewrite Forall_forall in Hn. apply (Hn _ Hx).
      - apply Bm in Hx. lia. }
    assert (I2 : incl (zrange (length vals)) vals).
    { apply NoDup_length_incl; [apply (dedup_NoDup Z.eqb Zeqb_eq)|rewrite zrange_length; lia|easy]. }
    rewrite <- (dedup_In Z.eqb Zeqb_eq). fold vals. rewrite Hu. rewrite <- zrange_In. split; auto.
  - apply bind_ok in H as (u1 & Hu & H). injection H as <-. simpl in Ei |- *. rewrite Ei.
    rewrite enumerate_length. rewrite <- zrange_In. unfold enumerate.
    assert (E : forall k (l : list str), map snd (enumerate_from k l) = map (fun j => (k + Z.of_nat j)%Z) (seq 0 (length l))).
    { clear. intros k l. revert k. induction l as [|x l IH]; intros k; [easy|]. simpl. f_equal; [lia|].
      rewrite IH, <- seq_shift, map_map. apply map_ext. intros; lia. }
    rewrite E. unfold zrange. split; intros X; exact X.
Qed.

Lemma ex_range ngrams mn mx index ix :
  (forall i, index = Some i -> dict_wf i) ->
  ex_new ngrams mn mx index = Ok ix -> ngram_range (ex_min_n ix) (ex_max_n ix).
Proof. intros Hd H. destruct (ex_new_inv _ _ _ _ _ Hd H) as ((_ & _ & _ & R & R') & _). split; easy. Qed.

Lemma built_indexer v : built_vocab v -> nonneg_index v -> consistent_indexer v.
Proof.
  intros B N. destruct B as [ws v Hv|ws e mn mx ix v Hi Hv|ws b mn mx ix v Hi Hv|ws gs mn mx index ix v Hd Hi Hv].
  - unfold simple_vocab_new in Hv. apply bind_ok in Hv as (idx & _ & E). now injection E as <-.
  - unfold bucket_vocab_new in Hv. apply bind_ok in Hv as (idx & _ & E). injection E as <-.
    apply ff_new_ok in Hi. simpl. unfold ngram_range. lia.
  - unfold fasttext_vocab_new in Hv. apply bind_ok in Hv as (idx & _ & E). injection E as <-.
    apply ft_new_ok in Hi. simpl. unfold ngram_range. lia.
  - unfold explicit_vocab_new in Hv. apply bind_ok in Hv as (idx & _ & E). injection E as <-.
    simpl in *. split; [eapply ex_range; eauto|].
    eapply ex_new_covers; eauto. intros i ->.
    destruct (ex_new_inv _ _ _ _ _ Hd Hi) as (_ & _ & _ & _ & Ei). now rewrite <- Ei.
Qed.

Lemma upper_bound_rows v : built_vocab v ->
  vocab_upper_bound v = (Z.of_nat (n_words v) + subword_rows v)%Z.
Proof.
  intros B. unfold vocab_upper_bound. rewrite (built_len _ B). unfold n_words, lenN.
  rewrite nat_N_Z. destruct v; simpl; try easy. unfold ff_upper_bound. rewrite N2Z.inj_pow. easy.
Qed.

Lemma built_consistent {F} (e : embeddings F) :
  built_embeddings e -> nonneg_index (em_vocab e) -> consistent e.
Proof.
  intros (WS & BV & _ & EN) NN. unfold embeddings_new in EN.
  apply bind_ok in EN as (u & E1 & EN). apply bind_ok in EN as (u2 & E2 & _).
  apply py_assert_ok, Z.eqb_eq in E1. rewrite (upper_bound_rows _ BV) in E1.
  constructor.
  - now apply built_indexed.
  - now apply built_indexer.
  - easy.
  - rewrite <- E1. destruct (em_storage e); simpl; unfold lenN; lia.
  - intros n Hn. rewrite Hn in E2. unfold norms_compat in E2.
    apply bind_ok in E2 as (u3 & _ & E2). apply py_assert_ok, N.eqb_eq in E2.
    rewrite (built_len _ BV) in E2. unfold n_words, lenN in *. lia.
Qed.
