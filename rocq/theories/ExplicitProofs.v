(* Explicit vocabularies without n-grams cannot be loaded again. *)
From Coq Require Import Lia.
From Verif Require Import Py PyProofs Utf8 Utf8Proofs IO IOProofs Arr Subword Vocab VocabProofs
  Storage StorageProofs Chunks Embeddings Spec ReaderProofs EmbeddingsProofs FindProofs
  LoaderProofs ExtendProofs.

Lemma explicit_empty_read ws idx mn mx index ix p out d :
  (forall i, index = Some i -> dict_wf i) ->
  ex_new [] mn mx index = Ok ix ->
  explicit_vocab_new ws ix = Ok (VExplicit ws idx ix) ->
  explicit_vocab_write_chunk ws ix p = (out, Ok tt) -> at_pos d p out -> lenN d < ssize_limit ->
  fields_at d p [fU32; fU64] [chunk_id_val CExplicitSubwordVocab; Z.of_N (lenN out - 12)]
  /\ explicit_vocab_read_chunk d (p + 12) = Err ValueError.
Proof.
  intros Hd He Hv H A L. unfold explicit_vocab_write_chunk in H.
  destruct (ex_new_inv _ _ _ _ _ Hd He) as ((I1 & I2 & I3 & I4 & I5) & En & E1 & E2 & _).
  apply wlet_ok in H as (size & Hs & H). apply wlet_ok in H as (nsize & Hns & H).
  apply wseq_ok in H as (b1 & b2 & H1 & H & ->). apply write_binary_ok in H1.
  apply wseq_ok in H as (b3 & b4 & H2 & H3 & ->).
  assert (L1 : lenN b1 = 36) by (now apply pack_lenN in H1).
  apply at_pos_app in A as [A1 A]. apply at_pos_app in A as [A3 A4].
  destruct (words_roundtrip _ _ _ _ H2 A3 L) as (R & n & Hn & Ln).
  rewrite En in *. simpl in H3. unfold wret in H3. injection H3 as <-.
  rewrite (calculate_size _ _ _ Hs Hn) in H1.
  unfold calculate_binary_list_size in Hns. simpl in Hns. injection Hns as <-.
  assert (F : fields_at d p [fU32; fU64; fU64; fU64; fU32; fU32]
      [chunk_id_val CExplicitSubwordVocab; Z.of_N (n + 8 + lenN ws * 4 + 8 + 8);
       Z.of_nat (length ws); 0%Z; Z.of_N (ex_min_n ix); Z.of_N (ex_max_n ix)])
    by (exists b1; auto).
  apply fields_u32 in F as [F1 F]. apply fields_u64 in F as [F2 F].
  rewrite !lenN_app, L1, Ln. split.
  - apply fields_u32. split; [easy|].
    replace (36 + (n + lenN ws * 4 + lenN []) - 12) with (n + 8 + lenN ws * 4 + 8 + 8)
      by (change (lenN (@nil byte)) with 0; lia). easy.
  - unfold explicit_vocab_read_chunk. replace (p + 12) with (p + 4 + 8) by lia.
    erewrite rbind_step by (eapply read4_at; try exact F; easy). cbn beta iota.
    replace (Z.to_N (Z.of_nat (length ws))) with (lenN ws) by (unfold lenN; lia).
    rewrite L1 in R.
    replace (p + 4 + 8 + N.of_nat (field_size fU64 + (field_size fU64 + (field_size fU32 + field_size fU32))))
      with (p + 36) by (simpl; lia).
    rstep R. unfold read_items_with_indices. erewrite rbind_step by reflexivity.
    cbn beta iota. unfold rbind, rlift, ex_new.
    assert (X : py_assert ((Z.of_N (ex_min_n ix) <=? Z.of_N (ex_max_n ix)) && (0 <? Z.of_N (ex_min_n ix)))%Z = Ok tt).
    { apply range_check. lia. }
    rewrite X. cbn [bind]. rewrite !to_uint32_of_N by lia. reflexivity.
Qed.

(* every stand-alone loader fails on it *)
Lemma explicit_empty_file ws mn mx index ix v out :
  (forall i, index = Some i -> dict_wf i) ->
  ex_new [] mn mx index = Ok ix -> explicit_vocab_new ws ix = Ok v ->
  run_writer (chunk_write (vocab_chunk_id v) (vocab_write_chunk v)) = (out, Ok tt) ->
  lenN out < ssize_limit ->
  run_reader load_vocab out = Err ValueError /\ run_reader load_explicit_vocab out = Err ValueError.
Proof.
  intros Hd He Hv H L. pose proof Hv as Hv'. unfold explicit_vocab_new in Hv'.
  apply bind_ok in Hv' as (idx & _ & Hv'). injection Hv' as <-.
  destruct (chunk_file _ _ _ H L) as (_ & body & Hw & A & _ & Hf).
  destruct (explicit_empty_read _ _ _ _ _ _ _ _ _ Hd He Hv Hw A L) as [F R].
  unfold run_reader, load_explicit_vocab, load_vocab, load_vocab_of.
  rewrite (rbind_step _ _ _ _ _ _ (Hf _ vocab_ids (vocab_id_in (VExplicit ws idx ix)) F)).
  rewrite (rbind_step _ _ _ _ _ _ (Hf _ [CExplicitSubwordVocab] (or_introl eq_refl) F)).
  change (16 + 12) with 28 in R. cbn [vocab_read_chunk vocab_chunk_id]. now rewrite R.
Qed.
