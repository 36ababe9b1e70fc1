(* Which memory the results of lookups occupy; the out argument of quantized storages. *)
From Coq Require Import Lia.
From Verif Require Import Py PyProofs IO Arr Vocab Storage Chunks Embeddings Heap
  Spec SpecVocab SpecLookup SpecHeap WordProofs StorageGet HeapProofs VocabFacts.
From Verif Require ExplicitEmb LookupProofs ArrProofs.

Section Alias.
  Context {F : Type} (o : fops F).
  Notation heap := (heap F).

  (* ---------------------------------------------------------------- *)
  (* defaults                                                          *)

  Lemma no_index (e : hembeddings F) w h : em_embedding o (he_value o h e) w None = Ok None ->
    vocab_idx (he_vocab e) w = Ok None.
  Proof.
    intros H. unfold em_embedding in H. change (em_vocab (he_value o h e)) with (he_vocab e) in H.
    destruct (vocab_idx (he_vocab e) w) as [[i|]|]; cbn [bind] in H; try easy.
    apply bind_ok in H as ([x y] & H & E). easy.
  Qed.
  Theorem default_itself (e : hembeddings F) w h d dn :
    em_embedding o (he_value o h e) w None = Ok None ->
    he_embedding o e w None d h = (h, Ok d)
    /\ (he_norms e <> None -> he_embedding_with_norm o e w None dn h = (h, Ok dn)).
  Proof.
    intros H. apply no_index in H. split.
    - unfold he_embedding, hbind at 1, hlift. rewrite H. reflexivity.
    - intros N. unfold he_embedding_with_norm. destruct (he_norms e); [|easy].
      unfold hbind at 1, hlift. rewrite H. reflexivity.
  Qed.
  Theorem with_norm_none (e : hembeddings F) w out h :
    em_embedding o (he_value o h e) w None = Ok None -> he_norms e <> None ->
    he_embedding_with_norm o e w out None h = (h, Ok None).
  Proof.
    intros H N. apply no_index in H. unfold he_embedding_with_norm. destruct (he_norms e); [|easy].
    unfold hbind at 1, hlift. rewrite H. now destruct out.
  Qed.
  Theorem with_norm_default (e : hembeddings F) w out d x h :
    em_embedding o (he_value o h e) w None = Ok None -> he_norms e <> None ->
    buffer h e out -> length d = length out ->
    exists h', he_embedding_with_norm o e w (Some out) (Some (d, x)) h = (h', Ok (Some (out, x)))
      /\ h_read o h' out = h_read o h d.
  Proof.
    intros H N (A & ND & _) L. apply no_index in H. unfold he_embedding_with_norm. destruct (he_norms e); [|easy].
    unfold hbind at 1, hlift. rewrite H. unfold hbind, hget, hret.
    assert (L' : length (h_read o h d) = length out) by (unfold h_read; now rewrite map_length).
    rewrite assign_ok by easy. eexists. split; [reflexivity|]. now apply write_read.
  Qed.

  (* ---------------------------------------------------------------- *)
  (* views                                                             *)

  Lemma known_idx v k w : built_vocab v -> nth_error (vocab_words v) k = Some w ->
    vocab_idx v w = Ok (Some (IdxInt (Z.of_nat k))) /\ vocab_getitem v w = Ok (IdxInt (Z.of_nat k)).
  Proof.
    intros B H. assert (I : sget w (vocab_index v) = Some (Z.of_nat k)).
    { apply (sget_words v w _ B). rewrite Nat2Z.id. split; [lia|exact H]. }
    destruct v; cbn [vocab_index] in I; cbn; rewrite I; split; reflexivity.
  Qed.
  Theorem known_view (e : hembeddings F) bo c rows k w r h :
    built_vocab (he_vocab e) -> he_storage e = HNd bo c rows ->
    nth_error (vocab_words (he_vocab e)) k = Some w -> nth_error rows k = Some r ->
    (forall b n, he_norms e = Some (b, n) -> (k < length n)%nat) ->
    he_getitem o e w h = (h, Ok r) /\ (forall d, he_embedding o e w None d h = (h, Ok (Some r)))
    /\ (he_norms e <> None -> forall d, exists n, he_embedding_with_norm o e w None d h = (h, Ok (Some (r, n)))).
  Proof.
    intros B HS HW HR HN. destruct (known_idx _ k w B HW) as [I1 I2].
    assert (X : exists n, he_embedding_at o e (IdxInt (Z.of_nat k)) None h = (h, Ok (r, n))).
    { unfold he_embedding_at. rewrite HS. cbn [hstorage_get]. unfold hbind at 1, hlift.
      rewrite (ArrProofs.py_index_nth rows k r HR). unfold hbind at 1, hret.
      destruct (he_norms e) as [[b n]|]; [|eexists; reflexivity].
      specialize (HN b n eq_refl). destruct (nth_error n k) as [a|] eqn:E; [|apply nth_error_None in E; lia].
      unfold hbind at 1, hlift. rewrite (ArrProofs.py_index_nth n k a E). eexists. reflexivity. }
    destruct X as [n X]. split; [|split].
    - unfold he_getitem, hbind at 1, hlift. rewrite I2. unfold hbind. rewrite X. reflexivity.
    - intros d. unfold he_embedding, hbind at 1, hlift. rewrite I1. unfold hbind. rewrite X. reflexivity.
    - intros N d. exists n. unfold he_embedding_with_norm. destruct (he_norms e); [|easy].
      unfold hbind at 1, hlift. rewrite I1. unfold hbind. rewrite X. reflexivity.
  Qed.

  Lemma idx_int_known v w i : built_vocab v -> vocab_idx v w = Ok (Some (IdxInt i)) -> In w (vocab_words v).
  Proof.
    intros B H. assert (I : sget w (vocab_index v) = Some i).
    { destruct v; cbn [vocab_idx vocab_index] in H |- *.
      - destruct (sget w index); [congruence|discriminate].
      - destruct (sget w index); [congruence|]. destruct (vocab_subword_indices _ _ _ _) as [[|? ?]|]; discriminate.
      - destruct (sget w index); [congruence|]. destruct (vocab_subword_indices _ _ _ _) as [[|? ?]|]; discriminate.
      - destruct (sget w index); [congruence|]. destruct (vocab_subword_indices _ _ _ _) as [[|? ?]|]; discriminate. }
    apply (sget_words v w _ B) in I as [_ I]. now apply nth_error_In in I.
  Qed.
  Lemma getitem_idx v w i : vocab_getitem v w = Ok i -> vocab_idx v w = Ok (Some i).
  Proof.
    destruct v; cbn [vocab_idx vocab_getitem].
    - destruct (sget w index); [congruence|discriminate].
    - destruct (sget w (vocab_index _)); [congruence|]. destruct (vocab_subword_indices _ _ _ _) as [[|? ?]|]; cbn [bind]; congruence.
    - destruct (sget w (vocab_index _)); [congruence|]. destruct (vocab_subword_indices _ _ _ _) as [[|? ?]|]; cbn [bind]; congruence.
    - destruct (sget w (vocab_index _)); [congruence|]. destruct (vocab_subword_indices _ _ _ _) as [[|? ?]|]; cbn [bind]; congruence.
  Qed.

  (* otherwise the result is a new array *)
  Lemma fresh_at (e : hembeddings F) idx h h' r n :
    he_embedding_at o e idx None h = (h', Ok (r, n)) ->
    (exists i, idx = IdxInt i) /\ (exists bo c rows, he_storage e = HNd bo c rows)
    \/ NoDup r /\ Forall (fun a => (length h <= a)%nat) r.
  Proof.
    assert (SQ : forall a b, NoDup (seq a b) /\ Forall (fun x => (a <= x)%nat) (seq a b)).
    { intros a b. split; [apply seq_NoDup|]. apply Forall_forall. intros x Hx. apply in_seq in Hx. lia. }
    unfold he_embedding_at. destruct idx as [i|l].
    - destruct (he_storage e) as [bo c rows|q] eqn:HS; [intros _; left; split; [now exists i|]; now exists bo, c, rows|].
      intros H. right. cbn [hstorage_get] in H. unfold hbind at 1 2, hlift in H.
      destruct (qa_embedding o q i) as [v|]; [|discriminate]. unfold halloc in H at 1. unfold hbind at 1, hret in H.
      destruct (he_norms e) as [[b ns]|].
      + unfold hbind at 1, hlift in H. destruct (py_index ns i); [|discriminate]. unfold hbind, hget in H.
        injection H as _ <- _. apply SQ.
      + injection H as _ <- _. apply SQ.
    - intros H. right. unfold hbind at 1 in H. destruct (hstorage_get_list o (he_storage e) l h) as [h1 [res|]] eqn:G; [|discriminate].
      assert (h1 = h) as ->.
      { destruct (he_storage e); cbn in G; unfold hbind, hlift in G; [destruct (mapM _ _); injection G; easy|injection G; easy]. }
      cbv zeta in H. unfold hbind at 1, halloc in H. unfold hbind at 1, hget in H. unfold hbind at 1 in H.
      rewrite assign_ok in H by (unfold vdiv, h_read; now rewrite !map_length).
      unfold hret in H. injection H as _ <- _. apply SQ.
  Qed.
  Theorem unknown_fresh (e : hembeddings F) w h h' r :
    built_vocab (he_vocab e) -> (~ In w (vocab_words (he_vocab e)) \/ exists q, he_storage e = HQuant q) ->
    (he_getitem o e w h = (h', Ok r)
     \/ (exists n d, he_embedding_with_norm o e w None d h = (h', Ok (Some (r, n)))
          /\ em_embedding o (he_value o h e) w None <> Ok None)
     \/ (exists d, he_embedding o e w None d h = (h', Ok (Some r))
          /\ em_embedding o (he_value o h e) w None <> Ok None)) ->
    NoDup r /\ Forall (fun a => (length h <= a)%nat) r.
  Proof.
    intros B C H.
    assert (X : exists idx n, vocab_idx (he_vocab e) w = Ok (Some idx) /\ he_embedding_at o e idx None h = (h', Ok (r, n))).
    { destruct H as [H|[(n & d & H & N)|(d & H & N)]].
      - unfold he_getitem, hbind at 1, hlift in H.
        destruct (vocab_getitem (he_vocab e) w) as [idx|] eqn:I; [|discriminate]. apply getitem_idx in I.
        unfold hbind in H. destruct (he_embedding_at o e idx None h) as [h1 [[r1 n1]|]] eqn:A; [|discriminate].
        cbn in H. injection H as <- <-. now exists idx, n1.
      - unfold he_embedding_with_norm in H. destruct (he_norms e); [|discriminate].
        unfold hbind at 1, hlift in H. destruct (vocab_idx (he_vocab e) w) as [[idx|]|] eqn:I; [| |discriminate].
        + unfold hbind in H. destruct (he_embedding_at o e idx None h) as [h1 [[r1 n1]|]] eqn:A; [|discriminate].
          cbn in H. injection H as <- <- <-. now exists idx, n1.
        + exfalso. apply N. unfold em_embedding. change (em_vocab (he_value o h e)) with (he_vocab e). rewrite I. reflexivity.
      - unfold he_embedding in H. 
        unfold hbind at 1, hlift in H. destruct (vocab_idx (he_vocab e) w) as [[idx|]|] eqn:I; [| |discriminate].
        + unfold hbind in H. destruct (he_embedding_at o e idx None h) as [h1 [[r1 n1]|]] eqn:A; [|discriminate].
          cbn in H. injection H as <- <-. now exists idx, n1.
        + exfalso. apply N. unfold em_embedding. change (em_vocab (he_value o h e)) with (he_vocab e). rewrite I. reflexivity. }
    destruct X as (idx & n & I & A). destruct (fresh_at e idx h h' r n A) as [[(i & ->) (bo & c & rows & HS)]|]; [|easy].
    exfalso. destruct C as [C|(q & C)]; [|congruence]. apply C.
    apply (idx_int_known _ _ _ B I).
  Qed.

  (* ---------------------------------------------------------------- *)
  (* writing into results                                              *)

  Theorem view_writes (e : hembeddings F) bo c rows k w r vals h :
    built_vocab (he_vocab e) -> he_storage e = HNd bo c rows ->
    nth_error (vocab_words (he_vocab e)) k = Some w -> nth_error rows k = Some r ->
    (forall b n, he_norms e = Some (b, n) -> (k < length n)%nat) ->
    buffer h e r -> length vals = length r ->
    exists h', hassign r vals h = (h', Ok tt)
      /\ em_getitem o (he_value o h' e) w = Ok vals
      /\ storage_get o (em_storage (he_value o h' e)) (Z.of_nat k) = Ok vals.
  Proof.
    intros B HS HW HR HN (A & ND & _) L. exists (h_write h r vals). split; [now apply assign_ok|].
    assert (X : storage_get o (em_storage (he_value o (h_write h r vals) e)) (Z.of_nat k) = Ok vals).
    { unfold he_value. rewrite HS. cbn [em_storage storage_get]. apply ArrProofs.py_index_nth. cbn [nd_rows].
      rewrite nth_error_map, HR. cbn [option_map]. f_equal. now apply write_read. }
    split; [|exact X]. destruct (known_idx _ k w B HW) as [_ I]. unfold em_getitem.
    change (em_vocab (he_value o (h_write h r vals) e)) with (he_vocab e). rewrite I. cbn [bind].
    unfold em_embedding_at. rewrite X. cbn [bind]. unfold he_value. cbn [em_norms]. destruct (he_norms e) as [[b n]|]; [|reflexivity].
    specialize (HN b n eq_refl). cbn [nm_vals].
    destruct (nth_error n k) as [a|] eqn:E; [|apply nth_error_None in E; lia].
    rewrite (ArrProofs.py_index_nth _ k (nth a (h_write h r vals) (fzero o))); [reflexivity|].
    unfold h_read. now rewrite nth_error_map, E.
  Qed.
  Theorem fresh_writes (e : hembeddings F) w h h' r vals :
    built_vocab (he_vocab e) -> in_memory h e ->
    (~ In w (vocab_words (he_vocab e)) \/ exists q, he_storage e = HQuant q) ->
    he_getitem o e w h = (h', Ok r) ->
    he_value o (fst (hassign r vals h')) e = he_value o h e.
  Proof.
    intros B M C H. destruct (unknown_fresh e w h h' r B C (or_introl H)) as [_ FR].
    pose proof (framed_getitem o e w h) as C1. rewrite H in C1. cbn [fst] in C1.
    rewrite <- (value_changed o [] h h' e C1 M) by easy.
    assert (M' : in_memory h' e) by (destruct M; split; eapply allocated_changed; eassumption).
    rewrite Forall_forall in FR. destruct M as [M1 M2]. unfold allocated in M1, M2. rewrite Forall_forall in M1, M2.
    apply (value_changed o r); [apply assign_changed|exact M'|..]; intros a H1 H2; apply FR in H1.
    - apply M1 in H2. lia.
    - apply M2 in H2. lia.
  Qed.
End Alias.
