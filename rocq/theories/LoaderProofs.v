(* The stand-alone loaders on files with one chunk and on complete embeddings files. *)
From Coq Require Import Lia.
From Verif Require Import Py PyProofs Utf8 Utf8Proofs IO IOProofs Arr Subword Vocab VocabProofs
  Storage StorageProofs Chunks Embeddings Spec ReaderProofs EmbeddingsProofs FindProofs.

(* ---------------------------------------------------------------- *)
(* files with one chunk                                              *)

Lemma chunk_file cid w out :
  run_writer (chunk_write cid w) = (out, Ok tt) -> lenN out < ssize_limit ->
  cid <> CHeader
  /\ exists body, w 16 = (body, Ok tt) /\ at_pos out 16 body /\ lenN out = 16 + lenN body
     /\ forall n wanted, In cid wanted ->
        fields_at out 16 [fU32; fU64] [chunk_id_val cid; Z.of_N n] ->
        find_chunk wanted out 0 = Ok (Some cid, 28).
Proof.
  unfold run_writer, chunk_write. intros H L.
  destruct (chunk_id_eqb cid CHeader) eqn:E; [easy|].
  split; [intros ->; easy|].
  apply wseq_ok in H as (hb & body & H1 & H2 & ->).
  assert (A : at_pos (hb ++ body) 0 (hb ++ body)) by apply at_pos_self.
  apply at_pos_app in A as [Ah Ab]. rewrite N.add_0_l in *.
  assert (Lh : lenN hb = 16).
  { apply header_write_inv in H1 as (_ & _ & ->). unfold file_header. now destruct cid. }
  rewrite Lh in *. exists body. split; [easy|]. split; [easy|].
  split; [rewrite lenN_app; lia|]. intros n wanted Hc F.
  assert (Hne : [chunk_id_val cid] <> []) by easy.
  pose proof (header_roundtrip _ _ _ _ Hne H1 Ah L) as RH. rewrite Lh in RH.
  eapply find_chunk_runs; [exact RH|]. change (0 + 16) with 16 in *. change 28 with (16 + 12).
  now apply find_runs_hit with n.
Qed.

Definition vocab_ids := [CSimpleVocab; CFastTextSubwordVocab; CExplicitSubwordVocab;
                         CBucketSubwordVocab].
Lemma vocab_id_in v : In (vocab_chunk_id v) vocab_ids.
Proof. destruct v; simpl; auto. Qed.
Lemma storage_id_in {F} (s : storage F) : In (storage_chunk_id s) [CNdArray; CQuantizedArray].
Proof. destruct s; simpl; auto. Qed.

Lemma run_reader_ok {A} (m : reader A) d a q : m d 0 = Ok (a, q) -> run_reader m d = Ok a.
Proof. intros H. unfold run_reader. now rewrite H. Qed.

Lemma vocab_file v out :
  built_vocab v -> has_ngrams v ->
  run_writer (chunk_write (vocab_chunk_id v) (vocab_write_chunk v)) = (out, Ok tt) ->
  lenN out < ssize_limit ->
  exists v', run_reader load_vocab out = Ok v'
    /\ run_reader (load_vocab_of (vocab_chunk_id v)) out = Ok v' /\ same_vocab v v'.
Proof.
  intros B G H L. destruct (chunk_file _ _ _ H L) as (_ & body & Hw & A & _ & Hf).
  destruct (vocab_roundtrip _ _ _ _ ValueError B G Hw A L) as (n & v' & F & R & S & _).
  exists v'. split; [|split; [|easy]]; eapply run_reader_ok.
  - unfold load_vocab. rewrite (rbind_step _ _ _ _ _ _ (Hf n _ (vocab_id_in v) F)). exact R.
  - unfold load_vocab_of.
    rewrite (rbind_step _ _ _ _ _ _ (Hf n [vocab_chunk_id v] (or_introl eq_refl) F)). exact R.
Qed.

Lemma storage_file h1 h2 mmap s out :
  storage_wf s -> load_mode h2 mmap ->
  run_writer (chunk_write (storage_chunk_id s) (storage_write_chunk h1 s)) = (out, Ok tt) ->
  lenN out < ssize_limit ->
  run_reader (load_storage h2 mmap) out = Ok (native_storage s)
  /\ run_reader (load_storage_of h2 mmap (storage_chunk_id s)) out = Ok (native_storage s).
Proof.
  intros W M H L. destruct (chunk_file _ _ _ H L) as (_ & body & Hw & A & _ & Hf).
  destruct (storage_roundtrip _ _ _ _ _ W Hw A L) as (_ & F & R1 & R2).
  assert (R : forall e, storage_read_chunk h2 mmap (storage_chunk_id s) e out 28
                        = Ok (native_storage s, 16 + lenN body)).
  { intros e. change 28 with (16 + 12). destruct mmap; [|apply R1].
    destruct M as [M| ->]; [easy|apply R2]. }
  split; eapply run_reader_ok.
  - unfold load_storage. rewrite (rbind_step _ _ _ _ _ _ (Hf _ _ (storage_id_in s) F)). apply R.
  - unfold load_storage_of.
    rewrite (rbind_step _ _ _ _ _ _ (Hf _ [storage_chunk_id s] (or_introl eq_refl) F)). apply R.
Qed.

Lemma norms_file h1 h2 n out :
  norms_wf n ->
  run_writer (chunk_write CNdNorms (norms_write_chunk h1 n)) = (out, Ok tt) ->
  lenN out < ssize_limit ->
  run_reader (load_norms h2) out = Ok (native_norms n).
Proof.
  intros W H L. destruct (chunk_file _ _ _ H L) as (_ & body & Hw & A & _ & Hf).
  destruct (norms_roundtrip _ _ _ _ _ W Hw A L) as (_ & F & R).
  eapply run_reader_ok. unfold load_norms.
  rewrite (rbind_step _ _ _ _ _ _ (Hf _ [CNdNorms] (or_introl eq_refl) F)). apply R.
Qed.

Lemma metadata_file t m out :
  toml_roundtrips t (Some m) ->
  run_writer (chunk_write CMetadata (metadata_write_chunk t m)) = (out, Ok tt) ->
  lenN out < ssize_limit ->
  run_reader (load_metadata t) out = Ok m.
Proof.
  intros T H L. destruct (chunk_file _ _ _ H L) as (_ & body & Hw & A & _ & Hf).
  destruct (metadata_roundtrip _ _ _ _ _ T Hw A L) as (_ & F & R).
  eapply run_reader_ok. unfold load_metadata.
  rewrite (rbind_step _ _ _ _ _ _ (Hf _ [CMetadata] (or_introl eq_refl) F)). apply R.
Qed.

(* ---------------------------------------------------------------- *)
(* complete files                                                    *)

(* the chunks of a file written by [em_write], each with its position, declared length and
   what reading it gives *)
Lemma em_file h1 t e out :
  built_embeddings e -> has_ngrams (em_vocab e) -> toml_roundtrips t (em_metadata e) ->
  run_writer (em_write h1 t e) = (out, Ok tt) -> lenN out < ssize_limit ->
  exists ids ph pm pv ps nv,
    header_read_chunk out 0 = Ok (ids, ph)
    /\ match em_metadata e with
       | Some m => chunks_at out ph [(CMetadata, pm - ph - 12)] pm
                   /\ fields_at out ph [fU32; fU64] [chunk_id_val CMetadata; Z.of_N (pm - ph - 12)]
                   /\ metadata_read_chunk t out (ph + 12) = Ok (m, pm)
       | None => pm = ph
       end
    /\ fields_at out pm [fU32; fU64] [chunk_id_val (vocab_chunk_id (em_vocab e)); Z.of_N nv]
    /\ (exists v', (forall x, vocab_read_chunk (vocab_chunk_id (em_vocab e)) x out (pm + 12) = Ok (v', pv))
                   /\ same_vocab (em_vocab e) v')
    /\ (not_explicit (em_vocab e) -> chunks_at out pm [(vocab_chunk_id (em_vocab e), nv)] pv)
    /\ chunks_at out pv [(storage_chunk_id (em_storage e), ps - pv - 12)] ps
    /\ fields_at out pv [fU32; fU64] [chunk_id_val (storage_chunk_id (em_storage e)); Z.of_N (ps - pv - 12)]
    /\ (forall h2 mmap x, load_mode h2 mmap ->
        storage_read_chunk h2 mmap (storage_chunk_id (em_storage e)) x out (pv + 12)
        = Ok (native_storage (em_storage e), ps))
    /\ match em_norms e with
       | Some n => chunks_at out ps [(CNdNorms, lenN out - ps - 12)] (lenN out)
                   /\ fields_at out ps [fU32; fU64] [chunk_id_val CNdNorms; Z.of_N (lenN out - ps - 12)]
                   /\ forall h2, norms_read_chunk h2 out (ps + 12) = Ok (native_norms n, lenN out)
       | None => ps = lenN out
       end.
Proof.
  intros (Ws & Wv & Wn & We) Hg Ht H L. unfold run_writer in H.
  apply em_write_inv in H
    as (ids & hb & mb & vb & sb & nb & Hids & Hh & Hmd & Hv & Hs & Hn & HO).
  assert (A : at_pos out 0 (hb ++ mb ++ vb ++ sb ++ nb)) by (rewrite <- HO; apply at_pos_self).
  assert (LO : lenN out = lenN hb + lenN mb + lenN vb + lenN sb + lenN nb)
    by (rewrite HO, !lenN_app; lia).
  clear HO.
  apply at_pos_app in A as [Ah A]. apply at_pos_app in A as [Am A].
  apply at_pos_app in A as [Av A]. apply at_pos_app in A as [As An].
  rewrite !N.add_0_l in *.
  pose proof (header_roundtrip _ _ _ _ Hids Hh Ah L) as RH. rewrite N.add_0_l in RH.
  destruct (vocab_roundtrip _ _ _ _ FormatError Wv Hg Hv Av L) as (nv & v' & Fv & Rv & Sv & Lv & Nv).
  destruct (storage_roundtrip _ _ _ _ _ Ws Hs As L) as (Ls & Fs & Rs & Rs').
  exists ids, (lenN hb), (lenN hb + lenN mb), (lenN hb + lenN mb + lenN vb),
    (lenN hb + lenN mb + lenN vb + lenN sb), nv.
  assert (One : forall c p (b : bytes), 12 <= lenN b -> p + lenN b <= lenN out ->
     fields_at out p [fU32; fU64] [chunk_id_val c; Z.of_N (lenN b - 12)] ->
     chunks_at out p [(c, lenN b - 12)] (p + lenN b)).
  { intros c p b L1 L2 F. constructor; [easy|lia|].
    replace (p + 12 + (lenN b - 12)) with (p + lenN b) by lia. constructor. }
  split; [exact RH|]. split.
  { destruct (em_metadata e) as [m|]; [|subst mb; rewrite lenN_nil; lia].
    destruct (metadata_roundtrip t m _ _ _ Ht Hmd Am L) as (Lm & Fm & Rm).
    replace (lenN hb + lenN mb - lenN hb - 12) with (lenN mb - 12) by lia.
    split; [apply One; auto; lia|]. split; easy. }
  split; [exact Fv|]. split.
  { exists v'. split; [|easy]. intros x. rewrite <- Rv. now destruct (em_vocab e). }
  split.
  { intros X. specialize (Nv X). subst nv. apply One; auto; lia. }
  replace (lenN hb + lenN mb + lenN vb + lenN sb - (lenN hb + lenN mb + lenN vb) - 12)
    with (lenN sb - 12) by lia.
  split; [apply One; auto; lia|]. split; [easy|]. split.
  { intros h2 mmap x M. destruct mmap; [|apply Rs]. destruct M as [M| ->]; [easy|apply Rs']. }
  destruct (em_norms e) as [n|]; [|subst nb; rewrite lenN_nil in LO; lia].
  destruct (norms_roundtrip _ _ _ _ _ (Wn n eq_refl) Hn An L) as (Ln & Fn & Rn).
  replace (lenN out - (lenN hb + lenN mb + lenN vb + lenN sb) - 12) with (lenN nb - 12) by lia.
  rewrite LO. split; [apply One; auto; lia|]. split; [easy|]. intros h2. now rewrite <- (Rn h2).
Qed.

Definition meta_chunks {F} (e : embeddings F) (n : N) : list (chunk_id * N) :=
  match em_metadata e with Some _ => [(CMetadata, n)] | None => [] end.

Lemma em_load_vocab h1 t e out :
  built_embeddings e -> has_ngrams (em_vocab e) -> toml_roundtrips t (em_metadata e) ->
  run_writer (em_write h1 t e) = (out, Ok tt) -> lenN out < ssize_limit ->
  exists v', run_reader load_vocab out = Ok v' /\ same_vocab (em_vocab e) v'.
Proof.
  intros B G T H L. destruct (em_file _ _ _ _ B G T H L)
    as (ids & ph & pm & pv & ps & nv & RH & Hm & Fv & (v' & Rv & Sv) & _).
  exists v'. split; [|easy]. eapply run_reader_ok. unfold load_vocab.
  enough (Y : find_chunk vocab_ids out 0 = Ok (Some (vocab_chunk_id (em_vocab e)), pm + 12))
    by (rewrite (rbind_step _ _ _ _ _ _ Y); apply Rv).
  eapply find_chunk_runs; [exact RH|].
  pose proof (find_runs_hit _ _ _ _ _ Fv (vocab_id_in (em_vocab e))) as X.
  destruct (em_metadata e) as [m|]; [|now subst pm].
  eapply find_runs_skip; [apply Hm| |exact X].
  intros x [<-|[]]. simpl. intuition discriminate.
Qed.

Lemma em_load_storage h1 h2 mmap t e out :
  built_embeddings e -> not_explicit (em_vocab e) -> toml_roundtrips t (em_metadata e) ->
  load_mode h2 mmap ->
  run_writer (em_write h1 t e) = (out, Ok tt) -> lenN out < ssize_limit ->
  run_reader (load_storage h2 mmap) out = Ok (native_storage (em_storage e)).
Proof.
  intros B NE T M H L.
  assert (G : has_ngrams (em_vocab e)) by (now destruct (em_vocab e)).
  destruct (em_file _ _ _ _ B G T H L)
    as (ids & ph & pm & pv & ps & nv & RH & Hm & _ & _ & Cv & _ & Fs & Rs & _).
  eapply run_reader_ok. unfold load_storage.
  enough (Z : find_chunk [CNdArray; CQuantizedArray] out 0
              = Ok (Some (storage_chunk_id (em_storage e)), pv + 12))
    by (rewrite (rbind_step _ _ _ _ _ _ Z); apply (Rs h2 mmap _ M)).
  eapply find_chunk_runs; [exact RH|].
  pose proof (find_runs_hit _ _ _ _ _ Fs (storage_id_in (em_storage e))) as X.
  assert (Y : find_runs [CNdArray; CQuantizedArray] out pm
                (Ok (Some (storage_chunk_id (em_storage e)), pv + 12))).
  { eapply find_runs_skip; [apply (Cv NE)| |exact X].
    intros x [<-|[]]. destruct (em_vocab e); simpl; intuition discriminate. }
  destruct (em_metadata e) as [m|]; [|now subst pm].
  eapply find_runs_skip; [apply Hm| |exact Y].
  intros x [<-|[]]. simpl. intuition discriminate.
Qed.

Lemma em_load_norms h1 h2 t e out :
  built_embeddings e -> not_explicit (em_vocab e) -> toml_roundtrips t (em_metadata e) ->
  run_writer (em_write h1 t e) = (out, Ok tt) -> lenN out < ssize_limit ->
  run_reader (load_norms h2) out
  = match em_norms e with Some n => Ok (native_norms n) | None => Err ValueError end.
Proof.
  intros B NE T H L.
  assert (G : has_ngrams (em_vocab e)) by (now destruct (em_vocab e)).
  destruct (em_file _ _ _ _ B G T H L)
    as (ids & ph & pm & pv & ps & nv & RH & Hm & _ & _ & Cv & Cs & _ & _ & Hn).
  assert (X : forall r, find_runs [CNdNorms] out ps r -> find_runs [CNdNorms] out ph r).
  { intros r Hr.
    assert (Y : find_runs [CNdNorms] out pm r).
    { eapply find_runs_skip; [apply (Cv NE)| |].
      { intros x [<-|[]]. destruct (em_vocab e); simpl; intuition discriminate. }
      eapply find_runs_skip; [exact Cs| |exact Hr].
      intros x [<-|[]]. destruct (em_storage e); simpl; intuition discriminate. }
    destruct (em_metadata e) as [m|]; [|now subst pm].
    eapply find_runs_skip; [apply Hm| |exact Y].
    intros x [<-|[]]. simpl. intuition discriminate. }
  unfold run_reader, load_norms. destruct (em_norms e) as [n|].
  - destruct Hn as (_ & F & R).
    enough (Z : find_chunk [CNdNorms] out 0 = Ok (Some CNdNorms, ps + 12))
      by (rewrite (rbind_step _ _ _ _ _ _ Z); now rewrite (R h2)).
    eapply find_chunk_runs; [exact RH|]. apply X. eapply find_runs_hit; [exact F|now left].
  - enough (Z : find_chunk [CNdNorms] out 0 = Ok (None, lenN out))
      by (now rewrite (rbind_step _ _ _ _ _ _ Z)).
    eapply find_chunk_runs; [exact RH|]. apply X. subst ps. apply find_runs_eof.
Qed.

Lemma em_load_metadata h1 t e out :
  built_embeddings e -> not_explicit (em_vocab e) -> toml_roundtrips t (em_metadata e) ->
  run_writer (em_write h1 t e) = (out, Ok tt) -> lenN out < ssize_limit ->
  run_reader (load_metadata t) out
  = match em_metadata e with Some m => Ok m | None => Err ValueError end.
Proof.
  intros B NE T H L.
  assert (G : has_ngrams (em_vocab e)) by (now destruct (em_vocab e)).
  destruct (em_file _ _ _ _ B G T H L)
    as (ids & ph & pm & pv & ps & nv & RH & Hm & _ & _ & Cv & Cs & _ & _ & Hn).
  unfold run_reader, load_metadata. destruct (em_metadata e) as [m|].
  - destruct Hm as (_ & F & R).
    enough (Z : find_chunk [CMetadata] out 0 = Ok (Some CMetadata, ph + 12))
      by (rewrite (rbind_step _ _ _ _ _ _ Z); now rewrite R).
    eapply find_chunk_runs; [exact RH|]. eapply find_runs_hit; [exact F|now left].
  - subst pm. enough (Z : find_chunk [CMetadata] out 0 = Ok (None, lenN out))
      by (now rewrite (rbind_step _ _ _ _ _ _ Z)).
    eapply find_chunk_runs; [exact RH|].
    eapply find_runs_skip; [apply (Cv NE)| |].
    { intros x [<-|[]]. destruct (em_vocab e); simpl; intuition discriminate. }
    eapply find_runs_skip; [exact Cs| |].
    { intros x [<-|[]]. destruct (em_storage e); simpl; intuition discriminate. }
    destruct (em_norms e) as [n|]; [|subst ps; apply find_runs_eof].
    eapply find_runs_skip; [apply Hn| |apply find_runs_eof].
    intros x [<-|[]]. simpl. intuition discriminate.
Qed.

(* with an explicit vocabulary metadata can still be loaded, since it comes first *)
Lemma em_load_metadata_some h1 t e out m :
  built_embeddings e -> has_ngrams (em_vocab e) -> toml_roundtrips t (em_metadata e) ->
  run_writer (em_write h1 t e) = (out, Ok tt) -> lenN out < ssize_limit ->
  em_metadata e = Some m ->
  run_reader (load_metadata t) out = Ok m.
Proof.
  intros B G T H L Em.
  destruct (em_file _ _ _ _ B G T H L) as (ids & ph & pm & pv & ps & nv & RH & Hm & _).
  rewrite Em in Hm. destruct Hm as (_ & F & R).
  eapply run_reader_ok. unfold load_metadata.
  enough (Z : find_chunk [CMetadata] out 0 = Ok (Some CMetadata, ph + 12))
    by (rewrite (rbind_step _ _ _ _ _ _ Z); exact R).
  eapply find_chunk_runs; [exact RH|]. eapply find_runs_hit; [exact F|now left].
Qed.
