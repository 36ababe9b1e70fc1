(* The stand-alone loaders on truncated files; memory mapping against reading. *)
From Coq Require Import Lia.
From Verif Require Import Py PyProofs Utf8 Utf8Proofs IO IOProofs Arr Subword Vocab VocabProofs
  Storage StorageProofs Chunks Embeddings Spec ReaderProofs EmbeddingsProofs FindProofs
  LoaderProofs.

Lemma find_runs_extend wanted d ext p c q :
  find_runs wanted d p (Ok (Some c, q)) -> find_runs wanted (d ++ ext) p (Ok (Some c, q)).
Proof.
  remember (Ok (Some c, q)) as r eqn:E. intros H. revert E.
  induction H as [p e H|p q' H|p c' n q' H Hc|p c' n q' e H Hc Hs|p c' n q' u q2 r H Hc Hs HR IH];
    intros E; try easy.
  - injection E as -> ->. apply read_chunk_header_some in H as (_ & _ & _ & H).
    eapply FrHit; eauto.
  - apply read_chunk_header_some in H as (_ & _ & _ & H).
    eapply FrSkip; [apply H|easy| |now apply IH]. apply solid_seek_fwd in Hs as [_ Hs]. apply Hs.
Qed.

Lemma find_chunk_extend wanted d ext p0 c q :
  find_chunk wanted d p0 = Ok (Some c, q) -> find_chunk wanted (d ++ ext) p0 = Ok (Some c, q).
Proof.
  intros H. destruct (find_chunk_spec wanted d p0) as [(e & _ & E)|(ids & p & r & RH & R & E)];
    [congruence|].
  assert (X : r = Ok (Some c, q)) by congruence. rewrite X in R. apply solid_header in RH as [_ RH].
  eapply find_chunk_runs; [apply RH|]. now apply find_runs_extend.
Qed.

Lemma load_storage_extend h mmap d ext s :
  run_reader (load_storage h mmap) d = Ok s ->
  run_reader (load_storage h mmap) (d ++ ext) = Ok s.
Proof.
  unfold run_reader, load_storage.
  destruct (rbind _ _ d 0) as [[s' q]|e] eqn:H; [|easy]. intros [= ->].
  apply rbind_ok in H as ([c|] & p1 & H1 & H); [|easy].
  rewrite (rbind_step _ _ _ _ _ _ (find_chunk_extend _ _ ext _ _ _ H1)).
  apply solid_storage_read in H as [_ H]. now rewrite H.
Qed.
Lemma load_storage_of_extend h mmap cid d ext s :
  run_reader (load_storage_of h mmap cid) d = Ok s ->
  run_reader (load_storage_of h mmap cid) (d ++ ext) = Ok s.
Proof.
  unfold run_reader, load_storage_of.
  destruct (rbind _ _ d 0) as [[s' q]|e] eqn:H; [|easy]. intros [= ->].
  apply rbind_ok in H as ([c|] & p1 & H1 & H); [|easy].
  rewrite (rbind_step _ _ _ _ _ _ (find_chunk_extend _ _ ext _ _ _ H1)).
  apply solid_storage_read in H as [_ H]. now rewrite H.
Qed.
Lemma load_metadata_extend t d ext m :
  run_reader (load_metadata t) d = Ok m -> run_reader (load_metadata t) (d ++ ext) = Ok m.
Proof.
  unfold run_reader, load_metadata.
  destruct (rbind _ _ d 0) as [[s' q]|e] eqn:H; [|easy]. intros [= ->].
  apply rbind_ok in H as ([c|] & p1 & H1 & H); [|easy].
  rewrite (rbind_step _ _ _ _ _ _ (find_chunk_extend _ _ ext _ _ _ H1)).
  destruct c; try easy. apply metadata_read_extend in H as [_ H]. now rewrite H.
Qed.

Lemma storage_file_truncated h1 h2 mmap s out d ext s' :
  storage_wf s -> load_mode h2 mmap ->
  run_writer (chunk_write (storage_chunk_id s) (storage_write_chunk h1 s)) = (out, Ok tt) ->
  lenN out < ssize_limit -> out = d ++ ext ->
  run_reader (load_storage h2 mmap) d = Ok s'
  \/ run_reader (load_storage_of h2 mmap (storage_chunk_id s)) d = Ok s' ->
  s' = native_storage s.
Proof.
  intros W M H L -> [H'|H'].
  - destruct (storage_file _ _ _ _ _ W M H L) as [E _].
    apply (load_storage_extend _ _ _ ext) in H'. congruence.
  - destruct (storage_file _ _ _ _ _ W M H L) as [_ E].
    apply (load_storage_of_extend _ _ _ _ ext) in H'. congruence.
Qed.
Lemma metadata_file_truncated t m out d ext m' :
  toml_roundtrips t (Some m) ->
  run_writer (chunk_write CMetadata (metadata_write_chunk t m)) = (out, Ok tt) ->
  lenN out < ssize_limit -> out = d ++ ext ->
  run_reader (load_metadata t) d = Ok m' -> m' = m.
Proof.
  intros T H L -> H'. pose proof (metadata_file _ _ _ T H L) as E.
  apply (load_metadata_extend _ _ ext) in H'. congruence.
Qed.

(* ---------------------------------------------------------------- *)
(* memory mapping                                                    *)

Lemma split_elems_len_elems n k bs : length (split_elems n k bs) = n.
Proof. revert bs; induction n; intros; simpl; auto. Qed.

Lemma memmap_read k o n d l u q :
  (0 < k)%nat -> memmap k o n d = Ok l -> seek_fwd (n * N.of_nat k) d o = Ok (u, q) ->
  read_array_as_native Little k n d o = Ok (l, q) /\ lenN l = n.
Proof.
  intros Hk H S. unfold seek_fwd in S.
  destruct (N.leb_spec ssize_limit (n * N.of_nat k)); [easy|].
  destruct (N.leb_spec ssize_limit (o + n * N.of_nat k)); [easy|]. injection S as <- <-.
  unfold memmap in H. destruct (N.leb_spec (o + n * N.of_nat k) (lenN d)); [|easy].
  injection H as <-. split.
  - rewrite read_array_eq. destruct (N.leb_spec ssize_limit (n * N.of_nat k)); [lia|].
    cbv zeta. set (bs := takeN _ _).
    assert (LB : lenN bs = n * N.of_nat k) by (unfold bs; rewrite lenN_takeN, lenN_dropN; lia).
    rewrite LB. replace (length bs / k)%nat with (N.to_nat n); [easy|].
    replace (length bs) with (N.to_nat n * k)%nat by (unfold lenN in LB; lia).
    rewrite Nat.div_mul; lia.
  - unfold lenN. rewrite split_elems_len_elems. lia.
Qed.

Lemma split_elems_concat_1 n bs : n <= lenN bs ->
  lenN (concat (split_elems (N.to_nat n) 1 bs)) = n.
Proof.
  intros H. unfold lenN in H.
  assert (X : forall k bs, (k <= length bs)%nat -> length (concat (split_elems k 1 bs)) = k).
  { induction k as [|k IH]; intros b Hb; [easy|]. destruct b as [|x b]; [simpl in Hb; lia|].
    simpl. rewrite IH; [easy|]. simpl in Hb. lia. }
  unfold lenN. rewrite X; lia.
Qed.

Lemma ndarray_mmap_read d p a q :
  ndarray_mmap_chunk Little d p = Ok (a, q) -> ndarray_read_chunk Little d p = Ok (a, q).
Proof.
  unfold ndarray_mmap_chunk, ndarray_read_chunk. intros H.
  apply rbind_ok in H as ([rows cols] & p1 & H1 & H). rstep H1.
  apply rbind_ok in H as (off & p2 & H2 & H). unfold tell in H2. injection H2 as <- <-.
  apply rbind_ok in H as (u & p2 & H2 & H). apply rlift_ok in H as [H ->].
  apply bind_ok in H as (l & Hm & H). injection H as <-.
  destruct (memmap_read _ _ _ _ _ _ _ (Nat.lt_0_succ 3) Hm H2) as [R L].
  rstep R. unfold reshape2. rewrite lenN_map, L, N.eqb_refl. easy.
Qed.
Lemma qarray_mmap_read d p a q :
  qarray_mmap_chunk Little d p = Ok (a, q) -> qarray_read_chunk Little d p = Ok (a, q).
Proof.
  unfold qarray_mmap_chunk, qarray_read_chunk. intros H.
  apply rbind_ok in H as ([[quant [ne ql]] nrm] & p1 & H1 & H). rstep H1.
  apply rbind_ok in H as (off & p2 & H2 & H). unfold tell in H2. injection H2 as <- <-.
  apply rbind_ok in H as (u & p2 & H2 & H). apply rlift_ok in H as [H ->].
  apply bind_ok in H as (l & Hm & H). injection H as <-.
  assert (H2' : seek_fwd (ne * ql * N.of_nat 1) d p1 = Ok (u, p2)) by (now rewrite N.mul_1_r).
  destruct (memmap_read _ _ _ _ _ _ _ Nat.lt_0_1 Hm H2') as [R L].
  rstep R. unfold reshape2.
  assert (LC : lenN (concat l) = ne * ql).
  { unfold memmap in Hm. destruct (N.leb_spec (p1 + ne * ql * N.of_nat 1) (lenN d)); [|easy].
    injection Hm as <-. apply split_elems_concat_1. rewrite lenN_takeN, lenN_dropN. lia. }
  rewrite LC, N.eqb_refl. easy.
Qed.
Lemma storage_mmap_read c e d p s q :
  storage_read_chunk Little true c e d p = Ok (s, q) ->
  storage_read_chunk Little false c e d p = Ok (s, q).
Proof.
  destruct c; simpl; auto.
  - unfold ndarray_load. intros H. apply rbind_ok in H as (a & p1 & H1 & H).
    now rewrite (rbind_step _ _ _ _ _ _ (ndarray_mmap_read _ _ _ _ H1)).
  - unfold qarray_load. intros H. apply rbind_ok in H as (a & p1 & H1 & H).
    now rewrite (rbind_step _ _ _ _ _ _ (qarray_mmap_read _ _ _ _ H1)).
Qed.

Lemma load_storage_mmap_read d s :
  run_reader (load_storage Little true) d = Ok s ->
  run_reader (load_storage Little false) d = Ok s.
Proof.
  unfold run_reader, load_storage.
  destruct (rbind _ _ d 0) as [[s' q]|e] eqn:H; [|easy]. intros [= ->].
  apply rbind_ok in H as ([c|] & p1 & H1 & H); [|easy]. rstep H1.
  apply storage_mmap_read in H. now rewrite H.
Qed.

Lemma rbind_impl {A B} (m : reader A) (f g : A -> reader B) d p b q :
  (forall a p' b q, f a d p' = Ok (b, q) -> g a d p' = Ok (b, q)) ->
  rbind m f d p = Ok (b, q) -> rbind m g d p = Ok (b, q).
Proof. intros H. unfold rbind. destruct (m d p) as [[a p']|]; auto. Qed.

Lemma load_finalfusion_mmap_read t d e :
  run_reader (load_finalfusion Little t true) d = Ok e ->
  run_reader (load_finalfusion Little t false) d = Ok e.
Proof.
  unfold run_reader.
  destruct (load_finalfusion Little t true d 0) as [[e' q]|x] eqn:H; [|easy]. intros [= ->].
  enough (X : load_finalfusion Little t false d 0 = Ok (e, q)) by (now rewrite X).
  revert H. unfold load_finalfusion.
  apply rbind_impl. intros a1 p1 b1 q1. apply rbind_impl. intros a2 p2 b2 q2.
  apply rbind_impl. intros [m c] p3 b3 q3. apply rbind_impl. intros v p4 b4 q4.
  apply rbind_impl. intros h p5 b5 q5. intros H.
  apply rbind_ok in H as (s & p6 & H6 & H). apply storage_mmap_read in H6. now rstep H6.
Qed.

(* big endian hosts *)
Lemma storage_mmap_big c e d p r :
  storage_read_chunk Big true c e d p = r ->
  (c = CNdArray \/ c = CQuantizedArray -> r = Err NotImplementedError) /\ is_ok r = false.
Proof. intros <-. destruct c; split; simpl; try easy; intros [|]; easy. Qed.

Lemma load_storage_mmap_big d :
  is_ok (run_reader (load_storage Big true) d) = false
  /\ (is_ok (run_reader (load_storage Big false) d) = true ->
      run_reader (load_storage Big true) d = Err NotImplementedError).
Proof.
  unfold run_reader, load_storage, rbind.
  destruct (find_chunk [CNdArray; CQuantizedArray] d 0) as [[[c|] p]|e]; try easy.
  destruct c; try easy; simpl; split; try easy.
Qed.
Definition not_impl {A B} (rt : result A) (rf : result B) : Prop :=
  is_ok rt = false /\ (is_ok rf = true -> rt = Err NotImplementedError).
Lemma not_impl_bind {A B} (m : reader A) (f g : A -> reader B) d p :
  (forall a p', not_impl (f a d p') (g a d p')) -> not_impl (rbind m f d p) (rbind m g d p).
Proof. intros H. unfold rbind. destruct (m d p) as [[a p']|]; [apply H|easy]. Qed.
Lemma load_finalfusion_mmap_big t d :
  is_ok (run_reader (load_finalfusion Big t true) d) = false
  /\ (is_ok (run_reader (load_finalfusion Big t false) d) = true ->
      run_reader (load_finalfusion Big t true) d = Err NotImplementedError).
Proof.
  assert (X : not_impl (load_finalfusion Big t true d 0) (load_finalfusion Big t false d 0)).
  { unfold load_finalfusion. apply not_impl_bind. intros a1 p1. apply not_impl_bind. intros a2 p2.
    apply not_impl_bind. intros [m c] p3. apply not_impl_bind. intros v p4.
    apply not_impl_bind. intros [c2 n2] p5. destruct c2; easy. }
  destruct X as [X1 X2]. unfold run_reader.
  destruct (load_finalfusion Big t true d 0) as [[e q]|x]; [easy|]. split; [easy|].
  intros H. destruct (load_finalfusion Big t false d 0) as [[e' q']|y]; [|easy].
  specialize (X2 eq_refl). congruence.
Qed.
