(* Loading files that were cut off. *)
From Coq Require Import Lia.
From Verif Require Import Py PyProofs Utf8 Utf8Proofs IO IOProofs Arr Subword Vocab VocabProofs
  Storage StorageProofs Chunks Embeddings Spec ReaderProofs EmbeddingsProofs.

(* the part of the loader in front of the optional norms *)
Definition load_front (host : endian) (t : toml_lib) (mmap : bool)
  : reader (option metadata * vocab * storage f32) :=
  _ <~ header_read_chunk ;;
  h <~ read_required_chunk_header ;;
  mc <~ (match fst h with
         | CMetadata =>
             m <~ metadata_read_chunk t ;;
             h <~ read_required_chunk_header ;;
             rret (Some m, fst h)
         | c => rret (None, c)
         end) ;;
  let '(meta, cid) := mc in
  v <~ vocab_read_chunk cid FormatError ;;
  h <~ read_required_chunk_header ;;
  s <~ storage_read_chunk host mmap (fst h) FormatError ;;
  rret (meta, v, s).
Definition load_back (host : endian) (x : option metadata * vocab * storage f32)
  : reader (embeddings f32) :=
  let '(meta, v, s) := x in
  maybe <~ read_chunk_header ;;
  n <~ (match maybe with
        | None => rret None
        | Some (CNdNorms, _) => n <~ norms_read_chunk host ;; rret (Some n)
        | Some _ => rfail FormatError
        end) ;;
  rlift (embeddings_new s v n meta).

Lemma load_split h t mm d p :
  load_finalfusion h t mm d p = rbind (load_front h t mm) (load_back h) d p.
Proof.
  unfold load_finalfusion, load_front.
  rewrite rbind_assoc. apply rbind_ext; intros a1 p1. rewrite rbind_assoc. apply rbind_ext; intros a2 p2.
  rewrite rbind_assoc. apply rbind_ext; intros [m c] p3. rewrite rbind_assoc. apply rbind_ext; intros v p4.
  rewrite rbind_assoc. apply rbind_ext; intros x p5. rewrite rbind_assoc. apply rbind_ext; intros s p6.
  now rewrite rbind_ret.
Qed.

(* a reader that is followed by something that has to be there *)
Lemma solid_before {A B} (m : reader A) (k : A -> reader B) :
  stable m ->
  (forall a d p b q, k a d p = Ok (b, q) ->
     p <= q /\ p < lenN d /\ forall ext, k a (d ++ ext) p = Ok (b, q)) ->
  solid (rbind m k).
Proof.
  intros Hm Hk d p b q H. apply rbind_ok in H as (a & p1 & H1 & H).
  apply Hm in H1 as [L1 H1]. apply Hk in H as (L2 & Lt & H).
  split; [lia|]. intros ext. rewrite (rbind_step _ _ _ _ _ _ (H1 Lt ext)). apply H.
Qed.

Lemma solid_front h t mm : solid (load_front h t mm).
Proof.
  apply solid_bind; [apply solid_header|]. intros _.
  apply solid_bind; [apply solid_required_chunk_header|]. intros [c n]. cbn [fst].
  apply solid_bind.
  { destruct c; try apply solid_ret. apply solid_bind.
    - intros d p m q H. apply metadata_read_extend in H. exact H.
    - intros m. apply solid_bind; [apply solid_required_chunk_header|]. intros; apply solid_ret. }
  intros [meta cid]. apply solid_before; [apply stable_vocab_read_chunk|].
  intros v d p b q H. apply rbind_ok in H as ([c' n'] & p1 & H1 & H). cbn [fst] in *.
  apply read_required_chunk_header_ok in H1 as (E1 & E2 & E3).
  apply rbind_ok in H as (s & p2 & H2 & H). apply solid_storage_read in H2 as [L2 H2].
  unfold rret in H. injection H as <- <-.
  split; [lia|]. split; [lia|]. intros ext.
  rewrite (rbind_step _ _ _ _ _ _ (E3 ext)). cbn [fst].
  now rewrite (rbind_step _ _ _ _ _ _ (H2 ext)).
Qed.

Lemma embeddings_new_fields {F} (s : storage F) v n m e :
  embeddings_new s v n m = Ok e ->
  e = Emb s v n m /\ (forall x, n = Some x -> lenN (nm_vals x) = vocab_len v).
Proof.
  unfold embeddings_new. intros H. apply bind_ok in H as (u & _ & H).
  apply bind_ok in H as (u2 & H2 & H). injection H as <-. split; [easy|].
  intros x ->. unfold norms_compat in H2. apply bind_ok in H2 as (u3 & _ & H2).
  apply py_assert_ok, N.eqb_eq in H2. now symmetry.
Qed.

Lemma norms_read_extend h d p ext n q n' q' :
  norms_read_chunk h d p = Ok (n, q) ->
  norms_read_chunk h (d ++ ext) p = Ok (n', q') ->
  lenN (nm_vals n) = lenN (nm_vals n') -> n = n'.
Proof.
  unfold norms_read_chunk. intros H H' Hl.
  apply rbind_ok in H as ([c t] & p1 & H1 & H). apply solid_read2 in H1 as [_ H1].
  rewrite (rbind_step _ _ _ _ _ _ (H1 ext)) in H'.
  apply rbind_ok in H as (tid & p2 & H2 & H). apply rlift_ok in H2 as [H2 ->].
  apply rbind_ok in H' as (tid' & p2' & H2' & H'). apply rlift_ok in H2' as [H2' ->].
  assert (tid' = tid) by congruence. subst tid'. destruct tid; [easy|].
  apply rbind_ok in H as (pos & p2 & H3 & H). unfold tell in H3. injection H3 as <- <-.
  apply rbind_ok in H' as (pos & p2 & H3 & H'). unfold tell in H3. injection H3 as <- <-.
  apply rbind_ok in H as (u & p2 & H3 & H). apply solid_seek_fwd in H3 as [_ H3].
  rewrite (rbind_step _ _ _ _ _ _ (H3 ext)) in H'.
  apply rbind_ok in H as (a & p3 & H4 & H). unfold rret in H. injection H as <- <-.
  apply rbind_ok in H' as (a' & p3' & H4' & H'). unfold rret in H'. injection H' as <- <-.
  simpl in Hl. rewrite !lenN_map in Hl.
  now rewrite (read_array_extend h 4 _ _ _ _ _ _ _ _ ltac:(lia) H4 H4' Hl).
Qed.

Lemma load_extend h t mm d ext e q e0 q0 :
  load_finalfusion h t mm d 0 = Ok (e, q) ->
  load_finalfusion h t mm (d ++ ext) 0 = Ok (e0, q0) ->
  e = e0 \/ e = Emb (em_storage e0) (em_vocab e0) None (em_metadata e0).
Proof.
  rewrite !load_split. intros H H0.
  apply rbind_ok in H as (x & p1 & H1 & H). apply solid_front in H1 as [_ H1].
  rewrite (rbind_step _ _ _ _ _ _ (H1 ext)) in H0.
  destruct x as [[meta v] s]. unfold load_back in *.
  apply rbind_ok in H as (mb & p2 & H2 & H). apply rbind_ok in H as (n & p3 & H3 & H).
  apply rbind_ok in H0 as (mb0 & p20 & H20 & H0). apply rbind_ok in H0 as (n0 & p30 & H30 & H0).
  apply rlift_ok in H as [H _]. apply rlift_ok in H0 as [H0 _].
  apply embeddings_new_fields in H as [-> HN]. apply embeddings_new_fields in H0 as [-> HN0].
  cbn [em_storage em_vocab em_metadata].
  destruct mb as [[c sz]|].
  - apply read_chunk_header_some in H2 as (_ & _ & _ & H2). rewrite (H2 ext) in H20.
    injection H20 as <- <-. destruct c; try easy.
    apply rbind_ok in H3 as (x & p4 & H3 & H4). unfold rret in H4. injection H4 as <- <-.
    apply rbind_ok in H30 as (x0 & p40 & H30 & H4). unfold rret in H4. injection H4 as <- <-.
    left. do 2 f_equal. apply (norms_read_extend _ _ _ _ _ _ _ _ H3 H30).
    now rewrite (HN _ eq_refl), (HN0 _ eq_refl).
  - unfold rret in H3. injection H3 as <- <-. now right.
Qed.

Lemma em_truncated h1 h2 t mmap e out d ext :
  built_embeddings e -> has_ngrams (em_vocab e) -> toml_roundtrips t (em_metadata e) ->
  load_mode h2 mmap ->
  run_writer (em_write h1 t e) = (out, Ok tt) -> lenN out < ssize_limit ->
  out = d ++ ext ->
  forall e', run_reader (load_finalfusion h2 t mmap) d = Ok e' ->
  same_embeddings e e'
  \/ same_embeddings (Emb (em_storage e) (em_vocab e) None (em_metadata e)) e'.
Proof.
  intros B Hg Ht Hm H L HO e' R.
  destruct (em_roundtrip h1 h2 t mmap e out B Hg Ht Hm H L) as (e0 & R0 & S).
  unfold run_reader in *.
  destruct (load_finalfusion h2 t mmap d 0) as [[x q]|] eqn:E; [|easy]. injection R as ->.
  destruct (load_finalfusion h2 t mmap out 0) as [[x0 q0]|] eqn:E0; [|easy]. injection R0 as ->.
  rewrite HO in E0.
  destruct (load_extend _ _ _ _ _ _ _ _ _ E E0) as [-> | ->]; [now left|right].
  destruct S as (S1 & S2 & S3 & S4). now repeat split.
Qed.
