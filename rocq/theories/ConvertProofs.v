(* ffp-convert and ffp-bucket-to-explicit. *)
From Coq Require Import Lia.
From Verif Require Import Py PyProofs Utf8 IO Arr Subword Vocab Storage Chunks Embeddings
  Spec SpecVocab SpecLookup SpecSame EmbeddingsProofs WriteProofs VocabFacts ExplicitConv ExplicitEmb SameProofs
  PyText SpecCompat Compat CompatProofs CompatBuilt Word2vecProofs TextProofs FasttextProofs Scripts ScriptsProofs.
Local Open Scope N_scope.

Lemma ex_new_nonempty gs mn mx index ix : ex_new gs mn mx (Some index) = Ok ix -> ex_ngrams ix <> [].
Proof.
  unfold ex_new. intros E. apply bind_ok in E as (u & _ & E). apply bind_ok in E as (a & _ & E).
  apply bind_ok in E as (b & _ & E). apply bind_ok in E as (c & _ & E). intros N0.
  apply bind_ok in E as (d & D & E). apply bind_ok in E as (m & M & E). apply bind_ok in E as (x & _ & E).
  apply Ok_inj in E. subst ix. cbn [ex_ngrams] in N0. subst gs. destruct index; [easy|]. easy.
Qed.

Section Convert.
  Context (o : fops f32) (host : endian) (t : toml_lib).
  Context (show : f32 -> str) (parse : str -> result f32).

  Lemma convert_inv from to lossy mmap input old out :
    convert_main o host t show parse from to lossy mmap input old = (Some out, Ok tt) ->
    exists e, format_load o host t parse from lossy mmap input = Ok e
      /\ format_write o host t show to e old = (Some out, Ok tt).
  Proof.
    unfold convert_main, before_open. destruct (format_load _ _ _ _ _ _ _ _) as [e|x]; [eauto|easy].
  Qed.
  Lemma convert_untouched from to lossy mmap input old x :
    format_load o host t parse from lossy mmap input = Err x ->
    convert_main o host t show parse from to lossy mmap input old = (old, Err x).
  Proof. unfold convert_main, before_open. now intros ->. Qed.

  Lemma convert_finalfusion from lossy mmap input old out e h2 mmap2 :
    lenN input < ssize_limit -> lenN out < ssize_limit -> load_mode h2 mmap2 ->
    format_load o host t parse from lossy mmap input = Ok e -> toml_roundtrips t (em_metadata e) ->
    convert_main o host t show parse from Finalfusion lossy mmap input old = (Some out, Ok tt) ->
    exists e', run_reader (load_finalfusion h2 t mmap2) out = Ok e' /\ same_embeddings e e'
      /\ same_answers o e e'.
  Proof.
    intros L1 L2 LM HL T H. apply convert_inv in H as (e0 & HL' & H). rewrite HL in HL'. apply Ok_inj in HL'. subst e0.
    apply format_load_shape in HL as (B & _ & G); [|easy].
    cbn [format_write] in H. unfold em_write_file, open_wb in H.
    destruct (run_writer (em_write host t e)) as [w r] eqn:E. injection H as <- ->.
    destruct (em_roundtrip host h2 t mmap2 e w B G T LM E L2) as (e' & H1 & H2).
    exists e'. split; [easy|]. split; [easy|]. now apply same_same_answers.
  Qed.

  Lemma explicit_untouched from lossy mmap input old x :
    (format_load o host t parse from lossy mmap input = Err x
     \/ exists e, format_load o host t parse from lossy mmap input = Ok e /\ em_bucket_to_explicit o e = Err x) ->
    bucket_to_explicit_main o host t parse from lossy mmap input old = (old, Err x).
  Proof.
    unfold bucket_to_explicit_main, before_open. intros [->|(e & -> & H)]; [easy|]. cbn [bind]. now rewrite H.
  Qed.

  Lemma explicit_run from lossy mmap input old out h2 mmap2 :
    lenN input < ssize_limit -> lenN out < ssize_limit -> load_mode h2 mmap2 ->
    bucket_to_explicit_main o host t parse from lossy mmap input old = (Some out, Ok tt) ->
    exists e e' e'' ix, format_load o host t parse from lossy mmap input = Ok e
      /\ is_bucket (em_vocab e) /\ built_embeddings e
      /\ em_bucket_to_explicit o e = Ok e' /\ converted o e e' ix
      /\ run_reader (load_finalfusion h2 t mmap2) out = Ok e'' /\ same_answers o e' e''.
  Proof.
    intros L1 L2 LM. unfold bucket_to_explicit_main, before_open.
    destruct (format_load o host t parse from lossy mmap input) as [e|] eqn:HL; [|easy].
    destruct (em_bucket_to_explicit o e) as [e'|] eqn:HC; [|easy]. intros H.
    apply format_load_shape in HL as (B & _ & _); [|easy].
    assert (K : is_bucket (em_vocab e)).
    { unfold em_bucket_to_explicit in HC. now destruct (em_vocab e). }
    destruct (conv_spec o e e' B K HC) as (ix & CV).
    unfold em_write_file, open_wb in H.
    destruct (run_writer (em_write host t e')) as [w r] eqn:E. injection H as <- ->.
    assert (G : has_ngrams (em_vocab e')).
    { destruct (cv_vocab _ _ _ _ CV) as [V1 V2]. rewrite V2. cbn.
      destruct (to_explicit_spec _ _ (proj1 (proj2 B)) K V1) as (ix' & V3 & _ & _ & _ & _ & _ & _ & X & _).
      rewrite V2 in V3. injection V3 as <-. now apply ex_new_nonempty in X. }
    assert (T : toml_roundtrips t (em_metadata e')).
    { intros m s Hm. rewrite (cv_meta _ _ _ _ CV) in Hm. easy. }
    destruct (em_roundtrip host h2 t mmap2 e' w (proj1 (cv_built _ _ _ _ CV)) G T LM E L2) as (e'' & H1 & H2).
    exists e, e', e'', ix. split; [easy|]. split; [easy|]. split; [easy|]. split; [easy|]. split; [easy|].
    split; [easy|]. now apply same_same_answers.
  Qed.

  Lemma bits_exact rows : in_file bits rows = rows.
  Proof.
    unfold in_file. cbn [enc dec bits]. rewrite <- (map_id rows) at 2. apply map_ext. intros r. apply map_id.
  Qed.
  Lemma convert_word2vec from lossy mmap input old out e : lenN input < ssize_limit ->
    format_load o host t parse from lossy mmap input = Ok e ->
    Forall (fun w => ~ In 32 w) (vocab_words (em_vocab e)) -> Forall no_edge_space (vocab_words (em_vocab e)) ->
    array_fits (N.of_nat (n_words (em_vocab e))) (em_dims e) ->
    convert_main o host t show parse from Word2vec lossy mmap input old = (Some out, Ok tt) ->
    exists rows, written_rows o e rows
      /\ forall lossy2 mmap2, exists e', format_load o host t parse Word2vec lossy2 mmap2 out = Ok e'
           /\ simple_embeddings o e' (vocab_words (em_vocab e)) (em_dims e) rows.
  Proof.
    intros L HL W1 W2 AF H. apply convert_inv in H as (e0 & HL' & H). rewrite HL in HL'. apply Ok_inj in HL'. subst e0.
    apply format_load_shape in HL as (B & _ & G); [|easy]. cbn [format_write] in H.
    destruct (word2vec_round_trip o host bits e old out B W1 W2 AF H) as (rows & R1 & R2). exists rows.
    split; [exact R1|]. intros lossy2 mmap2. destruct (R2 host lossy2) as (e' & R3 & R4). exists e'.
    split; [exact R3|]. now rewrite bits_exact in R4.
  Qed.
  Lemma convert_textdims from lossy mmap input old out e rows : lenN input < ssize_limit ->
    format_load o host t parse from lossy mmap input = Ok e ->
    0 < em_dims e -> Forall no_ascii_space (vocab_words (em_vocab e)) ->
    array_fits (N.of_nat (n_words (em_vocab e))) (em_dims e) ->
    written_rows o e rows -> text_exact show parse rows ->
    convert_main o host t show parse from Textdims lossy mmap input old = (Some out, Ok tt) ->
    forall lossy2 mmap2, exists e', format_load o host t parse Textdims lossy2 mmap2 out = Ok e'
      /\ simple_embeddings o e' (vocab_words (em_vocab e)) (em_dims e) rows.
  Proof.
    intros L HL D W AF WR TX H. apply convert_inv in H as (e0 & HL' & H). rewrite HL in HL'. apply Ok_inj in HL'. subst e0.
    apply format_load_shape in HL as (B & _ & G); [|easy]. cbn [format_write] in H. intros lossy2 mmap2.
    apply (text_dims_round_trip o show parse e [32] old out rows); try easy.
    - split; [easy|]. now repeat constructor.
    - intros [X|[]]; discriminate.
    - intros [X|[]]; discriminate.
  Qed.
  Lemma convert_text from lossy mmap input old out e rows : lenN input < ssize_limit ->
    format_load o host t parse from lossy mmap input = Ok e ->
    0 < em_dims e -> (0 < n_words (em_vocab e))%nat -> Forall no_ascii_space (vocab_words (em_vocab e)) ->
    array_fits (N.of_nat (n_words (em_vocab e))) (em_dims e) ->
    written_rows o e rows -> text_exact show parse rows ->
    convert_main o host t show parse from Text lossy mmap input old = (Some out, Ok tt) ->
    forall lossy2 mmap2, exists e', format_load o host t parse Text lossy2 mmap2 out = Ok e'
      /\ simple_embeddings o e' (vocab_words (em_vocab e)) (em_dims e) rows.
  Proof.
    intros L HL D NW W AF WR TX H. apply convert_inv in H as (e0 & HL' & H). rewrite HL in HL'. apply Ok_inj in HL'. subst e0.
    apply format_load_shape in HL as (B & _ & G); [|easy]. cbn [format_write] in H. intros lossy2 mmap2.
    apply (text_round_trip o show parse e [32] old out rows); try easy.
    - split; [easy|]. now repeat constructor.
    - intros [X|[]]; discriminate.
    - intros [X|[]]; discriminate.
  Qed.
  Lemma convert_fasttext from lossy mmap input old out e : lenN input < ssize_limit ->
    format_load o host t parse from lossy mmap input = Ok e ->
    Forall (fun w => ~ In 0 w) (vocab_words (em_vocab e)) ->
    array_fits (N.of_nat (storage_rows (em_storage e))) (em_dims e) ->
    convert_main o host t show parse from Fasttext lossy mmap input old = (Some out, Ok tt) ->
    exists us, length us = n_words (em_vocab e)
      /\ (forall k w, nth_error (vocab_words (em_vocab e)) k = Some w ->
            exists u, nth_error us k = Some u /\ fasttext_average o e bits k w u)
      /\ forall lossy2 mmap2, exists e', format_load o host t parse Fasttext lossy2 mmap2 out = Ok e'
            /\ fasttext_embeddings o e e' bits us.
  Proof.
    intros L HL W AF H. apply convert_inv in H as (e0 & HL' & H). rewrite HL in HL'. apply Ok_inj in HL'. subst e0.
    apply format_load_shape in HL as (B & _ & G); [|easy]. cbn [format_write] in H.
    destruct (fasttext_reload o host bits e old out B W AF H) as (us & H1 & H2 & H3).
    exists us. split; [exact H1|]. split; [exact H2|]. intros lossy2 mmap2. exact (H3 host lossy2).
  Qed.
End Convert.
