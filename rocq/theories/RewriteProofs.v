(* Writing again what was read; files determine embeddings. *)
From Coq Require Import Lia.
From Verif Require Import Py PyProofs Utf8 IO IOProofs Arr Subword Vocab Storage Chunks Embeddings Spec
  HeaderProofs EmbeddingsProofs WriteProofs.
Local Open Scope N_scope.

Lemma native_wf {F} (s : storage F) : storage_wf s -> storage_wf (native_storage s).
Proof.
  destruct s as [a|q]; cbn [native_storage storage_wf].
  - intros (_ & R). split; [easy|exact R].
  - destruct q as [[bo nc sl qs pr] ql cs ns]. unfold qarray_wf, pq_wf. cbn.
    intros ((_ & Q & P) & A & B & C & N). split; [|split; [exact A|split; [exact B|split; [exact C|]]]].
    + split; [easy|]. split; [exact Q|]. destruct pr as [[? ?]|]; [|exact I]. destruct P as (_ & P). split; [easy|exact P].
    + destruct ns as [[? ?]|]; [|exact I]. destruct N as (_ & N). split; [easy|exact N].
Qed.
Lemma vocab_write_same v1 v2 p : same_vocab v1 v2 -> vocab_write_chunk v1 p = vocab_write_chunk v2 p.
Proof.
  intros H. destruct H as [| | |ws i ngrams i1 i2 bound mn mx H]; try reflexivity.
  cbn [vocab_write_chunk]. unfold explicit_vocab_write_chunk. cbn [ex_ngrams ex_min_n ex_max_n].
  unfold wlet. destruct (calculate_binary_list_size ws); [|reflexivity].
  destruct (calculate_binary_list_size ngrams); [|reflexivity].
  apply wseq_ext; [reflexivity|]. intros p1. apply wseq_ext; [reflexivity|]. intros p2.
  assert (X : forall g q, write_ngram (EX ngrams i1 bound mn mx) g q = write_ngram (EX ngrams i2 bound mn mx) g q).
  { intros g q. unfold write_ngram, ex_getitem. cbn [ex_index]. now rewrite H. }
  revert p2. generalize ngrams at 2 4. intros l. induction l as [|g l IH]; intros p2; [reflexivity|].
  cbn [wfor]. apply wseq_ext; [apply X|exact IH].
Qed.
Lemma em_write_same h1 h2 t (e1 e2 : embeddings f32) p :
  storage_wf (em_storage e1) -> (forall n, em_norms e1 = Some n -> norms_wf n) ->
  same_embeddings e1 e2 -> em_write h1 t e1 p = em_write h2 t e2 p.
Proof.
  intros W1 N1 (Es & Ev & En & Em). unfold em_write.
  assert (F : Forall2 (fun a b => fst a = fst b /\ forall p, snd a p = snd b p)
                (em_chunks h1 t e1) (em_chunks h2 t e2)).
  { unfold em_chunks. rewrite Em. apply Forall2_app; [|apply Forall2_app; [|apply Forall2_app]].
    - destruct (em_metadata e1); repeat constructor.
    - constructor; [|constructor]. split; [destruct Ev; reflexivity|]. intros. now apply vocab_write_same.
    - constructor; [|constructor]. rewrite Es. split; [now destruct (em_storage e1)|].
      intros. apply storage_order; [exact W1|now apply native_wf|]. destruct (em_storage e1) as [a|q]; [reflexivity|].
      cbn. destruct (pq_projection (qa_pq q)) as [[? ?]|], (qa_norms q) as [[? ?]|]; reflexivity.
    - rewrite En. destruct (em_norms e1) as [n|]; cbn [option_map]; [|constructor]. constructor; [|constructor].
      split; [reflexivity|]. intros. apply norms_order; [now apply N1|easy|reflexivity]. }
  apply wseq_ext.
  - intros p1. assert (X : map (fun c => chunk_id_val (fst c)) (em_chunks h1 t e1)
                           = map (fun c => chunk_id_val (fst c)) (em_chunks h2 t e2)).
    { clear -F. induction F as [|a b l1 l2 [H _] F IH]; [easy|]. simpl map; apply f_equal2; [exact (f_equal chunk_id_val H)|exact IH]. }
    now rewrite X.
  - intros p1. apply wfor_ext. clear -F. induction F as [|a b l1 l2 [_ H] F IH]; now constructor.
Qed.

Theorem rewritten h1 h2 h3 t mmap e out :
  built_embeddings e -> has_ngrams (em_vocab e) -> toml_roundtrips t (em_metadata e) ->
  load_mode h2 mmap ->
  run_writer (em_write h1 t e) = (out, Ok tt) -> lenN out < ssize_limit ->
  exists e', run_reader (load_finalfusion h2 t mmap) out = Ok e'
    /\ run_writer (em_write h3 t e') = (out, Ok tt).
Proof.
  intros B G T L W S. destruct (em_roundtrip h1 h2 t mmap e out B G T L W S) as (e' & R & Same).
  exists e'. split; [exact R|]. destruct B as (B1 & _ & B3 & _). unfold run_writer in *.
  now rewrite <- (em_write_same h1 h3 t e e' 0 B1 B3 Same).
Qed.

Theorem rewritten_loaded h1 h2 h3 h4 t mm1 mm2 d e out :
  toml_stable t -> load_mode h3 mm2 -> lenN d < ssize_limit ->
  run_reader (load_finalfusion h1 t mm1) d = Ok e ->
  run_writer (em_write h2 t e) = (out, Ok tt) -> lenN out < ssize_limit ->
  exists e', run_reader (load_finalfusion h3 t mm2) out = Ok e'
    /\ run_writer (em_write h4 t e') = (out, Ok tt).
Proof.
  intros T L S R W S2. destruct (load_write_load h1 h2 h3 t mm1 mm2 d e T L S R) as (out' & W' & H).
  rewrite W in W'. injection W' as <-. destruct (H S2) as (e' & R' & Same). exists e'. split; [exact R'|].
  apply load_finalfusion_inv in R as ((B1 & _ & B3 & _) & _); [|exact S]. unfold run_writer in *.
  now rewrite <- (em_write_same h2 h4 t e e' 0 B1 B3 Same).
Qed.

Lemma same_vocab_common v1 v2 w : same_vocab v1 w -> same_vocab v2 w -> same_vocab v1 v2.
Proof.
  intros H1 H2. destruct H1 as [| | |ws i ngrams i1 i2 bound mn mx H]; inversion H2; subst; constructor.
  intros k. congruence.
Qed.
Theorem file_determines h1 h2 t e1 e2 out :
  built_embeddings e1 -> has_ngrams (em_vocab e1) -> toml_roundtrips t (em_metadata e1) ->
  built_embeddings e2 -> has_ngrams (em_vocab e2) -> toml_roundtrips t (em_metadata e2) ->
  run_writer (em_write h1 t e1) = (out, Ok tt) -> run_writer (em_write h2 t e2) = (out, Ok tt) ->
  lenN out < ssize_limit ->
  native_storage (em_storage e1) = native_storage (em_storage e2)
  /\ same_vocab (em_vocab e1) (em_vocab e2)
  /\ option_map (@nm_vals f32) (em_norms e1) = option_map (@nm_vals f32) (em_norms e2)
  /\ em_metadata e1 = em_metadata e2.
Proof.
  intros B1 G1 T1 B2 G2 T2 W1 W2 S.
  destruct (em_roundtrip h1 Little t false e1 out B1 G1 T1 (or_introl eq_refl) W1 S) as (e & R & S1 & V1 & N1 & M1).
  destruct (em_roundtrip h2 Little t false e2 out B2 G2 T2 (or_introl eq_refl) W2 S) as (e' & R' & S2 & V2 & N2 & M2).
  rewrite R in R'. apply Ok_inj in R'. subst e'. split; [congruence|]. split; [eapply same_vocab_common; eassumption|].
  split; [|congruence]. rewrite N1 in N2. destruct (em_norms e1) as [n1|], (em_norms e2) as [n2|]; cbn in *; try congruence.
  unfold native_norms in N2. now injection N2 as ->.
Qed.
