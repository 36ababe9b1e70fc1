(* C58-C60: membership, rewriting files, the constructor of product quantizers.
   Statements only; proofs are in the other files. *)
From Verif Require Import Py IO Arr Subword Vocab Storage Chunks Embeddings Container PyText Compat Scripts
  Spec SpecVocab SpecLookup SpecContainer.
From Verif Require Import ContainerProofs RewriteProofs MoreProofs
  Samples VocabWitness FileWitness LookupWitness CompatWitness ScriptsWitness.
Local Open Scope N_scope.

(* C58: "in" for vocabularies: a str, an iterable of whatever depth, anything else *)
Theorem C58_vocab : forall v, built_vocab v ->
  (forall x, vocab_in v x = true <-> all_among (vocab_words v) x)
  /\ (forall w, vocab_in v (vocab_item w) = true <-> incl (vocab_iter w) (vocab_iter v))
  /\ NoDup (vocab_iter v) /\ vocab_len v = lenN (vocab_iter v).
Proof. exact vocab_in_iff. Qed.
Print Assumptions C58_vocab.
Theorem C58_ngrams : forall ngrams mn mx index ix,
  (forall i, index = Some i -> dict_wf i) -> ex_new ngrams mn mx index = Ok ix ->
  ex_iter ix = ngrams /\ NoDup ngrams /\ ex_len ix = lenN ngrams
  /\ (forall x, ex_in ix x = true <-> all_among ngrams x)
  /\ (forall g, In g ngrams <-> exists i, ex_getitem ix g = Ok i)
  /\ (forall g, ~ In g ngrams <-> ex_getitem ix g = Err KeyError)
  /\ (forall g i, ex_getitem ix g = Ok i <-> ex_call ix g = Some i).
Proof. exact ex_in_iff. Qed.
Print Assumptions C58_ngrams.
Theorem C58_embeddings : forall F (e : embeddings F), built_embeddings e ->
  forall x, em_in e x = true <-> all_among (vocab_words (em_vocab e)) x.
Proof. exact @em_in_iff. Qed.
Print Assumptions C58_embeddings.
Theorem C58_promise : forall F (o : fops F) (e : embeddings F) w,
  built_embeddings e -> valid_codes (em_storage e) -> nonneg_index (em_vocab e) ->
  em_in e (ItStr w) = true -> exists v, em_getitem o e w = Ok v.
Proof. exact @em_in_getitem. Qed.
Print Assumptions C58_promise.
(* a word that is not "in" the embeddings may have a vector *)
Theorem C58_not_conversely : exists (e : embeddings Z) w,
  built_embeddings e /\ valid_codes (em_storage e) /\ nonneg_index (em_vocab e)
  /\ em_in e (ItStr w) = false /\ exists v, em_getitem z_ops e w = Ok v.
Proof. exact (ex_intro _ e_sub (ex_intro _ w_unk getitem_not_in)). Qed.
Print Assumptions C58_not_conversely.
Example C58_sample :
  vocab_in v_simple (ItStr w_ce) = true /\ vocab_in v_simple (ItStr [99]) = false /\ vocab_in v_simple ItOther = false
  /\ vocab_in v_simple (ItIter [ItStr w_ab; ItIter [ItStr w_ce; ItIter []]]) = true
  /\ vocab_in v_simple (ItIter [ItStr w_ab; ItIter [ItOther]]) = false
  /\ vocab_in v_simple (ItIter []) = true
  /\ vocab_in v_simple (vocab_item v_bucket) = true /\ vocab_in v_bucket (vocab_item v_simple) = false
  /\ ex_new s_ngrams 2 3 (Some s_ngram_index) = Ok ex_s /\ dict_wf s_ngram_index
  /\ ex_in ex_s (ItIter [ItStr w_ce; ItStr [60; 97; 98]]) = true /\ ex_in ex_s (ItStr w_ab) = false
  /\ ex_len ex_s = 3.
Proof. exact in_sample. Qed.
Example C58_built : built_vocab v_simple /\ built_vocab v_bucket.
Proof. exact (conj v_simple_built v_bucket_built). Qed.

(* C59: loading a file and writing it again gives the same bytes *)
Theorem C59_written : forall h1 h2 h3 t mmap e out,
  built_embeddings e -> has_ngrams (em_vocab e) -> toml_roundtrips t (em_metadata e) ->
  load_mode h2 mmap ->
  run_writer (em_write h1 t e) = (out, Ok tt) -> lenN out < ssize_limit ->
  exists e', run_reader (load_finalfusion h2 t mmap) out = Ok e'
    /\ run_writer (em_write h3 t e') = (out, Ok tt).
Proof. exact rewritten. Qed.
Print Assumptions C59_written.
(* a file from elsewhere (chunks in another order, unknown chunks) reaches its fixed point at once *)
Theorem C59_loaded : forall h1 h2 h3 h4 t mm1 mm2 d e out,
  toml_stable t -> load_mode h3 mm2 -> lenN d < ssize_limit ->
  run_reader (load_finalfusion h1 t mm1) d = Ok e ->
  run_writer (em_write h2 t e) = (out, Ok tt) -> lenN out < ssize_limit ->
  exists e', run_reader (load_finalfusion h3 t mm2) out = Ok e'
    /\ run_writer (em_write h4 t e') = (out, Ok tt).
Proof. exact rewritten_loaded. Qed.
Print Assumptions C59_loaded.
(* no two different embeddings have the same file *)
Theorem C59_injective : forall h1 h2 t e1 e2 out,
  built_embeddings e1 -> has_ngrams (em_vocab e1) -> toml_roundtrips t (em_metadata e1) ->
  built_embeddings e2 -> has_ngrams (em_vocab e2) -> toml_roundtrips t (em_metadata e2) ->
  run_writer (em_write h1 t e1) = (out, Ok tt) -> run_writer (em_write h2 t e2) = (out, Ok tt) ->
  lenN out < ssize_limit ->
  native_storage (em_storage e1) = native_storage (em_storage e2)
  /\ same_vocab (em_vocab e1) (em_vocab e2)
  /\ option_map (@nm_vals f32) (em_norms e1) = option_map (@nm_vals f32) (em_norms e2)
  /\ em_metadata e1 = em_metadata e2.
Proof. exact file_determines. Qed.
Print Assumptions C59_injective.
Theorem C59_convert : forall o host t show parse h e out lossy mmap old,
  built_embeddings e -> has_ngrams (em_vocab e) -> toml_roundtrips t (em_metadata e) -> load_mode host mmap ->
  run_writer (em_write h t e) = (out, Ok tt) -> lenN out < ssize_limit ->
  convert_main o host t show parse Finalfusion Finalfusion lossy mmap out old = (Some out, Ok tt).
Proof. exact convert_same. Qed.
Print Assumptions C59_convert.
Theorem C59_convert_twice : forall o host t show parse from lossy mmap input old out e lossy2 mmap2 old2,
  lenN input < ssize_limit -> lenN out < ssize_limit -> load_mode host mmap2 ->
  format_load o host t parse from lossy mmap input = Ok e -> toml_roundtrips t (em_metadata e) ->
  convert_main o host t show parse from Finalfusion lossy mmap input old = (Some out, Ok tt) ->
  convert_main o host t show parse Finalfusion Finalfusion lossy2 mmap2 out old2 = (Some out, Ok tt).
Proof. exact convert_twice. Qed.
Print Assumptions C59_convert_twice.
Example C59_sample : meets_C01 Little Big false e_simple /\ meets_C01 Big Little true e_bucket
  /\ meets_C01 Little Little true e_fasttext /\ meets_C01 Big Big false e_explicit.
Proof. exact (conj meets_C01_simple (conj meets_C01_bucket (conj meets_C01_fasttext meets_C01_explicit))). Qed.
Example C59_sample_loaded : toml_stable s_toml
  /\ exists e, run_reader (load_finalfusion Little s_toml true) d_explicit = Ok e.
Proof. exact stable_sample. Qed.
Example C59_sample_convert : exists e, format_load b_ops Little s_toml b_parse Text false false d_text = Ok e
  /\ toml_roundtrips s_toml (em_metadata e)
  /\ convert_main b_ops Little s_toml b_show b_parse Text Finalfusion false false d_text None
     = (Some (converted_to Finalfusion), Ok tt)
  /\ convert_main b_ops Little s_toml b_show b_parse Finalfusion Finalfusion false true (converted_to Finalfusion) None
     = (Some (converted_to Finalfusion), Ok tt).
Proof. exact convert_sample. Qed.

(* C60: the projection of a product quantizer is square and of the reconstructed length *)
Theorem C60_accepts : forall F bo nc sub (qs : list (list (list F))) proj q,
  pq_new bo nc sub qs proj = Ok q <->
  match proj with
  | None => q = PQ bo nc sub qs None
  | Some (pbo, r, c, rows) =>
      r = lenN qs * sub /\ c = lenN qs * sub /\ q = PQ bo nc sub qs (Some (pbo, rows))
  end.
Proof. exact @pq_accepts. Qed.
Print Assumptions C60_accepts.
Theorem C60_rejects : forall F bo nc sub (qs : list (list (list F))) pbo r c rows,
  ~ (r = lenN qs * sub /\ c = lenN qs * sub) <->
  pq_new bo nc sub qs (Some (pbo, r, c, rows)) = Err AssertionError.
Proof. exact @pq_rejects. Qed.
Print Assumptions C60_rejects.
Theorem C60_usable : forall F bo nc sub (qs : list (list (list F))) proj q,
  bo_wf bo -> Forall (fun m => lenN m = nc /\ rows_wf sub m) qs ->
  (forall pbo r c rows, proj = Some (pbo, r, c, rows) -> bo_wf pbo /\ lenN rows = r /\ rows_wf c rows) ->
  pq_new bo nc sub qs proj = Ok q ->
  pq_wf q /\ forall o code, lenN code = lenN qs -> Forall (fun b => Byte.to_N b < nc) code ->
    exists v, pq_reconstruct o q code = Ok v /\ lenN v = lenN qs * sub.
Proof. exact @pq_usable. Qed.
Print Assumptions C60_usable.
Example C60_sample :
  let qs := [[[1]; [2]]; [[3]; [5]]]%Z in
  Forall (fun m => lenN m = 2 /\ rows_wf 1 m) qs
  /\ (exists q, pq_new BoNative 2 1 qs (Some (BoNative, 2, 2, [[0; 1]; [1; 1]]%Z)) = Ok q
       /\ pq_reconstruct z_ops q [x01; x00] = Ok [3; 5]%Z)
  /\ pq_new BoNative 2 1 qs (Some (BoNative, 2, 3, [[0; 1; 0]; [1; 1; 0]]%Z)) = Err AssertionError
  /\ pq_new BoNative 2 1 qs (Some (BoNative, 3, 2, [[0; 1]; [1; 1]; [1; 1]]%Z)) = Err AssertionError.
Proof. exact pq_sample. Qed.
