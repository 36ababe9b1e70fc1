(* Converting a file into its own format, the constructor of product quantizers, witnesses. *)
From Coq Require Import Lia.
From Verif Require Import Py PyProofs Utf8 IO Arr Subword Vocab Storage Chunks Embeddings Container
  Spec SpecVocab SpecLookup SpecSame SpecContainer EmbeddingsProofs WriteProofs ExplicitEmb VocabFacts WordProofs LookupProofs RewriteProofs
  PyText Compat CompatProofs CompatBuilt Scripts ScriptsProofs ConvertProofs ContainerProofs
  Samples VocabWitness FileWitness LookupWitness CompatWitness ScriptsWitness.
Local Open Scope N_scope.

Section Convert.
  Context (o : fops f32) (host : endian) (t : toml_lib).
  Context (show : f32 -> str) (parse : str -> result f32).

  Theorem convert_same h e out lossy mmap old :
    built_embeddings e -> has_ngrams (em_vocab e) -> toml_roundtrips t (em_metadata e) -> load_mode host mmap ->
    run_writer (em_write h t e) = (out, Ok tt) -> lenN out < ssize_limit ->
    convert_main o host t show parse Finalfusion Finalfusion lossy mmap out old = (Some out, Ok tt).
  Proof.
    intros B G T L W S. destruct (rewritten h host host t mmap e out B G T L W S) as (e' & R & W').
    unfold convert_main, before_open. cbn [format_load format_write]. rewrite R. unfold em_write_file, open_wb.
    now rewrite W'.
  Qed.
  Theorem convert_twice from lossy mmap input old out e lossy2 mmap2 old2 :
    lenN input < ssize_limit -> lenN out < ssize_limit -> load_mode host mmap2 ->
    format_load o host t parse from lossy mmap input = Ok e -> toml_roundtrips t (em_metadata e) ->
    convert_main o host t show parse from Finalfusion lossy mmap input old = (Some out, Ok tt) ->
    convert_main o host t show parse Finalfusion Finalfusion lossy2 mmap2 out old2 = (Some out, Ok tt).
  Proof.
    intros L1 L2 LM HL T H. apply convert_inv in H as (e0 & HL' & H). rewrite HL in HL'. apply Ok_inj in HL'. subst e0.
    apply format_load_shape in HL as (B & _ & G); [|easy].
    cbn [format_write] in H. unfold em_write_file, open_wb in H.
    destruct (run_writer (em_write host t e)) as [w r] eqn:E. injection H as <- ->.
    now apply (convert_same host e).
  Qed.
End Convert.

(* ------------------------------------------------------------------ *)
Section PQ.
  Context {F : Type} (bo : byteorder) (nc sub : N) (qs : list (list (list F))).
  Definition rl : N := lenN qs * sub.
  Theorem pq_accepts proj q :
    pq_new bo nc sub qs proj = Ok q <->
    match proj with
    | None => q = PQ bo nc sub qs None
    | Some (pbo, r, c, rows) => r = rl /\ c = rl /\ q = PQ bo nc sub qs (Some (pbo, rows))
    end.
  Proof.
    unfold pq_new, py_assert. fold rl. destruct proj as [[[[pbo r] c] rows]|].
    - destruct (N.eqb_spec r rl) as [->|D]; [destruct (N.eqb_spec rl c) as [<-|D]|]; cbn [andb bind]; split.
      + intros H. apply Ok_inj in H. now subst.
      + now intros (_ & _ & ->).
      + easy.
      + intros (_ & H & _). now elim D.
      + easy.
      + intros (H & _). now elim D.
    - split; [intros H; now apply Ok_inj in H|now intros ->].
  Qed.
  Theorem pq_rejects pbo r c rows : ~ (r = rl /\ c = rl) <-> pq_new bo nc sub qs (Some (pbo, r, c, rows)) = Err AssertionError.
  Proof.
    unfold pq_new, py_assert. fold rl.
    destruct (N.eqb_spec r rl) as [->|D]; [destruct (N.eqb_spec rl c) as [<-|D]|]; cbn [andb bind]; split.
    - intros H. now elim H.
    - easy.
    - easy.
    - intros _ (_ & H). now elim D.
    - easy.
    - intros _ (H & _). now elim D.
  Qed.
  Theorem pq_usable proj q : bo_wf bo -> Forall (fun m => lenN m = nc /\ rows_wf sub m) qs ->
    (forall pbo r c rows, proj = Some (pbo, r, c, rows) -> bo_wf pbo /\ lenN rows = r /\ rows_wf c rows) ->
    pq_new bo nc sub qs proj = Ok q ->
    pq_wf q /\ forall o code, lenN code = lenN qs -> Forall (fun b => Byte.to_N b < nc) code ->
      exists v, pq_reconstruct o q code = Ok v /\ lenN v = lenN qs * sub.
  Proof.
    intros B Q P H. assert (W : pq_wf q).
    { apply pq_accepts in H. destruct proj as [[[[pbo r] c] rows]|].
      - destruct H as (-> & -> & ->). destruct (P _ _ _ _ eq_refl) as (B' & R & C). unfold pq_wf. cbn. now repeat split.
      - subst q. unfold pq_wf. cbn. now repeat split. }
    assert (E : pq_quantizers q = qs /\ pq_n_centroids q = nc /\ pq_sub_len q = sub).
    { apply pq_accepts in H. destruct proj as [[[[pbo r] c] rows]|]; [destruct H as (_ & _ & ->)|subst q]; easy. }
    destruct E as (E1 & E2 & E3). split; [exact W|]. intros o code L V.
    destruct (pq_reconstruct_ok o q code W) as (v & Hv); [congruence|now rewrite E2|].
    exists v. split; [exact Hv|]. rewrite (pq_reconstruct_len o q code v W Hv). unfold pq_reconstructed_len. now rewrite E1, E3.
  Qed.
End PQ.

(* ------------------------------------------------------------------ *)
(* "in" promises a vector *)
Theorem em_in_getitem {F} (o : fops F) (e : embeddings F) w :
  built_embeddings e -> valid_codes (em_storage e) -> nonneg_index (em_vocab e) ->
  em_in e (ItStr w) = true -> exists v, em_getitem o e w = Ok v.
Proof.
  intros B V N0 H. destruct B as (B1 & B2 & B3) eqn:EB. clear EB.
  destruct (built_lookup (em_vocab e) B2) as (_ & _ & K & _).
  change (vocab_contains (em_vocab e) w = true) in H. apply K in H. apply In_nth_error in H as (k & Hk).
  destruct (embedding_known o e k w None None (conj B1 (conj B2 B3)) V N0 Hk) as (row & _ & G & _). eauto.
Qed.
Definition w_unk : str := [97; 98; 99].
Lemma getitem_not_in : built_embeddings e_sub /\ valid_codes (em_storage e_sub) /\ nonneg_index (em_vocab e_sub)
  /\ em_in e_sub (ItStr w_unk) = false /\ exists v, em_getitem z_ops e_sub w_unk = Ok v.
Proof. split; [apply e_sub_built|]. split; [exact I|]. split; [exact I|]. split; [reflexivity|]. eexists. vm_compute. reflexivity. Qed.
Lemma in_sample :
  vocab_in v_simple (ItStr w_ce) = true /\ vocab_in v_simple (ItStr [99]) = false /\ vocab_in v_simple ItOther = false
  /\ vocab_in v_simple (ItIter [ItStr w_ab; ItIter [ItStr w_ce; ItIter []]]) = true
  /\ vocab_in v_simple (ItIter [ItStr w_ab; ItIter [ItOther]]) = false
  /\ vocab_in v_simple (ItIter []) = true
  /\ vocab_in v_simple (vocab_item v_bucket) = true /\ vocab_in v_bucket (vocab_item v_simple) = false
  /\ ex_new s_ngrams 2 3 (Some s_ngram_index) = Ok ex_s /\ dict_wf s_ngram_index
  /\ ex_in ex_s (ItIter [ItStr w_ce; ItStr [60; 97; 98]]) = true /\ ex_in ex_s (ItStr w_ab) = false
  /\ ex_len ex_s = 3.
Proof. repeat (split; [first [reflexivity|unfold dict_wf; cbn; repeat constructor; cbn; intuition discriminate]|]). reflexivity. Qed.

(* a square projection is accepted, others are not *)
Lemma pq_sample :
  let qs := [[[1]; [2]]; [[3]; [5]]]%Z in
  Forall (fun m => lenN m = 2 /\ rows_wf 1 m) qs
  /\ (exists q, pq_new BoNative 2 1 qs (Some (BoNative, 2, 2, [[0; 1]; [1; 1]]%Z)) = Ok q
       /\ pq_reconstruct z_ops q [x01; x00] = Ok [3; 5]%Z)
  /\ pq_new BoNative 2 1 qs (Some (BoNative, 2, 3, [[0; 1; 0]; [1; 1; 0]]%Z)) = Err AssertionError
  /\ pq_new BoNative 2 1 qs (Some (BoNative, 3, 2, [[0; 1]; [1; 1]; [1; 1]]%Z)) = Err AssertionError.
Proof.
  cbn zeta. split; [repeat constructor; easy|]. split; [eexists; split; [reflexivity|vm_compute; reflexivity]|]. split; reflexivity.
Qed.

Lemma convert_sample : exists e, format_load b_ops Little s_toml b_parse Text false false d_text = Ok e
  /\ toml_roundtrips s_toml (em_metadata e)
  /\ convert_main b_ops Little s_toml b_show b_parse Text Finalfusion false false d_text None
     = (Some (converted_to Finalfusion), Ok tt)
  /\ convert_main b_ops Little s_toml b_show b_parse Finalfusion Finalfusion false true (converted_to Finalfusion) None
     = (Some (converted_to Finalfusion), Ok tt).
Proof.
  exists e_t. split; [exact d_text_loads|]. split; [exact s_toml_none|]. split; vm_compute; reflexivity.
Qed.
