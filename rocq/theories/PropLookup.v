(* C24-C33, C41, C42: lookups, buffers, similarity queries, storages, text encoding, norms.
   Statements only; proofs are in the other files. *)
From Coq Require Import Reals.
From Verif Require Import Py Utf8 IO Arr Subword Vocab Storage Chunks Embeddings Heap
  Spec SpecVocab SpecLookup SpecHeap SpecReal SpecUtf8 SpecLossy.
From Verif Require Import Utf8Proofs Utf8More LossyDecode WordProofs StorageGet LookupProofs SimProofs RealProofs HeapProofs AliasProofs SetterProofs
  Samples VocabWitness LookupWitness.
Local Open Scope N_scope.

(* C24: true but for words that cannot be encoded *)
Theorem C24_known : forall F (o : fops F) (e : embeddings F) k w d dn,
  built_embeddings e -> valid_codes (em_storage e) -> nonneg_index (em_vocab e) ->
  nth_error (vocab_words (em_vocab e)) k = Some w ->
  exists row, storage_get o (em_storage e) (Z.of_nat k) = Ok row
    /\ em_getitem o e w = Ok row
    /\ em_embedding o e w d = Ok (Some row)
    /\ forall n, em_norms e = Some n ->
         exists x, nth_error (nm_vals n) k = Some x
           /\ em_embedding_with_norm o e w dn = Ok (Some (row, Some x)).
Proof. exact @embedding_known. Qed.
Print Assumptions C24_known.
Theorem C24_unknown : forall F (o : fops F) (e : embeddings F) w l d dn,
  built_embeddings e -> valid_codes (em_storage e) -> nonneg_index (em_vocab e) -> machine_size (em_vocab e) ->
  ~ In w (vocab_words (em_vocab e)) -> has_subwords (em_vocab e) w l ->
  exists rows s, rows_at o (em_storage e) l rows /\ is_sum o (N.to_nat (em_dims e)) rows s
    /\ em_getitem o e w = Ok (map (fun x => fdiv o x (fnorm o s)) s)
    /\ em_embedding o e w d = Ok (Some (map (fun x => fdiv o x (fnorm o s)) s))
    /\ (em_norms e <> None ->
        em_embedding_with_norm o e w dn = Ok (Some (map (fun x => fdiv o x (fnorm o s)) s, Some (fnorm o s)))).
Proof. exact @embedding_unknown. Qed.
Print Assumptions C24_unknown.
Theorem C24_none : forall F (o : fops F) (e : embeddings F) w d dn, built_embeddings e ->
  ~ In w (vocab_words (em_vocab e)) -> no_subwords (em_vocab e) w ->
  em_getitem o e w = Err KeyError /\ em_embedding o e w d = Ok d
  /\ (em_norms e <> None -> em_embedding_with_norm o e w dn = Ok dn).
Proof. exact @embedding_none. Qed.
Print Assumptions C24_none.
Theorem C24_type_error : forall F (o : fops F) (e : embeddings F) w dn, built_embeddings e ->
  nonneg_index (em_vocab e) -> machine_size (em_vocab e) -> valid_codes (em_storage e) ->
  (em_embedding_with_norm o e w dn = Err TypeError <-> em_norms e = None).
Proof. exact @embedding_type_error. Qed.
Print Assumptions C24_type_error.
Theorem C24_agree : forall F (o : fops F) (e : embeddings F) w, built_embeddings e ->
  (forall v, em_getitem o e w = Ok v <-> em_embedding o e w None = Ok (Some v))
  /\ (forall d v, em_embedding o e w None = Ok (Some v) -> em_embedding o e w d = Ok (Some v))
  /\ (em_getitem o e w = Err KeyError -> forall d, em_embedding o e w d = Ok d \/ exists x, em_embedding o e w d = Err x)
  /\ (em_norms e <> None -> forall v,
       em_embedding o e w None = Ok (Some v)
       <-> exists x, em_embedding_with_norm o e w None = Ok (Some (v, x))).
Proof. exact @embedding_agree. Qed.
Print Assumptions C24_agree.
(* what is missing: embedding raises for words that cannot be encoded (C24_never_raises_refuted) *)
Theorem C24_never_raises_partial : forall F (o : fops F) e item d,
  built_embeddings e -> nonneg_index (em_vocab e) -> machine_size (em_vocab e) -> valid_codes (em_storage e) ->
  forall x, em_embedding o e item d = Err x -> x = UnicodeEncodeError.
Proof. intros F o e item d B N M V. exact (proj2 (no_index_error o e item d B N M V)). Qed.
Print Assumptions C24_never_raises_partial.
Theorem C24_never_raises_refuted : exists (e : embeddings Z) w,
  built_embeddings e /\ nonneg_index (em_vocab e) /\ machine_size (em_vocab e) /\ valid_codes (em_storage e)
  /\ em_embedding z_ops e w None = Err UnicodeEncodeError.
Proof. exists e_ft, [55296]. exact (conj e_ft_built (conj I (conj eq_refl (conj I surrogate_query)))). Qed.
Print Assumptions C24_never_raises_refuted.

Example C24_sample : built_embeddings e_sub /\ em_getitem z_ops e_sub w_ce = Ok [3; 4]%Z
  /\ (exists l, has_subwords v_bucket [97; 98; 99] l) /\ no_subwords v_bucket []
  /\ em_getitem z_ops e_sub [] = Err KeyError.
Proof.
  split; [exact e_sub_built|]. split; [reflexivity|]. split; [|split; [vm_compute; reflexivity|vm_compute; reflexivity]].
  eexists. split; [|eexists; split; [vm_compute; reflexivity|reflexivity]]. vm_compute. discriminate.
Qed.

(* C25: memory *)
Theorem C25_out : forall F (o : fops F) e w out d h v,
  in_memory h e -> storage_wf (em_storage (he_value o h e)) -> (forall r, out = Some r -> buffer h e r) ->
  em_embedding o (he_value o h e) w None = Ok (Some v) ->
  exists h' r, he_embedding o e w out d h = (h', Ok (Some r)) /\ h_read o h' r = v
    /\ (forall ro, out = Some ro -> r = ro).
Proof. exact @embedding_mem. Qed.
Print Assumptions C25_out.
Theorem C25_with_norm : forall F (o : fops F) e w out d h v n,
  in_memory h e -> storage_wf (em_storage (he_value o h e)) -> (forall r, out = Some r -> buffer h e r) ->
  em_embedding_with_norm o (he_value o h e) w None = Ok (Some (v, n)) ->
  exists h' r n', he_embedding_with_norm o e w out d h = (h', Ok (Some (r, n'))) /\ h_read o h' r = v
    /\ (forall ro, out = Some ro -> r = ro)
    /\ (disjoint (match out with Some r => r | None => [] end) (norms_cells e) -> n' = n).
Proof. exact @with_norm_mem. Qed.
Print Assumptions C25_with_norm.
Theorem C25_getitem : forall F (o : fops F) e w h v,
  in_memory h e -> storage_wf (em_storage (he_value o h e)) ->
  em_getitem o (he_value o h e) w = Ok v ->
  exists h' r, he_getitem o e w h = (h', Ok r) /\ h_read o h' r = v.
Proof. exact @getitem_mem. Qed.
Print Assumptions C25_getitem.
Theorem C25_untouched : forall F (o : fops F) e w out h,
  em_embedding o (he_value o h e) w None = Ok None ->
  he_embedding o e w out None h = (h, Ok None).
Proof. exact @embedding_mem_none. Qed.
Print Assumptions C25_untouched.
Theorem C25_default : forall F (o : fops F) e w out d h,
  em_embedding o (he_value o h e) w None = Ok None -> buffer h e out -> length d = length out ->
  exists h', he_embedding o e w (Some out) (Some d) h = (h', Ok (Some out)) /\ h_read o h' out = h_read o h d.
Proof. exact @embedding_mem_default. Qed.
Print Assumptions C25_default.
Theorem C25_default_itself : forall F (o : fops F) (e : hembeddings F) w h d dn,
  em_embedding o (he_value o h e) w None = Ok None ->
  he_embedding o e w None d h = (h, Ok d)
  /\ (he_norms e <> None -> he_embedding_with_norm o e w None dn h = (h, Ok dn)).
Proof. exact @default_itself. Qed.
Print Assumptions C25_default_itself.
Theorem C25_with_norm_untouched : forall F (o : fops F) (e : hembeddings F) w out h,
  em_embedding o (he_value o h e) w None = Ok None -> he_norms e <> None ->
  he_embedding_with_norm o e w out None h = (h, Ok None).
Proof. exact @with_norm_none. Qed.
Print Assumptions C25_with_norm_untouched.
Theorem C25_with_norm_default : forall F (o : fops F) (e : hembeddings F) w out d x h,
  em_embedding o (he_value o h e) w None = Ok None -> he_norms e <> None ->
  buffer h e out -> length d = length out ->
  exists h', he_embedding_with_norm o e w (Some out) (Some (d, x)) h = (h', Ok (Some (out, x)))
    /\ h_read o h' out = h_read o h d.
Proof. exact @with_norm_default. Qed.
Print Assumptions C25_with_norm_default.
Theorem C25_only_out : forall F (o : fops F) (e : hembeddings F) qs h,
  only_changed (flat_map query_out qs) h (run_queries o e qs h).
Proof. exact @queries_change. Qed.
Print Assumptions C25_only_out.
Theorem C25_history : forall F (o : fops F) (e : hembeddings F) qs h,
  in_memory h e ->
  (forall q, In q qs -> disjoint (query_out q) (storage_cells e) /\ disjoint (query_out q) (norms_cells e)) ->
  he_value o (run_queries o e qs h) e = he_value o h e /\ in_memory (run_queries o e qs h) e.
Proof. exact @history_value. Qed.
Print Assumptions C25_history.

Example C25_sample : he_value z_ops h_z he_z = e_sub /\ in_memory h_z he_z /\ buffer h_z he_z out_z
  /\ disjoint out_z (storage_cells he_z) /\ disjoint out_z (norms_cells he_z)
  /\ he_embedding z_ops he_z w_ce (Some out_z) None h_z
     = ([1; 2; 3; 4; 5; 6; 7; 8; 9; 10; 4; 3]%Z, Ok (Some out_z))
  /\ (* without a buffer the row itself is returned *)
     he_embedding z_ops he_z w_ce None None h_z = (h_z, Ok (Some [2; 3]%nat))
  /\ (* the empty word has no subwords: the default is copied *)
     em_embedding z_ops (he_value z_ops h_z he_z) [] None = Ok None
  /\ he_embedding_with_norm z_ops he_z [] (Some out_z) (Some ([0; 1]%nat, Some 5%Z)) h_z
     = ([1; 2; 3; 4; 5; 6; 7; 8; 9; 10; 2; 1]%Z, Ok (Some (out_z, Some 5%Z))).
Proof.
  exact (conj he_z_value (conj he_z_memory (conj out_z_buffer (conj (proj1 out_z_disjoint)
    (conj (proj2 out_z_disjoint) (conj eq_refl (conj eq_refl (conj eq_refl eq_refl)))))))).
Qed.

(* C26: exact arithmetic *)
Theorem C26_unit : forall (e : embeddings R) w l d dn rows s,
  built_embeddings e -> valid_codes (em_storage e) -> nonneg_index (em_vocab e) -> machine_size (em_vocab e) ->
  ~ In w (vocab_words (em_vocab e)) -> has_subwords (em_vocab e) w l ->
  rows_at r_ops (em_storage e) l rows -> is_sum r_ops (N.to_nat (em_dims e)) rows s ->
  Exists (fun a => a <> 0%R) s ->
  exists v n, (0 < n)%R /\ (n * n = sum_squares s)%R /\ sum_squares v = 1%R /\ map (fun x => n * x)%R v = s
    /\ em_getitem r_ops e w = Ok v
    /\ em_embedding r_ops e w d = Ok (Some v)
    /\ (em_norms e <> None -> em_embedding_with_norm r_ops e w dn = Ok (Some (v, Some n))).
Proof. exact unit_embedding. Qed.
Print Assumptions C26_unit.

Example C26_sample : built_embeddings e_real /\ exists l rows s,
  ~ In [97; 98; 99] (vocab_words v_bucket) /\ has_subwords v_bucket [97; 98; 99] l
  /\ rows_at r_ops (em_storage e_real) l rows /\ is_sum r_ops 2 rows s /\ Exists (fun a => a <> 0%R) s.
Proof. exact (conj e_real_built e_real_sample). Qed.

(* C27 *)
Theorem C27_embedding_similarity : forall F (o : fops F) argpartition heappush (e : embeddings F) a query sims k skip,
  built_embeddings e -> nonneg_index (em_vocab e) -> em_storage e = SNd a ->
  partitions o argpartition -> pushes heappush ->
  lenN query = em_dims e -> all_similarities o e query sims -> ordered_on o sims ->
  let skips := match skip with None => [] | Some s => s end in
  (k + n_skipped (em_vocab e) skips <= n_words (em_vocab e))%nat ->
  exists res, em_embedding_similarity o argpartition heappush e query (Z.of_nat k) skip = Ok res
    /\ top_k o e query k skips res.
Proof. exact @embedding_similarity_top. Qed.
Print Assumptions C27_embedding_similarity.
Theorem C27_word_similarity : forall F (o : fops F) argpartition heappush (e : embeddings F) a w query sims k,
  built_embeddings e -> nonneg_index (em_vocab e) -> em_storage e = SNd a ->
  partitions o argpartition -> pushes heappush ->
  em_embedding o e w None = Ok (Some query) ->
  all_similarities o e query sims -> ordered_on o sims ->
  (k + n_skipped (em_vocab e) [w] <= n_words (em_vocab e))%nat ->
  exists res, em_word_similarity o argpartition heappush e w (Z.of_nat k) = Ok (Some res)
    /\ top_k o e query k [w] res.
Proof. exact @word_similarity_top. Qed.
Print Assumptions C27_word_similarity.
Theorem C27_analogy : forall F (o : fops F) argpartition heappush (e : embeddings F) a w1 w2 w3 skip x y z d sims k,
  built_embeddings e -> nonneg_index (em_vocab e) -> em_storage e = SNd a ->
  partitions o argpartition -> pushes heappush ->
  em_embedding o e w1 None = Ok (Some x) -> em_embedding o e w2 None = Ok (Some y) ->
  em_embedding o e w3 None = Ok (Some z) ->
  is_target o x y z d -> all_similarities o e d sims -> ordered_on o sims ->
  let skips := match skip with None => [w1; w2; w3] | Some s => s end in
  (k + n_skipped (em_vocab e) skips <= n_words (em_vocab e))%nat ->
  exists res, em_analogy o argpartition heappush e w1 w2 w3 (Z.of_nat k) skip = Ok (Some res)
    /\ top_k o e d k skips res.
Proof. exact @analogy_top. Qed.
Print Assumptions C27_analogy.

Example C27_oracles : partitions z_ops (argsort z_ops) /\ pushes (@push Z) /\ forall l, ordered_on z_ops l.
Proof. exact (conj (argsort_partitions z_ops) (conj push_pushes z_ordered)). Qed.
Example C27_sample : built_embeddings e_sim /\ all_similarities z_ops e_sim [1; 1]%Z [1; 4; 4]%Z
  /\ em_embedding_similarity z_ops (argsort z_ops) push e_sim [1; 1]%Z 2 (Some [w_ce]) = Ok [(w_d, 4%Z); (w_ab, 1%Z)].
Proof.
  exact (conj e_sim_built (conj e_sim_similarities eq_refl)).
Qed.

(* C28: at most k, but too many is an error *)
Theorem C28_at_most : forall F (o : fops F) argpartition heappush (e : embeddings F) k,
  (forall query skip res, em_embedding_similarity o argpartition heappush e query k skip = Ok res ->
     (Z.of_nat (length res) <= Z.max 0 k)%Z)
  /\ (forall w res, em_word_similarity o argpartition heappush e w k = Ok (Some res) ->
     (Z.of_nat (length res) <= Z.max 0 k)%Z)
  /\ (forall w1 w2 w3 skip res, em_analogy o argpartition heappush e w1 w2 w3 k skip = Ok (Some res) ->
     (Z.of_nat (length res) <= Z.max 0 k)%Z).
Proof. exact @at_most_k. Qed.
Print Assumptions C28_at_most.
Theorem C28_too_many : forall F (o : fops F) argpartition heappush (e : embeddings F) a query k skip,
  built_embeddings e -> nonneg_index (em_vocab e) -> em_storage e = SNd a ->
  lenN query = em_dims e -> (0 <= k)%Z -> (0 < n_words (em_vocab e))%nat ->
  (Z.of_nat (n_words (em_vocab e))
   < k + Z.of_nat (n_skipped (em_vocab e) (match skip with None => [] | Some s => s end)))%Z ->
  em_embedding_similarity o argpartition heappush e query k skip = Err ValueError.
Proof. exact @embedding_similarity_too_many. Qed.
Print Assumptions C28_too_many.

Theorem C28_refuted : exists argpartition heappush (e : embeddings Z) a query,
  partitions z_ops argpartition /\ pushes heappush
  /\ built_embeddings e /\ nonneg_index (em_vocab e) /\ em_storage e = SNd a
  /\ lenN query = em_dims e /\ n_words (em_vocab e) = 3%nat
  /\ em_embedding_similarity z_ops argpartition heappush e query 4 None = Err ValueError.
Proof.
  exact (ex_intro _ (argsort z_ops) (ex_intro _ (@push Z) (ex_intro _ e_sim (ex_intro _ _ (ex_intro _ [1; 1]%Z
    (conj (argsort_partitions z_ops) (conj push_pushes (conj e_sim_built (conj I (conj eq_refl
      (conj eq_refl (conj eq_refl eq_refl)))))))))))).
Qed.
Print Assumptions C28_refuted.

Example C28_sample :
  em_embedding_similarity z_ops (argsort z_ops) push e_sim [1; 1]%Z 2 None = Ok [(w_d, 4%Z); (w_ce, 4%Z)].
Proof. reflexivity. Qed.

(* C29: false for every quantized storage *)
Theorem C29_always_fails : forall F (o : fops F) argpartition heappush (e : embeddings F) q k,
  built_embeddings e -> em_storage e = SQuant q ->
  (forall query skip, em_embedding_similarity o argpartition heappush e query k skip = Err AttributeError)
  /\ (forall w v, em_embedding o e w None = Ok (Some v) ->
        em_word_similarity o argpartition heappush e w k = Err AttributeError)
  /\ (forall w1 w2 w3 skip a b c, em_embedding o e w1 None = Ok (Some a) -> em_embedding o e w2 None = Ok (Some b) ->
        em_embedding o e w3 None = Ok (Some c) ->
        em_analogy o argpartition heappush e w1 w2 w3 k skip = Err AttributeError).
Proof. exact @quantized_fails. Qed.
Print Assumptions C29_always_fails.

Theorem C29_refuted : exists argpartition heappush (e : embeddings Z) q w v,
  partitions z_ops argpartition /\ pushes heappush
  /\ built_embeddings e /\ valid_codes (em_storage e) /\ em_storage e = SQuant q /\ em_embedding z_ops e w None = Ok (Some v)
  /\ em_word_similarity z_ops argpartition heappush e w 1 = Err AttributeError.
Proof.
  exact (ex_intro _ (argsort z_ops) (ex_intro _ (@push Z) (ex_intro _ ez_bucket (ex_intro _ _ (ex_intro _ w_ab (ex_intro _ _
    (conj (argsort_partitions z_ops) (conj push_pushes (conj ez_bucket_built (conj ez_bucket_codes (conj eq_refl
      (conj eq_refl eq_refl)))))))))))).
Qed.
Print Assumptions C29_refuted.

(* C30 *)
Theorem C30_analogy : forall F (o : fops F) argpartition heappush (e : embeddings F) w1 w2 w3 k skip ea eb ec,
  built_embeddings e ->
  em_embedding o e w1 None = Ok ea -> em_embedding o e w2 None = Ok eb -> em_embedding o e w3 None = Ok ec ->
  match ea, eb, ec with
  | Some a, Some b, Some c =>
      exists d, is_target o a b c d
        /\ em_analogy o argpartition heappush e w1 w2 w3 k skip
           = match em_embedding_similarity o argpartition heappush e d k
                     (Some (match skip with None => [w1; w2; w3] | Some s => s end)) with
             | Ok r => Ok (Some r) | Err x => Err x end
  | _, _, _ => em_analogy o argpartition heappush e w1 w2 w3 k skip = Ok None
  end.
Proof. exact @analogy_spec. Qed.
Print Assumptions C30_analogy.
Theorem C30_none : forall F (o : fops F) argpartition heappush (e : embeddings F) w1 w2 w3 k skip ea eb ec,
  built_embeddings e ->
  em_embedding o e w1 None = Ok ea -> em_embedding o e w2 None = Ok eb -> em_embedding o e w3 None = Ok ec ->
  em_analogy o argpartition heappush e w1 w2 w3 k skip = Ok None <-> (ea = None \/ eb = None \/ ec = None).
Proof. exact @analogy_none. Qed.
Print Assumptions C30_none.

Example C30_sample : built_embeddings e_sim
  /\ em_analogy z_ops1 (argsort z_ops1) push e_sim w_ab w_ce w_ce 1 None = Ok (Some [(w_d, 14%Z)])
  /\ em_analogy z_ops1 (argsort z_ops1) push e_sim w_ab w_ce w_ce 1 (Some []) = Ok (Some [(w_ce, 17%Z)])
  /\ em_analogy z_ops1 (argsort z_ops1) push e_sim w_ab w_ce [120] 1 None = Ok None.
Proof. split; [exact e_sim_built|]. split; [reflexivity|]. split; reflexivity. Qed.

(* C31 *)
Theorem C31_norms : forall F (e : embeddings F) a, built_embeddings e ->
  (snd (em_set_norms e a) = Ok tt <-> match a with NaNone => True | NaNorms n => fitting e n | NaOther => False end)
  /\ (snd (em_set_norms e a) = Ok tt ->
      em_norms (fst (em_set_norms e a)) = match a with NaNorms n => Some n | _ => None end)
  /\ (snd (em_set_norms e a) <> Ok tt ->
      fst (em_set_norms e a) = e /\ snd (em_set_norms e a) = Err AssertionError)
  /\ em_storage (fst (em_set_norms e a)) = em_storage e /\ em_vocab (fst (em_set_norms e a)) = em_vocab e
  /\ em_metadata (fst (em_set_norms e a)) = em_metadata e.
Proof. exact @set_norms_spec. Qed.
Print Assumptions C31_norms.
Theorem C31_metadata : forall F (e : embeddings F) a,
  (snd (em_set_metadata e a) = Ok tt <-> a <> MaOther)
  /\ (snd (em_set_metadata e a) = Ok tt ->
      em_metadata (fst (em_set_metadata e a)) = match a with MaMetadata m => Some m | _ => None end)
  /\ (snd (em_set_metadata e a) <> Ok tt ->
      fst (em_set_metadata e a) = e /\ snd (em_set_metadata e a) = Err TypeError)
  /\ em_storage (fst (em_set_metadata e a)) = em_storage e /\ em_vocab (fst (em_set_metadata e a)) = em_vocab e
  /\ em_norms (fst (em_set_metadata e a)) = em_norms e.
Proof. exact @set_metadata_spec. Qed.
Print Assumptions C31_metadata.
Theorem C31_history : forall F (e : embeddings F) us, built_embeddings e ->
  (forall n, In (SetNorms (NaNorms n)) us -> norms_wf n) ->
  built_embeddings (assign_all e us) /\ consistent (assign_all e us)
  /\ em_storage (assign_all e us) = em_storage e /\ em_vocab (assign_all e us) = em_vocab e.
Proof. exact @assign_history. Qed.
Print Assumptions C31_history.
Theorem C31_last : forall F (e : embeddings F) us ok, built_embeddings e ->
  (forall n, In (SetNorms (NaNorms n)) us -> norms_wf n) ->
  (forall n, ok n = true <-> fitting e n) ->
  em_norms (assign_all e us) = fold_left (norms_after ok) us (em_norms e)
  /\ em_metadata (assign_all e us) = fold_left metadata_after us (em_metadata e).
Proof. exact @assign_last. Qed.
Print Assumptions C31_last.

Example C31_sample : built_embeddings e_sim
  /\ em_norms (assign_all e_sim [SetNorms NaNone; SetNorms (NaNorms (Norms BoNative [1; 2; 3]%Z));
                                 SetNorms (NaNorms (Norms BoNative [4]%Z)); SetNorms NaOther; SetMetadata MaOther])
     = Some (Norms BoNative [1; 2; 3]%Z).
Proof. exact (conj e_sim_built eq_refl). Qed.

(* C32 *)
Theorem C32_row : forall F (o : fops F) (q : qarray F) k row,
  storage_get o (SQuant q) (Z.of_nat k) = Ok row <-> quantized_row o q k row.
Proof. exact @quantized_get. Qed.
Print Assumptions C32_row.
Theorem C32_from_end : forall F (o : fops F) (s : storage F) i,
  storage_wf s -> (- Z.of_nat (storage_rows s) <= i < 0)%Z ->
  storage_get o s i = storage_get o s (i + Z.of_nat (storage_rows s)).
Proof. exact @storage_get_from_end. Qed.
Print Assumptions C32_from_end.
Theorem C32_list : forall F (o : fops F) (s : storage F) l rows,
  storage_get_list o s l = Ok rows <-> rows_at o s l rows.
Proof. exact @get_list_iff. Qed.
Print Assumptions C32_list.
Theorem C32_array : forall F (o : fops F) (s : storage F) rows, storage_wf s ->
  (storage_array o s = Ok rows <-> rows_at o s (map Z.of_nat (seq 0 (storage_rows s))) rows).
Proof. exact @array_iff. Qed.
Print Assumptions C32_array.
Theorem C32_slice : forall F (o : fops F) (s s' : storage F) sl,
  storage_wf s -> storage_slice s sl = Ok s' ->
  storage_wf s' /\ snd (storage_shape s') = snd (storage_shape s)
  /\ exists idx, slice_positions (Z.of_nat (storage_rows s)) sl idx
       /\ storage_rows s' = length idx
       /\ Forall (fun i => 0 <= i < Z.of_nat (storage_rows s))%Z idx
       /\ forall k i, nth_error idx k = Some i -> storage_get o s' (Z.of_nat k) = storage_get o s i.
Proof. exact @storage_slice_spec. Qed.
Print Assumptions C32_slice.
Theorem C32_slice_ok : forall F (s : storage F) sl,
  storage_wf s -> sl_step sl <> Some 0%Z -> exists s', storage_slice s sl = Ok s'.
Proof. exact @storage_slice_ok. Qed.
Print Assumptions C32_slice_ok.
Theorem C32_embedding_slice : forall F (o : fops F) (q : qarray F) sl, sl_step sl <> Some 0%Z ->
  qa_embedding_slice o q sl = (s <- storage_slice (SQuant q) sl ;; storage_array o s).
Proof. exact @embedding_slice. Qed.
Print Assumptions C32_embedding_slice.

Example C32_sample : storage_wf (SQuant zq_proj)
  /\ storage_get z_ops (SQuant zq_proj) 1 = Ok [10; 14]%Z
  /\ (s <- storage_slice (SQuant zq_proj) (PSlice (Some (-1)%Z) None (Some (-2)%Z)) ;; storage_array z_ops s)
     = Ok [[12; 20]; [10; 14]]%Z.
Proof. split; [simpl; unfold qarray_wf, pq_wf; simpl; wf|]. split; reflexivity. Qed.

(* C33: false for quantized storages with norms *)
Theorem C33_iter_partial : forall F (o : fops F) (s : storage F) rows, storage_wf s -> no_quantized_norms s ->
  (storage_iter o s = Ok rows <-> rows_at o s (map Z.of_nat (seq 0 (storage_rows s))) rows).
Proof. exact @iter_iff. Qed.
Print Assumptions C33_iter_partial.
Theorem C33_iter_ok : forall F (o : fops F) (s : storage F), storage_wf s -> valid_codes s -> no_quantized_norms s ->
  exists rows, storage_iter o s = Ok rows.
Proof. exact @iter_ok. Qed.
Print Assumptions C33_iter_ok.
Theorem C33_embeddings_partial : forall F (o : fops F) (e : embeddings F) l,
  built_embeddings e -> nonneg_index (em_vocab e) ->
  no_quantized_norms (em_storage e) -> em_iter o e = Ok l ->
  map (fun x => fst (fst x)) l = vocab_words (em_vocab e)
  /\ forall w row n, In (w, row, n) l ->
       em_getitem o e w = Ok row
       /\ match em_norms e with
          | None => n = None
          | Some _ => em_embedding_with_norm o e w None = Ok (Some (row, n))
          end.
Proof. exact @em_iter_spec. Qed.
Print Assumptions C33_embeddings_partial.
Theorem C33_quantized_norms : forall F (o : fops F) (q : qarray F),
  storage_iter o (SQuant q) = storage_array o (SQuant (QA (qa_pq q) (qa_len q) (qa_codes q) None)).
Proof. exact @iter_quantized. Qed.
Print Assumptions C33_quantized_norms.
Theorem C33_refuted : exists (s : storage Z) rows r,
  storage_wf s /\ valid_codes s /\ storage_iter z_ops s = Ok rows
  /\ storage_get z_ops s 1 = Ok r /\ nth_error rows 1 <> Some r.
Proof.
  exists (SQuant zq), [[1; 5]; [2; 5]; [1; 3]; [2; 3]]%Z, [4; 10]%Z.
  exact (conj (proj1 ez_bucket_built) (conj ez_bucket_codes (conj eq_refl (conj eq_refl
    (fun H : Some [2; 5]%Z = Some [4; 10]%Z => match H with eq_refl => I end))))).
Qed.
Print Assumptions C33_refuted.

Example C33_sample : built_embeddings e_sub /\ no_quantized_norms (em_storage e_sub)
  /\ em_iter z_ops e_sub = Ok [(w_ab, [1; 2], Some 9); (w_ce, [3; 4], Some 10)]%Z.
Proof. exact (conj e_sub_built (conj I eq_refl)). Qed.

(* C41 *)
Theorem C41_encode : forall s bs, utf8_encode s = Ok bs <-> utf8_of s bs.
Proof. exact encode_iff. Qed.
Print Assumptions C41_encode.
Theorem C41_decode : forall s bs, utf8_decode bs = Ok s <-> utf8_of s bs.
Proof. exact decode_iff. Qed.
Print Assumptions C41_decode.
Theorem C41_encode_error : forall s x, utf8_encode s = Err x <-> x = UnicodeEncodeError /\ ~ Forall scalar s.
Proof. exact encode_error. Qed.
Print Assumptions C41_encode_error.
Theorem C41_lossy : forall bs s, utf8_decode bs = Ok s -> decode_replace bs = s.
Proof.
  exact (fun bs s H => decode_replace_strict bs s (proj1 (strict_iff bs s) H)).
Qed.
Print Assumptions C41_lossy.
Theorem C41_lossy_scalar : forall bs, Forall scalar (decode_replace bs).
Proof. exact replace_scalar. Qed.
Print Assumptions C41_lossy_scalar.
Theorem C41_lossy_invalid : forall bs, utf8_decode bs = Err UnicodeDecodeError -> In REPLACEMENT (decode_replace bs).
Proof. exact replace_invalid_In. Qed.
Print Assumptions C41_lossy_invalid.
Theorem C41_lossy_exact : forall bs s, decode_replace bs = s <-> lossy_of bs s.
Proof. exact lossy_iff. Qed.
Print Assumptions C41_lossy_exact.

Example C41_sample : utf8_decode [x61; xc3; xa9] = Ok [97; 233] /\ utf8_decode [x61; xc3] = Err UnicodeDecodeError
  /\ decode_replace [x61; xc3; x62] = [97; REPLACEMENT; 98]
  /\ lossy_of [xf0; x90; x80; x62] [REPLACEMENT; 98].
Proof. split; [reflexivity|]. split; [reflexivity|]. split; [reflexivity|]. apply lossy_iff. reflexivity. Qed.

(* C42: the check of the element type has no effect *)
Theorem C42_dims : forall a, norms_new a = Err TypeError <-> length (na_shape a) <> 1%nat.
Proof. exact norms_dims. Qed.
Print Assumptions C42_dims.
Theorem C42_refuted : exists a out,
  na_dtype a = DFloat64 /\ na_elems a = [[x00; x00; x00; x00; x00; x00; xf0; x3f]] /\ norms_new a = Ok a
  /\ run_writer (chunk_write CNdNorms (np_norms_write_chunk Little a)) = (out, Ok tt)
  /\ run_reader (load_norms Little) out = Ok (Norms BoNative [F32 x00 x00 x00 x00]).
Proof. exact (ex_intro _ n_f64 (ex_intro _ n_f64_file (conj eq_refl (conj eq_refl (conj eq_refl (conj n_f64_written n_f64_loaded)))))). Qed.
Print Assumptions C42_refuted.
Theorem C42_partial : forall h1 h2 bo vals out, bo_wf bo ->
  let a := NpArray DFloat32 bo [lenN vals] (f32s_le vals) in
  norms_new a = Ok a
  /\ (run_writer (chunk_write CNdNorms (np_norms_write_chunk h1 a)) = (out, Ok tt) -> lenN out < ssize_limit ->
      run_reader (load_norms h2) out = Ok (Norms BoNative vals)).
Proof. exact norms_float32. Qed.
Print Assumptions C42_partial.

Example C42_sample : exists out,
  run_writer (chunk_write CNdNorms (np_norms_write_chunk Big (NpArray DFloat32 BoBig [2] (f32s_le [f1; f3])))) = (out, Ok tt)
  /\ lenN out < ssize_limit.
Proof. eexists. split; [vm_compute; reflexivity|]. vm_compute. reflexivity. Qed.
