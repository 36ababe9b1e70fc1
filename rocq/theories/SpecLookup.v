(* Specification vocabulary for slices, lookup and similarity.  Nothing in this file is used
   by the model. *)
From Coq Require Import Sorted Permutation.
From Verif Require Import Py Arr Subword Vocab Storage Chunks Embeddings Spec SpecVocab.

(* ---------------------------------------------------------------- *)
(* Slices                                                            *)

(* negative bounds count from the end *)
Definition from_end (n b : Z) : Z := if (b <? 0)%Z then (b + n)%Z else b.
Definition clamp (lo hi b : Z) : Z := Z.max lo (Z.min hi b).
(* positions selected by start:stop:step in a sequence of length n, in order *)
Definition slice_positions (n : Z) (s : pslice) (idx : list Z) : Prop :=
  let step := match sl_step s with Some z => z | None => 1%Z end in
  let lo := if (step <? 0)%Z then (-1)%Z else 0%Z in
  let hi := if (step <? 0)%Z then (n - 1)%Z else n in
  let start := match sl_start s with
               | Some b => clamp lo hi (from_end n b)
               | None => if (step <? 0)%Z then hi else lo
               end in
  let stop := match sl_stop s with
              | Some b => clamp lo hi (from_end n b)
              | None => if (step <? 0)%Z then lo else hi
              end in
  (forall k i, nth_error idx k = Some i -> i = start + Z.of_nat k * step)%Z
  /\ (forall k, (k < length idx)%nat <->
        if (step <? 0)%Z then (stop < start + Z.of_nat k * step)%Z
        else (start + Z.of_nat k * step < stop)%Z).

(* ---------------------------------------------------------------- *)
(* Conversion to explicit embeddings (C23)                           *)

Section Converted.
  Context {F : Type} (o : fops F).

  (* what the conversion yields *)
  Record converted (e e' : embeddings F) (ix : ex_indexer) : Prop := {
    cv_vocab : bucket_to_explicit_vocab (em_vocab e) = Ok (em_vocab e')
      /\ em_vocab e' = VExplicit (vocab_words (em_vocab e)) (vocab_index (em_vocab e)) ix;
    cv_norms : em_norms e' = em_norms e;
    cv_meta : em_metadata e' = None;
    cv_built : built_embeddings e' /\ nonneg_index (em_vocab e');
    cv_dims : em_dims e' = em_dims e;
    cv_words : forall k, (k < n_words (em_vocab e))%nat ->
      exists row, storage_get o (em_storage e') (Z.of_nat k) = Ok row
                  /\ storage_get o (em_storage e) (Z.of_nat k) = Ok row;
    cv_grams : forall g i b, sget g (ex_index ix) = Some i -> in_bucket (em_vocab e) g b ->
      exists row, storage_get o (em_storage e') (Z.of_nat (n_words (em_vocab e)) + i)%Z = Ok row
                  /\ storage_get o (em_storage e) (Z.of_nat (n_words (em_vocab e)) + Z.of_N b)%Z = Ok row }.

  (* the explicit indexer knows the n-gram *)
  Definition known_gram (ix : ex_indexer) (g : str) : bool :=
    match sget g (ex_index ix) with Some _ => true | None => false end.
  (* the embedding computed from the rows of some buckets *)
  Definition bucket_average (e : embeddings F) (bs : list N) : result (list F * option F) :=
    em_embedding_at o e (IdxList (map (fun b => (Z.of_nat (n_words (em_vocab e)) + Z.of_N b)%Z) bs)).
End Converted.

(* ---------------------------------------------------------------- *)
(* Lookup (C24, C26, C32, C33)                                       *)

Section LookupSpec.
  Context {F : Type} (o : fops F).

  (* the rows of a storage at the given indices *)
  Definition rows_at (s : storage F) (l : list Z) (rows : list (list F)) : Prop :=
    Forall2 (fun i row => storage_get o s i = Ok row) l rows.
  (* sum of the j-th components, first row first *)
  Definition column_sum (rows : list (list F)) (j : nat) : F :=
    match map (fun r => nth j r (fzero o)) rows with
    | [] => fzero o
    | x :: xs => fold_left (fadd o) xs x
    end.
  Definition is_sum (cols : nat) (rows : list (list F)) (v : list F) : Prop :=
    length v = cols /\ forall j, (j < cols)%nat -> nth_error v j = Some (column_sum rows j).
  (* the word has subwords, with the given indices *)
  Definition has_subwords (v : vocab) (w : str) (l : list Z) : Prop :=
    l <> [] /\ exists sw, vocab_subword_indices v w true false = Ok sw /\ l = map sw_index sw.
  Definition no_subwords (v : vocab) (w : str) : Prop :=
    match v with
    | VSimple _ _ => True
    | _ => vocab_subword_indices v w true false = Ok []
    end.

  (* the centroids selected by a code *)
  Definition centroids (q : pq F) (code : list byte) (parts : list (list F)) : Prop :=
    length code = length (pq_quantizers q) /\ length parts = length code
    /\ forall k m c, nth_error (pq_quantizers q) k = Some m -> nth_error code k = Some c ->
         nth_error m (N.to_nat (Byte.to_N c)) = nth_error parts k.
  (* product with the transposed projection, if there is one *)
  Definition projected (q : pq F) (x y : list F) : Prop :=
    match pq_projection q with
    | None => y = x
    | Some (_, proj) =>
        length y = length proj
        /\ forall j row, nth_error proj j = Some row -> nth_error y j = Some (fdot o x row)
    end.
  Definition scaled (q : qarray F) (k : nat) (x y : list F) : Prop :=
    match qa_norms q with
    | None => y = x
    | Some (_, ns) => exists n, nth_error ns k = Some n /\ y = map (fun a => fmul o n a) x
    end.
  (* the k-th row of a quantized array *)
  Definition quantized_row (q : qarray F) (k : nat) (row : list F) : Prop :=
    exists code parts v, nth_error (qa_codes q) k = Some code /\ centroids (qa_pq q) code parts
      /\ projected (qa_pq q) (concat parts) v /\ scaled q k v row.

  (* iteration ignores the norms of a quantized array *)
  Definition no_quantized_norms (s : storage F) : Prop :=
    match s with SNd _ => True | SQuant q => qa_norms q = None end.
End LookupSpec.

(* ---------------------------------------------------------------- *)
(* Similarity (C27-C30)                                              *)

Section SimilaritySpec.
  Context {F : Type} (o : fops F).

  (* the comparison of numbers is total and transitive on [l], that is, there is no NaN *)
  Definition ordered_on (l : list F) : Prop :=
    (forall a b, In a l -> In b l -> fle o a b = true \/ fle o b a = true)
    /\ (forall a b c, In a l -> In b l -> In c l -> fle o a b = true -> fle o b c = true -> fle o a c = true).

  (* argpartition returns a permutation of the indices that puts the element of rank [kth] at
     its place, smaller ones before and larger ones after it *)
  Definition partitions (argpartition : list F -> nat -> list nat) : Prop :=
    forall sims kth, (kth < length sims)%nat ->
      let p := argpartition sims kth in
      Permutation p (seq 0 (length sims))
      /\ (ordered_on sims -> forall i c a x y,
            nth_error p kth = Some c -> nth_error sims c = Some y ->
            nth_error p i = Some a -> nth_error sims a = Some x ->
            ((i < kth)%nat -> fle o x y = true) /\ ((kth < i)%nat -> fle o y x = true)).
  (* heappush keeps the elements *)
  Definition pushes (heappush : list (str * F) -> str * F -> list (str * F)) : Prop :=
    forall h x, Permutation (heappush h x) (x :: h).

  (* the similarity of the i-th row *)
  Definition similarity_of (e : embeddings F) (query : list F) (i : nat) (s : F) : Prop :=
    exists row, storage_get o (em_storage e) (Z.of_nat i) = Ok row /\ s = fdot o row query.
  Definition all_similarities (e : embeddings F) (query : list F) (sims : list F) : Prop :=
    length sims = n_words (em_vocab e)
    /\ forall i s, nth_error sims i = Some s -> similarity_of e query i s.
  (* number of known words to be skipped *)
  Definition n_skipped (v : vocab) (skips : list str) : nat :=
    length (filter (fun w => existsb (str_eqb w) skips) (vocab_words v)).

  Record top_k (e : embeddings F) (query : list F) (k : nat) (skips : list str)
    (res : list (str * F)) : Prop := {
    tk_len : length res = k;
    tk_sorted : StronglySorted (fun a b => fle o (snd b) (snd a) = true) res;
    tk_distinct : NoDup (map fst res);
    tk_each : forall w s, In (w, s) res ->
      ~ In w skips
      /\ exists i, nth_error (vocab_words (em_vocab e)) i = Some w /\ similarity_of e query i s;
    tk_best : forall i w s, nth_error (vocab_words (em_vocab e)) i = Some w ->
      similarity_of e query i s -> ~ In w skips -> ~ In w (map fst res) ->
      forall w' s', In (w', s') res -> fle o s s' = true }.

  (* d is the normalised target vector of the analogy a : b = c : ?, that is c + (b - a) *)
  Definition is_target (a b c d : list F) : Prop :=
    exists t,
      (length t = length c
       /\ forall j x y z, nth_error a j = Some x -> nth_error b j = Some y -> nth_error c j = Some z ->
            nth_error t j = Some (fadd o z (fsub o y x)))
      /\ d = map (fun x => fdiv o x (fnorm o t)) t.
End SimilaritySpec.
