(* Vocabulary for the properties about output buffers and histories of calls. *)
From Verif Require Import Py Arr Vocab Storage Chunks Embeddings Heap.

Section SpecHeap.
  Context {F : Type} (o : fops F).

  (* the embeddings with the values that are in memory now *)
  Definition he_value (h : heap F) (e : hembeddings F) : embeddings F :=
    {| em_storage := match he_storage e with
                     | HNd bo cols rows => SNd (NdA bo cols (map (h_read o h) rows))
                     | HQuant q => SQuant q
                     end;
       em_vocab := he_vocab e;
       em_norms := match he_norms e with
                   | Some (bo, r) => Some (Norms bo (h_read o h r))
                   | None => None
                   end;
       em_metadata := he_metadata e |}.

  (* the addresses that make up the storage, the norms *)
  Definition storage_cells (e : hembeddings F) : list nat :=
    match he_storage e with HNd _ _ rows => concat rows | HQuant _ => [] end.
  Definition norms_cells (e : hembeddings F) : list nat :=
    match he_norms e with Some (_, r) => r | None => [] end.
  Definition allocated (h : heap F) (cells : list nat) : Prop := Forall (fun a => (a < length h)%nat) cells.
  Definition in_memory (h : heap F) (e : hembeddings F) : Prop :=
    allocated h (storage_cells e) /\ allocated h (norms_cells e).
  Definition disjoint (x y : list nat) : Prop := forall a, In a x -> In a y -> False.

  (* a 1-d array that can be written: its elements are different memory cells *)
  Definition buffer (h : heap F) (e : hembeddings F) (out : aref) : Prop :=
    allocated h out /\ NoDup out /\ length out = N.to_nat (hstorage_cols (he_storage e)).

  (* elements that follow one another in memory *)
  Definition consecutive (out : aref) : Prop := exists a, out = seq a (length out).
  (* arrays that the projection of a quantizer can be written to *)
  Definition may_project (q : pq F) (out : aref) : Prop := pq_projection q = None \/ consecutive out.

  (* of the memory that existed in h, only the given cells may have changed in h' *)
  Definition only_changed (cells : list nat) (h h' : heap F) : Prop :=
    (length h <= length h')%nat
    /\ forall a, (a < length h)%nat -> ~ In a cells -> nth_error h' a = nth_error h a.

  (* calls with all their arguments; the caller keeps the result *)
  Inductive query : Type :=
  | QItem (w : str)
  | QEmbedding (w : str) (out default : option aref)
  | QWithNorm (w : str) (out : option aref) (default : option (aref * option F)).
  Definition query_out (q : query) : list nat :=
    match q with
    | QItem _ => []
    | QEmbedding _ (Some r) _ | QWithNorm _ (Some r) _ => r
    | _ => []
    end.
  Definition run_query (e : hembeddings F) (q : query) (h : heap F) : heap F :=
    match q with
    | QItem w => fst (he_getitem o e w h)
    | QEmbedding w out d => fst (he_embedding o e w out d h)
    | QWithNorm w out d => fst (he_embedding_with_norm o e w out d h)
    end.
  (* a history of calls, successful or not *)
  Definition run_queries (e : hembeddings F) (qs : list query) (h : heap F) : heap F :=
    fold_left (fun h q => run_query e q h) qs h.
End SpecHeap.
Arguments query : clear implicits.

(* ---------------------------------------------------------------- *)
(* Assignments                                                       *)

Section SpecSetters.
  Context {F : Type}.

  Inductive update : Type :=
  | SetNorms (a : norms_arg F)
  | SetMetadata (a : meta_arg).
  Definition assign (e : embeddings F) (u : update) : embeddings F * result unit :=
    match u with SetNorms a => em_set_norms e a | SetMetadata a => em_set_metadata e a end.
  Definition assign_all (e : embeddings F) (us : list update) : embeddings F :=
    fold_left (fun e u => fst (assign e u)) us e.

  (* norms that fit embeddings of [words] words and [rows] rows *)
  Definition fitting (e : embeddings F) (n : norms F) : Prop :=
    lenN (nm_vals n) = lenN (vocab_words (em_vocab e)) /\ lenN (nm_vals n) <= fst (storage_shape (em_storage e)).
  (* the requirements of the constructor *)
  Definition consistent (e : embeddings F) : Prop :=
    Z.of_N (fst (storage_shape (em_storage e))) = vocab_upper_bound (em_vocab e)
    /\ forall n, em_norms e = Some n -> fitting e n.

  (* the value after the assignment [u] of norms that were [cur] before; what is not accepted
     has no effect *)
  Definition norms_after (ok : norms F -> bool) (cur : option (norms F)) (u : update) : option (norms F) :=
    match u with
    | SetNorms NaNone => None
    | SetNorms (NaNorms n) => if ok n then Some n else cur
    | _ => cur
    end.
  Definition metadata_after (cur : option metadata) (u : update) : option metadata :=
    match u with
    | SetMetadata MaNone => None
    | SetMetadata (MaMetadata m) => Some m
    | _ => cur
    end.
End SpecSetters.
Arguments update : clear implicits.
