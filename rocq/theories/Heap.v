(* Model of the embedding lookups of src/finalfusion/embeddings.py with numpy's memory: output
   buffers, views and in-place operations.  No proofs in this file. *)
From Verif Require Import Py IO Arr Vocab Storage Chunks Embeddings.

Section Heap.
  Context {F : Type} (o : fops F).

  (* The memory of all float32 arrays.  A 1-d array is the list of the addresses of its
     elements, so that two arrays can share elements (views).  Addresses are never freed.
     For embeddings.py 151-269 and 623-641. *)
  Definition heap := list F.
  (* For embeddings.py 151-269 and 623-641. *)
  Definition aref := list nat.

  (* an operation may change the memory and then raise.
     For embeddings.py 151-269 and 623-641. *)
  Definition hop (A : Type) := heap -> heap * result A.
  (* For embeddings.py 151-269 and 623-641. *)
  Definition hret {A} (a : A) : hop A := fun h => (h, Ok a).
  (* For embeddings.py 151-269 and 623-641. *)
  Definition hraise {A} (x : exn) : hop A := fun h => (h, Err x).
  (* For embeddings.py 151-269 and 623-641. *)
  Definition hbind {A B} (m : hop A) (k : A -> hop B) : hop B := fun h =>
    match m h with
    | (h', Ok a) => k a h'
    | (h', Err x) => (h', Err x)
    end.
  (* For embeddings.py 151-269 and 623-641. *)
  Definition hlift {A} (r : result A) : hop A := fun h => (h, r).

  (* For embeddings.py 151-269 and 623-641. *)
  Definition h_read (h : heap) (r : aref) : list F := map (fun a => nth a h (fzero o)) r.
  (* For embeddings.py 151-269 and 623-641. *)
  Fixpoint h_write (h : heap) (r : aref) (vals : list F) : heap :=
    match r, vals with
    | a :: r', v :: vals' => h_write (set_nth a v h) r' vals'
    | _, _ => h
    end.
  (* For embeddings.py 151-269 and 623-641. *)
  Definition hget (r : aref) : hop (list F) := fun h => (h, Ok (h_read h r)).
  (* a new array.  For embeddings.py 151-269 and 623-641. *)
  Definition halloc (vals : list F) : hop aref := fun h =>
    (h ++ vals, Ok (seq (length h) (length vals))).
  (* r[:] = vals for a 1-d r: a value of length 1 is broadcast, other lengths have to
     agree.  The right-hand side has been read before, numpy copies overlapping operands.
     For embeddings.py 151-269 and 623-641. *)
  Definition hassign (r : aref) (vals : list F) : hop unit := fun h =>
    if (length vals =? length r)%nat then (h_write h r vals, Ok tt)
    else match vals with
         | [v] => (h_write h r (repeat v (length r)), Ok tt)
         | _ => (h, Err ValueError)
         end.

  (* A storage in memory: a matrix is the list of its rows.  The arrays of a quantized
     storage are only ever read by fancy indexing, which copies (quantized.py 144), they
     are kept as values. *)
  Inductive hstorage : Type :=
  | HNd (bo : byteorder) (cols : N) (rows : list aref)
  | HQuant (q : qarray F).
  (* embeddings.py 117-121 with norms (byte order and elements) in memory *)
  Record hembeddings : Type := HEmb {
    he_storage : hstorage;
    he_vocab : vocab;
    he_norms : option (byteorder * aref);
    he_metadata : option metadata }.
  (* storage.shape[1]: storage/ndarray.py 77-78, storage/quantized.py 201-203. *)
  Definition hstorage_cols (s : hstorage) : N :=
    match s with
    | HNd _ cols _ => cols
    | HQuant q => snd (storage_shape (SQuant q))
    end.

  (* storage[i]: ndarray.py 137-140, a view of the row; quantized.py 261-271, a new array *)
  Definition hstorage_get (s : hstorage) (i : Z) : hop aref :=
    match s with
    | HNd _ _ rows => hlift (py_index rows i)
    | HQuant q => hbind (hlift (qa_embedding o q i)) halloc
    end.
  (* storage[l]: fancy indexing, a new 2-d array, kept as a value since nothing else refers
     to it.  embeddings.py 627, 638. *)
  Definition hstorage_get_list (s : hstorage) (l : list Z) : hop (list (list F)) :=
    match s with
    | HNd _ _ rows => hbind (hlift (mapM (py_index rows) l)) (fun rs h => (h, Ok (map (h_read h) rs)))
    | HQuant q => hlift (qa_embedding_list o q l)
    end.

  (* embeddings.py 623-641, _embedding *)
  Definition he_embedding_at (e : hembeddings) (idx : index_res) (out : option aref)
    : hop (aref * option F) :=
    match idx with
    | IdxInt i =>
        hbind (hstorage_get (he_storage e) i) (fun res =>
        hbind (match out with
               | Some r => hbind (hget res) (fun vals => hbind (hassign r vals) (fun _ => hret r))
               | None => hret res
               end) (fun out =>
        match he_norms e with
        | Some (_, n) =>
            hbind (hlift (py_index n i)) (fun a => hbind (hget [a]) (fun v => hret (out, hd_error v)))
        | None => hret (out, None)
        end))
    | IdxList l =>
        hbind (hstorage_get_list (he_storage e) l) (fun res =>
        let sum := vsum o (N.to_nat (hstorage_cols (he_storage e))) res in
        (* np.add.reduce with out: the shapes have to agree *)
        hbind (match out with
               | Some r =>
                   if (length sum =? length r)%nat then hbind (hassign r sum) (fun _ => hret r)
                   else hraise ValueError
               | None => halloc sum
               end) (fun out =>
        hbind (hget out) (fun vals =>
        let norm := fnorm o vals in
        hbind (hassign out (vdiv o vals norm)) (fun _ =>
        hret (out, Some norm)))))
    end.

  (* embeddings.py 123-149, __getitem__ *)
  Definition he_getitem (e : hembeddings) (item : str) : hop aref :=
    hbind (hlift (vocab_getitem (he_vocab e) item)) (fun idx =>
    hbind (he_embedding_at e idx None) (fun r => hret (fst r))).

  (* embeddings.py 151-218, embedding *)
  Definition he_embedding (e : hembeddings) (word : str) (out default : option aref)
    : hop (option aref) :=
    hbind (hlift (vocab_idx (he_vocab e) word)) (fun idx =>
    match idx with
    | None =>
        match out, default with
        | Some r, Some d => hbind (hget d) (fun vals => hbind (hassign r vals) (fun _ => hret (Some r)))
        | _, _ => hret default
        end
    | Some i => hbind (he_embedding_at e i out) (fun r => hret (Some (fst r)))
    end).

  (* embeddings.py 220-269, embedding_with_norm *)
  Definition he_embedding_with_norm (e : hembeddings) (word : str) (out : option aref)
    (default : option (aref * option F)) : hop (option (aref * option F)) :=
    match he_norms e with
    | None => hraise TypeError
    | Some _ =>
        hbind (hlift (vocab_idx (he_vocab e) word)) (fun idx =>
        match idx with
        | None =>
            match out, default with
            | Some r, Some (d, x) =>
                hbind (hget d) (fun vals => hbind (hassign r vals) (fun _ => hret (Some (r, x))))
            | _, _ => hret default
            end
        | Some i => hbind (he_embedding_at e i out) (fun r => hret (Some r))
        end)
    end.

  (* ---------------------------------------------------------------- *)
  (* The out argument of PQ.reconstruct and QuantizedArray.embedding    *)

  (* A C-contiguous array.  storage/quantized.py 151-152: dot demands it of its out argument. *)
  Definition contiguous (r : aref) : bool :=
    if list_eq_dec Nat.eq_dec r (seq (hd 0%nat r) (length r)) then true else false.
  (* storage/quantized.py 112-153, PQ.reconstruct for one code and a 1-d out *)
  Definition hpq_reconstruct (q : pq F) (code : list byte) (out : aref) : hop aref :=
    if (length out =? N.to_nat (pq_reconstructed_len q))%nat then
      hbind (hlift (pq_select (pq_quantizers q) code)) (fun v =>
      hbind (hassign out v) (fun _ =>
      match pq_projection q with
      | None => hret out
      | Some (_, proj) =>
          if contiguous out then
            hbind (hget out) (fun vals =>
            hbind (hassign out (map (fun row => fdot o vals row) proj)) (fun _ => hret out))
          else hraise ValueError
      end))
    else hraise AssertionError.
  (* storage/quantized.py 205-234, QuantizedArray.embedding with an int key and a 1-d out *)
  Definition hqa_embedding (q : qarray F) (i : Z) (out : aref) : hop aref :=
    hbind (hlift (py_index (qa_codes q) i)) (fun quantized =>
    hbind (hpq_reconstruct (qa_pq q) quantized out) (fun out =>
    match qa_norms q with
    | None => hret out
    | Some (_, norms) =>
        hbind (hlift (py_index norms i)) (fun n =>
        hbind (hget out) (fun vals =>
        hbind (hassign out (vscale o n vals)) (fun _ => hret out)))
    end)).

  (* a 2-d array with the given number of columns is the list of its rows.
     storage/quantized.py 146-149. *)
  Definition hassign_rows (rows : list aref) (vals : list (list F)) : hop unit :=
    hassign (concat rows) (concat vals).
  (* storage/quantized.py 112-153, PQ.reconstruct for a batch of codes and a 2-d out *)
  Definition hpq_reconstruct_batch (q : pq F) (codes : list (list byte)) (cols : N)
    (out : list aref) : hop (list aref) :=
    if (length out =? length codes)%nat then
      if cols =? pq_reconstructed_len q then
        hbind (hlift (mapM (pq_select (pq_quantizers q)) codes)) (fun vs =>
        hbind (hassign_rows out vs) (fun _ =>
        match pq_projection q with
        | None => hret out
        | Some (_, proj) =>
            if contiguous (concat out) then
              hbind (fun h => (h, Ok (map (h_read h) out))) (fun vals =>
              hbind (hassign_rows out (map (fun v => map (fun row => fdot o v row) proj) vals))
                (fun _ => hret out))
            else hraise ValueError
        end))
      else hraise AssertionError
    else hraise AssertionError.
  (* storage/quantized.py 205-234 with the codes and norms that the key selects *)
  Definition hqa_embedding_batch (q : qarray F) (codes : result (list (list byte)))
    (norms : list F -> result (list F)) (cols : N) (out : list aref) : hop (list aref) :=
    hbind (hlift codes) (fun quantized =>
    hbind (hpq_reconstruct_batch (qa_pq q) quantized cols out) (fun out =>
    match qa_norms q with
    | None => hret out
    | Some (_, ns) =>
        hbind (hlift (norms ns)) (fun ns =>
        hbind (fun h => (h, Ok (map (h_read h) out))) (fun vals =>
        hbind (hassign_rows out (map2 (vscale o) ns vals)) (fun _ => hret out)))
    end)).
  (* storage/quantized.py 205-234, QuantizedArray.embedding with a list key and a 2-d out *)
  Definition hqa_embedding_list (q : qarray F) (l : list Z) (cols : N) (out : list aref)
    : hop (list aref) :=
    hqa_embedding_batch q (mapM (py_index (qa_codes q)) l) (fun ns => mapM (py_index ns) l) cols out.
  (* storage/quantized.py 205-234, QuantizedArray.embedding with a slice and a 2-d out *)
  Definition hqa_embedding_slice (q : qarray F) (s : pslice) (cols : N) (out : list aref)
    : hop (list aref) :=
    hqa_embedding_batch q (py_slice (qa_codes q) s) (fun ns => py_slice ns s) cols out.
End Heap.
Arguments hembeddings : clear implicits.
Arguments hstorage : clear implicits.
Arguments heap : clear implicits.
