(* Model of src/finalfusion/storage/*.py.  No proofs in this file. *)
From Verif Require Import Py Utf8 IO Arr Vocab.

(* storage/ndarray.py 18-59: a 2-d float32 array.  [nd_rows] lists the rows,
   [nd_cols] is shape[1], [nd_bo] the dtype byte order. *)
Record ndarray (F : Type) : Type := NdA {
  nd_bo : byteorder; nd_cols : N; nd_rows : list (list F) }.
Arguments NdA {F} _ _ _.
Arguments nd_bo {F} _.
Arguments nd_cols {F} _.
Arguments nd_rows {F} _.

(* storage/quantized.py 21-57, PQ.  The quantizers array has shape
   (length pq_quantizers, pq_n_centroids, pq_sub_len). *)
Record pq (F : Type) : Type := PQ {
  pq_bo : byteorder;
  pq_n_centroids : N;
  pq_sub_len : N;
  pq_quantizers : list (list (list F));
  pq_projection : option (byteorder * list (list F)) }.
Arguments PQ {F} _ _ _ _ _.
Arguments pq_bo {F} _.
Arguments pq_n_centroids {F} _.
Arguments pq_sub_len {F} _.
Arguments pq_quantizers {F} _.
Arguments pq_projection {F} _.

(* quantized.py 52-53, 85-94 *)
Definition pq_reconstructed_len {F} (q : pq F) : N :=
  lenN (pq_quantizers q) * pq_sub_len q.

(* quantized.py 33-57, PQ.__init__: the projection has to be square with side
   reconstructed_len.  The two dimensions of the projection are passed
   explicitly (a list of rows does not determine the width of an empty array). *)
Definition pq_new {F} (bo : byteorder) (n_centroids sub_len : N)
  (quantizers : list (list (list F)))
  (projection : option (byteorder * N * N * list (list F))) : result (pq F) :=
  let rl := lenN quantizers * sub_len in
  match projection with
  | None => Ok (PQ bo n_centroids sub_len quantizers None)
  | Some (pbo, r, c, rows) =>
      _ <- py_assert ((r =? rl) && (rl =? c)) ;;
      Ok (PQ bo n_centroids sub_len quantizers (Some (pbo, rows)))
  end.

(* storage/quantized.py 156-198, QuantizedArray.  The codes are a 2-d uint8 array
   with qa_len columns. *)
Record qarray (F : Type) : Type := QA {
  qa_pq : pq F;
  qa_len : N;
  qa_codes : list (list byte);
  qa_norms : option (byteorder * list F) }.
Arguments QA {F} _ _ _ _.
Arguments qa_pq {F} _.
Arguments qa_len {F} _.
Arguments qa_codes {F} _.
Arguments qa_norms {F} _.

(* The two subclasses of Storage: storage/ndarray.py 18-143, storage/quantized.py 156-387. *)
Inductive storage (F : Type) : Type :=
| SNd (a : ndarray F)
| SQuant (q : qarray F).
Arguments SNd {F} _.
Arguments SQuant {F} _.

(* ndarray.py 76-78; quantized.py 200-203 *)
Definition storage_shape {F} (s : storage F) : N * N :=
  match s with
  | SNd a => (lenN (nd_rows a), nd_cols a)
  | SQuant q => (lenN (qa_codes q), pq_reconstructed_len (qa_pq q))
  end.

(* ---------------------------------------------------------------- *)
(* Element access                                                    *)

Section Access.
  Context {F : Type} (o : fops F).

  (* quantized.py 144-145 / 149-150 for one quantized vector: the code at position
     i selects a row of quantizer i, the selected rows are laid out one after the other.
     numpy broadcasts the index arrays; shapes other than equal lengths (possible
     only if the constructor is given inconsistent arrays) are an IndexError here. *)
  Fixpoint pq_select (quantizers : list (list (list F))) (code : list byte)
    : result (list F) :=
    match quantizers, code with
    | [], [] => Ok []
    | q :: qs, c :: cs =>
        match nth_error q (N.to_nat (Byte.to_N c)) with
        | None => Err IndexError
        | Some sub => rest <- pq_select qs cs ;; Ok (sub ++ rest)
        end
    | _, _ => Err IndexError
    end.

  (* quantized.py 112-153, PQ.reconstruct for one vector, out=None.
     out.dot(projection.T): component j is the product with row j of the projection. *)
  Definition pq_reconstruct (q : pq F) (code : list byte) : result (list F) :=
    out <- pq_select (pq_quantizers q) code ;;
    match pq_projection q with
    | None => Ok out
    | Some (_, proj) => Ok (map (fun row => fdot o out row) proj)
    end.
  (* the same for a batch (2-d input).  storage/quantized.py 137-153. *)
  Definition pq_reconstruct_batch (q : pq F) (codes : list (list byte))
    : result (list (list F)) := mapM (pq_reconstruct q) codes.

  (* quantized.py 205-234, QuantizedArray.embedding with an int key *)
  Definition qa_embedding (q : qarray F) (i : Z) : result (list F) :=
    quantized <- py_index (qa_codes q) i ;;
    out <- pq_reconstruct (qa_pq q) quantized ;;
    match qa_norms q with
    | None => Ok out
    | Some (_, norms) => n <- py_index norms i ;; Ok (vscale o n out)
    end.
  (* with a list key: fancy indexing, one row per entry.  storage/quantized.py 230-234. *)
  Definition qa_embedding_list (q : qarray F) (l : list Z) : result (list (list F)) :=
    quantized <- mapM (py_index (qa_codes q)) l ;;
    out <- pq_reconstruct_batch (qa_pq q) quantized ;;
    match qa_norms q with
    | None => Ok out
    | Some (_, norms) =>
        ns <- mapM (py_index norms) l ;; Ok (map2 (vscale o) ns out)
    end.
  (* with a slice key.  storage/quantized.py 230-234. *)
  Definition qa_embedding_slice (q : qarray F) (s : pslice) : result (list (list F)) :=
    quantized <- py_slice (qa_codes q) s ;;
    out <- pq_reconstruct_batch (qa_pq q) quantized ;;
    match qa_norms q with
    | None => Ok out
    | Some (_, norms) => ns <- py_slice norms s ;; Ok (map2 (vscale o) ns out)
    end.

  (* quantized.py 261-271, __getitem__ with a slice: a new QuantizedArray *)
  Definition qa_slice (q : qarray F) (s : pslice) : result (qarray F) :=
    codes <- py_slice (qa_codes q) s ;;
    match qa_norms q with
    | None => Ok (QA (qa_pq q) (qa_len q) codes None)
    | Some (bo, norms) =>
        ns <- py_slice norms s ;; Ok (QA (qa_pq q) (qa_len q) codes (Some (bo, ns)))
    end.

  (* quantized.py 273-274, __iter__, run to its end *)
  Definition qa_iter (q : qarray F) : result (list (list F)) :=
    mapM (pq_reconstruct (qa_pq q)) (qa_codes q).

  (* quantized.py 279-283, __array__ *)
  Definition qa_array (q : qarray F) : result (list (list F)) :=
    out <- pq_reconstruct_batch (qa_pq q) (qa_codes q) ;;
    match qa_norms q with
    | None => Ok out
    | Some (_, norms) => Ok (map2 (vscale o) norms out)
    end.

  (* storage[i] for an int: ndarray.py 137-140, quantized.py 261-271 *)
  Definition storage_get (s : storage F) (i : Z) : result (list F) :=
    match s with
    | SNd a => py_index (nd_rows a) i
    | SQuant q => qa_embedding q i
    end.
  (* storage[l] for a list of ints.
     storage/ndarray.py 137-140, storage/quantized.py 230-234, 261-271. *)
  Definition storage_get_list (s : storage F) (l : list Z) : result (list (list F)) :=
    match s with
    | SNd a => mapM (py_index (nd_rows a)) l
    | SQuant q => qa_embedding_list q l
    end.
  (* storage[a:b:c].  storage/ndarray.py 137-140, storage/quantized.py 230-234, 261-271. *)
  Definition storage_slice (s : storage F) (sl : pslice) : result (storage F) :=
    match s with
    | SNd a => rows <- py_slice (nd_rows a) sl ;; Ok (SNd (NdA (nd_bo a) (nd_cols a) rows))
    | SQuant q => q' <- qa_slice q sl ;; Ok (SQuant q')
    end.
  (* iter(storage): ndarray.py 142-143, quantized.py 273-274 *)
  Definition storage_iter (s : storage F) : result (list (list F)) :=
    match s with
    | SNd a => Ok (nd_rows a)
    | SQuant q => qa_iter q
    end.
  (* numpy.asarray(storage).
     storage/ndarray.py 41-59 (a view of the array itself), storage/quantized.py 279-283. *)
  Definition storage_array (s : storage F) : result (list (list F)) :=
    match s with
    | SNd a => Ok (nd_rows a)
    | SQuant q => qa_array q
    end.
End Access.

(* ---------------------------------------------------------------- *)
(* Serialization (elements are float32 bit patterns)                 *)

(* Elements as bytes, io.py 315-326. *)
Definition f32s_le (l : list f32) : list bytes := map f32_le l.

(* ndarray.py 126-135, NdArray.write_chunk; size = rows * cols *)
Definition ndarray_write_chunk (host : endian) (a : ndarray f32) : writer :=
  write_binary [fU32] [chunk_id_val CNdArray] ;w;
  wtell (fun pos =>
    let padding := pad_float32 pos in
    let size := lenN (nd_rows a) * nd_cols a in
    let chunk_len := 16 + padding + size * 4 in
    write_binary [fU64; fU64; fU32; fU32]
      [Z.of_N chunk_len; Z.of_nat (length (nd_rows a)); Z.of_N (nd_cols a);
       type_id_val TF32] ;w;
    write_binary (repeat fPad (N.to_nat padding)) [] ;w;
    serialize_array_as_le host (nd_bo a) (f32s_le (concat (nd_rows a)))).

(* ndarray.py 95-124, _read_array_header *)
Definition read_array_header : reader (N * N) :=
  rc <~ read2 fU64 fU32 ;;
  let '(rows, cols) := rc in
  t <~ read1 fU32 ;;
  tid <~ rlift (type_id_of t) ;;
  match tid with
  | TF32 =>
      pos <~ tell ;;
      _ <~ seek_fwd (pad_float32 pos) ;;
      rret (Z.to_N rows, Z.to_N cols)
  | _ => rfail FormatError
  end.

(* ndarray.py 69-74, NdArray.read_chunk *)
Definition ndarray_read_chunk (host : endian) : reader (ndarray f32) :=
  rc <~ read_array_header ;;
  let '(rows, cols) := rc in
  array <~ read_array_as_native host 4 (rows * cols) ;;
  m <~ rlift (reshape2 rows cols (map f32_of_le array)) ;;
  rret (NdA BoNative cols m).

(* ndarray.py 80-93, NdArray.mmap_chunk *)
Definition ndarray_mmap_chunk (host : endian) : reader (ndarray f32) :=
  match host with
  | Big => rfail NotImplementedError
  | Little =>
      rc <~ read_array_header ;;
      let '(rows, cols) := rc in
      offset <~ tell ;;
      _ <~ seek_fwd (rows * cols * 4) ;;
      fun d p =>
        rlift (array <- memmap 4 offset (rows * cols) d ;;
               Ok (NdA BoNative cols
                     (split_rows (N.to_nat rows) (N.to_nat cols) (map f32_of_le array)))) d p
  end.

(* quantized.py 316-339, QuantizedArray.write_chunk.  The sizes of the arrays are
   computed from their shapes: pow(reconstructed_len, 2) for the projection,
   quantizers * centroids * sub_len, number of norms, rows * columns of the codes. *)
Definition qarray_write_chunk (host : endian) (q : qarray f32) : writer :=
  let p := qa_pq q in
  let rl := pq_reconstructed_len p in
  write_binary [fU32] [chunk_id_val CQuantizedArray] ;w;
  wtell (fun pos =>
    let padding := pad_float32 pos in
    let chunk_len := 36 + padding in
    let chunk_len := match pq_projection p with
                     | Some _ => chunk_len + rl ^ 2 * 4
                     | None => chunk_len
                     end in
    let chunk_len := chunk_len
        + lenN (pq_quantizers p) * pq_n_centroids p * pq_sub_len p * 4 in
    let chunk_len := match qa_norms q with
                     | Some (_, ns) => chunk_len + lenN ns * 4
                     | None => chunk_len
                     end in
    let chunk_len := chunk_len + lenN (qa_codes q) * qa_len q in
    write_binary [fU64; fU32; fU32; fU32; fU32; fU32; fU64; fU32; fU32]
      [Z.of_N chunk_len;
       (match pq_projection p with Some _ => 1 | None => 0 end)%Z;
       (match qa_norms q with Some _ => 1 | None => 0 end)%Z;
       Z.of_N (qa_len q); Z.of_N rl; Z.of_N (pq_n_centroids p);
       Z.of_nat (length (qa_codes q)); type_id_val TU8; type_id_val TF32] ;w;
    write_binary (repeat fPad (N.to_nat padding)) [] ;w;
    match pq_projection p with
    | Some (bo, rows) => serialize_array_as_le host bo (f32s_le (concat rows))
    | None => wret
    end ;w;
    serialize_array_as_le host (pq_bo p) (f32s_le (concat (concat (pq_quantizers p)))) ;w;
    match qa_norms q with
    | Some (bo, ns) => serialize_array_as_le host bo (f32s_le ns)
    | None => wret
    end ;w;
    wbytes (concat (qa_codes q))).

(* quantized.py 345-387, _read_quantized_header *)
Definition read_quantized_header (host : endian)
  : reader (pq f32 * (N * N) * option (byteorder * list f32)) :=
  projection <~ read1 fU32 ;;
  read_norms <~ read1 fU32 ;;
  quantized_len <~ read1 fU32 ;;
  reconstructed_len <~ read1 fU32 ;;
  n_centroids <~ read1 fU32 ;;
  n_embeddings <~ read1 fU64 ;;
  if (quantized_len =? 0)%Z then rfail ZeroDivisionError
  else
  _ <~ rlift (py_assert (reconstructed_len mod quantized_len =? 0)%Z) ;;
  t1 <~ read1 fU32 ;;
  if negb (t1 =? type_id_val TU8)%Z then rfail FormatError
  else
  t2 <~ read1 fU32 ;;
  if negb (t2 =? type_id_val TF32)%Z then rfail FormatError
  else
  pos <~ tell ;;
  _ <~ seek_fwd (pad_float32 pos) ;;
  let ql := Z.to_N quantized_len in
  let rl := Z.to_N reconstructed_len in
  let nc := Z.to_N n_centroids in
  let ne := Z.to_N n_embeddings in
  proj <~ (if negb (projection =? 0)%Z then
             a <~ read_array_as_native host 4 (rl ^ 2) ;;
             m <~ rlift (reshape2 rl rl (map f32_of_le a)) ;;
             rret (Some (BoNative, rl, rl, m))
           else rret None) ;;
  let sub := rl / ql in
  qs <~ read_array_as_native host 4 (ql * nc * sub) ;;
  (* reshape to (quantized_len, n_centroids, sub), done in two steps *)
  flat <~ rlift (reshape2 ql (nc * sub) (map f32_of_le qs)) ;;
  let quantizers := map (split_rows (N.to_nat nc) (N.to_nat sub)) flat in
  norms <~ (if negb (read_norms =? 0)%Z then
              a <~ read_array_as_native host 4 ne ;;
              rret (Some (BoNative, map f32_of_le a))
            else rret None) ;;
  p <~ rlift (pq_new BoNative nc sub quantizers proj) ;;
  rret (p, (ne, ql), norms).

(* quantized.py 289-297, QuantizedArray.read_chunk *)
Definition qarray_read_chunk (host : endian) : reader (qarray f32) :=
  h <~ read_quantized_header host ;;
  let '(quantizer, (n_embeddings, quantized_len), norms) := h in
  codes <~ read_array_as_native host 1 (n_embeddings * quantized_len) ;;
  m <~ rlift (reshape2 n_embeddings quantized_len (concat codes)) ;;
  rret (QA quantizer quantized_len m norms).

(* quantized.py 299-314, QuantizedArray.mmap_chunk *)
Definition qarray_mmap_chunk (host : endian) : reader (qarray f32) :=
  match host with
  | Big => rfail NotImplementedError
  | Little =>
      h <~ read_quantized_header host ;;
      let '(quantizer, (n_embeddings, quantized_len), norms) := h in
      offset <~ tell ;;
      _ <~ seek_fwd (n_embeddings * quantized_len) ;;
      fun d p =>
        rlift (codes <- memmap 1 offset (n_embeddings * quantized_len) d ;;
               Ok (QA quantizer quantized_len
                     (split_rows (N.to_nat n_embeddings) (N.to_nat quantized_len)
                        (concat codes)) norms)) d p
  end.

(* storage/ndarray.py 66, 126-135, storage/quantized.py 316-343. *)
Definition storage_chunk_id {F} (s : storage F) : chunk_id :=
  match s with SNd _ => CNdArray | SQuant _ => CQuantizedArray end.

(* storage/ndarray.py 66, 126-135, storage/quantized.py 316-343. *)
Definition storage_write_chunk (host : endian) (s : storage f32) : writer :=
  match s with
  | SNd a => ndarray_write_chunk host a
  | SQuant q => qarray_write_chunk host q
  end.

(* NdArray.load / QuantizedArray.load (ndarray.py 61-63, quantized.py 285-287) *)
Definition ndarray_load (host : endian) (mmap : bool) : reader (storage f32) :=
  a <~ (if mmap then ndarray_mmap_chunk host else ndarray_read_chunk host) ;;
  rret (SNd a).
(* storage/quantized.py 285-314. *)
Definition qarray_load (host : endian) (mmap : bool) : reader (storage f32) :=
  q <~ (if mmap then qarray_mmap_chunk host else qarray_read_chunk host) ;;
  rret (SQuant q).

(* the dispatch shared by load_storage (storage/__init__.py 42-50) and load_finalfusion
   (embeddings.py 706-712); they differ in the exception for other chunks *)
Definition storage_read_chunk (host : endian) (mmap : bool) (cid : chunk_id)
  (otherwise : exn) : reader (storage f32) :=
  match cid with
  | CNdArray => ndarray_load host mmap
  | CQuantizedArray => qarray_load host mmap
  | _ => rfail otherwise
  end.

(* storage/__init__.py 13-50 *)
Definition load_storage (host : endian) (mmap : bool) : reader (storage f32) :=
  chunk <~ find_chunk [CNdArray; CQuantizedArray] ;;
  match chunk with
  | None => rfail ValueError
  | Some cid => storage_read_chunk host mmap cid NotImplementedError
  end.

(* ndarray.py 146-176; quantized.py 390-418 *)
Definition load_storage_of (host : endian) (mmap : bool) (cid : chunk_id)
  : reader (storage f32) :=
  chunk <~ find_chunk [cid] ;;
  match chunk with
  | None => rfail ValueError
  | Some c => storage_read_chunk host mmap c ValueError
  end.
(* storage/ndarray.py 146-176. *)
Definition load_ndarray host mmap := load_storage_of host mmap CNdArray.
(* storage/quantized.py 390-418. *)
Definition load_quantized_array host mmap := load_storage_of host mmap CQuantizedArray.
