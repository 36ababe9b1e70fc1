(* Model of src/finalfusion/norms.py and src/finalfusion/metadata.py.
   No proofs in this file. *)
From Verif Require Import Py Utf8 IO Vocab Storage.

(* ---------------------------------------------------------------- *)
(* Norms                                                             *)

(* A numpy array as passed to Norms: dtype, byte order, shape and the elements in C
   order, each as its little-endian bytes.  norms.py 22-46. *)
Inductive dtype : Set := DFloat32 | DFloat64 | DFloat16 | DInt32 | DInt64 | DUint8.
(* norms.py 22-46. *)
Definition itemsize (t : dtype) : nat :=
  match t with
  | DFloat32 | DInt32 => 4
  | DFloat64 | DInt64 => 8
  | DFloat16 => 2
  | DUint8 => 1
  end%nat.
(* norms.py 22-46. *)
Record np_array : Type := NpArray {
  na_dtype : dtype; na_bo : byteorder; na_shape : list N; na_elems : list bytes }.

(* np.issubdtype(t, np.float32).  norms.py 41-42. *)
Definition issubdtype_float32 (t : dtype) : bool :=
  match t with DFloat32 => true | _ => false end.

(* norms.py 22-46, Norms.__new__.  The first disjunct is
   [not (np.issubdtype(...) != np.float32)]: a bool is compared with a class, which
   are never equal, so [!=] is True. *)
Definition bool_ne_class (b : bool) : bool := true.
(* norms.py 22-46. *)
Definition norms_new (a : np_array) : result np_array :=
  if negb (bool_ne_class (issubdtype_float32 (na_dtype a)))
     || negb (Nat.eqb (length (na_shape a)) 1)
  then Err TypeError
  else Ok a.

(* norms.py 66-73, Norms.write_chunk for an array of any dtype; size is the number of
   elements *)
Definition norms_write_elems (host : endian) (bo : byteorder) (elems : list bytes)
  : writer :=
  write_binary [fU32] [chunk_id_val CNdNorms] ;w;
  wtell (fun pos =>
    let padding := pad_float32 pos in
    let size := lenN elems in
    let chunk_len := 12 + padding + size * 4 in
    write_binary ([fU64; fU64; fU32] ++ repeat fPad (N.to_nat padding))
      [Z.of_N chunk_len; Z.of_N size; type_id_val TF32] ;w;
    serialize_array_as_le host bo elems).
(* norms.py 66-73. *)
Definition np_norms_write_chunk (host : endian) (a : np_array) : writer :=
  norms_write_elems host (na_bo a) (na_elems a).

(* Norms with float32 elements, as used in Embeddings.  norms.py 66-73. *)
Record norms (F : Type) : Type := Norms { nm_bo : byteorder; nm_vals : list F }.
Arguments Norms {F} _ _.
Arguments nm_bo {F} _.
Arguments nm_vals {F} _.

(* norms.py 66-73. *)
Definition norms_write_chunk (host : endian) (n : norms f32) : writer :=
  norms_write_elems host (nm_bo n) (f32s_le (nm_vals n)).

(* norms.py 52-64, Norms.read_chunk.  Lines 61-63 are the body of
   _read_array_as_native; the number of elements read is not checked. *)
Definition norms_read_chunk (host : endian) : reader (norms f32) :=
  h <~ read2 fU64 fU32 ;;
  let '(n_norms, t) := h in
  tid <~ rlift (type_id_of t) ;;
  match tid with
  | TF32 =>
      pos <~ tell ;;
      _ <~ seek_fwd (pad_float32 pos) ;;
      array <~ read_array_as_native host 4 (Z.to_N n_norms) ;;
      rret (Norms BoNative (map f32_of_le array))
  | _ => rfail FormatError
  end.

(* norms.py 83-110 *)
Definition load_norms (host : endian) : reader (norms f32) :=
  chunk <~ find_chunk [CNdNorms] ;;
  match chunk with
  | None => rfail ValueError
  | Some CNdNorms => norms_read_chunk host
  | Some _ => rfail ValueError
  end.

(* ---------------------------------------------------------------- *)
(* Metadata                                                          *)

(* metadata.py 14: a dict with values that toml can represent (a subset of the TOML value
   types is enough for the code in this library; floats are bit patterns of doubles) *)
Inductive mval : Type :=
| MStr (s : str)
| MInt (z : Z)
| MFloat (bits : Z)
| MBool (b : bool)
| MList (l : list mval)
| MTable (t : list (str * mval)).
(* metadata.py 14, a subclass of dict. *)
Definition metadata := dict str mval.

(* The toml library is not modelled: any pair of functions.  metadata.py 49, 52. *)
Record toml_lib : Type := Toml {
  toml_dumps : metadata -> result str;
  toml_loads : str -> result metadata }.

(* metadata.py 51-54, Metadata.write_chunk *)
Definition metadata_write_chunk (t : toml_lib) (m : metadata) : writer :=
  wlet (s <- toml_dumps t m ;; utf8_encode s) (fun b_data =>
    write_binary [fU32; fU64] [chunk_id_val CMetadata; Z.of_nat (length b_data)] ;w;
    wbytes b_data).

(* metadata.py 37-49, Metadata.read_chunk *)
Definition metadata_read_chunk (t : toml_lib) : reader metadata :=
  _ <~ seek_back 12 ;;
  h <~ read2 fU32 fU64 ;;
  let '(i, chunk_len) := h in
  cid <~ rlift (chunk_id_of i) ;;
  _ <~ rlift (py_assert (chunk_id_eqb cid CMetadata)) ;;
  buf <~ read (Z.to_N chunk_len) ;;
  if negb (lenN buf =? Z.to_N chunk_len) then rfail FormatError
  else rlift (s <- utf8_decode buf ;; toml_loads t s).

(* metadata.py 57-82 *)
Definition load_metadata (t : toml_lib) : reader metadata :=
  chunk <~ find_chunk [CMetadata] ;;
  match chunk with
  | None => rfail ValueError
  | Some CMetadata => metadata_read_chunk t
  | Some _ => rfail ValueError
  end.
