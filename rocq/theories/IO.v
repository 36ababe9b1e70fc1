(* Model of src/finalfusion/io.py.  No proofs in this file. *)
From Verif Require Import Py Utf8.

(* io.py 25-26 *)
Definition MAGIC : bytes := [x46; x69; x46; x75].   (* b'FiFu' *)
(* io.py 26. *)
Definition VERSION : Z := 0.

(* io.py 181-194, class ChunkIdentifier(IntEnum) *)
Inductive chunk_id : Set :=
| CHeader | CSimpleVocab | CNdArray | CBucketSubwordVocab | CQuantizedArray
| CMetadata | CNdNorms | CFastTextSubwordVocab | CExplicitSubwordVocab.

(* io.py 186-194, the values. *)
Definition chunk_id_val (c : chunk_id) : Z :=
  match c with
  | CHeader => 0 | CSimpleVocab => 1 | CNdArray => 2 | CBucketSubwordVocab => 3
  | CQuantizedArray => 4 | CMetadata => 5 | CNdNorms => 6
  | CFastTextSubwordVocab => 7 | CExplicitSubwordVocab => 8
  end%Z.

(* ChunkIdentifier(n): ValueError for an unknown value.  io.py 181-194, 305. *)
Definition chunk_id_of (n : Z) : result chunk_id :=
  match n with
  | 0 => Ok CHeader | 1 => Ok CSimpleVocab | 2 => Ok CNdArray
  | 3 => Ok CBucketSubwordVocab | 4 => Ok CQuantizedArray | 5 => Ok CMetadata
  | 6 => Ok CNdNorms | 7 => Ok CFastTextSubwordVocab
  | 8 => Ok CExplicitSubwordVocab
  | _ => Err ValueError
  end%Z.

(* io.py 49, 176. *)
Definition chunk_id_eqb (a b : chunk_id) : bool :=
  (chunk_id_val a =? chunk_id_val b)%Z.

(* io.py 197-203, class TypeId(IntEnum) *)
Inductive type_id : Set := TU8 | TF32.
(* io.py 202-203, the values. *)
Definition type_id_val (t : type_id) : Z :=
  match t with TU8 => 1 | TF32 => 10 end%Z.
(* TypeId(n): ValueError for an unknown value.
   io.py 197-203; called in norms.py 55 and storage/ndarray.py 119. *)
Definition type_id_of (n : Z) : result type_id :=
  match n with 1 => Ok TU8 | 10 => Ok TF32 | _ => Err ValueError end%Z.

(* io.py 212-227, _pad_float32 *)
Definition pad_float32 (pos : N) : N := 4 - pos mod 4.

(* io.py 230-235, _write_binary *)
Definition write_binary (fmt : list field) (vs : list Z) : writer :=
  wlet (pack fmt vs) wbytes.

(* io.py 238-267, _read_binary *)
Definition read_binary (fmt : list field) : reader (option (list Z)) :=
  buf <~ read (N.of_nat (calcsize fmt)) ;;
  if Nat.eqb (length buf) 0 then rret None
  else if negb (Nat.eqb (length buf) (calcsize fmt)) then rfail FormatError
  else rret (Some (unpack fmt buf)).

(* io.py 270-275, _read_required_binary *)
Definition read_required_binary (fmt : list field) : reader (list Z) :=
  val <~ read_binary fmt ;;
  match val with
  | None => rfail FormatError
  | Some v => rret v
  end.

(* Python tuple unpacking of the fixed-size results above.  [unpack] returns one
   value per non-padding field, so the fall-through cases are never reached.
   Callers of io.py 270-275. *)
Definition read1 (f : field) : reader Z :=
  l <~ read_required_binary [f] ;;
  match l with [a] => rret a | _ => rfail ValueError end.
(* Callers of io.py 270-275. *)
Definition read2 (f g : field) : reader (Z * Z) :=
  l <~ read_required_binary [f; g] ;;
  match l with [a; b] => rret (a, b) | _ => rfail ValueError end.
(* Callers of io.py 270-275. *)
Definition read4 (f g h i : field) : reader (Z * Z * Z * Z) :=
  l <~ read_required_binary [f; g; h; i] ;;
  match l with [a; b; c; d] => rret (a, b, c, d) | _ => rfail ValueError end.

(* io.py 278-305, _read_chunk_header *)
Definition read_chunk_header : reader (option (chunk_id * N)) :=
  val <~ read_binary [fU32; fU64] ;;
  match val with
  | None => rret None
  | Some [i; n] => c <~ rlift (chunk_id_of i) ;; rret (Some (c, Z.to_N n))
  | Some _ => rfail ValueError
  end.

(* io.py 308-312, _read_required_chunk_header *)
Definition read_required_chunk_header : reader (chunk_id * N) :=
  val <~ read_chunk_header ;;
  match val with
  | None => rfail FormatError
  | Some v => rret v
  end.

(* io.py 120-132, Header.read_chunk.  Headers hold plain ints after reading. *)
Definition header_read_chunk : reader (list Z) :=
  magic <~ read 4 ;;
  if negb (bytes_eqb magic MAGIC) then rfail FormatError
  else
    version <~ read1 fU32 ;;
    if negb (version =? VERSION)%Z then rfail FormatError
    else
      n_chunks <~ read1 fU32 ;;
      read_required_binary (repeat fU32 (Z.to_nat n_chunks)).

(* io.py 134-138, Header.write_chunk *)
Definition header_write_chunk (chunk_ids : list Z) : writer :=
  wbytes MAGIC ;w;
  write_binary (fU32 :: fU32 :: repeat fU32 (length chunk_ids))
    (VERSION :: Z.of_nat (length chunk_ids) :: chunk_ids).

(* io.py 171-178, the loop of find_chunk.  Every iteration that goes on advances the
   position by at least the 12 bytes of a chunk header read inside the file,
   so length(file) + 1 iterations always suffice; the model stops with the impossible
   result OracleError when the fuel runs out (shown unreachable in IOProofs.v). *)
Fixpoint find_chunk_loop (fuel : nat) (chunks : list chunk_id)
  : reader (option chunk_id) :=
  match fuel with
  | O => rfail OracleError
  | S fuel' =>
      chunk_header <~ read_chunk_header ;;
      match chunk_header with
      | None => rret None
      | Some (cid, size) =>
          if mem_eqb chunk_id_eqb cid chunks then rret (Some cid)
          else _ <~ seek_fwd size ;; find_chunk_loop fuel' chunks
      end
  end.

(* io.py 141-178, find_chunk *)
Definition find_chunk (chunks : list chunk_id) : reader (option chunk_id) :=
  _ <~ seek_set 0 ;;
  _ <~ header_read_chunk ;;
  fun d p => find_chunk_loop (S (length d)) chunks d p.

(* io.py 33-52, Chunk.write: header followed by the chunk itself, in a freshly
   truncated file. *)
Definition chunk_write (cid : chunk_id) (write_chunk : writer) : writer :=
  if chunk_id_eqb cid CHeader then wfail TypeError
  else header_write_chunk [chunk_id_val cid] ;w; write_chunk.

(* ---------------------------------------------------------------- *)
(* Arrays                                                            *)

(* sys.byteorder.  io.py 316, 332. *)
Inductive endian : Set := Little | Big.
(* numpy dtype.byteorder: '<', '>', '=', '|'.  io.py 317-318. *)
Inductive byteorder : Set := BoLittle | BoBig | BoNative | BoNA.

(* A float32 is its bit pattern, least significant byte first.
   The elements of the arrays in io.py 315-334. *)
Record f32 : Set := F32 { f32_0 : byte; f32_1 : byte; f32_2 : byte; f32_3 : byte }.
(* The elements of the arrays in io.py 315-334. *)
Definition f32_le (x : f32) : bytes := [f32_0 x; f32_1 x; f32_2 x; f32_3 x].
(* inverse of f32_le on four bytes.  The elements of the arrays in io.py 315-334. *)
Definition f32_of_le (bs : bytes) : f32 :=
  match bs with
  | [a; b; c; d] => F32 a b c d
  | _ => F32 x00 x00 x00 x00
  end.

(* Is the in-memory representation of an element least significant byte first?.
   io.py 316-318. *)
Definition mem_is_le (host : endian) (bo : byteorder) : bool :=
  match bo with
  | BoLittle => true
  | BoBig => false
  | BoNative | BoNA => match host with Little => true | Big => false end
  end.

(* memory bytes of an element given its little-endian bytes.  io.py 319-326, 331-333. *)
Definition to_mem (host : endian) (bo : byteorder) (le : bytes) : bytes :=
  if mem_is_le host bo then le else rev le.
(* value (as little-endian bytes) of an element in memory.  io.py 319-326, 331-333. *)
Definition of_mem (host : endian) (bo : byteorder) (mem : bytes) : bytes :=
  if mem_is_le host bo then mem else rev mem.

(* io.py 315-326, _serialize_array_as_le.  [elems] lists the elements in C order by
   value.  tofile writes the memory bytes, byteswap(inplace=False) reverses the
   bytes of each element; the row-wise variant for matrices writes the same bytes
   row after row. *)
Definition serialize_array_as_le (host : endian) (bo : byteorder)
  (elems : list bytes) : writer :=
  let native_is_le := match host with Little => true | Big => false end in
  let array_is_le :=
    match bo with
    | BoLittle | BoNA => true
    | BoNative => native_is_le
    | BoBig => false
    end in
  let mem := map (to_mem host bo) elems in
  if array_is_le then wbytes (concat mem)
  else wbytes (concat (map (@rev byte) mem)).

(* split a byte string into n elements of k bytes.  io.py 331. *)
Fixpoint split_elems (n : nat) (k : nat) (bs : bytes) : list bytes :=
  match n with
  | O => []
  | S n' => firstn k bs :: split_elems n' k (skipn k bs)
  end.

(* np.fromfile(file, count=count, dtype=<itemsize bytes>): reads up to count elements,
   fewer at the end of the file; a short read leaves the file at its end.  Buffer
   sizes that do not fit ssize_t raise (OverflowError, ValueError or MemoryError in
   numpy, modelled as OverflowError); running out of memory is not modelled.
   io.py 331, norms.py 61. *)
Definition fromfile (itemsize : nat) (count : N) : reader (list bytes) := fun d p =>
  if ssize_limit <=? count * N.of_nat itemsize then Err OverflowError
  else
    let bs := takeN (count * N.of_nat itemsize) (dropN p d) in
    Ok (split_elems (length bs / itemsize) itemsize bs, p + lenN bs).

(* io.py 329-334, _read_array_as_native.  The result lists the elements by value:
   fromfile yields native elements whose memory is the file contents; on a big
   endian host the memory of each element is reversed in place. *)
Definition read_array_as_native (host : endian) (itemsize : nat) (count : N)
  : reader (list bytes) :=
  raw <~ fromfile itemsize count ;;
  let mem := match host with
             | Big => map (@rev byte) raw
             | Little => raw
             end in
  rret (map (of_mem host BoNative) mem).

(* numpy.reshape of a flat array to rows x cols.
   storage/ndarray.py 73, storage/quantized.py 296, 373, 381. *)
Fixpoint split_rows {A} (rows : nat) (cols : nat) (l : list A) : list (list A) :=
  match rows with
  | O => []
  | S r => firstn cols l :: split_rows r cols (skipn cols l)
  end.
(* storage/ndarray.py 73, storage/quantized.py 296, 373, 381. *)
Definition reshape2 {A} (rows cols : N) (l : list A) : result (list (list A)) :=
  if lenN l =? rows * cols
  then Ok (split_rows (N.to_nat rows) (N.to_nat cols) l)
  else Err ValueError.

(* numpy.memmap(file, dtype=<itemsize bytes>, mode='r', offset=offset, shape=...) with count
   elements: ValueError if the file is too short.  (Empty maps at page-aligned
   offsets, which mmap treats specially, are not distinguished.).
   storage/ndarray.py 88-93, storage/quantized.py 309-314. *)
Definition memmap (itemsize : nat) (offset count : N) (d : bytes)
  : result (list bytes) :=
  if offset + count * N.of_nat itemsize <=? lenN d then
    Ok (split_elems (N.to_nat count) itemsize
          (takeN (count * N.of_nat itemsize) (dropN offset d)))
  else Err ValueError.
