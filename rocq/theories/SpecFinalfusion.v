(* What a finalfusion file is, independently of the functions that read and write it. *)
From Verif Require Import Py SpecUtf8 IO Arr Subword Vocab Storage Chunks Embeddings Spec.
Local Open Scope N_scope.
Local Open Scope list_scope.

(* unsigned integers of four and eight bytes, lowest byte first *)
Definition u32 (n : N) : bytes := le_bytes 4 n.
Definition u64 (n : N) : bytes := le_bytes 8 n.

(* a string: its length in bytes and its UTF-8 form *)
Definition ff_string (s : str) (b : bytes) : Prop :=
  exists x, utf8_of s x /\ lenN x < 2 ^ 32 /\ b = u32 (lenN x) ++ x.
Definition ff_words (ws : list str) (b : bytes) : Prop :=
  exists bs, Forall2 ff_string ws bs /\ b = concat bs.
(* words the last of which is cut: fewer bytes than its length says *)
Definition ff_cut_words (ws : list str) (b : bytes) : Prop :=
  exists init w b1 n x, ws = init ++ [w] /\ ff_words init b1 /\ utf8_of w x /\ lenN x < n < 2 ^ 32
    /\ b = b1 ++ u32 n ++ x.
(* n-grams with their indices *)
Definition ff_ngram (g : str * N) (b : bytes) : Prop :=
  exists x, ff_string (fst g) x /\ snd g < 2 ^ 64 /\ b = x ++ u64 (snd g).
Definition ff_ngrams (gs : list (str * N)) (b : bytes) : Prop :=
  exists bs, Forall2 ff_ngram gs bs /\ b = concat bs.

(* every word is mapped to its position *)
Definition positions (ws : list str) : dict str Z :=
  combine ws (map Z.of_nat (seq 0 (length ws))).

(* The vocabularies, the numbers of their chunks and the contents of the chunks.  The words, and
   the n-grams, are pairwise different; the indices of the n-grams are 0 ... bound - 1, all of
   them used, some possibly for several n-grams, and there is at least one n-gram.  How the words
   are stored is a parameter because of ff_cut_words. *)
Inductive ff_vocab (words : list str -> bytes -> Prop) : vocab -> N -> bytes -> Prop :=
| FfSimple ws b : NoDup ws -> lenN ws < 2 ^ 64 -> words ws b ->
    ff_vocab words (VSimple ws (positions ws)) 1 (u64 (lenN ws) ++ b)
| FfBucket ws mn mx ex b : NoDup ws -> lenN ws < 2 ^ 64 -> words ws b ->
    0 < mn <= mx -> mx < 2 ^ 32 -> 0 < ex < 64 ->
    ff_vocab words (VBucket ws (positions ws) (FF ex mn mx)) 3
      (u64 (lenN ws) ++ u32 mn ++ u32 mx ++ u32 ex ++ b)
| FfFasttext ws mn mx bu b : NoDup ws -> lenN ws < 2 ^ 64 -> words ws b ->
    0 < mn <= mx -> mx < 2 ^ 32 -> 0 < bu < 2 ^ 32 ->
    ff_vocab words (VFastText ws (positions ws) (FT bu mn mx)) 7
      (u64 (lenN ws) ++ u32 mn ++ u32 mx ++ u32 bu ++ b)
| FfExplicit ws gs bound mn mx b bg : NoDup ws -> lenN ws < 2 ^ 64 -> ff_words ws b ->
    NoDup (map fst gs) -> lenN gs < 2 ^ 64 -> ff_ngrams gs bg -> gs <> [] ->
    (forall i, i < bound <-> In i (map snd gs)) ->
    0 < mn <= mx -> mx < 2 ^ 32 ->
    ff_vocab words (VExplicit ws (positions ws)
                (EX (map fst gs) (map (fun g => (fst g, Z.of_N (snd g))) gs) (Z.of_N bound) mn mx)) 8
      (u64 (lenN ws) ++ u64 (lenN gs) ++ u32 mn ++ u32 mx ++ b ++ bg).

(* The storages, the numbers of their chunks, the numbers at the start of the chunk and the data
   that follow after some padding.  Any number but zero says that there is a projection, or that
   there are norms. *)
Definition ff_flag {A} (o : option A) (n : N) : Prop := n < 2 ^ 32 /\ (n = 0 <-> o = None).
Definition ff_floats (o : option (list f32)) : bytes :=
  match o with Some l => floats_le l | None => [] end.
Inductive ff_storage : storage f32 -> N -> bytes -> bytes -> Prop :=
| FfArray c m : lenN m < 2 ^ 64 -> c < 2 ^ 32 -> Forall (fun r => lenN r = c) m ->
    ff_storage (SNd (NdA BoNative c m)) 2
      (u64 (lenN m) ++ u32 c ++ u32 10) (floats_le (concat m))
| FfQuantized (proj : option (list (list f32))) (norms : option (list f32))
    (qs : list (list (list f32))) (codes : list (list byte)) nc sub fp fn :
    ff_flag proj fp -> ff_flag norms fn ->
    qs <> [] -> lenN qs < 2 ^ 32 -> lenN qs * sub < 2 ^ 32 -> nc < 2 ^ 32 -> lenN codes < 2 ^ 64 ->
    Forall (fun q => lenN q = nc /\ Forall (fun c => lenN c = sub) q) qs ->
    Forall (fun c => lenN c = lenN qs) codes ->
    (forall m, proj = Some m ->
       lenN m = lenN qs * sub /\ Forall (fun r => lenN r = lenN qs * sub) m) ->
    (forall l, norms = Some l -> lenN l = lenN codes) ->
    ff_storage
      (SQuant (QA (PQ BoNative nc sub qs (option_map (pair BoNative) proj))
                 (lenN qs) codes (option_map (pair BoNative) norms))) 4
      (u32 fp ++ u32 fn ++ u32 (lenN qs) ++ u32 (lenN qs * sub) ++ u32 nc ++ u64 (lenN codes)
       ++ u32 1 ++ u32 10)
      (ff_floats (option_map (@concat f32) proj) ++ floats_le (concat (concat qs))
       ++ ff_floats norms ++ concat codes).

(* The padding at position pos: up to the next multiple of four, four bytes at such a multiple.
   It may be incomplete if nothing follows. *)
Definition ff_pad (pos : N) (pad after : bytes) : Prop :=
  lenN pad = 4 - pos mod 4 \/ lenN pad < 4 - pos mod 4 /\ after = [].

(* The metadata, if any, at the front. *)
Inductive ff_metadata (t : toml_lib) : option metadata -> bytes -> Prop :=
| FfNoMeta : ff_metadata t None []
| FfMeta m s x : utf8_of s x -> toml_loads t s = Ok m -> lenN x < 2 ^ 63 ->
    ff_metadata t (Some m) (u32 5 ++ u64 (lenN x) ++ x).

(* The norms, if any, at position pos up to the end of the file.  If the number n of norms
   in the file is too large then they extend to the end of the file, up to an incomplete one;
   otherwise anything may follow. *)
Inductive ff_norms (pos : N) : option (norms f32) -> bytes -> Prop :=
| FfNoNorms : ff_norms pos None []
| FfNorms len n pad vals rest :
    len < 2 ^ 64 -> 4 * n < 2 ^ 63 -> ff_pad (pos + 24) pad (floats_le vals ++ rest) ->
    lenN vals = n \/ lenN vals < n /\ lenN rest < 4 ->
    ff_norms pos (Some (Norms BoNative vals))
      (u32 6 ++ u64 len ++ u64 n ++ u32 10 ++ pad ++ floats_le vals ++ rest).

(* The file: magic number and version, some chunk identifiers that need not be those of the
   chunks that follow; metadata, vocabulary, storage and norms.  The lengths in the headers of
   the chunks are arbitrary, except that of the metadata.  The padding of the storage has to be
   complete for memory mapping. *)
Definition ff_file (t : toml_lib) (mmap : bool) (d : bytes) (e : embeddings f32) : Prop :=
  exists ids meta vid vlen vbody sid slen head pad data nbody,
    let before :=
      [x46; x69; x46; x75] ++ u32 0 ++ u32 (lenN ids) ++ concat (map u32 ids) ++ meta
      ++ u32 vid ++ u64 vlen ++ vbody ++ u32 sid ++ u64 slen ++ head in
    d = before ++ pad ++ data ++ nbody
    /\ 0 < lenN ids < 2 ^ 32 /\ Forall (fun i => i < 2 ^ 32) ids
    /\ ff_metadata t (em_metadata e) meta
    /\ vlen < 2 ^ 64 /\ ff_vocab ff_words (em_vocab e) vid vbody
    /\ slen < 2 ^ 64 /\ ff_storage (em_storage e) sid head data
    /\ ff_pad (lenN before) pad (data ++ nbody)
    /\ (mmap = true -> lenN pad = 4 - lenN before mod 4)
    /\ ff_norms (lenN (before ++ pad ++ data)) (em_norms e) nbody
    (* one row for every word and for every index of a subword; one norm for every word *)
    /\ (Z.of_nat (storage_rows (em_storage e))
        = Z.of_nat (n_words (em_vocab e)) + subword_rows (em_vocab e))%Z
    /\ (forall n, em_norms e = Some n -> length (nm_vals n) = n_words (em_vocab e)).

(* A file with one of the wanted chunks: the first of them, with the bytes before it and all the
   bytes after its header.  The chunks before it are complete, and their numbers are known. *)
Definition ff_found (wanted : list N) (d : bytes) (c len : N) (before after : bytes) : Prop :=
  exists ids (chunks : list (N * bytes)),
    before = [x46; x69; x46; x75] ++ u32 0 ++ u32 (lenN ids) ++ concat (map u32 ids)
             ++ concat (map (fun x => u32 (fst x) ++ u64 (lenN (snd x)) ++ snd x) chunks)
    /\ d = before ++ u32 c ++ u64 len ++ after
    /\ 0 < lenN ids < 2 ^ 32 /\ Forall (fun i => i < 2 ^ 32) ids
    /\ Forall (fun x => fst x <= 8 /\ ~ In (fst x) wanted) chunks
    /\ In c wanted /\ len < 2 ^ 64.

(* The words of a vocabulary that is followed by some bytes. *)
Definition ff_words_before (after : bytes) (ws : list str) (b : bytes) : Prop :=
  ff_words ws b \/ after = [] /\ ff_cut_words ws b.

Definition ff_vocab_file (wanted : list N) (d : bytes) (v : vocab) : Prop :=
  exists c len before body rest, ff_found wanted d c len before (body ++ rest)
    /\ ff_vocab (ff_words_before rest) v c body.
Definition ff_storage_file (wanted : list N) (mmap : bool) (d : bytes) (s : storage f32) : Prop :=
  exists c len before head pad data rest,
    ff_found wanted d c len before (head ++ pad ++ data ++ rest)
    /\ ff_storage s c head data
    /\ ff_pad (lenN before + 12 + lenN head) pad (data ++ rest)
    /\ (mmap = true -> lenN pad = 4 - (lenN before + 12 + lenN head) mod 4).
Definition ff_norms_file (d : bytes) (n : norms f32) : Prop :=
  exists len before after, ff_found [6] d 6 len before after
    /\ ff_norms (lenN before) (Some n) (u32 6 ++ u64 len ++ after).
Definition ff_metadata_file (t : toml_lib) (d : bytes) (m : metadata) : Prop :=
  exists len before x rest, ff_found [5] d 5 len before (x ++ rest)
    /\ lenN x = len /\ ff_metadata t (Some m) (u32 5 ++ u64 len ++ x).
