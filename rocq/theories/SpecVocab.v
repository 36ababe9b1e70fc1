(* Specification vocabulary for n-grams, hashes and vocabularies.  Nothing in this file is
   used by the model. *)
From Coq Require Import Sorted.
From Verif Require Import Py Utf8 Arr Subword Vocab Storage.

(* ---------------------------------------------------------------- *)
(* N-grams (C17)                                                     *)

(* positions (start, length) of the n-grams of a string of length [len]: all of them, by
   start and then from long to short *)
Definition ngram_before (a b : N * N) : Prop :=
  fst a < fst b \/ (fst a = fst b /\ snd b < snd a).
Definition ngram_positions (len mn mx : N) (ps : list (N * N)) : Prop :=
  StronglySorted ngram_before ps
  /\ forall i j, In (i, j) ps <-> mn <= j <= mx /\ i + j <= len.
(* [g] occurs in [w] at start [fst p] with length [snd p] *)
Definition occurs_at (w : str) (p : N * N) (g : str) : Prop :=
  exists pre post, w = pre ++ g ++ post /\ lenN pre = fst p /\ lenN g = snd p.
Definition is_ngrams (w : str) (mn mx : N) (gs : list str) : Prop :=
  exists ps, ngram_positions (lenN w) mn mx ps /\ Forall2 (occurs_at w) ps gs.
(* the word between angle brackets *)
Definition in_brackets (bracket : bool) (word : str) : str :=
  if bracket then 60 :: word ++ [62] else word.

(* ---------------------------------------------------------------- *)
(* Hashes (C19, C20)                                                 *)

(* 64-bit FNV-1a *)
Definition fnv1a_64 (bs : bytes) : N :=
  fold_left (fun h b => (N.lxor h (Byte.to_N b) * 1099511628211) mod 2 ^ 64) bs
    14695981039346656037.
(* what finalfusion hashes for an n-gram *)
Definition ngram_bytes (g : str) : bytes :=
  le_bytes 8 (lenN g) ++ concat (map (le_bytes 4) g).
(* fastText: signed bytes, 32-bit arithmetic *)
Definition signed_byte (b : byte) : Z :=
  let z := Z.of_N (Byte.to_N b) in if (z <? 128)%Z then z else (z - 256)%Z.
Definition fasttext_hash (bs : bytes) : Z :=
  fold_left (fun h b => (Z.lxor h (signed_byte b mod 2 ^ 32) * 16777619) mod 2 ^ 32)%Z bs
    2166136261%Z.

(* ---------------------------------------------------------------- *)
(* Vocabularies (C15, C16, C43)                                      *)

(* the outcome of one of the four constructors on the word list [ws] *)
Inductive constructs (ws : list str) : result vocab -> Prop :=
| ConSimple : constructs ws (simple_vocab_new ws)
| ConBucket ix : constructs ws (bucket_vocab_new ws ix)
| ConFastText ix : constructs ws (fasttext_vocab_new ws ix)
| ConExplicit ix : constructs ws (explicit_vocab_new ws ix).

(* the indices a lookup returned *)
Definition indices (r : index_res) : list Z :=
  match r with IdxInt i => [i] | IdxList l => l end.
Definition is_single (r : index_res) : Prop :=
  match r with IdxInt _ => True | IdxList _ => False end.

(* list sizes are machine integers *)
Definition machine_size (v : vocab) : Prop := lenN (vocab_words v) < 2 ^ 63.

(* an explicit indexer was given no negative index *)
Definition nonneg_index (v : vocab) : Prop :=
  match v with
  | VExplicit _ _ ix => Forall (fun kv => 0 <= snd kv)%Z (ex_index ix)
  | _ => True
  end.
(* the indices returned are rows of a matrix with one row per index *)
Definition within (v : vocab) (r : index_res) : Prop :=
  Forall (fun i => 0 <= i < vocab_upper_bound v)%Z (indices r).
(* the codes of a quantized array are numbers of centroids *)
Definition valid_codes {F} (s : storage F) : Prop :=
  match s with
  | SNd _ => True
  | SQuant q => Forall (Forall (fun c => Byte.to_N c < pq_n_centroids (qa_pq q))) (qa_codes q)
  end.

(* equality of indexers *)
Definition same_indexer (v w : vocab) : Prop :=
  match v, w with
  | VSimple _ _, VSimple _ _ => True
  | VBucket _ _ x, VBucket _ _ y => x = y
  | VFastText _ _ x, VFastText _ _ y => x = y
  | VExplicit _ _ x, VExplicit _ _ y =>
      ex_min_n x = ex_min_n y /\ ex_max_n x = ex_max_n y
      /\ ex_ngrams x = ex_ngrams y /\ forall g, sget g (ex_index x) = sget g (ex_index y)
  | _, _ => False
  end.

(* ---------------------------------------------------------------- *)
(* Conversion to explicit vocabularies (C21, C22)                    *)

Definition is_bucket (v : vocab) : Prop :=
  match v with VBucket _ _ _ | VFastText _ _ _ => True | _ => False end.
(* [g] is an n-gram of one of the words *)
Definition word_ngram (v : vocab) (g : str) : Prop :=
  exists mn mx w pre post, vocab_ngram_range v = Some (mn, mx) /\ In w (vocab_words v)
    /\ in_brackets true w = pre ++ g ++ post /\ mn <= lenN g <= mx.
(* [g] falls into bucket [b] *)
Definition in_bucket (v : vocab) (g : str) (b : N) : Prop :=
  match v with
  | VBucket _ _ ix => b = fnv1a_64 (ngram_bytes g) mod 2 ^ ff_exp ix
  | VFastText _ _ ix =>
      exists bs, utf8_encode g = Ok bs
        /\ Z.of_N b = (fasttext_hash bs mod Z.of_N (ft_buckets ix))%Z
  | _ => False
  end.
(* some word has n-grams, and those that have can be encoded if need be *)
Definition long_enough (v : vocab) (w : str) : Prop :=
  exists mn mx, vocab_ngram_range v = Some (mn, mx) /\ mn <= lenN w + 2.
Definition explicit_possible (v : vocab) : Prop :=
  (exists w, In w (vocab_words v) /\ long_enough v w)
  /\ match v with
     | VFastText _ _ _ =>
         forall w, In w (vocab_words v) -> long_enough v w -> exists bs, utf8_encode w = Ok bs
     | _ => True
     end.
