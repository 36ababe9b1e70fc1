(* When embeddings can be written, and what a failed write leaves in the file. *)
From Verif Require Import Py SpecUtf8 IO Arr Subword Vocab Storage Chunks Embeddings Spec SpecFinalfusion.
Local Open Scope N_scope.
Local Open Scope list_scope.

(* strings that can be encoded, and the bytes they take *)
Definition strings_size (l : list str) (n : N) : Prop :=
  exists bs, Forall2 (fun s b => utf8_of s b /\ lenN b < 2 ^ 32) l bs /\ n = 4 * lenN l + lenN (concat bs).
(* a string that cannot be encoded: a lone surrogate *)
Definition unwritable (l : list str) : Prop := Exists (fun s => ~ Forall scalar s) l.
(* all strings of a vocabulary *)
Definition vocab_strings (v : vocab) : list str :=
  vocab_words v ++ match v with VExplicit _ _ ix => ex_ngrams ix | _ => [] end.
Definition vocab_fits (v : vocab) : Prop :=
  (exists n, strings_size (vocab_strings v) n /\ n < 2 ^ 63)
  /\ match v with
     | VExplicit _ _ ix => Forall (fun gi => 0 <= snd gi < 2 ^ 64)%Z (ex_index ix)
     | _ => True
     end.
Definition storage_fits (s : storage f32) : Prop :=
  match s with
  | SNd a => nd_cols a < 2 ^ 32 /\ lenN (nd_rows a) < 2 ^ 64 /\ lenN (nd_rows a) * nd_cols a * 4 < 2 ^ 63
  | SQuant q =>
      let p := qa_pq q in
      let dims := lenN (pq_quantizers p) * pq_sub_len p in
      qa_len q < 2 ^ 32 /\ dims < 2 ^ 32 /\ pq_n_centroids p < 2 ^ 32 /\ lenN (qa_codes q) < 2 ^ 64
      /\ (match pq_projection p with Some _ => 4 * dims * dims | None => 0 end)
         + 4 * pq_n_centroids p * dims
         + (match qa_norms q with Some (_, ns) => 4 * lenN ns | None => 0 end)
         + lenN (qa_codes q) * qa_len q < 2 ^ 63
  end.
(* the metadata chunk: nothing without metadata *)
Definition meta_bytes (t : toml_lib) (m : option metadata) (b : bytes) : Prop :=
  match m with
  | None => b = []
  | Some m => exists s body, toml_dumps t m = Ok s /\ utf8_of s body /\ lenN body < 2 ^ 64
                             /\ b = chunk_bytes CMetadata body
  end.
(* the numbers of the chunks of a file *)
Definition chunk_numbers {F} (e : embeddings F) : list Z :=
  match em_metadata e with Some _ => [5%Z] | None => [] end
  ++ [match em_vocab e with VSimple _ _ => 1 | VBucket _ _ _ => 3 | VFastText _ _ _ => 7
      | VExplicit _ _ _ => 8 end]%Z
  ++ [match em_storage e with SNd _ => 2 | SQuant _ => 4 end]%Z
  ++ match em_norms e with Some _ => [6%Z] | None => [] end.
(* a simple vocabulary whose size is not known yet *)
Definition vocab_stub (v : vocab) : bytes :=
  match v with VSimple _ _ => u32 1 | _ => [] end.
