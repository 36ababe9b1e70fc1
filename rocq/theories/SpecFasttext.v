(* What a fastText file is, independently of the functions that read and write it. *)
From Coq Require Import String.
From Verif Require Import Py Utf8 IO Arr Subword Vocab Storage Chunks Embeddings PyText Spec SpecLookup.
Local Open Scope N_scope.
Local Open Scope list_scope.

(* an integer as k bytes in two's complement, lowest byte first *)
Definition int_le (k : nat) (z : Z) : bytes :=
  le_bytes k (Z.to_N (z mod 2 ^ (8 * Z.of_nat k))).
Definition int_fits (k : nat) (z : Z) : Prop :=
  (- 2 ^ (8 * Z.of_nat k - 1) <= z < 2 ^ (8 * Z.of_nat k - 1))%Z.

(* The contents of a fastText file.  Words come with the number of their occurrences; the
   threshold is given by the bits of a double; the data are the bytes of the matrix. *)
Record ft_file : Type := FtFile {
  tf_dims : Z; tf_window : Z; tf_epoch : Z; tf_min_count : Z; tf_ns : Z; tf_word_ngrams : Z;
  tf_loss : Z; tf_model : Z; tf_buckets : Z; tf_min_n : Z; tf_max_n : Z; tf_lr : Z;
  tf_threshold : Z;
  tf_size : Z; tf_n_words : Z; tf_tokens : Z; tf_prune : Z;
  tf_words : list (bytes * Z);
  tf_rows : Z; tf_cols : Z; tf_data : bytes }.

Definition ft_ints (f : ft_file) : list Z :=
  [tf_dims f; tf_window f; tf_epoch f; tf_min_count f; tf_ns f; tf_word_ngrams f;
   tf_loss f; tf_model f; tf_buckets f; tf_min_n f; tf_max_n f; tf_lr f].

(* magic number and version, settings, vocabulary without labels, matrix that is not quantised *)
Definition ft_before_data (f : ft_file) : bytes :=
  int_le 4 793712314 ++ int_le 4 12
  ++ concat (map (int_le 4) (ft_ints f)) ++ int_le 8 (tf_threshold f)
  ++ int_le 4 (tf_size f) ++ int_le 4 (tf_n_words f) ++ int_le 4 0
  ++ int_le 8 (tf_tokens f) ++ int_le 8 (tf_prune f)
  ++ concat (map (fun w => fst w ++ [x00] ++ int_le 8 (snd w) ++ [x00]) (tf_words f))
  ++ [x00] ++ int_le 8 (tf_rows f) ++ int_le 8 (tf_cols f).
Definition ft_bytes (f : ft_file) : bytes := ft_before_data f ++ tf_data f.

(* all numbers are within the range of their type; words are terminated by the first zero byte *)
Definition ft_fits (f : ft_file) : Prop :=
  Forall (int_fits 4) (ft_ints f) /\ (0 <= tf_threshold f < 2 ^ 64)%Z
  /\ int_fits 4 (tf_size f) /\ int_fits 4 (tf_n_words f)
  /\ int_fits 8 (tf_tokens f) /\ int_fits 8 (tf_prune f)
  /\ Forall (fun w => ~ In x00 (fst w) /\ int_fits 8 (snd w)) (tf_words f)
  /\ int_fits 8 (tf_rows f) /\ int_fits 8 (tf_cols f).

(* the numbers of losses and models; numbers below 1 are taken from the end of the list *)
Definition ft_loss_name (z : Z) (s : str) : Prop :=
  In (z, s) [(1, py_str "HierarchicalSoftmax"); (2, py_str "NegativeSampling"); (3, py_str "Softmax");
             (-2, py_str "HierarchicalSoftmax"); (-1, py_str "NegativeSampling"); (0, py_str "Softmax")]%Z.
Definition ft_model_name (z : Z) (s : str) : Prop :=
  In (z, s) [(1, py_str "CBOW"); (2, py_str "SkipGram"); (3, py_str "Supervised");
             (-2, py_str "CBOW"); (-1, py_str "SkipGram"); (0, py_str "Supervised")]%Z.

(* the words as strings *)
Definition ft_decoded (lossy : bool) (f : ft_file) (ws : list str) : Prop :=
  Forall2 (fun w s => if lossy then s = decode_replace (fst w) else utf8_decode (fst w) = Ok s)
    (tf_words f) ws.

(* The matrix has r rows and c columns.  If one of the dimensions in the file is negative the
   data extend to the end of the file, up to an incomplete element, and this dimension follows
   from the other one. *)
Definition ft_shape (f : ft_file) (rest : bytes) (r c : N) : Prop :=
  lenN (tf_data f) = (4 * (r * c))%N /\ (4 * (r * c) < 2 ^ 63)%N
  /\ ((0 <= tf_rows f /\ 0 <= tf_cols f)%Z /\ Z.of_N r = tf_rows f /\ Z.of_N c = tf_cols f
      \/ (tf_rows f < 0 < tf_cols f)%Z /\ Z.of_N c = tf_cols f /\ (lenN rest < 4)%N
      \/ (tf_cols f < 0 < tf_rows f)%Z /\ Z.of_N r = tf_rows f /\ (lenN rest < 4)%N).

(* what the loader requires of the contents *)
Definition ft_loadable (lossy : bool) (f : ft_file) (rest : bytes) (r c : N) (ws : list str) : Prop :=
  ft_fits f
  /\ (exists s, ft_loss_name (tf_loss f) s) /\ (exists s, ft_model_name (tf_model f) s)
  /\ length (tf_words f) = Z.to_nat (tf_size f)
  /\ (tf_prune f < 0)%Z
  /\ (0 < tf_min_n f <= tf_max_n f)%Z /\ (0 < tf_buckets f)%Z
  /\ ft_decoded lossy f ws /\ NoDup ws
  /\ ft_shape f rest r c
  /\ Z.of_N r = (Z.of_nat (length ws) + tf_buckets f)%Z.

Section Fasttext.
  Context {F : Type} (o : fops F) (cd : codec F).

  (* the mean over the rows of word k and of its subwords *)
  Definition ft_mean (v : vocab) (c : N) (m : list (list F)) (k : nat) (w : str) (u : list F) : Prop :=
    exists sw rows s,
      vocab_subword_indices v w true false = Ok sw
      /\ Forall2 (fun i row => (0 <= i)%Z /\ nth_error m (Z.to_nat i) = Some row)
           (Z.of_nat k :: map sw_index sw) rows
      /\ is_sum o (N.to_nat c) rows s
      /\ u = map (fun x => fdiv o x (fofZ o (Z.of_nat (length sw) + 1))) s.

  (* The embeddings in the file: m is the matrix of the file; row k of the result is the mean
     for word k divided by its norm, the rows after those of the words are as in the file. *)
  Definition ft_embeddings (f : ft_file) (r c : N) (ws : list str) (e : embeddings F) : Prop :=
    exists idx loss model (m0 : list (list f32)) us rows,
      let m := map (map (dec cd)) m0 in
      em_vocab e = VFastText ws idx
        (FT (Z.to_N (tf_buckets f)) (Z.to_N (tf_min_n f)) (Z.to_N (tf_max_n f)))
      /\ indexed_words ws idx
      /\ tf_data f = floats_le (concat m0) /\ lenN m0 = r /\ Forall (fun row => lenN row = c) m0
      /\ em_storage e = SNd (NdA BoNative c rows) /\ lenN rows = r
      /\ length us = length ws
      /\ (forall k w u, nth_error ws k = Some w -> nth_error us k = Some u ->
            ft_mean (em_vocab e) c m k w u
            /\ nth_error rows k = Some (map (fun x => fdiv o x (fnorm o u)) u))
      /\ (forall k, (length ws <= k)%nat -> nth_error rows k = nth_error m k)
      /\ em_norms e = Some (Norms BoNative (map (fnorm o) us))
      /\ ft_loss_name (tf_loss f) loss /\ ft_model_name (tf_model f) model
      /\ em_metadata e = Some
           [(py_str "dims", MInt (tf_dims f)); (py_str "window_size", MInt (tf_window f));
            (py_str "epoch", MInt (tf_epoch f)); (py_str "min_count", MInt (tf_min_count f));
            (py_str "ns", MInt (tf_ns f)); (py_str "word_ngrams", MInt (tf_word_ngrams f));
            (py_str "loss", MStr loss); (py_str "model", MStr model);
            (py_str "buckets", MInt (tf_buckets f)); (py_str "min_n", MInt (tf_min_n f));
            (py_str "max_n", MInt (tf_max_n f)); (py_str "lr_update_rate", MInt (tf_lr f));
            (py_str "sampling_threshold", MFloat (tf_threshold f))].
End Fasttext.
