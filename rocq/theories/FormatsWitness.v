(* Concrete files for the theorems about the formats of other programs. *)
From Coq Require Import Lia.
From Verif Require Import Py PyProofs Utf8 IO Arr Subword Vocab Storage Chunks Embeddings PyText Compat
  Spec SpecVocab SpecLookup SpecCompat SpecFasttext SpecText Samples VocabWitness LookupWitness CompatWitness
  CompatProofs TextLayout W2vLayout.
Local Open Scope N_scope.
Local Open Scope list_scope.

(* two words, two buckets; cols columns are declared *)
Definition ft_sample (cols : Z) (data : bytes) : ft_file :=
  FtFile 2 5 5 1 5 1 2 2 2 1 2 100 0 2 2 9 (-1) [([x61; x62], 7%Z); ([xc3; xa9], 2%Z)] 4 cols data.
Definition ft_data : bytes := concat (map (fun z => signed_bytes 4 z) [1; 2; 3; 4; 5; 6; 7; 8]%Z).
Lemma ft_sample_fits cols data : int_fits 8 cols -> ft_fits (ft_sample cols data).
Proof.
  intros H. unfold ft_fits. cbn. unfold int_fits in *. repeat split; try (repeat constructor; cbn; lia); try lia.
  all: repeat constructor; cbn; try lia; intros [?|[?|[]]]; discriminate.
Qed.
Lemma ft_sample_loadable : ft_loadable false (ft_sample 2 ft_data) [x01; x02] 4 2 [[97; 98]; [233]].
Proof.
  split; [apply ft_sample_fits; unfold int_fits; cbn; lia|].
  split; [eexists; right; left; reflexivity|]. split; [eexists; right; left; reflexivity|].
  split; [reflexivity|]. split; [reflexivity|]. split; [cbn; lia|]. split; [cbn; lia|].
  split; [repeat constructor|]. split; [repeat constructor; cbn; intuition discriminate|].
  split; [|reflexivity]. split; [reflexivity|]. split; [reflexivity|]. left. cbn. lia.
Qed.
Lemma ft_sample_loads : exists e, run_reader (load_fasttext z_ops1 Little zc false) (ft_bytes (ft_sample 2 ft_data) ++ [x01; x02]) = Ok e
  /\ em_dims e = 2 /\ vocab_words (em_vocab e) = [[97; 98]; [233]].
Proof. eexists. split; [vm_compute; reflexivity|]. split; reflexivity. Qed.
Lemma ft_sample_cut : run_reader (load_fasttext z_ops1 Little zc false) (takeN 40 (ft_bytes (ft_sample 2 ft_data))) = Err FormatError.
Proof. vm_compute. reflexivity. Qed.

(* a negative number of columns: it follows from the size of the file *)
Lemma ft_negative_loadable : ft_loadable false (ft_sample (-1) ft_data) [] 4 2 [[97; 98]; [233]].
Proof.
  split; [apply ft_sample_fits; unfold int_fits; cbn; lia|].
  split; [eexists; right; left; reflexivity|]. split; [eexists; right; left; reflexivity|].
  split; [reflexivity|]. split; [reflexivity|]. split; [cbn; lia|]. split; [cbn; lia|].
  split; [repeat constructor|]. split; [repeat constructor; cbn; intuition discriminate|].
  split; [|reflexivity]. split; [reflexivity|]. split; [reflexivity|]. right. right. split; [cbn; lia|]. split; [reflexivity|now vm_compute].
Qed.
Lemma ft_negative_cut : exists e e',
  run_reader (load_fasttext z_ops1 Little zc false) (ft_bytes (ft_sample (-1) ft_data)) = Ok e
  /\ run_reader (load_fasttext z_ops1 Little zc false)
       (takeN (lenN (ft_bytes (ft_sample (-1) ft_data)) - 16) (ft_bytes (ft_sample (-1) ft_data))) = Ok e'
  /\ em_dims e = 2 /\ em_dims e' = 1.
Proof. eexists. eexists. split; [vm_compute; reflexivity|]. split; [vm_compute; reflexivity|]. split; reflexivity. Qed.

(* "ab\t1 2 \r\né 3" *)
Definition txt_sample : str := [97; 98; 9; 49; 32; 50; 32; 13; 10; 233; 32; 51].
Definition txt_lines : list str := [[97; 98; 9; 49; 32; 50; 32]; [233; 32; 51]].
Definition txt_bytes : bytes := match utf8_encode txt_sample with Ok b => b | Err _ => [] end.
Lemma txt_text lossy : file_text lossy txt_bytes txt_sample.
Proof. destruct lossy; reflexivity. Qed.
Lemma txt_has_lines : text_has_lines txt_sample txt_lines.
Proof.
  apply (line_crlf [97; 98; 9; 49; 32; 50; 32] [233; 32; 51] [[233; 32; 51]]); [cbn; intuition discriminate..|].
  apply last_line; cbn; intuition discriminate.
Qed.
Lemma txt_first : text_line [97; 98; 9; 49; 32; 50; 32] [97; 98] [[49]; [50]].
Proof.
  exists [[9]; [32]], [32]. unfold no_ascii_space, gap. repeat split; repeat constructor; discriminate.
Qed.
Lemma txt_second : text_line [233; 32; 51] [233] [[51]].
Proof. exists [[32]], []. unfold no_ascii_space, gap. repeat split; repeat constructor; discriminate. Qed.
Lemma txt_rows : text_rows py_int 2 txt_lines [[97; 98]; [233]] [[1; 2]; [3; 3]]%Z.
Proof.
  apply (more_rows py_int 2 _ _ [[49]; [50]]); [apply txt_first| |].
  { exists [1; 2]%Z. split; [repeat constructor|]. now left. }
  apply (more_rows py_int 2 _ _ [[51]]); [apply txt_second| |constructor].
  exists [3]%Z. split; [repeat constructor|]. right. now exists 3%Z.
Qed.
(* "2 +2" *)
Lemma txt_header : header_line [50; 32; 43; 50] 2 2.
Proof.
  exists [], [50], [32], [43; 50], []. split; [reflexivity|]. split; [repeat constructor|]. split; [discriminate|].
  split; [repeat constructor|]. split.
  - exists [], [50], []. split; [reflexivity|]. split; [split; [discriminate|repeat constructor; lia]|].
    split; [constructor|]. left. split; [now left|reflexivity].
  - exists [43], [50], []. split; [reflexivity|]. split; [split; [discriminate|repeat constructor; lia]|].
    split; [constructor|]. left. split; [now right|reflexivity].
Qed.
Lemma txt_loads : exists e, load_text z_ops1 py_int false txt_bytes = Ok e
  /\ load_text_dims z_ops1 py_int false (map byte_of_N [50; 32; 43; 50] ++ [x0a] ++ txt_bytes) = Ok e.
Proof. eexists. split; vm_compute; reflexivity. Qed.

(* "2 2\nab " 1 2 "\né " 3 and two more bytes *)
Definition w2v_body : bytes :=
  [x61; x62] ++ [x20] ++ concat (map f32_le (map (enc zc) [1; 2]%Z))
  ++ ([x0a; xc3; xa9] ++ [x20] ++ f32_le (enc zc 3%Z) ++ [x01; x02]).
Definition w2v_sample : bytes := map byte_of_N [50; 32; 50] ++ [x0a] ++ w2v_body.
Lemma w2v_sample_file : w2v_file w2v_sample [50; 32; 50] w2v_body /\ header_line [50; 32; 50] (Z.of_N 2) (Z.of_N 2).
Proof.
  split.
  - split; [repeat constructor; lia|]. split; [cbn; intuition discriminate|]. now left.
  - exists [], [50], [32], [50], []. split; [reflexivity|]. split; [repeat constructor|]. split; [discriminate|].
    split; [repeat constructor|]. split; exists [], [50], []; (split; [reflexivity|]; split;
      [split; [discriminate|repeat constructor; lia]|]; split; [constructor|]; left; split; [now left|reflexivity]).
Qed.
Lemma w2v_sample_rows : w2v_rows zc false 2 w2v_body [[97; 98]; [233]] [[1; 2]; [3; 3]]%Z.
Proof.
  apply (w2v_full zc false 2 [x61; x62] [97; 98] [97; 98] (map (enc zc) [1; 2]%Z)
           ([x0a; xc3; xa9] ++ [x20] ++ f32_le (enc zc 3%Z) ++ [x01; x02]) [[233]] [[3; 3]]%Z);
    [cbn; intuition discriminate|reflexivity|now apply stripped_iff|reflexivity|].
  apply (w2v_short zc false 2 [x0a; xc3; xa9] [10; 233] [233] (enc zc 3%Z) [x01; x02]);
    [cbn; intuition discriminate|reflexivity|now apply stripped_iff|reflexivity|reflexivity].
Qed.
Lemma w2v_sample_loads : exists e, run_reader (load_word2vec z_ops1 Little zc false) w2v_sample = Ok e
  /\ vocab_words (em_vocab e) = [[97; 98]; [233]].
Proof. eexists. split; [vm_compute; reflexivity|reflexivity]. Qed.

(* a malformed word *)
Definition w2v_malformed : bytes := map byte_of_N [49; 32; 49] ++ [x0a] ++ [xff] ++ [x20] ++ f32_le (enc zc 3%Z).
Lemma w2v_malformed_loads : run_reader (load_word2vec z_ops1 Little zc false) w2v_malformed = Err UnicodeDecodeError
  /\ exists e, run_reader (load_word2vec z_ops1 Little zc true) w2v_malformed = Ok e
     /\ vocab_words (em_vocab e) = [[0xFFFD]].
Proof. split; [vm_compute; reflexivity|]. eexists. split; [vm_compute; reflexivity|reflexivity]. Qed.
(* the bytes of "é 1", and "é" on the first line of a word2vec file *)
Lemma w2v_first_line : run_reader (load_word2vec z_ops1 Little zc true) [xc3; xa9; x20; x31; x0a] = Err UnicodeDecodeError.
Proof. vm_compute. reflexivity. Qed.
Lemma txt_malformed : load_text z_ops1 py_int false [x61; xff; x20; x31] = Err UnicodeDecodeError
  /\ exists e, load_text z_ops1 py_int true [x61; xff; x20; x31] = Ok e /\ vocab_words (em_vocab e) = [[97; 0xFFFD]].
Proof. split; [vm_compute; reflexivity|]. eexists. split; [vm_compute; reflexivity|reflexivity]. Qed.
Lemma py_int_decodes s : py_int s <> Err UnicodeDecodeError.
Proof.
  unfold py_int. destruct (match s with [] => _ | _ => _ end) as [sg r]. now destruct (int_digits false 0 r).
Qed.
Lemma ft_negative_loads_less : exists f r c ws k e e',
  ft_loadable false f [] r c ws /\ k < lenN (ft_bytes f)
  /\ run_reader (load_fasttext z_ops1 Little zc false) (ft_bytes f) = Ok e
  /\ run_reader (load_fasttext z_ops1 Little zc false) (takeN k (ft_bytes f)) = Ok e'
  /\ em_dims e = 2 /\ em_dims e' = 1.
Proof.
  destruct ft_negative_cut as (e & e' & H). exists (ft_sample (-1) ft_data), 4, 2, [[97; 98]; [233]].
  exists (lenN (ft_bytes (ft_sample (-1) ft_data)) - 16), e, e'.
  split; [exact ft_negative_loadable|]. split; [now vm_compute|exact H].
Qed.
Lemma ft_written_sample : exists e out, built_embeddings e
  /\ Forall (fun w => ~ In 0 w) (vocab_words (em_vocab e))
  /\ array_fits (N.of_nat (storage_rows (em_storage e))) (em_dims e)
  /\ write_fasttext z_ops1 Little zc e None = (Some out, Ok tt)
  /\ run_reader (load_fasttext z_ops1 Little zc false) (takeN (lenN out - 33) out) = Err ValueError
  /\ run_reader (load_fasttext z_ops1 Little zc false) (takeN (lenN out - 32) out)
     = run_reader (load_fasttext z_ops1 Little zc false) out.
Proof.
  exists e_ftz, out_ft. pose proof e_ft_words as H. split; [exact e_ftz_built|]. split; [apply H|]. split; [apply H|].
  split; [apply out_ft_ok|]. split; vm_compute; reflexivity.
Qed.
