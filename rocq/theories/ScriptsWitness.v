(* Concrete runs of the scripts. *)
From Coq Require Import Lia String.
From Verif Require Import Py Utf8 IO Arr Subword Vocab Storage Chunks Embeddings Spec SpecVocab SpecLookup
  SpecSame PyText SpecCompat Compat Scripts SpecScripts Samples LookupWitness.
Local Open Scope N_scope.
Local Open Scope list_scope.

(* arithmetic modulo 256 on the first byte *)
Definition bval (x : f32) : Z := Z.of_N (Byte.to_N (f32_0 x)).
Definition bmk (z : Z) : f32 :=
  F32 (match Byte.of_N (Z.to_N (z mod 256)) with Some b => b | None => x00 end) x00 x00 x00.
Definition b_ops : fops f32 :=
  {| fzero := bmk 0; fadd := fun x y => bmk (bval x + bval y); fsub := fun x y => bmk (bval x - bval y);
     fmul := fun x y => bmk (bval x * bval y); fdiv := fun x y => x; fofZ := bmk;
     fle := fun x y => (bval x <=? bval y)%Z;
     fdot := fun x y => bmk (fold_right Z.add 0%Z (map2 Z.mul (map bval x) (map bval y)));
     fnorm := fun _ => bmk 1 |}.
(* one letter per value *)
Definition b_show (x : f32) : str := [65 + Z.to_N (bval x)].
Definition b_parse (s : str) : result f32 :=
  match s with [c] => if 65 <=? c then Ok (bmk (Z.of_N c - 65)) else Err ValueError | _ => Err ValueError end.

(* "a" "b" "c" "d" *)
Definition v_abcd : vocab := get (VSimple [] []) (simple_vocab_new [[97]; [98]; [99]; [100]]).
Definition e_abcd : embeddings f32 :=
  Emb (SNd (NdA BoNative 1 [[bmk 1]; [bmk 1]; [bmk 2]; [bmk 1]])) v_abcd None (Some s_meta).
Definition d_abcd : bytes := Eval vm_compute in file_of (em_write Little s_toml e_abcd).
Lemma d_abcd_loads : format_load b_ops Little s_toml b_parse Finalfusion false false d_abcd = Ok e_abcd.
Proof. vm_compute. reflexivity. Qed.

(* the query " a  b c" *)
Definition q_line : str := [32; 97; 32; 32; 98; 32; 99].
Definition q_file : bytes := [x20; x61; x20; x20; x62; x20; x63; x0a].
Lemma q_file_ok : text_file [q_line] q_file.
Proof. split; [reflexivity|]. constructor; [|constructor]. split; simpl; intuition discriminate. Qed.
Lemma q_line_ok : query_line q_line ([97], [98], [99]).
Proof.
  exists [32], [32; 32], [32], []. split; [reflexivity|]. split; [repeat constructor|].
  split; [discriminate|]. split; [discriminate|]. repeat (constructor; [split; [discriminate|repeat constructor]|]). constructor.
Qed.

(* the queries "a", blank, "x", "c " *)
Definition s_file : bytes := [x61; x0a; x20; x0a; x78; x0a; x63; x20; x0a].
Lemma s_file_ok : word_file [[97]; []; [120]; [99]] s_file.
Proof.
  exists [[97]; [32]; [120]; [99; 32]]. split.
  - split; [reflexivity|]. repeat (constructor; [split; simpl; intuition discriminate|]). constructor.
  - constructor; [exists [], []; repeat split; constructor|].
    constructor; [exists [32], []; repeat split; repeat constructor|].
    constructor; [exists [], []; repeat split; constructor|].
    constructor; [exists [], [32]; repeat split; repeat constructor|]. constructor.
Qed.

(* ---------------------------------------------------------------- *)
(* ffp-select                                                        *)

Definition b_set (l : list str) : list str := dedup str_eqb l.
Lemma b_set_ok : lists_sets b_set.
Proof.
  intros l. split; [apply (PyProofs.dedup_NoDup str_eqb PyProofs.str_eqb_eq)|].
  intros x. apply (PyProofs.dedup_In str_eqb PyProofs.str_eqb_eq).
Qed.
(* select.py loads with one library; the source is a word2vec file so that no metadata are read *)
Definition e_w : embeddings f32 :=
  Emb (SNd (NdA BoNative 1 [[bmk 1]; [bmk 1]; [bmk 2]; [bmk 1]])) v_abcd
    (Some (Norms BoNative [bmk 1; bmk 1; bmk 1; bmk 1])) None.
Definition d_w : bytes := Eval vm_compute in
  match write_word2vec b_ops Little bits e_w None with (Some d, _) => d | _ => [] end.
(* a toml library that knows the metadata ffp-select writes for the file "f" *)
Definition w_toml : toml_lib :=
  Toml (fun _ => Ok s_toml_text)
       (fun s => if str_eqb s s_toml_text then Ok (source_info [102] None) else Err OracleError).
Lemma w_toml_roundtrips : toml_roundtrips w_toml (Some (source_info [102] None)).
Proof. intros m s [= <-] [= <-]. reflexivity. Qed.
Lemma d_w_loads : format_load b_ops Little w_toml b_parse Word2vec false false d_w = Ok e_w.
Proof. vm_compute. reflexivity. Qed.
Definition out_sel : bytes := Eval vm_compute in
  match pr_file (select_main b_ops Little w_toml b_parse b_set Word2vec false false true true [102] d_w s_file None) with
  | Some d => d | None => [] end.
Definition e_sel : embeddings f32 := Eval vm_compute in get e_w (run_reader (load_finalfusion Little w_toml false) out_sel).
Lemma select_ok : select_main b_ops Little w_toml b_parse b_set Word2vec false false true true [102] d_w s_file None
  = Process [] [cannot_represent []; cannot_represent [120]] (Some out_sel) (Ok tt).
Proof. vm_compute. reflexivity. Qed.
Lemma select_reload : run_reader (load_finalfusion Little w_toml false) out_sel = Ok e_sel
  /\ em_getitem b_ops e_sel [99] = Ok [bmk 2] /\ em_getitem b_ops e_sel [120] = Ok [bmk 0]
  /\ vocab_words (em_vocab e_sel) = [[97]; []; [120]; [99]].
Proof. vm_compute. auto. Qed.
Lemma select_exit : select_main b_ops Little w_toml b_parse b_set Word2vec false false false false [102] d_w s_file (Some [x00])
  = Process [] [cannot_represent []] (Some [x00]) (Err SystemExit).
Proof. vm_compute. reflexivity. Qed.

(* ---------------------------------------------------------------- *)
(* ffp-convert and ffp-bucket-to-explicit                            *)

(* "a B" and "b D" *)
Definition d_text : bytes := [x61; x20; x42; x0a; x62; x20; x44; x0a].
Definition e_t : embeddings f32 :=
  Emb (SNd (NdA BoNative 1 [[bmk 1]; [bmk 3]])) (get (VSimple [] []) (simple_vocab_new [[97]; [98]]))
    (Some (Norms BoNative [bmk 1; bmk 1])) None.
Lemma d_text_loads : format_load b_ops Little s_toml b_parse Text false false d_text = Ok e_t.
Proof. vm_compute. reflexivity. Qed.
Definition converted_to (f : format) : bytes :=
  match convert_main b_ops Little s_toml b_show b_parse Text f false false d_text None with
  | (Some d, _) => d | _ => [] end.
Lemma convert_ok f : f <> Fasttext -> forall old,
  convert_main b_ops Little s_toml b_show b_parse Text f false false d_text old = (Some (converted_to f), Ok tt).
Proof. intros H old. destruct f; try easy; vm_compute; reflexivity. Qed.
Lemma convert_text_same : converted_to Text = d_text.
Proof. vm_compute. reflexivity. Qed.
Lemma rows_t : written_rows b_ops e_t [[bmk 1]; [bmk 3]].
Proof.
  split; [reflexivity|]. intros [|[|k]] row; simpl; [intros [= <-]..|destruct k; discriminate];
    eexists; (split; [reflexivity|]); eexists; split; reflexivity.
Qed.
Lemma rows_t_exact : text_exact b_show b_parse [[bmk 1]; [bmk 3]].
Proof.
  repeat constructor; try discriminate; unfold encodable; eexists; vm_compute; reflexivity.
Qed.
Definition out_ft : bytes := Eval vm_compute in
  match convert_main b_ops Little s_toml b_show b_parse Finalfusion Fasttext false false d_fasttext None with
  | (Some d, _) => d | _ => [] end.
Lemma convert_ft_ok : convert_main b_ops Little s_toml b_show b_parse Finalfusion Fasttext false false d_fasttext None
  = (Some out_ft, Ok tt).
Proof. vm_compute. reflexivity. Qed.
Definition out_ex : bytes := Eval vm_compute in
  match bucket_to_explicit_main b_ops Little s_toml b_parse Finalfusion false false d_bucket None with
  | (Some d, _) => d | _ => [] end.
Lemma explicit_ok :
  bucket_to_explicit_main b_ops Little s_toml b_parse Finalfusion false false d_bucket None = (Some out_ex, Ok tt).
Proof. vm_compute. reflexivity. Qed.
