(* Files that raise every one of the listed exceptions. *)
From Verif Require Import Py Utf8 IO Arr Subword Vocab Storage Chunks Embeddings PyText Compat
  Spec SpecFinalfusion SpecErrors.
Local Open Scope N_scope.
Local Open Scope list_scope.

Definition f_head : bytes := MAGIC ++ u32 0 ++ u32 1 ++ u32 1.
Definition f_chunk (i n : N) : bytes := u32 i ++ u64 n.
Definition f_ff (x : exn) : bytes :=
  match x with
  | FormatError => []
  | ValueError => f_head ++ f_chunk 9 0
  | UnicodeDecodeError => f_head ++ f_chunk 1 0 ++ u64 1 ++ u32 1 ++ [xff]
  | AssertionError => f_head ++ f_chunk 1 0 ++ u64 2 ++ u32 0 ++ u32 0
  | ZeroDivisionError =>
      f_head ++ f_chunk 1 8 ++ u64 0 ++ f_chunk 4 0 ++ u32 0 ++ u32 0 ++ u32 0 ++ u32 1 ++ u32 1 ++ u64 0
  | _ => f_head ++ f_chunk 1 8 ++ u64 0 ++ f_chunk 2 0 ++ u64 (2 ^ 62) ++ u32 1 ++ u32 10
  end.
Lemma ff_attained x : In x finalfusion_errors ->
  exists d, forall h t mm, load_mode h mm -> run_reader (load_finalfusion h t mm) d = Err x.
Proof.
  intros I. exists (f_ff x). intros h t mm M.
  assert (X : h = Big -> mm = false) by (intros ->; destruct M; congruence).
  repeat (destruct I as [<-|I]; [destruct h, mm; try (specialize (X eq_refl); discriminate); vm_compute; reflexivity|]).
  destruct I.
Qed.

Definition f_vocab (x : exn) : bytes :=
  match x with
  | OverflowError => f_head ++ f_chunk 2 (2 ^ 63)
  | _ => f_ff x
  end.
Lemma vocab_attained x : In x vocab_errors -> exists d, run_reader load_vocab d = Err x.
Proof.
  intros I. exists (f_vocab x). repeat (destruct I as [<-|I]; [vm_compute; reflexivity|]). destruct I.
Qed.
Definition f_storage (x : exn) : bytes :=
  match x with
  | AssertionError =>
      f_head ++ f_chunk 4 0 ++ u32 0 ++ u32 0 ++ u32 2 ++ u32 1 ++ u32 1 ++ u64 0
  | _ => f_ff x
  end.
Lemma storage_attained x : In x storage_errors ->
  exists d, forall h mm, load_mode h mm -> run_reader (load_storage h mm) d = Err x.
Proof.
  intros I. exists (f_storage x). intros h mm M.
  assert (X : h = Big -> mm = false) by (intros ->; destruct M; congruence).
  repeat (destruct I as [<-|I]; [destruct h, mm; try (specialize (X eq_refl); discriminate); vm_compute; reflexivity|]).
  destruct I.
Qed.
Lemma mmap_attained : run_reader (load_storage Big true) (f_head ++ f_chunk 2 0) = Err NotImplementedError.
Proof. vm_compute. reflexivity. Qed.
Lemma norms_attained x : In x norms_errors -> exists d, forall h, run_reader (load_norms h) d = Err x.
Proof.
  intros I. exists (f_vocab x). intros h. repeat (destruct I as [<-|I]; [vm_compute; reflexivity|]). destruct I.
Qed.
Definition f_meta (x : exn) : bytes :=
  match x with
  | UnicodeDecodeError => f_head ++ f_chunk 5 1 ++ [xff]
  | _ => f_vocab x
  end.
Lemma metadata_attained x : In x metadata_errors -> exists d, forall t, run_reader (load_metadata t) d = Err x.
Proof.
  intros I. exists (f_meta x). intros t. repeat (destruct I as [<-|I]; [vm_compute; reflexivity|]). destruct I.
Qed.

Definition f_w2v (x : exn) : bytes :=
  match x with
  | EOFError => [x31; x20; x31; x0a; x61]                                  (* 1 1\na *)
  | ValueError => []
  | UnicodeDecodeError => [xff]
  | _ => [x32; x20; x30; x0a; x61; x20; x0a; x61; x20; x0a]                (* 2 0\na \na \n *)
  end.
Lemma word2vec_attained x : In x word2vec_errors -> exists d, forall F (o : fops F) h c lossy,
  run_reader (load_word2vec o h c lossy) d = Err x.
Proof.
  intros I. exists (f_w2v x). intros F o h c lossy.
  repeat (destruct I as [<-|I]; [destruct h, lossy; vm_compute; reflexivity|]). destruct I.
Qed.
Definition f_text (x : exn) : bytes :=
  match x with
  | ValueError => []
  | UnicodeDecodeError => [xff]
  | _ => [x61; x0a; x61; x0a]
  end.
Lemma text_attained x : In x text_errors -> exists d, forall F (o : fops F) parse, load_text o parse false d = Err x.
Proof.
  intros I. exists (f_text x). intros F o parse.
  repeat (destruct I as [<-|I]; [vm_compute; reflexivity|]). destruct I.
Qed.
Definition f_dims (x : exn) : bytes :=
  match x with
  | StopIteration => []
  | ValueError => [x0a]
  | UnicodeDecodeError => [xff]
  | _ => [x32; x20; x30; x0a; x61; x0a; x61; x0a]
  end.
Lemma text_dims_attained x : In x (StopIteration :: text_errors) ->
  exists d, forall F (o : fops F) parse, load_text_dims o parse false d = Err x.
Proof.
  intros I. exists (f_dims x). intros F o parse.
  repeat (destruct I as [<-|I]; [vm_compute; reflexivity|]). destruct I.
Qed.

Definition i32 (z : Z) : bytes := le_bytes 4 (Z.to_N (z mod 2 ^ 32)).
Definition i64 (z : Z) : bytes := le_bytes 8 (Z.to_N (z mod 2 ^ 64)).
Definition f_ft_head (loss : Z) : bytes :=
  i32 FT_MAGIC ++ i32 12 ++ concat (map i32 [1; 0; 0; 0; 0; 1; loss; 1; 2; 3; 6; 0]%Z) ++ i64 0.
Definition f_ft_vocab (n labels : Z) : bytes :=
  f_ft_head 1 ++ i32 n ++ i32 n ++ i32 labels ++ i64 0 ++ i64 (-1).
Definition f_word (b : byte) : bytes := [b; x00] ++ i64 0 ++ [x00].
Definition f_ft (x : exn) : bytes :=
  match x with
  | FormatError => []
  | ValueError => i32 0 ++ i32 12
  | UnicodeDecodeError => f_ft_vocab 1 0 ++ f_word xff
  | AssertionError => f_ft_vocab 2 0 ++ f_word x61 ++ f_word x61
  | OverflowError => f_ft_vocab 0 0 ++ [x00] ++ i64 (2 ^ 32) ++ i64 (2 ^ 32)
  | EOFError => f_ft_vocab 1 0
  | IndexError => f_ft_head 4
  | _ => f_ft_vocab 0 1
  end.
Lemma fasttext_attained x : In x fasttext_errors -> exists d, forall F (o : fops F) h c,
  run_reader (load_fasttext o h c false) d = Err x.
Proof.
  intros I. exists (f_ft x). intros F o h c.
  repeat (destruct I as [<-|I]; [destruct h; vm_compute; reflexivity|]). destruct I.
Qed.

Lemma toml_attained x : exists t, run_reader (load_metadata t) (f_head ++ f_chunk 5 0) = Err x /\ toml_error t x.
Proof. exists (Toml (fun _ => Err x) (fun _ => Err x)). split; [reflexivity|]. now exists []. Qed.
