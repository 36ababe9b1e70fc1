(* The exceptions that the loaders may raise: closed lists. *)
From Verif Require Import Py IO Chunks.

(* malformed, truncated or inconsistent files *)
Definition vocab_errors : list exn :=
  [FormatError; ValueError; UnicodeDecodeError; AssertionError; OverflowError].
Definition storage_errors : list exn :=
  [FormatError; ValueError; AssertionError; ZeroDivisionError; OverflowError].
Definition norms_errors : list exn := [FormatError; ValueError; OverflowError].
Definition metadata_errors : list exn := [FormatError; ValueError; UnicodeDecodeError; OverflowError].
Definition finalfusion_errors : list exn :=
  [FormatError; ValueError; UnicodeDecodeError; AssertionError; ZeroDivisionError; OverflowError].
Definition word2vec_errors : list exn := [EOFError; ValueError; UnicodeDecodeError; AssertionError].
Definition text_errors : list exn := [ValueError; UnicodeDecodeError; AssertionError].
Definition fasttext_errors : list exn :=
  [FormatError; ValueError; UnicodeDecodeError; AssertionError; OverflowError; EOFError; IndexError;
   NotImplementedError].

(* what the toml library raises *)
Definition toml_error (t : toml_lib) (x : exn) : Prop := exists s, toml_loads t s = Err x.
(* memory mapping is not implemented on big endian hosts *)
Definition mmap_error (h : endian) (mm : bool) (x : exn) : Prop :=
  h = Big /\ mm = true /\ x = NotImplementedError.
