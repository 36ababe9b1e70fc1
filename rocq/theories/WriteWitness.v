(* Embeddings that can, and that cannot be written. *)
From Coq Require Import Lia.
From Verif Require Import Py PyProofs SpecUtf8 Utf8 Utf8Proofs Utf8More IO Arr Subword Vocab Storage Chunks
  Embeddings PyText Compat Spec SpecFinalfusion SpecWrite Samples WriteFail.
Local Open Scope N_scope.
Local Open Scope list_scope.

Definition meta_body : bytes := match utf8_encode s_toml_text with Ok b => b | Err _ => [] end.
Lemma meta_simple : meta_bytes s_toml (Some s_meta) (chunk_bytes CMetadata meta_body).
Proof.
  exists s_toml_text, meta_body. split; [reflexivity|]. split; [apply encode_iff; reflexivity|].
  split; [reflexivity|reflexivity].
Qed.
Lemma strings_fit l bs : mapM utf8_encode l = Ok bs -> Forall (fun b => lenN b < 2 ^ 32) bs ->
  strings_size l (4 * lenN l + lenN (concat bs)).
Proof.
  intros M L. exists bs. split; [|reflexivity]. revert bs M L.
  induction l as [|s l IH]; intros bs M L; cbn [mapM] in M; [injection M as <-; constructor|].
  apply bind_ok in M as (b & E & M). apply bind_ok in M as (bs' & M & X). injection X as <-.
  inversion L; subst. constructor; [|now apply IH]. split; [now apply encode_iff|assumption].
Qed.
Lemma explicit_fits : vocab_fits v_explicit /\ storage_fits (em_storage e_explicit)
  /\ meta_bytes s_toml (em_metadata e_explicit) (chunk_bytes CMetadata meta_body).
Proof.
  split; [|split; [split; [reflexivity|split; reflexivity]|exact meta_simple]]. split.
  - eexists. split; [eapply strings_fit; [vm_compute; reflexivity|repeat (constructor; [vm_compute; reflexivity|]); constructor]|vm_compute; reflexivity].
  - assert (H : forallb (fun gi => (0 <=? snd gi) && (snd gi <? 2 ^ 64))%Z
        (match v_explicit with VExplicit _ _ ix => ex_index ix | _ => [] end) = true) by (vm_compute; reflexivity).
    destruct v_explicit; try exact I. apply Forall_forall. intros gi G.
    apply (proj1 (forallb_forall _ _) H) in G. apply andb_prop in G as [A B].
    apply Z.leb_le in A. apply Z.ltb_lt in B. now split.
Qed.
Lemma bucket_fits : vocab_fits v_bucket /\ storage_fits (em_storage e_bucket).
Proof.
  split; [|cbn; repeat split]. split; [|exact I].
  eexists. split; [eapply strings_fit; [vm_compute; reflexivity|repeat (constructor; [vm_compute; reflexivity|]); constructor]|vm_compute; reflexivity].
Qed.

(* a lone surrogate *)
Definition e_lone : embeddings f32 :=
  Emb (SNd (NdA BoNative 1 [[F32 x00 x00 x80 x3f]])) (VSimple [[55296]] [([55296], 0%Z)]) None (Some s_meta).
Lemma lone_built : built_embeddings e_lone.
Proof.
  split; [split; [discriminate|repeat constructor]|].
  split; [eapply BuiltSimple with (ws := [[55296]]); reflexivity|]. split; [discriminate|reflexivity].
Qed.
Lemma lone_not_scalar : ~ Forall scalar [55296].
Proof. intros H. inversion H as [|c l S]. unfold scalar in S. lia. Qed.
Lemma lone_unwritable : unwritable (vocab_strings (em_vocab e_lone)).
Proof. apply Exists_cons_hd, lone_not_scalar. Qed.
Lemma lone_left : em_write_file Little s_toml e_lone (Some [x01]) =
  (Some (file_header [5; 1; 2]%Z ++ chunk_bytes CMetadata meta_body ++ [x01; x00; x00; x00]), Err UnicodeEncodeError)
  /\ forall mm, run_reader (load_finalfusion Little s_toml mm)
       (file_header [5; 1; 2]%Z ++ chunk_bytes CMetadata meta_body ++ [x01; x00; x00; x00]) = Err FormatError.
Proof. split; [vm_compute; reflexivity|]. intros []; vm_compute; reflexivity. Qed.
(* a toml library whose output cannot be encoded *)
Definition t_lone : toml_lib := Toml (fun _ => Ok [55296]) (fun _ => Err OracleError).
Lemma lone_meta : em_write_file Big t_lone e_simple None
  = (Some (file_header [5; 1; 2; 6]%Z), Err UnicodeEncodeError).
Proof.
  apply (toml_fails Big t_lone e_simple s_meta); [reflexivity|]. right. split; [reflexivity|].
  exists [55296]. split; [reflexivity|]. exact lone_not_scalar.
Qed.
(* a matrix with too many columns: only its number is left *)
Definition e_wide : embeddings f32 :=
  Emb (SNd (NdA BoNative (2 ^ 32) [])) (VSimple [] []) None None.
Lemma wide_built : built_embeddings e_wide.
Proof.
  split; [split; [discriminate|constructor]|].
  split; [eapply BuiltSimple with (ws := []); reflexivity|]. split; [discriminate|reflexivity].
Qed.
Lemma wide_error : snd (run_writer (em_write Little s_toml e_wide)) = Err StructError.
Proof. vm_compute. reflexivity. Qed.
