(* Facts about the serialization of storages and norms. *)
From Coq Require Import Lia.
From Verif Require Import Py PyProofs Utf8 Utf8Proofs IO IOProofs Arr Vocab Storage Chunks Embeddings Spec.

Lemma f32s_roundtrip l : map f32_of_le (f32s_le l) = l.
Proof.
  unfold f32s_le. rewrite map_map. erewrite map_ext; [apply map_id|]. apply f32_of_le_le.
Qed.
Lemma f32s_elems l : Forall (fun e => length e = 4%nat) (f32s_le l).
Proof. induction l; constructor; auto. Qed.
Lemma f32s_len l : lenN (concat (f32s_le l)) = 4 * lenN l.
Proof.
  unfold lenN. rewrite (concat_length_const 4); [|apply f32s_elems].
  unfold f32s_le. rewrite map_length. lia.
Qed.
Lemma read_f32s_at host l n d p :
  n = lenN l -> at_pos d p (concat (f32s_le l)) -> lenN d < ssize_limit ->
  read_array_as_native host 4 n d p = Ok (f32s_le l, p + 4 * lenN l).
Proof.
  intros -> A L. replace (lenN l) with (lenN (f32s_le l)) at 1 by (apply lenN_map).
  rewrite (read_array_as_native_at host 4 (f32s_le l)); auto; try lia.
  - now rewrite f32s_len.
  - apply f32s_elems.
Qed.

Lemma rows_concat_len {A} cols (rows : list (list A)) :
  rows_wf cols rows -> lenN (concat rows) = lenN rows * cols.
Proof.
  intros H. induction H as [|r rows Hr H IH]; [easy|].
  simpl. rewrite lenN_app, lenN_cons, IH, Hr. lia.
Qed.

Lemma pad_mod p k : k mod 4 = 0 -> pad_float32 (p + k) = pad_float32 p.
Proof.
  intros H. unfold pad_float32. rewrite <- N.add_mod_idemp_r, H, N.add_0_r by lia. easy.
Qed.
Lemma pad_bounds p : 1 <= pad_float32 p <= 4.
Proof. unfold pad_float32. pose proof (N.mod_lt p 4 ltac:(easy)) as H. revert H. generalize (p mod 4). intros; lia. Qed.

Lemma seek_fwd_ok n d p : p + n < ssize_limit -> seek_fwd n d p = Ok (tt, p + n).
Proof.
  intros H. unfold seek_fwd.
  destruct (N.leb_spec ssize_limit n); [lia|].
  destruct (N.leb_spec ssize_limit (p + n)); [lia|]. easy.
Qed.

Lemma pack_app_ok f g vs ws a b :
  length vs = length (valued f) ->
  pack f vs = Ok a -> pack g ws = Ok b -> pack (f ++ g) (vs ++ ws) = Ok (a ++ b).
Proof. intros L H1 H2. now rewrite pack_app, H1, H2. Qed.

(* ---------------------------------------------------------------- *)
(* NdArray                                                           *)

(* layout of a written NdArray chunk *)
Lemma ndarray_layout h a p out :
  ndarray_wf a ->
  ndarray_write_chunk h a p = (out, Ok tt) ->
  exists hd,
    pack [fU32; fU64; fU64; fU32; fU32]
      [chunk_id_val CNdArray; Z.of_N (lenN out - 12); Z.of_N (lenN (nd_rows a));
       Z.of_N (nd_cols a); type_id_val TF32] = Ok hd
    /\ lenN hd = 28
    /\ out = hd ++ repeat x00 (N.to_nat (pad_float32 p))
             ++ concat (f32s_le (concat (nd_rows a))).
Proof.
  intros [Hbo Hr] H. unfold ndarray_write_chunk in H.
  apply wseq_ok in H as (b1 & b2 & H1 & H & ->). apply write_binary_ok in H1.
  assert (L1 : lenN b1 = 4) by (now apply pack_lenN in H1).
  unfold wtell in H. apply wseq_ok in H as (b3 & b4 & H3 & H & ->). apply write_binary_ok in H3.
  assert (L3 : lenN b3 = 24) by (now apply pack_lenN in H3).
  apply wseq_ok in H as (b5 & b6 & H5 & H & ->). apply write_binary_ok in H5.
  rewrite pack_pads in H5. injection H5 as <-.
  rewrite serialize_array_as_le_bytes in H by (left; exact Hbo). injection H as <-.
  rewrite L1, (pad_mod p 4) in * by easy.
  exists (b1 ++ b3). split; [|split].
  - apply (pack_app_ok [fU32] [fU64; fU64; fU32; fU32] [chunk_id_val CNdArray]); auto.
    rewrite <- H3. unfold lenN at 2. rewrite nat_N_Z. do 2 f_equal.
    rewrite !lenN_app, f32s_len, (rows_concat_len _ _ Hr), lenN_repeat, L1, L3, N2Nat.id.
    pose proof (pad_bounds p). lia.
  - rewrite lenN_app. lia.
  - now rewrite <- app_assoc.
Qed.

Lemma fields_head d p f g vs ws :
  length vs = length (valued f) ->
  fields_at d p (f ++ g) (vs ++ ws) -> fields_at d p f vs.
Proof. intros L H. now apply (fields_at_app d p f g vs ws L) in H. Qed.

Lemma at_pos_fields d p fmt vs bs :
  pack fmt vs = Ok bs -> at_pos d p bs -> fields_at d p fmt vs.
Proof. intros H A. now exists bs. Qed.

Lemma rows_wf_len {A} cols (rows : list (list A)) :
  rows_wf cols rows -> Forall (fun r => lenN r = cols) rows.
Proof. easy. Qed.

Lemma array_header_at d p rows cols :
  lenN d < ssize_limit -> p + 16 + pad_float32 p <= lenN d ->
  fields_at d p [fU64; fU32; fU32] [Z.of_N rows; Z.of_N cols; type_id_val TF32] ->
  read_array_header d p = Ok ((rows, cols), p + 16 + pad_float32 p).
Proof.
  intros L B H.
  assert (E : pad_float32 (p + 16) = pad_float32 p) by (now apply pad_mod).
  apply (fields_at_app d p [fU64; fU32] [fU32] [_; _] [_]) in H as [H1 H2]; [|easy].
  unfold read_array_header.
  rstep (read_u64_u32 _ _ _ _ H1). rstep (read_u32 _ _ _ H2).
  change (N.of_nat (calcsize [fU64; fU32])) with 12.
  replace (p + 12 + 4) with (p + 16) by lia.
  erewrite rbind_step by reflexivity. cbn beta iota. cbn [type_id_of type_id_val].
  unfold tell at 1. erewrite rbind_step by reflexivity. rewrite E.
  erewrite rbind_step by (apply seek_fwd_ok; lia). unfold rret. now rewrite !N2Z.id.
Qed.

Lemma memmap_at itemsz l d p :
  (0 < itemsz)%nat -> Forall (fun e => length e = itemsz) l ->
  at_pos d p (concat l) -> memmap itemsz p (lenN l) d = Ok l.
Proof.
  intros Hk Hl A. unfold memmap.
  assert (E : lenN l * N.of_nat itemsz = lenN (concat l)).
  { unfold lenN. now rewrite (concat_length_const _ _ Hl), Nat2N.inj_mul. }
  rewrite E. pose proof (at_pos_bound _ _ _ A).
  destruct (N.leb_spec (p + lenN (concat l)) (lenN d)); [|lia].
  apply at_pos_drop in A as [post ->]. rewrite takeN_app_l, to_nat_lenN.
  rewrite <- (app_nil_r (concat l)). now rewrite split_elems_concat.
Qed.

Lemma lenN_concat_f32s a :
  ndarray_wf a -> lenN (concat (f32s_le (concat (nd_rows a)))) = 4 * (lenN (nd_rows a) * nd_cols a).
Proof. intros [_ H]. now rewrite f32s_len, (rows_concat_len _ _ H). Qed.

Lemma ndarray_roundtrip h1 a p out d :
  ndarray_wf a ->
  ndarray_write_chunk h1 a p = (out, Ok tt) ->
  at_pos d p out -> lenN d < ssize_limit ->
  12 <= lenN out
  /\ fields_at d p [fU32; fU64] [chunk_id_val CNdArray; Z.of_N (lenN out - 12)]
  /\ (forall h2, ndarray_read_chunk h2 d (p + 12)
        = Ok (NdA BoNative (nd_cols a) (nd_rows a), p + lenN out))
  /\ ndarray_mmap_chunk Little d (p + 12)
        = Ok (NdA BoNative (nd_cols a) (nd_rows a), p + lenN out).
Proof.
  intros W H A L. pose proof (lenN_concat_f32s a W) as LD.
  apply ndarray_layout in H as (hd & Hp & Lh & ->); [|easy].
  set (data := concat (f32s_le (concat (nd_rows a)))) in *.
  set (pad := repeat x00 (N.to_nat (pad_float32 p))) in *.
  assert (LP : lenN pad = pad_float32 p) by (unfold pad; rewrite lenN_repeat; lia).
  set (out := hd ++ pad ++ data) in *.
  assert (LO : lenN out = 28 + pad_float32 p + lenN data)
    by (unfold out; rewrite !lenN_app; lia).
  pose proof (at_pos_bound _ _ _ A) as B.
  apply at_pos_app in A as [A1 A]. apply at_pos_app in A as [A2 A3].
  pose proof (at_pos_fields _ _ _ _ _ Hp A1) as F.
  apply (fields_at_app d p [fU32; fU64] [fU64; fU32; fU32] [_; _] [_; _; _]) in F
    as [F1 F2]; [|easy].
  change (N.of_nat (calcsize [fU32; fU64])) with 12 in F2.
  split; [lia|]. split; [easy|].
  assert (PM : pad_float32 (p + 12) = pad_float32 p) by (now apply pad_mod).
  assert (HH : read_array_header d (p + 12)
               = Ok ((lenN (nd_rows a), nd_cols a), p + 12 + 16 + pad_float32 p)).
  { rewrite <- PM. apply array_header_at; [easy| |easy]. rewrite PM. lia. }
  rewrite Lh, LP in A3.
  replace (p + 28 + pad_float32 p) with (p + 12 + 16 + pad_float32 p) in A3 by lia.
  assert (EN : lenN (nd_rows a) * nd_cols a = lenN (concat (nd_rows a)))
    by (destruct W as [_ W]; now rewrite (rows_concat_len _ _ W)).
  split.
  - intros h2. unfold ndarray_read_chunk. rstep HH. rewrite EN.
    rstep (read_f32s_at h2 (concat (nd_rows a)) _ d _ eq_refl A3 L).
    rewrite f32s_roundtrip, reshape2_concat by apply W.
    unfold rret, rlift, rbind. do 2 f_equal. lia.
  - unfold ndarray_mmap_chunk. rstep HH.
    unfold tell at 1. erewrite rbind_step by reflexivity. cbn beta.
    erewrite rbind_step by (apply seek_fwd_ok; lia). 
    unfold rlift.
    replace (lenN (nd_rows a) * nd_cols a) with (lenN (f32s_le (concat (nd_rows a))))
      by (unfold f32s_le; rewrite lenN_map; lia).
    rewrite memmap_at; [|lia|apply f32s_elems|easy].
    cbn [bind]. rewrite f32s_roundtrip, to_nat_lenN, split_rows_concat.
    + do 2 f_equal. unfold f32s_le. rewrite lenN_map. lia.
    + destruct W as [_ W]. eapply Forall_impl; [|exact W]. intros r Hr. unfold lenN in Hr. simpl in Hr. lia.
Qed.

(* ---------------------------------------------------------------- *)
(* Norms                                                             *)

Lemma pack_app_pads fmt vs n bs :
  pack fmt vs = Ok bs -> pack (fmt ++ repeat fPad n) vs = Ok (bs ++ repeat x00 n).
Proof.
  intros H. rewrite <- (app_nil_r vs). apply pack_app_ok; auto using pack_pads.
  now apply pack_args_length in H.
Qed.

Lemma pack_app_pads_inv fmt vs n bs :
  length vs = length (valued fmt) ->
  pack (fmt ++ repeat fPad n) vs = Ok bs ->
  exists b, pack fmt vs = Ok b /\ bs = b ++ repeat x00 n.
Proof.
  intros L H. rewrite <- (app_nil_r vs) in H. rewrite pack_app in H by easy.
  apply bind_ok in H as (b & Hb & H). rewrite pack_pads in H. injection H as <-. eauto.
Qed.

Lemma norms_layout h bo elems p out :
  (bo <> BoNA \/ h = Little) ->
  norms_write_elems h bo elems p = (out, Ok tt) ->
  exists hd,
    pack [fU32; fU64; fU64; fU32]
      [chunk_id_val CNdNorms; Z.of_N (12 + pad_float32 p + lenN elems * 4);
       Z.of_N (lenN elems); type_id_val TF32] = Ok hd
    /\ lenN hd = 24
    /\ out = hd ++ repeat x00 (N.to_nat (pad_float32 p)) ++ concat elems.
Proof.
  intros Hbo H. unfold norms_write_elems in H.
  apply wseq_ok in H as (b1 & b2 & H1 & H & ->). apply write_binary_ok in H1.
  assert (L1 : lenN b1 = 4) by (now apply pack_lenN in H1).
  unfold wtell in H. apply wseq_ok in H as (b3 & b4 & H3 & H & ->). apply write_binary_ok in H3.
  rewrite serialize_array_as_le_bytes in H by easy. injection H as <-.
  rewrite L1, (pad_mod p 4) in * by easy.
  apply pack_app_pads_inv in H3 as (b & Hb & ->); [|easy].
  assert (L3 : lenN b = 20) by (now apply pack_lenN in Hb).
  exists (b1 ++ b). split; [|split].
  - now apply (pack_app_ok [fU32] [fU64; fU64; fU32] [chunk_id_val CNdNorms]).
  - rewrite lenN_app. lia.
  - now rewrite <- !app_assoc.
Qed.

Lemma norms_roundtrip h1 n p out d :
  norms_wf n ->
  norms_write_chunk h1 n p = (out, Ok tt) ->
  at_pos d p out -> lenN d < ssize_limit ->
  12 <= lenN out
  /\ fields_at d p [fU32; fU64] [chunk_id_val CNdNorms; Z.of_N (lenN out - 12)]
  /\ (forall h2, norms_read_chunk h2 d (p + 12) = Ok (native_norms n, p + lenN out)).
Proof.
  intros W H A L. unfold norms_write_chunk in H.
  apply norms_layout in H as (hd & Hp & Lh & ->); [|now left].
  pose proof (f32s_len (nm_vals n)) as LD.
  assert (LE : lenN (f32s_le (nm_vals n)) = lenN (nm_vals n)) by apply lenN_map.
  rewrite LE in Hp.
  set (data := concat (f32s_le (nm_vals n))) in *.
  set (pad := repeat x00 (N.to_nat (pad_float32 p))) in *.
  assert (LP : lenN pad = pad_float32 p) by (unfold pad; rewrite lenN_repeat; lia).
  set (out := hd ++ pad ++ data) in *.
  assert (LO : lenN out = 24 + pad_float32 p + lenN data)
    by (unfold out; rewrite !lenN_app; lia).
  pose proof (at_pos_bound _ _ _ A) as B.
  apply at_pos_app in A as [A1 A]. apply at_pos_app in A as [A2 A3].
  pose proof (at_pos_fields _ _ _ _ _ Hp A1) as F.
  apply (fields_at_app d p [fU32; fU64] [fU64; fU32] [_; _] [_; _]) in F
    as [F1 F2]; [|easy].
  change (N.of_nat (calcsize [fU32; fU64])) with 12 in F2.
  split; [lia|]. split.
  { replace (lenN out - 12) with (12 + pad_float32 p + lenN (nm_vals n) * 4) by lia. easy. }
  intros h2. unfold norms_read_chunk.
  rstep (read_u64_u32 _ _ _ _ F2).
  erewrite rbind_step by reflexivity. cbn beta iota. cbn [type_id_of type_id_val].
  unfold tell at 1. erewrite rbind_step by reflexivity.
  replace (p + 12 + 12) with (p + 24) by lia.
  assert (PM : pad_float32 (p + 24) = pad_float32 p) by (now apply pad_mod).
  rewrite PM.
  erewrite rbind_step by (apply seek_fwd_ok; lia).
  rewrite N2Z.id. rewrite Lh, LP in A3.
  rstep (read_f32s_at h2 (nm_vals n) _ d _ eq_refl A3 L).
  rewrite f32s_roundtrip. unfold rret, native_norms. do 2 f_equal. lia.
Qed.

(* ---------------------------------------------------------------- *)
(* Metadata                                                          *)

Lemma utf8_decode_encode' s b : utf8_encode s = Ok b -> utf8_decode b = Ok s.
Proof. apply utf8_decode_encode. Qed.

Lemma metadata_roundtrip t m p out d :
  toml_roundtrips t (Some m) ->
  metadata_write_chunk t m p = (out, Ok tt) ->
  at_pos d p out -> lenN d < ssize_limit ->
  12 <= lenN out
  /\ fields_at d p [fU32; fU64] [chunk_id_val CMetadata; Z.of_N (lenN out - 12)]
  /\ metadata_read_chunk t d (p + 12) = Ok (m, p + lenN out).
Proof.
  intros T H A L. unfold metadata_write_chunk in H.
  apply wlet_ok in H as (b & Hb & H). apply bind_ok in Hb as (s & Hs & Hb).
  apply wseq_ok in H as (b1 & b2 & H1 & H & ->). apply write_binary_ok in H1.
  apply wbytes_ok in H. subst b2.
  assert (L1 : lenN b1 = 12) by (now apply pack_lenN in H1).
  apply at_pos_app in A as [A1 A2].
  pose proof (at_pos_bound _ _ _ A2) as B.
  pose proof (at_pos_fields _ _ _ _ _ H1 A1) as F.
  rewrite lenN_app, L1. split; [lia|]. split.
  { replace (12 + lenN b - 12) with (lenN b) by lia. unfold lenN. now rewrite nat_N_Z. }
  unfold metadata_read_chunk.
  assert (SB : seek_back 12 d (p + 12) = Ok (tt, p)).
  { unfold seek_back. destruct (N.leb_spec 12 (p + 12)); [|lia]. do 2 f_equal. lia. }
  rstep SB. rstep (read_u32_u64 _ _ _ _ F).
  erewrite rbind_step by reflexivity. erewrite rbind_step by reflexivity. cbn beta.
  replace (Z.to_N (Z.of_nat (length b))) with (lenN b) by (unfold lenN; lia).
  rewrite L1 in A2. rstep (read_at _ _ _ A2 ltac:(lia)).
  rewrite N.eqb_refl. cbn [negb]. cbn iota. unfold rlift.
  rewrite (utf8_decode_encode _ _ Hb). cbn [bind]. rewrite (T m s eq_refl Hs).
  do 2 f_equal. lia.
Qed.

(* ---------------------------------------------------------------- *)
(* QuantizedArray                                                    *)

Lemma concat_concat {A} (l : list (list (list A))) :
  concat (concat l) = concat (map (@concat A) l).
Proof. induction l as [|x l IH]; simpl; [easy|]. now rewrite concat_app, IH. Qed.

Definition proj_bytes (q : pq f32) : bytes :=
  match pq_projection q with
  | Some (_, rows) => concat (f32s_le (concat rows))
  | None => []
  end.
Definition norm_bytes (q : qarray f32) : bytes :=
  match qa_norms q with
  | Some (_, ns) => concat (f32s_le ns)
  | None => []
  end.
Definition quant_bytes (q : pq f32) : bytes :=
  concat (f32s_le (concat (concat (pq_quantizers q)))).

Lemma quantizers_rows (q : pq f32) :
  pq_wf q -> rows_wf (pq_n_centroids q * pq_sub_len q) (map (@concat f32) (pq_quantizers q)).
Proof.
  intros (_ & H & _). unfold rows_wf. apply Forall_map. eapply Forall_impl; [|exact H].
  intros m [Hm Hr]. cbn beta. rewrite (rows_concat_len _ _ Hr), Hm. easy.
Qed.
Lemma quant_bytes_len q : pq_wf q ->
  lenN (quant_bytes q) = lenN (pq_quantizers q) * pq_n_centroids q * pq_sub_len q * 4.
Proof.
  intros W. unfold quant_bytes. rewrite f32s_len, concat_concat.
  rewrite (rows_concat_len _ _ (quantizers_rows q W)), lenN_map. lia.
Qed.
Lemma proj_bytes_len q : pq_wf q ->
  lenN (proj_bytes q) = match pq_projection q with
                        | Some _ => pq_reconstructed_len q ^ 2 * 4
                        | None => 0
                        end.
Proof.
  intros (_ & _ & H). unfold proj_bytes. destruct (pq_projection q) as [[bo rows]|]; [|easy].
  destruct H as (_ & Hl & Hr). rewrite f32s_len, (rows_concat_len _ _ Hr), Hl.
  unfold pq_reconstructed_len. rewrite N.pow_2_r. lia.
Qed.
Lemma norm_bytes_len q :
  lenN (norm_bytes q) = match qa_norms q with Some (_, ns) => lenN ns * 4 | None => 0 end.
Proof.
  unfold norm_bytes. destruct (qa_norms q) as [[bo ns]|]; [|easy]. rewrite f32s_len. lia.
Qed.

Definition flag {A} (o : option A) : Z := match o with Some _ => 1 | None => 0 end.

Lemma qarray_layout h q p out :
  qarray_wf q ->
  qarray_write_chunk h q p = (out, Ok tt) ->
  exists hd,
    pack [fU32; fU64; fU32; fU32; fU32; fU32; fU32; fU64; fU32; fU32]
      [chunk_id_val CQuantizedArray; Z.of_N (lenN out - 12);
       flag (pq_projection (qa_pq q)); flag (qa_norms q); Z.of_N (qa_len q);
       Z.of_N (pq_reconstructed_len (qa_pq q)); Z.of_N (pq_n_centroids (qa_pq q));
       Z.of_N (lenN (qa_codes q)); type_id_val TU8; type_id_val TF32] = Ok hd
    /\ lenN hd = 48
    /\ out = hd ++ repeat x00 (N.to_nat (pad_float32 p))
             ++ proj_bytes (qa_pq q) ++ quant_bytes (qa_pq q) ++ norm_bytes q
             ++ concat (qa_codes q).
Proof.
  intros W H. destruct W as (Wp & Wl & Wnz & Wc & Wn).
  pose proof (proj_bytes_len _ Wp) as EP. pose proof (quant_bytes_len _ Wp) as EQ.
  pose proof (norm_bytes_len q) as EN. pose proof (rows_concat_len _ _ Wc) as EC.
  unfold qarray_write_chunk in H.
  apply wseq_ok in H as (b1 & b2 & H1 & H & ->). apply write_binary_ok in H1.
  assert (L1 : lenN b1 = 4) by (now apply pack_lenN in H1).
  unfold wtell in H. apply wseq_ok in H as (b3 & b4 & H3 & H & ->). apply write_binary_ok in H3.
  assert (L3 : lenN b3 = 44) by (now apply pack_lenN in H3).
  apply wseq_ok in H as (b5 & b6 & H5 & H & ->). apply write_binary_ok in H5.
  rewrite pack_pads in H5. injection H5 as <-.
  apply wseq_ok in H as (b7 & b8 & H7 & H & ->).
  apply wseq_ok in H as (b9 & b10 & H9 & H & ->).
  apply wseq_ok in H as (b11 & b12 & H11 & H & ->).
  apply wbytes_ok in H. subst b12.
  assert (E7 : b7 = proj_bytes (qa_pq q)).
  { unfold proj_bytes. destruct Wp as (_ & _ & Wpr).
    destruct (pq_projection (qa_pq q)) as [[bo rows]|].
    - rewrite serialize_array_as_le_bytes in H7 by (left; apply Wpr). now injection H7 as <-.
    - now apply wret_ok in H7. }
  assert (E9 : b9 = quant_bytes (qa_pq q)).
  { rewrite serialize_array_as_le_bytes in H9 by (left; apply Wp). now injection H9 as <-. }
  assert (E11 : b11 = norm_bytes q).
  { unfold norm_bytes. destruct (qa_norms q) as [[bo ns]|].
    - rewrite serialize_array_as_le_bytes in H11 by (left; apply Wn). now injection H11 as <-.
    - now apply wret_ok in H11. }
  subst b7 b9 b11. clear H7 H9 H11.
  rewrite L1, (pad_mod p 4) in * by easy.
  exists (b1 ++ b3). split; [|split].
  - apply (pack_app_ok [fU32] [fU64; fU32; fU32; fU32; fU32; fU32; fU64; fU32; fU32]
             [chunk_id_val CQuantizedArray]); auto.
    rewrite <- H3.
    replace (Z.of_N (lenN (qa_codes q))) with (Z.of_nat (length (qa_codes q)))
      by (unfold lenN; now rewrite nat_N_Z).
    assert (X : lenN
       (b1 ++ b3 ++ repeat x00 (N.to_nat (pad_float32 p)) ++ proj_bytes (qa_pq q)
        ++ quant_bytes (qa_pq q) ++ norm_bytes q ++ concat (qa_codes q)) - 12
       = (let chunk_len := 36 + pad_float32 p in
    let chunk_len := match pq_projection (qa_pq q) with
                     | Some _ => chunk_len + pq_reconstructed_len (qa_pq q) ^ 2 * 4
                     | None => chunk_len
                     end in
    let chunk_len := chunk_len
        + lenN (pq_quantizers (qa_pq q)) * pq_n_centroids (qa_pq q) * pq_sub_len (qa_pq q) * 4 in
    let chunk_len := match qa_norms q with
                     | Some (_, ns) => chunk_len + lenN ns * 4
                     | None => chunk_len
                     end in
    chunk_len + lenN (qa_codes q) * qa_len q)).
    { rewrite !lenN_app, lenN_repeat, EP, EQ, EN, EC, L1, L3, N2Nat.id.
      pose proof (pad_bounds p). cbv zeta.
      destruct (pq_projection (qa_pq q)), (qa_norms q) as [[]|]; lia. }
    now rewrite X.
  - rewrite lenN_app. lia.
  - now rewrite <- !app_assoc.
Qed.

Lemma split_quantizers (q : pq f32) : pq_wf q ->
  map (split_rows (N.to_nat (pq_n_centroids q)) (N.to_nat (pq_sub_len q)))
    (map (@concat f32) (pq_quantizers q)) = pq_quantizers q.
Proof.
  intros (_ & H & _). rewrite map_map. induction H as [|m l [Hm Hr] H IH]; simpl; [easy|].
  apply f_equal2; [|exact IH]. replace (N.to_nat (pq_n_centroids q)) with (length m) by (rewrite <- Hm; symmetry; apply to_nat_lenN).
  apply split_rows_concat. eapply Forall_impl; [|exact Hr]. intros r X. unfold lenN in X. simpl in X. lia.
Qed.

Definition native_pq {F} (p : pq F) : pq F :=
  PQ BoNative (pq_n_centroids p) (pq_sub_len p) (pq_quantizers p)
    (match pq_projection p with
     | None => None
     | Some (_, rows) => Some (BoNative, rows)
     end).
Definition native_qnorms {F} (q : qarray F) : option (byteorder * list F) :=
  match qa_norms q with None => None | Some (_, ns) => Some (BoNative, ns) end.

Lemma codes_elems (c : bytes) :
  Forall (fun e => length e = 1%nat) (map (fun b => [b]) c)
  /\ concat (map (fun b => [b]) c) = c.
Proof. induction c as [|b c [IH1 IH2]]; simpl; split; auto. now f_equal. Qed.

Lemma quantized_header_at h q d p :
  qarray_wf q -> lenN d < ssize_limit ->
  fields_at d p [fU32; fU32; fU32; fU32; fU32; fU64; fU32; fU32]
      [flag (pq_projection (qa_pq q)); flag (qa_norms q); Z.of_N (qa_len q);
       Z.of_N (pq_reconstructed_len (qa_pq q)); Z.of_N (pq_n_centroids (qa_pq q));
       Z.of_N (lenN (qa_codes q)); type_id_val TU8; type_id_val TF32] ->
  p + 36 + pad_float32 p <= lenN d ->
  at_pos d (p + 36 + pad_float32 p)
    (proj_bytes (qa_pq q) ++ quant_bytes (qa_pq q) ++ norm_bytes q) ->
  read_quantized_header h d p
  = Ok ((native_pq (qa_pq q), (lenN (qa_codes q), qa_len q), native_qnorms q),
        p + 36 + pad_float32 p
        + lenN (proj_bytes (qa_pq q) ++ quant_bytes (qa_pq q) ++ norm_bytes q)).
Proof.
  intros (Wp & Wl & Wnz & Wc & Wn) L F B A.
  apply at_pos_app in A as [A1 A]. apply at_pos_app in A as [A2 A3].
  apply fields_u32 in F as [F1 F]. apply fields_u32 in F as [F2 F].
  apply fields_u32 in F as [F3 F]. apply fields_u32 in F as [F4 F].
  apply fields_u32 in F as [F5 F]. apply fields_u64 in F as [F6 F].
  apply fields_u32 in F as [F7 F8].
  unfold read_quantized_header.
  rstep (read_u32 _ _ _ F1). rstep (read_u32 _ _ _ F2). rstep (read_u32 _ _ _ F3).
  rstep (read_u32 _ _ _ F4). rstep (read_u32 _ _ _ F5). rstep (read_u64 _ _ _ F6).
  destruct (Z.eqb_spec (Z.of_N (qa_len q)) 0) as [E0|_]; [lia|].
  set (rl := pq_reconstructed_len (qa_pq q)) in *.
  assert (Erl : rl = qa_len q * pq_sub_len (qa_pq q)) by (unfold rl, pq_reconstructed_len; now rewrite Wl).
  assert (Emod : (Z.of_N rl mod Z.of_N (qa_len q) =? 0)%Z = true).
  { apply Z.eqb_eq. rewrite <- N2Z.inj_mod, Erl, N.mul_comm, N.mod_mul by easy. easy. }
  rewrite Emod. erewrite rbind_step by reflexivity. cbn beta.
  rstep (read_u32 _ _ _ F7). rewrite Z.eqb_refl. cbn [negb]. cbn iota.
  rstep (read_u32 _ _ _ F8). rewrite Z.eqb_refl. cbn [negb]. cbn iota.
  replace (p + 4 + 4 + 4 + 4 + 4 + 8 + 4 + 4) with (p + 36) by lia.
  unfold tell at 1. erewrite rbind_step by reflexivity. cbn beta.
  assert (PM : pad_float32 (p + 36) = pad_float32 p) by (now apply pad_mod).
  rewrite PM. erewrite rbind_step by (apply seek_fwd_ok; lia).
  cbv zeta. rewrite !N2Z.id.
  set (o := p + 36 + pad_float32 p) in *.
  assert (SUB : rl / qa_len q = pq_sub_len (qa_pq q)).
  { rewrite Erl, N.mul_comm, N.div_mul by easy. easy. }
  (* projection *)
  match goal with |- rbind ?m _ _ _ = _ => assert (R1 : m d o
     = Ok (match pq_projection (qa_pq q) with
           | Some (_, rows) => Some (BoNative, rl, rl, rows) | None => None end,
           o + lenN (proj_bytes (qa_pq q)))) end.
  { unfold proj_bytes in *. destruct Wp as (_ & _ & Wpr).
    destruct (pq_projection (qa_pq q)) as [[bo rows]|]; cbn [flag].
    - change (negb (1 =? 0)%Z) with true. cbn iota. destruct Wpr as (_ & Hl & Hr).
      change (lenN rows = rl) in Hl. change (rows_wf rl rows) in Hr.
      assert (E2 : rl ^ 2 = lenN (concat rows)) by (rewrite (rows_concat_len _ _ Hr), Hl; apply N.pow_2_r).
      rstep (read_f32s_at h (concat rows) _ d _ E2 A1 L).
      rewrite f32s_roundtrip. pose proof (reshape2_concat rl rows Hr) as RC. rewrite Hl in RC. rewrite RC.
      unfold rlift, rbind, rret. now rewrite f32s_len.
    - change (negb (0 =? 0)%Z) with false. cbn iota. unfold rret. cbn. now rewrite N.add_0_r. }
  rewrite (rbind_step _ _ _ _ _ _ R1). clear R1. cbv beta. rewrite SUB.
  (* quantizers *)
  pose proof (quantizers_rows _ Wp) as QR.
  assert (R2 : read_array_as_native h 4
      (qa_len q * pq_n_centroids (qa_pq q) * pq_sub_len (qa_pq q)) d
      (o + lenN (proj_bytes (qa_pq q)))
      = Ok (f32s_le (concat (concat (pq_quantizers (qa_pq q)))),
            o + lenN (proj_bytes (qa_pq q)) + lenN (quant_bytes (qa_pq q)))).
  { unfold quant_bytes in *. rewrite (read_f32s_at h (concat (concat (pq_quantizers (qa_pq q))))); auto.
    - now rewrite f32s_len.
    - rewrite concat_concat, (rows_concat_len _ _ QR), lenN_map, Wl. lia. }
  rstep R2. clear R2.
  rewrite f32s_roundtrip, concat_concat.
  replace (qa_len q) with (lenN (map (@concat f32) (pq_quantizers (qa_pq q)))) at 1
    by (rewrite lenN_map; now symmetry).
  rewrite reshape2_concat by exact QR.
  erewrite rbind_step by reflexivity. cbv beta. rewrite split_quantizers by easy.
  (* norms *)
  match goal with |- rbind ?m _ _ ?pp = _ => assert (R3 : m d pp
     = Ok (native_qnorms q, pp + lenN (norm_bytes q))) end.
  { unfold norm_bytes, native_qnorms in *. 
    destruct (qa_norms q) as [[bo ns]|]; cbn [flag].
    - change (negb (1 =? 0)%Z) with true. cbn iota. destruct Wn as [_ Wn].
      rstep (read_f32s_at h ns _ d _ (eq_sym Wn) A3 L). rewrite f32s_roundtrip.
      unfold rret. now rewrite f32s_len.
    - change (negb (0 =? 0)%Z) with false. cbn iota. unfold rret. cbn. now rewrite N.add_0_r. }
  rewrite (rbind_step _ _ _ _ _ _ R3). clear R3. cbv beta.
  (* the constructor *)
  assert (R4 : pq_new BoNative (pq_n_centroids (qa_pq q)) (pq_sub_len (qa_pq q))
      (pq_quantizers (qa_pq q))
      match pq_projection (qa_pq q) with
      | Some (_, rows) => Some (BoNative, rl, rl, rows) | None => None end
      = Ok (native_pq (qa_pq q))).
  { unfold pq_new, native_pq. destruct (pq_projection (qa_pq q)) as [[bo rows]|]; [|easy].
    fold (pq_reconstructed_len (qa_pq q)). fold rl. now rewrite N.eqb_refl. }
  rewrite R4. unfold rlift, rbind, rret. do 2 f_equal. rewrite !lenN_app. lia.
Qed.

Lemma split_codes (q : qarray f32) : rows_wf (qa_len q) (qa_codes q) ->
  split_rows (N.to_nat (lenN (qa_codes q))) (N.to_nat (qa_len q)) (concat (qa_codes q))
  = qa_codes q.
Proof.
  intros H. rewrite to_nat_lenN. apply split_rows_concat.
  eapply Forall_impl; [|exact H]. intros r X. unfold lenN in X. simpl in X. lia.
Qed.

Lemma qarray_roundtrip h1 q p out d :
  qarray_wf q ->
  qarray_write_chunk h1 q p = (out, Ok tt) ->
  at_pos d p out -> lenN d < ssize_limit ->
  12 <= lenN out
  /\ fields_at d p [fU32; fU64] [chunk_id_val CQuantizedArray; Z.of_N (lenN out - 12)]
  /\ (forall h2, qarray_read_chunk h2 d (p + 12)
        = Ok (QA (native_pq (qa_pq q)) (qa_len q) (qa_codes q) (native_qnorms q), p + lenN out))
  /\ qarray_mmap_chunk Little d (p + 12)
        = Ok (QA (native_pq (qa_pq q)) (qa_len q) (qa_codes q) (native_qnorms q), p + lenN out).
Proof.
  intros W H A L. 
  apply qarray_layout in H as (hd & Hp & Lh & HO); [|easy].
  pose proof W as (Wp & Wl & Wnz & Wc & Wn).
  pose proof (at_pos_bound _ _ _ A) as B.
  set (pad := repeat x00 (N.to_nat (pad_float32 p))) in *.
  assert (LP : lenN pad = pad_float32 p) by (unfold pad; rewrite lenN_repeat; lia).
  set (mid := proj_bytes (qa_pq q) ++ quant_bytes (qa_pq q) ++ norm_bytes q) in *.
  assert (HO' : out = hd ++ pad ++ mid ++ concat (qa_codes q))
    by (unfold mid; now rewrite <- !app_assoc).
  assert (LO : lenN out = 48 + pad_float32 p + lenN mid + lenN (concat (qa_codes q)))
    by (rewrite HO', !lenN_app; lia).
  rewrite HO' in A.
  apply at_pos_app in A as [A1 A]. apply at_pos_app in A as [A2 A].
  apply at_pos_app in A as [A3 A4].
  pose proof (at_pos_fields _ _ _ _ _ Hp A1) as F.
  apply (fields_at_app d p [fU32; fU64] [fU32; fU32; fU32; fU32; fU32; fU64; fU32; fU32]
     [_; _] [_; _; _; _; _; _; _; _]) in F as [F1 F2]; [|easy].
  change (N.of_nat (calcsize [fU32; fU64])) with 12 in F2.
  split; [lia|]. split; [easy|].
  rewrite Lh, LP in A3, A4.
  assert (PM : pad_float32 (p + 12) = pad_float32 p) by (now apply pad_mod).
  assert (HH : forall h, read_quantized_header h d (p + 12)
     = Ok ((native_pq (qa_pq q), (lenN (qa_codes q), qa_len q), native_qnorms q),
           p + 48 + pad_float32 p + lenN mid)).
  { intros h. rewrite quantized_header_at with (q := q); auto.
    - fold mid. rewrite PM. do 2 f_equal. lia.
    - rewrite PM. lia.
    - fold mid. rewrite PM. now replace (p + 12 + 36) with (p + 48) by lia. }
  destruct (codes_elems (concat (qa_codes q))) as [CE1 CE2].
  assert (CL : lenN (qa_codes q) * qa_len q = lenN (map (fun b => [b]) (concat (qa_codes q))))
    by (rewrite lenN_map, (rows_concat_len _ _ Wc); easy).
  rewrite <- CE2 in A4.
  split.
  - intros h2. unfold qarray_read_chunk. rstep (HH h2). rewrite CL.
    rstep (read_array_as_native_at h2 1 _ d _ ltac:(lia) CE1 A4 L).
    rewrite CE2, reshape2_concat by exact Wc. unfold rlift, rbind, rret.
    do 2 f_equal. lia.
  - unfold qarray_mmap_chunk. rstep (HH Little).
    unfold tell at 1. erewrite rbind_step by reflexivity. cbn beta. rewrite CL.
    assert (CL2 : lenN (map (fun b => [b]) (concat (qa_codes q))) = lenN (concat (qa_codes q)))
      by apply lenN_map.
    erewrite rbind_step by (apply seek_fwd_ok; lia).
    unfold rlift. rewrite memmap_at; [|lia|easy|easy].
    cbn [bind]. rewrite CE2, split_codes by easy. do 2 f_equal. lia.
Qed.
