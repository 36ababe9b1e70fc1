(* Facts about the io.py layer. *)
From Coq Require Import Lia.
From Verif Require Import Py PyProofs Utf8 IO.

(* ---------------------------------------------------------------- *)
(* packed fields found in a file                                     *)

Definition fields_at (d : bytes) (p : N) (fmt : list field) (vs : list Z) : Prop :=
  exists bs, pack fmt vs = Ok bs /\ at_pos d p bs.

Lemma calcsize_app f g : calcsize (f ++ g) = (calcsize f + calcsize g)%nat.
Proof. induction f; simpl; lia. Qed.

Lemma pack_lenN fmt vs bs : pack fmt vs = Ok bs -> lenN bs = N.of_nat (calcsize fmt).
Proof. intros H. apply pack_length in H. unfold lenN; now rewrite H. Qed.

Lemma pack_app f g vs ws :
  length vs = length (valued f) ->
  pack (f ++ g) (vs ++ ws) = (a <- pack f vs ;; b <- pack g ws ;; Ok (a ++ b)).
Proof.
  revert vs; induction f as [|x f IH]; intros vs L.
  - destruct vs; [|easy]. simpl. now destruct (pack g ws).
  - cbn [app pack valued filter] in *.
    destruct x; 
      try (destruct vs as [|v vs]; [easy|]; simpl in L; injection L as L;
        cbn [app]; rewrite (IH vs L);
        match goal with |- context [pack_field ?a ?b] => destruct (pack_field a b) end; 
        simpl; [|easy];
        destruct (pack f vs); simpl; [|easy]; destruct (pack g ws); simpl; [|easy];
        now rewrite app_assoc).
    rewrite (IH vs L). destruct (pack f vs); simpl; [|easy]. now destruct (pack g ws).
Qed.

Lemma fields_at_app d p f g vs ws :
  length vs = length (valued f) ->
  fields_at d p (f ++ g) (vs ++ ws) <->
  fields_at d p f vs /\ fields_at d (p + N.of_nat (calcsize f)) g ws.
Proof.
  intros L. unfold fields_at. rewrite (pack_app _ _ _ _ L). split.
  - intros (bs & H & A). apply bind_ok in H as (a & Ha & H).
    apply bind_ok in H as (b & Hb & H). injection H as <-.
    apply at_pos_app in A as [A B]. rewrite (pack_lenN _ _ _ Ha) in B. split; [exists a | exists b]; auto.
  - intros [(a & Ha & A) (b & Hb & B)]. rewrite Ha, Hb. exists (a ++ b).
    split; [easy|]. apply at_pos_app. split; [easy|]. now rewrite (pack_lenN _ _ _ Ha).
Qed.

Lemma fields_at_cons d p f fmt v vs :
  f <> fPad ->
  fields_at d p (f :: fmt) (v :: vs) <->
  fields_at d p [f] [v] /\ fields_at d (p + N.of_nat (field_size f)) fmt vs.
Proof.
  intros Hf. change (f :: fmt) with ([f] ++ fmt). change (v :: vs) with ([v] ++ vs).
  rewrite fields_at_app.
  - simpl calcsize. now rewrite Nat.add_0_r.
  - destruct f; easy.
Qed.

Lemma fields_at_extend d ext p fmt vs :
  fields_at d p fmt vs -> fields_at (d ++ ext) p fmt vs.
Proof. intros (bs & H & A). exists bs. split; [easy|]. now apply at_pos_extend. Qed.

Lemma fields_at_bound d p fmt vs :
  fields_at d p fmt vs -> p + N.of_nat (calcsize fmt) <= lenN d.
Proof.
  intros (bs & H & A). apply at_pos_bound in A. now rewrite (pack_lenN _ _ _ H) in A.
Qed.

Lemma read_binary_at d p fmt vs :
  (forall f, In f fmt -> f <> fBool) -> (0 < calcsize fmt)%nat ->
  N.of_nat (calcsize fmt) < ssize_limit ->
  fields_at d p fmt vs ->
  read_binary fmt d p = Ok (Some vs, p + N.of_nat (calcsize fmt)).
Proof.
  intros Hb Hs Hl (bs & H & A). unfold read_binary, rbind.
  pose proof (pack_lenN _ _ _ H) as L. pose proof (pack_length _ _ _ H) as L'.
  rewrite <- L, (read_at _ _ _ A) by lia. rewrite L'.
  destruct (Nat.eqb_spec (calcsize fmt) 0); [lia|]. rewrite Nat.eqb_refl. simpl.
  unfold rret. now rewrite (unpack_pack_no_bool _ _ _ Hb H).
Qed.

Lemma read_required_at d p fmt vs :
  (forall f, In f fmt -> f <> fBool) -> (0 < calcsize fmt)%nat ->
  N.of_nat (calcsize fmt) < ssize_limit ->
  fields_at d p fmt vs ->
  read_required_binary fmt d p = Ok (vs, p + N.of_nat (calcsize fmt)).
Proof.
  intros Hb Hs Hl H. unfold read_required_binary, rbind.
  now rewrite (read_binary_at _ _ _ _ Hb Hs Hl H).
Qed.

Definition plain (f : field) : bool :=
  match f with fBool | fPad => false | _ => true end.
Lemma plain_not_bool f : plain f = true -> f <> fBool.
Proof. now destruct f. Qed.
Lemma plain_not_pad f : plain f = true -> f <> fPad.
Proof. now destruct f. Qed.
Lemma field_size_bound f : (0 < field_size f <= 8)%nat.
Proof. destruct f; simpl; lia. Qed.

Lemma read1_at d p f v :
  plain f = true -> fields_at d p [f] [v] ->
  read1 f d p = Ok (v, p + N.of_nat (field_size f)).
Proof.
  intros Hf H. unfold read1, rbind. pose proof (field_size_bound f).
  rewrite (read_required_at _ _ _ [v]); simpl; rewrite ?Nat.add_0_r; try easy.
  1: intros g [<-|[]]; now apply plain_not_bool.
  all: unfold ssize_limit; lia.
Qed.

Lemma read2_at d p f g v w :
  plain f = true -> plain g = true -> fields_at d p [f; g] [v; w] ->
  read2 f g d p = Ok ((v, w), p + N.of_nat (field_size f + field_size g)).
Proof.
  intros Hf Hg H. unfold read2, rbind.
  pose proof (field_size_bound f). pose proof (field_size_bound g).
  rewrite (read_required_at _ _ _ [v; w]); simpl; rewrite ?Nat.add_0_r; try easy.
  1: intros x [<-|[<-|[]]]; now apply plain_not_bool.
  all: unfold ssize_limit; lia.
Qed.

Lemma read4_at d p f g h i a b c e :
  plain f = true -> plain g = true -> plain h = true -> plain i = true ->
  fields_at d p [f; g; h; i] [a; b; c; e] ->
  read4 f g h i d p
  = Ok ((a, b, c, e),
        p + N.of_nat (field_size f + (field_size g + (field_size h + field_size i)))).
Proof.
  intros Hf Hg Hh Hi H. unfold read4, rbind.
  pose proof (field_size_bound f). pose proof (field_size_bound g).
  pose proof (field_size_bound h). pose proof (field_size_bound i).
  rewrite (read_required_at _ _ _ [a; b; c; e]); simpl; rewrite ?Nat.add_0_r; try easy.
  1: intros x [<-|[<-|[<-|[<-|[]]]]]; now apply plain_not_bool.
  all: unfold ssize_limit; lia.
Qed.

Lemma fields_u32 d p fmt v vs :
  fields_at d p (fU32 :: fmt) (v :: vs) <->
  fields_at d p [fU32] [v] /\ fields_at d (p + 4) fmt vs.
Proof. now apply fields_at_cons. Qed.
Lemma fields_u64 d p fmt v vs :
  fields_at d p (fU64 :: fmt) (v :: vs) <->
  fields_at d p [fU64] [v] /\ fields_at d (p + 8) fmt vs.
Proof. now apply fields_at_cons. Qed.
Lemma read_u32 d p v : fields_at d p [fU32] [v] -> read1 fU32 d p = Ok (v, p + 4).
Proof. now apply read1_at. Qed.
Lemma read_u64 d p v : fields_at d p [fU64] [v] -> read1 fU64 d p = Ok (v, p + 8).
Proof. now apply read1_at. Qed.
Lemma read_u64_u32 d p v w :
  fields_at d p [fU64; fU32] [v; w] -> read2 fU64 fU32 d p = Ok ((v, w), p + 12).
Proof. now apply read2_at. Qed.
Lemma read_u32_u64 d p v w :
  fields_at d p [fU32; fU64] [v; w] -> read2 fU32 fU64 d p = Ok ((v, w), p + 12).
Proof. now apply read2_at. Qed.

Lemma chunk_id_of_val c : chunk_id_of (chunk_id_val c) = Ok c.
Proof. now destruct c. Qed.
Lemma chunk_id_of_inv n c : chunk_id_of n = Ok c -> n = chunk_id_val c.
Proof.
  unfold chunk_id_of. intros H.
  repeat match type of H with
  | match ?x with _ => _ end = _ => destruct x; try discriminate
  end; now injection H as <-.
Qed.
Lemma chunk_id_eqb_eq a b : chunk_id_eqb a b = true <-> a = b.
Proof.
  unfold chunk_id_eqb. rewrite Z.eqb_eq. split; [|now intros ->].
  destruct a, b; simpl; easy.
Qed.
Lemma chunk_id_eqb_refl a : chunk_id_eqb a a = true.
Proof. now apply chunk_id_eqb_eq. Qed.

Lemma read_chunk_header_at d p c n :
  (0 <= n)%Z ->
  fields_at d p [fU32; fU64] [chunk_id_val c; n] ->
  read_chunk_header d p = Ok (Some (c, Z.to_N n), p + 12).
Proof.
  intros Hn H. unfold read_chunk_header, rbind.
  rewrite (read_binary_at _ _ _ [chunk_id_val c; n]); simpl; try easy.
  - unfold rlift. now rewrite chunk_id_of_val.
  - intros x [<-|[<-|[]]]; easy.
  - lia.
Qed.

Lemma read_required_chunk_header_at d p c n :
  (0 <= n)%Z ->
  fields_at d p [fU32; fU64] [chunk_id_val c; n] ->
  read_required_chunk_header d p = Ok ((c, Z.to_N n), p + 12).
Proof.
  intros Hn H. unfold read_required_chunk_header, rbind.
  now rewrite (read_chunk_header_at _ _ _ _ Hn H).
Qed.

(* ---------------------------------------------------------------- *)
(* writers                                                           *)

Lemma write_binary_ok fmt vs p bs :
  write_binary fmt vs p = (bs, Ok tt) -> pack fmt vs = Ok bs.
Proof.
  unfold write_binary. intros H. apply wlet_ok in H as (b & Hb & H).
  apply wbytes_ok in H. congruence.
Qed.

Lemma pack_pads n : pack (repeat fPad n) [] = Ok (repeat x00 n).
Proof. induction n as [|n IH]; simpl; [easy|]. now rewrite IH. Qed.

(* ---------------------------------------------------------------- *)
(* header                                                            *)

Lemma calcsize_u32s n : calcsize (repeat fU32 n) = (4 * n)%nat.
Proof. induction n; simpl; lia. Qed.
Lemma valued_u32s n : valued (repeat fU32 n) = repeat fU32 n.
Proof. induction n; simpl; [easy|]. now f_equal. Qed.

Lemma pack_u32_range v bs : pack [fU32] [v] = Ok bs -> (0 <= v < 2 ^ 32)%Z.
Proof.
  intros H. cbn [pack] in H. apply bind_ok in H as (b & Hb & _).
  cbn [pack_field] in Hb. destruct (in_range 0 (2 ^ 32) v) eqn:E; [|easy].
  now apply in_range_spec in E.
Qed.

Lemma fields_at_u32_range d p v : fields_at d p [fU32] [v] -> (0 <= v < 2 ^ 32)%Z.
Proof. intros (bs & H & _). now apply pack_u32_range in H. Qed.
Lemma fields_at_u64_range d p v : fields_at d p [fU64] [v] -> (0 <= v < 2 ^ 64)%Z.
Proof.
  intros (bs & H & _). cbn [pack] in H. apply bind_ok in H as (b & Hb & _).
  cbn [pack_field] in Hb. destruct (in_range 0 (2 ^ 64) v) eqn:E; [|easy].
  now apply in_range_spec in E.
Qed.

Lemma header_roundtrip ids p out d :
  ids <> [] ->
  header_write_chunk ids p = (out, Ok tt) ->
  at_pos d p out -> lenN d < ssize_limit ->
  header_read_chunk d p = Ok (ids, p + lenN out).
Proof.
  intros Hne H A L. unfold header_write_chunk in H.
  apply wseq_ok in H as (b1 & b2 & H1 & H2 & ->).
  apply wbytes_ok in H1. subst b1.
  apply write_binary_ok in H2.
  pose proof (pack_lenN _ _ _ H2) as L2.
  apply at_pos_app in A as [A1 A2].
  assert (F : fields_at d (p + lenN MAGIC)
            (fU32 :: fU32 :: repeat fU32 (length ids))
            (VERSION :: Z.of_nat (length ids) :: ids)) by (exists b2; auto).
  apply fields_u32 in F as [F1 F]. apply fields_u32 in F as [F2 F].
  unfold header_read_chunk.
  rstep (read_at _ _ _ A1 eq_refl).
  assert (E : bytes_eqb MAGIC MAGIC = true) by (now apply bytes_eqb_eq). rewrite E. cbn [negb].
  rstep (read_u32 _ _ _ F1). change (negb (VERSION =? VERSION)%Z) with false. cbn iota.
  rstep (read_u32 _ _ _ F2).
  rewrite Nat2Z.id. rewrite (read_required_at _ _ _ ids).
  - rewrite lenN_app, L2. cbn [calcsize field_size]. rewrite calcsize_u32s.
    do 2 f_equal. change (lenN MAGIC) with 4. lia.
  - intros f Hf. apply repeat_spec in Hf. now subst.
  - rewrite calcsize_u32s. destruct ids; [easy|]. simpl; lia.
  - apply fields_at_bound in F. unfold ssize_limit in *. lia.
  - simpl in F. exact F.
Qed.

(* ---------------------------------------------------------------- *)
(* arrays                                                            *)

Lemma concat_map_rev_rev (l : list bytes) : map (@rev byte) (map (@rev byte) l) = l.
Proof. induction l; simpl; [easy|]. rewrite rev_involutive. now f_equal. Qed.

(* what is written are the little-endian bytes of the elements, except that BoNA
   (single-byte elements) is not swapped on any host *)
Lemma serialize_array_as_le_bytes host bo elems p :
  bo <> BoNA \/ host = Little ->
  serialize_array_as_le host bo elems p = (concat elems, Ok tt).
Proof.
  intros H. unfold serialize_array_as_le, to_mem, wbytes.
  destruct host, bo; simpl mem_is_le; cbn iota; rewrite ?map_id, ?concat_map_rev_rev; try easy.
  destruct H; congruence.
Qed.

Lemma split_elems_concat k (l : list bytes) rest :
  Forall (fun e => length e = k) l ->
  split_elems (length l) k (concat l ++ rest) = l.
Proof.
  induction 1 as [|e l He Hl IH]; simpl; [easy|].
  rewrite <- app_assoc, (firstn_app_l _ _ _ He), (skipn_app_l _ _ _ He). now rewrite IH.
Qed.

Lemma concat_length_const k (l : list bytes) :
  Forall (fun e => length e = k) l -> length (concat l) = (length l * k)%nat.
Proof.
  induction 1; simpl; [easy|]. rewrite app_length. lia.
Qed.

Lemma read_array_as_native_at host k l d p :
  (0 < k)%nat ->
  Forall (fun e => length e = k) l ->
  at_pos d p (concat l) -> lenN d < ssize_limit ->
  read_array_as_native host k (lenN l) d p = Ok (l, p + lenN (concat l)).
Proof.
  intros Hk Hl A L. unfold read_array_as_native, rbind, fromfile.
  pose proof (concat_length_const _ _ Hl) as Hc.
  assert (E : lenN l * N.of_nat k = lenN (concat l)) by (unfold lenN; now rewrite Hc, Nat2N.inj_mul).
  rewrite E. pose proof (at_pos_bound _ _ _ A).
  destruct (N.leb_spec ssize_limit (lenN (concat l))); [lia|].
  apply at_pos_drop in A as [post ->]. rewrite takeN_app_l.
  rewrite Hc, Nat.div_mul by lia.
  set (S := split_elems _ _ _).
  assert (X : S = l).
  { subst S. rewrite <- (app_nil_r (concat l)). now apply split_elems_concat. }
  clearbody S; subst S.
  unfold rret. do 2 f_equal. destruct host.
  - erewrite map_ext; [apply map_id|]. easy.
  - rewrite map_map. erewrite map_ext; [apply map_id|].
    intros a; simpl. apply rev_involutive.
Qed.

Lemma f32_of_le_le x : f32_of_le (f32_le x) = x.
Proof. now destruct x. Qed.
Lemma f32_le_length x : length (f32_le x) = 4%nat.
Proof. easy. Qed.
Lemma f32_le_of_le bs : length bs = 4%nat -> f32_le (f32_of_le bs) = bs.
Proof. destruct bs as [|a [|b [|c [|e [|]]]]]; easy. Qed.

Lemma split_rows_concat {A} cols (rows : list (list A)) :
  Forall (fun r => length r = cols) rows ->
  split_rows (length rows) cols (concat rows) = rows.
Proof.
  induction 1 as [|r rows Hr Hrs IH]; simpl; [easy|].
  rewrite (firstn_app_l _ _ _ Hr), (skipn_app_l _ _ _ Hr). now rewrite IH.
Qed.
Lemma concat_rows_length {A} cols (rows : list (list A)) :
  Forall (fun r => length r = cols) rows -> length (concat rows) = (length rows * cols)%nat.
Proof. induction 1; simpl; [easy|]. rewrite app_length. lia. Qed.

Lemma reshape2_concat {A} cols (rows : list (list A)) :
  Forall (fun r => lenN r = cols) rows ->
  reshape2 (lenN rows) cols (concat rows) = Ok rows.
Proof.
  intros H.
  assert (H' : Forall (fun r => length r = N.to_nat cols) rows).
  { eapply Forall_impl; [|exact H]. intros r Hr. unfold lenN in Hr. simpl in Hr. lia. }
  unfold reshape2.
  assert (E : lenN (concat rows) = lenN rows * cols).
  { unfold lenN. rewrite (concat_rows_length _ _ H'). now rewrite Nat2N.inj_mul, N2Nat.id. }
  rewrite E, N.eqb_refl. rewrite to_nat_lenN, (split_rows_concat _ _ H'). easy.
Qed.
