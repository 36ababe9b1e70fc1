(* Facts about the UTF-8 codecs. *)
From Coq Require Import Lia.
From Verif Require Import Py PyProofs Utf8.

#[local] Ltac Zify.zify_post_hook ::= Z.to_euclidean_division_equations.

(* simplify boolean comparisons that follow by arithmetic *)
Ltac ncmp :=
  repeat match goal with
  | |- context [?a <? ?b] =>
      first [ rewrite (proj2 (N.ltb_lt a b)) by lia
            | rewrite (proj2 (N.ltb_ge a b)) by lia ]
  | |- context [?a <=? ?b] =>
      first [ rewrite (proj2 (N.leb_le a b)) by lia
            | rewrite (proj2 (N.leb_gt a b)) by lia ]
  | |- context [?a =? ?b] =>
      first [ rewrite (proj2 (N.eqb_eq a b)) by lia
            | rewrite (proj2 (N.eqb_neq a b)) by lia ]
  end.

(* the shape of the encoding of one code point *)
Lemma encode_cp_decode c b r :
  encode_cp c = Some b -> decode_strict (b ++ r) = ocons c (decode_strict r).
Proof.
  unfold encode_cp. intros H.
  destruct (N.ltb_spec c 0x80).
  { injection H as <-. cbn [app decode_strict]. rewrite to_N_byte_of_N.
    rewrite N.mod_small by lia. ncmp. easy. }
  destruct (N.ltb_spec c 0x800).
  { injection H as <-. cbn [app decode_strict].
    unfold is_cont, cp2, cont_bits. rewrite !to_N_byte_of_N.
    rewrite (N.mod_small (0xC0 + c / 64)) by lia.
    rewrite (N.mod_small (0x80 + c mod 64)) by lia.
    ncmp. cbn [andb]. f_equal. lia. }
  destruct (N.leb_spec 0xD800 c); destruct (N.ltb_spec c 0xE000); cbn [andb] in H;
    try discriminate; [| |lia].
  - destruct (N.ltb_spec c 0x10000).
    { injection H as <-. cbn [app decode_strict].
      unfold second_ok, is_cont, cp3, cont_bits. rewrite !to_N_byte_of_N.
      rewrite (N.mod_small (0xE0 + c / 4096)) by lia.
      rewrite (N.mod_small (0x80 + (c / 64) mod 64)) by lia.
      rewrite (N.mod_small (0x80 + c mod 64)) by lia.
      destruct (N.eqb_spec (0xE0 + c / 4096) 0xE0); [lia|].
      destruct (N.eqb_spec (0xE0 + c / 4096) 0xED); [lia|].
      ncmp. cbn [andb]. f_equal. lia. }
    destruct (N.ltb_spec c 0x110000); [|easy].
    { injection H as <-. cbn [app decode_strict].
      unfold second_ok, is_cont, cp4, cont_bits. rewrite !to_N_byte_of_N.
      rewrite (N.mod_small (0xF0 + c / 262144)) by lia.
      rewrite (N.mod_small (0x80 + (c / 4096) mod 64)) by lia.
      rewrite (N.mod_small (0x80 + (c / 64) mod 64)) by lia.
      rewrite (N.mod_small (0x80 + c mod 64)) by lia.
      rewrite (proj2 (N.eqb_neq (0xF0 + c / 262144) 0xE0)) by lia.
      rewrite (proj2 (N.eqb_neq (0xF0 + c / 262144) 0xED)) by lia.
      destruct (N.eqb_spec (0xF0 + c / 262144) 0xF0);
      [|destruct (N.eqb_spec (0xF0 + c / 262144) 0xF4)]; ncmp; cbn [andb]; f_equal; lia. }
  - rewrite (proj2 (N.ltb_lt c 0x10000)) in H by lia.
    injection H as <-. cbn [app decode_strict].
    unfold second_ok, is_cont, cp3, cont_bits. rewrite !to_N_byte_of_N.
    rewrite (N.mod_small (0xE0 + c / 4096)) by lia.
    rewrite (N.mod_small (0x80 + (c / 64) mod 64)) by lia.
    rewrite (N.mod_small (0x80 + c mod 64)) by lia.
    destruct (N.eqb_spec (0xE0 + c / 4096) 0xE0);
    [|destruct (N.eqb_spec (0xE0 + c / 4096) 0xED)]; ncmp; cbn [andb]; f_equal; lia.
Qed.

Lemma encode_cp_nonempty c b : encode_cp c = Some b -> b <> [].
Proof.
  unfold encode_cp. intros H.
  repeat match goal with
  | H : (if ?x then _ else _) = _ |- _ => destruct x
  end; try discriminate; injection H as <-; discriminate.
Qed.

Lemma decode_strict_encode s bs r :
  utf8_encode s = Ok bs ->
  decode_strict (bs ++ r) = match decode_strict r with Some t => Some (s ++ t) | None => None end.
Proof.
  revert bs; induction s as [|c s IH]; intros bs H.
  - injection H as <-. simpl. now destruct (decode_strict r).
  - simpl in H. destruct (encode_cp c) as [b|] eqn:E; [|easy].
    apply bind_ok in H as (bs' & Hs & H). injection H as <-.
    rewrite <- app_assoc, (encode_cp_decode _ _ _ E), (IH _ Hs).
    now destruct (decode_strict r).
Qed.

Lemma utf8_decode_encode s bs : utf8_encode s = Ok bs -> utf8_decode bs = Ok s.
Proof.
  intros H. unfold utf8_decode. rewrite <- (app_nil_r bs).
  rewrite (decode_strict_encode _ _ _ H). simpl. now rewrite app_nil_r.
Qed.

(* decoding inverts encoding only for well-formed input: re-encoding gives the bytes *)
Lemma byte_of_N_eq b n : n = Byte.to_N b -> byte_of_N n = b.
Proof. intros ->. apply byte_of_N_to_N. Qed.

Ltac b2p :=
  repeat match goal with
  | H : (_ && _) = true |- _ => apply andb_true_iff in H as [? ?]
  | H : (_ <=? _) = true |- _ => apply N.leb_le in H
  | H : (_ <? _) = true |- _ => apply N.ltb_lt in H
  | H : (_ =? _) = true |- _ => apply N.eqb_eq in H
  | H : (_ <=? _) = false |- _ => apply N.leb_gt in H
  | H : (_ <? _) = false |- _ => apply N.ltb_ge in H
  | H : (_ =? _) = false |- _ => apply N.eqb_neq in H
  end.

Lemma ocons_some c o s : ocons c o = Some s -> exists t, o = Some t /\ s = c :: t.
Proof. destruct o; simpl; [|easy]. intros [= <-]; eauto. Qed.

Lemma decode_strict_ind (P : bytes -> Prop) :
  P [] -> (forall b0 r0, (forall r, (length r <= length r0)%nat -> P r) -> P (b0 :: r0)) ->
  forall bs, P bs.
Proof.
  intros H0 H1 bs.
  assert (H : forall n r, (length r <= n)%nat -> P r).
  { induction n as [|n IH]; intros r L.
    - destruct r; [easy|simpl in L; lia].
    - destruct r as [|b r]; [easy|]. apply H1. intros r' L'. apply IH. simpl in L. lia. }
  now apply (H (length bs)).
Qed.

Lemma encode_decode bs s : decode_strict bs = Some s -> utf8_encode s = Ok bs.
Proof.
  revert s; induction bs as [|b0 r0 IH] using decode_strict_ind; intros s H.
  - injection H as <-. easy.
  - cbn [decode_strict] in H. pose proof (to_N_lt b0).
    destruct (N.ltb_spec (Byte.to_N b0) 0x80).
    { apply ocons_some in H as (t & Ht & ->). simpl. unfold encode_cp.
      ncmp. rewrite byte_of_N_to_N. apply IH in Ht; [|easy]. now rewrite Ht. }
    destruct (N.ltb_spec (Byte.to_N b0) 0xC2); [easy|].
    destruct (N.ltb_spec (Byte.to_N b0) 0xE0).
    { destruct r0 as [|b1 r1]; [easy|].
      destruct (is_cont b1) eqn:C1; [|easy]. unfold is_cont in C1. b2p.
      apply ocons_some in H as (t & Ht & ->).
      cbn [utf8_encode]. unfold encode_cp, cp2, cont_bits. ncmp.
      apply IH in Ht; [|simpl; lia]. rewrite Ht. cbn [bind app].
      rewrite (byte_of_N_eq b0) by lia. rewrite (byte_of_N_eq b1) by lia. easy. }
    destruct (N.ltb_spec (Byte.to_N b0) 0xF0).
    { destruct r0 as [|b1 [|b2 r2]]; [easy|easy|].
      destruct (second_ok b0 b1 && is_cont b2) eqn:C; [|easy].
      unfold second_ok, is_cont in C. b2p.
      apply ocons_some in H as (t & Ht & ->).
      apply IH in Ht; [|simpl; lia].
      cbn [utf8_encode]. unfold encode_cp, cp3, cont_bits.
      pose proof (to_N_lt b1). pose proof (to_N_lt b2).
      assert (L : 0x800 <= (Byte.to_N b0 - 0xE0) * 4096 + Byte.to_N b1 mod 64 * 64 + Byte.to_N b2 mod 64
              /\ ~ (0xD800 <= (Byte.to_N b0 - 0xE0) * 4096 + Byte.to_N b1 mod 64 * 64 + Byte.to_N b2 mod 64 < 0xE000)).
      { destruct (N.eqb_spec (Byte.to_N b0) 0xE0); [b2p; lia|].
        destruct (N.eqb_spec (Byte.to_N b0) 0xED); [b2p; lia|]. lia. }
      destruct L as [L1 L2].
      set (cp := (Byte.to_N b0 - 0xE0) * 4096 + Byte.to_N b1 mod 64 * 64 + Byte.to_N b2 mod 64) in *.
      rewrite (proj2 (N.ltb_ge cp 0x80)) by lia.
      rewrite (proj2 (N.ltb_ge cp 0x800)) by lia.
      replace ((0xD800 <=? cp) && (cp <? 0xE000)) with false by
        (symmetry; apply not_true_iff_false; intros X; b2p; lia).
      rewrite (proj2 (N.ltb_lt cp 0x10000)) by (subst cp; lia).
      rewrite Ht. cbn [bind app].
      rewrite (byte_of_N_eq b0) by (subst cp; lia).
      rewrite (byte_of_N_eq b1) by (subst cp; lia).
      rewrite (byte_of_N_eq b2) by (subst cp; lia). easy. }
    destruct (N.ltb_spec (Byte.to_N b0) 0xF5); [|easy].
    { destruct r0 as [|b1 [|b2 [|b3 r3]]]; [easy|easy|easy|].
      destruct (second_ok b0 b1 && is_cont b2 && is_cont b3) eqn:C; [|easy].
      unfold second_ok, is_cont in C. b2p.
      apply ocons_some in H as (t & Ht & ->).
      apply IH in Ht; [|simpl; lia].
      cbn [utf8_encode]. unfold encode_cp, cp4, cont_bits.
      pose proof (to_N_lt b1). pose proof (to_N_lt b2). pose proof (to_N_lt b3).
      set (cp := (Byte.to_N b0 - 0xF0) * 262144 + Byte.to_N b1 mod 64 * 4096 + Byte.to_N b2 mod 64 * 64 + Byte.to_N b3 mod 64) in *.
      assert (L : 0x10000 <= cp < 0x110000).
      { subst cp. rewrite (proj2 (N.eqb_neq (Byte.to_N b0) 0xE0)) in * by lia.
        rewrite (proj2 (N.eqb_neq (Byte.to_N b0) 0xED)) in * by lia.
        destruct (N.eqb_spec (Byte.to_N b0) 0xF0); [b2p; lia|].
        destruct (N.eqb_spec (Byte.to_N b0) 0xF4); [b2p; lia|]. lia. }
      ncmp. rewrite andb_false_r. rewrite Ht. cbn [bind app].
      rewrite (byte_of_N_eq b0) by (subst cp; lia).
      rewrite (byte_of_N_eq b1) by (subst cp; lia).
      rewrite (byte_of_N_eq b2) by (subst cp; lia).
      rewrite (byte_of_N_eq b3) by (subst cp; lia). easy. }
Qed.

Lemma utf8_encode_decode bs s : utf8_decode bs = Ok s -> utf8_encode s = Ok bs.
Proof.
  unfold utf8_decode. destruct (decode_strict bs) eqn:E; [|easy].
  intros [= <-]. now apply encode_decode.
Qed.

Lemma utf8_encode_inj s t bs : utf8_encode s = Ok bs -> utf8_encode t = Ok bs -> s = t.
Proof.
  intros H1 H2. apply utf8_decode_encode in H1, H2. congruence.
Qed.

(* decode(errors='replace') agrees with strict decoding where that succeeds *)
Lemma decode_replace_strict bs s : decode_strict bs = Some s -> decode_replace bs = s.
Proof.
  revert s; induction bs as [|b0 r0 IH] using decode_strict_ind; intros s H.
  - now injection H as <-.
  - cbn [decode_strict] in H. cbn [decode_replace].
    destruct (Byte.to_N b0 <? 0x80).
    { apply ocons_some in H as (t & Ht & ->). f_equal. now apply IH. }
    destruct (Byte.to_N b0 <? 0xC2); [easy|].
    destruct (Byte.to_N b0 <? 0xE0).
    { destruct r0 as [|b1 r1]; [easy|]. destruct (is_cont b1); [|easy].
      apply ocons_some in H as (t & Ht & ->). f_equal. apply IH; simpl; auto. }
    destruct (Byte.to_N b0 <? 0xF0).
    { destruct r0 as [|b1 [|b2 r2]]; [easy|easy|].
      destruct (second_ok b0 b1); cbn [andb] in H; [|easy].
      destruct (is_cont b2); [|easy].
      apply ocons_some in H as (t & Ht & ->). f_equal. apply IH; simpl; auto. }
    destruct (Byte.to_N b0 <? 0xF5); [|easy].
    { destruct r0 as [|b1 [|b2 [|b3 r3]]]; [easy|easy|easy|].
      destruct (second_ok b0 b1); cbn [andb] in H; [|easy].
      destruct (is_cont b2); cbn [andb] in H; [|easy].
      destruct (is_cont b3); [|easy].
      apply ocons_some in H as (t & Ht & ->). f_equal. apply IH; simpl; auto. }
Qed.

Lemma utf8_encode_app a b :
  utf8_encode (a ++ b) = (x <- utf8_encode a ;; y <- utf8_encode b ;; Ok (x ++ y)).
Proof.
  induction a as [|c a IH]; simpl.
  - now destruct (utf8_encode b).
  - destruct (encode_cp c); [|easy]. rewrite IH.
    destruct (utf8_encode a); simpl; [|easy]. destruct (utf8_encode b); simpl; [|easy].
    now rewrite app_assoc.
Qed.
