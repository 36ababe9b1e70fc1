(* The codec against the definition of UTF-8; lossy decoding. *)
From Coq Require Import Lia.
From Verif Require Import Py PyProofs Utf8 Utf8Proofs SpecUtf8.

#[local] Ltac Zify.zify_post_hook ::= Z.to_euclidean_division_equations.

Lemma to_N_of c : c < 256 -> Byte.to_N (byte_of_N c) = c.
Proof. intros H. rewrite to_N_byte_of_N. apply N.mod_small. lia. Qed.

Lemma byte_eq b c : c < 256 -> Byte.to_N b = c -> b = byte_of_N c.
Proof. intros _ <-. now rewrite byte_of_N_to_N. Qed.

Lemma encode_cp_form c b : encode_cp c = Some b <-> utf8_form c b.
Proof.
  split.
  - unfold encode_cp. intros H.
    destruct (N.ltb_spec c 0x80); [injection H as <-; constructor; [easy|]; apply to_N_of; lia|].
    destruct (N.ltb_spec c 0x800).
    { injection H as <-. eapply (Form2 c _ _ (c / 64) (c mod 64)); unfold tail; rewrite ?to_N_byte_of_N; lia. }
    destruct (N.leb_spec 0xD800 c), (N.ltb_spec c 0xE000); cbn [andb] in H; try easy.
    all: destruct (N.ltb_spec c 0x10000);
      [injection H as <-; eapply (Form3 c _ _ _ (c / 4096) ((c / 64) mod 64) (c mod 64)); unfold tail, scalar; rewrite ?to_N_byte_of_N; lia|].
    all: destruct (N.ltb_spec c 0x110000); [|easy].
    all: injection H as <-.
    all: eapply (Form4 c _ _ _ _ (c / 262144) ((c / 4096) mod 64) ((c / 64) mod 64) (c mod 64)); unfold tail; rewrite ?to_N_byte_of_N; lia.
  - intros H. destruct H as [c b H <-|c b0 b1 hi x R E E0 [T1 L1]|c b0 b1 b2 hi x y R S E E0 [T1 L1] [T2 L2]|c b0 b1 b2 b3 hi x y z R E E0 [T1 L1] [T2 L2] [T3 L3]];
      unfold encode_cp.
    + rewrite (proj2 (N.ltb_lt _ _)) by easy. now rewrite byte_of_N_to_N.
    + rewrite (proj2 (N.ltb_ge c 0x80)), (proj2 (N.ltb_lt c 0x800)) by lia.
      rewrite (byte_of_N_eq b0), (byte_of_N_eq b1) by lia. easy.
    + rewrite (proj2 (N.ltb_ge c 0x80)), (proj2 (N.ltb_ge c 0x800)), (proj2 (N.ltb_lt c 0x10000)) by lia.
      rewrite (byte_of_N_eq b0), (byte_of_N_eq b1), (byte_of_N_eq b2) by lia.
      unfold scalar in S. destruct (N.leb_spec 0xD800 c), (N.ltb_spec c 0xE000); cbn [andb]; try easy. lia.
    + rewrite (proj2 (N.ltb_ge c 0x80)), (proj2 (N.ltb_ge c 0x800)), (proj2 (N.ltb_ge c 0x10000)), (proj2 (N.ltb_lt c 0x110000)) by lia.
      rewrite (proj2 (N.ltb_ge c 0xE000)), andb_false_r by lia.
      rewrite (byte_of_N_eq b0), (byte_of_N_eq b1), (byte_of_N_eq b2), (byte_of_N_eq b3) by lia. easy.
Qed.

Lemma encode_iff s bs : utf8_encode s = Ok bs <-> utf8_of s bs.
Proof.
  split.
  - revert bs. induction s as [|c s IH]; intros bs H; simpl in H.
    + injection H as <-. constructor.
    + destruct (encode_cp c) as [b|] eqn:E; [|easy]. apply bind_ok in H as (bs' & H1 & H). injection H as <-.
      constructor; [now apply encode_cp_form|auto].
  - induction 1 as [|c s b bs F _ IH]; [easy|]. simpl. apply encode_cp_form in F. rewrite F, IH. easy.
Qed.
Lemma decode_iff s bs : utf8_decode bs = Ok s <-> utf8_of s bs.
Proof.
  rewrite <- encode_iff. split; [apply utf8_encode_decode|apply utf8_decode_encode].
Qed.
Lemma encode_error s x : utf8_encode s = Err x <-> x = UnicodeEncodeError /\ ~ Forall scalar s.
Proof.
  assert (C : forall c, encode_cp c = None <-> ~ scalar c).
  { intros c. unfold encode_cp, scalar.
    destruct (N.ltb_spec c 0x80); [split; [easy|lia]|]. destruct (N.ltb_spec c 0x800); [split; [easy|lia]|].
    destruct (N.leb_spec 0xD800 c), (N.ltb_spec c 0xE000); cbn [andb]; try (split; [lia|easy]).
    all: destruct (N.ltb_spec c 0x10000); [split; [easy|lia]|].
    all: destruct (N.ltb_spec c 0x110000); split; try easy; lia. }
  induction s as [|c s IH]; simpl.
  - split; [easy|]. intros [_ H]. destruct H. constructor.
  - destruct (encode_cp c) as [b|] eqn:E.
    + assert (S : scalar c).
      { destruct (N.lt_ge_cases c 0xD800) as [L|L]; [now left|].
        destruct (N.lt_ge_cases c 0xE000); [|destruct (N.lt_ge_cases c 0x110000); [right; lia|]];
          assert (X : ~ scalar c) by (unfold scalar; lia); apply C in X; congruence. }
      destruct (utf8_encode s) as [bs|y]; cbn [bind].
      * split; [easy|]. intros [-> H]. exfalso. assert (X : Ok bs = Err UnicodeEncodeError); [|easy].
        apply IH. split; [easy|]. intros F. apply H. now constructor.
      * split; intros H; [apply IH in H as [-> H]; split; [easy|]; intros F; apply H; now inversion F|].
        destruct H as [-> H]. apply IH. split; [easy|]. intros F. apply H. now constructor.
    + apply C in E. split; [intros [= <-]; split; [easy|]; intros F; now inversion F|]. now intros [-> _].
Qed.

Lemma cp2_scalar b0 b1 : (0xC2 <= Byte.to_N b0 < 0xE0) -> is_cont b1 = true -> scalar (cp2 b0 b1).
Proof. intros R C. unfold is_cont in C. b2p. unfold cp2, cont_bits, scalar. lia. Qed.
Lemma cp3_scalar b0 b1 b2 : (0xE0 <= Byte.to_N b0 < 0xF0) -> second_ok b0 b1 = true -> is_cont b2 = true ->
  scalar (cp3 b0 b1 b2).
Proof.
  intros R C C2. unfold second_ok, is_cont in *. b2p. unfold cp3, cont_bits, scalar.
  destruct (N.eqb_spec (Byte.to_N b0) 0xE0); [b2p; lia|].
  destruct (N.eqb_spec (Byte.to_N b0) 0xED); [b2p; lia|]. lia.
Qed.
Lemma cp4_scalar b0 b1 b2 b3 : (0xF0 <= Byte.to_N b0 < 0xF5) -> second_ok b0 b1 = true -> is_cont b2 = true ->
  is_cont b3 = true -> scalar (cp4 b0 b1 b2 b3).
Proof.
  intros R C C2 C3. unfold second_ok, is_cont in *. b2p. unfold cp4, cont_bits, scalar.
  destruct (N.eqb_spec (Byte.to_N b0) 0xE0); [lia|].
  destruct (N.eqb_spec (Byte.to_N b0) 0xED); [lia|].
  destruct (N.eqb_spec (Byte.to_N b0) 0xF0); [b2p; lia|].
  destruct (N.eqb_spec (Byte.to_N b0) 0xF4); [b2p; lia|]. lia.
Qed.

(* lossy decoding yields a string that can be encoded *)
Lemma replace_scalar bs : Forall scalar (decode_replace bs).
Proof.
  assert (R : scalar REPLACEMENT) by (unfold scalar, REPLACEMENT; lia).
  induction bs as [|b0 r0 IH] using decode_strict_ind; [constructor|]. cbn [decode_replace].
  destruct (N.ltb_spec (Byte.to_N b0) 0x80); [constructor; [unfold scalar; lia|now apply IH]|].
  destruct (N.ltb_spec (Byte.to_N b0) 0xC2); [constructor; [easy|now apply IH]|].
  destruct (N.ltb_spec (Byte.to_N b0) 0xE0).
  { destruct r0 as [|b1 r1]; [constructor; [easy|constructor]|].
    destruct (is_cont b1) eqn:C; constructor; try easy; try (apply IH; simpl; lia). apply cp2_scalar; [lia|easy]. }
  destruct (N.ltb_spec (Byte.to_N b0) 0xF0).
  { destruct r0 as [|b1 r1]; [constructor; [easy|constructor]|].
    destruct (second_ok b0 b1) eqn:C; [|constructor; [easy|apply IH; simpl; lia]].
    destruct r1 as [|b2 r2]; [constructor; [easy|constructor]|].
    destruct (is_cont b2) eqn:C2; constructor; try easy; try (apply IH; simpl; lia). apply cp3_scalar; [lia|easy|easy]. }
  destruct (N.ltb_spec (Byte.to_N b0) 0xF5); [|constructor; [easy|now apply IH]].
  destruct r0 as [|b1 r1]; [constructor; [easy|constructor]|].
  destruct (second_ok b0 b1) eqn:C; [|constructor; [easy|apply IH; simpl; lia]].
  destruct r1 as [|b2 r2]; [constructor; [easy|constructor]|].
  destruct (is_cont b2) eqn:C2; [|constructor; [easy|apply IH; simpl; lia]].
  destruct r2 as [|b3 r3]; [constructor; [easy|constructor]|].
  destruct (is_cont b3) eqn:C3; constructor; try easy; try (apply IH; simpl; lia). apply cp4_scalar; [lia|easy|easy|easy].
Qed.

(* the replacement character shows up whenever the input is not UTF-8 *)
Lemma replace_invalid bs : ~ In REPLACEMENT (decode_replace bs) -> decode_strict bs = Some (decode_replace bs).
Proof.
  induction bs as [|b0 r0 IH] using decode_strict_ind; [easy|]. cbn [decode_replace decode_strict]. intros H.
  destruct (N.ltb_spec (Byte.to_N b0) 0x80).
  { rewrite IH; [easy|easy|]. intros X. apply H. now right. }
  destruct (N.ltb_spec (Byte.to_N b0) 0xC2); [exfalso; apply H; now left|].
  destruct (N.ltb_spec (Byte.to_N b0) 0xE0).
  { destruct r0 as [|b1 r1]; [exfalso; apply H; now left|].
    destruct (is_cont b1); [|exfalso; apply H; now left]. rewrite IH; [easy|simpl; lia|].
    intros X. apply H. now right. }
  destruct (N.ltb_spec (Byte.to_N b0) 0xF0).
  { destruct r0 as [|b1 r1]; [exfalso; apply H; now left|].
    destruct (second_ok b0 b1); [|exfalso; apply H; now left].
    destruct r1 as [|b2 r2]; [exfalso; apply H; now left|].
    destruct (is_cont b2); [|exfalso; apply H; now left]. cbn [andb]. rewrite IH; [easy|simpl; lia|].
    intros X. apply H. now right. }
  destruct (N.ltb_spec (Byte.to_N b0) 0xF5); [|exfalso; apply H; now left].
  destruct r0 as [|b1 r1]; [exfalso; apply H; now left|].
  destruct (second_ok b0 b1); [|exfalso; apply H; now left].
  destruct r1 as [|b2 r2]; [exfalso; apply H; now left|].
  destruct (is_cont b2); [|exfalso; apply H; now left].
  destruct r2 as [|b3 r3]; [exfalso; apply H; now left|].
  destruct (is_cont b3); [|exfalso; apply H; now left]. cbn [andb]. rewrite IH; [easy|simpl; lia|].
  intros X. apply H. now right.
Qed.

Lemma strict_iff bs s : utf8_decode bs = Ok s <-> decode_strict bs = Some s.
Proof. unfold utf8_decode. destruct (decode_strict bs); split; intros H; congruence. Qed.
Lemma replace_invalid_In bs : utf8_decode bs = Err UnicodeDecodeError -> In REPLACEMENT (decode_replace bs).
Proof.
  intros H. destruct (in_dec N.eq_dec REPLACEMENT (decode_replace bs)) as [I|N]; [easy|].
  apply replace_invalid in N. unfold utf8_decode in H. now rewrite N in H.
Qed.
