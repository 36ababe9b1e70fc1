(* What a successful read says about the file, and how readers behave when the file is
   extended. *)
From Coq Require Import Lia.
From Verif Require Import Py PyProofs Utf8 Utf8Proofs IO IOProofs Arr Subword Vocab VocabProofs
  Storage StorageProofs Chunks Embeddings Spec.

(* ---------------------------------------------------------------- *)
(* inversion of successful reads                                     *)

Lemma read_ok n d p bs q :
  read n d p = Ok (bs, q) -> bs = takeN n (dropN p d) /\ q = p + lenN bs /\ n < ssize_limit.
Proof.
  unfold read. destruct (N.leb_spec ssize_limit n); [easy|]. intros [= <- <-]. auto.
Qed.

Lemma read_binary_some fmt d p vs q :
  read_binary fmt d p = Ok (Some vs, q) ->
  vs = unpack fmt (takeN (N.of_nat (calcsize fmt)) (dropN p d))
  /\ (0 < calcsize fmt)%nat
  /\ q = p + N.of_nat (calcsize fmt) /\ q <= lenN d.
Proof.
  intros H. unfold read_binary in H. apply rbind_ok in H as (bs & p' & H1 & H).
  apply read_ok in H1 as (E & -> & _).
  destruct (Nat.eqb_spec (length bs) 0); [easy|].
  destruct (Nat.eqb_spec (length bs) (calcsize fmt)) as [El|]; [|easy].
  cbn [negb] in H. cbn iota in H. unfold rret in H. injection H as <- <-. rewrite E at 1.
  assert (LB : lenN bs = N.of_nat (calcsize fmt)) by (unfold lenN; now rewrite El).
  pose proof (f_equal lenN E) as E2. rewrite lenN_takeN, lenN_dropN in E2.
  split; [easy|]. split; [lia|]. split; [lia|]. lia.
Qed.

Lemma read_binary_none fmt d p q :
  read_binary fmt d p = Ok (None, q) ->
  q = p /\ ((0 < calcsize fmt)%nat -> lenN d <= p).
Proof.
  intros H. unfold read_binary in H. apply rbind_ok in H as (bs & p' & H1 & H).
  apply read_ok in H1 as (E & -> & _).
  destruct (Nat.eqb_spec (length bs) 0) as [El|].
  2: { destruct (negb _); easy. }
  unfold rret in H. injection H as <-.
  assert (LB : lenN bs = 0) by (unfold lenN; now rewrite El).
  pose proof (f_equal lenN E) as E2. rewrite lenN_takeN, lenN_dropN in E2. lia.
Qed.

Lemma read_required_ok fmt d p vs q :
  read_required_binary fmt d p = Ok (vs, q) ->
  vs = unpack fmt (takeN (N.of_nat (calcsize fmt)) (dropN p d))
  /\ (0 < calcsize fmt)%nat
  /\ q = p + N.of_nat (calcsize fmt) /\ q <= lenN d.
Proof.
  intros H. unfold read_required_binary in H. apply rbind_ok in H as ([vs'|] & p' & H1 & H); [|easy].
  unfold rret in H. injection H as <- <-. now apply read_binary_some.
Qed.

Lemma read1_ok f d p v q :
  plain f = true -> read1 f d p = Ok (v, q) ->
  v = unpack_field f (takeN (N.of_nat (field_size f)) (dropN p d))
  /\ q = p + N.of_nat (field_size f) /\ q <= lenN d.
Proof.
  intros Hf H. unfold read1 in H. apply rbind_ok in H as (vs & p' & H1 & H).
  apply read_required_ok in H1 as (E & _ & E2 & E3).
  cbn [calcsize] in *. rewrite Nat.add_0_r in *.
  destruct vs as [|v' [|]]; try easy. unfold rret in H. injection H as <- <-.
  split; [|easy].
  assert (X : forall bs, length bs = field_size f -> unpack [f] bs = [unpack_field f bs]).
  { intros bs Hb. destruct f; try easy; cbn [unpack]; rewrite <- Hb, firstn_all; easy. }
  rewrite X in E; [now injection E|].
  pose proof (lenN_takeN (N.of_nat (field_size f)) (dropN p d)) as LT. rewrite lenN_dropN in LT.
  unfold lenN in LT at 1. lia.
Qed.

Lemma unpack_u_range f bs :
  (f = fU32 \/ f = fU64) -> length bs = field_size f ->
  (0 <= unpack_field f bs < 2 ^ (8 * Z.of_nat (field_size f)))%Z.
Proof.
  intros Hf Hl. assert (E : unpack_field f bs = Z.of_N (le_val bs)) by (now destruct Hf as [-> | ->]).
  rewrite E. pose proof (le_val_lt bs) as H. unfold lenN in H. rewrite Hl in H.
  split; [lia|]. destruct Hf as [-> | ->]; simpl in *; 
    [change (256 ^ N.of_nat 4) with (2 ^ 32) in H | change (256 ^ N.of_nat 8) with (2 ^ 64) in H];
    apply N2Z.inj_lt in H; rewrite N2Z.inj_pow in H; exact H.
Qed.

Lemma read_u32_ok d p v q :
  read1 fU32 d p = Ok (v, q) -> q = p + 4 /\ q <= lenN d /\ (0 <= v < 2 ^ 32)%Z.
Proof.
  intros H. apply read1_ok in H as (E & E2 & E3); [|easy].
  split; [easy|]. split; [easy|]. subst v. apply (unpack_u_range fU32); auto.
  pose proof (lenN_takeN (N.of_nat (field_size fU32)) (dropN p d)) as LT. rewrite lenN_dropN in LT.
  unfold lenN in LT at 1. lia.
Qed.
Lemma read_u64_ok d p v q :
  read1 fU64 d p = Ok (v, q) -> q = p + 8 /\ q <= lenN d /\ (0 <= v < 2 ^ 64)%Z.
Proof.
  intros H. apply read1_ok in H as (E & E2 & E3); [|easy].
  split; [easy|]. split; [easy|]. subst v. apply (unpack_u_range fU64); auto.
  pose proof (lenN_takeN (N.of_nat (field_size fU64)) (dropN p d)) as LT. rewrite lenN_dropN in LT.
  unfold lenN in LT at 1. lia.
Qed.

(* ---------------------------------------------------------------- *)
(* stability under extension of the file                             *)

(* [stable r]: r moves forward, and if it stops strictly before the end of a file then it does
   the same on every longer file *)
Definition stable {A} (r : reader A) : Prop :=
  forall d p a q, r d p = Ok (a, q) ->
    p <= q /\ (q < lenN d -> forall ext, r (d ++ ext) p = Ok (a, q)).
(* [solid r]: if r succeeds on a file then it does the same on every longer file *)
Definition solid {A} (r : reader A) : Prop :=
  forall d p a q, r d p = Ok (a, q) ->
    p <= q /\ forall ext, r (d ++ ext) p = Ok (a, q).

Lemma solid_stable {A} (r : reader A) : solid r -> stable r.
Proof. intros H d p a q E. apply H in E as [E1 E2]. auto. Qed.

Lemma solid_ret {A} (a : A) : solid (rret a).
Proof. intros d p b q [= <- <-]. split; [lia|easy]. Qed.
Lemma solid_fail {A} e : solid (@rfail A e).
Proof. easy. Qed.
Lemma solid_lift {A} (r : result A) : solid (rlift r).
Proof. intros d p b q H. pose proof H as H'. apply rlift_ok in H as [-> ->]. split; [lia|easy]. Qed.
Lemma solid_tell : solid tell.
Proof. intros d p a q [= <- <-]. split; [lia|easy]. Qed.
Lemma solid_seek_fwd n : solid (seek_fwd n).
Proof.
  intros d p a q H. unfold seek_fwd in *. destruct (_ || _); [easy|].
  injection H as <- <-. split; [lia|easy].
Qed.
Lemma solid_bind {A B} (m : reader A) (k : A -> reader B) :
  solid m -> (forall a, solid (k a)) -> solid (rbind m k).
Proof.
  intros Hm Hk d p b q H. apply rbind_ok in H as (a & p' & H1 & H2).
  apply Hm in H1 as [L1 H1]. apply Hk in H2 as [L2 H2]. split; [lia|].
  intros ext. rewrite (rbind_step _ _ _ _ _ _ (H1 ext)). apply H2.
Qed.
Lemma stable_bind {A B} (m : reader A) (k : A -> reader B) :
  stable m -> (forall a, stable (k a)) -> stable (rbind m k).
Proof.
  intros Hm Hk d p b q H. apply rbind_ok in H as (a & p' & H1 & H2).
  apply Hm in H1 as [L1 H1]. apply Hk in H2 as [L2 H2]. split; [lia|].
  intros Hq ext. rewrite (rbind_step _ _ _ _ _ _ (H1 ltac:(lia) ext)). now apply H2.
Qed.

Lemma takeN_dropN_app {A} n p (d ext : list A) :
  p + n <= lenN d -> takeN n (dropN p (d ++ ext)) = takeN n (dropN p d).
Proof.
  intros H. rewrite dropN_app, takeN_app, lenN_dropN.
  replace (n - (lenN d - p)) with 0 by lia. now rewrite takeN_0, app_nil_r.
Qed.

Lemma stable_read n : stable (read n).
Proof.
  intros d p bs q H. pose proof H as H'. apply read_ok in H as (E & -> & Hn).
  split; [lia|]. intros Hq ext.
  unfold read. destruct (N.leb_spec ssize_limit n); [lia|].
  pose proof (f_equal lenN E) as E2. rewrite lenN_takeN, lenN_dropN in E2.
  rewrite takeN_dropN_app by lia. now rewrite <- E.
Qed.

Lemma solid_required fmt : solid (read_required_binary fmt).
Proof.
  intros d p vs q H. pose proof H as H'. apply read_required_ok in H as (E & E1 & E2 & E3).
  split; [lia|]. intros ext.
  unfold read_required_binary, read_binary in *.
  apply rbind_ok in H' as (x & p1 & H' & H2). apply rbind_ok in H' as (bs & p2 & H' & H3).
  apply read_ok in H' as (Eb & -> & Hn).
  assert (LB : lenN bs = N.of_nat (calcsize fmt)).
  { rewrite Eb, lenN_takeN, lenN_dropN. lia. }
  assert (R : read (N.of_nat (calcsize fmt)) (d ++ ext) p = Ok (bs, p + lenN bs)).
  { unfold read. destruct (N.leb_spec ssize_limit (N.of_nat (calcsize fmt))); [lia|].
    rewrite takeN_dropN_app by lia. now rewrite <- Eb. }
  assert (S1 : rbind (read (N.of_nat (calcsize fmt))) (fun buf =>
       if Nat.eqb (length buf) 0 then rret None
       else if negb (Nat.eqb (length buf) (calcsize fmt)) then rfail FormatError
       else rret (Some (unpack fmt buf))) (d ++ ext) p = Ok (x, p1)).
  { rewrite (rbind_step _ _ _ _ _ _ R). destruct (Nat.eqb (length bs) 0); [exact H3|].
    destruct (negb _); exact H3. }
  rewrite (rbind_step _ _ _ _ _ _ S1). destruct x; exact H2.
Qed.

Lemma solid_read1 f : solid (read1 f).
Proof.
  apply solid_bind; [apply solid_required|]. intros [|a [|]]; auto using solid_fail, solid_ret.
Qed.
Lemma solid_read2 f g : solid (read2 f g).
Proof.
  apply solid_bind; [apply solid_required|]. intros [|a [|b [|]]]; auto using solid_fail, solid_ret.
Qed.
Lemma solid_read4 f g h i : solid (read4 f g h i).
Proof.
  apply solid_bind; [apply solid_required|].
  intros [|a [|b [|c [|e [|]]]]]; auto using solid_fail, solid_ret.
Qed.

Lemma stable_rrepeat {A} n (m : reader A) : stable m -> stable (rrepeat n m).
Proof.
  intros Hm. induction n as [|n IH]; simpl.
  - apply solid_stable, solid_ret.
  - apply stable_bind; [easy|]. intros a. apply stable_bind; [easy|]. intros l.
    apply solid_stable, solid_ret.
Qed.

(* the header of the file *)
Lemma solid_header : solid header_read_chunk.
Proof.
  intros d p ids q H. unfold header_read_chunk in H.
  apply rbind_ok in H as (magic & p1 & H1 & H).
  destruct (bytes_eqb magic MAGIC) eqn:Em; [|easy]. cbn [negb] in H. cbn iota in H.
  pose proof H1 as H1'. apply read_ok in H1' as (E & E2 & _).
  apply bytes_eqb_eq in Em.
  assert (S : solid (version <~ read1 fU32;;
       (if negb (version =? VERSION)%Z
        then rfail FormatError
        else n_chunks <~ read1 fU32;; read_required_binary (repeat fU32 (Z.to_nat n_chunks))))).
  { apply solid_bind; [apply solid_read1|]. intros v. destruct (negb _); [apply solid_fail|].
    apply solid_bind; [apply solid_read1|]. intros n. apply solid_required. }
  apply S in H as [Lq H]. split; [lia|]. intros ext. unfold header_read_chunk.
  assert (R : read 4 (d ++ ext) p = Ok (magic, p1)).
  { unfold read. change (ssize_limit <=? 4) with false. cbn iota.
    assert (LM : lenN magic = 4) by (rewrite Em; reflexivity).
    pose proof (f_equal lenN E) as E3. rewrite lenN_takeN, lenN_dropN in E3.
    rewrite takeN_dropN_app by lia. rewrite <- E. now rewrite E2. }
  rewrite (rbind_step _ _ _ _ _ _ R), Em.
  change (negb (bytes_eqb MAGIC MAGIC)) with false. cbn iota. apply H.
Qed.

(* chunk headers *)
Lemma read_chunk_header_some d p c n q :
  read_chunk_header d p = Ok (Some (c, n), q) ->
  q = p + 12 /\ q <= lenN d /\ n < 2 ^ 64
  /\ (forall ext, read_chunk_header (d ++ ext) p = Ok (Some (c, n), q)).
Proof.
  intros H. unfold read_chunk_header in *. apply rbind_ok in H as ([vs|] & p1 & H1 & H); [|easy].
  pose proof H1 as H1'.
  apply read_binary_some in H1 as (E & E1 & E2 & E3).
  assert (R : forall ext, read_binary [fU32; fU64] (d ++ ext) p = Ok (Some vs, p1)).
  { intros ext.
    assert (X : read_required_binary [fU32; fU64] d p = Ok (vs, p1))
      by (unfold read_required_binary; now rewrite (rbind_step _ _ _ _ _ _ H1')).
    apply solid_required in X as [_ X]. specialize (X ext). unfold read_required_binary in X.
    apply rbind_ok in X as ([vs'|] & p2 & X1 & X); [|easy]. unfold rret in X.
    injection X as <- <-. exact X1. }
  cbn [calcsize field_size] in *. change (N.of_nat (4 + (8 + 0))) with 12 in *.
  assert (Ev : vs = [Z.of_N (le_val (firstn 4 (takeN 12 (dropN p d))));
                     Z.of_N (le_val (firstn 8 (skipn 4 (takeN 12 (dropN p d)))))])
    by exact E.
  rewrite Ev in H. apply rbind_ok in H as (c' & p2 & H2 & H).
  apply rlift_ok in H2 as [H2 ->]. unfold rret in H. injection H as <- <- <-.
  split; [easy|]. split; [easy|]. split.
  - rewrite N2Z.id. pose proof (le_val_lt (firstn 8 (skipn 4 (takeN 12 (dropN p d))))) as X.
    eapply N.lt_le_trans; [exact X|].
    change (2 ^ 64) with (256 ^ 8). apply N.pow_le_mono_r; [lia|].
    unfold lenN. rewrite firstn_length. lia.
  - intros ext. rewrite (rbind_step _ _ _ _ _ _ (R ext)). rewrite Ev.
    unfold rlift, rbind. now rewrite H2.
Qed.

Lemma read_chunk_header_none d p q :
  read_chunk_header d p = Ok (None, q) -> q = p /\ lenN d <= p.
Proof.
  intros H. unfold read_chunk_header in *. apply rbind_ok in H as ([vs|] & p1 & H1 & H).
  - destruct vs as [|a [|b [|]]]; try easy.
    apply rbind_ok in H as (c' & p2 & _ & H). easy.
  - apply read_binary_none in H1 as [-> H1]. unfold rret in H. injection H as <-.
    split; [easy|]. apply H1. simpl. lia.
Qed.

Lemma read_required_chunk_header_ok d p c n q :
  read_required_chunk_header d p = Ok ((c, n), q) ->
  q = p + 12 /\ q <= lenN d
  /\ (forall ext, read_required_chunk_header (d ++ ext) p = Ok ((c, n), q)).
Proof.
  intros H. unfold read_required_chunk_header in *.
  apply rbind_ok in H as ([[c' n']|] & p1 & H1 & H); [|easy].
  unfold rret in H. injection H as <- <- <-.
  apply read_chunk_header_some in H1 as (E1 & E2 & _ & E3).
  split; [easy|]. split; [easy|]. intros ext. now rewrite (rbind_step _ _ _ _ _ _ (E3 ext)).
Qed.
Lemma solid_required_chunk_header : solid read_required_chunk_header.
Proof.
  intros d p [c n] q H. apply read_required_chunk_header_ok in H as (-> & _ & H).
  split; [lia|easy].
Qed.

(* ---------------------------------------------------------------- *)
(* vocabularies                                                      *)

Lemma stable_read_item : stable read_item.
Proof.
  apply stable_bind; [apply solid_stable, solid_read1|]. intros n.
  apply stable_bind; [apply stable_read|]. intros b. apply solid_stable, solid_lift.
Qed.
Lemma stable_read_items n : stable (read_items n).
Proof. apply stable_rrepeat, stable_read_item. Qed.

Lemma stable_vocab_read_chunk c e : stable (vocab_read_chunk c e).
Proof.
  destruct c; simpl; try (apply solid_stable, solid_fail).
  - apply stable_bind; [apply solid_stable, solid_read1|]. intros n.
    apply stable_bind; [apply stable_read_items|]. intros ws. apply solid_stable, solid_lift.
  - apply stable_bind; [apply solid_stable, solid_read4|]. intros [[[l mn] mx] b].
    apply stable_bind; [apply stable_read_items|]. intros ws.
    apply solid_stable, solid_bind; [apply solid_lift|]. intros. apply solid_lift.
  - apply stable_bind; [apply solid_stable, solid_read4|]. intros [[[l mn] mx] b].
    apply stable_bind; [apply stable_read_items|]. intros ws.
    apply solid_stable, solid_bind; [apply solid_lift|]. intros. apply solid_lift.
  - apply stable_bind; [apply solid_stable, solid_read4|]. intros [[[l ng] mn] mx].
    apply stable_bind; [apply stable_read_items|]. intros ws.
    apply stable_bind.
    + apply stable_bind; [|intros; apply solid_stable, solid_ret].
      apply stable_rrepeat. apply stable_bind; [apply stable_read_item|]. intros it.
      apply solid_stable, solid_bind; [apply solid_read1|]. intros; apply solid_ret.
    + intros [gs gi]. apply solid_stable, solid_bind; [apply solid_lift|].
      intros. apply solid_lift.
Qed.

(* ---------------------------------------------------------------- *)
(* arrays                                                            *)

Lemma fromfile_ok k n d p l q :
  fromfile k n d p = Ok (l, q) ->
  let bs := takeN (n * N.of_nat k) (dropN p d) in
  l = split_elems (length bs / k) k bs /\ q = p + lenN bs /\ n * N.of_nat k < ssize_limit.
Proof.
  unfold fromfile. destruct (N.leb_spec ssize_limit (n * N.of_nat k)); [easy|].
  intros [= <- <-]. auto.
Qed.
Lemma split_elems_length n k bs : length (split_elems n k bs) = n.
Proof. revert bs; induction n; simpl; auto. Qed.

Lemma read_array_ok h k n d p l q :
  read_array_as_native h k n d p = Ok (l, q) ->
  let bs := takeN (n * N.of_nat k) (dropN p d) in
  l = split_elems (length bs / k) k bs /\ q = p + lenN bs /\ n * N.of_nat k < ssize_limit.
Proof.
  intros H. unfold read_array_as_native in H. apply rbind_ok in H as (raw & p1 & H1 & H).
  apply fromfile_ok in H1 as (E & E2 & E3). unfold rret in H. injection H as <- <-.
  split; [|easy]. rewrite <- E. destruct h; simpl.
  - erewrite map_ext; [apply map_id|]. easy.
  - rewrite map_map. erewrite map_ext; [apply map_id|]. intros a. apply rev_involutive.
Qed.
Lemma read_array_eq h k n d p :
  read_array_as_native h k n d p =
  if ssize_limit <=? n * N.of_nat k then Err OverflowError
  else let bs := takeN (n * N.of_nat k) (dropN p d) in
       Ok (split_elems (length bs / k) k bs, p + lenN bs).
Proof.
  unfold read_array_as_native, rbind, fromfile. destruct (ssize_limit <=? _); [easy|].
  unfold rret. do 2 f_equal. destruct h; simpl.
  - erewrite map_ext; [apply map_id|]. easy.
  - rewrite map_map. erewrite map_ext; [apply map_id|]. intros a. apply rev_involutive.
Qed.

(* reading all the requested elements *)
Lemma read_array_full h k n d p l q :
  (0 < k)%nat ->
  read_array_as_native h k n d p = Ok (l, q) -> lenN l = n ->
  q = p + n * N.of_nat k /\ (n = 0 \/ q <= lenN d)
  /\ forall h' ext, read_array_as_native h' k n (d ++ ext) p = Ok (l, q).
Proof.
  intros Hk H Hl. pose proof H as H'. apply read_array_ok in H as (E & E2 & E3).
  set (bs := takeN (n * N.of_nat k) (dropN p d)) in *.
  assert (LB : lenN bs = N.min (n * N.of_nat k) (lenN d - p))
    by (unfold bs; now rewrite lenN_takeN, lenN_dropN).
  assert (LE : n = N.of_nat (length bs / k)).
  { rewrite <- Hl, E. unfold lenN. now rewrite split_elems_length. }
  assert (LF : lenN bs = n * N.of_nat k).
  { assert (X : (length bs / k * k <= length bs)%nat).
    { rewrite (Nat.mul_comm _ k). apply Nat.mul_div_le. lia. }
    apply N.le_antisymm; [lia|]. rewrite LE at 1. rewrite <- Nat2N.inj_mul. unfold lenN. lia. }
  split; [lia|]. split; [lia|].
  intros h' ext. rewrite read_array_eq. destruct (N.leb_spec ssize_limit (n * N.of_nat k)); [lia|].
  destruct (N.eq_dec n 0) as [->|Hn].
  - rewrite N.mul_0_l, takeN_0. simpl. unfold bs in *. rewrite N.mul_0_l, takeN_0 in *.
    rewrite E. do 2 f_equal. rewrite E2. easy.
  - rewrite takeN_dropN_app by nia. fold bs. cbv zeta. now rewrite <- E, E2.
Qed.

(* on an extended file at least the same elements are read *)
Lemma split_elems_prefix n m k bs ext :
  (0 < k)%nat -> (n <= m)%nat -> (n * k <= length bs)%nat ->
  firstn n (split_elems m k (bs ++ ext)) = split_elems n k bs.
Proof.
  intros Hk. revert m bs; induction n as [|n IH]; intros m bs Hm Hl; [easy|].
  destruct m as [|m]; [lia|]. simpl. f_equal.
  - rewrite firstn_app. replace (k - length bs)%nat with 0%nat by (simpl in Hl; lia).
    now rewrite app_nil_r.
  - rewrite skipn_app. replace (k - length bs)%nat with 0%nat by (simpl in Hl; lia).
    cbn [skipn]. apply IH; [lia|]. rewrite skipn_length. simpl in Hl. lia.
Qed.

Lemma read_array_extend h k n d p l q ext l' q' :
  (0 < k)%nat ->
  read_array_as_native h k n d p = Ok (l, q) ->
  read_array_as_native h k n (d ++ ext) p = Ok (l', q') ->
  lenN l = lenN l' -> l = l'.
Proof.
  intros Hk H H' Hl. apply read_array_ok in H as (E & _ & _).
  apply read_array_ok in H' as (E' & _ & _).
  set (bs := takeN (n * N.of_nat k) (dropN p d)) in *.
  set (bs' := takeN (n * N.of_nat k) (dropN p (d ++ ext))) in *.
  assert (P : exists x, bs' = bs ++ x).
  { unfold bs', bs. rewrite dropN_app, takeN_app. eauto. }
  destruct P as [x Px].
  assert (N1 : (length bs / k = length bs' / k)%nat).
  { apply Nat2N.inj. unfold lenN in Hl. rewrite E, E', !split_elems_length in Hl. exact Hl. }
  rewrite E, E', <- N1, Px.
  rewrite <- (split_elems_prefix (length bs / k) (length bs / k) k bs x); auto.
  - apply firstn_all2. rewrite split_elems_length. lia.
  - rewrite (Nat.mul_comm _ k). apply Nat.mul_div_le. lia.
Qed.

Lemma reshape2_ok {A} r c (l : list A) m : reshape2 r c l = Ok m ->
  lenN l = r * c /\ m = split_rows (N.to_nat r) (N.to_nat c) l.
Proof.
  unfold reshape2. destruct (N.eqb_spec (lenN l) (r * c)); [|easy]. intros [= <-]. auto.
Qed.

(* an array read and reshaped *)
Lemma solid_read_reshape {B} h r c (k : list (list f32) -> reader B) n :
  n = r * c -> (forall m, solid (k m)) ->
  solid (a <~ read_array_as_native h 4 n ;; m <~ rlift (reshape2 r c (map f32_of_le a)) ;; k m).
Proof.
  intros -> Hk d p b q H. apply rbind_ok in H as (a & p1 & H1 & H).
  apply rbind_ok in H as (m & p2 & H2 & H).
  apply rlift_ok in H2 as [H2 ->]. pose proof H2 as H2'.
  apply reshape2_ok in H2' as [Hl _]. rewrite lenN_map in Hl.
  apply read_array_full in H1 as (E & _ & R); [|lia|easy].
  apply Hk in H as [Lq H]. split; [lia|]. intros ext.
  rewrite (rbind_step _ _ _ _ _ _ (R h ext)). unfold rlift, rbind. rewrite H2. apply H.
Qed.

Lemma solid_array_header : solid read_array_header.
Proof.
  apply solid_bind; [apply solid_read2|]. intros [rows cols].
  apply solid_bind; [apply solid_read1|]. intros t.
  apply solid_bind; [apply solid_lift|]. intros [|]; [apply solid_fail|].
  apply solid_bind; [apply solid_tell|]. intros pos.
  apply solid_bind; [apply solid_seek_fwd|]. intros _. apply solid_ret.
Qed.

Lemma solid_ndarray_read h : solid (ndarray_read_chunk h).
Proof.
  apply solid_bind; [apply solid_array_header|]. intros [rows cols].
  apply solid_read_reshape; [easy|]. intros. apply solid_ret.
Qed.

Lemma memmap_ok k o n d l ext :
  memmap k o n d = Ok l -> memmap k o n (d ++ ext) = Ok l.
Proof.
  unfold memmap. destruct (N.leb_spec (o + n * N.of_nat k) (lenN d)); [|easy].
  intros [= <-]. rewrite lenN_app.
  destruct (N.leb_spec (o + n * N.of_nat k) (lenN d + lenN ext)); [|lia].
  now rewrite takeN_dropN_app by lia.
Qed.
Lemma solid_memmap {A} k o n (f : list bytes -> A) :
  solid (fun d p => rlift (a <- memmap k o n d ;; Ok (f a)) d p).
Proof.
  intros d p a q H. apply rlift_ok in H as [H ->]. split; [lia|]. intros ext.
  apply bind_ok in H as (l & H1 & H2). unfold rlift. rewrite (memmap_ok _ _ _ _ _ ext H1).
  cbn [bind]. injection H2 as <-. easy.
Qed.

Lemma solid_ndarray_mmap h : solid (ndarray_mmap_chunk h).
Proof.
  destruct h; [|apply solid_fail].
  apply solid_bind; [apply solid_array_header|]. intros [rows cols].
  apply solid_bind; [apply solid_tell|]. intros off.
  apply solid_bind; [apply solid_seek_fwd|]. intros _.
  apply (solid_memmap 4 off (rows * cols) (fun array =>
    NdA BoNative cols (split_rows (N.to_nat rows) (N.to_nat cols) (map f32_of_le array)))).
Qed.

(* ---------------------------------------------------------------- *)
(* quantized arrays                                                  *)

(* everything in the quantized header up to the norms is solid; the norms are stable *)
Definition read_norms_part (h : endian) (flag : Z) (ne : N)
  : reader (option (byteorder * list f32)) :=
  if negb (flag =? 0)%Z then
    a <~ read_array_as_native h 4 ne ;;
    rret (Some (BoNative, map f32_of_le a))
  else rret None.

Definition quantized_header_pre (h : endian)
  : reader (Z * (N * N * N) * list (list (list f32)) * option (byteorder * N * N * list (list f32))
            * N) :=
  projection <~ read1 fU32 ;;
  read_norms <~ read1 fU32 ;;
  quantized_len <~ read1 fU32 ;;
  reconstructed_len <~ read1 fU32 ;;
  n_centroids <~ read1 fU32 ;;
  n_embeddings <~ read1 fU64 ;;
  if (quantized_len =? 0)%Z then rfail ZeroDivisionError
  else
  _ <~ rlift (py_assert (reconstructed_len mod quantized_len =? 0)%Z) ;;
  t1 <~ read1 fU32 ;;
  if negb (t1 =? type_id_val TU8)%Z then rfail FormatError
  else
  t2 <~ read1 fU32 ;;
  if negb (t2 =? type_id_val TF32)%Z then rfail FormatError
  else
  pos <~ tell ;;
  _ <~ seek_fwd (pad_float32 pos) ;;
  let ql := Z.to_N quantized_len in
  let rl := Z.to_N reconstructed_len in
  let nc := Z.to_N n_centroids in
  let ne := Z.to_N n_embeddings in
  proj <~ (if negb (projection =? 0)%Z then
             a <~ read_array_as_native h 4 (rl ^ 2) ;;
             m <~ rlift (reshape2 rl rl (map f32_of_le a)) ;;
             rret (Some (BoNative, rl, rl, m))
           else rret None) ;;
  let sub := rl / ql in
  qs <~ read_array_as_native h 4 (ql * nc * sub) ;;
  flat <~ rlift (reshape2 ql (nc * sub) (map f32_of_le qs)) ;;
  let quantizers := map (split_rows (N.to_nat nc) (N.to_nat sub)) flat in
  rret (read_norms, (ql, nc, ne), quantizers, proj, sub).

Definition quantized_header_post (h : endian)
  (x : Z * (N * N * N) * list (list (list f32)) * option (byteorder * N * N * list (list f32)) * N)
  : reader (pq f32 * (N * N) * option (byteorder * list f32)) :=
  let '(read_norms, (ql, nc, ne), quantizers, proj, sub) := x in
  norms <~ read_norms_part h read_norms ne ;;
  p <~ rlift (pq_new BoNative nc sub quantizers proj) ;;
  rret (p, (ne, ql), norms).

Lemma rbind_assoc {A B C} (m : reader A) (f : A -> reader B) (g : B -> reader C) d p :
  rbind (rbind m f) g d p = rbind m (fun a => rbind (f a) g) d p.
Proof. unfold rbind. destruct (m d p) as [[a p']|]; easy. Qed.
Lemma rbind_ext {A B} (m : reader A) (f g : A -> reader B) d p :
  (forall a p', f a d p' = g a d p') -> rbind m f d p = rbind m g d p.
Proof. intros H. unfold rbind. destruct (m d p) as [[a p']|]; auto. Qed.
Lemma rbind_fail {A B} e (f : A -> reader B) d p : rbind (rfail e) f d p = Err e.
Proof. easy. Qed.
Lemma rbind_ret {A B} (a : A) (f : A -> reader B) d p : rbind (rret a) f d p = f a d p.
Proof. easy. Qed.

Lemma quantized_header_split h d p :
  read_quantized_header h d p
  = rbind (quantized_header_pre h) (quantized_header_post h) d p.
Proof.
  unfold read_quantized_header, quantized_header_pre.
  rewrite rbind_assoc. apply rbind_ext; intros a1 p1. rewrite rbind_assoc. apply rbind_ext; intros a2 p2.
  rewrite rbind_assoc. apply rbind_ext; intros a3 p3. rewrite rbind_assoc. apply rbind_ext; intros a4 p4.
  rewrite rbind_assoc. apply rbind_ext; intros a5 p5. rewrite rbind_assoc. apply rbind_ext; intros a6 p6.
  destruct (a3 =? 0)%Z; [easy|].
  rewrite rbind_assoc. apply rbind_ext; intros a7 p7.
  rewrite rbind_assoc. apply rbind_ext; intros a8 p8. destruct (negb (a8 =? _)%Z); [easy|].
  rewrite rbind_assoc. apply rbind_ext; intros a9 p9. destruct (negb (a9 =? _)%Z); [easy|].
  rewrite rbind_assoc. apply rbind_ext; intros b1 q1. rewrite rbind_assoc. apply rbind_ext; intros b2 q2.
  cbv zeta.
  rewrite rbind_assoc. apply rbind_ext; intros b3 q3. rewrite rbind_assoc. apply rbind_ext; intros b4 q4.
  rewrite rbind_assoc. apply rbind_ext; intros b5 q5. now rewrite rbind_ret.
Qed.

Lemma solid_if {A} (c : bool) (m n : reader A) :
  solid m -> solid n -> solid (if c then m else n).
Proof. now destruct c. Qed.

Lemma solid_quantized_pre h : solid (quantized_header_pre h).
Proof.
  unfold quantized_header_pre.
  do 6 (apply solid_bind; [apply solid_read1|]; intros ?). apply solid_if; [apply solid_fail|].
  apply solid_bind; [apply solid_lift|]; intros ?.
  apply solid_bind; [apply solid_read1|]; intros ?. apply solid_if; [apply solid_fail|].
  apply solid_bind; [apply solid_read1|]; intros ?. apply solid_if; [apply solid_fail|].
  apply solid_bind; [apply solid_tell|]; intros ?. apply solid_bind; [apply solid_seek_fwd|]; intros ?.
  cbv zeta. apply solid_bind.
  - apply solid_if; [|apply solid_ret].
    apply solid_read_reshape; [apply N.pow_2_r|]. intros. apply solid_ret.
  - intros ?. apply solid_read_reshape; [lia|]. intros. apply solid_ret.
Qed.

Lemma stable_read_array h k n : (0 < k)%nat -> stable (read_array_as_native h k n).
Proof.
  intros Hk d p l q H. pose proof H as H'. apply read_array_ok in H as (E & -> & E3).
  split; [lia|]. intros Hq ext. rewrite lenN_takeN, lenN_dropN in Hq.
  rewrite read_array_eq in *. destruct (ssize_limit <=? n * N.of_nat k); [easy|].
  rewrite takeN_dropN_app by lia. exact H'.
Qed.
Lemma stable_if {A} (c : bool) (m n : reader A) :
  stable m -> stable n -> stable (if c then m else n).
Proof. now destruct c. Qed.
Lemma stable_norms_part h f ne : stable (read_norms_part h f ne).
Proof.
  unfold read_norms_part. apply stable_if; [|apply solid_stable, solid_ret].
  apply stable_bind; [apply stable_read_array; lia|]. intros; apply solid_stable, solid_ret.
Qed.

(* the norms are either completely read, or the file was read to its end *)
Lemma norms_part_cases h f ne d p x q :
  read_norms_part h f ne d p = Ok (x, q) ->
  (ne <> 0 -> q < lenN d \/ (forall ext, read_norms_part h f ne (d ++ ext) p = Ok (x, q)) \/ lenN d <= q)
  /\ (ne = 0 -> forall ext, read_norms_part h f ne (d ++ ext) p = Ok (x, q)).
Proof.
  intros H. split.
  - intros _. lia.
  - intros -> ext. unfold read_norms_part in *. destruct (negb (f =? 0)%Z); [|exact H].
    apply rbind_ok in H as (a & p1 & H1 & H).
    assert (La : lenN a = 0).
    { apply read_array_ok in H1 as (E & _ & _). rewrite N.mul_0_l, takeN_0 in E. now subst a. }
    apply read_array_full in H1 as (_ & _ & R); [|lia|easy].
    rewrite (rbind_step _ _ _ _ _ _ (R h ext)). exact H.
Qed.

Lemma quantized_pre_nonzero h d p rn ql nc ne qs proj sub q :
  quantized_header_pre h d p = Ok ((rn, (ql, nc, ne), qs, proj, sub), q) -> ql <> 0.
Proof.
  intros H. unfold quantized_header_pre in H.
  apply rbind_ok in H as (a1 & p1 & _ & H). apply rbind_ok in H as (a2 & p2 & _ & H).
  apply rbind_ok in H as (a3 & p3 & H3 & H). apply rbind_ok in H as (a4 & p4 & _ & H).
  apply rbind_ok in H as (a5 & p5 & _ & H). apply rbind_ok in H as (a6 & p6 & _ & H).
  destruct (Z.eqb_spec a3 0) as [|Hnz]; [easy|].
  apply rbind_ok in H as (a7 & p7 & _ & H). apply rbind_ok in H as (a8 & p8 & _ & H).
  destruct (negb _); [easy|]. apply rbind_ok in H as (a9 & p9 & _ & H). destruct (negb _); [easy|].
  apply rbind_ok in H as (b1 & q1 & _ & H). apply rbind_ok in H as (b2 & q2 & _ & H).
  cbv zeta in H. apply rbind_ok in H as (b3 & q3 & _ & H). apply rbind_ok in H as (b4 & q4 & _ & H).
  apply rbind_ok in H as (b5 & q5 & _ & H). unfold rret in H. injection H as _ <- _ _ _ _ _ _.
  apply read_u32_ok in H3 as (_ & _ & H3). lia.
Qed.

(* the codes are read completely, which forces the norms to be complete too *)
Lemma solid_qarray_tail {B} h (k : _ -> reader B) :
  (forall q0 ne ql nrm d p b q,
      ql <> 0 -> k (q0, (ne, ql), nrm) d p = Ok (b, q) ->
      p <= q /\ (ne = 0 \/ p < lenN d) /\ forall ext, k (q0, (ne, ql), nrm) (d ++ ext) p = Ok (b, q)) ->
  solid (hd <~ read_quantized_header h ;; k hd).
Proof.
  intros Hk d p b q H.
  assert (H' : rbind (quantized_header_pre h) (fun x => rbind (quantized_header_post h x) k) d p = Ok (b, q)).
  { rewrite <- rbind_assoc. unfold rbind at 1. rewrite <- quantized_header_split. exact H. }
  clear H. apply rbind_ok in H' as (x & p1 & H1 & H).
  destruct x as [[[[rn [[ql nc] ne]] qs] proj] sub].
  pose proof (quantized_pre_nonzero _ _ _ _ _ _ _ _ _ _ _ H1) as Hnz.
  apply solid_quantized_pre in H1 as [L1 H1].
  apply rbind_ok in H as (y & p2 & H2 & H). unfold quantized_header_post in H2.
  apply rbind_ok in H2 as (nrm & p3 & H2 & H3). apply rbind_ok in H3 as (pq & p4 & H3 & H4).
  apply rlift_ok in H3 as [H3 ->]. unfold rret in H4. injection H4 as <- <-.
  apply Hk in H as (L4 & Hne & H); [|easy].
  pose proof (stable_norms_part _ _ _ _ _ _ _ H2) as [L2 S2].
  split; [lia|]. intros ext.
  unfold rbind at 1. rewrite quantized_header_split.
  rewrite (rbind_step _ _ _ _ _ _ (H1 ext)). unfold quantized_header_post.
  assert (R : read_norms_part h rn ne (d ++ ext) p1 = Ok (nrm, p3)).
  { destruct (norms_part_cases _ _ _ _ _ _ _ H2) as [_ Z0].
    destruct (N.eq_dec ne 0) as [E0|E0]; [now apply Z0|]. apply S2. destruct Hne; [easy|lia]. }
  rewrite (rbind_step _ _ _ _ _ _ R). unfold rlift. rewrite H3. unfold rbind, rret. apply H.
Qed.

Lemma split_elems_1 bs : concat (split_elems (length bs) 1 bs) = bs.
Proof. induction bs as [|x bs IH]; simpl; [easy|]. now rewrite IH. Qed.

Lemma solid_qarray_read h : solid (qarray_read_chunk h).
Proof.
  unfold qarray_read_chunk. apply solid_qarray_tail.
  intros q0 ne ql nrm d p b q Hnz H.
  apply rbind_ok in H as (codes & p1 & H1 & H). apply rbind_ok in H as (m & p2 & H2 & H).
  apply rlift_ok in H2 as [H2 ->]. unfold rret in H. injection H as <- <-.
  pose proof (reshape2_ok _ _ _ _ H2) as [Hl _].
  assert (Hc : lenN codes = ne * ql).
  { rewrite <- Hl. pose proof H1 as H1'. apply read_array_ok in H1' as (E & _ & _). revert E.
    generalize (takeN (ne * ql * N.of_nat 1) (dropN p d)). intros bs ->. rewrite Nat.div_1_r.
    unfold lenN. rewrite split_elems_length, split_elems_1. easy. }
  apply read_array_full in H1 as (E & B & R); [|lia|easy].
  split; [lia|]. split.
  - destruct (N.eq_dec ne 0); [now left|right]. destruct B as [B|B]; [nia|]. subst p1. nia.
  - intros ext. rewrite (rbind_step _ _ _ _ _ _ (R h ext)). unfold rlift, rbind. now rewrite H2.
Qed.

Lemma solid_qarray_mmap h : solid (qarray_mmap_chunk h).
Proof.
  destruct h; [|apply solid_fail]. unfold qarray_mmap_chunk. apply solid_qarray_tail.
  intros q0 ne ql nrm d p b q Hnz H.
  apply rbind_ok in H as (off & p1 & H1 & H). unfold tell in H1. injection H1 as <- <-.
  apply rbind_ok in H as (u & p2 & H2 & H).
  pose proof H as HH.
  apply rlift_ok in H as [H ->]. apply bind_ok in H as (codes & Hm & H).
  unfold memmap in Hm. destruct (N.leb_spec (p + ne * ql * N.of_nat 1) (lenN d)) as [B|]; [|easy].
  pose proof (solid_seek_fwd _ _ _ _ _ H2) as [L2 S2].
  split; [lia|]. split.
  - destruct (N.eq_dec ne 0); [now left|right]. nia.
  - intros ext. unfold tell. erewrite rbind_step by reflexivity.
    rewrite (rbind_step _ _ _ _ _ _ (S2 ext)).
    pose proof (solid_memmap 1 p (ne * ql) (fun codes => QA q0 ql
                     (split_rows (N.to_nat ne) (N.to_nat ql) (concat codes)) nrm)) as SM.
    apply SM in HH as [_ HH]. apply HH.
Qed.

Lemma solid_storage_read h mm c e : solid (storage_read_chunk h mm c e).
Proof.
  destruct c; simpl; try apply solid_fail.
  - unfold ndarray_load. apply solid_bind; [|intros; apply solid_ret].
    destruct mm; auto using solid_ndarray_read, solid_ndarray_mmap.
  - unfold qarray_load. apply solid_bind; [|intros; apply solid_ret].
    destruct mm; auto using solid_qarray_read, solid_qarray_mmap.
Qed.

(* ---------------------------------------------------------------- *)
(* metadata                                                          *)

Lemma metadata_read_extend t d p m q :
  metadata_read_chunk t d p = Ok (m, q) ->
  p <= q /\ forall ext, metadata_read_chunk t (d ++ ext) p = Ok (m, q).
Proof.
  intros H. unfold metadata_read_chunk in *.
  apply rbind_ok in H as (u & p1 & H1 & H). unfold seek_back in H1.
  destruct (N.leb_spec 12 p) as [Lp|]; [|easy]. injection H1 as <- <-.
  apply rbind_ok in H as ([i n] & p2 & H2 & H).
  assert (E2 : p2 = p - 12 + 12).
  { unfold read2 in H2. apply rbind_ok in H2 as (vs & p2' & H2 & H2').
    apply read_required_ok in H2 as (_ & _ & E & _).
    destruct vs as [|? [|? [|]]]; try easy. unfold rret in H2'. injection H2' as _ _ <-. exact E. }
  apply solid_read2 in H2 as [L2 H2].
  apply rbind_ok in H as (cid & p3 & H3 & H). apply rlift_ok in H3 as [H3 ->].
  apply rbind_ok in H as (u & p3 & H4 & H). apply rlift_ok in H4 as [H4 ->].
  apply rbind_ok in H as (buf & p3 & H5 & H).
  destruct (N.eqb_spec (lenN buf) (Z.to_N n)) as [El|]; [|easy]. cbn [negb] in H. cbn iota in H.
  apply rlift_ok in H as [H ->].
  pose proof H5 as H5'. apply read_ok in H5' as (E & E5 & Hn).
  split; [lia|]. intros ext.
  unfold seek_back. unfold rbind at 1. destruct (N.leb_spec 12 p); [|lia].
  rewrite (rbind_step _ _ _ _ _ _ (H2 ext)). unfold rlift at 1. rewrite H3.
  erewrite rbind_step by reflexivity. unfold rlift at 1. rewrite H4.
  erewrite rbind_step by reflexivity.
  assert (R : read (Z.to_N n) (d ++ ext) p2 = Ok (buf, p3)).
  { unfold read. destruct (N.leb_spec ssize_limit (Z.to_N n)); [lia|].
    pose proof (f_equal lenN E) as E3. rewrite lenN_takeN, lenN_dropN in E3.
    destruct (N.eq_dec (Z.to_N n) 0) as [Z0|Z0].
    - rewrite Z0, takeN_0 in E. rewrite Z0, takeN_0, E5, E. reflexivity.
    - rewrite takeN_dropN_app by lia. rewrite <- E. now rewrite E5. }
  rewrite (rbind_step _ _ _ _ _ _ R), El, N.eqb_refl. cbn [negb]. cbn iota.
  unfold rlift. now rewrite H.
Qed.
