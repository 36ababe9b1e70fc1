(* FNV hashes *)
From Coq Require Import Lia.
From Verif Require Import Py PyProofs Utf8 Utf8Proofs Subword Vocab VocabProofs Spec SpecVocab.

Lemma wrap64_mul h : wrap64 h = h mod 2 ^ 64. Proof. easy. Qed.

(* the shift variant multiplies by the prime *)
Lemma sum_mods M x a1 a4 a5 a7 a8 a40 : M <> 0 ->
  (x + (a1 mod M + a4 mod M + a5 mod M + a7 mod M + a8 mod M + a40 mod M) mod M) mod M
  = (x + a1 + a4 + a5 + a7 + a8 + a40) mod M.
Proof.
  intros H.
  assert (E : forall a c, (a + c mod M) mod M = (a + c) mod M)
    by (intros; now rewrite N.add_mod_idemp_r).
  rewrite E, !N.add_assoc.
  assert (R : forall a b c, a + b + c = a + c + b) by (intros; lia).
  rewrite E. rewrite (R _ (a8 mod M)), E. rewrite (R _ (a7 mod M)), (R _ (a7 mod M)), E.
  rewrite (R _ (a5 mod M)), (R _ (a5 mod M)), (R _ (a5 mod M)), E.
  rewrite (R _ (a4 mod M)), (R _ (a4 mod M)), (R _ (a4 mod M)), (R _ (a4 mod M)), E.
  rewrite (R _ (a1 mod M)), (R _ (a1 mod M)), (R _ (a1 mod M)), (R _ (a1 mod M)), (R _ (a1 mod M)), E.
  f_equal. lia.
Qed.

Lemma step_shift_mul h b : fnv_step_shift h b = fnv_step_mul h b.
Proof.
  unfold fnv_step_shift, fnv_step_mul, wrap64. generalize (N.lxor h (Byte.to_N b)). intros x.
  rewrite sum_mods by easy. rewrite !N.shiftl_mul_pow2. f_equal.
  change (2 ^ 1) with 2. change (2 ^ 4) with 16. change (2 ^ 5) with 32. change (2 ^ 7) with 128.
  change (2 ^ 8) with 256. change (2 ^ 40) with 1099511627776. unfold FNV_64_PRIME.
  lia.
Qed.

Lemma buf_shift_mul buf h : fnv_64a_buf buf h = fnv_64a_buf_mul buf h.
Proof.
  unfold fnv_64a_buf, fnv_64a_buf_mul. revert h; induction buf as [|b buf IH]; intros h; simpl; [easy|].
  now rewrite step_shift_mul.
Qed.

Lemma fnv1a_64_mul bs : fnv1a_64 bs = fnv_64a_buf_mul bs FNV1A_64_INIT.
Proof. reflexivity. Qed.

(* hashing a code point sequence is hashing the concatenated bytes *)
Lemma fold_code_points (f : N -> bytes) g h :
  fold_left (fun h c => fnv_64a_buf (f c) h) g h = fnv_64a_buf_mul (concat (map f g)) h.
Proof.
  revert h; induction g as [|c g IH]; intros h; [reflexivity|]. cbn [fold_left map concat].
  rewrite IH, buf_shift_mul. unfold fnv_64a_buf_mul. now rewrite fold_left_app.
Qed.
Lemma fifu_hash_bytes g : fifu_hash_ngram g 0 (lenN g) = fnv1a_64 (ngram_bytes g).
Proof.
  unfold fifu_hash_ngram, ngram_bytes. rewrite fnv1a_64_mul.
  unfold substr. rewrite dropN_0, takeN_all by lia.
  rewrite fold_code_points, buf_shift_mul. unfold fnv_64a_buf_mul.
  rewrite fold_left_app. reflexivity.
Qed.

Lemma ff_mask_mod x h : N.land h (ff_mask x) = h mod 2 ^ ff_exp x.
Proof.
  assert (E : ff_mask x = N.ones (ff_exp x)).
  { unfold ff_mask. rewrite N.ones_equiv, N.shiftl_1_l. now rewrite N.sub_1_r. }
  rewrite E. apply N.land_ones.
Qed.
Lemma ff_call_spec x g : ff_call x g = fnv1a_64 (ngram_bytes g) mod 2 ^ ff_exp x.
Proof. unfold ff_call. now rewrite ff_mask_mod, fifu_hash_bytes. Qed.
Lemma ff_call_bound x g : ff_call x g < 2 ^ ff_exp x.
Proof. rewrite ff_call_spec. apply N.mod_lt. apply N.pow_nonzero. easy. Qed.

(* ---------------------------------------------------------------- *)
(* four limbs                                                        *)

Lemma lxor_bound a b : a < 2 ^ 16 -> b < 2 ^ 16 -> N.lxor a b < 2 ^ 16.
Proof.
  intros Ha Hb. destruct (N.eq_dec (N.lxor a b) 0) as [->|N0]; [easy|].
  apply N.log2_lt_pow2; [lia|]. eapply N.le_lt_trans; [apply N.log2_lxor|].
  assert (L : forall c, c < 2 ^ 16 -> N.log2 c < 16).
  { intros c Hc. destruct (N.eq_dec c 0) as [->|]; [easy|]. apply N.log2_lt_pow2; lia. }
  apply N.max_lub_lt; auto.
Qed.

Lemma lxor_low k a b : a < 2 ^ 16 -> b < 2 ^ 16 -> N.lxor (a + 2 ^ 16 * k) b = N.lxor a b + 2 ^ 16 * k.
Proof.
  intros Ha Hb.
  assert (D : forall c, c < 2 ^ 16 -> c + 2 ^ 16 * k = N.lor c (N.shiftl k 16)).
  { intros c Hc. rewrite N.shiftl_mul_pow2, (N.mul_comm (2 ^ 16)).
    rewrite <- N.lxor_lor, <- N.add_nocarry_lxor; try easy;
    apply N.bits_inj; intros i; rewrite N.land_spec, N.bits_0;
    (destruct (N.lt_ge_cases i 16) as [L|L];
      [rewrite N.mul_pow2_bits_low by easy; apply andb_false_r
      |rewrite (N.bits_above_log2 c); [easy|];
       destruct (N.eq_dec c 0) as [->|N0]; [simpl; lia|];
       apply N.log2_lt_pow2 in Hc; lia]). }
  pose proof (lxor_bound a b Ha Hb) as X.
  rewrite (D a Ha), (D _ X). apply N.bits_inj. intros i.
  rewrite !N.lxor_spec, !N.lor_spec, N.lxor_spec.
  destruct (N.lt_ge_cases i 16) as [L|L].
  - rewrite N.shiftl_spec_low by easy. now rewrite !orb_false_r.
  - assert (B : forall c, c < 2 ^ 16 -> N.testbit c i = false).
    { intros c Hc. destruct (N.eq_dec c 0) as [->|N0]; [apply N.bits_0|].
      apply N.bits_above_log2. apply N.log2_lt_pow2 in Hc; lia. }
    rewrite (B a Ha), (B b Hb). simpl. now rewrite xorb_false_r.
Qed.

Definition limb_val (v : limb4) : N :=
  let '(v0, v1, v2, v3) := v in v0 + 2 ^ 16 * (v1 + 2 ^ 16 * (v2 + 2 ^ 16 * (v3 mod 2 ^ 16))).
Definition limb_ok (v : limb4) : Prop :=
  let '(v0, v1, v2, v3) := v in v0 < 2 ^ 16 /\ v1 < 2 ^ 16 /\ v2 < 2 ^ 16.

Lemma mod_pow_mod a w : 16 <= w -> (a mod 2 ^ w) mod 2 ^ 16 = a mod 2 ^ 16.
Proof.
  intros H. replace w with (16 + (w - 16)) by lia. rewrite N.pow_add_r.
  rewrite N.mod_mul_r by (try apply N.pow_nonzero; easy).
  rewrite N.mul_comm, N.mod_add by easy. apply N.mod_mod. easy.
Qed.
Lemma pow_ge w : 32 <= w -> 2 ^ 32 <= 2 ^ w.
Proof. intros H. apply N.pow_le_mono_r; easy. Qed.

Lemma mod16 a w : 16 <= w -> (a mod 2 ^ w) mod 65536 = a mod 65536.
Proof. apply mod_pow_mod. Qed.
Lemma limb_step w v b : 32 <= w -> limb_ok v ->
  limb_ok (fnv_step_limb w v b) /\ limb_val (fnv_step_limb w v b) = fnv_step_mul (limb_val v) b.
Proof.
  intros Hw. destruct v as [[[v0 v1] v2] v3]. intros (B0 & B1 & B2).
  pose proof (to_N_lt b) as Bb. pose proof (pow_ge w Hw) as P.
  unfold fnv_step_limb, fnv_step_mul, limb_val, wrap64.
  rewrite lxor_low by lia.
  pose proof (lxor_bound v0 (Byte.to_N b) B0 ltac:(lia)) as Bx.
  set (x := N.lxor v0 (Byte.to_N b)) in *. clearbody x. clear v0 B0.
  rewrite !N.shiftl_mul_pow2, !N.shiftr_div_pow2.
  change 0xffff with (N.ones 16). rewrite !N.land_ones.
  change (2 ^ 8) with 256. change (2 ^ 16) with 65536 in *. change (2 ^ 32) with 4294967296 in *.
  rewrite (N.mod_small (x * 435)) by lia. rewrite (N.mod_small (v1 * 435)) by lia.
  rewrite (N.mod_small (v2 * 435)) by lia. rewrite (N.mod_small (x * 256)) by lia.
  rewrite (N.mod_small (v1 * 256)) by lia.
  pose proof (N.div_mod (x * 435) (65536) ltac:(easy)) as D0.
  pose proof (N.mod_lt (x * 435) (65536) ltac:(easy)) as M0.
  set (q0 := x * 435 / 65536) in *. set (r0 := (x * 435) mod 65536) in *. clearbody q0 r0.
  rewrite (N.mod_small (v1 * 435 + q0)) by lia.
  pose proof (N.div_mod (v1 * 435 + q0) (65536) ltac:(easy)) as D1.
  pose proof (N.mod_lt (v1 * 435 + q0) (65536) ltac:(easy)) as M1.
  set (q1 := (v1 * 435 + q0) / 65536) in *. set (r1 := (v1 * 435 + q0) mod 65536) in *.
  clearbody q1 r1.
  rewrite (N.mod_small (v2 * 435 + x * 256)) by lia.
  rewrite (N.mod_small (v2 * 435 + x * 256 + q1)) by lia.
  pose proof (N.div_mod (v2 * 435 + x * 256 + q1) (65536) ltac:(easy)) as D2.
  pose proof (N.mod_lt (v2 * 435 + x * 256 + q1) (65536) ltac:(easy)) as M2.
  set (q2 := (v2 * 435 + x * 256 + q1) / 65536) in *.
  set (r2 := (v2 * 435 + x * 256 + q1) mod 65536) in *. clearbody q2 r2.
  split; [repeat split; easy|].
  rewrite mod16 by lia.
  (* v3 matters modulo 2^16 only *)
  assert (E3 : (((v3 * 435) mod 2 ^ w + v1 * 256) mod 2 ^ w + q2) mod 65536
               = ((v3 mod 65536) * 435 + v1 * 256 + q2) mod 65536).
  { rewrite N.add_mod by easy. rewrite mod16 by lia. rewrite <- N.add_mod by easy.
    rewrite <- N.add_assoc. rewrite N.add_mod by easy. rewrite mod16 by lia.
    rewrite <- N.mul_mod_idemp_l by easy. rewrite <- N.add_mod by easy. f_equal. lia. }
  rewrite E3. set (y := v3 mod 65536) in *. pose proof (N.mod_lt v3 (65536) ltac:(easy)) as My.
  fold y in My. clearbody y.
  pose proof (N.div_mod (y * 435 + v1 * 256 + q2) (65536) ltac:(easy)) as D3.
  pose proof (N.mod_lt (y * 435 + v1 * 256 + q2) (65536) ltac:(easy)) as M3.
  set (q3 := (y * 435 + v1 * 256 + q2) / 65536) in *.
  set (r3 := (y * 435 + v1 * 256 + q2) mod 65536) in *. clearbody q3 r3.
  replace ((x + 65536 * (v1 + 65536 * (v2 + 65536 * y))) * FNV_64_PRIME)
    with (r0 + 65536 * (r1 + 65536 * (r2 + 65536 * r3)) + (q3 + v2 * 256 + y * 16777216) * 2 ^ 64).
  - rewrite N.mod_add by easy. symmetry. apply N.mod_small.
    clear - M0 M1 M2 M3. change (2 ^ 64) with 18446744073709551616. lia.
  - clear - D0 D1 D2 D3. change (2 ^ 64) with 18446744073709551616. unfold FNV_64_PRIME. lia.
Qed.

Lemma limb_fold w buf : 32 <= w -> forall v, limb_ok v ->
  limb_ok (fold_left (fnv_step_limb w) buf v)
  /\ limb_val (fold_left (fnv_step_limb w) buf v) = fold_left fnv_step_mul buf (limb_val v).
Proof.
  intros Hw. induction buf as [|b buf IH]; intros v Hv; simpl; [easy|].
  destruct (limb_step w v b Hw Hv) as [H1 H2]. destruct (IH _ H1) as [H3 H4].
  split; [easy|]. now rewrite H4, H2.
Qed.

Lemma lor_high a b : b < 2 ^ 16 -> N.lor (a * 2 ^ 16) b = a * 2 ^ 16 + b.
Proof.
  intros Hb. symmetry. rewrite <- N.lxor_lor, <- N.add_nocarry_lxor; try easy;
    apply N.bits_inj; intros i; rewrite N.land_spec, N.bits_0;
    (destruct (N.lt_ge_cases i 16) as [L|L];
      [rewrite N.mul_pow2_bits_low by easy; apply andb_false_l
      |rewrite (N.bits_above_log2 b); [apply andb_false_r|];
       destruct (N.eq_dec b 0) as [->|N0]; [simpl; lia|];
       apply N.log2_lt_pow2 in Hb; lia]).
Qed.

Lemma limb_word w a b : 32 <= w -> b < 2 ^ 16 ->
  wrap32 (N.lor ((a * 2 ^ 16) mod 2 ^ w) b) = (a mod 2 ^ 16) * 2 ^ 16 + b.
Proof.
  intros Hw Hb. unfold wrap32.
  assert (E : (a * 2 ^ 16) mod 2 ^ w = (a mod 2 ^ (w - 16)) * 2 ^ 16).
  { replace (2 ^ w) with (2 ^ (w - 16) * 2 ^ 16).
    - apply N.mul_mod_distr_r; [apply N.pow_nonzero; easy|easy].
    - rewrite <- N.pow_add_r. f_equal. lia. }
  rewrite E, lor_high by easy.
  pose proof (N.div_mod (a mod 2 ^ (w - 16)) (2 ^ 16) ltac:(easy)) as D.
  assert (Hw' : 16 <= w - 16) by (clear - Hw; lia).
  rewrite (mod_pow_mod a (w - 16) Hw') in D.
  pose proof (N.mod_lt a (2 ^ 16) ltac:(easy)) as M.
  rewrite D. generalize dependent (a mod 2 ^ 16).
  generalize (a mod 2 ^ (w - 16) / 2 ^ 16). intros k y _ M.
  change (2 ^ 16) with 65536 in *. change (2 ^ 32) with 4294967296. clear - Hb M.
  replace ((65536 * k + y) * 65536 + b) with (y * 65536 + b + k * 4294967296) by lia.
  rewrite N.mod_add by easy. apply N.mod_small. lia.
Qed.

Lemma step_mul_lt h b : fnv_step_mul h b < 2 ^ 64.
Proof. apply N.mod_lt. easy. Qed.
Lemma fold_mul_lt buf h : h < 2 ^ 64 -> fold_left fnv_step_mul buf h < 2 ^ 64.
Proof.
  revert h; induction buf as [|b buf IH]; intros h H; simpl; [easy|]. apply IH, step_mul_lt.
Qed.

Lemma buf_limb_mul w buf h : 32 <= w -> h < 2 ^ 64 ->
  fnv_64a_buf_limb w buf h = fnv_64a_buf_mul buf h.
Proof.
  intros Hw Hh. unfold fnv_64a_buf_limb, fnv_64a_buf_mul.
  change 0xffff with (N.ones 16). rewrite !N.land_ones, !N.shiftr_div_pow2.
  set (v := (_, _, _, _)).
  assert (Hv : limb_ok v).
  { unfold v, limb_ok. split; [apply N.mod_lt; easy|]. split; [|apply N.mod_lt; easy].
    apply N.div_lt_upper_bound; [easy|]. apply N.mod_lt. easy. }
  assert (Ev : limb_val v = h).
  { unfold v, limb_val.
    pose proof (N.div_mod h (2 ^ 32) ltac:(easy)) as D.
    pose proof (N.mod_lt h (2 ^ 32) ltac:(easy)) as M.
    set (lo := h mod 2 ^ 32) in *. set (hi := h / 2 ^ 32) in *. clearbody lo hi.
    pose proof (N.div_mod lo (2 ^ 16) ltac:(easy)) as Dl.
    pose proof (N.div_mod hi (2 ^ 16) ltac:(easy)) as Dh.
    rewrite (N.mod_small (hi / 2 ^ 16)).
    - generalize dependent (lo mod 2 ^ 16). generalize dependent (lo / 2 ^ 16).
      generalize dependent (hi mod 2 ^ 16). generalize dependent (hi / 2 ^ 16). intros. lia.
    - apply N.div_lt_upper_bound; [easy|]. lia. }
  destruct (limb_fold w buf Hw v Hv) as [H1 H2]. rewrite Ev in H2.
  destruct (fold_left (fnv_step_limb w) buf v) as [[[v0 v1] v2] v3].
  destruct H1 as (B0 & B1 & B2). rewrite !N.shiftl_mul_pow2.
  rewrite !limb_word by easy. rewrite <- H2. unfold limb_val.
  rewrite (N.mod_small v1) by easy. generalize (v3 mod 2 ^ 16). intros. lia.
Qed.

(* ---------------------------------------------------------------- *)
(* fastText                                                          *)

Lemma sign_extend_signed b : Z.of_N (sign_extend8 b) = (signed_byte b mod 2 ^ 32)%Z.
Proof. destruct b; reflexivity. Qed.
Lemma lxor_Z a b : Z.of_N (N.lxor a b) = Z.lxor (Z.of_N a) (Z.of_N b).
Proof. now destruct a, b. Qed.

Lemma ft_fold bs h :
  Z.of_N (fold_left ft_step bs h)
  = fold_left (fun h b => (Z.lxor h (signed_byte b mod 2 ^ 32) * 16777619) mod 2 ^ 32)%Z bs
      (Z.of_N h).
Proof.
  revert h; induction bs as [|b bs IH]; intros h; cbn [fold_left]; [easy|].
  rewrite IH. f_equal. unfold ft_step, wrap32. rewrite N2Z.inj_mod, N2Z.inj_mul, lxor_Z.
  rewrite sign_extend_signed. easy.
Qed.
Lemma ft_hash_spec bs : Z.of_N (ft_hash_ngram bs 0 (lenN bs)) = fasttext_hash bs.
Proof.
  unfold ft_hash_ngram, substr. rewrite dropN_0, takeN_all by lia. rewrite ft_fold. easy.
Qed.
Lemma ft_call_spec x g :
  ft_call x g = match utf8_encode g with
                | Ok bs => Ok (Z.to_N (fasttext_hash bs mod Z.of_N (ft_buckets x)))
                | Err e => Err e
                end.
Proof.
  unfold ft_call. destruct (utf8_encode g) as [bs|e]; [|easy]. cbn [bind]. f_equal.
  rewrite <- ft_hash_spec, <- N2Z.inj_mod. now rewrite N2Z.id.
Qed.
Lemma ft_call_bound x g h : 0 < ft_buckets x -> ft_call x g = Ok h -> h < ft_buckets x.
Proof.
  intros H0 H. unfold ft_call in H. destruct (utf8_encode g); [|easy]. cbn [bind] in H.
  injection H as <-. apply N.mod_lt. lia.
Qed.
