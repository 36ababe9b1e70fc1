(* Storages and norms of finalfusion files: the bytes the readers take. *)
From Coq Require Import Lia.
From Verif Require Import Py PyProofs Utf8 Utf8Proofs Utf8More SpecUtf8 IO IOProofs ReaderProofs Arr
  Subword Vocab VocabProofs Storage StorageProofs Chunks Embeddings Spec StorageInv ExtendProofs
  SpecFinalfusion FfParse.
Local Open Scope N_scope.
Local Open Scope list_scope.

(* the bytes b are at position p; the reader goes on at q with the bytes s *)
Definition takes (d : bytes) (p : N) (b s : bytes) (q : N) : Prop :=
  dropN p d = b ++ s /\ dropN q d = s.
Lemma takes_here d p b s : dropN p d = b ++ s -> takes d p b s (p + lenN b).
Proof. intros E. split; [easy|]. rewrite <- dropN_dropN, E. apply dropN_app_l. Qed.
Lemma parses_takes {A} (m : reader A) P d p a q : parses m P -> m d p = Ok (a, q) ->
  exists b s, takes d p b s q /\ P p b s a q.
Proof.
  intros [F H] E. apply H in E as (b & s & E & X). exists b, s. split; [|easy]. split; [easy|].
  eapply forward_drop; eauto.
Qed.
Lemma u32_inv d p z q : read1 fU32 d p = Ok (z, q) ->
  exists n s, z = Z.of_N n /\ n < 2 ^ 32 /\ q = p + 4 /\ takes d p (u32 n) s q.
Proof.
  intros H. apply (parses_takes _ _ _ _ _ _ parses_u32) in H as (b & s & T & -> & n & -> & -> & B).
  exists n, s. rewrite lenN_u32 in *. auto.
Qed.
Lemma u64_inv d p z q : read1 fU64 d p = Ok (z, q) ->
  exists n s, z = Z.of_N n /\ n < 2 ^ 64 /\ q = p + 8 /\ takes d p (u64 n) s q.
Proof.
  intros H. apply (parses_takes _ _ _ _ _ _ parses_u64) in H as (b & s & T & -> & n & -> & -> & B).
  exists n, s. rewrite lenN_u64 in *. auto.
Qed.
Lemma u32_take d p n s : dropN p d = u32 n ++ s -> n < 2 ^ 32 ->
  read1 fU32 d p = Ok (Z.of_N n, p + 4) /\ dropN (p + 4) d = s.
Proof.
  intros E B. split.
  - apply parses_u32. exists (u32 n), s. split; [easy|]. split; [now rewrite lenN_u32|]. now exists n.
  - rewrite <- (lenN_u32 n). apply takes_here in E. apply E.
Qed.
Lemma u64_take d p n s : dropN p d = u64 n ++ s -> n < 2 ^ 64 ->
  read1 fU64 d p = Ok (Z.of_N n, p + 8) /\ dropN (p + 8) d = s.
Proof.
  intros E B. split.
  - apply parses_u64. exists (u64 n), s. split; [easy|]. split; [now rewrite lenN_u64|]. now exists n.
  - rewrite <- (lenN_u64 n). apply takes_here in E. apply E.
Qed.
Lemma u6432_inv d p x q : read2 fU64 fU32 d p = Ok (x, q) ->
  exists n m s, x = (Z.of_N n, Z.of_N m) /\ n < 2 ^ 64 /\ m < 2 ^ 32 /\ q = p + 12
    /\ takes d p (u64 n ++ u32 m) s q.
Proof.
  intros H. apply (parses_takes _ _ _ _ _ _ (parses_read2 fU64 fU32 (or_intror eq_refl) (or_introl eq_refl)))
    in H as (b & s & T & -> & n & m & -> & -> & B1 & B2).
  exists n, m, s. split; [easy|]. split; [exact B1|]. split; [exact B2|]. split; [|exact T].
  rewrite lenN_app. change (ubytes fU64 n) with (u64 n). change (ubytes fU32 m) with (u32 m). now rewrite lenN_u32, lenN_u64.
Qed.
Lemma u6432_take d p n m s : dropN p d = u64 n ++ u32 m ++ s -> n < 2 ^ 64 -> m < 2 ^ 32 ->
  read2 fU64 fU32 d p = Ok ((Z.of_N n, Z.of_N m), p + 12) /\ dropN (p + 12) d = s.
Proof.
  intros E B1 B2. rewrite app_assoc in E.
  assert (L : lenN (u64 n ++ u32 m) = 12) by (now rewrite lenN_app, lenN_u32, lenN_u64). split.
  - apply (parses_read2 fU64 fU32); [now right|now left|]. exists (u64 n ++ u32 m), s. split; [easy|].
    split; [now rewrite L|]. exists n, m. auto.
  - rewrite <- L. apply takes_here in E. apply E.
Qed.

(* padding *)
Lemma pad_small p : 1 <= pad_float32 p <= 4.
Proof. unfold pad_float32. pose proof (N.mod_upper_bound p 4). lia. Qed.
Lemma pad_inv d p u q : seek_fwd (pad_float32 p) d p = Ok (u, q) ->
  exists pad s, q = p + pad_float32 p /\ takes d p pad s q /\ ff_pad p pad s.
Proof.
  intros H. apply (parses_takes _ _ _ _ _ _ (parses_seek_fwd _ (proj2 (pad_small p)))) in H as (b & s & T & -> & _ & U).
  exists b, s. auto.
Qed.
Lemma pad_take d p pad s : dropN p d = pad ++ s -> ff_pad p pad s -> p + 4 < ssize_limit ->
  seek_fwd (pad_float32 p) d p = Ok (tt, p + pad_float32 p) /\ dropN (p + pad_float32 p) d = s.
Proof.
  intros E U L. pose proof (pad_small p) as P.
  assert (X : seek_fwd (pad_float32 p) d p = Ok (tt, p + pad_float32 p)).
  { apply (parses_seek_fwd (pad_float32 p)); [easy|]. exists pad, s. split; [easy|]. split; [easy|]. split; [lia|exact U]. }
  split; [easy|]. destruct U as [U|[U ->]].
  - unfold pad_float32. rewrite <- U. apply takes_here in E. apply E.
  - apply dropN_all. rewrite app_nil_r in E. apply (f_equal lenN) in E. rewrite lenN_dropN in E. unfold pad_float32 in *. lia.
Qed.

(* arrays *)
Definition r_elems (k : nat) (n : N) (b s : bytes) (l : list bytes) : Prop :=
  l = split_elems (length b / k) k b /\ upto (n * N.of_nat k) b s /\ n * N.of_nat k < ssize_limit.
Lemma parses_elems h k n : parses (read_array_as_native h k n) (here (fun _ => r_elems k n)).
Proof.
  split; [apply forward_here|]. intros d p l q. rewrite read_array_eq.
  destruct (N.leb_spec ssize_limit (n * N.of_nat k)) as [L|L].
  - split; [easy|]. intros (b & s & _ & _ & _ & _ & ?). lia.
  - cbv zeta. split.
    + intros [= <- <-]. exists (takeN (n * N.of_nat k) (dropN p d)), (dropN (n * N.of_nat k) (dropN p d)).
      destruct (proj2 (upto_iff (n * N.of_nat k) (dropN p d) _ _) (conj eq_refl eq_refl)) as [E U].
      split; [exact E|]. split; [easy|]. split; [easy|]. auto.
    + intros (b & s & E & -> & -> & U & _).
      destruct (proj1 (upto_iff (n * N.of_nat k) (dropN p d) b s) (conj E U)) as [E1 _]. now rewrite <- E1.
Qed.
Lemma floats_len l : lenN (floats_le l) = 4 * lenN l.
Proof. apply f32s_len. Qed.
Lemma split_floats (l : list f32) : split_elems (length l) 4 (floats_le l) = f32s_le l.
Proof.
  unfold floats_le, f32s_le. rewrite <- (app_nil_r (concat _)), <- (map_length f32_le l). apply split_elems_concat.
  apply (f32s_elems l).
Qed.
Lemma floats_split b n : length b = (n * 4)%nat -> exists l, length l = n /\ b = floats_le l.
Proof.
  revert b. induction n as [|n IH]; intros b H.
  - destruct b; [|easy]. now exists [].
  - destruct b as [|x1 [|x2 [|x3 [|x4 b]]]]; try (cbn in H; lia).
    destruct (IH b) as (l & L & ->); [cbn in H; lia|]. exists (F32 x1 x2 x3 x4 :: l). cbn. now rewrite L.
Qed.
(* all the elements *)
Lemma elems_all n b s l : r_elems 4 n b s l /\ lenN l = n <->
  exists fl, lenN fl = n /\ b = floats_le fl /\ l = f32s_le fl /\ n * 4 < ssize_limit.
Proof.
  unfold r_elems. change (N.of_nat 4) with 4. split.
  - intros [(-> & U & B) L]. unfold lenN in L at 1. rewrite split_elems_length in L.
    assert (LB : length b = (N.to_nat n * 4)%nat).
    { assert (X : (length b / 4 * 4 <= length b)%nat) by (rewrite Nat.mul_comm; apply Nat.mul_div_le; lia).
      destruct U as [U|[U _]]; unfold lenN in U; lia. }
    destruct (floats_split _ _ LB) as (fl & LF & ->). exists fl.
    assert (Q : (length (floats_le fl) / 4 = length fl)%nat) by (rewrite LB, Nat.div_mul, LF; lia).
    rewrite Q, split_floats. split; [unfold lenN; lia|]. auto.
  - intros (fl & <- & -> & -> & B).
    assert (LB : length (floats_le fl) = (length fl * 4)%nat) by (pose proof (floats_len fl) as X; unfold lenN in X; lia).
    rewrite LB, Nat.div_mul by lia. rewrite split_floats. split; [|unfold f32s_le; apply lenN_map].
    split; [easy|]. split; [|easy]. left. rewrite floats_len. lia.
Qed.
Lemma split_floats_app (fl : list f32) rest : split_elems (length fl) 4 (floats_le fl ++ rest) = f32s_le fl.
Proof.
  unfold floats_le, f32s_le. rewrite <- (map_length f32_le fl). apply split_elems_concat.
  apply (f32s_elems fl).
Qed.
Lemma elems_some n b s l : r_elems 4 n b s l <->
  exists fl rest, b = floats_le fl ++ rest /\ l = f32s_le fl /\ n * 4 < ssize_limit
    /\ (lenN fl = n /\ rest = [] \/ lenN fl < n /\ lenN rest < 4 /\ s = []).
Proof.
  unfold r_elems. change (N.of_nat 4) with 4. split.
  - intros (-> & U & B).
    pose proof (Nat.div_mod (length b) 4 ltac:(lia)) as DM. pose proof (Nat.mod_upper_bound (length b) 4 ltac:(lia)) as MB.
    set (k := (length b / 4)%nat) in *. clearbody k.
    destruct (floats_split (firstn (k * 4) b) k) as (fl & LF & E); [rewrite firstn_length; lia|].
    assert (EB : b = floats_le fl ++ skipn (k * 4) b) by (now rewrite <- E, firstn_skipn).
    assert (LR : lenN (skipn (k * 4) b) < 4) by (unfold lenN; rewrite skipn_length; lia).
    exists fl, (skipn (k * 4) b). split; [easy|]. split.
    { rewrite EB, <- LF. apply split_floats_app. }
    split; [easy|]. pose proof (f_equal lenN EB) as LB. rewrite lenN_app, floats_len in LB.
    destruct U as [U|[U ->]].
    + left. assert (lenN (skipn (k * 4) b) = 0) by lia. split; [lia|]. now apply length_zero_iff_nil; unfold lenN in *; lia.
    + right. split; [lia|]. easy.
  - intros (fl & rest & -> & -> & B & C).
    assert (LF : length (floats_le fl) = (length fl * 4)%nat) by (pose proof (floats_len fl) as X; unfold lenN in X; lia).
    assert (LR : (length rest < 4)%nat) by (destruct C as [[_ ->]|(_ & C & _)]; [cbn; lia|unfold lenN in C; lia]).
    rewrite app_length, LF, Nat.add_comm, Nat.div_add, Nat.div_small by lia. cbn [Nat.add].
    rewrite split_floats_app. split; [easy|]. split; [|easy]. unfold upto. rewrite lenN_app, floats_len.
    destruct C as [[C ->]|(C & D & ->)]; [left; unfold lenN; cbn; unfold lenN in C; lia|].
    right. split; [|easy]. lia.
Qed.

Lemma concat_split {A} r c (l : list A) : lenN l = r * c ->
  concat (split_rows (N.to_nat r) (N.to_nat c) l) = l.
Proof.
  intros H. assert (X : forall n (l : list A), length l = (n * N.to_nat c)%nat ->
    concat (split_rows n (N.to_nat c) l) = l).
  { clear. induction n as [|n IH]; intros l H; simpl; [now destruct l|].
    rewrite IH by (rewrite skipn_length; simpl in H; lia). apply firstn_skipn. }
  apply X. unfold lenN in H. lia.
Qed.
Lemma reshape_iff {A} r c (l : list A) m : reshape2 r c l = Ok m <->
  lenN m = r /\ rows_wf c m /\ l = concat m.
Proof.
  split.
  - intros H. apply reshape2_ok in H as [L ->]. destruct (split_rows_wf _ _ _ L) as [W1 W2].
    now rewrite concat_split.
  - intros (<- & W & ->). now apply reshape2_concat.
Qed.
Lemma matrix_inv h r c n d p l q m : n = r * c ->
  read_array_as_native h 4 n d p = Ok (l, q) -> reshape2 r c (map f32_of_le l) = Ok m ->
  exists s, takes d p (floats_le (concat m)) s q /\ q = p + n * 4 /\ lenN m = r /\ rows_wf c m.
Proof.
  intros -> H R. apply (parses_takes _ _ _ _ _ _ (parses_elems h 4 _)) in H as (b & s & T & -> & X).
  assert (L : lenN l = r * c) by (apply reshape2_ok in R as [R _]; now rewrite lenN_map in R).
  destruct (proj1 (elems_all _ _ _ _) (conj X L)) as (fl & LF & -> & -> & B).
  rewrite f32s_roundtrip in R. apply reshape_iff in R as (R1 & R2 & ->).
  exists s. rewrite floats_len in *. split; [easy|]. split; [lia|]. auto.
Qed.
Lemma floats_take h fl n d p s : lenN fl = n -> n * 4 < ssize_limit -> dropN p d = floats_le fl ++ s ->
  read_array_as_native h 4 n d p = Ok (f32s_le fl, p + n * 4) /\ dropN (p + n * 4) d = s.
Proof.
  intros E B D. assert (LN : lenN (floats_le fl) = n * 4) by (rewrite floats_len; lia). split.
  - apply (parses_elems h 4 n). exists (floats_le fl), s. split; [easy|]. split; [now rewrite LN|].
    apply elems_all. now exists fl.
  - rewrite <- LN. apply takes_here in D. apply D.
Qed.
Lemma matrix_take h r c n d p m s : n = r * c -> lenN m = r -> rows_wf c m -> n * 4 < ssize_limit ->
  dropN p d = floats_le (concat m) ++ s ->
  exists l, read_array_as_native h 4 n d p = Ok (l, p + n * 4) /\ reshape2 r c (map f32_of_le l) = Ok m
    /\ dropN (p + n * 4) d = s.
Proof.
  intros -> L W B D. assert (LC : lenN (concat m) = r * c) by (rewrite (rows_concat_len _ _ W); now rewrite L).
  destruct (floats_take h _ _ _ _ _ LC B D) as [R E]. exists (f32s_le (concat m)). split; [easy|]. split; [|easy].
  rewrite f32s_roundtrip. now apply reshape_iff.
Qed.

(* the header of an array *)
Lemma array_header_inv d p x q : read_array_header d p = Ok (x, q) ->
  exists r c pad s, x = (r, c) /\ r < 2 ^ 64 /\ c < 2 ^ 32
    /\ dropN p d = (u64 r ++ u32 c ++ u32 10) ++ pad ++ s /\ dropN q d = s
    /\ ff_pad (p + 16) pad s /\ q = p + 16 + pad_float32 (p + 16).
Proof.
  unfold read_array_header. intros H. apply rbind_ok in H as ([r c] & p1 & H1 & H).
  apply u6432_inv in H1 as (n & m & s1 & [= -> ->] & B1 & B2 & -> & T1 & T1').
  apply rbind_ok in H as (t & p2 & H2 & H). apply u32_inv in H2 as (k & s2 & -> & B3 & -> & T2 & T2').
  apply rbind_ok in H as (tid & p3 & H3 & H). apply rlift_ok in H3 as [H3 ->].
  destruct tid; try discriminate H.
  assert (K : k = 10).
  { unfold type_id_of in H3. destruct (Z.of_N k) as [|z|z] eqn:E in H3; [discriminate H3| |discriminate H3].
    repeat (destruct z as [z|z|]; try discriminate H3). lia. }
  subst k. apply rbind_ok in H as (pos & p3 & H4 & H). unfold tell in H4. injection H4 as <- <-.
  apply rbind_ok in H as (u & p4 & H4 & H). unfold rret in H. injection H as <- <-.
  replace (p + 12 + 4) with (p + 16) in * by lia.
  apply pad_inv in H4 as (pad & s & -> & [T3 T3'] & U).
  exists n, m, pad, s. rewrite !N2Z.id. rewrite T1, <- T1', T2, <- T2', T3, <- !app_assoc. auto 10.
Qed.
Lemma array_header_take d p r c pad s : p + 20 < ssize_limit -> r < 2 ^ 64 -> c < 2 ^ 32 ->
  dropN p d = (u64 r ++ u32 c ++ u32 10) ++ pad ++ s -> ff_pad (p + 16) pad s ->
  read_array_header d p = Ok ((r, c), p + 16 + pad_float32 (p + 16))
  /\ dropN (p + 16 + pad_float32 (p + 16)) d = s.
Proof.
  intros L B1 B2 D U. rewrite <- !app_assoc in D.
  destruct (u6432_take _ _ _ _ _ D B1 B2) as [R1 D1].
  destruct (u32_take _ _ _ _ D1 eq_refl) as [R2 D2].
  replace (p + 12 + 4) with (p + 16) in * by lia.
  assert (L' : p + 16 + 4 < ssize_limit) by lia. destruct (pad_take _ _ _ _ D2 U L') as [R3 D3].
  split; [|easy]. unfold read_array_header. rstep R1. rstep R2.
  change (rlift (type_id_of (Z.of_N 10))) with (@rret type_id TF32).
  unfold rbind at 1. unfold rret at 1. unfold rbind at 1. unfold tell. rstep R3. unfold rret. now rewrite !N2Z.id.
Qed.

(* the bytes of a storage *)
Definition at_storage (d : bytes) (p : N) (st : storage f32) (id : N) (q : N) : Prop :=
  exists head pad data s, dropN p d = head ++ pad ++ data ++ s /\ dropN q d = s
    /\ ff_storage st id head data /\ ff_pad (p + lenN head) pad (data ++ s)
    /\ q = p + lenN head + pad_float32 (p + lenN head) + lenN data.

Lemma ndarray_inv h d p a q : ndarray_read_chunk h d p = Ok (a, q) -> at_storage d p (SNd a) 2 q.
Proof.
  unfold ndarray_read_chunk. intros H. apply rbind_ok in H as ([r c] & p1 & H1 & H).
  apply array_header_inv in H1 as (r' & c' & pad & s & [= <- <-] & B1 & B2 & D & D' & U & E).
  apply rbind_ok in H as (l & p2 & H2 & H). apply rbind_ok in H as (m & p3 & H3 & H).
  apply rlift_ok in H3 as [H3 ->]. unfold rret in H. injection H as <- <-.
  destruct (matrix_inv _ _ _ _ _ _ _ _ _ eq_refl H2 H3) as (s' & [T T'] & -> & L & W).
  rewrite <- D', T in D, U.
  exists (u64 r ++ u32 c ++ u32 10), pad, (floats_le (concat m)), s'.
  assert (LH : lenN (u64 r ++ u32 c ++ u32 10) = 16) by (rewrite !lenN_app, lenN_u64, !lenN_u32; lia).
  rewrite LH. split; [exact D|]. split; [exact T'|].
  split; [clear - L W B1 B2; subst r; constructor; assumption|]. split; [easy|].
  rewrite E, floats_len, (rows_concat_len _ _ W), L. lia.
Qed.
Lemma dropN_app_size (d : bytes) p b s : dropN p d = b ++ s -> b <> [] -> p + lenN b + lenN s = lenN d.
Proof.
  intros E NE. apply (f_equal lenN) in E. rewrite lenN_dropN, lenN_app in E.
  assert (0 < lenN b) by (destruct b; [easy|rewrite lenN_cons; lia]). lia.
Qed.
Lemma ndarray_take h d p a q : lenN d + 4 < ssize_limit -> at_storage d p (SNd a) 2 q ->
  ndarray_read_chunk h d p = Ok (a, q).
Proof.
  intros L (head & pad & data & s & D & D' & X & U & ->).
  inversion X as [c m B1 B2 W|]; subst.
  assert (LH : lenN (u64 (lenN m) ++ u32 c ++ u32 10) = 16) by (rewrite !lenN_app, lenN_u64, !lenN_u32; lia).
  rewrite LH in *.
  assert (SZ := dropN_app_size _ _ _ _ D ltac:(intros E; rewrite E in LH; easy)).
  rewrite LH, !lenN_app, floats_len, (rows_concat_len _ _ W) in SZ.
  assert (L1 : p + 20 < ssize_limit) by lia. assert (L2 : lenN m * c * 4 < ssize_limit) by lia.
  destruct (array_header_take _ _ _ _ _ _ L1 B1 B2 D U) as [R1 D1].
  destruct (matrix_take h (lenN m) c _ _ _ _ _ eq_refl eq_refl W L2 D1) as (l & R2 & R3 & D2).
  unfold ndarray_read_chunk. rstep R1. rstep R2. unfold rbind at 1. unfold rlift. rewrite R3. unfold rret.
  do 2 f_equal. rewrite floats_len, (rows_concat_len _ _ W). lia.
Qed.

(* codes *)
Lemma split_one (b : bytes) : concat (split_elems (length b / 1) 1 b) = b.
Proof. rewrite Nat.div_1_r. induction b as [|x b IH]; [easy|]. cbn. now rewrite IH. Qed.
Lemma codes_inv h r c n d p l q m : n = r * c ->
  read_array_as_native h 1 n d p = Ok (l, q) -> reshape2 r c (concat l) = Ok m ->
  exists s, takes d p (concat m) s q /\ q = p + n /\ lenN m = r /\ rows_wf c m.
Proof.
  intros -> H R. apply (parses_takes _ _ _ _ _ _ (parses_elems h 1 _)) in H as (b & s & T & -> & -> & _).
  rewrite split_one in R. assert (L := R). apply reshape2_ok in L as [L _].
  apply reshape_iff in R as (R1 & R2 & ->). exists s. rewrite L in *. auto.
Qed.
Lemma codes_take h r c n d p (m : list (list byte)) s : n = r * c -> lenN m = r -> rows_wf c m -> n < ssize_limit ->
  dropN p d = concat m ++ s ->
  exists l, read_array_as_native h 1 n d p = Ok (l, p + n) /\ reshape2 r c (concat l) = Ok m
    /\ dropN (p + n) d = s.
Proof.
  intros -> L W B D. assert (LC : lenN (concat m) = r * c) by (rewrite (rows_concat_len _ _ W); now rewrite L).
  exists (split_elems (length (concat m) / 1) 1 (concat m)). split; [|split].
  - apply (parses_elems h 1). exists (concat m), s. split; [easy|]. split; [now rewrite LC|]. split; [easy|].
    change (N.of_nat 1) with 1. rewrite N.mul_1_r. split; [now left|easy].
  - rewrite split_one. now apply reshape_iff.
  - rewrite <- LC. apply takes_here in D. apply D.
Qed.

(* the quantizers, flattened in two steps *)
Lemma concat_concat {A} nc sub (flat : list (list A)) : rows_wf (nc * sub) flat ->
  concat (concat (map (split_rows (N.to_nat nc) (N.to_nat sub)) flat)) = concat flat.
Proof.
  induction 1 as [|r flat Hr H IH]; [easy|]. cbn [map concat]. rewrite concat_app, IH. f_equal.
  now apply concat_split.
Qed.
Lemma concat_rows_wf {A} nc sub (qs : list (list (list A))) :
  Forall (fun q => lenN q = nc /\ Forall (fun c => lenN c = sub) q) qs ->
  rows_wf (nc * sub) (map (@concat A) qs)
  /\ map (split_rows (N.to_nat nc) (N.to_nat sub)) (map (@concat A) qs) = qs
  /\ concat (map (@concat A) qs) = concat (concat qs).
Proof.
  induction 1 as [|q qs [Hq Hr] H (IH1 & IH2 & IH3)]; [split; [constructor|easy]|]. cbn [map concat]. split; [|split].
  - constructor; [|easy]. now rewrite (rows_concat_len _ _ Hr), Hq.
  - rewrite IH2. f_equal. rewrite <- Hq, to_nat_lenN. apply split_rows_concat.
    eapply Forall_impl; [|exact Hr]. cbv beta. intros a E. unfold lenN in E. lia.
  - now rewrite IH3, concat_app.
Qed.

Definition q_head (fp fn ql rl nc ne : N) : bytes :=
  u32 fp ++ u32 fn ++ u32 ql ++ u32 rl ++ u32 nc ++ u64 ne ++ u32 1 ++ u32 10.
Lemma q_head_len fp fn ql rl nc ne : lenN (q_head fp fn ql rl nc ne) = 36.
Proof. unfold q_head. rewrite !lenN_app, lenN_u64, !lenN_u32. lia. Qed.

Lemma qarray_inv h d p a q : qarray_read_chunk h d p = Ok (a, q) -> at_storage d p (SQuant a) 4 q.
Proof.
  unfold qarray_read_chunk. intros H. apply rbind_ok in H as ([[pq [ne ql]] norms] & pz & HH & H).
  rewrite quantized_header_split in HH.
  apply rbind_ok in HH as (x & pp & HPRE & HPOST).
  unfold quantized_header_pre in HPRE. rename HPRE into G.
  apply rbind_ok in G as (a1 & p1 & H1 & G). apply u32_inv in H1 as (fp & s1 & -> & B1 & -> & T1 & T1').
  apply rbind_ok in G as (a2 & p2 & H2 & G). apply u32_inv in H2 as (fn & s2 & -> & B2 & -> & T2 & T2').
  apply rbind_ok in G as (a3 & p3 & H3 & G). apply u32_inv in H3 as (QL & s3 & -> & B3 & -> & T3 & T3').
  apply rbind_ok in G as (a4 & p4 & H4 & G). apply u32_inv in H4 as (RL & s4 & -> & B4 & -> & T4 & T4').
  apply rbind_ok in G as (a5 & p5 & H5 & G). apply u32_inv in H5 as (NC & s5 & -> & B5 & -> & T5 & T5').
  apply rbind_ok in G as (a6 & p6 & H6 & G). apply u64_inv in H6 as (NE & s6 & -> & B6 & -> & T6 & T6').
  destruct (Z.eqb_spec (Z.of_N QL) 0) as [|Hnz]; [discriminate G|].
  apply rbind_ok in G as (a7 & p7 & H7 & G). apply rlift_ok in H7 as [H7 ->].
  apply py_assert_ok, Z.eqb_eq in H7.
  apply rbind_ok in G as (a8 & p8 & H8 & G). apply u32_inv in H8 as (t1 & s7 & -> & B7 & -> & T7 & T7').
  destruct (Z.eqb_spec (Z.of_N t1) (type_id_val TU8)) as [E1|]; cbn [negb] in G; [|discriminate G].
  apply rbind_ok in G as (a9 & p9 & H9 & G). apply u32_inv in H9 as (t2 & s8 & -> & B8 & -> & T8 & T8').
  destruct (Z.eqb_spec (Z.of_N t2) (type_id_val TF32)) as [E2|]; cbn [negb] in G; [|discriminate G].
  assert (t1 = 1) by (cbn in E1; lia). assert (t2 = 10) by (cbn in E2; lia). subst t1 t2. clear E1 E2.
  apply rbind_ok in G as (pos & p9 & H9 & G). unfold tell in H9. injection H9 as <- <-.
  apply rbind_ok in G as (u & p9 & H9 & G).
  assert (DH : dropN p d = q_head fp fn QL RL NC NE ++ s8).
  { unfold q_head. rewrite T1, <- T1', T2, <- T2', T3, <- T3', T4, <- T4', T5, <- T5', T6, <- T6', T7, <- T7', T8.
    now rewrite <- !app_assoc. }
  replace (p + 4 + 4 + 4 + 4 + 4 + 8 + 4 + 4) with (p + 36) in * by lia.
  clear T1 T1' T2 T2' T3 T3' T4 T4' T5 T5' T6 T6' T7 T7' T8.
  apply pad_inv in H9 as (pad & s9 & -> & [T9 T9'] & U).
  rewrite T8' in T9. rewrite !N2Z.id in G. cbv zeta in G.
  assert (RQ : QL * (RL / QL) = RL).
  { assert (X : RL mod QL = 0) by (apply N2Z.inj; rewrite N2Z.inj_mod; exact H7).
    pose proof (N.div_mod RL QL ltac:(lia)). lia. }
  set (SUB := RL / QL) in *. set (P0 := p + 36 + pad_float32 (p + 36)) in *.
  apply rbind_ok in G as (proj & p10 & HP & G).
  assert (HPROJ : exists pj s10, dropN P0 d = ff_floats (option_map (@concat f32) pj) ++ s10 /\ dropN p10 d = s10
     /\ p10 = P0 + lenN (ff_floats (option_map (@concat f32) pj)) /\ ff_flag pj fp
     /\ proj = option_map (fun m => (BoNative, RL, RL, m)) pj
     /\ forall m, pj = Some m -> lenN m = RL /\ rows_wf RL m).
  { destruct (Z.eqb_spec (Z.of_N fp) 0) as [EF|EF]; cbn [negb] in HP.
    - unfold rret in HP. injection HP as <- <-. exists None, (dropN P0 d). split; [easy|]. split; [easy|].
      split; [symmetry; apply N.add_0_r|]. split; [|now split].
      split; [easy|]. split; [easy|]. intros _. lia.
    - apply rbind_ok in HP as (l & q1 & HP1 & HP). apply rbind_ok in HP as (m & q2 & HP2 & HP).
      apply rlift_ok in HP2 as [HP2 ->]. unfold rret in HP. injection HP as <- <-.
      destruct (matrix_inv _ _ _ _ _ _ _ _ _ (N.pow_2_r RL) HP1 HP2) as (s10 & [T T'] & -> & LM & W).
      exists (Some m), s10. cbn [option_map ff_floats]. split; [easy|]. split; [easy|]. split.
      { rewrite floats_len, (rows_concat_len _ _ W), LM, N.pow_2_r. lia. }
      split; [split; [easy|]; split; [intros ->; lia|discriminate]|]. split; [easy|]. intros ? [= <-]. auto. }
  destruct HPROJ as (pj & s10 & T10 & T10' & -> & FP & -> & WP). clear HP.
  rewrite T9' in T10. set (P1 := P0 + _) in *.
  apply rbind_ok in G as (l & p11 & HQ & G). apply rbind_ok in G as (flat & p12 & HF & G).
  apply rlift_ok in HF as [HF ->]. unfold rret in G. injection G as <- <-.
  destruct (matrix_inv _ _ _ _ _ _ _ _ _ (eq_sym (N.mul_assoc QL NC SUB)) HQ HF) as (s11 & [T11 T11'] & -> & LQ & WQ).
  rewrite T10' in T11. set (qs := map (split_rows _ _) flat) in *.
  assert (WQS : Forall (fun m => lenN m = NC /\ rows_wf SUB m) qs) by (apply concat_map_wf; exact WQ).
  assert (LQS : lenN qs = QL) by (unfold qs; now rewrite lenN_map).
  assert (CQ : concat (concat qs) = concat flat) by (now apply concat_concat).
  set (P2 := P1 + _) in *.
  unfold quantized_header_post in HPOST.
  apply rbind_ok in HPOST as (nm & p12 & HN & HPOST). apply rbind_ok in HPOST as (pq' & p13 & HPQ & HPOST).
  apply rlift_ok in HPQ as [HPQ ->]. unfold rret in HPOST. injection HPOST as <- <- <- <- <-.
  apply rbind_ok in H as (codes & p13 & HC & H). apply rbind_ok in H as (m & p14 & HM & H).
  apply rlift_ok in HM as [HM ->]. unfold rret in H. injection H as <- <-.
  destruct (codes_inv _ _ _ _ _ _ _ _ _ eq_refl HC HM) as (s13 & [T13 T13'] & -> & LM & WM).
  assert (HNORMS : exists nv s12, dropN P2 d = ff_floats nv ++ s12 /\ dropN p12 d = s12
     /\ p12 = P2 + lenN (ff_floats nv) /\ ff_flag nv fn
     /\ nm = option_map (pair BoNative) nv /\ forall v, nv = Some v -> lenN v = NE).
  { unfold read_norms_part in HN. destruct (Z.eqb_spec (Z.of_N fn) 0) as [EF|EF]; cbn [negb] in HN.
    - unfold rret in HN. injection HN as <- <-. exists None, (dropN P2 d). split; [easy|]. split; [easy|].
      split; [symmetry; apply N.add_0_r|]. split; [|now split].
      split; [easy|]. split; [easy|]. intros _. lia.
    - apply rbind_ok in HN as (nl & q1 & HN1 & HN). unfold rret in HN. injection HN as <- <-.
      apply (parses_takes _ _ _ _ _ _ (parses_elems h 4 _)) in HN1 as (b & s12 & [T T'] & -> & X).
      apply elems_some in X as (fl & rest & -> & -> & _ & C).
      assert (CC : lenN fl = NE /\ rest = []).
      { destruct C as [C|(C & _ & ->)]; [easy|exfalso]. rewrite T' in T13. symmetry in T13.
        apply app_eq_nil in T13 as [T13 _]. apply (f_equal lenN) in T13.
        rewrite (rows_concat_len _ _ WM), LM in T13. change (lenN (@nil byte)) with 0 in T13. apply N.mul_eq_0 in T13. lia. }
      destruct CC as [LF ->]. rewrite app_nil_r in *.
      exists (Some fl), s12. cbn [option_map ff_floats]. split; [easy|]. split; [easy|]. split; [easy|].
      split; [split; [easy|]; split; [intros ->; lia|discriminate]|]. split; [now rewrite f32s_roundtrip|].
      now intros ? [= <-]. }
  destruct HNORMS as (nv & s12 & T12 & T12' & -> & FN & -> & WN). clear HN.
  rewrite T11' in T12. rewrite T12' in T13. subst s12 s11 s10 s9 s8.
  assert (EPQ : pq' = PQ BoNative NC SUB qs (option_map (pair BoNative) pj)).
  { destruct pj as [pm|]; cbn [option_map pq_new] in HPQ |- *; [|now apply Ok_inj in HPQ].
    unfold pq_new in HPQ. apply bind_ok in HPQ as (? & _ & HPQ). now apply Ok_inj in HPQ. }
  subst pq'.
  set (data := ff_floats (option_map (@concat f32) pj) ++ floats_le (concat flat) ++ ff_floats nv ++ concat m).
  assert (DD : dropN P0 d = data ++ s13).
  { unfold data. rewrite T10, T11, T12. now rewrite <- !app_assoc. }
  exists (q_head fp fn QL RL NC NE), pad, data, s13. rewrite q_head_len.
  split; [now rewrite DH, T9, DD|]. split; [exact T13'|]. rewrite DD in U. split; [|split; [exact U|]].
  - unfold data. rewrite <- CQ. clearbody SUB qs. clear - FP FN WQS LQS WM LM WP WN RQ Hnz B3 B4 B5 B6.
    unfold q_head. subst RL QL NE. constructor; try assumption.
    intros ->. now apply Hnz.
  - unfold data. rewrite !lenN_app, floats_len, (rows_concat_len _ _ WQ), (rows_concat_len _ _ WM), LQ, LM.
    unfold P2, P1, P0. lia.
Qed.
Lemma flag_test {A} (o : option A) n : ff_flag o n ->
  (Z.of_N n =? 0)%Z = match o with None => true | Some _ => false end.
Proof.
  intros [_ F]. destruct (Z.eqb_spec (Z.of_N n) 0) as [E|E].
  - rewrite (proj1 F) by lia. easy.
  - destruct o; [easy|]. exfalso. apply E. rewrite (proj2 F); easy.
Qed.
Lemma qarray_take h d p a q : lenN d + 4 < ssize_limit -> at_storage d p (SQuant a) 4 q ->
  qarray_read_chunk h d p = Ok (a, q).
Proof.
  intros L (head & pad & data & s & D & _ & X & U & ->).
  inversion X as [|pj nv qs codes NC SUB fp fn FP FN NQ B1 B2 B3 B4 WQ WC WP WN]; subst.
  fold (q_head fp fn (lenN qs) (lenN qs * SUB) NC (lenN codes)) in *. rewrite q_head_len in *.
  destruct (concat_rows_wf _ _ _ WQ) as (WF & EF & CF).
  assert (LF : lenN (map (@concat f32) qs) = lenN qs) by apply lenN_map.
  set (DATA := ff_floats _ ++ _) in *. set (Q := p + 36 + _ + _) in *.
  assert (HNE : q_head fp fn (lenN qs) (lenN qs * SUB) NC (lenN codes) <> []).
  { intros E. pose proof (q_head_len fp fn (lenN qs) (lenN qs * SUB) NC (lenN codes)) as LH. rewrite E in LH. easy. }
  assert (SZ := dropN_app_size _ _ _ _ D HNE). rewrite q_head_len, !lenN_app in SZ.
  assert (SZ' : lenN DATA = lenN (ff_floats (option_map (concat (A:=f32)) pj))
     + lenN qs * NC * SUB * 4 + lenN (ff_floats nv) + lenN codes * lenN qs).
  { unfold DATA. rewrite <- CF, !lenN_app, floats_len, (rows_concat_len _ _ WF), (rows_concat_len _ _ WC), LF. lia. }
  assert (Hnz : 0 < lenN qs) by (destruct qs; [easy|rewrite lenN_cons; lia]).
  assert (B5 := proj1 FP). assert (B6 := proj1 FN).
  assert (D0 := D). unfold q_head in D0. rewrite <- !app_assoc in D0.
  destruct (u32_take _ _ _ _ D0 B5) as [R1 D1]. destruct (u32_take _ _ _ _ D1 B6) as [R2 D2].
  destruct (u32_take _ _ _ _ D2 B1) as [R3 D3]. destruct (u32_take _ _ _ _ D3 B2) as [R4 D4].
  destruct (u32_take _ _ _ _ D4 B3) as [R5 D5]. destruct (u64_take _ _ _ _ D5 B4) as [R6 D6].
  destruct (u32_take _ _ _ _ D6 eq_refl) as [R7 D7]. destruct (u32_take _ _ _ _ D7 eq_refl) as [R8 D8].
  replace (p + 4 + 4 + 4 + 4 + 4 + 8 + 4 + 4) with (p + 36) in * by lia.
  assert (L1 : p + 36 + 4 < ssize_limit) by lia.
  destruct (pad_take _ _ _ _ D8 U L1) as [R9 D9].
  set (P0 := p + 36 + pad_float32 (p + 36)) in *.
  unfold DATA in D9. rewrite <- !app_assoc in D9.
  set (P1 := P0 + lenN (ff_floats (option_map (concat (A:=f32)) pj))).
  set (RL := lenN qs * SUB) in *.
  assert (HPROJ : (if negb (Z.of_N fp =? 0)%Z then
             a <~ read_array_as_native h 4 (RL ^ 2) ;;
             m <~ rlift (reshape2 RL RL (map f32_of_le a)) ;;
             rret (Some (BoNative, RL, RL, m))
           else rret None) d P0 = Ok (option_map (fun m => (BoNative, RL, RL, m)) pj, P1)
     /\ dropN P1 d = floats_le (concat (concat qs)) ++ ff_floats nv ++ concat codes ++ s).
  { rewrite (flag_test _ _ FP). destruct pj as [m|]; cbn [negb option_map ff_floats] in *.
    - destruct (WP m eq_refl) as [LM WM].
      assert (E : lenN (floats_le (concat m)) = RL ^ 2 * 4)
        by (rewrite floats_len, (rows_concat_len _ _ WM), LM, N.pow_2_r; lia).
      assert (L2 : RL ^ 2 * 4 < ssize_limit) by lia.
      destruct (matrix_take h RL RL _ _ _ _ _ (N.pow_2_r RL) LM WM L2 D9) as (l & R & R' & D10).
      unfold P1. rewrite E. split; [|exact D10]. rstep R. unfold rbind, rlift. now rewrite R'.
    - unfold P1. change (lenN (@nil byte)) with 0. rewrite N.add_0_r. split; [easy|exact D9]. }
  destruct HPROJ as [R10 D10].
  assert (L2 : lenN qs * NC * SUB * 4 < ssize_limit) by lia.
  rewrite <- CF in D10.
  destruct (matrix_take h (lenN qs) (NC * SUB) _ _ _ _ _ (eq_sym (N.mul_assoc (lenN qs) NC SUB)) LF WF L2 D10)
    as (ql & R11 & R11' & D11).
  set (P2 := P1 + lenN qs * NC * SUB * 4) in *.
  assert (HNORMS : read_norms_part h (Z.of_N fn) (lenN codes) d P2
     = Ok (option_map (pair BoNative) nv, P2 + lenN (ff_floats nv))
     /\ dropN (P2 + lenN (ff_floats nv)) d = concat codes ++ s).
  { unfold read_norms_part. rewrite (flag_test _ _ FN). destruct nv as [v|]; cbn [negb option_map ff_floats] in *.
    - assert (E : lenN (floats_le v) = lenN codes * 4) by (rewrite floats_len, (WN v eq_refl); lia).
      assert (L3 : lenN codes * 4 < ssize_limit) by lia.
      destruct (floats_take h _ _ _ _ _ (WN v eq_refl) L3 D11) as [R D12].
      rewrite E. split; [|exact D12]. rstep R. unfold rret. now rewrite f32s_roundtrip.
    - change (lenN (@nil byte)) with 0. rewrite N.add_0_r. split; [easy|exact D11]. }
  destruct HNORMS as [R12 D12].
  assert (L4 : lenN codes * lenN qs < ssize_limit) by lia.
  destruct (codes_take h (lenN codes) (lenN qs) _ _ _ _ _ eq_refl eq_refl WC L4 D12) as (cl & R13 & R13' & D13).
  assert (RH : read_quantized_header h d p = Ok ((PQ BoNative NC SUB qs (option_map (pair BoNative) pj),
     (lenN codes, lenN qs), option_map (pair BoNative) nv), P2 + lenN (ff_floats nv))).
  { rewrite quantized_header_split.
    assert (RP : quantized_header_pre h d p = Ok ((Z.of_N fn, (lenN qs, NC, lenN codes), qs,
       option_map (fun m => (BoNative, RL, RL, m)) pj, SUB), P2)).
    { unfold quantized_header_pre. rstep R1. rstep R2. rstep R3. rstep R4. rstep R5. rstep R6.
      destruct (Z.eqb_spec (Z.of_N (lenN qs)) 0) as [|_]; [lia|].
      assert (ED : (Z.of_N RL mod Z.of_N (lenN qs) =? 0)%Z = true).
      { apply Z.eqb_eq. unfold RL. rewrite N2Z.inj_mul, Z.mul_comm. apply Z_mod_mult. }
      rewrite ED. change (py_assert true) with (@Ok unit tt). unfold rbind at 1. unfold rlift at 1.
      rstep R7. change (negb (Z.of_N 1 =? type_id_val TU8)%Z) with false. cbv iota.
      rstep R8. change (negb (Z.of_N 10 =? type_id_val TF32)%Z) with false. cbv iota.
      replace (p + 4 + 4 + 4 + 4 + 4 + 8 + 4 + 4) with (p + 36) by lia.
      unfold rbind at 1. unfold tell at 1. rstep R9. cbv zeta. rewrite !N2Z.id.
      rstep R10. replace (RL / lenN qs) with SUB by (unfold RL; rewrite N.mul_comm, N.div_mul; lia).
      rstep R11. unfold rbind, rlift. rewrite R11'. unfold rret. now rewrite EF. }
    rstep RP. unfold quantized_header_post. rstep R12. unfold rbind, rlift.
    assert (EP : pq_new BoNative NC SUB qs (option_map (fun m => (BoNative, RL, RL, m)) pj)
      = Ok (PQ BoNative NC SUB qs (option_map (pair BoNative) pj))).
    { destruct pj as [m|]; [|easy]. cbn [option_map]. unfold pq_new. fold RL. rewrite N.eqb_refl. easy. }
    now rewrite EP. }
  unfold qarray_read_chunk. rstep RH. rstep R13. unfold rbind, rlift. rewrite R13'. unfold rret.
  do 2 f_equal. unfold Q. rewrite SZ'. unfold P2, P1, P0. lia.
Qed.
