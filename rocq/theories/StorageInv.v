(* What a successfully loaded storage looks like. *)
From Coq Require Import Lia.
From Verif Require Import Py PyProofs Utf8 Utf8Proofs IO IOProofs Arr Subword Vocab VocabProofs
  Storage StorageProofs Chunks Embeddings Spec ReaderProofs EmbeddingsProofs FindProofs
  LoaderProofs ExtendProofs TruncProofs InvProofs.

(* ---------------------------------------------------------------- *)
(* storages                                                          *)

Lemma split_rows_wf {A} r c (l : list A) :
  lenN l = r * c ->
  lenN (split_rows (N.to_nat r) (N.to_nat c) l) = r
  /\ rows_wf c (split_rows (N.to_nat r) (N.to_nat c) l).
Proof.
  intros H.
  assert (X : forall n (l : list A), length l = (n * N.to_nat c)%nat ->
     length (split_rows n (N.to_nat c) l) = n /\ rows_wf c (split_rows n (N.to_nat c) l)).
  { clear. induction n as [|n IH]; intros l H; simpl; [split; [easy|constructor]|].
    destruct (IH (skipn (N.to_nat c) l)) as [I1 I2]; [rewrite skipn_length; simpl in H; lia|].
    split; [now rewrite I1|]. constructor; [|easy].
    unfold lenN. rewrite firstn_length. simpl in H. lia. }
  destruct (X (N.to_nat r) l) as [X1 X2].
  - unfold lenN in H. lia.
  - split; [|easy]. unfold lenN. rewrite X1. lia.
Qed.

(* what reading elements says about the position: sizes are bounded by the file *)
Definition within (d : bytes) (p q : N) : Prop := p <= q /\ (q = p \/ q <= lenN d).
Lemma within_trans d p q r : within d p q -> within d q r -> within d p r.
Proof. unfold within. lia. Qed.
Lemma within_refl d p : within d p p.
Proof. unfold within. lia. Qed.
Lemma within_size d p q : within d p q -> q - p <= lenN d.
Proof. unfold within. lia. Qed.

Lemma read_array_within h k n d p l q :
  (0 < k)%nat -> read_array_as_native h k n d p = Ok (l, q) -> lenN l = n ->
  within d p q /\ q = p + n * N.of_nat k.
Proof.
  intros Hk H L. apply read_array_full in H as (E & [->|B] & _); auto.
  - unfold within. split; lia.
  - unfold within. split; [|easy]. split; [|now right]. rewrite E. lia.
Qed.

Definition ndarray_sizes (a : ndarray f32) : Prop :=
  nd_cols a < 2 ^ 32 /\ lenN (nd_rows a) < 2 ^ 64
  /\ lenN (nd_rows a) * nd_cols a * 4 < ssize_limit.

Lemma read2_u64_u32_ok d p a b q :
  read2 fU64 fU32 d p = Ok ((a, b), q) -> (0 <= a < 2 ^ 64)%Z /\ (0 <= b < 2 ^ 32)%Z.
Proof.
  intros H. unfold read2 in H. apply rbind_ok in H as (vs & p1 & H1 & H).
  apply read_required_ok in H1 as (E & _ & E2 & E3). cbn [calcsize field_size] in *.
  destruct vs as [|x1 [|x2 [|]]]; try easy. unfold rret in H. injection H as -> -> _.
  pose proof (lenN_takeN (N.of_nat (8 + (4 + 0))) (dropN p d)) as LT. rewrite lenN_dropN in LT.
  set (bs := takeN _ _) in *. unfold lenN in LT at 1.
  cbn [unpack field_size] in E.
  pose proof (f_equal (fun l => nth 0 l 0%Z) E) as A1.
  pose proof (f_equal (fun l => nth 1 l 0%Z) E) as A2. cbn [nth] in A1, A2. subst a b. clear E.
  split; [apply (unpack_u_range fU64)|apply (unpack_u_range fU32)]; auto.
  - rewrite firstn_length. cbn [field_size]. lia.
  - rewrite firstn_length, skipn_length. cbn [field_size]. lia.
Qed.

Lemma read_array_header_ok d p rows cols q :
  read_array_header d p = Ok ((rows, cols), q) -> rows < 2 ^ 64 /\ cols < 2 ^ 32.
Proof.
  intros H. unfold read_array_header in H. apply rbind_ok in H as ([r c] & p1 & H1 & H).
  apply read2_u64_u32_ok in H1. apply rbind_ok in H as (t & p2 & _ & H).
  apply rbind_ok in H as (tid & p3 & _ & H). destruct tid; [easy|].
  apply rbind_ok in H as (pos & p4 & _ & H). apply rbind_ok in H as (u & p5 & _ & H).
  unfold rret in H. injection H as <- <- _. lia.
Qed.

Lemma ndarray_read_inv h d p a q :
  ndarray_read_chunk h d p = Ok (a, q) ->
  ndarray_wf a /\ nd_bo a = BoNative /\ ndarray_sizes a.
Proof.
  intros H. unfold ndarray_read_chunk in H.
  apply rbind_ok in H as ([rows cols] & p1 & H1 & H). apply read_array_header_ok in H1.
  apply rbind_ok in H as (l & p2 & H2 & H). apply rbind_ok in H as (m & p3 & H3 & H).
  apply rlift_ok in H3 as [H3 ->]. unfold rret in H. injection H as <- <-.
  apply reshape2_ok in H3 as [L ->]. destruct (split_rows_wf _ _ _ L) as [W1 W2].
  apply read_array_ok in H2 as (_ & _ & B).
  unfold ndarray_wf, ndarray_sizes. cbn [nd_bo nd_cols nd_rows].
  split; [split; [easy|exact W2]|]. split; [easy|].
  rewrite W1. change (N.of_nat 4) with 4 in B. lia.
Qed.

Definition qarray_sizes (q : qarray f32) : Prop :=
  let p := qa_pq q in
  let rl := pq_reconstructed_len p in
  qa_len q < 2 ^ 32 /\ rl < 2 ^ 32 /\ pq_n_centroids p < 2 ^ 32 /\ lenN (qa_codes q) < 2 ^ 64
  /\ (match pq_projection p with Some _ => rl ^ 2 * 4 | None => 0 end)
     + lenN (pq_quantizers p) * pq_n_centroids p * pq_sub_len p * 4
     + (match qa_norms q with Some (_, ns) => lenN ns * 4 | None => 0 end)
     + lenN (qa_codes q) * qa_len q < ssize_limit.

Lemma concat_map_wf {A} (nc sub : N) (flat : list (list A)) :
  rows_wf (nc * sub) flat ->
  Forall (fun m => lenN m = nc /\ rows_wf sub m)
    (map (split_rows (N.to_nat nc) (N.to_nat sub)) flat).
Proof.
  intros H. apply Forall_map. eapply Forall_impl; [|exact H]. intros r Hr. cbv beta in Hr.
  now apply split_rows_wf.
Qed.

Lemma quantized_pre_inv h d p rn ql nc ne qs proj sub q :
  quantized_header_pre h d p = Ok ((rn, (ql, nc, ne), qs, proj, sub), q) ->
  exists p0, ql <> 0 /\ ql < 2 ^ 32 /\ ql * sub < 2 ^ 32 /\ nc < 2 ^ 32 /\ ne < 2 ^ 64
  /\ lenN qs = ql
  /\ Forall (fun m => lenN m = nc /\ rows_wf sub m) qs
  /\ match proj with
     | None => True
     | Some (bo, r, c, rows) => bo = BoNative /\ r = ql * sub /\ lenN rows = ql * sub /\ rows_wf (ql * sub) rows
     end
  /\ within d p0 q
  /\ q = p0 + (match proj with Some _ => (ql * sub) ^ 2 * 4 | None => 0 end) + ql * nc * sub * 4.
Proof.
  intros H. unfold quantized_header_pre in H.
  apply rbind_ok in H as (a1 & p1 & _ & H). apply rbind_ok in H as (a2 & p2 & _ & H).
  apply rbind_ok in H as (a3 & p3 & H3 & H). apply rbind_ok in H as (a4 & p4 & H4 & H).
  apply rbind_ok in H as (a5 & p5 & H5 & H). apply rbind_ok in H as (a6 & p6 & H6 & H).
  apply read_u32_ok in H3 as (_ & _ & H3). apply read_u32_ok in H4 as (_ & _ & H4).
  apply read_u32_ok in H5 as (_ & _ & H5). apply read_u64_ok in H6 as (_ & _ & H6).
  destruct (Z.eqb_spec a3 0) as [|Hnz]; [easy|].
  apply rbind_ok in H as (a7 & p7 & H7 & H). apply rlift_ok in H7 as [H7 _].
  apply py_assert_ok, Z.eqb_eq in H7.
  apply rbind_ok in H as (a8 & p8 & _ & H).
  destruct (negb _); [easy|]. apply rbind_ok in H as (a9 & p9 & _ & H). destruct (negb _); [easy|].
  apply rbind_ok in H as (b1 & q1 & _ & H). apply rbind_ok in H as (b2 & q2 & _ & H).
  cbv zeta in H. apply rbind_ok in H as (pr & q3 & HP & H). apply rbind_ok in H as (l & q4 & HQ & H).
  apply rbind_ok in H as (flat & q5 & HF & H). apply rlift_ok in HF as [HF ->].
  unfold rret in H.
  set (QL := Z.to_N a3) in *. set (RL := Z.to_N a4) in *.
  set (SUB := RL / QL) in *.
  assert (EQ : QL * SUB = RL).
  { assert (X : RL mod QL = 0) by (unfold RL, QL; rewrite <- Z2N.inj_mod by lia; rewrite H7; easy).
    unfold SUB. pose proof (N.div_mod RL QL ltac:(unfold QL; lia)) as D. lia. }
  injection H as <- <- <- <- <- <- <- <-.
  apply reshape2_ok in HF as [LF EF].
  destruct (split_rows_wf _ _ _ LF) as [LF1 LF2]. rewrite <- EF in *.
  assert (LL : lenN l = QL * Z.to_N a5 * SUB) by (rewrite lenN_map in LF; lia).
  destruct (read_array_within _ _ _ _ _ _ _ (Nat.lt_0_succ 3) HQ LL) as [W E].
  exists q2. split; [unfold QL; lia|]. split; [unfold QL; lia|].
  split; [rewrite EQ; unfold RL; lia|]. split; [lia|]. split; [lia|].
  split; [rewrite lenN_map; easy|]. split; [now apply concat_map_wf|].
  rewrite EQ in *.
  destruct (negb (a1 =? 0)%Z).
  - apply rbind_ok in HP as (x & q6 & HP1 & HP). apply rbind_ok in HP as (m & q7 & HP2 & HP).
    apply rlift_ok in HP2 as [HP2 ->]. unfold rret in HP. injection HP as <- <-.
    apply reshape2_ok in HP2 as [LP EP]. destruct (split_rows_wf _ _ _ LP) as [LP1 LP2].
    rewrite <- EP in *.
    assert (LX : lenN x = RL ^ 2) by (rewrite N.pow_2_r, <- LP; now rewrite lenN_map).
    destruct (read_array_within _ _ _ _ _ _ _ (Nat.lt_0_succ 3) HP1 LX) as [W' E'].
    split; [easy|]. split; [eapply within_trans; eauto|]. change (N.of_nat 4) with 4 in *. lia.
  - unfold rret in HP. injection HP as <- <-. split; [easy|]. split; [easy|].
    change (N.of_nat 4) with 4 in *. lia.
Qed.

Lemma qarray_read_inv h d p a q :
  qarray_read_chunk h d p = Ok (a, q) -> lenN d < ssize_limit ->
  qarray_wf a /\ SQuant a = native_storage (SQuant a) /\ qarray_sizes a.
Proof.
  intros H Hd. unfold qarray_read_chunk in H.
  apply rbind_ok in H as ([[quant [ne ql]] nrm] & p1 & H1 & H).
  rewrite quantized_header_split in H1.
  apply rbind_ok in H1 as ([[[[rn [[ql' nc] ne']] qs] proj] sub] & p2 & H1 & H2).
  apply quantized_pre_inv in H1 as (p0 & Hz & Bql & Brl & Bnc & Bne & Lqs & Fqs & Hproj & W & E).
  unfold quantized_header_post in H2.
  apply rbind_ok in H2 as (nrm' & p3 & Hn & H2). apply rbind_ok in H2 as (quant' & p4 & Hq & H2).
  apply rlift_ok in Hq as [Hq ->]. unfold rret in H2. injection H2 as <- <- <- <- <-.
  apply rbind_ok in H as (codes & p5 & Hc & H). apply rbind_ok in H as (m & p6 & Hm & H).
  apply rlift_ok in Hm as [Hm ->]. unfold rret in H. injection H as <- <-.
  apply reshape2_ok in Hm as [Lm Em]. destruct (split_rows_wf _ _ _ Lm) as [Lm1 Lm2].
  rewrite <- Em in *.
  assert (Lc : lenN codes = ne' * ql').
  { rewrite <- Lm. apply read_array_ok in Hc as (Ec & _ & _). cbv zeta in Ec.
    rewrite Nat.div_1_r in Ec. rewrite Ec. rewrite split_elems_1. unfold lenN.
    now rewrite split_elems_length. }
  destruct (read_array_within _ _ _ _ _ _ _ Nat.lt_0_1 Hc Lc) as [Wc Ec].
  change (N.of_nat 1) with 1 in Ec.
  (* the norms have been read completely *)
  assert (HN : match nrm' with
               | None => within d p2 p3 /\ p3 = p2
               | Some (bo, ns) => bo = BoNative /\ lenN ns = ne' /\ within d p2 p3 /\ p3 = p2 + ne' * 4
               end).
  { unfold read_norms_part in Hn. destruct (negb (rn =? 0)%Z).
    2: { unfold rret in Hn. injection Hn as <- <-. split; [apply within_refl|easy]. }
    apply rbind_ok in Hn as (x & p7 & Hx & Hn). unfold rret in Hn. injection Hn as <- <-.
    split; [easy|]. rewrite lenN_map.
    assert (Lx : lenN x = ne').
    { pose proof Hx as Hx'. apply read_array_ok in Hx' as (Ex & Ep & _). cbv zeta in Ex.
      set (bs := takeN (ne' * N.of_nat 4) (dropN p2 d)) in *.
      assert (LB : lenN bs = N.min (ne' * 4) (lenN d - p2))
        by (unfold bs; now rewrite lenN_takeN, lenN_dropN).
      destruct (N.le_gt_cases (ne' * 4) (lenN d - p2)) as [B|B].
      - assert (LL : length bs = (N.to_nat ne' * 4)%nat) by (unfold lenN in LB, B; lia).
        rewrite Ex. unfold lenN. rewrite split_elems_length, LL, Nat.div_mul by lia. lia.
      - exfalso. assert (Pd : lenN d <= p7) by lia. unfold within in Wc.
        assert (ne' * ql' = 0) by lia. apply N.eq_mul_0 in H as [-> | H]; [lia|easy]. }
    destruct (read_array_within _ _ _ _ _ _ _ (Nat.lt_0_succ 3) Hx Lx) as [Wx Ep].
    split; [easy|]. split; [easy|]. change (N.of_nat 4) with 4 in Ep. easy. }
  (* the quantizer *)
  assert (HQ : quant' = PQ BoNative nc sub qs
                 (match proj with Some (bo, _, _, rows) => Some (bo, rows) | None => None end)).
  { unfold pq_new in Hq. destruct proj as [[[[bo r] c] rows]|].
    - apply bind_ok in Hq as (u & _ & Hq). now injection Hq as <-.
    - now injection Hq as <-. }
  assert (WF : qarray_wf (QA quant' ql' m nrm')).
  { unfold qarray_wf, pq_wf. rewrite HQ. cbn [qa_pq qa_len qa_codes qa_norms pq_bo pq_n_centroids
      pq_sub_len pq_quantizers pq_projection].
    split; [split; [easy|split; [exact Fqs|]]|].
    - destruct proj as [[[[bo r] c] rows]|]; [|easy]. destruct Hproj as (-> & -> & Lr & Fr).
      rewrite Lqs. cbv zeta. split; [easy|]. split; [exact Lr|exact Fr].
    - split; [now rewrite Lqs|]. split; [easy|]. split; [exact Lm2|].
      destruct nrm' as [[bo ns]|]; [|easy]. destruct HN as (-> & Ln & _). split; [easy|].
      rewrite Ln. now symmetry. }
  split; [exact WF|]. split.
  { rewrite HQ. simpl. do 2 f_equal.
    - f_equal. destruct proj as [[[[bo r] c] rows]|]; [|easy]. now destruct Hproj as (-> & _).
    - destruct nrm' as [[bo ns]|]; [|easy]. now destruct HN as (-> & _). }
  unfold qarray_sizes, pq_reconstructed_len. rewrite HQ.
  cbn [qa_pq qa_len qa_codes qa_norms pq_bo pq_n_centroids pq_sub_len pq_quantizers pq_projection].
  rewrite Lqs, Lm1. split; [easy|]. split; [easy|]. split; [easy|]. split; [easy|].
  assert (WT : within d p0 p5).
  { eapply within_trans; [exact W|]. destruct nrm' as [[bo ns]|].
    - destruct HN as (_ & _ & Wn & _). eapply within_trans; eauto.
    - destruct HN as (Wn & _). eapply within_trans; eauto. }
  apply within_size in WT.
  change (N.of_nat 1) with 1 in *.
  assert (EP : (match (match proj with Some (bo, _, _, rows) => Some (bo, rows) | None => None end)
                with Some _ => (ql' * sub) ^ 2 * 4 | None => 0 end)
               = match proj with Some _ => (ql' * sub) ^ 2 * 4 | None => 0 end).
  { now destruct proj as [[[[bo r] c] rows]|]. }
  rewrite EP. destruct nrm' as [[bo ns]|].
  - destruct HN as (_ & -> & _ & EN). lia.
  - destruct HN as (_ & EN). lia.
Qed.

Definition storage_sizes (s : storage f32) : Prop :=
  match s with SNd a => ndarray_sizes a | SQuant q => qarray_sizes q end.

Lemma storage_read_inv h mm c e d p s q :
  storage_read_chunk h mm c e d p = Ok (s, q) -> lenN d < ssize_limit ->
  c = storage_chunk_id s /\ storage_wf s /\ s = native_storage s /\ storage_sizes s.
Proof.
  intros H Hd.
  assert (X : storage_read_chunk h false c e d p = Ok (s, q)).
  { destruct mm; [|easy]. destruct h.
    - now apply storage_mmap_read.
    - apply storage_mmap_big in H as [_ H]. easy. }
  clear H. destruct c; try easy; simpl in X.
  - unfold ndarray_load in X. apply rbind_ok in X as (a & p1 & H1 & H). unfold rret in H.
    injection H as <- <-. apply ndarray_read_inv in H1 as (W & B & S).
    split; [easy|]. split; [easy|]. split; [|easy]. simpl. rewrite <- B. now destruct a.
  - unfold qarray_load in X. apply rbind_ok in X as (a & p1 & H1 & H). unfold rret in H.
    injection H as <- <-. apply qarray_read_inv in H1 as (W & B & S); auto.
Qed.
