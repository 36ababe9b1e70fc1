(* Header of a file, alignment of arrays, independence of the byte order. *)
From Coq Require Import Lia.
From Verif Require Import Py PyProofs Utf8 Utf8Proofs IO IOProofs Arr Subword Vocab VocabProofs
  Storage StorageProofs Chunks Embeddings Spec ReaderProofs EmbeddingsProofs FindProofs.

(* ---------------------------------------------------------------- *)
(* C11                                                               *)


Lemma required_cases fmt d p :
  (0 < calcsize fmt)%nat -> N.of_nat (calcsize fmt) < ssize_limit ->
  (p + N.of_nat (calcsize fmt) <= lenN d
   /\ read_required_binary fmt d p
      = Ok (unpack fmt (takeN (N.of_nat (calcsize fmt)) (dropN p d)), p + N.of_nat (calcsize fmt)))
  \/ (lenN d < p + N.of_nat (calcsize fmt) /\ read_required_binary fmt d p = Err FormatError).
Proof.
  intros H0 HL. unfold read_required_binary, read_binary, rbind, read.
  destruct (N.leb_spec ssize_limit (N.of_nat (calcsize fmt))); [lia|].
  set (bs := takeN _ _).
  assert (LB : lenN bs = N.min (N.of_nat (calcsize fmt)) (lenN d - p))
    by (unfold bs; now rewrite lenN_takeN, lenN_dropN).
  destruct (N.le_gt_cases (p + N.of_nat (calcsize fmt)) (lenN d)) as [B|B].
  - left. split; [easy|].
    assert (L : length bs = calcsize fmt) by (unfold lenN in LB, B; lia).
    rewrite L. destruct (Nat.eqb_spec (calcsize fmt) 0); [lia|]. rewrite Nat.eqb_refl.
    unfold rret. cbn [negb]. do 2 f_equal. unfold lenN. lia.
  - right. split; [easy|]. destruct (Nat.eqb_spec (length bs) 0); [easy|].
    destruct (Nat.eqb_spec (length bs) (calcsize fmt)); [|easy]. unfold lenN in LB, B. lia.
Qed.

Lemma read1_cases f d p :
  plain f = true ->
  (p + N.of_nat (field_size f) <= lenN d
   /\ read1 f d p = Ok (unpack_field f (takeN (N.of_nat (field_size f)) (dropN p d)),
                        p + N.of_nat (field_size f)))
  \/ (lenN d < p + N.of_nat (field_size f) /\ read1 f d p = Err FormatError).
Proof.
  intros Hf. pose proof (field_size_bound f) as B.
  destruct (required_cases [f] d p) as [[L H]|[L H]]; cbn [calcsize] in *; rewrite Nat.add_0_r in *.
  - lia.
  - unfold ssize_limit; lia.
  - left. split; [easy|]. unfold read1. rewrite (rbind_step _ _ _ _ _ _ H).
    set (bs := takeN _ _).
    assert (E : length bs = field_size f).
    { pose proof (lenN_takeN (N.of_nat (field_size f)) (dropN p d)) as X. rewrite lenN_dropN in X.
      fold bs in X. unfold lenN in X, L. lia. }
    rewrite <- E. destruct f; try easy; cbn [unpack]; rewrite <- E, firstn_all; easy.
  - right. split; [easy|]. unfold read1, rbind. now rewrite H.
Qed.

Lemma unpack_u32s n bs :
  length bs = (4 * n)%nat ->
  concat (map (fun i => le_bytes 4 (Z.to_N i)) (unpack (repeat fU32 n) bs)) = bs
  /\ length (unpack (repeat fU32 n) bs) = n
  /\ Forall (fun i => 0 <= i < 2 ^ 32)%Z (unpack (repeat fU32 n) bs).
Proof.
  revert bs; induction n as [|n IH]; intros bs H.
  - destruct bs; [|easy]. simpl. auto.
  - cbn [repeat unpack]. change (field_size fU32) with 4%nat.
    destruct (IH (skipn 4 bs)) as (I1 & I2 & I3); [rewrite skipn_length; lia|].
    assert (L : length (firstn 4 bs) = 4%nat) by (rewrite firstn_length; lia).
    set (x := firstn 4 bs) in *. set (y := skipn 4 bs) in *.
    assert (E : bs = x ++ y) by (symmetry; apply firstn_skipn).
    cbn [map concat length]. split; [|split].
    + rewrite I1, E. f_equal. cbn [unpack_field]. rewrite N2Z.id. rewrite <- L. apply le_bytes_le_val.
    + now rewrite I2.
    + constructor; [|exact I3]. apply (unpack_u_range fU32); auto.
Qed.

Lemma split_at {A} n p (d : list A) : dropN p d = takeN n (dropN p d) ++ dropN (p + n) d.
Proof. rewrite <- (takeN_dropN n (dropN p d)) at 1. now rewrite dropN_dropN. Qed.

Lemma le4_of_val (bs : bytes) v :
  length bs = 4%nat -> unpack_field fU32 bs = v -> bs = le_bytes 4 (Z.to_N v).
Proof. intros L <-. cbn [unpack_field]. rewrite N2Z.id, <- L. symmetry. apply le_bytes_le_val. Qed.

Lemma take4_len {A} (d : list A) p : p + 4 <= lenN d -> length (takeN 4 (dropN p d)) = 4%nat.
Proof.
  intros H. pose proof (lenN_takeN 4 (dropN p d)) as X. rewrite lenN_dropN in X.
  unfold lenN in X at 1. lia.
Qed.

Lemma header_read_cases d :
  (exists ids rest, valid_ids ids /\ d = file_header ids ++ rest
     /\ header_read_chunk d 0 = Ok (ids, lenN (file_header ids)))
  \/ header_read_chunk d 0 = Err FormatError.
Proof.
  assert (R : read 4 d 0 = Ok (takeN 4 d, lenN (takeN 4 d))).
  { unfold read. change (ssize_limit <=? 4) with false. cbn iota. now rewrite dropN_0, N.add_0_l. }
  unfold header_read_chunk. rewrite (rbind_step _ _ _ _ _ _ R). clear R. destruct (bytes_eqb (takeN 4 d) MAGIC) eqn:EM; [|now right].
  cbn [negb]. apply bytes_eqb_eq in EM. rewrite EM. change (lenN MAGIC) with 4.
  assert (L4 : 4 <= lenN d).
  { pose proof (lenN_takeN 4 d) as X. rewrite EM in X. change (lenN MAGIC) with 4 in X. lia. }
  destruct (read1_cases fU32 d 4 eq_refl) as [[B1 H1]|[B1 H1]].
  2: { right. unfold rbind. now rewrite H1. }
  change (N.of_nat (field_size fU32)) with 4 in *. rewrite (rbind_step _ _ _ _ _ _ H1).
  destruct (Z.eqb_spec (unpack_field fU32 (takeN 4 (dropN 4 d))) VERSION) as [EV|]; [|now right].
  cbn [negb]. destruct (read1_cases fU32 d (4 + 4) eq_refl) as [[B2 H2]|[B2 H2]].
  2: { right. unfold rbind. now rewrite H2. }
  change (N.of_nat (field_size fU32)) with 4 in *. rewrite (rbind_step _ _ _ _ _ _ H2).
  set (n := unpack_field fU32 (takeN 4 (dropN (4 + 4) d))).
  assert (Rn : (0 <= n < 2 ^ 32)%Z).
  { apply (unpack_u_range fU32); auto. apply take4_len. lia. }
  destruct (Nat.eq_dec (Z.to_nat n) 0) as [E0|E0].
  { right. rewrite E0. cbn [repeat]. unfold read_required_binary, read_binary, rbind, read.
    cbn [calcsize]. change (ssize_limit <=? N.of_nat 0) with false. cbn iota.
    change (N.of_nat 0) with 0. rewrite takeN_0. easy. }
  destruct (required_cases (repeat fU32 (Z.to_nat n)) d (4 + 4 + 4)) as [[B3 H3]|[B3 H3]].
  - rewrite calcsize_u32s. lia.
  - rewrite calcsize_u32s. unfold ssize_limit. lia.
  - left. rewrite H3. rewrite calcsize_u32s in *. set (k := N.of_nat (4 * Z.to_nat n)) in *.
    set (bs := takeN k (dropN (4 + 4 + 4) d)) in *.
    assert (LB : length bs = (4 * Z.to_nat n)%nat).
    { pose proof (lenN_takeN k (dropN (4 + 4 + 4) d)) as X. rewrite lenN_dropN in X. fold bs in X.
      unfold lenN in X at 1. unfold k in *. lia. }
    destruct (unpack_u32s _ _ LB) as (U1 & U2 & U3).
    set (ids := unpack (repeat fU32 (Z.to_nat n)) bs) in *.
    assert (Lids : lenN ids = Z.to_N n) by (unfold lenN; lia).
    assert (EH : file_header ids = MAGIC ++ takeN 4 (dropN 4 d) ++ takeN 4 (dropN (4 + 4) d) ++ bs).
    { unfold file_header. rewrite U1, Lids. do 3 f_equal.
      - symmetry. apply (le4_of_val _ 0%Z); [apply take4_len; lia|exact EV].
      - f_equal. symmetry. apply (le4_of_val _ n); [apply take4_len; lia|easy]. }
    exists ids, (dropN (4 + 4 + 4 + k) d). split; [|split].
    + split; [|split; [|easy]].
      * intros E. rewrite E in U2. simpl in U2. lia.
      * rewrite Lids. lia.
    + rewrite EH, <- !app_assoc. unfold bs. rewrite <- (split_at k), <- (split_at 4), <- (split_at 4).
      rewrite <- EM. now rewrite takeN_dropN.
    + do 2 f_equal. rewrite EH, !lenN_app. change (lenN MAGIC) with 4.
      unfold lenN at 1 2 3. rewrite !take4_len by lia. rewrite LB. unfold k. lia.
  - right. now rewrite H3.
Qed.

Lemma header_read_spec d ids p :
  lenN d < ssize_limit ->
  (header_read_chunk d 0 = Ok (ids, p)
   <-> valid_ids ids /\ p = lenN (file_header ids) /\ exists rest, d = file_header ids ++ rest).
Proof.
  intros L. split.
  - intros H. destruct (header_read_cases d) as [(ids' & rest & V & E & H')|H']; rewrite H' in H; [|easy].
    injection H as <- <-. split; [easy|]. split; [easy|]. eauto.
  - intros ((V1 & V2 & V3) & -> & rest & ->).
    rewrite (header_roundtrip ids 0 (file_header ids)); auto.
    + now apply header_bytes.
    + apply at_pos_0. eauto.
Qed.

Lemma header_read_reject d :
  lenN d < ssize_limit ->
  (header_read_chunk d 0 = Err FormatError
   <-> forall ids rest, valid_ids ids -> d <> file_header ids ++ rest).
Proof.
  intros L. split.
  - intros H ids rest V E. assert (X : header_read_chunk d 0 = Ok (ids, lenN (file_header ids))).
    { apply header_read_spec; eauto. }
    congruence.
  - intros H. destruct (header_read_cases d) as [(ids & rest & V & E & _)|H']; [|easy].
    now destruct (H ids rest V).
Qed.

Lemma file_header_len ids : lenN (file_header ids) = 12 + 4 * lenN ids.
Proof.
  unfold file_header. rewrite !lenN_app. change (lenN MAGIC) with 4.
  assert (E : forall i n, lenN (le_bytes n i) = N.of_nat n)
    by (intros; unfold lenN; now rewrite le_bytes_length).
  rewrite !E. assert (X : lenN (concat (map (fun i => le_bytes 4 (Z.to_N i)) ids)) = 4 * lenN ids).
  { induction ids as [|i ids IH]; [easy|]. cbn [map concat]. rewrite lenN_app, E, lenN_cons, IH. lia. }
  rewrite X. lia.
Qed.

(* a file that is cut inside its header *)
Lemma header_cut ids n :
  valid_ids ids -> n < lenN (file_header ids) ->
  header_read_chunk (takeN n (file_header ids)) 0 = Err FormatError.
Proof.
  intros V Hn. destruct (header_read_cases (takeN n (file_header ids))) as [(ids' & rest & V' & E & _)|H]; [|easy].
  exfalso.
  assert (E2 : file_header ids = file_header ids' ++ (rest ++ dropN n (file_header ids))).
  { rewrite app_assoc, <- E. symmetry. apply takeN_dropN. }
  assert (EL : lenN ids = lenN ids').
  { unfold file_header in E2. rewrite <- !app_assoc in E2. apply app_inv_head in E2.
    apply app_inv_head in E2.
    assert (X : takeN 4 (le_bytes 4 (lenN ids) ++ concat (map (fun i => le_bytes 4 (Z.to_N i)) ids))
       = le_bytes 4 (lenN ids)) by (apply (takeN_app_l (le_bytes 4 (lenN ids)))).
    rewrite E2 in X. assert (Y : takeN 4 (le_bytes 4 (lenN ids') ++
        (concat (map (fun i => le_bytes 4 (Z.to_N i)) ids') ++ rest ++
         dropN n (MAGIC ++ le_bytes 4 0 ++ le_bytes 4 (lenN ids) ++
            concat (map (fun i => le_bytes 4 (Z.to_N i)) ids)))) = le_bytes 4 (lenN ids'))
      by (apply (takeN_app_l (le_bytes 4 (lenN ids')))).
    unfold bytes in *. rewrite Y in X.
    destruct V as (_ & V & _), V' as (_ & V' & _).
    rewrite <- (le_val_small 4 (lenN ids)), <- (le_val_small 4 (lenN ids')) by easy. now rewrite X. }
  pose proof (f_equal lenN E) as L. rewrite lenN_takeN, lenN_app, !file_header_len in L.
  rewrite file_header_len in Hn. lia.
Qed.

(* ---------------------------------------------------------------- *)
(* C12: alignment                                                    *)

Lemma pad_aligns p k : k mod 4 = 0 -> (p + k + pad_float32 p) mod 4 = 0.
Proof.
  intros H. unfold pad_float32.
  pose proof (N.div_mod p 4 ltac:(easy)) as D. pose proof (N.mod_lt p 4 ltac:(easy)) as M.
  pose proof (N.div_mod k 4 ltac:(easy)) as D2. rewrite H in D2.
  replace (p + k + (4 - p mod 4)) with ((p / 4 + k / 4 + 1) * 4).
  - apply N.mod_mul. easy.
  - revert D D2 M. generalize (p / 4) (p mod 4) (k / 4). intros. lia.
Qed.


Lemma pad_range p : 1 <= pad_float32 p <= 4.
Proof.
  unfold pad_float32. pose proof (N.mod_lt p 4 ltac:(easy)) as M. revert M.
  generalize (p mod 4). intros. lia.
Qed.

Lemma ndarray_aligned h a p out :
  ndarray_wf a -> ndarray_write_chunk h a p = (out, Ok tt) ->
  aligned_at p 28 out (floats_le (concat (nd_rows a))).
Proof.
  intros W H. destruct (ndarray_layout _ _ _ _ W H) as (hd & _ & L & ->).
  exists hd, (pad_float32 p). split; [easy|]. split; [apply pad_range|]. split; [easy|].
  now apply pad_aligns.
Qed.

Lemma norms_aligned h n p out :
  norms_wf n -> norms_write_chunk h n p = (out, Ok tt) ->
  aligned_at p 24 out (floats_le (nm_vals n)).
Proof.
  intros W H. destruct (norms_layout _ _ _ _ _ (or_introl W) H) as (hd & _ & L & ->).
  exists hd, (pad_float32 p). split; [easy|]. split; [apply pad_range|]. split; [easy|].
  now apply pad_aligns.
Qed.

Lemma qarray_aligned h q p out :
  qarray_wf q -> qarray_write_chunk h q p = (out, Ok tt) ->
  aligned_at p 48 out
    (floats_le (match pq_projection (qa_pq q) with Some (_, rows) => concat rows | None => [] end)
     ++ floats_le (concat (concat (pq_quantizers (qa_pq q))))
     ++ floats_le (match qa_norms q with Some (_, ns) => ns | None => [] end)
     ++ concat (qa_codes q)).
Proof.
  intros W H. destruct (qarray_layout _ _ _ _ W H) as (hd & _ & L & ->).
  exists hd, (pad_float32 p). split; [easy|]. split; [apply pad_range|]. split; [|now apply pad_aligns].
  f_equal. f_equal. unfold proj_bytes, norm_bytes, quant_bytes, floats_le, f32s_le.
  now destruct (pq_projection (qa_pq q)) as [[? ?]|], (qa_norms q) as [[? ?]|].
Qed.
Lemma floats_le_len l : lenN (floats_le l) = 4 * lenN l.
Proof. apply f32s_len. Qed.

(* ---------------------------------------------------------------- *)
(* C09: byte order                                                   *)

Lemma wseq_ext w1 w1' w2 w2' p :
  (forall p, w1 p = w1' p) -> (forall p, w2 p = w2' p) -> (w1 ;w; w2) p = (w1' ;w; w2') p.
Proof. intros H1 H2. unfold wseq. rewrite H1. destruct (w1' p) as [b [|]]; [|easy]. now rewrite H2. Qed.

Lemma serialize_order h1 h2 bo1 bo2 l p :
  bo_wf bo1 -> bo_wf bo2 -> serialize_array_as_le h1 bo1 l p = serialize_array_as_le h2 bo2 l p.
Proof. intros H1 H2. now rewrite !serialize_array_as_le_bytes by (now left). Qed.

Lemma norms_order h1 h2 n1 n2 p :
  norms_wf n1 -> norms_wf n2 -> nm_vals n1 = nm_vals n2 ->
  norms_write_chunk h1 n1 p = norms_write_chunk h2 n2 p.
Proof.
  intros W1 W2 E. unfold norms_write_chunk, norms_write_elems. rewrite E.
  apply wseq_ext; [easy|]. intros p1. unfold wtell. apply wseq_ext; [easy|]. intros p2.
  now apply serialize_order.
Qed.

Lemma storage_order h1 h2 s1 s2 p :
  storage_wf s1 -> storage_wf s2 -> native_storage s1 = native_storage s2 ->
  storage_write_chunk h1 s1 p = storage_write_chunk h2 s2 p.
Proof.
  intros W1 W2 E. destruct s1 as [a1|q1], s2 as [a2|q2]; try easy; cbn [native_storage] in E.
  - injection E as Ec Er. simpl. unfold ndarray_write_chunk. rewrite Ec, Er.
    apply wseq_ext; [easy|]. intros p1. unfold wtell. apply wseq_ext; [easy|]. intros p2.
    apply wseq_ext; [easy|]. intros p3. apply serialize_order; [apply W1|apply W2].
  - destruct W1 as ((B1 & _ & P1) & _ & _ & _ & N1), W2 as ((B2 & _ & P2) & _ & _ & _ & N2).
    destruct q1 as [[bo1 nc1 sl1 qs1 pr1] ql1 cs1 ns1], q2 as [[bo2 nc2 sl2 qs2 pr2] ql2 cs2 ns2].
    simpl in *. injection E as -> -> -> Ep -> -> En.
    unfold qarray_write_chunk, pq_reconstructed_len. simpl.
    apply wseq_ext; [easy|]. intros p1. unfold wtell. apply wseq_ext.
    { intros p2. destruct pr1 as [[? ?]|], pr2 as [[? ?]|]; try easy;
      destruct ns1 as [[? ?]|], ns2 as [[? ?]|]; try easy; injection En as ->; easy. }
    intros p2. apply wseq_ext; [easy|]. intros p3. apply wseq_ext.
    { intros p4. destruct pr1 as [[? ?]|], pr2 as [[? ?]|]; try easy. injection Ep as ->.
      apply serialize_order; [apply P1|apply P2]. }
    intros p4. apply wseq_ext; [intros; now apply serialize_order|]. intros p5. apply wseq_ext; [|easy].
    intros p6. destruct ns1 as [[? ?]|], ns2 as [[? ?]|]; try easy. injection En as ->.
    apply serialize_order; [apply N1|apply N2].
Qed.


Lemma wfor_ext {A} (f : A -> writer) l1 l2 p :
  Forall2 (fun a b => forall p, f a p = f b p) l1 l2 -> wfor f l1 p = wfor f l2 p.
Proof.
  intros H. revert p. induction H as [|a b l1 l2 Hab H IH]; intros p; [easy|].
  simpl. now apply wseq_ext.
Qed.

Lemma em_order h1 h2 t e1 e2 p :
  built_embeddings e1 -> built_embeddings e2 -> same_values e1 e2 ->
  em_write h1 t e1 p = em_write h2 t e2 p.
Proof.
  intros (W1 & _ & N1 & _) (W2 & _ & N2 & _) (Es & Ev & En & Em). unfold em_write.
  assert (F : Forall2 (fun a b => fst a = fst b /\ forall p, snd a p = snd b p)
                (em_chunks h1 t e1) (em_chunks h2 t e2)).
  { unfold em_chunks. rewrite Em, Ev. apply Forall2_app; [|apply Forall2_app; [|apply Forall2_app]].
    - destruct (em_metadata e2); repeat constructor.
    - repeat constructor.
    - constructor; [|constructor]. split.
      + destruct (em_storage e1), (em_storage e2); easy.
      + intros. now apply storage_order.
    - destruct (em_norms e1) as [n1|], (em_norms e2) as [n2|]; simpl in En; try discriminate En; [|constructor].
      simpl in En. injection En as En. constructor; [|constructor]. split; [easy|].
      intros. apply norms_order; auto. }
  apply wseq_ext.
  - intros p1. assert (X : map (fun c => chunk_id_val (fst c)) (em_chunks h1 t e1)
                           = map (fun c => chunk_id_val (fst c)) (em_chunks h2 t e2)).
    { clear -F. induction F as [|a b l1 l2 [H _] F IH]; [easy|]. simpl map; apply f_equal2; [exact (f_equal chunk_id_val H)|exact IH]. }
    now rewrite X.
  - intros p1. apply wfor_ext. clear -F. induction F as [|a b l1 l2 [_ H] F IH]; now constructor.
Qed.
