(* Headers, metadata and vocabularies of finalfusion files: the bytes the readers take. *)
From Coq Require Import Lia.
From Verif Require Import Py PyProofs Utf8 Utf8Proofs Utf8More SpecUtf8 IO IOProofs ReaderProofs Arr
  Subword Vocab VocabProofs Storage StorageProofs Chunks Embeddings Spec SpecVocab VocabFacts StorageInv
  InvProofs ExplicitConv ConvertProofs CompatProofs SpecFinalfusion FfParse.
Local Open Scope N_scope.
Local Open Scope list_scope.

(* ---------------------------------------------------------------- *)
(* headers                                                           *)

Lemma map2_repeat f ids : map2 ubytes (repeat f (length ids)) ids = map (ubytes f) ids.
Proof. induction ids as [|i ids IH]; [easy|]. cbn. now rewrite IH. Qed.
Lemma forall2_repeat f ids n : Forall2 ufits (repeat f n) ids <-> length ids = n /\ Forall (ufits f) ids.
Proof.
  revert n. induction ids as [|i ids IH]; intros [|n]; cbn; split.
  - easy.
  - intros _. constructor.
  - intros H. inversion H.
  - now intros [? _].
  - intros H. inversion H.
  - now intros [? _].
  - intros H. inversion H; subst. apply IH in H5 as [<- X]. split; [easy|]. now constructor.
  - intros [E H]. injection E as E. inversion H; subst. constructor; [easy|]. now apply IH.
Qed.
Lemma calcsize_repeat n : calcsize (repeat fU32 n) = (4 * n)%nat.
Proof. induction n; [easy|]. cbn [repeat calcsize field_size]. lia. Qed.

Definition header_of (ids : list N) : bytes := [x46; x69; x46; x75] ++ u32 0 ++ u32 (lenN ids) ++ concat (map u32 ids).
Lemma parses_if {A} (c : bool) (m1 m2 : reader A) P1 P2 : parses m1 P1 -> parses m2 P2 ->
  parses (if c then m1 else m2) (fun p b s a q => if c then P1 p b s a q else P2 p b s a q).
Proof. now destruct c. Qed.

(* a reader that fails except at one value *)
Lemma header_count k : 
  parses (read_required_binary (repeat fU32 (Z.to_nat (Z.of_N k))))
    (here (fun _ b _ vs => exists ids, vs = map Z.of_N ids /\ lenN ids = k /\ 0 < k
       /\ b = concat (map u32 ids) /\ Forall (fun i => i < 2 ^ 32) ids)) \/ 2 ^ 32 <= k.
Proof.
  destruct (N.le_gt_cases (2 ^ 32) k) as [|K]; [now right|left].
  replace (Z.to_nat (Z.of_N k)) with (N.to_nat k) by lia.
  destruct (N.eq_dec k 0) as [->|K0].
  { eapply parses_eq with (m := rfail FormatError).
    - intros d p. unfold read_required_binary, read_binary, rbind, read. cbn [N.to_nat repeat calcsize N.of_nat].
      change (ssize_limit <=? 0) with false. cbv iota zeta. rewrite takeN_0. reflexivity.
    - apply parses_fail'. intros p b s a q (_ & ids & _ & _ & ? & _). lia. }
  eapply parses_ext; [apply parses_required|].
  - apply Forall_forall. intros f H. apply repeat_spec in H. now left.
  - rewrite calcsize_repeat. lia.
  - rewrite calcsize_repeat. unfold ssize_limit. lia.
  - intros p b s vs q. unfold here. split.
    + intros (-> & ns & -> & -> & F2). apply forall2_repeat in F2 as [L F].
      split; [easy|]. exists ns. split; [easy|]. split; [unfold lenN; lia|]. split; [lia|].
      rewrite <- L, map2_repeat. split; [easy|exact F].
    + intros (-> & ids & -> & L & _ & -> & F). split; [easy|]. exists ids. split; [easy|].
      assert (L' : length ids = N.to_nat k) by (unfold lenN in L; lia). rewrite <- L', map2_repeat. split; [easy|].
      apply forall2_repeat. split; [easy|exact F].
Qed.
Lemma header_iff d p vs q : header_read_chunk d p = Ok (vs, q) <->
  exists ids s, vs = map Z.of_N ids /\ dropN p d = header_of ids ++ s /\ q = p + lenN (header_of ids)
    /\ 0 < lenN ids < 2 ^ 32 /\ Forall (fun i => i < 2 ^ 32) ids.
Proof.
  unfold header_read_chunk, header_of. split.
  - intros H. apply rbind_ok in H as (mg & p1 & H1 & H). apply parses_read in H1 as (b1 & s1 & E1 & -> & -> & _); [|easy].
    destruct (bytes_eqb b1 MAGIC) eqn:EM; [|easy]. apply bytes_eqb_eq in EM. subst b1. cbn [negb] in H.
    apply rbind_ok in H as (ve & p2 & H2 & H). apply parses_u32 in H2 as (b2 & s2 & E2 & -> & nv & -> & -> & Bv).
    destruct (Z.eqb_spec (Z.of_N nv) VERSION) as [EV|]; [|easy]. unfold VERSION in EV.
    assert (nv = 0) by lia. subst nv. cbn [negb] in H.
    apply rbind_ok in H as (k & p3 & H3 & H). apply parses_u32 in H3 as (b3 & s3 & E3 & -> & k' & -> & -> & Bk).
    destruct (header_count k') as [[_ HC]|]; [|lia].
    apply HC in H as (b4 & s4 & E4 & -> & ids & -> & <- & K0 & -> & F).
    exists ids, s4. split; [easy|].
    rewrite <- dropN_dropN, E1, dropN_app_l in E2. subst s1. rewrite <- !dropN_dropN, E1, dropN_app_l, dropN_app_l in E3. subst s2.
    rewrite <- !dropN_dropN, E1, dropN_app_l, dropN_app_l, dropN_app_l in E4. subst s3.
    rewrite E1, <- !app_assoc. split; [easy|]. rewrite !lenN_app. split; [change (lenN MAGIC) with (lenN [x46; x69; x46; x75]); lia|]. easy.
  - intros (ids & s & -> & E & -> & [K0 K] & F). rewrite <- !app_assoc in E.
    assert (X1 : read 4 d p = Ok (MAGIC, p + 4)).
    { apply parses_read; [easy|]. eexists _, _. split; [exact E|]. split; [easy|]. split; [easy|]. now left. }
    rewrite (rbind_step _ _ _ _ _ _ X1). change (negb (bytes_eqb MAGIC MAGIC)) with false. cbv iota.
    assert (E2 : dropN (p + 4) d = u32 0 ++ u32 (lenN ids) ++ concat (map u32 ids) ++ s).
    { rewrite <- dropN_dropN, E. apply (dropN_app_l [x46; x69; x46; x75]). }
    assert (X2 : read1 fU32 d (p + 4) = Ok (Z.of_N 0, p + 4 + 4)).
    { apply parses_u32. eexists _, _. split; [exact E2|]. split; [now rewrite lenN_u32|]. now exists 0. }
    rewrite (rbind_step _ _ _ _ _ _ X2). change (negb (Z.of_N 0 =? VERSION)%Z) with false. cbv iota.
    assert (E3 : dropN (p + 4 + 4) d = u32 (lenN ids) ++ concat (map u32 ids) ++ s).
    { rewrite <- dropN_dropN, E2, <- (lenN_u32 0) at 1. apply dropN_app_l. }
    assert (X3 : read1 fU32 d (p + 4 + 4) = Ok (Z.of_N (lenN ids), p + 4 + 4 + 4)).
    { apply parses_u32. eexists _, _. split; [exact E3|]. split; [now rewrite lenN_u32|]. now exists (lenN ids). }
    rewrite (rbind_step _ _ _ _ _ _ X3).
    assert (E4 : dropN (p + 4 + 4 + 4) d = concat (map u32 ids) ++ s).
    { rewrite <- dropN_dropN, E3, <- (lenN_u32 (lenN ids)) at 1. apply dropN_app_l. }
    destruct (header_count (lenN ids)) as [[_ HC]|]; [|lia]. apply HC.
    eexists _, _. split; [exact E4|]. split; [|now exists ids].
    rewrite !lenN_app, !lenN_u32. change (lenN [x46; x69; x46; x75]) with 4. lia.
Qed.

Lemma chunk_id_of_iff z c : chunk_id_of z = Ok c <-> z = chunk_id_val c.
Proof.
  split.
  - intros H. destruct z as [|z|z]; [now injection H as <-| |easy].
    do 4 (destruct z as [z|z|]; try (now injection H as <-); try easy).
  - intros ->. now destruct c.
Qed.
Definition chunk_head (c : chunk_id) (n : N) : bytes := u32 (Z.to_N (chunk_id_val c)) ++ u64 n.
Lemma chunk_id_small c : Z.to_N (chunk_id_val c) < 2 ^ 32 /\ Z.of_N (Z.to_N (chunk_id_val c)) = chunk_id_val c.
Proof. destruct c; cbn; lia. Qed.
Lemma lenN_chunk_head c n : lenN (chunk_head c n) = 12.
Proof. unfold chunk_head. now rewrite lenN_app, lenN_u32, lenN_u64. Qed.
Lemma chunk_header_iff d p c n q : read_chunk_header d p = Ok (Some (c, n), q) <->
  exists s, dropN p d = chunk_head c n ++ s /\ q = p + 12 /\ n < 2 ^ 64.
Proof.
  unfold read_chunk_header. split.
  - intros H. apply rbind_ok in H as ([vs|] & p1 & H1 & H); [|easy].
    apply read_binary_iff in H1 as (b & s & E & -> & X); [|unfold ssize_limit; cbn; lia|cbn; lia].
    apply uunpack_iff in X as (ns & -> & -> & F2); [|repeat constructor; now (left + right)].
    inversion F2 as [|? i ? ns' O1 F3]; subst. inversion F3 as [|? m ? ns2 O2 F4]; subst. inversion F4; subst.
    cbn [map] in H. apply rbind_ok in H as (c' & p2 & H2 & H). apply rlift_ok in H2 as [H2 ->].
    injection H as <- <- <-. apply chunk_id_of_iff in H2. exists s. cbn [map2 concat] in *. rewrite app_nil_r in *.
    split; [|split].
    + unfold chunk_head. rewrite <- H2, N2Z.id, N2Z.id. exact E.
    + reflexivity.
    + rewrite N2Z.id. exact O2.
  - intros (s & E & -> & B). destruct (chunk_id_small c) as [C1 C2].
    assert (X : read_binary [fU32; fU64] d p = Ok (Some [chunk_id_val c; Z.of_N n], p + 12)).
    { apply read_binary_iff; [unfold ssize_limit; cbn; lia|cbn; lia|]. exists (chunk_head c n), s. split; [exact E|].
      split; [now rewrite lenN_chunk_head|]. apply uunpack_iff; [repeat constructor; now (left + right)|].
      exists [Z.to_N (chunk_id_val c); n]. cbn [map map2 concat]. rewrite app_nil_r, C2. split; [easy|]. split; [easy|].
      constructor; [exact C1|]. constructor; [exact B|constructor]. }
    rewrite (rbind_step _ _ _ _ _ _ X). unfold rlift. rewrite (proj2 (chunk_id_of_iff _ c) eq_refl).
    unfold rbind, rret. now rewrite N2Z.id.
Qed.
Lemma chunk_header_none d p q : read_chunk_header d p = Ok (None, q) <-> q = p /\ dropN p d = [].
Proof.
  unfold read_chunk_header. split.
  - intros H. apply rbind_ok in H as ([vs|] & p1 & H1 & H).
    + destruct vs as [|a [|b [|]]]; try easy. apply rbind_ok in H as (c' & p2 & H2 & H). easy.
    + apply read_binary_none in H1; [|unfold ssize_limit; cbn; lia|cbn; lia]. now injection H as <-.
  - intros H. apply (read_binary_none [fU32; fU64]) in H; [|unfold ssize_limit; cbn; lia|cbn; lia].
    now rewrite (rbind_step _ _ _ _ _ _ H).
Qed.
Lemma required_header_iff d p c n q : read_required_chunk_header d p = Ok ((c, n), q) <->
  exists s, dropN p d = chunk_head c n ++ s /\ q = p + 12 /\ n < 2 ^ 64.
Proof.
  rewrite <- chunk_header_iff. unfold read_required_chunk_header. split.
  - intros H. apply rbind_ok in H as ([[c' n']|] & p1 & H1 & H); [|easy]. now injection H as <- <- <-.
  - intros H. now rewrite (rbind_step _ _ _ _ _ _ H).
Qed.
Lemma parses_chunk_header : parses read_required_chunk_header
  (here (fun _ b _ x => b = chunk_head (fst x) (snd x) /\ snd x < 2 ^ 64)).
Proof.
  split; [apply forward_here|]. intros d p [c n] q. rewrite required_header_iff. unfold here. cbn [fst snd]. split.
  - intros (s & E & -> & B). exists (chunk_head c n), s. split; [easy|]. now rewrite lenN_chunk_head.
  - intros (b & s & E & -> & -> & B). exists s. now rewrite lenN_chunk_head.
Qed.

(* ---------------------------------------------------------------- *)
(* metadata: the header of the chunk is read again                   *)

Lemma metadata_iff t d p m q n s : dropN p d = chunk_head CMetadata n ++ s -> n < 2 ^ 64 ->
  metadata_read_chunk t d (p + 12) = Ok (m, q) <->
  exists x s' w, s = x ++ s' /\ lenN x = n /\ n < 2 ^ 63 /\ q = p + 12 + n /\ utf8_of w x /\ toml_loads t w = Ok m.
Proof.
  intros E B. unfold metadata_read_chunk.
  assert (X0 : seek_back 12 d (p + 12) = Ok (tt, p)).
  { unfold seek_back. destruct (N.leb_spec 12 (p + 12)); [|lia]. do 2 f_equal. lia. }
  rewrite (rbind_step _ _ _ _ _ _ X0).
  assert (X1 : read2 fU32 fU64 d p = Ok ((chunk_id_val CMetadata, Z.of_N n), p + 12)).
  { apply (parses_read2 fU32 fU64); [now left|now right|]. eexists _, _. split; [exact E|].
    split; [now rewrite lenN_chunk_head|]. exists 5, n. split; [easy|]. split; [easy|]. split; [reflexivity|exact B]. }
  rewrite (rbind_step _ _ _ _ _ _ X1). cbv beta iota.
  rewrite (proj2 (chunk_id_of_iff _ CMetadata) eq_refl). change (py_assert (chunk_id_eqb CMetadata CMetadata)) with (@Ok unit tt).
  unfold rlift at 1 2. cbv beta. rewrite N2Z.id.
  assert (E2 : dropN (p + 12) d = s). { rewrite <- dropN_dropN, E, <- (lenN_chunk_head CMetadata n). apply dropN_app_l. }
  split.
  - intros H. apply rbind_ok in H as (? & p1 & H0 & H). injection H0 as <- <-.
    apply rbind_ok in H as (? & p2 & H0 & H). injection H0 as <- <-.
    apply rbind_ok in H as (x & p3 & H1 & H).
    assert (L : n < ssize_limit).
    { unfold read in H1. destruct (N.leb_spec ssize_limit n); [easy|easy]. }
    apply parses_read in H1 as (b & s' & E3 & -> & <- & _); [|easy].
    destruct (N.eqb_spec (lenN x) n) as [EL|]; [|easy]. cbn [negb] in H. apply rlift_ok in H as [H ->].
    apply bind_ok in H as (w & H1 & H). apply decode_iff in H1. rewrite E2 in E3. exists x, s', w.
    rewrite EL. auto 6.
  - intros (x & s' & w & -> & L & B2 & -> & U & T).
    assert (X3 : read n d (p + 12) = Ok (x, p + 12 + n)).
    { apply parses_read; [exact B2|]. exists x, s'. split; [exact E2|]. split; [now rewrite L|]. split; [easy|]. now left. }
    unfold rbind. cbv beta iota. change (py_assert (chunk_id_eqb CMetadata CMetadata)) with (@Ok unit tt). cbv beta iota. rewrite X3, L, N.eqb_refl. cbn [negb]. unfold rlift.
    rewrite (proj2 (decode_iff w x) U). cbn [bind]. now rewrite T.
Qed.

(* ---------------------------------------------------------------- *)
(* vocabularies                                                      *)

Definition r_item (b s : bytes) (w : str) : Prop :=
  exists n x, n < 2 ^ 32 /\ b = u32 n ++ x /\ upto n x s /\ utf8_of w x.
Lemma parses_item : parses read_item (here (fun _ => r_item)).
Proof.
  split; [apply forward_here|]. intros d p w q. unfold read_item. split.
  - intros H. apply rbind_ok in H as (z & p1 & H1 & H). apply parses_u32 in H1 as (b & s & E & -> & n & -> & -> & B).
    rewrite N2Z.id in H. apply rbind_ok in H as (x & p2 & H2 & H).
    apply parses_read in H2 as (b2 & s2 & E2 & -> & <- & U); [|unfold ssize_limit; lia].
    apply rlift_ok in H as [H ->]. apply decode_iff in H.
    rewrite <- dropN_dropN, E, dropN_app_l in E2. subst s. exists (u32 n ++ x), s2. rewrite <- app_assoc. split; [exact E|].
    split; [rewrite lenN_app; lia|]. exists n, x. auto.
  - intros (b & s & E & -> & n & x & B & -> & U & X). rewrite <- app_assoc in E.
    assert (X1 : read1 fU32 d p = Ok (Z.of_N n, p + 4)).
    { apply parses_u32. eexists _, _. split; [exact E|]. split; [now rewrite lenN_u32|]. now exists n. }
    rewrite (rbind_step _ _ _ _ _ _ X1), N2Z.id.
    assert (E2 : dropN (p + 4) d = x ++ s). { rewrite <- dropN_dropN, E, <- (lenN_u32 n). apply dropN_app_l. }
    assert (X2 : read n d (p + 4) = Ok (x, p + 4 + lenN x)).
    { apply parses_read; [unfold ssize_limit; lia|]. exists x, s. auto. split; [easy|]. split; [easy|]. auto. }
    rewrite (rbind_step _ _ _ _ _ _ X2). unfold rlift. rewrite (proj2 (decode_iff w x) X). do 2 f_equal.
    rewrite lenN_app, lenN_u32. lia.
Qed.
Lemma item_iff b s w : s <> [] -> r_item b s w <-> ff_string w b.
Proof.
  intros NE. unfold r_item, ff_string. split.
  - intros (n & x & B & -> & [<-|[_ ?]] & U); [|easy]. exists x. auto.
  - intros (x & U & B & ->). exists (lenN x), x. split; [easy|]. split; [easy|]. split; [now left|easy].
Qed.
Definition r_ngram (b s : bytes) (g : str * Z) : Prop :=
  exists n b1, snd g = Z.of_N n /\ n < 2 ^ 64 /\ ff_string (fst g) b1 /\ b = b1 ++ u64 n.
Lemma parses_ngram : parses read_item_with_index (here (fun _ => r_ngram)).
Proof.
  unfold read_item_with_index. eapply parses_ext.
  { apply parses_bind; [apply parses_item|]. intros w. apply parses_bind; [apply parses_u64|]. intros z. apply parses_ret. }
  intros p b s [g z] q. unfold seqP, here, r_u64, r_ngram. cbn [fst snd]. split.
  - intros (b1 & b2 & w & p1 & -> & (-> & I) & b3 & b4 & z' & p2 & -> & (-> & n & -> & -> & B) & -> & -> & X).
    injection X as -> ->. rewrite app_nil_r in *. rewrite lenN_nil, lenN_app. split; [lia|].
    exists n, b1. split; [easy|]. split; [easy|]. split; [|easy]. apply (item_iff b1 (u64 n ++ s)); [|exact I].
    intros X%app_eq_nil. destruct X as [X _]. apply (f_equal lenN) in X. now rewrite lenN_u64 in X.
  - intros (-> & n & b1 & -> & B & I & ->). exists b1, (u64 n), g, (p + lenN b1). split; [easy|].
    split; [split; [easy|]; apply item_iff; [|exact I]|].
    + intros X%app_eq_nil. destruct X as [X _]. apply (f_equal lenN) in X. now rewrite lenN_u64 in X.
    + exists (u64 n), [], (Z.of_N n), (p + lenN b1 + 8). rewrite app_nil_r, lenN_nil, lenN_app, lenN_u64.
      split; [easy|]. split; [split; [easy|]; exists n; auto|]. split; [lia|easy].
Qed.

Definition r_items (n : N) (b s : bytes) (ws : list str) : Prop := rep r_item (N.to_nat n) b s ws.
Lemma parses_items n : parses (read_items n) (here (fun _ => r_items n)).
Proof. apply (parses_repeat read_item r_item), parses_item. Qed.
Lemma items_iff n b s ws : s <> [] -> r_items n b s ws <-> ff_words ws b /\ lenN ws = n.
Proof.
  intros NE. unfold r_items. rewrite (rep_all r_item ff_string); [|apply item_iff|exact NE]. unfold ff_words, lenN.
  split.
  - intros (bs & F & -> & L). split; [eauto|lia].
  - intros ((bs & F & ->) & L). exists bs. split; [easy|]. split; [easy|lia].
Qed.

Lemma ff_words_cons w ws b : ff_words (w :: ws) b <-> exists b1 b2, b = b1 ++ b2 /\ ff_string w b1 /\ ff_words ws b2.
Proof.
  unfold ff_words. split.
  - intros (bs & F & ->). inversion F as [|? b1 ? bs' H1 F']; subst. exists b1, (concat bs'). eauto.
  - intros (b1 & b2 & -> & H & bs & F & ->). exists (b1 :: bs). split; [now constructor|easy].
Qed.
Lemma cut_words_cons w ws b : ws <> [] ->
  ff_cut_words (w :: ws) b <-> exists b1 b2, b = b1 ++ b2 /\ ff_string w b1 /\ ff_cut_words ws b2.
Proof.
  intros NE. unfold ff_cut_words. split.
  - intros ([|w' init] & w2 & b1 & n & x & E & F & U & B & ->).
    + injection E as -> ->. easy.
    + injection E as <- ->. apply ff_words_cons in F as (c1 & c2 & -> & S & F). exists c1, (c2 ++ u32 n ++ x).
      rewrite <- app_assoc. split; [easy|]. split; [easy|]. exists init, w2, c2, n, x. auto.
  - intros (c1 & b2 & -> & S & init & w2 & b1 & n & x & -> & F & U & B & ->).
    exists (w :: init), w2, (c1 ++ b1), n, x. rewrite <- app_assoc. split; [easy|]. split; [|auto].
    apply ff_words_cons. eauto.
Qed.
Lemma cut_words_nil b : ~ ff_cut_words [] b.
Proof. intros ([|] & ? & ? & ? & ? & E & _); discriminate E. Qed.
Lemma cut_words_not_nil ws b s : ff_cut_words ws b -> b ++ s <> [].
Proof.
  intros (init & w & b1 & n & x & _ & _ & _ & _ & ->) E. apply (f_equal lenN) in E.
  rewrite !lenN_app, lenN_u32 in E. change (lenN (@nil byte)) with 0 in E. lia.
Qed.
Lemma words_not_nil ws b s : ws <> [] -> ff_words ws b -> b ++ s <> [].
Proof.
  intros NE F E. destruct ws as [|w ws]; [easy|]. apply ff_words_cons in F as (b1 & b2 & -> & (x & _ & _ & ->) & _).
  apply (f_equal lenN) in E. rewrite !lenN_app, lenN_u32 in E. change (lenN (@nil byte)) with 0 in E. lia.
Qed.
Lemma items_at n b s ws : r_items n b s ws <-> ff_words_before s ws b /\ lenN ws = n.
Proof.
  unfold r_items. assert (X : forall k b ws, rep r_item k b s ws <-> ff_words_before s ws b /\ length ws = k).
  { clear. induction k as [|k IH]; intros b ws; destruct ws as [|w ws]; cbn [rep]; split; try easy.
    - intros ->. split; [|easy]. left. exists []. split; [constructor|easy].
    - intros [[(bs & F & ->)|[_ C]] _]; [now inversion F|now apply cut_words_nil in C].
    - intros (b1 & b2 & -> & I & H). apply IH in H as [H L]. split; [|cbn; lia].
      destruct I as (n & x & B & -> & [<-|[LX EN]] & U).
      + assert (S : ff_string w (u32 (lenN x) ++ x)) by (exists x; auto).
        destruct H as [H|[-> H]]; [left; apply ff_words_cons; eauto|].
        right. split; [easy|]. apply cut_words_cons; [|eauto]. intros ->. now apply cut_words_nil in H.
      + apply app_eq_nil in EN as [-> ->]. right. split; [easy|].
        assert (ws = []).
        { destruct ws as [|w' ws]; [easy|exfalso]. destruct H as [H|[_ H]].
          - apply (words_not_nil _ _ []) in H; [now apply H|easy].
          - apply (cut_words_not_nil _ _ []) in H. now apply H. }
        subst ws. exists [], w, [], n, x. rewrite app_nil_r. cbn [app]. split; [easy|].
        split; [exists []; split; [constructor|easy]|]. auto.
    - intros [H L]. cbn [length] in L. destruct ws as [|w' ws].
      + cbn in L. exists b, []. rewrite app_nil_r. split; [easy|]. split.
        * cbn [app]. destruct H as [H|[-> H]].
          -- apply ff_words_cons in H as (b1 & b2 & -> & (x & U & B & ->) & bs & F & ->). inversion F; subst.
             cbn [concat]. rewrite app_nil_r. exists (lenN x), x. split; [easy|]. split; [easy|]. split; [now left|easy].
          -- destruct H as ([|? [|]] & w2 & b1 & n & x & E & (bs & F & ->) & U & B & ->); try discriminate E.
             injection E as <-. inversion F; subst. cbn [concat app]. exists n, x. split; [easy|]. split; [easy|].
             split; [now right|easy].
        * apply IH. split; [|cbn; lia]. left. exists []. split; [constructor|easy].
      + assert (NE : w' :: ws <> []) by easy.
        assert (Y : exists b1 b2, b = b1 ++ b2 /\ ff_string w b1 /\ ff_words_before s (w' :: ws) b2).
        { destruct H as [H|[-> H]].
          - apply ff_words_cons in H as (b1 & b2 & -> & S & H). exists b1, b2. split; [easy|]. split; [easy|]. now left.
          - apply cut_words_cons in H as (b1 & b2 & -> & S & H); [|easy]. exists b1, b2. split; [easy|].
            split; [easy|]. now right. }
        destruct Y as (b1 & b2 & -> & S & H2). exists b1, b2. split; [easy|]. split.
        * apply item_iff; [|easy]. destruct H2 as [H2|[_ H2]]; [exact (words_not_nil _ _ s NE H2)|exact (cut_words_not_nil _ _ s H2)].
        * apply IH. split; [easy|]. cbn in *. lia. }
  rewrite X. unfold lenN. split; intros [? ?]; (split; [easy|lia]).
Qed.

Lemma positions_enumerate ws : positions ws = enumerate ws.
Proof.
  unfold positions, enumerate. change 0%Z with (Z.of_nat 0). generalize 0%nat.
  induction ws as [|w ws IH]; intros k; [easy|]. cbn. f_equal. rewrite IH. f_equal. lia.
Qed.
Lemma validate_iff ws idx : validate_items_and_create_index ws = Ok idx <-> NoDup ws /\ idx = positions ws.
Proof.
  rewrite positions_enumerate. split; [apply validate_ok|]. intros [N ->]. now apply validate_NoDup.
Qed.

Lemma range_iff mn mx : ((Z.of_N mn <=? Z.of_N mx)%Z && (0 <? Z.of_N mn)%Z)%bool = true <-> 0 < mn <= mx.
Proof. rewrite andb_true_iff, Z.leb_le, Z.ltb_lt. lia. Qed.
Lemma ff_new_iff e mn mx ix : mn < 2 ^ 32 -> mx < 2 ^ 32 ->
  ff_new (Z.of_N e) (Z.of_N mn) (Z.of_N mx) = Ok ix <-> 0 < mn <= mx /\ 0 < e < 64 /\ ix = FF e mn mx.
Proof.
  intros B1 B2. unfold ff_new. rewrite !to_uint32_of_N by easy. split.
  - intros H. apply bind_ok in H as (u1 & H1 & H). apply py_assert_ok, range_iff in H1.
    apply bind_ok in H as (u2 & H2 & H). apply py_assert_ok, andb_true_iff in H2 as [H2 H3].
    apply Z.ltb_lt in H2, H3. cbn [bind] in H. injection H as <-. rewrite N2Z.id. repeat split; lia.
  - intros (R & E & ->). apply range_iff in R. rewrite R. cbn [py_assert bind].
    destruct (Z.ltb_spec 0 (Z.of_N e)); [|lia]. destruct (Z.ltb_spec (Z.of_N e) 64); [|lia]. cbn [andb bind py_assert].
    now rewrite N2Z.id.
Qed.
Lemma ft_new_iff e mn mx ix : mn < 2 ^ 32 -> mx < 2 ^ 32 ->
  ft_new (Z.of_N e) (Z.of_N mn) (Z.of_N mx) = Ok ix <-> 0 < mn <= mx /\ 0 < e < 2 ^ 32 /\ ix = FT e mn mx.
Proof.
  intros B1 B2. unfold ft_new. rewrite !to_uint32_of_N by easy. split.
  - intros H. apply bind_ok in H as (u1 & H1 & H). apply py_assert_ok, range_iff in H1.
    apply bind_ok in H as (u2 & H2 & H). apply py_assert_ok, andb_true_iff in H2 as [H2 H3].
    apply Z.ltb_lt in H2. apply Z.leb_le in H3. cbn [bind] in H. injection H as <-. rewrite N2Z.id. repeat split; lia.
  - intros (R & E & ->). apply range_iff in R. rewrite R. cbn [py_assert bind].
    destruct (Z.ltb_spec 0 (Z.of_N e)); [|lia]. destruct (Z.leb_spec (Z.of_N e) (2 ^ 32 - 1)); [|lia]. cbn [andb bind py_assert].
    now rewrite N2Z.id.
Qed.
Definition zn (g : str * N) : str * Z := (fst g, Z.of_N (snd g)).
Lemma ex_new_iff gs mn mx ix : mn < 2 ^ 32 -> mx < 2 ^ 32 ->
  ex_new (map fst gs) (Z.of_N mn) (Z.of_N mx) (Some (dict_of str_eqb (map zn gs))) = Ok ix
  <-> 0 < mn <= mx /\ NoDup (map fst gs) /\ gs <> []
      /\ exists bound, (forall i, i < bound <-> In i (map snd gs)) /\ ix = EX (map fst gs) (map zn gs) (Z.of_N bound) mn mx.
Proof.
  intros B1 B2.
  assert (MF : map fst (map zn gs) = map fst gs) by (rewrite map_map; now apply map_ext).
  assert (DI : NoDup (map fst gs) -> dict_of str_eqb (map zn gs) = map zn gs).
  { intros ND. apply (dict_of_id str_eqb str_eqb_eq). now rewrite MF. }
  split.
  - intros H.
    assert (W : forall i, Some (dict_of str_eqb (map zn gs)) = Some i -> dict_wf i).
    { intros i [= <-]. apply (dict_of_NoDup_keys str_eqb str_eqb_eq). }
    assert (ND : NoDup (map fst gs)).
    { unfold ex_new in H. apply bind_ok in H as (? & _ & H). apply bind_ok in H as (? & _ & H).
      apply bind_ok in H as (? & _ & H). apply bind_ok in H as (? & H2 & H). apply py_assert_ok, Nat.eqb_eq in H2.
      now apply (dedup_length_NoDup str_eqb str_eqb_eq). }
    rewrite (DI ND) in *.
    assert (P : forall i, Some (map zn gs) = Some i -> Forall (fun kv => 0 <= snd kv)%Z i).
    { intros i [= <-]. apply Forall_forall. intros kv I. apply in_map_iff in I as (g & <- & _). cbn. lia. }
    pose proof (ex_new_covers _ _ _ _ _ W P H) as (_ & _ & C).
    destruct (ex_new_inv _ _ _ _ _ W H) as ((_ & _ & _ & R1 & R2) & EN & E1 & E2 & EI).
    assert (Nn : ex_ngrams ix <> []) by (eapply (ex_new_nonempty (map fst gs)); exact H).
    pose proof (ex_bound_nonneg _ _ _ _ _ H) as B0.
    split; [lia|]. split; [exact ND|]. split; [rewrite EN in Nn; intros ->; now apply Nn|].
    exists (Z.to_N (ex_bound ix)). rewrite EI in C. split.
    + intros i. specialize (C (Z.of_N i)). rewrite <- sget_values in C by (red; now rewrite MF).
      assert (X : In (Z.of_N i) (map snd (map zn gs)) <-> In i (map snd gs)).
      { rewrite map_map. rewrite !in_map_iff. split; intros (g & E & I); exists g; cbn in *; (split; [lia|easy]). }
      rewrite <- X, <- C. lia.
    + rewrite Z2N.id by lia. destruct ix; cbn in *. subst. f_equal; lia.
  - intros (R & ND & NE & bound & HB & ->). rewrite (DI ND). unfold ex_new. apply range_iff in R. rewrite R.
    cbn [py_assert bind]. rewrite !to_uint32_of_N by easy. cbn [bind].
    rewrite (dedup_id str_eqb str_eqb_eq) by exact ND. rewrite Nat.eqb_refl. cbn [bind py_assert].
    assert (F : forallb (fun g => dmem str_eqb g (map zn gs)) (map fst gs) = true).
    { apply forallb_forall. intros g Hg. apply (dmem_In str_eqb str_eqb_eq). now rewrite MF. }
    assert (L : length (map zn gs) = length (map fst gs)) by (now rewrite !map_length).
    rewrite F, L, Nat.eqb_refl. cbn [bind py_assert andb].
    assert (V : forall z, In z (map snd (map zn gs)) <-> (0 <= z < Z.of_N bound)%Z).
    { intros z. rewrite map_map. rewrite in_map_iff. split.
      - intros (g & <- & I). cbn. apply (in_map snd), HB in I. lia.
      - intros Hz. assert (Hn : Z.to_N z < bound) by lia. apply HB, in_map_iff in Hn as (g & E & I).
        exists g. cbn. split; [lia|easy]. }
    assert (B0 : 0 < bound).
    { destruct gs as [|g gs]; [easy|]. assert (X : snd g < bound) by (apply HB; now left). lia. }
    assert (Mx : py_max (map snd (map zn gs)) = Ok (Z.of_N bound - 1)%Z).
    { apply py_max_spec. split; [apply V; lia|]. intros x Hx. apply V in Hx. lia. }
    rewrite Mx. cbn [bind].
    assert (Dl : length (dedup Z.eqb (map snd (map zn gs))) = N.to_nat bound).
    { rewrite (dedup_length_same _ (zrange (N.to_nat bound))).
      - rewrite (dedup_id Z.eqb Zeqb_eq) by apply NoDup_zrange. apply zrange_length.
      - intros x. rewrite zrange_In, V. lia. }
    rewrite Dl. replace (Z.of_N bound - 1 + 1)%Z with (Z.of_nat (N.to_nat bound)) by lia.
    rewrite Z.eqb_refl. cbn [bind py_assert]. f_equal. f_equal. lia.
Qed.

Lemma with_index_iff ws (k : dict str Z -> vocab) v :
  (index <- validate_items_and_create_index ws ;; Ok (k index)) = Ok v <-> NoDup ws /\ v = k (positions ws).
Proof.
  split.
  - intros H. apply bind_ok in H as (i & H1 & H). apply validate_iff in H1 as [H1 ->]. now injection H as <-.
  - intros [H ->]. now rewrite (proj2 (validate_iff ws _) (conj H eq_refl)).
Qed.

Definition r_ngrams (n : N) (b s : bytes) (gs : list (str * Z)) : Prop := rep r_ngram (N.to_nat n) b s gs.
Lemma ngrams_any n b s s' l : r_ngrams n b s l -> r_ngrams n b s' l.
Proof.
  unfold r_ngrams. generalize (N.to_nat n). intros k. revert b l. induction k as [|k IH]; intros b [|g l]; cbn; try easy.
  intros (b1 & b2 & -> & H & R). exists b1, b2. split; [easy|]. split; [exact H|]. now apply IH.
Qed.
Lemma ngrams_iff n b s l :
  r_ngrams n b s l <-> exists gs, l = map zn gs /\ ff_ngrams gs b /\ lenN gs = n.
Proof.
  transitivity (r_ngrams n b [x00] l); [split; apply ngrams_any|].
  unfold r_ngrams. rewrite (rep_all r_ngram (fun g b => r_ngram b [] g)); [|easy|discriminate].
  unfold ff_ngrams. split.
  - intros (bs & F & -> & L).
    assert (X : exists gs, l = map zn gs /\ Forall2 ff_ngram gs bs).
    { clear L. induction F as [|[g z] b l bs (n' & b1 & E & B & S & ->) F (gs & -> & IH)].
      - exists []. split; [easy|constructor].
      - cbn in E. exists ((g, n') :: gs). cbn. unfold zn at 2. cbn. subst z. split; [easy|]. constructor; [|exact IH].
        exists b1. auto. }
    destruct X as (gs & -> & X). exists gs. split; [easy|]. split; [eauto|]. rewrite map_length in L. unfold lenN. lia.
  - intros (gs & -> & (bs & F & ->) & L). exists bs. split; [|split; [easy|]].
    + clear L. induction F as [|[g z] b l bs (b1 & S & B & ->) F IH]; [constructor|]. cbn. constructor; [|exact IH].
      exists z, b1. auto.
    + rewrite map_length. unfold lenN in L. lia.
Qed.

Definition vocab_parse (c : chunk_id) (m : reader vocab) : Prop :=
  exists R, parses m (here (fun _ => R))
    /\ forall b s v, R b s v <-> ff_vocab (ff_words_before s) v (Z.to_N (chunk_id_val c)) b.

Lemma simple_parse : vocab_parse CSimpleVocab simple_vocab_read_chunk.
Proof.
  exists (fun b s v => exists n b1 ws, n < 2 ^ 64 /\ b = u64 n ++ b1 /\ r_items n b1 s ws
                       /\ NoDup ws /\ v = VSimple ws (positions ws)).
  split.
  - eapply parses_ext.
    { apply parses_bind; [apply parses_u64|]. intros n. apply parses_bind; [apply parses_items|].
      intros ws. apply parses_lift. }
    intros p b s v q. unfold seqP, here, r_u64. split.
    + intros (b1 & b2 & z & p1 & -> & (-> & n & -> & -> & B) & b3 & b4 & ws & p2 & -> & (-> & I) & -> & -> & H).
      apply (with_index_iff ws (VSimple ws)) in H as [ND ->]. rewrite N2Z.id, app_nil_r in *. rewrite lenN_nil, lenN_app.
      split; [lia|]. exists n, b3, ws. auto.
    + intros (-> & n & b1 & ws & B & -> & I & ND & ->). exists (u64 n), b1, (Z.of_N n), (p + 8).
      split; [easy|]. split; [rewrite lenN_u64; eauto|]. exists b1, [], ws, (p + 8 + lenN b1).
      rewrite N2Z.id, app_nil_r, lenN_nil, lenN_app, lenN_u64. split; [easy|]. split; [easy|]. split; [lia|]. split; [easy|].
      now apply (with_index_iff ws (VSimple ws)).
  - intros b s v. split.
    + intros (n & b1 & ws & B & -> & I & ND & ->). apply items_at in I as [I <-]. now constructor.
    + intros H. inversion H; subst. exists (lenN ws), b0, ws. split; [easy|]. split; [easy|].
      split; [now apply items_at|]. auto.
Qed.

Lemma ubytes_u32 n : ubytes fU32 n = u32 n.
Proof. easy. Qed.
Lemma ubytes_u64 n : ubytes fU64 n = u64 n.
Proof. easy. Qed.
Lemma parses_4444 : parses (read4 fU64 fU32 fU32 fU32) (here (fun _ b _ v => exists n m k l,
  v = (Z.of_N n, Z.of_N m, Z.of_N k, Z.of_N l) /\ b = u64 n ++ u32 m ++ u32 k ++ u32 l
  /\ n < 2 ^ 64 /\ m < 2 ^ 32 /\ k < 2 ^ 32 /\ l < 2 ^ 32)).
Proof. apply (parses_read4 fU64 fU32 fU32 fU32); now (left + right). Qed.
Lemma parses_8844 : parses (read4 fU64 fU64 fU32 fU32) (here (fun _ b _ v => exists n m k l,
  v = (Z.of_N n, Z.of_N m, Z.of_N k, Z.of_N l) /\ b = u64 n ++ u64 m ++ u32 k ++ u32 l
  /\ n < 2 ^ 64 /\ m < 2 ^ 64 /\ k < 2 ^ 32 /\ l < 2 ^ 32)).
Proof. apply (parses_read4 fU64 fU64 fU32 fU32); now (left + right). Qed.

Lemma bucket_parse : vocab_parse CBucketSubwordVocab bucket_vocab_read_chunk.
Proof.
  exists (fun b s v => exists n mn mx ex b1 ws, n < 2 ^ 64 /\ mn < 2 ^ 32 /\ mx < 2 ^ 32 /\ ex < 2 ^ 32
     /\ b = u64 n ++ u32 mn ++ u32 mx ++ u32 ex ++ b1 /\ r_items n b1 s ws
     /\ 0 < mn <= mx /\ 0 < ex < 64 /\ NoDup ws /\ v = VBucket ws (positions ws) (FF ex mn mx)).
  split.
  - eapply parses_ext.
    { apply parses_bind; [apply parses_4444|].
      instantiate (1 := fun h => seqP (here (fun _ => r_items (Z.to_N (fst (fst (fst h)))))) (fun ws =>
        seqP (here (fun _ b _ x => b = [] /\ ff_new (snd h) (snd (fst (fst h))) (snd (fst h)) = Ok x)) (fun ix =>
        here (fun _ b _ v => b = [] /\ bucket_vocab_new ws ix = Ok v)))).
      intros [[[n mn] mx] ex]. cbn [fst snd]. apply parses_bind; [apply parses_items|]. intros ws.
      apply parses_bind; [apply parses_lift|]. intros ix. apply parses_lift. }
    intros p b s v q. unfold seqP, here. split.
    + intros (b1 & b2 & z & p1 & -> & (-> & n & mn & mx & ex & -> & -> & B1 & B2 & B3 & B4)
        & b3 & b4 & ws & p2 & -> & (-> & I) & b5 & b6 & ix & p3 & -> & (-> & -> & H) & -> & -> & H2).
      cbn [fst snd] in *. rewrite N2Z.id in I. apply ff_new_iff in H as (R & E & ->); [|easy|easy].
      apply (with_index_iff ws (fun i => VBucket ws i (FF ex mn mx))) in H2 as [ND ->].
      rewrite app_nil_r in *. cbn [app] in I. rewrite !lenN_nil, <- !app_assoc, !lenN_app. split; [lia|].
      exists n, mn, mx, ex, b3, ws. repeat (split; [easy|]). easy.
    + intros (-> & n & mn & mx & ex & b1 & ws & B1 & B2 & B3 & B4 & -> & I & R & E & ND & ->).
      exists (u64 n ++ u32 mn ++ u32 mx ++ u32 ex), b1, (Z.of_N n, Z.of_N mn, Z.of_N mx, Z.of_N ex), (p + 20).
      rewrite <- !app_assoc. split; [easy|]. split.
      { split; [now rewrite !lenN_app, !lenN_u32, lenN_u64|]. exists n, mn, mx, ex. auto 8. }
      cbn [fst snd]. exists b1, [], ws, (p + 20 + lenN b1). rewrite app_nil_r, N2Z.id. split; [easy|]. split; [easy|].
      exists [], [], (FF ex mn mx), (p + 20 + lenN b1). rewrite !lenN_nil. split; [easy|].
      split; [split; [lia|]; split; [easy|]; now apply ff_new_iff|].
      split; [rewrite !lenN_app, !lenN_u32, lenN_u64; lia|]. split; [easy|].
      now apply (with_index_iff ws (fun i => VBucket ws i (FF ex mn mx))).
  - intros b s v. split.
    + intros (n & mn & mx & ex & b1 & ws & B1 & B2 & B3 & B4 & -> & I & R & E & ND & ->).
      apply items_at in I as [I <-]. now constructor.
    + intros H. inversion H; subst. exists (lenN ws), mn, mx, ex, b0, ws. split; [easy|]. split; [lia|]. split; [easy|].
      split; [lia|]. split; [easy|]. split; [now apply items_at|]. auto.
Qed.
Lemma fasttext_parse : vocab_parse CFastTextSubwordVocab fasttext_vocab_read_chunk.
Proof.
  exists (fun b s v => exists n mn mx ex b1 ws, n < 2 ^ 64 /\ mn < 2 ^ 32 /\ mx < 2 ^ 32 /\ ex < 2 ^ 32
     /\ b = u64 n ++ u32 mn ++ u32 mx ++ u32 ex ++ b1 /\ r_items n b1 s ws
     /\ 0 < mn <= mx /\ 0 < ex < 2 ^ 32 /\ NoDup ws /\ v = VFastText ws (positions ws) (FT ex mn mx)).
  split.
  - eapply parses_ext.
    { apply parses_bind; [apply parses_4444|].
      instantiate (1 := fun h => seqP (here (fun _ => r_items (Z.to_N (fst (fst (fst h)))))) (fun ws =>
        seqP (here (fun _ b _ x => b = [] /\ ft_new (snd h) (snd (fst (fst h))) (snd (fst h)) = Ok x)) (fun ix =>
        here (fun _ b _ v => b = [] /\ fasttext_vocab_new ws ix = Ok v)))).
      intros [[[n mn] mx] ex]. cbn [fst snd]. apply parses_bind; [apply parses_items|]. intros ws.
      apply parses_bind; [apply parses_lift|]. intros ix. apply parses_lift. }
    intros p b s v q. unfold seqP, here. split.
    + intros (b1 & b2 & z & p1 & -> & (-> & n & mn & mx & ex & -> & -> & B1 & B2 & B3 & B4)
        & b3 & b4 & ws & p2 & -> & (-> & I) & b5 & b6 & ix & p3 & -> & (-> & -> & H) & -> & -> & H2).
      cbn [fst snd] in *. rewrite N2Z.id in I. apply ft_new_iff in H as (R & E & ->); [|easy|easy].
      apply (with_index_iff ws (fun i => VFastText ws i (FT ex mn mx))) in H2 as [ND ->].
      rewrite app_nil_r in *. cbn [app] in I. rewrite !lenN_nil, <- !app_assoc, !lenN_app. split; [lia|].
      exists n, mn, mx, ex, b3, ws. repeat (split; [easy|]). easy.
    + intros (-> & n & mn & mx & ex & b1 & ws & B1 & B2 & B3 & B4 & -> & I & R & E & ND & ->).
      exists (u64 n ++ u32 mn ++ u32 mx ++ u32 ex), b1, (Z.of_N n, Z.of_N mn, Z.of_N mx, Z.of_N ex), (p + 20).
      rewrite <- !app_assoc. split; [easy|]. split.
      { split; [now rewrite !lenN_app, !lenN_u32, lenN_u64|]. exists n, mn, mx, ex. auto 8. }
      cbn [fst snd]. exists b1, [], ws, (p + 20 + lenN b1). rewrite app_nil_r, N2Z.id. split; [easy|]. split; [easy|].
      exists [], [], (FT ex mn mx), (p + 20 + lenN b1). rewrite !lenN_nil. split; [easy|].
      split; [split; [lia|]; split; [easy|]; now apply ft_new_iff|].
      split; [rewrite !lenN_app, !lenN_u32, lenN_u64; lia|]. split; [easy|].
      now apply (with_index_iff ws (fun i => VFastText ws i (FT ex mn mx))).
  - intros b s v. split.
    + intros (n & mn & mx & ex & b1 & ws & B1 & B2 & B3 & B4 & -> & I & R & E & ND & ->).
      apply items_at in I as [I <-]. now constructor.
    + intros H. inversion H; subst. exists (lenN ws), mn, mx, bu, b0, ws. split; [easy|]. split; [lia|]. split; [easy|].
      split; [easy|]. split; [easy|]. split; [now apply items_at|]. auto.
Qed.

Lemma parses_ngrams n : parses (read_items_with_indices n)
  (here (fun _ b s x => exists l, r_ngrams n b s l /\ x = (map fst l, dict_of str_eqb l))).
Proof.
  unfold read_items_with_indices. eapply parses_ext.
  { apply parses_bind; [apply (parses_repeat read_item_with_index r_ngram), parses_ngram|]. intros l. apply parses_ret. }
  intros p b s x q. unfold seqP, here, r_ngrams. split.
  - intros (b1 & b2 & l & p1 & -> & (-> & H) & -> & -> & ->). rewrite app_nil_r, lenN_nil, N.add_0_r.
    cbn [app] in H. split; [easy|]. eauto.
  - intros (-> & l & H & ->). exists b, [], l, (p + lenN b). rewrite app_nil_r, lenN_nil, N.add_0_r. cbn [app]. auto.
Qed.
Lemma map_fst_zn gs : map fst (map zn gs) = map fst gs.
Proof. rewrite map_map. now apply map_ext. Qed.

Lemma explicit_parse : vocab_parse CExplicitSubwordVocab explicit_vocab_read_chunk.
Proof.
  exists (fun b s v => exists n m mn mx b1 b2 ws l ix, n < 2 ^ 64 /\ m < 2 ^ 64 /\ mn < 2 ^ 32 /\ mx < 2 ^ 32
     /\ b = u64 n ++ u64 m ++ u32 mn ++ u32 mx ++ b1 ++ b2 /\ r_items n b1 (b2 ++ s) ws /\ r_ngrams m b2 s l
     /\ ex_new (map fst l) (Z.of_N mn) (Z.of_N mx) (Some (dict_of str_eqb l)) = Ok ix
     /\ NoDup ws /\ v = VExplicit ws (positions ws) ix).
  split.
  - eapply parses_ext.
    { apply parses_bind; [apply parses_8844|].
      instantiate (1 := fun h => seqP (here (fun _ => r_items (Z.to_N (fst (fst (fst h)))))) (fun ws =>
        seqP (here (fun _ b s x => exists l, r_ngrams (Z.to_N (snd (fst (fst h)))) b s l /\ x = (map fst l, dict_of str_eqb l))) (fun g =>
        seqP (here (fun _ b _ x => b = [] /\ ex_new (fst g) (snd (fst h)) (snd h) (Some (snd g)) = Ok x)) (fun ix =>
        here (fun _ b _ v => b = [] /\ explicit_vocab_new ws ix = Ok v))))).
      intros [[[n m] mn] mx]. cbn [fst snd]. apply parses_bind; [apply parses_items|]. intros ws.
      apply parses_bind; [apply parses_ngrams|]. intros [gl gi]. cbn [fst snd].
      apply parses_bind; [apply parses_lift|]. intros ix. apply parses_lift. }
    intros p b s v q. unfold seqP, here. split.
    + intros (b1 & b2 & z & p1 & -> & (-> & n & m & mn & mx & -> & -> & B1 & B2 & B3 & B4)
        & b3 & b4 & ws & p2 & -> & (-> & I) & b5 & b6 & g & p3 & -> & (-> & l & G & ->)
        & b7 & b8 & ix & p4 & -> & (-> & -> & H) & -> & -> & H2).
      cbn [fst snd] in *. rewrite N2Z.id in *.
      apply (with_index_iff ws (fun i => VExplicit ws i ix)) in H2 as [ND ->].
      rewrite !app_nil_r in *. cbn [app] in *. rewrite !lenN_nil, <- !app_assoc, !lenN_app. split; [lia|].
      exists n, m, mn, mx, b3, b5, ws, l, ix. repeat (split; [easy|]). easy.
    + intros (-> & n & m & mn & mx & b1 & b2 & ws & l & ix & B1 & B2 & B3 & B4 & -> & I & G & H & ND & ->).
      exists (u64 n ++ u64 m ++ u32 mn ++ u32 mx), (b1 ++ b2), (Z.of_N n, Z.of_N m, Z.of_N mn, Z.of_N mx), (p + 24).
      rewrite <- !app_assoc. split; [easy|]. split.
      { split; [now rewrite !lenN_app, !lenN_u32, !lenN_u64|]. exists n, m, mn, mx. auto 8. }
      cbn [fst snd]. exists b1, b2, ws, (p + 24 + lenN b1). rewrite !N2Z.id. split; [easy|]. split; [easy|].
      exists b2, [], (map fst l, dict_of str_eqb l), (p + 24 + lenN b1 + lenN b2). rewrite app_nil_r. cbn [app].
      split; [easy|]. split; [split; [easy|]; eauto|]. cbn [fst snd].
      exists [], [], ix, (p + 24 + lenN b1 + lenN b2). rewrite !lenN_nil. split; [easy|].
      split; [split; [lia|]; split; easy|].
      split; [rewrite !lenN_app, !lenN_u32, !lenN_u64; lia|]. split; [easy|].
      now apply (with_index_iff ws (fun i => VExplicit ws i ix)).
  - intros b s v.
    assert (NE2 : forall gs x, gs <> [] -> ff_ngrams gs x -> x ++ s <> []).
    { intros gs x NE (bs & F & ->) X. destruct F as [|g b1 gs bs (b2 & _ & _ & ->) F]; [easy|].
      apply (f_equal lenN) in X. cbn [concat] in X. rewrite !lenN_app, lenN_u64 in X.
      change (lenN (@nil byte)) with 0 in X. lia. }
    split.
    + intros (n & m & mn & mx & b1 & b2 & ws & l & ix & B1 & B2 & B3 & B4 & -> & I & G & H & ND & ->).
      apply ngrams_iff in G as (gs & -> & G & <-).
      rewrite map_fst_zn in H. apply ex_new_iff in H as (R & ND2 & NE3 & bound & HB & ->); [|easy|easy].
      apply items_iff in I as [I <-]; [|now apply (NE2 gs)]. now constructor.
    + intros H. inversion H; subst.
      exists (lenN ws), (lenN gs), mn, mx, b0, bg, ws, (map zn gs), (EX (map fst gs) (map zn gs) (Z.of_N bound) mn mx).
      split; [easy|]. split; [easy|]. split; [lia|]. split; [easy|]. split; [easy|].
      split; [apply items_iff; [now apply (NE2 gs)|auto]|]. split; [apply ngrams_iff; eauto|].
      split; [|auto]. rewrite map_fst_zn. apply ex_new_iff; [lia|easy|]. eauto 7.
Qed.

Lemma vocab_parses c x : vocab_parse c (vocab_read_chunk c x).
Proof.
  destruct c; cbn [vocab_read_chunk].
  all: try apply simple_parse; try apply bucket_parse; try apply fasttext_parse; try apply explicit_parse.
  all: exists (fun _ _ _ => False); split;
    [apply parses_fail'; intros ? ? ? ? ? (_ & ?); easy|intros b s v; split; [easy|]; intros H; inversion H].
Qed.
Lemma vocab_at c x d p v q :
  vocab_read_chunk c x d p = Ok (v, q) <->
  exists b s, dropN p d = b ++ s /\ q = p + lenN b /\ ff_vocab (ff_words_before s) v (Z.to_N (chunk_id_val c)) b.
Proof.
  destruct (vocab_parses c x) as (R & [F H] & E). rewrite (H d p v q). unfold here.
  split; intros (b & s & E1 & E2 & HR); exists b, s; (split; [easy|]); (split; [easy|]); now apply (E b s).
Qed.
Lemma ff_vocab_impl (P Q : list str -> bytes -> Prop) v i b :
  (forall ws b, P ws b -> Q ws b) -> ff_vocab P v i b -> ff_vocab Q v i b.
Proof. intros H []; constructor; auto. Qed.
Lemma vocab_iff c x d p v q : q < lenN d ->
  vocab_read_chunk c x d p = Ok (v, q) <->
  exists b s, dropN p d = b ++ s /\ q = p + lenN b /\ ff_vocab ff_words v (Z.to_N (chunk_id_val c)) b.
Proof.
  intros L. rewrite vocab_at. split; intros (b & s & E1 & E2 & HR); exists b, s; (split; [easy|]); (split; [easy|]).
  - revert HR. apply ff_vocab_impl. intros ws x1 [HW|[-> _]]; [easy|exfalso].
    apply (f_equal lenN) in E1. rewrite lenN_dropN, app_nil_r in E1. lia.
  - revert HR. apply ff_vocab_impl. intros ws x1 HW. now left.
Qed.
