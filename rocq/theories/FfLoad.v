(* The finalfusion files that load. *)
From Coq Require Import Lia.
From Verif Require Import Py PyProofs Utf8 Utf8Proofs Utf8More SpecUtf8 IO IOProofs ReaderProofs Arr
  Subword Vocab VocabProofs Storage StorageProofs Chunks Embeddings Spec StorageInv ExtendProofs
  TruncProofs SpecFinalfusion FfParse FfVocab FfStorage.
Local Open Scope N_scope.
Local Open Scope list_scope.

Lemma storage_inv h c x d p st q : storage_read_chunk h false c x d p = Ok (st, q) ->
  at_storage d p st (Z.to_N (chunk_id_val c)) q.
Proof.
  destruct c; cbn [storage_read_chunk]; intros H; try discriminate H.
  - unfold ndarray_load in H. apply rbind_ok in H as (a & p1 & H1 & H). unfold rret in H. injection H as <- <-.
    now apply ndarray_inv in H1.
  - unfold qarray_load in H. apply rbind_ok in H as (a & p1 & H1 & H). unfold rret in H. injection H as <- <-.
    now apply qarray_inv in H1.
Qed.
Lemma storage_take h c x d p st q : lenN d + 4 < ssize_limit ->
  at_storage d p st (Z.to_N (chunk_id_val c)) q -> storage_read_chunk h false c x d p = Ok (st, q).
Proof.
  intros L H. destruct st as [a|a].
  - assert (c = CNdArray).
    { destruct H as (? & ? & ? & ? & _ & _ & X & _). inversion X as [? ? ? ? ? E1 E2|].
      destruct c; cbn in E2; easy. }
    subst c. cbn [storage_read_chunk]. unfold ndarray_load. now rstep (ndarray_take h _ _ _ _ L H).
  - assert (c = CQuantizedArray).
    { destruct H as (? & ? & ? & ? & _ & _ & X & _). inversion X. destruct c; easy. }
    subst c. cbn [storage_read_chunk]. unfold qarray_load. now rstep (qarray_take h _ _ _ _ L H).
Qed.

(* memory mapping *)
Lemma read_memmap k n d p l q : (0 < k)%nat -> lenN d < ssize_limit ->
  read_array_as_native Little k n d p = Ok (l, q) -> q = p + n * N.of_nat k -> q <= lenN d ->
  memmap k p n d = Ok l /\ seek_fwd (n * N.of_nat k) d p = Ok (tt, q).
Proof.
  intros K L H -> Q. rewrite read_array_eq in H.
  destruct (N.leb_spec ssize_limit (n * N.of_nat k)) as [|LN]; [easy|]. cbv zeta in H. injection H as <- E.
  set (bs := takeN (n * N.of_nat k) (dropN p d)) in *. split.
  - unfold memmap. destruct (N.leb_spec (p + n * N.of_nat k) (lenN d)); [|lia].
    fold bs. assert (LB : length bs = (N.to_nat n * k)%nat) by (unfold lenN in E; lia).
    rewrite LB, Nat.div_mul by lia. easy.
  - unfold seek_fwd. destruct (N.leb_spec ssize_limit (n * N.of_nat k)); [lia|].
    destruct (N.leb_spec ssize_limit (p + n * N.of_nat k)); [lia|]. easy.
Qed.
Lemma ndarray_read_mmap d p a q : lenN d < ssize_limit -> q <= lenN d ->
  ndarray_read_chunk Little d p = Ok (a, q) -> ndarray_mmap_chunk Little d p = Ok (a, q).
Proof.
  intros L Q. unfold ndarray_mmap_chunk, ndarray_read_chunk. intros H.
  apply rbind_ok in H as ([rows cols] & p1 & H1 & H). rstep H1.
  apply rbind_ok in H as (l & p2 & H2 & H). apply rbind_ok in H as (m & p3 & H3 & H).
  apply rlift_ok in H3 as [H3 ->]. unfold rret in H. injection H as <- <-.
  destruct (matrix_inv _ _ _ _ _ _ _ _ _ eq_refl H2 H3) as (_ & _ & E & _ & _).
  destruct (read_memmap 4 _ _ _ _ _ (Nat.lt_0_succ 3) L H2 E Q) as [R1 R2].
  unfold rbind at 1. unfold tell at 1. rstep R2. unfold rlift. rewrite R1. cbn [bind].
  apply reshape2_ok in H3 as [_ ->]. easy.
Qed.
Lemma qarray_read_mmap d p a q : lenN d < ssize_limit -> q <= lenN d ->
  qarray_read_chunk Little d p = Ok (a, q) -> qarray_mmap_chunk Little d p = Ok (a, q).
Proof.
  intros L Q. unfold qarray_mmap_chunk, qarray_read_chunk. intros H.
  apply rbind_ok in H as ([[quant [ne ql]] nrm] & p1 & H1 & H). rstep H1.
  apply rbind_ok in H as (l & p2 & H2 & H). apply rbind_ok in H as (m & p3 & H3 & H).
  apply rlift_ok in H3 as [H3 ->]. unfold rret in H. injection H as <- <-.
  destruct (codes_inv _ _ _ _ _ _ _ _ _ eq_refl H2 H3) as (_ & _ & E & _ & _).
  rewrite <- (N.mul_1_r (ne * ql)) in E.
  destruct (read_memmap 1 _ _ _ _ _ Nat.lt_0_1 L H2 E Q) as [R1 R2].
  change (N.of_nat 1) with 1 in R2. rewrite N.mul_1_r in R2.
  unfold rbind at 1. unfold tell at 1. rstep R2. unfold rlift. rewrite R1. cbn [bind].
  apply reshape2_ok in H3 as [_ ->]. easy.
Qed.
Lemma mmap_within k n d p l u q : memmap k p n d = Ok l -> seek_fwd (n * N.of_nat k) d p = Ok (u, q) ->
  q <= lenN d.
Proof.
  unfold memmap, seek_fwd. destruct (N.leb_spec (p + n * N.of_nat k) (lenN d)); [|easy]. intros _.
  destruct (_ || _); [easy|]. intros [= _ <-]. easy.
Qed.
Lemma storage_mmap_iff c x d p st q : lenN d < ssize_limit ->
  storage_read_chunk Little true c x d p = Ok (st, q) <->
  storage_read_chunk Little false c x d p = Ok (st, q) /\ q <= lenN d.
Proof.
  intros L. split.
  - intros H. split; [now apply storage_mmap_read|].
    destruct c; cbn [storage_read_chunk] in H; try discriminate H.
    + unfold ndarray_load, ndarray_mmap_chunk in H. apply rbind_ok in H as (a & p1 & H & H'). unfold rret in H'.
      injection H' as _ <-. apply rbind_ok in H as ([rows cols] & p2 & H1 & H).
      apply rbind_ok in H as (off & p3 & H2 & H). unfold tell in H2. injection H2 as <- <-.
      apply rbind_ok in H as (u & p4 & H2 & H). apply rlift_ok in H as [H ->].
      apply bind_ok in H as (l & Hm & H). now apply (mmap_within 4 _ _ _ _ _ _ Hm H2).
    + unfold qarray_load, qarray_mmap_chunk in H. apply rbind_ok in H as (a & p1 & H & H'). unfold rret in H'.
      injection H' as _ <-. apply rbind_ok in H as ([[quant [ne ql]] nrm] & p2 & H1 & H).
      apply rbind_ok in H as (off & p3 & H2 & H). unfold tell in H2. injection H2 as <- <-.
      apply rbind_ok in H as (u & p4 & H2 & H). apply rlift_ok in H as [H ->].
      apply bind_ok in H as (l & Hm & H). rewrite <- (N.mul_1_r (ne * ql)) in H2.
      now apply (mmap_within 1 _ _ _ _ _ _ Hm H2).
  - intros [H Q]. destruct c; cbn [storage_read_chunk] in *; try discriminate H.
    + unfold ndarray_load in *. apply rbind_ok in H as (a & p1 & H & H'). unfold rret in H'. injection H' as <- <-.
      now rstep (ndarray_read_mmap _ _ _ _ L Q H).
    + unfold qarray_load in *. apply rbind_ok in H as (a & p1 & H & H'). unfold rret in H'. injection H' as <- <-.
      now rstep (qarray_read_mmap _ _ _ _ L Q H).
Qed.

(* norms *)
Lemma type_f32 k : type_id_of (Z.of_N k) = Ok TF32 -> k = 10.
Proof.
  unfold type_id_of. destruct (Z.of_N k) as [|z|z] eqn:E; [discriminate| |discriminate].
  intros H. repeat (destruct z as [z|z|]; try discriminate H). lia.
Qed.
Lemma norms_inv h d p nm q : norms_read_chunk h d p = Ok (nm, q) ->
  exists n pad vals rest, dropN p d = u64 n ++ u32 10 ++ pad ++ floats_le vals ++ rest
    /\ 4 * n < 2 ^ 63 /\ ff_pad (p + 12) pad (floats_le vals ++ rest)
    /\ (lenN vals = n \/ lenN vals < n /\ lenN rest < 4) /\ nm = Norms BoNative vals.
Proof.
  unfold norms_read_chunk. intros H. apply rbind_ok in H as ([r c] & p1 & H1 & H).
  apply u6432_inv in H1 as (n & m & s1 & [= -> ->] & B1 & B2 & -> & T1 & T1').
  apply rbind_ok in H as (tid & p2 & H2 & H). apply rlift_ok in H2 as [H2 ->].
  destruct tid; try discriminate H. apply type_f32 in H2. subst m.
  apply rbind_ok in H as (pos & p2 & H2 & H). unfold tell in H2. injection H2 as <- <-.
  apply rbind_ok in H as (u & p2 & H2 & H). apply pad_inv in H2 as (pad & s2 & -> & [T2 T2'] & U).
  rewrite T1' in T2.
  apply rbind_ok in H as (l & p3 & H3 & H). unfold rret in H. injection H as <- _.
  rewrite N2Z.id in H3.
  apply (parses_takes _ _ _ _ _ _ (parses_elems h 4 _)) in H3 as (b & s3 & [T3 T3'] & _ & X).
  apply elems_some in X as (fl & rest & -> & -> & B & C). rewrite T2', <- app_assoc in T3.
  exists n, pad, fl, (rest ++ s3). rewrite <- T3. split; [now rewrite T1, T2, <- app_assoc|].
  split; [change ssize_limit with (2 ^ 63) in B; lia|]. split; [exact U|]. split; [|now rewrite f32s_roundtrip].
  destruct C as [[C _]|(C & D & ->)]; [now left|right]. now rewrite app_nil_r.
Qed.
Lemma norms_take h d p n pad vals rest : p + 16 < ssize_limit ->
  dropN p d = u64 n ++ u32 10 ++ pad ++ floats_le vals ++ rest ->
  4 * n < 2 ^ 63 -> ff_pad (p + 12) pad (floats_le vals ++ rest) ->
  lenN vals = n \/ lenN vals < n /\ lenN rest < 4 ->
  exists q, norms_read_chunk h d p = Ok (Norms BoNative vals, q).
Proof.
  intros L D B U C.
  assert (B1 : n < 2 ^ 64) by lia.
  destruct (u6432_take _ _ _ _ _ D B1 eq_refl) as [R1 D1].
  assert (L' : p + 12 + 4 < ssize_limit) by lia. destruct (pad_take _ _ _ _ D1 U L') as [R2 D2].
  set (P := p + 12 + pad_float32 (p + 12)) in *.
  assert (X : exists q, read_array_as_native h 4 n d P = Ok (f32s_le vals, q)).
  { destruct C as [C|[C C']].
    - eexists. apply (parses_elems h 4 n). exists (floats_le vals), rest. split; [exact D2|]. split; [reflexivity|].
      apply elems_some. exists vals, []. rewrite app_nil_r. split; [easy|]. split; [easy|].
      change ssize_limit with (2 ^ 63). split; [lia|now left].
    - eexists. apply (parses_elems h 4 n). exists (floats_le vals ++ rest), []. rewrite app_nil_r.
      split; [exact D2|]. split; [reflexivity|].
      apply elems_some. exists vals, rest. split; [easy|]. split; [easy|].
      change ssize_limit with (2 ^ 63). split; [lia|now right]. }
  destruct X as [q R3]. exists q. unfold norms_read_chunk. rstep R1.
  change (rlift (type_id_of (Z.of_N 10))) with (@rret type_id TF32).
  unfold rbind at 1. unfold rret at 1. unfold rbind at 1. unfold tell. rstep R2. rewrite N2Z.id. rstep R3.
  unfold rret. now rewrite f32s_roundtrip.
Qed.

(* the embeddings *)
Lemma positions_length ws : length (positions ws) = length ws.
Proof. unfold positions. rewrite combine_length, map_length, seq_length. apply Nat.min_id. Qed.
Lemma ff_vocab_rows v i b : ff_vocab ff_words v i b ->
  (0 <= subword_rows v)%Z /\ lenN (vocab_index v) = N.of_nat (n_words v).
Proof.
  intros []; (split; [cbn [subword_rows ff_exp ft_buckets ex_bound]; lia|]);
    unfold n_words; cbn [vocab_index vocab_words]; unfold lenN; f_equal; apply positions_length.
Qed.
Lemma bound_rows v : lenN (vocab_index v) = N.of_nat (n_words v) ->
  (vocab_upper_bound v = Z.of_nat (n_words v) + subword_rows v)%Z.
Proof.
  intros E. unfold vocab_upper_bound, vocab_len. rewrite E, nat_N_Z. f_equal.
  destruct v as [|? ? []|? ? []|]; cbn [subword_rows]; try easy. unfold ff_upper_bound. now rewrite N2Z.inj_pow.
Qed.
Lemma shape_rows {F} (s : storage F) : fst (storage_shape s) = N.of_nat (storage_rows s).
Proof. now destruct s. Qed.
Lemma embeddings_new_iff {F} (s : storage F) v n m e i b : ff_vocab ff_words v i b ->
  embeddings_new s v n m = Ok e <->
  e = Emb s v n m /\ (Z.of_nat (storage_rows s) = Z.of_nat (n_words v) + subword_rows v)%Z
  /\ forall x, n = Some x -> length (nm_vals x) = n_words v.
Proof.
  intros FV. apply ff_vocab_rows in FV as [SR LI]. assert (LI' : vocab_len v = N.of_nat (n_words v)) by exact LI.
  unfold embeddings_new. split.
  - intros H. pose proof (embeddings_new_fields _ _ _ _ _ H) as [E HN]. split; [easy|].
    apply bind_ok in H as (u & H & _). apply py_assert_ok, Z.eqb_eq in H. rewrite bound_rows, shape_rows in H by easy.
    split; [lia|]. intros x ->. specialize (HN x eq_refl). rewrite LI' in HN. unfold lenN in HN. lia.
  - intros (-> & R & HN). rewrite bound_rows, shape_rows, nat_N_Z, R, Z.eqb_refl by easy. cbn [py_assert bind].
    destruct n as [x|]; [|easy]. specialize (HN x eq_refl). unfold norms_compat.
    rewrite shape_rows, LI'. unfold lenN. rewrite HN, N.eqb_refl.
    destruct (N.leb_spec (N.of_nat (n_words v)) (N.of_nat (storage_rows s))); [easy|lia].
Qed.

(* the front of the file: metadata, vocabulary and storage *)
Lemma meta_inv t d p h x q r :
  read_required_chunk_header d p = Ok (h, q) ->
  (match fst h with
   | CMetadata =>
       m <~ metadata_read_chunk t ;;
       h <~ read_required_chunk_header ;;
       rret (Some m, fst h)
   | c => rret (None, c)
   end) d q = Ok (x, r) ->
  exists meta vid vlen s, dropN p d = meta ++ chunk_head vid vlen ++ s /\ dropN r d = s
    /\ ff_metadata t (fst x) meta /\ vid = snd x /\ vlen < 2 ^ 64 /\ r = p + lenN meta + 12.
Proof.
  intros H G. destruct h as [c n]. apply required_header_iff in H as (s & D & -> & B). cbn [fst] in G.
  assert (D' : dropN (p + 12) d = s) by (rewrite <- (lenN_chunk_head c n); apply takes_here in D; apply D).
  assert (X : c <> CMetadata -> rret (@None metadata, c) d (p + 12) = Ok (x, r) ->
    exists meta vid vlen s, dropN p d = meta ++ chunk_head vid vlen ++ s /\ dropN r d = s
    /\ ff_metadata t (fst x) meta /\ vid = snd x /\ vlen < 2 ^ 64 /\ r = p + lenN meta + 12).
  { intros _ E. unfold rret in E. injection E as <- <-. exists [], c, n, s. cbn [app]. split; [easy|]. split; [easy|].
    split; [constructor|]. split; [easy|]. split; [easy|]. change (lenN (@nil byte)) with 0. lia. }
  destruct c; try (apply X; [easy|exact G]). clear X.
  apply rbind_ok in G as (m & p1 & H1 & G). rewrite (metadata_iff _ _ _ _ _ _ _ D B) in H1.
  destruct H1 as (x1 & s' & w & -> & L & B63 & -> & U & TL).
  apply rbind_ok in G as ([c' n'] & p2 & H2 & G). unfold rret in G. injection G as <- <-.
  apply required_header_iff in H2 as (s2 & D2 & -> & B2).
  exists (chunk_head CMetadata n ++ x1), c', n', s2.
  assert (E1 : dropN (p + 12 + n) d = s').
  { rewrite <- L. apply takes_here in D'. apply D'. }
  rewrite E1 in D2. subst s'. split; [now rewrite D, <- !app_assoc|]. split.
  { rewrite <- (lenN_chunk_head c' n'). apply takes_here in E1. apply E1. }
  split; [cbn [fst]; subst n; unfold chunk_head; rewrite <- app_assoc; econstructor; eauto|].
  split; [easy|]. split; [easy|]. rewrite lenN_app, lenN_chunk_head, L. lia.
Qed.
Lemma meta_take t d p m meta vid vlen s : dropN p d = meta ++ chunk_head vid vlen ++ s ->
  ff_metadata t m meta -> vlen < 2 ^ 64 -> vid <> CMetadata ->
  exists h q, read_required_chunk_header d p = Ok (h, q) /\
  (match fst h with
   | CMetadata =>
       m <~ metadata_read_chunk t ;;
       h <~ read_required_chunk_header ;;
       rret (Some m, fst h)
   | c => rret (None, c)
   end) d q = Ok ((m, vid), p + lenN meta + 12) /\ dropN (p + lenN meta + 12) d = s.
Proof.
  intros D M B NV. inversion M as [|m' w x U TL BX]; subst.
  - cbn [app] in D. exists (vid, vlen), (p + 12). split; [apply required_header_iff; eauto|].
    change (lenN (@nil byte)) with 0. rewrite N.add_0_r. split; [destruct vid; easy|].
    rewrite <- (lenN_chunk_head vid vlen). apply takes_here in D. apply D.
  - rewrite (app_assoc (u32 5)) in D |- *. change (u32 5 ++ u64 (lenN x)) with (chunk_head CMetadata (lenN x)) in *.
    rewrite <- app_assoc in D. exists (CMetadata, lenN x), (p + 12).
    assert (B' : lenN x < 2 ^ 64) by lia.
    split; [apply required_header_iff; eauto|]. cbn [fst].
    assert (R1 : metadata_read_chunk t d (p + 12) = Ok (m', p + 12 + lenN x)).
    { apply (metadata_iff _ _ _ _ _ _ _ D B'). exists x, (chunk_head vid vlen ++ s), w. auto 10. }
    assert (D1 : dropN (p + 12) d = x ++ chunk_head vid vlen ++ s)
      by (rewrite <- (lenN_chunk_head CMetadata (lenN x)); apply takes_here in D; apply D).
    apply takes_here, proj2 in D1.
    assert (R2 : read_required_chunk_header d (p + 12 + lenN x) = Ok ((vid, vlen), p + 12 + lenN x + 12))
      by (apply required_header_iff; eauto).
    rewrite lenN_app, lenN_chunk_head.
    replace (p + (12 + lenN x) + 12) with (p + 12 + lenN x + 12) by lia. split.
    + rstep R1. rstep R2. easy.
    + rewrite <- (lenN_chunk_head vid vlen). apply takes_here in D1. apply D1.
Qed.

Lemma storage_both h mm c x d p st q : load_mode h mm -> lenN d + 4 < ssize_limit ->
  storage_read_chunk h mm c x d p = Ok (st, q) <->
  at_storage d p st (Z.to_N (chunk_id_val c)) q /\ (mm = true -> q <= lenN d).
Proof.
  intros M L. assert (L' : lenN d < ssize_limit) by lia.
  assert (X : forall h, storage_read_chunk h false c x d p = Ok (st, q) <-> at_storage d p st (Z.to_N (chunk_id_val c)) q).
  { intros h'. split; [apply storage_inv|now apply storage_take]. }
  destruct mm.
  - destruct M as [M|M]; [discriminate M|subst h]. rewrite storage_mmap_iff, X by easy. intuition.
  - rewrite X. intuition. discriminate.
Qed.
Lemma head_not_nil st i head data : ff_storage st i head data -> head <> [].
Proof. intros []; intros E; apply (f_equal lenN) in E; rewrite ?lenN_app, ?lenN_u64, ?lenN_u32 in E; change (lenN (@nil byte)) with 0 in E; lia. Qed.
Lemma chunk_head_app c n s : chunk_head c n ++ s = u32 (Z.to_N (chunk_id_val c)) ++ u64 n ++ s.
Proof. unfold chunk_head. now rewrite <- app_assoc. Qed.

Lemma load_inv h t mm d e : load_mode h mm -> lenN d + 4 < ssize_limit ->
  run_reader (load_finalfusion h t mm) d = Ok e -> ff_file t mm d e.
Proof.
  intros M L. unfold run_reader. destruct (load_finalfusion h t mm d 0) as [[e' q]|] eqn:H; [|discriminate].
  intros E. apply Ok_inj in E. cbn [fst] in E. subst e'.
  rewrite load_split in H. apply rbind_ok in H as ([[meta v] st] & p6 & F & K).
  unfold load_front in F. apply rbind_ok in F as (vs & p1 & H1 & F).
  apply header_iff in H1 as (ids & s1 & _ & D1 & -> & BI & FI). rewrite dropN_0 in D1. rewrite N.add_0_l in F.
  assert (D1' : dropN (lenN (header_of ids)) d = s1) by (rewrite D1; apply dropN_app_l).
  apply rbind_ok in F as (hd & p2 & H2 & F). apply rbind_ok in F as (mc & p3 & H3 & F).
  destruct (meta_inv _ _ _ _ _ _ _ H2 H3) as (mb & vid & vlen & s2 & D2 & D2' & FM & -> & BV & ->).
  destruct mc as [m' cid]. cbn [fst snd] in *. rewrite D1' in D2. rewrite D2 in D1. clear H2 H3.
  set (P2 := lenN (header_of ids) + lenN mb + 12) in *.
  apply rbind_ok in F as (v' & p3 & H3 & F). apply rbind_ok in F as ([sc sl] & p4 & H4 & F).
  apply required_header_iff in H4 as (s4 & D4 & -> & BS).
  assert (LV : p3 < lenN d).
  { apply (f_equal lenN) in D4. rewrite lenN_dropN, lenN_app, lenN_chunk_head in D4. lia. }
  apply (vocab_iff _ _ _ _ _ _ LV) in H3 as (vb & s3 & D3 & -> & FV).
  assert (D3' := proj2 (takes_here _ _ _ _ D3)). rewrite D3' in D4. rewrite D2' in D3. rewrite D3, D4 in D1. rewrite D4 in D3'.
  assert (D4' : dropN (P2 + lenN vb + 12) d = s4).
  { rewrite <- (lenN_chunk_head sc sl). apply takes_here in D3'. apply D3'. }
  apply rbind_ok in F as (st' & p5 & H5 & F). unfold rret in F. injection F as <- <- <- <-. cbn [fst] in H5.
  apply (storage_both _ _ _ _ _ _ _ _ M L) in H5 as [(head & pad & data & s5 & D5 & D5' & FS & U & E5) MM].
  rewrite D4' in D5. rewrite D5 in D1.
  unfold load_back in K. apply rbind_ok in K as (mb' & p7 & H7 & K). apply rbind_ok in K as (nn & p8 & H8 & K).
  apply rlift_ok in K as [K _]. apply (embeddings_new_iff _ _ _ _ _ _ _ FV) in K as (-> & RW & NW).
  exists ids, mb, (Z.to_N (chunk_id_val cid)), vlen, vb, (Z.to_N (chunk_id_val sc)), sl, head, pad, data, s5.
  cbv zeta. cbn [em_metadata em_vocab em_storage em_norms].
  set (before := _ ++ u32 0 ++ _).
  assert (EB : d = before ++ pad ++ data ++ s5).
  { rewrite D1. unfold before, header_of. rewrite !chunk_head_app, <- !app_assoc. reflexivity. }
  assert (LB : lenN before = P2 + lenN vb + 12 + lenN head).
  { unfold before. clear -P2. unfold P2, header_of. rewrite !lenN_app, !lenN_u64, !lenN_u32. lia. }
  rewrite <- LB in U, E5.
  split; [exact EB|]. split; [exact BI|]. split; [exact FI|]. split; [exact FM|]. split; [exact BV|].
  split; [exact FV|]. split; [exact BS|]. split; [exact FS|]. split; [exact U|].
  assert (FULL : p5 <= lenN d \/ s5 <> [] -> lenN pad = 4 - lenN before mod 4).
  { intros Q. destruct U as [U|[U EN]]; [exact U|exfalso]. apply app_eq_nil in EN as [-> ->].
    destruct Q as [Q|Q]; [|easy]. apply (f_equal lenN) in EB. rewrite !lenN_app in EB. change (lenN (@nil byte)) with 0 in *.
    unfold pad_float32 in E5. lia. }
  split; [intros EM; apply FULL; left; auto|]. split; [|auto].
  destruct mb' as [[c n]|].
  - apply chunk_header_iff in H7 as (s7 & D7 & -> & B7). rewrite D7 in D5'. subst s5. rename D7 into D5'.
    assert (NE : chunk_head c n ++ s7 <> []).
    { intros E. apply (f_equal lenN) in E. rewrite lenN_app, lenN_chunk_head in E. change (lenN (@nil byte)) with 0 in E. lia. }
    specialize (FULL (or_intror NE)).
    assert (EP : p5 = lenN (before ++ pad ++ data)).
    { rewrite E5, !lenN_app, FULL. unfold pad_float32. lia. }
    destruct c; try discriminate H8. apply rbind_ok in H8 as (nm & p9 & H9 & H8). unfold rret in H8.
    injection H8 as <- <-. assert (D8 : dropN (p5 + 12) d = s7).
    { rewrite <- (lenN_chunk_head CNdNorms n). apply takes_here in D5'. apply D5'. }
    apply norms_inv in H9 as (n' & pad' & vals & rest & D9 & B9 & U9 & C9 & ->).
    rewrite D8 in D9. subst s7. rewrite chunk_head_app, <- EP. replace (p5 + 12 + 12) with (p5 + 24) in U9 by lia.
    change (Z.to_N (chunk_id_val CNdNorms)) with 6. econstructor; eassumption.
  - apply chunk_header_none in H7 as [-> D7]. rewrite D7 in D5'. subst s5. unfold rret in H8. injection H8 as <- _. constructor.
Qed.

Lemma load_take h t mm d e : load_mode h mm -> lenN d + 4 < ssize_limit ->
  ff_file t mm d e -> run_reader (load_finalfusion h t mm) d = Ok e.
Proof.
  intros M L (ids & mb & vid & vlen & vb & sid & sl & head & pad & data & s5 & X).
  cbv zeta in X. revert X. set (before := _ ++ u32 0 ++ _).
  intros (EB & BI & FI & FM & BV & FV & BS & FS & U & MM & FN & RW & NW).
  assert (VC : exists c, vid = Z.to_N (chunk_id_val c) /\ c <> CMetadata).
  { destruct FV; [exists CSimpleVocab|exists CBucketSubwordVocab|exists CFastTextSubwordVocab|exists CExplicitSubwordVocab]; easy. }
  assert (SC : exists c, sid = Z.to_N (chunk_id_val c)).
  { destruct FS; [exists CNdArray|exists CQuantizedArray]; easy. }
  destruct VC as (vc & -> & NV). destruct SC as (sc & ->).
  assert (D1 : d = header_of ids ++ mb ++ chunk_head vc vlen ++ vb ++ chunk_head sc sl ++ head ++ pad ++ data ++ s5).
  { rewrite EB. unfold before, header_of. rewrite !chunk_head_app, <- !app_assoc. reflexivity. }
  assert (R1 : header_read_chunk d 0 = Ok (map Z.of_N ids, lenN (header_of ids))).
  { apply header_iff. eexists ids, _. rewrite dropN_0. split; [easy|]. split; [exact D1|]. now rewrite N.add_0_l. }
  assert (D1' : dropN (lenN (header_of ids)) d = mb ++ chunk_head vc vlen ++ vb ++ chunk_head sc sl ++ head ++ pad ++ data ++ s5)
    by (rewrite D1 at 1; apply dropN_app_l).
  destruct (meta_take _ _ _ _ _ _ _ _ D1' FM BV NV) as (hd & q2 & R2 & R3 & D2).
  set (P2 := lenN (header_of ids) + lenN mb + 12) in *.
  assert (D3 := proj2 (takes_here _ _ _ _ D2)).
  assert (LV : P2 + lenN vb < lenN d).
  { apply (f_equal lenN) in D3. rewrite lenN_dropN, lenN_app, lenN_chunk_head in D3. lia. }
  assert (R4 : vocab_read_chunk vc FormatError d P2 = Ok (em_vocab e, P2 + lenN vb)).
  { apply (vocab_iff _ _ _ _ _ _ LV). eauto. }
  assert (R5 : read_required_chunk_header d (P2 + lenN vb) = Ok ((sc, sl), P2 + lenN vb + 12)).
  { apply required_header_iff. eauto. }
  assert (D4 : dropN (P2 + lenN vb + 12) d = head ++ pad ++ data ++ s5).
  { rewrite <- (lenN_chunk_head sc sl). apply takes_here in D3. apply D3. }
  assert (LB : lenN before = P2 + lenN vb + 12 + lenN head).
  { unfold before. clear -P2. unfold P2, header_of. rewrite !lenN_app, !lenN_u64, !lenN_u32. lia. }
  set (P4 := P2 + lenN vb + 12) in *. rewrite LB in *.
  set (P5 := P4 + lenN head + pad_float32 (P4 + lenN head) + lenN data).
  assert (LD : lenN d = P4 + lenN head + lenN pad + lenN data + lenN s5).
  { rewrite EB, !lenN_app, LB. lia. }
  assert (D5 : dropN P5 d = s5).
  { destruct U as [U|[U EN]].
    - unfold P5, pad_float32. rewrite <- U. rewrite EB.
      replace (P4 + lenN head + lenN pad + lenN data) with (lenN (before ++ pad ++ data)).
      + replace (before ++ pad ++ data ++ s5) with ((before ++ pad ++ data) ++ s5) by now rewrite <- !app_assoc.
        apply dropN_app_l.
      + rewrite !lenN_app, LB. lia.
    - apply app_eq_nil in EN as [-> ->]. apply dropN_all. rewrite LD. unfold P5, pad_float32. change (lenN (@nil byte)) with 0. lia. }
  assert (R6 : storage_read_chunk h mm sc FormatError d P4 = Ok (em_storage e, P5)).
  { apply (storage_both _ _ _ _ _ _ _ _ M L). split.
    - exists head, pad, data, s5. auto 10.
    - intros EM. specialize (MM EM). unfold P5, pad_float32. rewrite LD. lia. }
  assert (RF : load_front h t mm d 0 = Ok ((em_metadata e, em_vocab e, em_storage e), P5)).
  { unfold load_front. rstep R1. rstep R2. rstep R3. rstep R4. rstep R5. cbn [fst]. rstep R6. easy. }
  assert (RE : embeddings_new (em_storage e) (em_vocab e) (em_norms e) (em_metadata e) = Ok e).
  { apply (embeddings_new_iff _ _ _ _ _ _ _ FV). split; [now destruct e|]. auto. }
  assert (RB : exists q, load_back h (em_metadata e, em_vocab e, em_storage e) d P5 = Ok (e, q)).
  { unfold load_back. revert NW RE. inversion FN as [E1 E2|len n pad' vals rest B1 B2 U2 C2 E1 E2]; intros NW RE.
    - assert (R7 : read_chunk_header d P5 = Ok (None, P5)) by (apply chunk_header_none; now rewrite D5).
      exists P5. rstep R7. unfold rbind at 1. unfold rret. unfold rlift. now rewrite RE.
    - assert (FULL : lenN pad = pad_float32 (P4 + lenN head)).
      { destruct U as [U|[_ EN]]; [exact U|exfalso]. apply app_eq_nil in EN as [_ EN]. rewrite EN in E2.
        apply (f_equal lenN) in E2. rewrite !lenN_app, lenN_u32 in E2. change (lenN (@nil byte)) with 0 in E2. lia. }
      assert (EP : lenN (before ++ pad ++ data) = P5) by (rewrite !lenN_app, LB, FULL; unfold P5; lia).
      rewrite EP in *.
      assert (D6 : dropN P5 d = chunk_head CNdNorms len ++ u64 n ++ u32 10 ++ pad' ++ floats_le vals ++ rest).
      { rewrite D5, <- E2. now rewrite chunk_head_app. }
      assert (R7 : read_chunk_header d P5 = Ok (Some (CNdNorms, len), P5 + 12)) by (apply chunk_header_iff; eauto).
      assert (D7 := proj2 (takes_here _ _ _ _ D6)). rewrite lenN_chunk_head in D7.
      assert (L7 : P5 + 12 + 16 < ssize_limit).
      { pose proof (f_equal lenN D7) as E. rewrite lenN_dropN, !lenN_app, lenN_u64, lenN_u32 in E. lia. }
      replace (P5 + 24) with (P5 + 12 + 12) in U2 by lia.
      destruct (norms_take h _ _ _ _ _ _ L7 D7 B2 U2 C2) as [q R8].
      exists q. rstep R7.
      assert (R9 : rbind (norms_read_chunk h) (fun n => rret (Some n)) d (P5 + 12) = Ok (Some (Norms BoNative vals), q))
        by (rstep R8; easy).
      rstep R9. unfold rlift. now rewrite RE. }
  destruct RB as [q RB]. unfold run_reader. rewrite load_split. rstep RF. now rewrite RB.
Qed.
Lemma load_iff h t mm d e : load_mode h mm -> lenN d + 4 < ssize_limit ->
  run_reader (load_finalfusion h t mm) d = Ok e <-> ff_file t mm d e.
Proof. intros M L. split; [now apply load_inv|now apply load_take]. Qed.
