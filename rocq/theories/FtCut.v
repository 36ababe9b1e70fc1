(* fastText files that are cut short. *)
From Coq Require Import Lia String.
From Verif Require Import Py PyProofs Utf8 Utf8Proofs Utf8More SpecUtf8 IO IOProofs ReaderProofs Arr
  Subword Vocab VocabProofs Storage Chunks Embeddings Spec SpecVocab SpecLookup VocabFacts
  ArrProofs StorageGet LookupProofs PyText SpecCompat PyTextProofs Compat CompatProofs WordProofs
  FasttextProofs SpecFasttext FtLayout.
Local Open Scope N_scope.
Local Open Scope list_scope.

Lemma consumes_fwd {A} (m : reader A) P pre b s a : consumes m P -> P b s a ->
  m (pre ++ b ++ s) (lenN pre) = Ok (a, lenN (pre ++ b)).
Proof. intros H HP. apply H. exists b, s. rewrite lenN_app. auto. Qed.
Lemma bind_fwd {A B} (m : reader A) (k : A -> reader B) P pre b s a : consumes m P -> P b s a ->
  rbind m k (pre ++ b ++ s) (lenN pre) = k a ((pre ++ b) ++ s) (lenN (pre ++ b)).
Proof.
  intros H HP. unfold rbind. rewrite (consumes_fwd m P pre b s a H HP). now rewrite <- app_assoc.
Qed.

Lemma fits_both r c : array_fits (N.of_nat r) c ->
  (0 <= Z.of_nat r < 2 ^ 63)%Z /\ (0 <= Z.of_N c < 2 ^ 63)%Z /\ 4 * (N.of_nat r * c) < 2 ^ 63.
Proof.
  unfold array_fits. change (2 ^ 63)%Z with (Z.of_N (2 ^ 63)). generalize (2 ^ 63). intros b H.
  assert (N.of_nat r * c <= N.max 1 (N.of_nat r) * N.max 1 c) by (apply N.mul_le_mono; lia).
  assert (N.of_nat r * 1 <= N.max 1 (N.of_nat r) * N.max 1 c) by (apply N.mul_le_mono; lia).
  assert (1 * c <= N.max 1 (N.of_nat r) * N.max 1 c) by (apply N.mul_le_mono; lia).
  lia.
Qed.

Lemma pack_numeric fmt vs b : pack fmt vs = Ok b -> Forall numeric fmt ->
  b = concat (map2 field_bytes fmt vs) /\ Forall2 field_ok fmt vs.
Proof.
  intros HP HF. apply unpack_iff; [exact HF|]. split; [exact (pack_length _ _ _ HP)|].
  symmetry. apply (unpack_pack_no_bool fmt vs b); [|exact HP].
  intros f0 I. rewrite Forall_forall in HF. apply HF in I. now destruct I as [->|[->|[->| ->]]].
Qed.
Lemma pack_u64 z : (0 <= z < 2 ^ 63)%Z -> pack_field fU64 z = Ok (int_le 8 z).
Proof.
  intros HZ. cbn [pack_field]. unfold in_range, int_le. change (8 * Z.of_nat 8)%Z with 64%Z.
  rewrite Z.mod_small by lia.
  destruct (Z.leb_spec 0 z); [|lia]. destruct (Z.ltb_spec z (2 ^ 64)); [|lia]. reflexivity.
Qed.
Lemma header_bytes : int_le 4 793712314 ++ int_le 4 12 = concat (map2 field_bytes [fI32; fI32] [FT_MAGIC; 12%Z]).
Proof. reflexivity. Qed.
Lemma settings_bytes a1 a2 a3 a4 a5 a6 a7 a8 a9 a10 a11 a12 t :
  concat (map2 field_bytes (repeat fI32 12 ++ [fF64]) [a1; a2; a3; a4; a5; a6; a7; a8; a9; a10; a11; a12; t])
  = concat (map (int_le 4) [a1; a2; a3; a4; a5; a6; a7; a8; a9; a10; a11; a12]) ++ int_le 8 t.
Proof.
  unfold field_bytes. cbn [map2 repeat app concat map field_size]. generalize int_le. intros g.
  rewrite <- !app_assoc. now rewrite app_nil_r.
Qed.
Lemma counts_bytes a1 a2 a3 a4 a5 :
  concat (map2 field_bytes [fI32; fI32; fI32; fI64; fI64] [a1; a2; a3; a4; a5])
  = int_le 4 a1 ++ int_le 4 a2 ++ int_le 4 a3 ++ int_le 8 a4 ++ int_le 8 a5.
Proof.
  unfold field_bytes. cbn [map2 concat map field_size]. generalize int_le. intros g. now rewrite app_nil_r.
Qed.
Lemma settings_ok a1 a2 a3 a4 a5 a6 a7 a8 a9 a10 a11 a12 t :
  Forall2 field_ok (repeat fI32 12 ++ [fF64]) [a1; a2; a3; a4; a5; a6; a7; a8; a9; a10; a11; a12; t] ->
  Forall (int_fits 4) [a1; a2; a3; a4; a5; a6; a7; a8; a9; a10; a11; a12] /\ (0 <= t < 2 ^ 64)%Z.
Proof.
  cbn [repeat app]. intros H. repeat match goal with H : Forall2 _ (_ :: _) _ |- _ => inversion H; subst; clear H end.
  split; [repeat (constructor; [assumption|]); constructor|assumption].
Qed.
Lemma counts_ok a1 a2 a3 a4 a5 : Forall2 field_ok [fI32; fI32; fI32; fI64; fI64] [a1; a2; a3; a4; a5] ->
  int_fits 4 a1 /\ int_fits 4 a2 /\ int_fits 8 a4 /\ int_fits 8 a5.
Proof.
  intros H. repeat match goal with H : Forall2 _ (_ :: _) _ |- _ => inversion H; subst; clear H end. auto.
Qed.
Lemma encoded_decodes (lossy : bool) w b : utf8_encode w = Ok b ->
  if lossy then w = decode_replace b else utf8_decode b = Ok w.
Proof.
  intros H. apply utf8_decode_encode in H. destruct lossy; [|exact H].
  symmetry. apply decode_replace_strict. unfold utf8_decode in H. destruct (decode_strict b); [|discriminate].
  now injection H as ->.
Qed.
Lemma int_8 (z : Z) : (0 <= z < 2 ^ 63)%Z -> int_fits 8 z.
Proof. unfold int_fits. change (2 ^ (8 * Z.of_nat 8 - 1))%Z with (2 ^ 63)%Z. lia. Qed.
Lemma rows_len {F} (cd : codec F) c (rows : list (list F)) : Forall (fun r => lenN r = c) rows ->
  lenN (floats cd (concat rows)) = 4 * (N.of_nat (length rows) * c).
Proof.
  intros HR. rewrite floats_len. f_equal. induction HR as [|row rows E0 HR IH]; [easy|].
  cbn [concat length]. rewrite lenN_app, IH, E0. lia.
Qed.

Section Cut.
  Context {F : Type} (o : fops F) (host : endian) (cd : codec F) (lossy : bool).

  (* everything up to the dimensions *)
  Definition read_dims : reader (Z * Z) :=
    _ <~ read_ft_header ;;
    cfg <~ read_ft_cfg ;;
    _ <~ read_ft_vocab (fc_buckets cfg) (fc_min_n cfg) (fc_max_n cfg) lossy ;;
    _ <~ read1 fBool ;;
    read2 fI64 fI64.
  Lemma before_data_parts f : ft_before_data f = (int_le 4 793712314 ++ int_le 4 12) ++ cfg_bytes f ++ vocab_part f
                ++ [x00] ++ int_le 8 (tf_rows f) ++ int_le 8 (tf_cols f).
  Proof.
    unfold ft_before_data, cfg_bytes, vocab_part.
    change (fun w : bytes * Z => fst w ++ [x00] ++ int_le 8 (snd w) ++ [x00]) with word_bytes.
    rewrite <- !app_assoc. reflexivity.
  Qed.
  Lemma dims_read f rest (e : embeddings F) s : parsed o cd lossy f rest e ->
    exists q, read_dims (ft_before_data f ++ s) 0 = Ok ((tf_rows f, tf_cols f), q).
  Proof.
    intros (loss & model & ws & v & r & c & m0 & m & A1 & A2 & A3 & A4 & A5 & A6 & (R1 & R2 & _) & _).
    rewrite before_data_parts, <- !(app_assoc _ _ s). unfold read_dims. eexists.
    assert (N64 : numeric fI64) by (right; now left).
    etransitivity; [refine (bind_fwd read_ft_header _ _ [] (int_le 4 793712314 ++ int_le 4 12) _ tt consumes_header _); reflexivity|].
    etransitivity; [refine (bind_fwd read_ft_cfg _ _ _ (cfg_bytes f) _ (cfg_of f loss model) consumes_cfg _)|].
    { exists f, loss, model. auto 10. }
    etransitivity; [refine (bind_fwd _ _ _ _ (vocab_part f) _ v (consumes_vocab _ _ _ lossy) _)|].
    { exists f, ws. auto. }
    etransitivity; [refine (bind_fwd _ _ _ _ [x00] _ 0%Z consumes_bool _)|].
    { exists x00. easy. }
    rewrite (app_assoc (int_le 8 (tf_rows f))).
    refine (consumes_fwd _ _ _ _ _ (tf_rows f, tf_cols f) (consumes_read2 fI64 fI64 N64 N64) _).
    cbn [fst snd]. easy.
  Qed.

  (* dimensions that are not negative: what follows does not matter *)
  Lemma parsed_rest f rest rest' (e : embeddings F) : (0 <= tf_rows f)%Z -> (0 <= tf_cols f)%Z ->
    parsed o cd lossy f rest e -> parsed o cd lossy f rest' e.
  Proof.
    intros N1 N2 (loss & model & ws & v & r & c & m0 & m & A1 & A2 & A3 & A4 & A5 & A6 & (R1 & R2 & (S1 & S2 & S3) & R3) & A8).
    exists loss, model, ws, v, r, c, m0, m. repeat (split; [assumption|]). split; [|exact A8].
    split; [easy|]. split; [easy|]. split; [|exact R3]. split; [easy|]. split; [easy|].
    left. destruct S3 as [?|[?|?]]; [easy|lia|lia].
  Qed.

  Lemma cut_fasttext f rest (e : embeddings F) k : parsed o cd lossy f rest e ->
    (0 <= tf_rows f)%Z -> (0 <= tf_cols f)%Z ->
    (k < lenN (ft_bytes f) -> exists x, run_reader (load_fasttext o host cd lossy) (takeN k (ft_bytes f ++ rest)) = Err x)
    /\ (lenN (ft_bytes f) <= k -> run_reader (load_fasttext o host cd lossy) (takeN k (ft_bytes f ++ rest)) = Ok e).
  Proof.
    intros P N1 N2.
    assert (ALL : forall s, load_fasttext o host cd lossy (ft_bytes f ++ s) 0 = Ok (e, lenN (ft_bytes f))).
    { intros s. apply load_parts. exists f, s. split; [easy|]. split; [easy|]. exact (parsed_rest f rest s e N1 N2 P). }
    split.
    - intros K. unfold run_reader.
      destruct (load_fasttext o host cd lossy (takeN k (ft_bytes f ++ rest)) 0) as [[e' q]|x] eqn:H; [exfalso|now exists x].
      apply load_parts in H as (f' & rest' & E & -> & P').
      assert (D : ft_bytes f ++ rest = ft_bytes f' ++ rest' ++ dropN k (ft_bytes f ++ rest)).
      { rewrite app_assoc, <- E. now rewrite takeN_firstn, dropN_skipn, firstn_skipn. }
      assert (LE : lenN (ft_bytes f') <= k).
      { assert (X : lenN (takeN k (ft_bytes f ++ rest)) <= k) by (rewrite takeN_firstn; unfold lenN; rewrite firstn_length; lia).
        rewrite E, lenN_app in X. lia. }
      destruct (dims_read f rest e (tf_data f ++ rest) P) as [q1 D1].
      destruct (dims_read f' rest' e' (tf_data f' ++ rest' ++ dropN k (ft_bytes f ++ rest)) P') as [q2 D2].
      rewrite (app_assoc (ft_before_data f)) in D1. change (ft_before_data f ++ tf_data f) with (ft_bytes f) in D1.
      rewrite (app_assoc (ft_before_data f')) in D2. change (ft_before_data f' ++ tf_data f') with (ft_bytes f') in D2.
      rewrite <- D, D1 in D2. injection D2 as E1 E2 E3.
      assert (Z : load_fasttext o host cd lossy (ft_bytes f ++ rest) 0 = Ok (e', lenN (ft_bytes f'))).
      { rewrite D. apply load_parts. eexists f', _. split; [reflexivity|]. split; [easy|].
        apply (parsed_rest f' rest'); [lia|lia|exact P']. }
      rewrite ALL in Z. apply Ok_inj in Z. apply (f_equal snd) in Z. cbn [snd] in Z. rewrite Z in K. clear - K LE. lia.
    - intros K. unfold run_reader.
      replace (takeN k (ft_bytes f ++ rest)) with (ft_bytes f ++ takeN (k - lenN (ft_bytes f)) rest).
      2: { rewrite takeN_app. f_equal. symmetry. apply takeN_all. exact K. }
      rewrite ALL. reflexivity.
  Qed.
  Theorem cut_loadable f rest r c ws k : ft_loadable lossy f rest r c ws ->
    (0 <= tf_rows f)%Z -> (0 <= tf_cols f)%Z ->
    (k < lenN (ft_bytes f) -> exists x, run_reader (load_fasttext o host cd lossy) (takeN k (ft_bytes f ++ rest)) = Err x)
    /\ (lenN (ft_bytes f) <= k -> run_reader (load_fasttext o host cd lossy) (takeN k (ft_bytes f ++ rest))
                                  = run_reader (load_fasttext o host cd lossy) (ft_bytes f ++ rest)).
  Proof.
    intros H N1 N2. destruct (loadable_parsed o cd lossy f rest r c ws H) as (e & P & _).
    destruct (cut_fasttext f rest e k P N1 N2) as [C1 C2]. split; [exact C1|]. intros K. rewrite (C2 K).
    assert (X : load_fasttext o host cd lossy (ft_bytes f ++ rest) 0 = Ok (e, lenN (ft_bytes f))).
    { apply load_parts. exists f, rest. auto. }
    unfold run_reader. now rewrite X.
  Qed.

  (* the files written by write_fasttext *)
  Theorem written_layout (e : embeddings F) old out : built_embeddings e ->
    Forall (fun w => ~ In 0 w) (vocab_words (em_vocab e)) ->
    array_fits (N.of_nat (storage_rows (em_storage e))) (em_dims e) ->
    write_fasttext o host cd e old = (Some out, Ok tt) ->
    exists f rest,
      out = ft_bytes f ++ rest
      /\ ft_loadable lossy f rest (N.of_nat (storage_rows (em_storage e))) (em_dims e) (vocab_words (em_vocab e))
      /\ lenN rest = lenN (tf_data f)
      /\ tf_rows f = Z.of_nat (storage_rows (em_storage e)) /\ tf_cols f = Z.of_N (em_dims e)
      /\ tf_dims f = Z.of_N (em_dims e) /\ tf_window f = 0%Z /\ tf_epoch f = 0%Z /\ tf_min_count f = 0%Z
      /\ tf_ns f = 0%Z /\ tf_word_ngrams f = 1%Z /\ tf_loss f = 1%Z /\ tf_model f = 1%Z /\ tf_lr f = 0%Z
      /\ tf_threshold f = 0%Z /\ tf_tokens f = 0%Z.
  Proof.
    intros B NZ AF H. pose proof H as HW. apply write_fasttext_ok in H; [|exact B].
    destruct H as [(ws & idx & ix & a & b_hdr & b_cfg & b_voc & bs & b_shape & vecs & V & SE & P1 & P2 & P3 & FB & P4 & LV & FV & HV & E)].
    pose proof B as (W & BV & _). pose proof (words_rows e B) as NR. pose proof (rows_bound e B) as RB.
    rewrite V, SE in *. cbn [vocab_words storage_rows] in *. change (n_words (VFastText ws idx ix)) with (length ws) in NR.
    assert (IX : exists bu mn mx, ft_new bu mn mx = Ok ix).
    { remember (VFastText ws idx ix) as v eqn:EV.
      destruct BV as [ws' v Hv|ws' e' mn mx ix' v Hi Hv|ws' bu mn mx ix' v Hi Hv|ws' gs mn mx index ix' v Hd Hi Hv].
      1,2,4: unfold simple_vocab_new, bucket_vocab_new, explicit_vocab_new in Hv;
             apply bind_ok in Hv as (i & _ & E'); apply Ok_inj in E'; subst v; discriminate.
      exists bu, mn, mx. unfold fasttext_vocab_new in Hv.
      apply bind_ok in Hv as (i & _ & E'). apply Ok_inj in E'. rewrite <- E' in EV. injection EV as -> _ ->. exact Hi. }
    destruct IX as (bu & mn & mx & IX). apply ft_new_ok in IX as (X1 & X2 & X3 & X4 & X5 & X6).
    assert (ND : NoDup ws) by (apply (built_vocab_index _ BV)).
    rewrite (upper_bound_rows _ BV) in RB. change (n_words (VFastText ws idx ix)) with (length ws) in RB.
    cbn [subword_rows] in RB. subst bu mn mx.
    assert (N32 : numeric fI32) by (left; reflexivity). assert (N64 : numeric fI64) by (right; left; reflexivity).
    assert (NF : numeric fF64) by (right; right; right; reflexivity).
    apply pack_numeric in P1 as [-> _]; [|repeat (constructor; [exact N32|]); constructor].
    apply pack_numeric in P2 as [-> O2]; [|cbn [repeat app]; repeat (constructor; [exact N32|]); constructor; [exact NF|constructor]].
    apply pack_numeric in P3 as [-> O3]; [|repeat (constructor; [exact N32|]); repeat (constructor; [exact N64|]); constructor].
    set (f := FtFile (Z.of_N (em_dims e)) 0 0 0 0 1 1 1 (Z.of_N (ft_buckets ix)) (Z.of_N (ft_min_n ix)) (Z.of_N (ft_max_n ix)) 0 0
                (Z.of_nat (length ws)) (Z.of_nat (length ws)) 0 (-1) (map (fun b => (b, 0%Z)) bs)
                (Z.of_nat (length (nd_rows a))) (Z.of_N (em_dims e)) (floats cd (concat (vecs ++ skipn (length ws) (nd_rows a))))).
    exists f, (floats cd (concat (nd_rows a))).
    assert (CO : Forall (fun r => lenN r = em_dims e) (nd_rows a)).
    { destruct W as [_ W]. unfold rows_wf in W. unfold em_dims. rewrite SE. exact W. }
    assert (CO2 : Forall (fun r => lenN r = em_dims e) (vecs ++ skipn (length ws) (nd_rows a))).
    { apply Forall_app. split; [exact FV|]. rewrite <- (firstn_skipn (length ws) (nd_rows a)), Forall_app in CO. apply CO. }
    assert (LL : length (vecs ++ skipn (length ws) (nd_rows a)) = length (nd_rows a)).
    { rewrite app_length, skipn_length, LV. lia. }
    assert (DL : lenN (tf_data f) = 4 * (N.of_nat (length (nd_rows a)) * em_dims e)).
    { cbn [f tf_data]. rewrite (rows_len cd (em_dims e)) by exact CO2. rewrite LL. reflexivity. }
    destruct (fits_both _ _ AF) as (B1 & B2 & B3).
    assert (ES : b_shape = int_le 8 (tf_rows f) ++ int_le 8 (tf_cols f)).
    { cbn [pack] in P4. rewrite (pack_u64 _ B1), (pack_u64 _ B2) in P4. cbn [bind app] in P4. apply Ok_inj in P4.
      rewrite <- P4, app_nil_r. reflexivity. }
    split.
    { rewrite E, ES. unfold ft_bytes. rewrite before_data_parts, <- !app_assoc.
      replace (concat (map2 field_bytes [fI32; fI32] [FT_MAGIC; 12%Z])) with (int_le 4 793712314 ++ int_le 4 12)
        by exact header_bytes.
      rewrite <- !app_assoc. do 2 f_equal.
      replace (concat (map ft_entry bs)) with (concat (map word_bytes (tf_words f))).
      2: { cbn [f tf_words]. rewrite map_map. reflexivity. }
      rewrite settings_bytes, counts_bytes. unfold cfg_bytes, vocab_part. rewrite <- !app_assoc. reflexivity. }
    assert (LB : length bs = length ws) by (clear - FB; induction FB; simpl; lia).
    split.
    { apply settings_ok in O2 as [O2 O2']. apply counts_ok in O3 as (C1 & C2 & C3 & C4).
      assert (FW : Forall (fun w : bytes * Z => ~ In x00 (fst w) /\ int_fits 8 (snd w)) (tf_words f)).
      { cbn [f tf_words]. rewrite Forall_map. clear - FB NZ. revert NZ.
        induction FB as [|w b ws bs H FB IH]; intros NZ; [constructor|]. inversion NZ as [|? ? N1 N2]; subst.
        constructor; [|now apply IH]. cbn [fst snd]. split; [|unfold int_fits; lia].
        intros I. apply N1. change 0 with (Byte.to_N x00). now apply (encode_ascii w b). }
      assert (FD : ft_decoded lossy f ws).
      { unfold ft_decoded. cbn [f tf_words]. clear - FB.
        induction FB as [|w b ws bs H FB IH]; [constructor|]. constructor; [|exact IH].
        exact (encoded_decodes lossy w b H). }
      split; [exact (conj O2 (conj O2' (conj C1 (conj C2 (conj C3 (conj C4 (conj FW
                (conj (int_8 _ B1) (int_8 _ B2)))))))))|].
      split; [eexists; left; reflexivity|]. split; [eexists; left; reflexivity|].
      split; [cbn [f tf_words tf_size]; rewrite map_length, Nat2Z.id; exact LB|].
      split; [reflexivity|]. split; [exact X4|]. split; [exact (proj1 X5)|].
      split; [exact FD|]. split; [exact ND|]. split.
      - split; [exact DL|]. split; [exact B3|]. left. cbn [f tf_rows tf_cols].
        split; [split; [exact (proj1 B1)|exact (proj1 B2)]|]. split; [apply nat_N_Z|reflexivity].
      - cbn [f tf_buckets]. rewrite nat_N_Z. rewrite <- RB. reflexivity. }
    split; [rewrite DL, (rows_len cd (em_dims e)) by exact CO; reflexivity|].
    repeat (split; [reflexivity|]). reflexivity.
  Qed.
  Theorem written_cut (e : embeddings F) old out k : built_embeddings e ->
    Forall (fun w => ~ In 0 w) (vocab_words (em_vocab e)) ->
    array_fits (N.of_nat (storage_rows (em_storage e))) (em_dims e) ->
    write_fasttext o host cd e old = (Some out, Ok tt) ->
    let used := lenN out - 4 * (N.of_nat (storage_rows (em_storage e)) * em_dims e) in
    (k < used -> exists x, run_reader (load_fasttext o host cd lossy) (takeN k out) = Err x)
    /\ (used <= k -> run_reader (load_fasttext o host cd lossy) (takeN k out)
                     = run_reader (load_fasttext o host cd lossy) out).
  Proof.
    intros B NZ AF H.
    destruct (written_layout e old out B NZ AF H) as (f & rest & E & L & LR & ER & EC & _).
    pose proof L as (_ & _ & _ & _ & _ & _ & _ & _ & _ & (LD & _) & _).
    destruct (cut_loadable f rest _ _ _ k L) as [C1 C2]; [lia|lia|].
    assert (X : lenN out - 4 * (N.of_nat (storage_rows (em_storage e)) * em_dims e) = lenN (ft_bytes f)).
    { rewrite E, lenN_app, LR, LD. lia. }
    cbv zeta. rewrite X, E. exact (conj C1 C2).
  Qed.
End Cut.
