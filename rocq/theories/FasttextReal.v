(* The fastText and word2vec round trips in exact arithmetic. *)
From Coq Require Import Reals Lra Lia.
From Verif Require Import Py PyProofs Utf8 IO Arr Subword Vocab Storage Chunks Embeddings Spec SpecVocab
  SpecLookup SpecReal VocabFacts ArrProofs StorageGet ExplicitEmb WordProofs LookupProofs RealProofs
  PyText SpecCompat Compat CompatProofs Word2vecProofs TextProofs FasttextProofs.
Local Open Scope list_scope.

Lemma fold_plus l : forall x, fold_left Rplus l x = (x + fold_left Rplus l 0)%R.
Proof.
  induction l as [|y l IH]; intros x; simpl; [lra|]. rewrite IH, (IH (0 + y)%R). lra.
Qed.
Lemma column_sum_cons r rows j :
  column_sum r_ops (r :: rows) j = (nth j r 0 + column_sum r_ops rows j)%R.
Proof.
  unfold column_sum. cbn [map]. change (fadd r_ops) with Rplus. change (fzero r_ops) with 0%R.
  destruct (map _ rows) as [|y l]; simpl; [lra|]. rewrite fold_plus, (fold_plus l y). lra.
Qed.

(* the average undoes what the writer did *)
Lemma average_exact (e : embeddings R) c k w u : built_embeddings e ->
  nonneg_index (em_vocab e) -> machine_size (em_vocab e) ->
  (k < n_words (em_vocab e))%nat ->
  (forall vec, fasttext_vector r_ops e k w vec -> exact_in_file c [vec]) ->
  (forall j row, (n_words (em_vocab e) <= j)%nat -> storage_get r_ops (em_storage e) (Z.of_nat j) = Ok row ->
     exact_in_file c [row]) ->
  fasttext_average r_ops e c k w u -> written_row r_ops e k u.
Proof.
  intros B NI MS K EV ES (sw & sub & vec & s & HS & HR & FV & SM & ->).
  pose proof B as (W & BV & _).
  assert (E1 : in_file c (vec :: sub) = vec :: sub).
  { apply in_file_exact. unfold exact_in_file. constructor.
    - specialize (EV vec FV). unfold exact_in_file in EV. now inversion EV.
    - pose proof (subword_bounds _ _ _ _ _ BV NI MS HS) as SB.
      assert (SB2 : Forall (fun i => Z.of_nat (n_words (em_vocab e)) <= i)%Z (map sw_index sw)).
      { rewrite Forall_map. eapply Forall_impl; [|exact SB]. intros x H. cbn beta in H.
        rewrite (built_len _ BV) in H. unfold lenN in H. unfold n_words. lia. }
      clear - HR SB2 ES. induction HR as [|i r l rs H _ IH]; [constructor|]. inversion SB2; subst. constructor; [|now apply IH].
      rewrite <- (Z2Nat.id i) in H by lia. apply ES in H; [|lia]. unfold exact_in_file in H. now inversion H. }
  rewrite E1 in SM. clear E1 EV ES.
  destruct FV as (sw' & row & sub' & s' & HS' & HG & HR' & SM' & EV).
  rewrite HS in HS'. apply Ok_inj in HS'. subst sw'.
  assert (sub' = sub) as ->.
  { unfold rows_at in *. clear -HR HR'. revert sub' HR'. induction HR as [|i r l rows Hi Hr IH]; intros rows' H.
    - now inversion H.
    - inversion H as [|i' r' l' t' H1 H2]; subst. rewrite Hi in H1. injection H1 as <-. f_equal. auto. }
  pose proof (ExplicitEmb.storage_get_len r_ops _ _ _ W HG) as LR.
  set (x := match em_norms e with None => 1%R | Some n => nth k (nm_vals n) 0%R end).
  assert (WR : map (fun y => fdiv r_ops y (fofZ r_ops (Z.of_nat (length sw) + 1))) s = map (fun a => (a * x)%R) row).
  { destruct SM as [L1 C1]. destruct SM' as [L2 C2].
    assert (LR' : length row = N.to_nat (em_dims e)) by (unfold lenN in LR; unfold em_dims; lia).
    apply nth_error_ext'. intros j. rewrite !nth_error_map.
    destruct (Nat.lt_ge_cases j (N.to_nat (em_dims e))) as [J|J].
    - rewrite (C1 j J). cbn [option_map]. rewrite column_sum_cons.
      destruct (nth_error row j) as [a|] eqn:A; [|apply nth_error_None in A; lia].
      assert (V : nth j vec 0%R = (a * IZR (Z.of_nat (length sw) + 1) * x - column_sum r_ops sub j)%R).
      { apply nth_error_nth. rewrite EV. rewrite map2_nth, nth_error_map, A, (C2 j J).
        unfold x. cbn [option_map fsub fmul fofZ r_ops]. apply f_equal. destruct (em_norms e); cbn zeta; [reflexivity|ring]. }
      rewrite V. cbn [option_map fdiv fofZ r_ops]. f_equal. field.
      apply not_0_IZR. lia.
    - rewrite !(proj2 (nth_error_None _ _)) by lia. easy. }
  rewrite WR. exists row. split; [easy|]. unfold x. destruct (em_norms e) as [n|] eqn:EN.
  - pose proof (norms_len e n B EN) as NL. rewrite (built_len _ BV) in NL. unfold lenN in NL.
    exists (nth k (nm_vals n) 0%R). split; [|easy]. apply nth_error_nth'. unfold n_words in K. lia.
  - rewrite <- (map_id row) at 2. apply map_ext. intros a. lra.
Qed.

Section Exact.
  Context (host : endian) (c : codec R).

  Lemma fasttext_exact e old out : built_embeddings e ->
    Forall (fun w => ~ In 0%N w) (vocab_words (em_vocab e)) ->
    array_fits (N.of_nat (storage_rows (em_storage e))) (em_dims e) ->
    exact_fasttext r_ops e c ->
    write_fasttext r_ops host c e old = (Some out, Ok tt) ->
    exists rows, written_rows r_ops e rows
      /\ forall h lossy, exists e', run_reader (load_fasttext r_ops h c lossy) out = Ok e'
           /\ fasttext_embeddings r_ops e e' c rows.
  Proof.
    intros B NZ AF [X1 X2] H. pose proof B as (W & BV & _).
    destruct (fasttext_reload r_ops host c e old out B NZ AF H) as (us & LU & AV & LD).
    exists us. split; [|exact LD]. split; [easy|]. intros k u Hk.
    destruct (nth_error (vocab_words (em_vocab e)) k) as [w|] eqn:HW.
    - destruct (AV k w HW) as (u' & E & A). rewrite Hk in E. injection E as <-.
      apply write_fasttext_ok in H; [|easy].
      destruct H as [(ws & idx & ix & a & b_hdr & b_cfg & b_voc & bs & b_shape & vecs & V & SE & P1 & P2 & P3 & _)].
      assert (NB : (Z.of_nat (length ws) < 2 ^ 31)%Z).
      { cbn [pack] in P3. apply bind_ok in P3 as (x & P3 & _). cbn [pack_field] in P3. unfold in_range in P3.
        destruct (Z.ltb_spec (Z.of_nat (length ws)) (2 ^ 31)); [easy|]. rewrite andb_false_r in P3. discriminate. }
      apply (average_exact e c k w u); try easy.
      + rewrite V. easy.
      + rewrite V. unfold machine_size, lenN. cbn [vocab_words]. lia.
      + unfold n_words. apply nth_error_Some. congruence.
      + intros vec. now apply X1.
    - apply nth_error_None in HW. assert (k < length us)%nat by (apply nth_error_Some; congruence).
      unfold n_words in LU. lia.
  Qed.

  Lemma unit_norm row x : sum_squares row = 1%R -> (0 < x)%R ->
    sqrt (sum_squares (map (fun a => a * x)%R row)) = x
    /\ map (fun a => (a / x)%R) (map (fun a => a * x)%R row) = row.
  Proof.
    intros U P. split.
    - assert (S : sum_squares (map (fun a => a * x)%R row) = (x * x * sum_squares row)%R).
      { clear. induction row as [|a row IH]; simpl; [lra|]. rewrite IH. ring. }
      rewrite S, U, Rmult_1_r. apply sqrt_square. lra.
    - rewrite map_map. rewrite <- (map_id row) at 2. apply map_ext. intros a. field. lra.
  Qed.

  (* rows that are unit vectors and positive norms are restored *)
  Lemma fasttext_identity e n old out : built_embeddings e ->
    Forall (fun w => ~ In 0%N w) (vocab_words (em_vocab e)) ->
    array_fits (N.of_nat (storage_rows (em_storage e))) (em_dims e) ->
    exact_fasttext r_ops e c ->
    em_norms e = Some n -> Forall (fun x => 0 < x)%R (nm_vals n) ->
    (forall k row, (k < n_words (em_vocab e))%nat -> storage_get r_ops (em_storage e) (Z.of_nat k) = Ok row ->
       sum_squares row = 1%R) ->
    write_fasttext r_ops host c e old = (Some out, Ok tt) ->
    forall h lossy, exists e', run_reader (load_fasttext r_ops h c lossy) out = Ok e'
      /\ em_vocab e' = em_vocab e /\ em_storage e' = native_storage (em_storage e)
      /\ em_norms e' = Some (Norms BoNative (nm_vals n)).
  Proof.
    intros B NZ AF X EN PO UN H h lossy.
    destruct (fasttext_exact e old out B NZ AF X H) as (rows & [LR WR] & LD).
    destruct (LD h lossy) as (e' & HL & m & EV & ES & ENo & _ & LM & MW & MS).
    exists e'. split; [easy|]. split; [easy|].
    apply write_fasttext_ok in H; [|easy].
    destruct H as [(ws & idx & ix & a & b_hdr & b_cfg & b_voc & bs & b_shape & vecs & V & SE & _)].
    pose proof B as (W & BV & _). pose proof (norms_len e n B EN) as NL. rewrite (built_len _ BV) in NL.
    assert (RW : forall k, (k < n_words (em_vocab e))%nat -> exists r x, storage_get r_ops (em_storage e) (Z.of_nat k) = Ok r
               /\ nth_error (nm_vals n) k = Some x /\ nth_error rows k = Some (map (fun a => a * x)%R r)
               /\ sum_squares r = 1%R /\ (0 < x)%R).
    { intros k K. destruct (nth_error rows k) as [row|] eqn:Q; [|apply nth_error_None in Q; lia].
      destruct (WR k row Q) as (r & G & Y). rewrite EN in Y. destruct Y as (x & NX & ->).
      exists r, x. repeat split; try easy; [now apply (UN k)|]. rewrite Forall_forall in PO. apply PO.
      eapply nth_error_In; eauto. }
    split.
    - rewrite ES, SE. cbn [native_storage]. unfold em_dims. rewrite SE. cbn [storage_shape snd]. do 2 f_equal.
      apply nth_error_ext'. intros k. rewrite SE in LM. cbn [storage_rows] in LM.
      destruct (Nat.lt_ge_cases k (length m)) as [K|K].
      + destruct (Nat.lt_ge_cases k (n_words (em_vocab e))) as [K2|K2].
        * destruct (RW k K2) as (r & x & G & NX & Q & U & P). rewrite (MW k _ Q).
          cbn [fdiv fnorm r_ops]. destruct (unit_norm r x U P) as [E1 E2]. rewrite E1, E2.
          rewrite SE in G. cbn [storage_get] in G. rewrite py_index_nat in G.
          destruct (nth_error (nd_rows a) k); congruence.
        * destruct (MS k) as (row & G & Q); [rewrite SE; cbn [storage_rows]; lia|]. rewrite Q.
          destruct X as [_ X]. specialize (X k row K2 G). unfold exact_in_file in X. inversion X; subst.
          rewrite exact_row by easy. rewrite SE in G. cbn [storage_get] in G. rewrite py_index_nat in G.
          destruct (nth_error (nd_rows a) k); congruence.
      + rewrite !(proj2 (nth_error_None _ _)) by lia. easy.
    - rewrite ENo. do 2 f_equal. apply nth_error_ext'. intros k. rewrite nth_error_map.
      destruct (Nat.lt_ge_cases k (n_words (em_vocab e))) as [K2|K2].
      + destruct (RW k K2) as (r & x & G & NX & Q & U & P). rewrite Q, NX. cbn [option_map fnorm r_ops].
        now rewrite (proj1 (unit_norm r x U P)).
      + unfold lenN in NL. unfold n_words in *. rewrite !(proj2 (nth_error_None _ _)) by lia. easy.
  Qed.

  (* the product of the row and the norm that are read is the row that was written *)
  Lemma product_kept rows m norms k row :
    (forall k u, nth_error rows k = Some u ->
       nth_error m k = Some (map (fun x => fdiv r_ops x (fnorm r_ops u)) u)) ->
    norms = map (fnorm r_ops) rows ->
    nth_error rows k = Some row -> Exists (fun a => a <> 0%R) row ->
    exists v n, nth_error m k = Some v /\ nth_error norms k = Some n
      /\ (0 < n)%R /\ sum_squares v = 1%R /\ map (fun x => n * x)%R v = row.
  Proof.
    intros H -> HR NZ. destruct (normalised row NZ) as (P1 & P2 & P3 & P4). do 2 eexists.
    split; [exact (H k row HR)|]. split; [now rewrite nth_error_map, HR|]. easy.
  Qed.

  Lemma word2vec_exact e old out : built_embeddings e ->
    Forall (fun w => ~ In 32%N w) (vocab_words (em_vocab e)) ->
    Forall no_edge_space (vocab_words (em_vocab e)) ->
    array_fits (N.of_nat (n_words (em_vocab e))) (em_dims e) ->
    write_word2vec r_ops host c e old = (Some out, Ok tt) ->
    exists rows, written_rows r_ops e rows
      /\ (exact_in_file c rows -> forall h lossy, exists e',
             run_reader (load_word2vec r_ops h c lossy) out = Ok e'
             /\ vocab_words (em_vocab e') = vocab_words (em_vocab e)
             /\ storage_rows (em_storage e') = n_words (em_vocab e)
             /\ forall k row, nth_error rows k = Some row -> Exists (fun a => a <> 0%R) row ->
                  split_row e' k row).
  Proof.
    intros B NS NE AF H. destruct (word2vec_round_trip r_ops host c e old out B NS NE AF H) as (rows & WR & L).
    exists rows. split; [exact WR|]. intros X h lossy. destruct (L h lossy) as (e' & HL & S1 & S2 & _ & S4 & _).
    rewrite (in_file_exact c rows X) in *. exists e'. split; [exact HL|]. split; [now rewrite S2|].
    split; [rewrite S1; cbn; rewrite map_length; apply WR|].
    intros k row HR NZ.
    destruct (product_kept rows (map (fun r => map (fun x => fdiv r_ops x (fnorm r_ops r)) r) rows)
                (map (fnorm r_ops) rows) k row) as (v & n & E1 & E2 & P); try easy.
    { intros j u Hj. now rewrite nth_error_map, Hj. }
    exists v, n. eexists. rewrite S1, S4. cbn [storage_get nd_rows nm_vals]. rewrite py_index_nat, E1.
    split; [reflexivity|]. split; [reflexivity|]. split; [exact E2|exact P].
  Qed.

  Lemma fasttext_product e old out : built_embeddings e ->
    Forall (fun w => ~ In 0%N w) (vocab_words (em_vocab e)) ->
    array_fits (N.of_nat (storage_rows (em_storage e))) (em_dims e) ->
    exact_fasttext r_ops e c ->
    write_fasttext r_ops host c e old = (Some out, Ok tt) ->
    exists rows, written_rows r_ops e rows
      /\ forall h lossy, exists e', run_reader (load_fasttext r_ops h c lossy) out = Ok e'
           /\ em_vocab e' = em_vocab e
           /\ storage_rows (em_storage e') = storage_rows (em_storage e)
           /\ (forall k row, nth_error rows k = Some row -> Exists (fun a => a <> 0%R) row ->
                 split_row e' k row)
           /\ (forall k, (n_words (em_vocab e) <= k < storage_rows (em_storage e))%nat ->
                 storage_get r_ops (em_storage e') (Z.of_nat k) = storage_get r_ops (em_storage e) (Z.of_nat k)).
  Proof.
    intros B NZ AF X H. destruct (fasttext_exact e old out B NZ AF X H) as (rows & WR & L).
    exists rows. split; [exact WR|]. intros h lossy.
    destruct (L h lossy) as (e' & HL & m & EV & ES & EN & _ & LM & MW & MS).
    exists e'. split; [exact HL|]. split; [exact EV|]. split; [rewrite ES; exact LM|]. split.
    - intros k row HR NZR.
      destruct (product_kept rows m (map (fnorm r_ops) rows) k row MW eq_refl HR NZR) as (v & n & E1 & E2 & P).
      exists v, n. eexists. rewrite ES, EN. cbn [storage_get nd_rows nm_vals]. rewrite py_index_nat, E1.
      split; [reflexivity|]. split; [reflexivity|]. split; [exact E2|exact P].
    - intros k K. destruct (MS k K) as (row & G & Q). rewrite ES. cbn [storage_get nd_rows].
      rewrite py_index_nat, Q, G. destruct X as [_ X]. specialize (X k row (proj1 K) G). unfold exact_in_file in X.
      inversion X; subst. now rewrite exact_row.
  Qed.
End Exact.
