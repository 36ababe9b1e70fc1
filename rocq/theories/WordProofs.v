(* Vocabulary construction, lookup, bounds of indices, equality. *)
From Coq Require Import Lia.
From Verif Require Import Py PyProofs Utf8 Utf8Proofs IO Arr Subword Vocab VocabProofs Storage Chunks
  Embeddings Spec SpecVocab VocabFacts NgramProofs HashProofs IndexerProofs.

(* ---------------------------------------------------------------- *)
(* C15                                                               *)

Lemma construct_iff ws r : constructs ws r ->
  (NoDup ws -> exists v, r = Ok v /\ vocab_words v = ws)
  /\ (~ NoDup ws -> r = Err AssertionError).
Proof.
  intros H. split; intros D.
  - pose proof (validate_NoDup ws D) as E.
    destruct H; eexists; (split; [unfold simple_vocab_new, bucket_vocab_new, fasttext_vocab_new,
      explicit_vocab_new; rewrite E; reflexivity|reflexivity]).
  - pose proof (validate_dup ws D) as E.
    destruct H; unfold simple_vocab_new, bucket_vocab_new, fasttext_vocab_new,
      explicit_vocab_new; now rewrite E.
Qed.

Lemma sget_words v w i : built_vocab v ->
  (sget w (vocab_index v) = Some i <-> (0 <= i)%Z /\ nth_error (vocab_words v) (Z.to_nat i) = Some w).
Proof. intros H. apply (proj2 (built_indexed v H)). Qed.

Lemma sget_not_in v w : built_vocab v -> ~ In w (vocab_words v) -> sget w (vocab_index v) = None.
Proof.
  intros B H. destruct (sget w (vocab_index v)) as [i|] eqn:E; [|easy].
  apply sget_words in E as [_ E]; [|easy]. apply nth_error_In in E. contradiction.
Qed.
Lemma sget_in v w : built_vocab v -> In w (vocab_words v) ->
  exists i, sget w (vocab_index v) = Some i /\ (0 <= i)%Z
            /\ nth_error (vocab_words v) (Z.to_nat i) = Some w.
Proof.
  intros B H. apply In_nth_error in H as [k H]. exists (Z.of_nat k).
  assert (S : sget w (vocab_index v) = Some (Z.of_nat k)).
  { apply sget_words; [easy|]. split; [lia|]. now rewrite Nat2Z.id. }
  split; [easy|]. now apply sget_words.
Qed.

Lemma lookup_cases v item : built_vocab v ->
  (exists i, sget item (vocab_index v) = Some i /\ vocab_idx v item = Ok (Some (IdxInt i))
             /\ vocab_getitem v item = Ok (IdxInt i))
  \/ (sget item (vocab_index v) = None
      /\ ((exists ws idx, v = VSimple ws idx /\ vocab_idx v item = Ok None
             /\ vocab_getitem v item = Err KeyError)
          \/ (exists e, vocab_subword_indices v item true false = Err e /\ vocab_idx v item = Err e
                /\ vocab_getitem v item = Err e)
          \/ (vocab_subword_indices v item true false = Ok [] /\ vocab_idx v item = Ok None
                /\ vocab_getitem v item = Err KeyError)
          \/ (exists l, vocab_subword_indices v item true false = Ok l /\ l <> []
                /\ vocab_idx v item = Ok (Some (IdxList (map sw_index l)))
                /\ vocab_getitem v item = Ok (IdxList (map sw_index l))))).
Proof.
  intros B. destruct (sget item (vocab_index v)) as [i|] eqn:S.
  - left. exists i. destruct v; simpl in S |- *; now rewrite S.
  - right. split; [easy|]. destruct v as [ws idx|ws idx ix|ws idx ix|ws idx ix].
    + left. exists ws, idx. simpl in S |- *. now rewrite S.
    + right. right. unfold vocab_idx, vocab_getitem. rewrite S.
      destruct (vocab_subword_indices (VBucket ws idx ix) item true false) as [l|e] eqn:E; [|easy].
      destruct l as [|s l]; [left; easy|right]. exists (s :: l). easy.
    + right. unfold vocab_idx, vocab_getitem. rewrite S.
      destruct (vocab_subword_indices (VFastText ws idx ix) item true false) as [l|e] eqn:E.
      2:{ left. exists e. easy. }
      right. destruct l as [|s l]; [left; easy|right]. exists (s :: l). easy.
    + right. right. unfold vocab_idx, vocab_getitem. rewrite S.
      destruct (vocab_subword_indices (VExplicit ws idx ix) item true false) as [l|e] eqn:E; [|easy].
      destruct l as [|s l]; [left; easy|right]. exists (s :: l). easy.
Qed.

Lemma lookup_known v k w : built_vocab v -> nth_error (vocab_words v) k = Some w ->
  vocab_getitem v w = Ok (IdxInt (Z.of_nat k)) /\ vocab_idx v w = Ok (Some (IdxInt (Z.of_nat k))).
Proof.
  intros B H.
  assert (S : sget w (vocab_index v) = Some (Z.of_nat k)).
  { apply sget_words; [easy|]. split; [lia|]. now rewrite Nat2Z.id. }
  destruct v; simpl in *; now rewrite S.
Qed.

Lemma lookup_unknown v w : built_vocab v -> ~ In w (vocab_words v) ->
  (forall r, vocab_getitem v w = Ok r -> ~ is_single r)
  /\ (forall r, vocab_idx v w = Ok (Some r) -> ~ is_single r).
Proof.
  intros B H. pose proof (sget_not_in v w B H) as S.
  destruct (lookup_cases v w B) as
    [(i & S' & _)|(_ & [(ws & idx & -> & -> & ->)|[(e & _ & -> & ->)|[(_ & -> & ->)|(l & _ & _ & -> & ->)]]])];
    [congruence|..]; split; intros r E; try discriminate; injection E as <-; easy.
Qed.

Lemma contains_iff v w : built_vocab v -> (vocab_contains v w = true <-> In w (vocab_words v)).
Proof.
  intros B. unfold vocab_contains. split.
  - destruct (sget w (vocab_index v)) as [i|] eqn:E; [|easy]. intros _.
    apply sget_words in E as [_ E]; [|easy]. now apply nth_error_In in E.
  - intros H. destruct (sget_in v w B H) as (i & E & _). now rewrite E.
Qed.
Lemma contains_all_iff v ws : built_vocab v ->
  (vocab_contains_all v ws = true <-> forall w, In w ws -> In w (vocab_words v)).
Proof.
  intros B. unfold vocab_contains_all. rewrite forallb_forall. split; intros H w Hw.
  - apply contains_iff; auto.
  - apply contains_iff; auto.
Qed.

Lemma built_lookup v : built_vocab v ->
  vocab_len v = lenN (vocab_words v)
  /\ (forall k w, nth_error (vocab_words v) k = Some w ->
        vocab_getitem v w = Ok (IdxInt (Z.of_nat k)) /\ vocab_idx v w = Ok (Some (IdxInt (Z.of_nat k))))
  /\ (forall w, vocab_contains v w = true <-> In w (vocab_words v))
  /\ (forall ws, vocab_contains_all v ws = true <-> forall w, In w ws -> In w (vocab_words v))
  /\ (forall w, ~ In w (vocab_words v) ->
        (forall r, vocab_getitem v w = Ok r -> ~ is_single r)
        /\ (forall r, vocab_idx v w = Ok (Some r) -> ~ is_single r)).
Proof.
  intros B. split; [now apply built_len|]. split; [intros; now apply lookup_known|].
  split; [intros; now apply contains_iff|]. split; [intros; now apply contains_all_iff|].
  intros; now apply lookup_unknown.
Qed.

(* ---------------------------------------------------------------- *)
(* C16                                                               *)

Lemma ngrams_ok word mn mx b : ngram_range mn mx -> exists gs, ngrams word mn mx b = Ok gs.
Proof. intros [R _]. rewrite ngrams_eq by easy. eauto. Qed.

Lemma sw_index_mk wn g i : sw_index (sw_mk wn g i) = i.
Proof. now destruct wn. Qed.

Lemma mapM_Forall {A B} (P : B -> Prop) (f : A -> result B) l bs :
  mapM f l = Ok bs -> (forall a b, In a l -> f a = Ok b -> P b) -> Forall P bs.
Proof.
  revert bs. induction l as [|a l IH]; intros bs H HP.
  - injection H as <-. constructor.
  - cbn [mapM] in H. apply bind_ok in H as (b & Hb & H). apply bind_ok in H as (bs' & Hbs & H).
    injection H as <-. constructor; [apply (HP a); [now left|easy]|].
    apply IH; [easy|]. intros x y Hx. apply HP. now right.
Qed.

Lemma subword_bounds v item b wn l :
  built_vocab v -> nonneg_index v -> machine_size v -> vocab_subword_indices v item b wn = Ok l ->
  Forall (fun s => Z.of_N (vocab_len v) <= sw_index s < vocab_upper_bound v)%Z l.
Proof.
  intros B N M H. pose proof (built_indexer v B N) as C. pose proof (built_len v B) as L.
  unfold vocab_upper_bound. rewrite L. unfold machine_size in M.
  destruct v as [ws idx|ws idx ix|ws idx ix|ws idx ix]; simpl in H, C, M |- *; [easy| | |].
  - apply Ok_inj in H. destruct C as [R E].
    destruct (ngrams_ok item _ _ b R) as [gs G].
    assert (X : Forall (fun g => Z.of_N (ff_call ix g) < Z.of_N (ff_upper_bound ix))%Z gs).
    { apply Forall_forall. intros g _. pose proof (ff_call_bound ix g). unfold ff_upper_bound. lia. }
    destruct (ff_subword_spec ix item (lenN ws) b gs ltac:(lia) M G) as [Ht Hf].
    subst l. destruct wn; [rewrite Ht|rewrite Hf]; apply Forall_forall; intros s Hs;
      apply in_map_iff in Hs as (g & <- & Hg); simpl; rewrite Forall_forall in X;
      specialize (X g Hg); lia.
  - destruct C as [R E]. destruct (ngrams_ok item _ _ b R) as [gs G].
    destruct (utf8_encode (in_brackets b item)) as [bw|e] eqn:U.
    2:{ rewrite (ft_subword_encode _ _ _ _ _ _ U) in H. easy. }
    destruct (ft_subword_spec ix item (lenN ws) b wn bw gs E M U G) as (hs & Hh & Hl).
    rewrite Hl in H. apply Ok_inj in H. subst l.
    assert (X : Forall (fun h => h < ft_buckets ix) hs).
    { apply (mapM_Forall _ _ _ _ Hh). intros g h _ Hg. eapply ft_call_bound; eauto. lia. }
    apply Forall_forall. intros s Hs. apply in_map_iff in Hs as ([g h] & <- & Hg).
    rewrite sw_index_mk. simpl. apply in_combine_r in Hg. rewrite Forall_forall in X.
    specialize (X h Hg). unfold ft_upper_bound. lia.
  - apply Ok_inj in H. destruct C as (R & _ & _ & V). destruct (ngrams_ok item _ _ b R) as [gs G].
    rewrite (ex_subword_spec ix item (lenN ws) b wn gs G) in H. subst l.
    apply Forall_forall. intros s Hs. apply in_flat_map in Hs as (g & Hg & Hs).
    unfold ex_call in Hs. destruct (sget g (ex_index ix)) as [i|] eqn:Ei; [|easy].
    destruct Hs as [<-|[]]. rewrite sw_index_mk.
    assert (0 <= i < ex_bound ix)%Z by (apply V; eauto). lia.
Qed.

Lemma known_bound v w i : built_vocab v -> sget w (vocab_index v) = Some i ->
  (0 <= i < Z.of_N (vocab_len v))%Z.
Proof.
  intros B H. apply sget_words in H as [H0 H]; [|easy].
  rewrite (built_len v B).
  assert (Z.to_nat i < length (vocab_words v))%nat by (apply nth_error_Some; congruence).
  unfold lenN. lia.
Qed.

Lemma upper_bound_ge v : built_vocab v -> nonneg_index v ->
  (Z.of_N (vocab_len v) <= vocab_upper_bound v)%Z.
Proof.
  intros B N. pose proof (built_indexer v B N) as C. unfold vocab_upper_bound.
  destruct v as [ws idx|ws idx ix|ws idx ix|ws idx ix]; simpl in *; try lia.
  assert (0 <= ex_bound ix)%Z; [|lia].
  destruct C as (_ & _ & _ & V). destruct (Z_le_gt_dec 0 (ex_bound ix)); [easy|].
  exfalso. inversion B as [ | | |ws' gs mn mx index ix' v' Hd Hi Hv]; subst.
  - unfold simple_vocab_new in H. apply bind_ok in H as (? & _ & H). easy.
  - unfold bucket_vocab_new in H0. apply bind_ok in H0 as (? & _ & H0). easy.
  - unfold fasttext_vocab_new in H0. apply bind_ok in H0 as (? & _ & H0). easy.
  - unfold explicit_vocab_new in Hv. apply bind_ok in Hv as (? & _ & Hv). injection Hv as _ _ ->.
    unfold ex_new in Hi. apply bind_ok in Hi as (? & _ & Hi). apply bind_ok in Hi as (? & _ & Hi).
    apply bind_ok in Hi as (? & _ & Hi). destruct index as [d|].
    + apply bind_ok in Hi as (? & _ & Hi). apply bind_ok in Hi as (? & _ & Hi).
      apply bind_ok in Hi as (m & _ & Hi). apply bind_ok in Hi as (u & Hu & Hi).
      apply py_assert_ok, Z.eqb_eq in Hu. injection Hi as <-. simpl in *. lia.
    + apply bind_ok in Hi as (? & _ & Hi). injection Hi as <-. simpl in *. lia.
Qed.

Lemma idx_getitem v item r :
  built_vocab v -> vocab_getitem v item = Ok r <-> vocab_idx v item = Ok (Some r).
Proof.
  intros B. destruct (lookup_cases v item B) as
    [(i & _ & -> & ->)|(_ & [(ws & idx & -> & -> & ->)|[(e & _ & -> & ->)|[(_ & -> & ->)|(l & _ & _ & -> & ->)]]])];
    split; intros H; try discriminate; injection H as <-; easy.
Qed.

Lemma idx_bounds v item r :
  built_vocab v -> nonneg_index v -> machine_size v -> vocab_idx v item = Ok (Some r) -> within v r.
Proof.
  intros B N M H. pose proof (upper_bound_ge v B N) as U. unfold within. destruct (lookup_cases v item B) as
    [(i & S & E & _)|(S & [(ws & idx & Ev & E & _)|[(e & _ & E & _)|[(_ & E & _)|(l & El & _ & E & _)]]])];
    rewrite E in H; try discriminate; injection H as <-; simpl.
  - apply known_bound in S; [|easy]. constructor; [lia|constructor].
  - apply Forall_map. pose proof (subword_bounds v item true false l B N M El) as X.
    eapply Forall_impl; [|exact X]. simpl. lia.
Qed.
Lemma getitem_bounds v item r :
  built_vocab v -> nonneg_index v -> machine_size v -> vocab_getitem v item = Ok r -> within v r.
Proof. intros B N M H. apply idx_getitem in H; [|easy]. now apply idx_bounds in H. Qed.

Lemma utf8_encode_err s e : utf8_encode s = Err e -> e = UnicodeEncodeError.
Proof.
  induction s as [|c s IH]; simpl; [easy|]. destruct (encode_cp c); [|intros [= <-]; easy].
  destruct (utf8_encode s); cbn [bind]; [easy|]. intros [= <-]. now apply IH.
Qed.

(* a lookup can only fail because the bracketed word cannot be encoded (fastText) *)
Lemma subword_err v item b wn e : built_vocab v -> vocab_subword_indices v item b wn = Err e ->
  (exists ws idx, v = VSimple ws idx /\ e = AttributeError)
  \/ (exists ws idx ix, v = VFastText ws idx ix /\ utf8_encode (in_brackets b item) = Err e).
Proof.
  intros B H. destruct v as [ws idx|ws idx ix|ws idx ix|ws idx ix]; simpl in H.
  - left. injection H as <-. eauto.
  - discriminate.
  - right. exists ws, idx, ix. split; [easy|]. unfold ft_subword_indices in H.
    rewrite bracketed_in in H. destruct (utf8_encode (in_brackets b item)); [easy|].
    injection H as <-. easy.
  - discriminate.
Qed.

(* ---------------------------------------------------------------- *)
(* storages                                                          *)

Lemma py_index_ok {A} (l : list A) i :
  (0 <= i < Z.of_nat (length l))%Z -> exists a, nth_error l (Z.to_nat i) = Some a /\ py_index l i = Ok a.
Proof.
  intros H. unfold py_index. destruct (Z.ltb_spec i 0); [lia|].
  assert (R : in_range 0 (Z.of_nat (length l)) i = true) by (apply in_range_spec; lia).
  rewrite R. destruct (nth_error l (Z.to_nat i)) as [a|] eqn:E; [eauto|].
  apply nth_error_None in E. lia.
Qed.

Lemma pq_select_ok {F} (qs : list (list (list F))) code n :
  Forall (fun m => lenN m = n) qs -> length code = length qs ->
  Forall (fun c => Byte.to_N c < n) code -> exists v, pq_select qs code = Ok v.
Proof.
  revert code. induction qs as [|q qs IH]; intros [|c code] Hq L Hc; try easy; [now exists []|].
  apply Forall_inv in Hq as Hq0. apply Forall_inv_tail in Hq.
  apply Forall_inv in Hc as Hc0. apply Forall_inv_tail in Hc.
  simpl. destruct (nth_error q (N.to_nat (Byte.to_N c))) as [sub|] eqn:E.
  2:{ apply nth_error_None in E. unfold lenN in Hq0. lia. }
  destruct (IH code) as [v Hv]; try easy; [simpl in L; lia|]. rewrite Hv. cbn [bind]. eauto.
Qed.

Section Get.
  Context {F : Type} (o : fops F).

  Lemma pq_reconstruct_ok (q : pq F) code : pq_wf q -> lenN code = lenN (pq_quantizers q) ->
    Forall (fun c => Byte.to_N c < pq_n_centroids q) code -> exists v, pq_reconstruct o q code = Ok v.
  Proof.
    intros (_ & W & _) L C. unfold pq_reconstruct.
    destruct (pq_select_ok (pq_quantizers q) code (pq_n_centroids q)) as [v Hv]; try easy.
    - eapply Forall_impl; [|exact W]. simpl. tauto.
    - unfold lenN in L. lia.
    - rewrite Hv. cbn [bind]. destruct (pq_projection q) as [[bo proj]|]; eauto.
  Qed.

  Lemma storage_get_ok (s : storage F) i : storage_wf s -> valid_codes s ->
    (0 <= i < Z.of_nat (storage_rows s))%Z -> exists row, storage_get o s i = Ok row.
  Proof.
    intros W V H. destruct s as [a|q]; simpl in *.
    - destruct (py_index_ok (nd_rows a) i H) as (row & _ & E). eauto.
    - destruct W as (WP & L & _ & R & Nn). unfold qa_embedding.
      destruct (py_index_ok (qa_codes q) i H) as (code & E & Ei). rewrite Ei. cbn [bind].
      apply nth_error_In in E. unfold rows_wf in R. rewrite Forall_forall in R, V.
      destruct (pq_reconstruct_ok (qa_pq q) code WP) as [v Hv].
      + rewrite R by easy. easy.
      + now apply V.
      + rewrite Hv. cbn [bind]. destruct (qa_norms q) as [[bo ns]|]; [|eauto].
        destruct Nn as [_ Ln]. destruct (py_index_ok ns i) as (x & _ & Ex).
        { unfold lenN in Ln. lia. }
        rewrite Ex. cbn [bind]. eauto.
  Qed.

  (* a list key gives one row per index *)
  Lemma get_list_map (s : storage F) l :
    storage_get_list o s l = mapM (storage_get o s) l \/
    exists e e', storage_get_list o s l = Err e /\ mapM (storage_get o s) l = Err e'.
  Proof.
    destruct s as [a|q]; simpl storage_get_list; [now left|].
    change (storage_get o (SQuant q)) with (qa_embedding o q).
    induction l as [|i l IH].
    - left. unfold qa_embedding_list. simpl. destruct (qa_norms q) as [[bo ns]|]; easy.
    - unfold qa_embedding_list. cbn [mapM]. replace (qa_embedding o q i) with
        (quantized <- py_index (qa_codes q) i ;; out <- pq_reconstruct o (qa_pq q) quantized ;;
         match qa_norms q with
         | None => Ok out
         | Some (_, norms) => n <- py_index norms i ;; Ok (vscale o n out)
         end) by reflexivity.
      destruct (py_index (qa_codes q) i) as [c|e1]; cbn [bind]; [|right; eauto].
      unfold qa_embedding_list in IH.
      destruct (mapM (py_index (qa_codes q)) l) as [cs|e2] eqn:E2; cbn [bind] in IH |- *.
      2:{ right. destruct (mapM (qa_embedding o q) l) as [x|e3] eqn:E3.
          - destruct IH as [IH|(e & e' & _ & IH)]; discriminate.
          - destruct (pq_reconstruct o (qa_pq q) c); cbn [bind]; [|eauto].
            destruct (qa_norms q) as [[bo ns]|]; cbn [bind]; [|eauto].
            destruct (py_index ns i); cbn [bind]; eauto. }
      unfold pq_reconstruct_batch in *. cbn [mapM].
      destruct (pq_reconstruct o (qa_pq q) c) as [v|e3]; cbn [bind]; [|right; eauto].
      destruct (mapM (pq_reconstruct o (qa_pq q)) cs) as [vs|e4]; cbn [bind] in IH |- *.
      2:{ right. destruct (mapM (qa_embedding o q) l) as [x|e5] eqn:E5.
          - destruct IH as [IH|(e & e' & _ & IH)]; discriminate.
          - destruct (qa_norms q) as [[bo ns]|]; cbn [bind]; [|eauto].
            destruct (py_index ns i); cbn [bind]; eauto. }
      destruct (qa_norms q) as [[bo ns]|].
      + destruct (py_index ns i) as [n|e5]; cbn [bind]; [|right; eauto].
        destruct (mapM (py_index ns) l) as [nl|e6]; cbn [bind] in IH |- *.
        * destruct IH as [IH|(e & e' & IH & _)]; [|discriminate]. rewrite <- IH. now left.
        * destruct IH as [IH|(e & e' & IH & IH2)].
          -- rewrite <- IH. right. cbn [bind]. eauto.
          -- rewrite IH2. right. cbn [bind]. eauto.
      + destruct IH as [IH|(e & e' & IH & _)]; [|discriminate]. rewrite <- IH. now left.
  Qed.

  Lemma mapM_all_ok {A B} (f : A -> result B) l :
    (forall a, In a l -> exists b, f a = Ok b) -> exists bs, mapM f l = Ok bs.
  Proof.
    induction l as [|a l IH]; intros H; [now exists []|]. cbn [mapM].
    destruct (H a) as [b Hb]; [now left|]. destruct IH as [bs Hbs]; [intros; apply H; now right|].
    rewrite Hb. cbn [bind]. rewrite Hbs. cbn [bind]. eauto.
  Qed.

  Lemma get_list_ok (s : storage F) l : storage_wf s -> valid_codes s ->
    Forall (fun i => 0 <= i < Z.of_nat (storage_rows s))%Z l ->
    exists rows, mapM (storage_get o s) l = Ok rows /\ storage_get_list o s l = Ok rows.
  Proof.
    intros W V H. rewrite Forall_forall in H.
    destruct (mapM_all_ok (storage_get o s) l) as [rows Hr].
    { intros i Hi. apply storage_get_ok; auto. }
    exists rows. split; [easy|]. destruct (get_list_map s l) as [E|(e & e' & _ & E)].
    - now rewrite E.
    - rewrite Hr in E. discriminate.
  Qed.

  Lemma rows_bound (e : embeddings F) : built_embeddings e ->
    vocab_upper_bound (em_vocab e) = Z.of_nat (storage_rows (em_storage e)).
  Proof.
    intros (_ & _ & _ & EN). unfold embeddings_new in EN. apply bind_ok in EN as (u & E1 & _).
    apply py_assert_ok, Z.eqb_eq in E1. rewrite <- E1.
    destruct (em_storage e); simpl; unfold lenN; lia.
  Qed.
  Lemma norms_len (e : embeddings F) n : built_embeddings e -> em_norms e = Some n ->
    lenN (nm_vals n) = vocab_len (em_vocab e).
  Proof.
    intros (_ & _ & _ & EN) H. unfold embeddings_new in EN. apply bind_ok in EN as (u & _ & EN).
    apply bind_ok in EN as (u2 & E2 & _). rewrite H in E2. unfold norms_compat in E2.
    apply bind_ok in E2 as (u3 & _ & E2). apply py_assert_ok, N.eqb_eq in E2. lia.
  Qed.

  (* what a lookup can do *)
  Lemma embedding_at_ok (e : embeddings F) item r : built_embeddings e ->
    nonneg_index (em_vocab e) -> machine_size (em_vocab e) -> valid_codes (em_storage e) ->
    vocab_idx (em_vocab e) item = Ok (Some r) -> exists x, em_embedding_at o e r = Ok x.
  Proof.
    intros BE N M V H. pose proof BE as (W & B & _ & _).
    pose proof (idx_bounds _ _ _ B N M H) as I. unfold within in I. rewrite rows_bound in I by easy.
    destruct r as [i|l]; simpl in *.
    - apply Forall_inv in I. destruct (storage_get_ok _ _ W V I) as [row Hr]. rewrite Hr. cbn [bind].
      destruct (em_norms e) as [n|] eqn:En; [|eauto].
      assert (K : (0 <= i < Z.of_N (vocab_len (em_vocab e)))%Z).
      { destruct (lookup_cases _ item B) as
          [(j & S & E & _)|(S & [(ws & idx & Ev & E & _)|[(x & _ & E & _)|[(_ & E & _)|(l & El & _ & E & _)]]])];
          rewrite E in H; try discriminate. injection H as <-. eapply known_bound; eauto. }
      rewrite <- (norms_len e n BE En) in K. unfold lenN in K.
      destruct (py_index_ok (nm_vals n) i) as (x & _ & Ex); [lia|]. rewrite Ex. cbn [bind]. eauto.
    - destruct (get_list_ok _ _ W V I) as (rows & _ & Hr). rewrite Hr. cbn [bind]. eauto.
  Qed.

  Lemma no_index_error (e : embeddings F) item d : built_embeddings e ->
    nonneg_index (em_vocab e) -> machine_size (em_vocab e) -> valid_codes (em_storage e) ->
    (forall x, em_getitem o e item = Err x -> x = KeyError \/ x = UnicodeEncodeError)
    /\ (forall x, em_embedding o e item d = Err x -> x = UnicodeEncodeError).
  Proof.
    intros BE N M V. pose proof BE as (W & B & _ & _).
    assert (UE : forall x, vocab_subword_indices (em_vocab e) item true false = Err x ->
                 (exists ws idx, em_vocab e = VSimple ws idx) \/ x = UnicodeEncodeError).
    { intros x H. apply subword_err in H as [(ws & idx & E & _)|(ws & idx & ix & _ & E)]; [| |easy].
      - left. eauto.
      - right. eapply utf8_encode_err; eauto. }
    destruct (lookup_cases _ item B) as
      [(j & S & E & G)|(S & [(ws & idx & Ev & E & G)|[(x & Ex & E & G)|[(_ & E & G)|(l & El & _ & E & G)]]])];
      unfold em_getitem, em_embedding; rewrite E, G; cbn [bind].
    - destruct (embedding_at_ok e item _ BE N M V E) as [y ->]. easy.
    - split; intros x H; [injection H as <-; now left|easy].
    - apply UE in Ex as [(ws & idx & Ev)|Ex]; [|subst x].
      + exfalso. rewrite Ev in E. simpl in E. easy.
      + split; intros y H; injection H as <-; auto.
    - split; intros x H; [injection H as <-; now left|easy].
    - destruct (embedding_at_ok e item _ BE N M V E) as [y ->]. easy.
  Qed.
End Get.

(* ---------------------------------------------------------------- *)
(* C43                                                               *)

Lemma dict_eqb_spec {V} (veqb : V -> V -> bool) (d1 d2 : dict str V) :
  (forall a b, veqb a b = true <-> a = b) -> dict_wf d1 -> dict_wf d2 ->
  (dict_eqb str_eqb veqb d1 d2 = true <-> forall k, sget k d1 = sget k d2).
Proof.
  intros HV W1 W2. unfold dict_eqb. rewrite andb_true_iff, Nat.eqb_eq, forallb_forall.
  assert (Keys : forall k (d : dict str V), In k (map fst d) <-> exists v, sget k d = Some v).
  { intros k d. split.
    - apply (dget_Some_In str_eqb str_eqb_eq).
    - intros [v H]. apply (dget_In str_eqb str_eqb_eq) in H. now apply (in_map fst) in H. }
  split.
  - intros [L H] k. destruct (sget k d1) as [v|] eqn:E.
    + apply (dget_In str_eqb str_eqb_eq) in E. apply H in E. simpl in E.
      fold (sget (V:=V)) in E. destruct (sget k d2); [|easy]. apply HV in E. congruence.
    + destruct (sget k d2) as [v|] eqn:E2; [|easy]. exfalso.
      assert (I : In k (map fst d2)) by (apply Keys; eauto).
      apply (NoDup_same_length_incl (map fst d1) (map fst d2)) in I; try easy.
      * apply Keys in I as [v' I]. congruence.
      * now rewrite !map_length.
      * intros x Hx. apply in_map_iff in Hx as ([y v'] & <- & Hx). apply H in Hx. simpl in *.
        apply Keys. fold (sget (V:=V)) in Hx. destruct (sget y d2); [eauto|easy].
  - intros H. split.
    + rewrite <- (map_length fst d1), <- (map_length fst d2). apply Nat.le_antisymm.
      * apply NoDup_incl_length; [easy|]. intros k Hk. apply Keys. rewrite <- H. now apply Keys.
      * apply NoDup_incl_length; [easy|]. intros k Hk. apply Keys. rewrite H. now apply Keys.
    + intros [k v] Hk. simpl. fold (sget (V:=V)). rewrite <- H.
      apply (In_dget str_eqb str_eqb_eq) in Hk; [|easy]. fold (sget (V:=V)) in Hk.
      unfold sget in *. rewrite Hk. now apply HV.
Qed.

Lemma built_ex_inv ws idx ix : built_vocab (VExplicit ws idx ix) ->
  exists gs mn mx index, (forall i, index = Some i -> dict_wf i) /\ ex_new gs mn mx index = Ok ix.
Proof.
  intros B. inversion B as [? ? H|? ? ? ? ? ? _ H|? ? ? ? ? ? _ H|ws' gs mn mx index ix' v' Hd Hi Hv]; subst.
  - unfold simple_vocab_new in H. apply bind_ok in H as (? & _ & H). easy.
  - unfold bucket_vocab_new in H. apply bind_ok in H as (? & _ & H). easy.
  - unfold fasttext_vocab_new in H. apply bind_ok in H as (? & _ & H). easy.
  - unfold explicit_vocab_new in Hv. apply bind_ok in Hv as (? & _ & Hv). injection Hv as _ _ ->.
    eauto 10.
Qed.

(* the bound of an explicit indexer is determined by its index *)
Lemma ex_bound_determined gs1 gs2 mn1 mn2 mx1 mx2 i1 i2 x y :
  (forall i, i1 = Some i -> dict_wf i) -> (forall i, i2 = Some i -> dict_wf i) ->
  ex_new gs1 mn1 mx1 i1 = Ok x -> ex_new gs2 mn2 mx2 i2 = Ok y ->
  (forall g, sget g (ex_index x) = sget g (ex_index y)) -> ex_bound x = ex_bound y.
Proof.
  intros D1 D2 H1 H2 E.
  assert (C : forall gs mn mx i z, (forall j, i = Some j -> dict_wf j) -> ex_new gs mn mx i = Ok z ->
    ex_bound z = Z.of_nat (length (dedup Z.eqb (map snd (ex_index z))))).
  { clear. intros gs mn mx i z D H. pose proof (ex_new_inv _ _ _ _ _ D H) as ((N1 & N2 & _) & _ & _ & _ & Ei).
    unfold ex_new in H. apply bind_ok in H as (? & _ & H). apply bind_ok in H as (? & _ & H).
    apply bind_ok in H as (? & _ & H). destruct i as [d|].
    - apply bind_ok in H as (? & _ & H). apply bind_ok in H as (? & _ & H).
      apply bind_ok in H as (m & _ & H). apply bind_ok in H as (u & Hu & H).
      apply py_assert_ok, Z.eqb_eq in Hu. injection H as <-. simpl. easy.
    - apply bind_ok in H as (u & Hu & H). apply py_assert_ok, Nat.eqb_eq in Hu. injection H as <-.
      simpl in *. rewrite Ei in *. f_equal.
      rewrite (dedup_id Z.eqb Zeqb_eq); [now rewrite map_length|].
      clear. unfold enumerate. generalize 0%Z. induction gs as [|g gs IH]; intros k; [constructor|].
      simpl. constructor; [|apply IH]. intros Hk.
      assert (X : forall j (l : list str) z, In z (map snd (enumerate_from j l)) -> (j <= z)%Z).
      { clear. intros j l. revert j. induction l as [|a l IH]; intros j z; simpl; [easy|].
        intros [<-|H]; [lia|]. apply IH in H. lia. }
      apply X in Hk. lia. }
  rewrite (C _ _ _ _ _ D1 H1), (C _ _ _ _ _ D2 H2).
  pose proof (ex_new_inv _ _ _ _ _ D1 H1) as ((_ & W1 & _) & _).
  pose proof (ex_new_inv _ _ _ _ _ D2 H2) as ((_ & W2 & _) & _).
  f_equal. apply dedup_length_same. intros z. rewrite !sget_values by easy.
  split; intros [g Hg]; exists g; congruence.
Qed.

Lemma vocab_eqb_spec v w : built_vocab v -> built_vocab w ->
  (vocab_eqb v w = true <-> vocab_words v = vocab_words w /\ same_indexer v w).
Proof.
  intros B1 B2. pose proof (built_vocab_index v B1) as [N1 I1].
  pose proof (built_vocab_index w B2) as [N2 I2].
  assert (Base : vocab_base_eqb v w = true <-> vocab_words v = vocab_words w).
  { unfold vocab_base_eqb. rewrite andb_true_iff, I1, I2.
    unfold dict_wf. rewrite (list_eqb_eq str_eqb str_eqb_eq). split; [easy|]. intros E. split; [easy|].
    rewrite E. apply dict_eqb_spec; try easy; [apply Zeqb_eq| |]; unfold dict_wf;
      now rewrite enumerate_fst. }
  destruct v as [ws idx|ws idx x|ws idx x|ws idx x], w as [ws' idx'|ws' idx' y|ws' idx' y|ws' idx' y];
    try (simpl; split; [discriminate|intros [_ []]]).
  - simpl vocab_eqb. rewrite Base. simpl. easy.
  - simpl vocab_eqb. rewrite andb_true_iff, Base. unfold ff_eqb.
    rewrite !andb_true_iff, !N.eqb_eq. simpl. destruct x, y; simpl. split.
    + intros [[[-> ->] ->] ->]. easy.
    + intros [-> [= -> -> ->]]. easy.
  - simpl vocab_eqb. rewrite andb_true_iff, Base. unfold ft_eqb.
    rewrite !andb_true_iff, !N.eqb_eq. simpl. destruct x, y; simpl. split.
    + intros [[[-> ->] ->] ->]. easy.
    + intros [-> [= -> -> ->]]. easy.
  - simpl vocab_eqb. rewrite andb_true_iff, Base. unfold ex_eqb.
    destruct (built_ex_inv _ _ _ B1) as (gs1 & mn1 & mx1 & i1 & D1 & H1).
    destruct (built_ex_inv _ _ _ B2) as (gs2 & mn2 & mx2 & i2 & D2 & H2).
    pose proof (ex_new_inv _ _ _ _ _ D1 H1) as ((_ & W1 & _) & _).
    pose proof (ex_new_inv _ _ _ _ _ D2 H2) as ((_ & W2 & _) & _).
    rewrite !andb_true_iff, !N.eqb_eq, Z.eqb_eq, (list_eqb_eq str_eqb str_eqb_eq).
    rewrite (dict_eqb_spec Z.eqb (ex_index x) (ex_index y) Zeqb_eq W1 W2). simpl. split.
    + intros [[[[[? ?] ?] ?] ?] ?]. easy.
    + intros (? & ? & ? & ? & E). repeat split; try easy.
      exact (ex_bound_determined _ _ _ _ _ _ _ _ _ _ D1 D2 H1 H2 E).
Qed.

Lemma same_indexer_refl v : same_indexer v v.
Proof. now destruct v. Qed.
Lemma same_indexer_sym v w : same_indexer v w -> same_indexer w v.
Proof. destruct v, w; simpl; easy. Qed.
Lemma same_indexer_trans u v w : same_indexer u v -> same_indexer v w -> same_indexer u w.
Proof.
  destruct u, v, w; simpl; try easy; try congruence.
  intros (A1 & A2 & A3 & H1) (B1 & B2 & B3 & H2). repeat split; congruence.
Qed.

Lemma vocab_eqb_equiv :
  (forall v, built_vocab v -> vocab_eqb v v = true)
  /\ (forall v w, built_vocab v -> built_vocab w -> vocab_eqb v w = true -> vocab_eqb w v = true)
  /\ (forall u v w, built_vocab u -> built_vocab v -> built_vocab w ->
        vocab_eqb u v = true -> vocab_eqb v w = true -> vocab_eqb u w = true).
Proof.
  split; [|split].
  - intros v B. apply vocab_eqb_spec; auto. split; [easy|apply same_indexer_refl].
  - intros v w Bv Bw H. apply vocab_eqb_spec in H as [E H]; auto. apply vocab_eqb_spec; auto.
    split; [easy|now apply same_indexer_sym].
  - intros u v w Bu Bv Bw H1 H2. apply vocab_eqb_spec in H1 as [E1 H1]; auto.
    apply vocab_eqb_spec in H2 as [E2 H2]; auto. apply vocab_eqb_spec; auto.
    split; [congruence|]. eapply same_indexer_trans; eauto.
Qed.

Lemma same_subwords v w item b wn : vocab_words v = vocab_words w -> same_indexer v w ->
  vocab_subword_indices v item b wn = vocab_subword_indices w item b wn.
Proof.
  intros E S. destruct v as [ws idx|ws idx x|ws idx x|ws idx x], w as [ws' idx'|ws' idx' y|ws' idx' y|ws' idx' y];
    simpl in *; try easy; subst; try easy.
  destruct S as (E1 & E2 & E3 & E4). f_equal. unfold ex_subword_indices. rewrite E1, E2.
  destruct (_ <? _); [easy|]. apply flat_map_ext. intros i. apply flat_map_ext. intros j.
  now rewrite E4.
Qed.

Lemma equal_vocabs_lookup v w item : built_vocab v -> built_vocab w -> vocab_eqb v w = true ->
  vocab_idx v item = vocab_idx w item /\ vocab_getitem v item = vocab_getitem w item
  /\ (forall b wn, vocab_subword_indices v item b wn = vocab_subword_indices w item b wn)
  /\ vocab_upper_bound v = vocab_upper_bound w.
Proof.
  intros Bv Bw H. apply vocab_eqb_spec in H as [E S]; auto.
  pose proof (same_subwords v w item true false E S) as X.
  pose proof (built_vocab_index v Bv) as [_ I1]. pose proof (built_vocab_index w Bw) as [_ I2].
  assert (U : vocab_upper_bound v = vocab_upper_bound w).
  { rewrite !upper_bound_rows by easy. unfold n_words. rewrite E. f_equal.
    destruct v as [ws idx|ws idx x|ws idx x|ws idx x], w as [ws' idx'|ws' idx' y|ws' idx' y|ws' idx' y];
      simpl in S |- *; try easy; try (now subst).
    destruct (built_ex_inv _ _ _ Bv) as (gs1 & mn1 & mx1 & i1 & D1 & H1).
    destruct (built_ex_inv _ _ _ Bw) as (gs2 & mn2 & mx2 & i2 & D2 & H2).
    destruct S as (_ & _ & _ & S). exact (ex_bound_determined _ _ _ _ _ _ _ _ _ _ D1 D2 H1 H2 S). }
  split; [|split; [|split]]; [| |intros; now apply same_subwords|easy];
  destruct v as [ws idx|ws idx x|ws idx x|ws idx x], w as [ws' idx'|ws' idx' y|ws' idx' y|ws' idx' y];
    simpl in S; try easy; unfold vocab_idx, vocab_getitem; simpl vocab_index in *; simpl vocab_words in *;
    rewrite ?X; rewrite I1, I2, E; reflexivity.
Qed.
