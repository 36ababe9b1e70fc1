(* Whatever the readers of compat/ return is made of well-formed parts that fit together. *)
From Coq Require Import Lia.
From Verif Require Import Py PyProofs Utf8 IO IOProofs ReaderProofs Arr
  Subword Vocab VocabProofs Storage StorageInv Chunks Embeddings Spec SpecVocab SpecLookup VocabFacts
  ArrProofs StorageGet ExplicitEmb WordProofs LookupProofs PyText SpecCompat PyTextProofs Compat
  CompatProofs.
Local Open Scope N_scope.
Local Open Scope list_scope.

Lemma rrepeat_Forall {A} (P : A -> Prop) (m : reader A) : (forall d p a q, m d p = Ok (a, q) -> P a) ->
  forall n d p l q, rrepeat n m d p = Ok (l, q) -> Forall P l.
Proof.
  intros H. induction n as [|n IH]; intros d p l q E; simpl in E.
  - unfold rret in E. injection E as <- _. constructor.
  - apply rbind_ok in E as (a & p1 & E1 & E). apply rbind_ok in E as (l' & p2 & E2 & E).
    unfold rret in E. injection E as <- _. constructor; eauto.
Qed.
Lemma mapM_Forall {A B} (f : A -> result B) (P : B -> Prop) : (forall a b, f a = Ok b -> P b) ->
  forall l bs, mapM f l = Ok bs -> Forall P bs.
Proof.
  intros H l bs E. apply mapM_Forall2 in E. induction E; constructor; eauto.
Qed.
Lemma run_reader_ok {A} (m : reader A) d a : run_reader m d = Ok a -> exists q, m d 0 = Ok (a, q).
Proof. unfold run_reader. destruct (m d 0) as [[x q]|]; [|easy]. intros [= ->]. eauto. Qed.

Section Built.
  Context {F : Type} (o : fops F) (host : endian) (c : codec F).

  Lemma new_built (s : storage F) v n m e : storage_wf s -> built_vocab v ->
    (forall x, n = Some x -> norms_wf x) -> embeddings_new s v n m = Ok e ->
    built_embeddings e /\ em_storage e = s /\ em_vocab e = v /\ em_norms e = n /\ em_metadata e = m.
  Proof.
    intros W B Nn E. pose proof E as E0. unfold embeddings_new in E. apply bind_ok in E as (u & _ & E).
    apply bind_ok in E as (u2 & _ & E). injection E as <-. cbn. easy.
  Qed.

  Lemma np_assign_len cols (a row : list F) : np_assign cols a = Ok row -> lenN row = cols.
  Proof.
    unfold np_assign. destruct (N.eqb_spec (lenN a) cols); [now intros [= <-]|].
    destruct a as [|x [|y a]]; try easy. intros [= <-]. unfold lenN. rewrite repeat_length. lia.
  Qed.

  Lemma normalize_wf cols (rows : list (list F)) : rows_wf cols rows ->
    rows_wf cols (fst (normalize_matrix o rows)).
  Proof.
    intros H. rewrite normalize_rows. cbn [fst]. unfold rows_wf in *. apply Forall_map.
    eapply Forall_impl; [|exact H]. intros r L. cbv beta in *. now rewrite lenN_map.
  Qed.

  (* the last steps of the word2vec and text readers *)
  Lemma simple_built words cols rows e : rows_wf cols rows ->
    (let (matrix, norms) := normalize_matrix o rows in
     v <- simple_vocab_new words ;;
     embeddings_new (SNd (NdA BoNative cols matrix)) v (Some (Norms BoNative norms)) None) = Ok e ->
    built_embeddings e /\ not_explicit (em_vocab e).
  Proof.
    intros W E. pose proof (normalize_wf cols rows W) as W'.
    destruct (normalize_matrix o rows) as [matrix norms]. cbn [fst] in W'.
    apply bind_ok in E as (v & Hv & E).
    apply new_built in E as (B & _ & -> & _).
    - split; [easy|]. unfold simple_vocab_new in Hv. apply bind_ok in Hv as (i & _ & Hv). now injection Hv as <-.
    - split; easy.
    - now apply BuiltSimple with words.
    - intros x [= <-]. easy.
  Qed.

  Lemma word2vec_built lossy d e : run_reader (load_word2vec o host c lossy) d = Ok e ->
    built_embeddings e /\ not_explicit (em_vocab e).
  Proof.
    intros E. apply run_reader_ok in E as [q E]. unfold load_word2vec in E.
    apply rbind_ok in E as (shape & p1 & _ & E). apply rbind_ok in E as ([rows cols] & p2 & _ & E).
    apply rbind_ok in E as (items & p3 & HI & E).
    assert (W : rows_wf cols (map snd items)).
    { unfold rows_wf. apply Forall_map. eapply rrepeat_Forall; [|exact HI].
      intros d' p' [w row] q' R. unfold w2v_read_row in R. apply rbind_ok in R as (w' & r1 & _ & R).
      apply rbind_ok in R as (a & r2 & _ & R). apply rbind_ok in R as (row' & r3 & R' & R).
      unfold rret in R. injection R as _ <- _. apply rlift_ok in R' as [R' _]. now apply np_assign_len in R'. }
    destruct (normalize_matrix o (map snd items)) as [matrix norms] eqn:EN.
    apply rlift_ok in E as [E _]. eapply simple_built; [exact W|]. rewrite EN. exact E.
  Qed.

  Lemma text_lines_built parse rows cols lines e : load_text_lines o parse rows cols lines = Ok e ->
    built_embeddings e /\ not_explicit (em_vocab e).
  Proof.
    intros E. unfold load_text_lines in E. apply bind_ok in E as ([nr nc] & _ & E).
    apply bind_ok in E as (items & HI & E). cbv zeta in E.
    eapply simple_built; [|exact E]. apply Forall_app. split.
    - apply Forall_map. eapply mapM_Forall; [|exact HI]. intros line [w row] R. unfold text_row in R.
      destruct (re_split_ws _); [easy|]. apply bind_ok in R as (xs & _ & R). apply bind_ok in R as (r & R' & R).
      apply Ok_inj in R. injection R as _ <-. now apply np_assign_len in R'.
    - apply Forall_forall. intros r Hr. apply repeat_spec in Hr as ->. unfold vzero, lenN.
      rewrite repeat_length. lia.
  Qed.
  Lemma text_built parse lossy d e : load_text o parse lossy d = Ok e ->
    built_embeddings e /\ not_explicit (em_vocab e).
  Proof.
    intros E. unfold load_text in E. apply bind_ok in E as (lines & _ & E). destruct lines; [easy|].
    now apply text_lines_built in E.
  Qed.
  Lemma text_dims_built parse lossy d e : load_text_dims o parse lossy d = Ok e ->
    built_embeddings e /\ not_explicit (em_vocab e).
  Proof.
    intros E. unfold load_text_dims in E. apply bind_ok in E as (lines & _ & E). destruct lines; [easy|].
    destruct (py_split _) as [|r [|k [|]]]; try easy. apply bind_ok in E as (r' & _ & E).
    apply bind_ok in E as (k' & _ & E). now apply text_lines_built in E.
  Qed.

  (* fastText *)
  Lemma py_setrow_inv (rows rows' : list (list F)) i row : py_setrow rows i row = Ok rows' ->
    exists k, rows' = set_nth k row rows.
  Proof.
    unfold py_setrow. destruct (in_range _ _ _); [|easy]. intros [= <-]. eauto.
  Qed.
  Lemma py_index_In {A} (l : list A) i a : py_index l i = Ok a -> In a l.
  Proof.
    unfold py_index. destruct (in_range _ _ _); [|easy].
    destruct (nth_error l _) eqn:E; [|easy]. intros [= <-]. now apply nth_error_In in E.
  Qed.
  Lemma precompute_wf v cols (m m' : list (list F)) : rows_wf cols m ->
    precompute_word_vecs o v cols m = Ok m' -> rows_wf cols m' /\ length m' = length m.
  Proof.
    intros W E. unfold precompute_word_vecs in E. revert m W E.
    induction (enumerate (vocab_words v)) as [|[w i] l IH]; intros m W E; cbn [foldM] in E.
    - apply Ok_inj in E. now subst.
    - apply bind_ok in E as (m1 & E1 & E). apply bind_ok in E1 as (sub & _ & E1). cbv zeta in E1.
      apply bind_ok in E1 as (rows & HR & E1). apply py_setrow_inv in E1 as [k ->].
      apply IH in E as [E L].
      + rewrite set_nth_length in L. easy.
      + apply set_nth_Forall; [|exact W].
        assert (R : Forall (fun r => length r = N.to_nat cols) rows).
        { eapply mapM_Forall; [|exact HR]. intros j r Hj. apply py_index_In in Hj.
          apply (proj1 (Forall_forall _ _) W) in Hj. unfold lenN in Hj. lia. }
        apply (vsum_is_sum o) in R as [R _]. unfold lenN, vdiv. rewrite map_length, R. lia.
  Qed.

  Lemma fasttext_built lossy d e : run_reader (load_fasttext o host c lossy) d = Ok e ->
    built_embeddings e /\ not_explicit (em_vocab e).
  Proof.
    intros E. apply run_reader_ok in E as [q E]. unfold load_fasttext in E.
    apply rbind_ok in E as (u & p1 & _ & E). apply rbind_ok in E as (cfg & p2 & _ & E).
    apply rbind_ok in E as (v & p3 & HV & E). apply rbind_ok in E as (a & p4 & HA & E).
    cbv zeta in E.
    destruct (normalize_matrix o _) as [words norms] eqn:EN. apply rlift_ok in E as [E _].
    assert (BV : built_vocab v /\ not_explicit v).
    { unfold read_ft_vocab in HV. apply rbind_ok in HV as (h & r1 & _ & HV).
      destruct h as [|h1 [|h2 [|h3 [|]]]]; try easy. destruct (negb _); [easy|].
      apply rbind_ok in HV as (x & r2 & _ & HV). apply rbind_ok in HV as (y & r3 & _ & HV).
      destruct (_ <=? _)%Z; [easy|]. apply rbind_ok in HV as (ws & r4 & _ & HV).
      apply rlift_ok in HV as [HV _]. apply bind_ok in HV as (ix & HI & HV). split.
      - now apply BuiltFastText with ws (fc_buckets cfg) (fc_min_n cfg) (fc_max_n cfg) ix.
      - unfold fasttext_vocab_new in HV. apply bind_ok in HV as (i & _ & HV). now injection HV as <-. }
    assert (WA : nd_bo a = BoNative /\ rows_wf (nd_cols a) (nd_rows a)).
    { unfold read_ft_storage in HA. apply rbind_ok in HA as (qz & r1 & _ & HA). destruct (negb _); [easy|].
      apply rbind_ok in HA as ([rows cols] & r2 & _ & HA). apply rbind_ok in HA as (arr & r3 & _ & HA).
      apply rlift_ok in HA as [HA _]. apply bind_ok in HA as ([[nr nc] m] & HR & HA).
      apply bind_ok in HA as (m' & HP & HA). apply Ok_inj in HA. subst a. cbn. split; [easy|].
      eapply precompute_wf; [|exact HP]. unfold reshape_any in HR. cbv zeta in HR.
      apply bind_ok in HR as (rows' & _ & HR). apply bind_ok in HR as (cols' & _ & HR).
      apply bind_ok in HR as (m2 & HR & HE). apply Ok_inj in HE. injection HE as _ <- <-.
      apply reshape2_ok in HR as [L ->]. now apply split_rows_wf in L. }
    destruct WA as [WB WR]. apply new_built in E as (B & _ & -> & _).
    - easy.
    - split; cbn; [now rewrite WB|]. apply Forall_app. split.
      + pose proof (normalize_wf (nd_cols a) (firstn (N.to_nat (vocab_len v)) (nd_rows a))) as H.
        rewrite EN in H. apply H. apply Forall_forall. intros r Hr. apply (proj1 (Forall_forall _ _) WR).
        rewrite <- (firstn_skipn (N.to_nat (vocab_len v))). apply in_or_app. now left.
      + apply Forall_forall. intros r Hr. apply (proj1 (Forall_forall _ _) WR).
        rewrite <- (firstn_skipn (N.to_nat (vocab_len v))). apply in_or_app. now right.
    - apply BV.
    - intros x [= <-]. easy.
  Qed.

  Lemma compat_consistent parse lossy d e :
    run_reader (load_word2vec o host c lossy) d = Ok e \/ load_text o parse lossy d = Ok e
    \/ load_text_dims o parse lossy d = Ok e \/ run_reader (load_fasttext o host c lossy) d = Ok e ->
    consistent e.
  Proof.
    intros H. assert (X : built_embeddings e /\ not_explicit (em_vocab e)).
    { destruct H as [H|[H|[H|H]]]; [now apply word2vec_built in H|now apply text_built in H
        |now apply text_dims_built in H|now apply fasttext_built in H]. }
    destruct X as [B X]. apply built_consistent; [easy|]. unfold nonneg_index. now destruct (em_vocab e).
  Qed.
End Built.
