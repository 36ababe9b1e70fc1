(* Conversion of bucket vocabularies to explicit vocabularies. *)
From Coq Require Import Lia.
From Verif Require Import Py PyProofs Utf8 Utf8Proofs IO Arr Subword Vocab VocabProofs Storage Chunks
  Embeddings Spec SpecVocab VocabFacts NgramProofs HashProofs IndexerProofs WordProofs.

(* ---------------------------------------------------------------- *)
(* buckets                                                           *)

Lemma call_in_bucket v g b : is_bucket v -> consistent_indexer v ->
  (bucket_indexer_call v g = Ok b <-> in_bucket v g b).
Proof.
  intros K C. destruct v as [ws idx|ws idx ix|ws idx ix|ws idx ix]; simpl in *; try easy.
  - rewrite ff_call_spec. split; [intros [= <-]; easy|now intros ->].
  - rewrite ft_call_spec. destruct C as [_ C].
    destruct (utf8_encode g) as [bs|e]; [|split; [easy|now intros (? & ? & _)]].
    assert (P : (0 <= fasttext_hash bs mod Z.of_N (ft_buckets ix))%Z) by (apply Z.mod_pos_bound; lia).
    split.
    + intros H. apply Ok_inj in H. exists bs. split; [easy|]. rewrite <- H. now rewrite Z2N.id.
    + intros (bs' & E & H). injection E as <-. f_equal. rewrite <- H. apply N2Z.id.
Qed.

Lemma in_bucket_fun v g b b' : in_bucket v g b -> in_bucket v g b' -> b = b'.
Proof.
  destruct v; simpl; try easy; [congruence|]. intros (x & E & H) (x' & E' & H').
  rewrite E in E'. injection E' as <-. lia.
Qed.

(* ---------------------------------------------------------------- *)
(* n-grams of the words                                              *)

Definition word_grams (mn mx : N) (w : str) : list str :=
  map (subs (bracketed true w)) (positions (bracketed true w) mn mx).

Lemma word_grams_ok mn mx w : 0 < mn <= mx -> ngrams w mn mx true = Ok (word_grams mn mx w).
Proof. intros H. now rewrite ngrams_eq. Qed.

Lemma word_grams_In mn mx w g : 0 < mn <= mx ->
  (In g (word_grams mn mx w) <->
   exists pre post, in_brackets true w = pre ++ g ++ post /\ mn <= lenN g <= mx).
Proof.
  intros R. unfold word_grams. rewrite in_map_iff. change (in_brackets true w) with (bracketed true w).
  set (x := bracketed true w). split.
  - intros ([i j] & <- & H). unfold positions in H. rewrite grid_In in H by easy.
    destruct (substr_occurs x i j) as (pre & post & E & Hi & Hj); [lia|].
    exists pre, post. unfold subs. cbn [fst snd] in *. split; [easy|]. rewrite Hj. lia.
  - intros (pre & post & E & L). exists (lenN pre, lenN g). split.
    + symmetry. apply occurs_substr. exists pre, post. easy.
    + unfold positions. rewrite grid_In by easy.
      assert (lenN x = lenN pre + (lenN g + lenN post)) by (rewrite E, !lenN_app; easy). lia.
Qed.

Lemma word_grams_nonempty mn mx w : 0 < mn <= mx ->
  (word_grams mn mx w <> [] <-> mn <= lenN w + 2).
Proof.
  intros R. assert (L : lenN (in_brackets true w) = lenN w + 2).
  { unfold in_brackets. rewrite lenN_cons, lenN_app. change (lenN [62]) with 1. lia. }
  split.
  - destruct (word_grams mn mx w) as [|g gs] eqn:E; [easy|]. intros _.
    assert (I : In g (word_grams mn mx w)) by (rewrite E; now left).
    apply word_grams_In in I as (pre & post & E' & H); [|easy].
    rewrite E', !lenN_app in L. lia.
  - intros H E.
    assert (I : In (takeN mn (in_brackets true w)) (word_grams mn mx w)).
    { apply word_grams_In; [easy|]. exists [], (dropN mn (in_brackets true w)).
      simpl app. rewrite takeN_dropN. split; [easy|]. rewrite lenN_takeN, L. lia. }
    now rewrite E in I.
Qed.

(* ---------------------------------------------------------------- *)
(* the loop                                                          *)

Lemma foldM_app {A B} (f : A -> B -> result A) l m a :
  foldM f (l ++ m) a = (x <- foldM f l a ;; foldM f m x).
Proof.
  revert a; induction l as [|b l IH]; intros a; [easy|]. simpl.
  destruct (f a b); [|easy]. cbn [bind]. apply IH.
Qed.
Lemma foldM_nested {A B C} (s : A -> C -> result A) (f : B -> result (list C)) (g : B -> list C) l a :
  (forall b, In b l -> f b = Ok (g b)) ->
  foldM (fun st b => cs <- f b ;; foldM s cs st) l a = foldM s (concat (map g l)) a.
Proof.
  revert a; induction l as [|b l IH]; intros a H; [easy|]. cbn [foldM map concat].
  rewrite H by (now left). cbn [bind]. rewrite foldM_app. destruct (foldM s (g b) a); [|easy].
  cbn [bind]. apply IH. intros. apply H. now right.
Qed.

Definition all_grams (v : vocab) (mn mx : N) : list str :=
  concat (map (word_grams mn mx) (vocab_words v)).

Lemma all_grams_In v mn mx g : vocab_ngram_range v = Some (mn, mx) -> 0 < mn <= mx ->
  (In g (all_grams v mn mx) <-> word_ngram v g).
Proof.
  intros E R. unfold all_grams. rewrite in_concat. split.
  - intros (l & Hl & Hg). apply in_map_iff in Hl as (w & <- & Hw).
    apply word_grams_In in Hg as (pre & post & H); [|easy].
    exists mn, mx, w, pre, post. easy.
  - intros (mn' & mx' & w & pre & post & E' & Hw & H). rewrite E in E'. injection E' as <- <-.
    exists (word_grams mn mx w). split; [now apply in_map|]. apply word_grams_In; eauto.
Qed.

Record bte_inv (v : vocab) (P : list str) (ni : dict str Z) (ii : dict N Z) (nl : list str) : Prop := {
  bi_keys : map fst ni = nl;
  bi_nodup : NoDup nl;
  bi_set : forall g, In g nl <-> In g P;
  bi_bkeys : NoDup (map fst ii);
  bi_vals : map snd ii = zrange (length ii);
  bi_used : forall b i, dget N.eqb b ii = Some i -> exists g, In g nl /\ bucket_indexer_call v g = Ok b;
  bi_get : forall g, In g nl ->
    exists b i, bucket_indexer_call v g = Ok b /\ dget N.eqb b ii = Some i /\ sget g ni = Some i }.

Lemma zrange_S n : zrange (S n) = zrange n ++ [Z.of_nat n].
Proof. unfold zrange. rewrite seq_S, map_app. easy. Qed.

Lemma bte_step_inv v P ni ii nl g st' : bte_inv v P ni ii nl ->
  bte_step v (ni, ii, nl) g = Ok st' ->
  let '(ni', ii', nl') := st' in bte_inv v (P ++ [g]) ni' ii' nl'.
Proof.
  intros I H. unfold bte_step in H.
  destruct (dmem str_eqb g ni) eqn:M.
  - injection H as <-. apply (dmem_In str_eqb str_eqb_eq) in M. rewrite (bi_keys _ _ _ _ _ I) in M.
    destruct I. constructor; try easy. intros h. rewrite in_app_iff, bi_set0. simpl.
    split; [tauto|]. intros [|[<-|[]]]; [easy|]. now apply bi_set0.
  - apply bind_ok in H as (b & Hb & H). apply (dmem_false str_eqb str_eqb_eq) in M.
    rewrite (bi_keys _ _ _ _ _ I) in M.
    set (ii' := if dmem N.eqb b ii then ii else dset N.eqb b (Z.of_nat (length ii)) ii) in H.
    destruct (dget N.eqb b ii') as [i|] eqn:Gi; [|easy]. injection H as <-.
    destruct I as [K ND S BK BV BU BG].
    assert (X : (forall c j, dget N.eqb c ii = Some j -> dget N.eqb c ii' = Some j)
              /\ NoDup (map fst ii') /\ map snd ii' = zrange (length ii')
              /\ (forall c j, dget N.eqb c ii' = Some j -> dget N.eqb c ii = Some j \/ c = b)).
    { unfold ii'. destruct (dmem N.eqb b ii) eqn:Mb; [repeat split; auto|].
      apply (dmem_false N.eqb N.eqb_eq) in Mb. split; [|split; [|split]].
      - intros c j Hc. rewrite (dget_dset N.eqb N.eqb_eq). destruct (N.eqb_spec c b); [|easy].
        subst c. apply (dget_In N.eqb N.eqb_eq) in Hc. apply (in_map fst) in Hc. contradiction.
      - now apply (dset_NoDup N.eqb N.eqb_eq).
      - rewrite (dset_new N.eqb N.eqb_eq) by easy. rewrite map_app, app_length, BV. simpl.
        now rewrite Nat.add_1_r, zrange_S.
      - intros c j Hc. rewrite (dget_dset N.eqb N.eqb_eq) in Hc. destruct (N.eqb_spec c b); auto. }
    destruct X as (X1 & X2 & X3 & X4).
    assert (Kni : sset g i ni = ni ++ [(g, i)]).
    { apply (dset_new str_eqb str_eqb_eq). now rewrite K. }
    constructor; try easy.
    + rewrite Kni, map_app, K. easy.
    + now apply NoDup_snoc.
    + intros h. rewrite !in_app_iff, S. simpl. tauto.
    + intros c j Hc. apply X4 in Hc as [Hc| ->].
      * apply BU in Hc as (h & Hh & E). exists h. rewrite in_app_iff. auto.
      * exists g. rewrite in_app_iff. simpl. auto.
    + intros h Hh. apply in_app_iff in Hh as [Hh|[<-|[]]].
      * destruct (BG h Hh) as (c & j & E1 & E2 & E3). exists c, j. split; [easy|]. split; [auto|].
        rewrite sget_sset. destruct (str_eqb h g) eqn:E; [|easy]. apply str_eqb_eq in E. subst. contradiction.
      * exists b, i. split; [easy|]. split; [easy|]. rewrite sget_sset, str_eqb_refl. easy.
Qed.

Lemma bte_run_inv v P st : foldM (bte_step v) P ([], [], []) = Ok st ->
  let '(ni, ii, nl) := st in bte_inv v P ni ii nl.
Proof.
  revert st. induction P as [|g P IH] using rev_ind; intros st H.
  - injection H as <-. constructor; try easy; constructor.
  - rewrite foldM_app in H. apply bind_ok in H as ([[ni ii] nl] & H1 & H2).
    apply IH in H1. cbn [foldM] in H2. apply bind_ok in H2 as (st' & H2 & E). injection E as ->.
    eapply bte_step_inv; eauto.
Qed.

Lemma bte_step_ok v st g b : bucket_indexer_call v g = Ok b -> exists st', bte_step v st g = Ok st'.
Proof.
  intros H. destruct st as [[ni ii] nl]. unfold bte_step. destruct (dmem str_eqb g ni); [eauto|].
  rewrite H. cbn [bind].
  set (ii' := if dmem N.eqb b ii then ii else dset N.eqb b (Z.of_nat (length ii)) ii).
  destruct (dget N.eqb b ii') as [i|] eqn:E; [eauto|]. exfalso. unfold ii' in E.
  destruct (dmem N.eqb b ii) eqn:M.
  - unfold dmem in M. now rewrite E in M.
  - rewrite (dget_dset N.eqb N.eqb_eq), N.eqb_refl in E. easy.
Qed.
Lemma bte_run_ok v P st : (forall g, In g P -> exists b, bucket_indexer_call v g = Ok b) ->
  exists st', foldM (bte_step v) P st = Ok st'.
Proof.
  revert st; induction P as [|g P IH]; intros st H; [eexists; reflexivity|]. cbn [foldM].
  destruct (H g) as [b Hb]; [now left|]. destruct (bte_step_ok v st g b Hb) as [st' ->]. cbn [bind].
  apply IH. intros. apply H. now right.
Qed.
Lemma bte_run_err v P st e : foldM (bte_step v) P st = Err e ->
  exists g, In g P /\ bucket_indexer_call v g = Err e.
Proof.
  revert st; induction P as [|g P IH]; intros st H; [easy|]. cbn [foldM] in H.
  destruct (bte_step v st g) as [st'|e'] eqn:S.
  - cbn [bind] in H. apply IH in H as (h & Hh & E). exists h. split; [now right|easy].
  - injection H as ->. exists g. split; [now left|]. unfold bte_step in S. destruct st as [[ni ii] nl].
    destruct (dmem str_eqb g ni) eqn:M; [easy|].
    destruct (bucket_indexer_call v g) as [b|e'] eqn:B; [|now injection S as ->]. exfalso.
    destruct (bte_step_ok v (ni, ii, nl) g b B) as [st' E]. unfold bte_step in E.
    rewrite M, B in E. cbn [bind] in S, E. congruence.
Qed.

(* ---------------------------------------------------------------- *)
(* the indexer                                                       *)

Lemma NoDup_zrange n : NoDup (zrange n).
Proof.
  unfold zrange. apply FinFun.Injective_map_NoDup; [|apply seq_NoDup]. intros a b. lia.
Qed.

Lemma inv_values v P ni ii nl i : bte_inv v P ni ii nl ->
  (In i (map snd ni) <-> (0 <= i < Z.of_nat (length ii))%Z).
Proof.
  intros I. rewrite <- zrange_In, <- (bi_vals _ _ _ _ _ I).
  assert (Wn : dict_wf ni).
  { unfold dict_wf. rewrite (bi_keys _ _ _ _ _ I). apply (bi_nodup _ _ _ _ _ I). }
  rewrite sget_values by easy. split.
  - intros (g & Hg).
    assert (Ig : In g nl).
    { rewrite <- (bi_keys _ _ _ _ _ I). apply (dget_In str_eqb str_eqb_eq) in Hg. now apply (in_map fst) in Hg. }
    destruct (bi_get _ _ _ _ _ I g Ig) as (b & j & _ & E2 & E3). rewrite Hg in E3. injection E3 as <-.
    apply (dget_In N.eqb N.eqb_eq) in E2. now apply (in_map snd) in E2.
  - intros H. apply in_map_iff in H as ([b j] & E & H). simpl in E. subst j.
    apply (In_dget N.eqb N.eqb_eq) in H; [|apply (bi_bkeys _ _ _ _ _ I)].
    destruct (bi_used _ _ _ _ _ I b i H) as (g & Ig & Eb). exists g.
    destruct (bi_get _ _ _ _ _ I g Ig) as (b' & j & E1 & E2 & E3). rewrite Eb in E1. injection E1 as <-.
    rewrite H in E2. injection E2 as <-. easy.
Qed.

Lemma ex_new_of_inv v P ni ii nl mn mx : bte_inv v P ni ii nl -> ngram_range mn mx -> nl <> [] ->
  ex_new nl (Z.of_N mn) (Z.of_N mx) (Some ni) = Ok (EX nl ni (Z.of_nat (length ii)) mn mx).
Proof.
  intros I [R R'] NE. unfold ex_new. rewrite range_check by lia. cbn [bind].
  rewrite !to_uint32_of_N by lia. cbn [bind].
  pose proof (bi_nodup _ _ _ _ _ I) as ND. pose proof (bi_keys _ _ _ _ _ I) as K.
  rewrite (dedup_id str_eqb str_eqb_eq) by easy. rewrite Nat.eqb_refl. cbn [bind py_assert].
  assert (F : forallb (fun g => dmem str_eqb g ni) nl = true).
  { apply forallb_forall. intros g Hg. apply (dmem_In str_eqb str_eqb_eq). now rewrite K. }
  assert (L : length ni = length nl) by (rewrite <- K; now rewrite map_length).
  rewrite F, L, Nat.eqb_refl. cbn [bind py_assert andb].
  assert (Ne : length ii <> O).
  { destruct nl as [|g nl]; [easy|]. destruct (bi_get _ _ _ _ _ I g (or_introl eq_refl)) as (b & i & _ & E & _).
    intros Z. destruct ii; [|easy]. easy. }
  assert (Mx : py_max (map snd ni) = Ok (Z.of_nat (length ii) - 1)%Z).
  { apply py_max_spec. split.
    - apply (inv_values v P ni ii nl); [easy|]. lia.
    - intros x Hx. apply (inv_values v P ni ii nl) in Hx; [lia|easy]. }
  rewrite Mx. cbn [bind].
  assert (Dl : length (dedup Z.eqb (map snd ni)) = length ii).
  { rewrite (dedup_length_same (map snd ni) (zrange (length ii))).
    - rewrite (dedup_id Z.eqb Zeqb_eq) by apply NoDup_zrange. apply zrange_length.
    - intros x. rewrite zrange_In. now apply (inv_values v P ni ii nl). }
  rewrite Dl. replace (Z.of_nat (length ii) - 1 + 1)%Z with (Z.of_nat (length ii)) by lia.
  rewrite Z.eqb_refl. easy.
Qed.

Lemma ex_new_empty mn mx ni : ngram_range mn mx -> ni = [] ->
  ex_new [] (Z.of_N mn) (Z.of_N mx) (Some ni) = Err ValueError.
Proof.
  intros [R R'] ->. unfold ex_new. rewrite range_check by lia. cbn [bind].
  rewrite !to_uint32_of_N by lia. easy.
Qed.

(* ---------------------------------------------------------------- *)

Lemma bucket_range v : is_bucket v -> consistent_indexer v ->
  exists mn mx, vocab_ngram_range v = Some (mn, mx) /\ ngram_range mn mx.
Proof. destruct v; simpl; try easy; intros _ [R _]; eauto. Qed.

Lemma bucket_nonneg v : is_bucket v -> nonneg_index v.
Proof. now destruct v. Qed.

Lemma bte_unfold v mn mx : vocab_ngram_range v = Some (mn, mx) -> ngram_range mn mx ->
  bucket_to_explicit_vocab v
  = (st <- foldM (bte_step v) (all_grams v mn mx) ([], [], []) ;;
     let '(ni, _, nl) := st in
     ix <- ex_new nl (Z.of_N mn) (Z.of_N mx) (Some ni) ;; explicit_vocab_new (vocab_words v) ix).
Proof.
  intros E [R _]. unfold bucket_to_explicit_vocab. rewrite E.
  rewrite (foldM_nested (bte_step v) (fun w => vocab_subwords v w true) (word_grams mn mx)); [easy|].
  intros w _. unfold vocab_subwords. rewrite E. now apply word_grams_ok.
Qed.

(* C21 *)
Lemma to_explicit_spec v v' : built_vocab v -> is_bucket v -> bucket_to_explicit_vocab v = Ok v' ->
  exists ix, v' = VExplicit (vocab_words v) (vocab_index v) ix
  /\ vocab_ngram_range v = Some (ex_min_n ix, ex_max_n ix)
  /\ NoDup (ex_ngrams ix)
  /\ (forall g, In g (ex_ngrams ix) <-> word_ngram v g)
  /\ (forall g, In g (ex_ngrams ix) -> exists b i, in_bucket v g b /\ sget g (ex_index ix) = Some i)
  /\ (forall g h b c i j, sget g (ex_index ix) = Some i -> sget h (ex_index ix) = Some j ->
        in_bucket v g b -> in_bucket v h c -> (i = j <-> b = c))
  /\ (forall i, (0 <= i < vocab_upper_bound v' - Z.of_N (vocab_len v'))%Z
                <-> exists g, In g (ex_ngrams ix) /\ sget g (ex_index ix) = Some i)
  /\ ex_new (ex_ngrams ix) (Z.of_N (ex_min_n ix)) (Z.of_N (ex_max_n ix)) (Some (ex_index ix)) = Ok ix
  /\ dict_wf (ex_index ix).
Proof.
  intros B K H. pose proof (built_indexer v B (bucket_nonneg v K)) as C.
  destruct (bucket_range v K C) as (mn & mx & E & R).
  rewrite (bte_unfold v mn mx E R) in H. apply bind_ok in H as ([[ni ii] nl] & H1 & H).
  apply bte_run_inv in H1 as I. apply bind_ok in H as (ix & Hx & H).
  pose proof (built_vocab_index v B) as [N0 IX].
  assert (Ev : v' = VExplicit (vocab_words v) (vocab_index v) ix).
  { unfold explicit_vocab_new in H. rewrite (validate_NoDup _ N0) in H. cbn [bind] in H.
    injection H as <-. now rewrite IX. }
  destruct nl as [|g0 nl'] eqn:Enl.
  { rewrite ex_new_empty in Hx; [easy|easy|]. pose proof (bi_keys _ _ _ _ _ I) as Kk. now destruct ni. }
  rewrite <- Enl in *. assert (NE : nl <> []) by (rewrite Enl; easy).
  pose proof (ex_new_of_inv v _ ni ii nl mn mx I R NE) as Hx'. rewrite Hx in Hx'. injection Hx' as Ex.
  assert (Wn : dict_wf ni).
  { unfold dict_wf. rewrite (bi_keys _ _ _ _ _ I). apply (bi_nodup _ _ _ _ _ I). }
  assert (Kg : forall g i, sget g ni = Some i -> In g nl).
  { intros g i Hg. rewrite <- (bi_keys _ _ _ _ _ I). apply (dget_In str_eqb str_eqb_eq) in Hg.
    now apply (in_map fst) in Hg. }
  exists ix. split; [easy|]. subst ix. cbn [ex_ngrams ex_index ex_min_n ex_max_n].
  split; [easy|]. split; [apply (bi_nodup _ _ _ _ _ I)|]. split.
  { intros g. rewrite (bi_set _ _ _ _ _ I). apply all_grams_In; [easy|]. apply R. }
  split.
  { intros g Hg. destruct (bi_get _ _ _ _ _ I g Hg) as (b & i & E1 & E2 & E3).
    exists b, i. split; [|easy]. now apply call_in_bucket. }
  split.
  { intros g h b c i j Hg Hh Ib Ic.
    destruct (bi_get _ _ _ _ _ I g (Kg _ _ Hg)) as (b' & i' & E1 & E2 & E3).
    destruct (bi_get _ _ _ _ _ I h (Kg _ _ Hh)) as (c' & j' & F1 & F2 & F3).
    rewrite Hg in E3. injection E3 as <-. rewrite Hh in F3. injection F3 as <-.
    apply call_in_bucket in E1, F1; try easy.
    rewrite (in_bucket_fun v g _ _ Ib E1), (in_bucket_fun v h _ _ Ic F1). split.
    - intros <-. apply (dget_In N.eqb N.eqb_eq) in E2, F2.
      pose proof (bi_vals _ _ _ _ _ I) as V. apply In_nth_error in E2 as [p Hp]. apply In_nth_error in F2 as [q Hq].
      assert (p = q).
      { pose proof (map_nth_error snd _ _ Hp) as Vp. pose proof (map_nth_error snd _ _ Hq) as Vq.
        rewrite V in Vp, Vq. pose proof (NoDup_zrange (length ii)) as ND.
        rewrite NoDup_nth_error in ND. apply ND; [|now rewrite Vp].
        apply nth_error_Some. rewrite Vp. easy. }
      subst q. rewrite Hp in Hq. now injection Hq.
    - intros <-. rewrite E2 in F2. now injection F2. }
  split.
  { intros i. unfold vocab_upper_bound. rewrite Ev. cbn [ex_bound].
    set (n := vocab_len _). replace (Z.of_N n + Z.of_nat (length ii) - Z.of_N n)%Z with (Z.of_nat (length ii)) by lia.
    rewrite <- (inv_values v _ ni ii nl i I). rewrite sget_values by easy. split.
    - intros (g & Hg). exists g. eauto.
    - intros (g & _ & Hg). eauto. }
  split; [|easy]. now rewrite Hx.
Qed.

(* the result is a vocabulary accepted by the constructor *)
Lemma to_explicit_built v v' : built_vocab v -> is_bucket v -> bucket_to_explicit_vocab v = Ok v' ->
  built_vocab v' /\ nonneg_index v'.
Proof.
  intros B K H. destruct (to_explicit_spec v v' B K H) as (ix & Ev & _ & _ & _ & _ & _ & V & Hx & W).
  pose proof (built_vocab_index v B) as [N0 IX]. split.
  - eapply BuiltExplicit; [|exact Hx|].
    + intros i [= <-]. exact W.
    + unfold explicit_vocab_new. rewrite (validate_NoDup _ N0). cbn [bind]. rewrite Ev. now rewrite IX.
  - rewrite Ev. simpl. apply Forall_forall. intros [g i] Hi. simpl.
    apply (In_dget str_eqb str_eqb_eq) in Hi; [|easy].
    destruct (ex_new_inv _ _ _ _ _ (fun j (E : Some (ex_index ix) = Some j) => match E in _ = s return match s with Some d => dict_wf d | None => True end with eq_refl => W end) Hx) as ((_ & _ & Kk & _) & _).
    assert (X : (0 <= i < vocab_upper_bound v' - Z.of_N (vocab_len v'))%Z); [|lia].
    apply V. exists g. split; [|exact Hi]. apply Kk.
    apply (dget_In str_eqb str_eqb_eq) in Hi. now apply (in_map fst) in Hi.
Qed.

(* ---------------------------------------------------------------- *)
(* C22                                                               *)

Lemma encode_parts w bs : utf8_encode w = Ok bs ->
  forall pre g post, w = pre ++ g ++ post -> exists bg, utf8_encode g = Ok bg.
Proof.
  intros H pre g post ->. apply encode_split3 in H as (x & y & z & _ & H & _). eauto.
Qed.
Lemma encode_chars w : (forall c, In c w -> exists b, utf8_encode [c] = Ok b) -> exists bs, utf8_encode w = Ok bs.
Proof.
  induction w as [|c w IH]; intros H; [now exists []|].
  destruct (H c) as [b Hb]; [now left|]. destruct IH as [bs Hbs]; [intros; apply H; now right|].
  exists (b ++ bs). change (c :: w) with ([c] ++ w). now rewrite utf8_encode_app, Hb, Hbs.
Qed.
Lemma encode_brackets w : (exists bs, utf8_encode (in_brackets true w) = Ok bs) <-> exists bs, utf8_encode w = Ok bs.
Proof.
  split.
  - intros [bs H]. apply (encode_parts _ _ H [60] w [62]). easy.
  - intros [bs H]. unfold in_brackets. change (60 :: w ++ [62]) with ([60] ++ w ++ [62]).
    rewrite !utf8_encode_app, H. simpl. eauto.
Qed.

(* every character of a word that is long enough lies in an n-gram *)
Lemma char_in_gram (x : str) mn c : 0 < mn <= lenN x -> In c x ->
  exists pre g post, x = pre ++ g ++ post /\ lenN g = mn /\ In c g.
Proof.
  intros L Hc. apply in_split in Hc as (l & r & ->).
  destruct (N.le_gt_cases mn (lenN (c :: r))) as [H|H].
  - exists l, (takeN mn (c :: r)), (dropN mn (c :: r)). split; [now rewrite takeN_dropN|].
    split; [rewrite lenN_takeN; lia|]. rewrite takeN_firstn.
    destruct (N.to_nat mn) eqn:E; [lia|]. simpl. now left.
  - rewrite lenN_app in L. set (k := lenN l + lenN (c :: r) - mn).
    exists (takeN k l), (dropN k l ++ c :: r), []. rewrite app_nil_r, app_assoc, takeN_dropN.
    split; [easy|]. split; [rewrite lenN_app, lenN_dropN; unfold k; lia|].
    apply in_app_iff. right. now left.
Qed.

Lemma to_explicit_ok_iff v : built_vocab v -> is_bucket v ->
  ((exists v', bucket_to_explicit_vocab v = Ok v') <-> explicit_possible v).
Proof.
  intros B K. pose proof (built_indexer v B (bucket_nonneg v K)) as C.
  destruct (bucket_range v K C) as (mn & mx & E & R).
  pose proof (built_vocab_index v B) as [N0 IX]. pose proof R as [R1 _].
  assert (LE : forall w, long_enough v w <-> mn <= lenN w + 2).
  { intros w. unfold long_enough. rewrite E. split; [intros (? & ? & [= <- <-] & H); easy|eauto]. }
  rewrite (bte_unfold v mn mx E R). split.
  - intros [v' H]. apply bind_ok in H as ([[ni ii] nl] & H1 & H). apply bte_run_inv in H1 as I.
    apply bind_ok in H as (ix & Hx & H). split.
    + destruct nl as [|g nl].
      { rewrite ex_new_empty in Hx; [easy|easy|]. pose proof (bi_keys _ _ _ _ _ I). now destruct ni. }
      assert (Ig : In g (all_grams v mn mx)) by (apply (bi_set _ _ _ _ _ I); now left).
      unfold all_grams in Ig. apply in_concat in Ig as (l & Hl & Hg). apply in_map_iff in Hl as (w & <- & Hw).
      exists w. split; [easy|]. apply LE. apply (word_grams_nonempty mn mx); [easy|]. intros Z. now rewrite Z in Hg.
    + destruct v as [| |ws idx x|]; try easy. intros w Hw Hl. apply LE in Hl.
      apply encode_brackets, encode_chars. intros c Hc.
      assert (Lb : lenN (in_brackets true w) = lenN w + 2).
      { unfold in_brackets. rewrite lenN_cons, lenN_app. change (lenN [62]) with 1. lia. }
      destruct (char_in_gram (in_brackets true w) mn c) as (pre & g & post & Eg & Lg & Icg); [lia|easy|].
      assert (Ig : In g (all_grams (VFastText ws idx x) mn mx)).
      { unfold all_grams. apply in_concat. exists (word_grams mn mx w). split; [now apply in_map|].
        apply word_grams_In; [easy|]. exists pre, post. split; [easy|lia]. }
      apply (bi_set _ _ _ _ _ I) in Ig. destruct (bi_get _ _ _ _ _ I g Ig) as (b & i & Hb & _).
      apply call_in_bucket in Hb; [|easy|easy]. destruct Hb as (bs & Hbs & _).
      apply in_split in Icg as (g1 & g2 & ->). apply (encode_parts _ _ Hbs g1 [c] g2). easy.
  - intros [(w & Hw & Hl) Henc].
    destruct (bte_run_ok v (all_grams v mn mx) ([], [], [])) as [[[ni ii] nl] Hst].
    { intros g Hg. destruct v as [|ws idx x|ws idx x|]; try easy; [simpl; eauto|].
      unfold all_grams in Hg. apply in_concat in Hg as (l & Hl' & Hg). apply in_map_iff in Hl' as (w' & <- & Hw').
      assert (Lw : long_enough (VFastText ws idx x) w').
      { apply LE, (word_grams_nonempty mn mx); [easy|]. intros Z. now rewrite Z in Hg. }
      apply (Henc w' Hw') in Lw. apply encode_brackets in Lw as [bs Hbs].
      apply word_grams_In in Hg as (pre & post & Eg & _); [|easy].
      destruct (encode_parts _ _ Hbs pre g post Eg) as [bg Hbg].
      simpl. unfold ft_call. rewrite Hbg. cbn [bind]. eauto. }
    rewrite Hst. cbn [bind]. apply bte_run_inv in Hst.
    assert (NE : nl <> []).
    { intros Z. apply LE in Hl. apply (word_grams_nonempty mn mx) in Hl; [|easy].
      destruct (word_grams mn mx w) as [|g gs] eqn:Eg; [easy|].
      assert (Ig : In g (all_grams v mn mx)).
      { unfold all_grams. apply in_concat. exists (word_grams mn mx w). split; [now apply in_map|].
        rewrite Eg. now left. }
      apply (bi_set _ _ _ _ _ Hst) in Ig. now rewrite Z in Ig. }
    rewrite (ex_new_of_inv v _ ni ii nl mn mx Hst R NE). cbn [bind].
    unfold explicit_vocab_new. rewrite (validate_NoDup _ N0). cbn [bind]. eauto.
Qed.

(* otherwise it raises ValueError or UnicodeEncodeError *)
Lemma to_explicit_err v e : built_vocab v -> is_bucket v -> bucket_to_explicit_vocab v = Err e ->
  e = ValueError \/ e = UnicodeEncodeError.
Proof.
  intros B K H. pose proof (built_indexer v B (bucket_nonneg v K)) as C.
  destruct (bucket_range v K C) as (mn & mx & E & R).
  pose proof (built_vocab_index v B) as [N0 IX].
  rewrite (bte_unfold v mn mx E R) in H.
  destruct (foldM (bte_step v) (all_grams v mn mx) ([], [], [])) as [[[ni ii] nl]|e'] eqn:F.
  - cbn [bind] in H. apply bte_run_inv in F. destruct nl as [|g nl].
    + rewrite ex_new_empty in H; [|easy|]. 
      * injection H as <-. now left.
      * pose proof (bi_keys _ _ _ _ _ F). now destruct ni.
    + rewrite (ex_new_of_inv v _ ni ii (g :: nl) mn mx F R ltac:(easy)) in H. cbn [bind] in H.
      unfold explicit_vocab_new in H. rewrite (validate_NoDup _ N0) in H. easy.
  - injection H as <-. right. apply bte_run_err in F as (g & _ & F). destruct v; try easy. simpl in F.
    unfold ft_call in F. destruct (utf8_encode g) eqn:U; [easy|]. cbn [bind] in F. injection F as <-.
    eapply utf8_encode_err; eauto.
Qed.
