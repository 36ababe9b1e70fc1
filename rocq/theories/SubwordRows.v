(* The subwords of words and their rows. *)
From Coq Require Import Lia.
From Verif Require Import Py PyProofs Utf8 Utf8Proofs SpecUtf8 Utf8More IO Arr Subword Vocab VocabProofs Storage
  Chunks Embeddings Spec SpecVocab SpecSubwords VocabFacts NgramProofs HashProofs IndexerProofs WordProofs SpecLookup StorageGet LookupProofs.

Lemma built_range v mn mx : built_vocab v -> gram_range v mn mx -> ngram_range mn mx.
Proof.
  intros B R. destruct B as [ws v Hv|ws e mn' mx' ix v Hi Hv|ws b mn' mx' ix v Hi Hv|ws gs mn' mx' index ix v Hd Hi Hv].
  - unfold simple_vocab_new in Hv. apply bind_ok in Hv as (idx & _ & E). now injection E as <-.
  - unfold bucket_vocab_new in Hv. apply bind_ok in Hv as (idx & _ & E). injection E as <-.
    apply ff_new_ok in Hi. destruct R as [-> ->]. unfold ngram_range. lia.
  - unfold fasttext_vocab_new in Hv. apply bind_ok in Hv as (idx & _ & E). injection E as <-.
    apply ft_new_ok in Hi. destruct R as [-> ->]. unfold ngram_range. lia.
  - unfold explicit_vocab_new in Hv. apply bind_ok in Hv as (idx & _ & E). injection E as <-.
    destruct R as [-> ->]. eapply ex_range; eauto.
Qed.
Lemma built_hash v : built_vocab v ->
  match v with VBucket _ _ x => 0 < ff_exp x < 64 | VFastText _ _ x => 0 < ft_buckets x < 2 ^ 32 | _ => True end.
Proof.
  intros B. destruct v; try exact I; pose proof (built_indexer _ B I) as C; simpl in C; easy.
Qed.
Lemma built_ex_wf ws idx x : built_vocab (VExplicit ws idx x) -> NoDup (map fst (ex_index x)).
Proof.
  intros B. destruct (built_ex_inv _ _ _ B) as (gs & mn & mx & i & W & E).
  destruct (ex_new_inv _ _ _ _ _ W E) as ((_ & H & _) & _). exact H.
Qed.

Lemma range_model v mn mx : gram_range v mn mx <-> vocab_ngram_range v = Some (mn, mx).
Proof.
  destruct v; simpl; [easy|..]; (split; [intros [-> ->]; easy|intros H; injection H as <- <-; easy]).
Qed.

Lemma subwords_iff v w b gs : built_vocab v ->
  (vocab_subwords v w b = Ok gs
   <-> exists mn mx, gram_range v mn mx /\ is_ngrams (in_brackets b w) mn mx gs).
Proof.
  intros B. unfold vocab_subwords. split.
  - intros H. destruct (vocab_ngram_range v) as [[mn mx]|] eqn:E; [|easy].
    exists mn, mx. split; [now apply range_model|]. now apply ngrams_spec in H.
  - intros (mn & mx & R & H). rewrite (proj1 (range_model _ _ _) R). apply ngrams_spec.
    split; [apply (built_range v mn mx B R)|easy].
Qed.

Lemma gram_row_unique v g i j : built_vocab v -> gram_row v g i -> gram_row v g j -> i = j.
Proof.
  intros B. destruct v as [ws idx|ws idx x|ws idx x|ws idx x]; simpl; try easy.
  - intros -> ->. easy.
  - intros (bs & U & ->) (bs' & U' & ->). apply encode_iff in U, U'. rewrite U in U'. now injection U' as ->.
  - intros (k & H & ->) (k' & H' & ->).
    pose proof (built_ex_wf _ _ _ B) as W.
    apply (In_dget str_eqb str_eqb_eq) in H; [|easy]. apply (In_dget str_eqb str_eqb_eq) in H'; [|easy].
    rewrite H in H'. now injection H' as ->.
Qed.
Lemma gram_rows_unique v gs l l' : built_vocab v -> gram_rows v gs l -> gram_rows v gs l' -> l = l'.
Proof.
  intros B H. revert l'. induction H as [|g i gs l R _ IH|g gs l R _ IH]; intros l' H'.
  - now inversion H'.
  - inversion H' as [|g' i' gs' l1 R' H1|g' gs' l1 R' H1]; subst.
    + rewrite (gram_row_unique v g i i' B R R'). now rewrite (IH _ H1).
    + exfalso. now apply (R' i).
  - inversion H' as [|g' i' gs' l1 R' H1|g' gs' l1 R' H1]; subst.
    + exfalso. now apply (R i').
    + now apply IH.
Qed.
Lemma word_rows_unique v b w l l' : built_vocab v -> word_rows v b w l -> word_rows v b w l' -> l = l'.
Proof.
  intros B (mn & mx & gs & R & G & H) (mn' & mx' & gs' & R' & G' & H').
  apply range_model in R, R'. rewrite R in R'. injection R' as <- <-.
  rewrite (is_ngrams_unique _ _ _ _ _ G G') in H. now apply (gram_rows_unique v gs').
Qed.

Lemma scalar_brackets b w : Forall scalar (in_brackets b w) <-> Forall scalar w.
Proof.
  destruct b; [|easy]. simpl. rewrite Forall_cons_iff, Forall_app, Forall_cons_iff. unfold scalar at 1 3.
  split; [easy|]. intros H. repeat split; auto; lia.
Qed.

Definition swp (wn : bool) (p : str * Z) : sw_item := sw_mk wn (fst p) (snd p).

Lemma ff_rows ws idx x gs :
  gram_rows (VBucket ws idx x) gs (map (fun g => (g, Z.of_N (ff_call x g) + Z.of_N (lenN ws))%Z) gs).
Proof.
  induction gs as [|g gs IH]; simpl; constructor; [|easy]. simpl. rewrite <- ff_call_spec. lia.
Qed.
Lemma ft_rows ws idx x gs hs : 0 < ft_buckets x -> mapM (ft_call x) gs = Ok hs ->
  gram_rows (VFastText ws idx x) gs (map (fun gh => (fst gh, Z.of_N (snd gh) + Z.of_N (lenN ws))%Z) (combine gs hs)).
Proof.
  intros L. revert hs. induction gs as [|g gs IH]; intros hs H; simpl in H.
  - injection H as <-. constructor.
  - apply bind_ok in H as (h & H & H'). apply bind_ok in H' as (hs' & H' & E). injection E as <-.
    simpl. constructor; [|now apply IH]. rewrite ft_call_spec in H.
    destruct (utf8_encode g) as [bs|] eqn:U; [|easy]. injection H as <-.
    exists bs. split; [now apply encode_iff|].
    rewrite Z2N.id; [lia|]. apply Z.mod_pos_bound. lia.
Qed.
Lemma ex_rows ws idx x gs : built_vocab (VExplicit ws idx x) ->
  gram_rows (VExplicit ws idx x) gs
    (flat_map (fun g => match ex_call x g with Some i => [(g, i + Z.of_N (lenN ws))%Z] | None => [] end) gs).
Proof.
  intros B. pose proof (built_ex_wf _ _ _ B) as W.
  induction gs as [|g gs IH]; [constructor|]. cbn [flat_map]. unfold ex_call at 1.
  destruct (sget g (ex_index x)) as [i|] eqn:E; cbn [app].
  - constructor; [|easy]. exists i. split; [|lia]. now apply (dget_In str_eqb str_eqb_eq).
  - constructor; [|easy]. intros i (k & H & _). apply (In_dget str_eqb str_eqb_eq) in H; [|easy].
    unfold sget in E. congruence.
Qed.
Lemma flat_swp wn (f : str -> option Z) n gs :
  flat_map (fun g => match f g with Some i => [sw_mk wn g (i + n)%Z] | None => [] end) gs
  = map (swp wn) (flat_map (fun g => match f g with Some i => [(g, i + n)%Z] | None => [] end) gs).
Proof.
  induction gs as [|g gs IH]; [easy|]. cbn [flat_map]. rewrite map_app, IH. destruct (f g); easy.
Qed.

Lemma rows_total v w b : built_vocab v -> machine_size v -> subword_vocab v -> can_hash v w ->
  exists l, word_rows v b w l /\ forall wn, vocab_subword_indices v w b wn = Ok (map (swp wn) l).
Proof.
  intros B M N C. pose proof (built_hash v B) as HH. unfold machine_size in M.
  destruct v as [ws idx|ws idx x|ws idx x|ws idx x]; simpl in N, C, M, HH; [easy| | |].
  - pose proof (built_range _ (ff_min_n x) (ff_max_n x) B (conj eq_refl eq_refl)) as R.
    destruct (ngrams_ok w _ _ b R) as [gs G].
    destruct (ff_subword_spec x w (lenN ws) b gs (proj2 HH) M G) as [Ht Hf].
    eexists. split.
    + exists (ff_min_n x), (ff_max_n x), gs. split; [easy|]. apply ngrams_spec in G as [_ G].
      split; [exact G|apply ff_rows].
    + intros wn. simpl. rewrite map_map. destruct wn; [rewrite Ht|rewrite Hf]; easy.
  - pose proof (built_range _ (ft_min_n x) (ft_max_n x) B (conj eq_refl eq_refl)) as R.
    destruct (ngrams_ok w _ _ b R) as [gs G].
    destruct (utf8_encode (in_brackets b w)) as [bw|e] eqn:U.
    2:{ apply encode_error in U as [_ U]. exfalso. apply U. now apply scalar_brackets. }
    destruct (ft_subword_spec x w (lenN ws) b true bw gs HH M U G) as (hs & Hh & _).
    eexists. split.
    + exists (ft_min_n x), (ft_max_n x), gs. split; [easy|]. pose proof (proj2 (proj1 (ngrams_spec _ _ _ _ _) G)) as G'.
      split; [exact G'|apply (ft_rows _ _ _ _ hs); [lia|exact Hh]].
    + intros wn. simpl. destruct (ft_subword_spec x w (lenN ws) b wn bw gs HH M U G) as (hs' & Hh' & Hl).
      rewrite Hh in Hh'. injection Hh' as <-. rewrite Hl, map_map. easy.
  - pose proof (built_range _ (ex_min_n x) (ex_max_n x) B (conj eq_refl eq_refl)) as R.
    destruct (ngrams_ok w _ _ b R) as [gs G].
    eexists. split.
    + exists (ex_min_n x), (ex_max_n x), gs. split; [easy|]. apply ngrams_spec in G as [_ G].
      split; [exact G|apply ex_rows; exact B].
    + intros wn. simpl. rewrite (ex_subword_spec x w (lenN ws) b wn gs G). now rewrite flat_swp.
Qed.

Lemma rows_model v b w l : word_rows v b w l -> subword_vocab v.
Proof. intros (mn & mx & gs & R & _). destruct v; easy. Qed.
Lemma cannot_hash v w b wn : built_vocab v -> subword_vocab v -> ~ can_hash v w ->
  vocab_subword_indices v w b wn = Err UnicodeEncodeError.
Proof.
  intros B N C. destruct v as [ws idx|ws idx x|ws idx x|ws idx x]; simpl in N, C; try now exfalso.
  simpl. apply ft_subword_encode. apply encode_error. split; [easy|]. now rewrite scalar_brackets.
Qed.

Lemma can_hash_dec v w : can_hash v w \/ ~ can_hash v w.
Proof.
  destruct v as [ws idx|ws idx x|ws idx x|ws idx x]; try (left; exact I). simpl.
  induction w as [|c w IH]; [left; constructor|].
  assert (D : scalar c \/ ~ scalar c) by (unfold scalar; lia).
  destruct IH as [IH|IH], D as [D|D].
  - left. now constructor.
  - right. intros H. apply D. now inversion H.
  - right. intros H. apply IH. now inversion H.
  - right. intros H. apply IH. now inversion H.
Qed.

Lemma indices_iff v w b wn l : built_vocab v -> machine_size v ->
  (vocab_subword_indices v w b wn = Ok l
   <-> can_hash v w /\ exists rows, word_rows v b w rows /\ l = map (swp wn) rows).
Proof.
  intros B M. split.
  - intros H.
    assert (N : subword_vocab v) by (destruct v; [discriminate H|exact I..]).
    destruct (can_hash_dec v w) as [C|C].
    2:{ rewrite (cannot_hash v w b wn B N C) in H. discriminate H. }
    split; [exact C|]. destruct (rows_total v w b B M N C) as (rows & R & E).
    exists rows. split; [exact R|]. rewrite E in H. now injection H as <-.
  - intros (C & rows & R & ->).
    destruct (rows_total v w b B M (rows_model _ _ _ _ R) C) as (rows' & R' & E).
    rewrite (word_rows_unique v b w rows rows' B R R'). apply E.
Qed.

Lemma rows_exist v w b : built_vocab v -> machine_size v -> subword_vocab v -> can_hash v w ->
  exists l, word_rows v b w l /\ forall l', word_rows v b w l' -> l' = l.
Proof.
  intros B M N C. destruct (rows_total v w b B M N C) as (l & R & _). exists l. split; [exact R|].
  intros l' R'. symmetry. now apply (word_rows_unique v b w l l' B).
Qed.

Lemma lookup_rows v w rows : built_vocab v -> machine_size v -> ~ In w (vocab_words v) ->
  can_hash v w -> word_rows v true w rows ->
  match rows with
  | [] => vocab_idx v w = Ok None /\ vocab_getitem v w = Err KeyError
  | _ => vocab_idx v w = Ok (Some (IdxList (map snd rows))) /\ vocab_getitem v w = Ok (IdxList (map snd rows))
  end.
Proof.
  intros B M I C R. pose proof (sget_not_in v w B I) as S.
  assert (E : vocab_subword_indices v w true false = Ok (map (swp false) rows)).
  { apply indices_iff; eauto. }
  destruct (lookup_cases v w B) as
    [(i & S' & _)|(_ & [(ws & idx & -> & _ & _)|[(e & E' & _ & _)|[(E' & H1 & H2)|(l & E' & L & H1 & H2)]]])].
  - congruence.
  - discriminate E.
  - rewrite E in E'. discriminate E'.
  - rewrite E in E'. destruct rows; [easy|discriminate E'].
  - rewrite E in E'. injection E' as <-. rewrite map_map in H1, H2.
    destruct rows as [|r rows]; [now exfalso|]. rewrite H1, H2. easy.
Qed.
Lemma lookup_unhashable v w : built_vocab v -> ~ In w (vocab_words v) -> ~ can_hash v w ->
  vocab_idx v w = Err UnicodeEncodeError /\ vocab_getitem v w = Err UnicodeEncodeError.
Proof.
  intros B I C. pose proof (sget_not_in v w B I) as S.
  assert (N : subword_vocab v) by (destruct v; simpl in C |- *; auto).
  pose proof (cannot_hash v w true false B N C) as E.
  destruct (lookup_cases v w B) as
    [(i & S' & _)|(_ & [(ws & idx & -> & _ & _)|[(e & E' & H1 & H2)|[(E' & _)|(l & E' & _)]]])]; try congruence.
  - discriminate E.
  - rewrite E in E'. injection E' as <-. easy.
Qed.
Lemma lookup_simple ws idx w : built_vocab (VSimple ws idx) -> ~ In w ws ->
  vocab_idx (VSimple ws idx) w = Ok None /\ vocab_getitem (VSimple ws idx) w = Err KeyError
  /\ forall b wn, vocab_subwords (VSimple ws idx) w b = Err AttributeError
     /\ vocab_subword_indices (VSimple ws idx) w b wn = Err AttributeError.
Proof.
  intros B I. pose proof (sget_not_in _ w B I) as E. simpl in E |- *. rewrite E. easy.
Qed.

Lemma embedding_rows F (o : fops F) (e : embeddings F) w rows d dn :
  built_embeddings e -> valid_codes (em_storage e) -> nonneg_index (em_vocab e) -> machine_size (em_vocab e) ->
  ~ In w (vocab_words (em_vocab e)) -> can_hash (em_vocab e) w -> word_rows (em_vocab e) true w rows -> rows <> [] ->
  exists vs s, rows_at o (em_storage e) (map snd rows) vs /\ is_sum o (N.to_nat (em_dims e)) vs s
    /\ em_getitem o e w = Ok (map (fun x => fdiv o x (fnorm o s)) s)
    /\ em_embedding o e w d = Ok (Some (map (fun x => fdiv o x (fnorm o s)) s))
    /\ (em_norms e <> None ->
        em_embedding_with_norm o e w dn = Ok (Some (map (fun x => fdiv o x (fnorm o s)) s, Some (fnorm o s)))).
Proof.
  intros B V N M I C R NE. apply (embedding_unknown o e w (map snd rows) d dn B V N M I).
  split; [now destruct rows|]. exists (map (swp false) rows). split.
  - apply indices_iff; eauto. apply B.
  - rewrite map_map. easy.
Qed.
