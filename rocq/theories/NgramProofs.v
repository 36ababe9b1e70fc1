(* n-grams and subword indices *)
From Coq Require Import Lia Sorted.
From Verif Require Import Py PyProofs Utf8 Utf8Proofs Subword Vocab VocabProofs Spec SpecVocab.

(* the grid of positions that all the loops run over *)
Definition grid (len lo hi n : N) : list (N * N) :=
  flat_map (fun i => flat_map (fun j => if j + i <=? len then [(i, j)] else []) (range_down hi lo))
    (range_up n).

Lemma flat_map_flat_map {A B C} (f : A -> list B) (g : B -> list C) l :
  flat_map g (flat_map f l) = flat_map (fun a => flat_map g (f a)) l.
Proof. induction l as [|a l IH]; simpl; [easy|]. now rewrite flat_map_app, IH. Qed.
Lemma flat_map_ext_in {A B} (f g : A -> list B) l :
  (forall a, In a l -> f a = g a) -> flat_map f l = flat_map g l.
Proof.
  induction l as [|a l IH]; intros H; simpl; [easy|].
  rewrite (H a) by (now left). f_equal. apply IH. intros b Hb. apply H. now right.
Qed.
Lemma flat_map_single {A B} (f : A -> B) l : flat_map (fun a => [f a]) l = map f l.
Proof. induction l; simpl; congruence. Qed.

Lemma grid_flat_map {C} len lo hi n (f : N -> N -> list C) :
  flat_map (fun i => flat_map (fun j => if j + i <=? len then f i j else []) (range_down hi lo))
    (range_up n)
  = flat_map (fun p => f (fst p) (snd p)) (grid len lo hi n).
Proof.
  unfold grid. rewrite flat_map_flat_map. apply flat_map_ext. intros i.
  rewrite flat_map_flat_map. apply flat_map_ext. intros j.
  destruct (j + i <=? len); simpl; [|easy]. now rewrite app_nil_r.
Qed.
Lemma grid_map {C} len lo hi n (f : N -> N -> C) :
  flat_map (fun i => flat_map (fun j => if j + i <=? len then [f i j] else []) (range_down hi lo))
    (range_up n)
  = map (fun p => f (fst p) (snd p)) (grid len lo hi n).
Proof. rewrite (grid_flat_map len lo hi n (fun i j => [f i j])). apply flat_map_single. Qed.

Lemma range_up_In n i : In i (range_up n) <-> i < n.
Proof.
  unfold range_up. rewrite in_map_iff. split.
  - intros (k & <- & H). apply in_seq in H. lia.
  - intros H. exists (N.to_nat i). split; [lia|]. apply in_seq. lia.
Qed.
Lemma range_down_In hi lo j : 0 < lo -> In j (range_down hi lo) <-> lo <= j <= hi.
Proof.
  intros Hlo. unfold range_down. rewrite in_map_iff. split.
  - intros (k & <- & H). apply in_seq in H. lia.
  - intros H. exists (N.to_nat (hi - j)). split; [lia|]. apply in_seq. lia.
Qed.

Lemma ss_map {A B} (R : A -> A -> Prop) (S : B -> B -> Prop) (f : A -> B) l :
  (forall a b, In a l -> In b l -> R a b -> S (f a) (f b)) ->
  StronglySorted R l -> StronglySorted S (map f l).
Proof.
  induction l as [|a l IH]; intros H HS; simpl; constructor.
  - apply IH; [|now inversion HS]. intros. apply H; simpl; auto.
  - apply Forall_map. inversion HS as [|? ? _ HF]. subst. rewrite Forall_forall in *.
    intros b Hb. apply H; simpl; auto.
Qed.
Lemma ss_seq a n : StronglySorted Nat.lt (seq a n).
Proof.
  revert a; induction n as [|n IH]; intros a; simpl; constructor; [apply IH|].
  apply Forall_forall. intros b Hb. apply in_seq in Hb. unfold Nat.lt. lia.
Qed.
Lemma range_up_ss n : StronglySorted N.lt (range_up n).
Proof. unfold range_up. eapply ss_map; [|apply ss_seq]. intros a b _ _ H. unfold Nat.lt in H. lia. Qed.
Lemma range_down_ss hi lo : 0 < lo -> StronglySorted N.gt (range_down hi lo).
Proof.
  intros Hlo. unfold range_down. eapply ss_map; [|apply ss_seq]. intros a b Ha Hb H.
  apply in_seq in Ha, Hb. unfold Nat.lt in H. lia.
Qed.
Lemma ss_app {A} (R : A -> A -> Prop) l m :
  StronglySorted R l -> StronglySorted R m -> (forall a b, In a l -> In b m -> R a b) ->
  StronglySorted R (l ++ m).
Proof.
  induction l as [|a l IH]; intros Hl Hm H; simpl; [easy|].
  inversion Hl as [|? ? Hl' HF]. subst. constructor.
  - apply IH; auto. intros. apply H; simpl; auto.
  - apply Forall_app. split; [easy|]. apply Forall_forall. intros b Hb. apply H; simpl; auto.
Qed.
Lemma ss_flat_map {A B} (R : A -> A -> Prop) (S : B -> B -> Prop) (f : A -> list B) l :
  StronglySorted R l -> (forall a, In a l -> StronglySorted S (f a)) ->
  (forall a a' b b', R a a' -> In b (f a) -> In b' (f a') -> S b b') ->
  StronglySorted S (flat_map f l).
Proof.
  induction l as [|a l IH]; intros HS Hf H; simpl; [constructor|].
  inversion HS as [|? ? HS' HF]. subst. apply ss_app.
  - apply Hf. now left.
  - apply IH; auto. intros. apply Hf. now right.
  - intros b b' Hb Hb'. apply in_flat_map in Hb' as (a' & Ha' & Hb').
    rewrite Forall_forall in HF. eauto.
Qed.

Lemma grid_In len lo hi n i j : 0 < lo ->
  In (i, j) (grid len lo hi n) <-> i < n /\ lo <= j <= hi /\ i + j <= len.
Proof.
  intros Hlo. unfold grid. rewrite in_flat_map. split.
  - intros (i' & Hi & H). apply in_flat_map in H as (j' & Hj & H).
    apply range_up_In in Hi. apply range_down_In in Hj; [|easy].
    destruct (N.leb_spec (j' + i') len); [|easy]. destruct H as [[= -> ->]|[]]. lia.
  - intros (Hi & Hj & H). exists i. split; [now apply range_up_In|].
    apply in_flat_map. exists j. split; [now apply range_down_In|].
    destruct (N.leb_spec (j + i) len); [now left|lia].
Qed.

Lemma grid_ss len lo hi n : 0 < lo -> StronglySorted ngram_before (grid len lo hi n).
Proof.
  intros Hlo. unfold grid. eapply ss_flat_map; [apply range_up_ss| |].
  - intros i _. eapply ss_flat_map; [now apply range_down_ss| |].
    + intros j _. destruct (_ <=? _); repeat constructor.
    + intros j j' b b' H Hb Hb'. destruct (_ <=? _) in Hb; [|easy]. destruct (_ <=? _) in Hb'; [|easy].
      destruct Hb as [<-|[]], Hb' as [<-|[]]. right. simpl. lia.
  - intros i i' b b' H Hb Hb'. apply in_flat_map in Hb as (j & _ & Hb).
    apply in_flat_map in Hb' as (j' & _ & Hb').
    destruct (_ <=? _) in Hb; [|easy]. destruct (_ <=? _) in Hb'; [|easy].
    destruct Hb as [<-|[]], Hb' as [<-|[]]. left. exact H.
Qed.

(* the positions used by ngrams and by all the indexers *)
Lemma grid_positions len mn mx :
  0 < mn -> ngram_positions len mn mx (grid len mn (N.min mx len) (len + 1 - mn)).
Proof.
  intros H. split; [now apply grid_ss|]. intros i j. rewrite grid_In by easy. lia.
Qed.
Lemma grid_short len mn mx : 0 < mn -> len < mn -> grid len mn mx (len + 1 - mn) = [].
Proof. intros H1 H2. unfold grid. now replace (len + 1 - mn) with 0 by lia. Qed.

Lemma substr_occurs w i j : i + j <= lenN w -> occurs_at w (i, j) (substr w i j).
Proof.
  intros H. unfold substr. exists (takeN i w), (dropN j (dropN i w)). simpl. split; [|split].
  - now rewrite takeN_dropN, takeN_dropN.
  - rewrite lenN_takeN. lia.
  - rewrite lenN_takeN, lenN_dropN. lia.
Qed.
Lemma occurs_substr w i j g : occurs_at w (i, j) g -> g = substr w i j.
Proof.
  intros (pre & post & -> & Hi & Hj). simpl in Hi, Hj. subst i j. unfold substr.
  rewrite dropN_app, dropN_all, N.sub_diag by lia. simpl.
  rewrite dropN_0. rewrite takeN_app, N.sub_diag, takeN_0, app_nil_r. symmetry.
  apply takeN_all. lia.
Qed.

Definition positions (w : str) (mn mx : N) : list (N * N) :=
  grid (lenN w) mn (N.min mx (lenN w)) (lenN w + 1 - mn).
Definition subs (w : str) (p : N * N) : str := substr w (fst p) (snd p).

Lemma bracketed_in b w : bracketed b w = in_brackets b w.
Proof. now destruct b. Qed.

Lemma ngrams_eq word mn mx b :
  0 < mn <= mx ->
  ngrams word mn mx b
  = Ok (map (subs (bracketed b word)) (positions (bracketed b word) mn mx)).
Proof.
  intros H. unfold ngrams. set (w := bracketed b word).
  assert (X : py_assert ((mn <=? mx) && (0 <? mn)) = Ok tt).
  { destruct (N.leb_spec mn mx), (N.ltb_spec 0 mn); try lia. easy. }
  rewrite X. cbn [bind]. unfold positions. destruct (N.ltb_spec (lenN w) mn) as [L|L].
  - rewrite grid_short; easy || lia.
  - f_equal. apply (grid_map (lenN w) mn (N.min mx (lenN w)) (lenN w + 1 - mn) (fun i j => substr w i j)).
Qed.

Lemma positions_le w mn mx p : 0 < mn -> In p (positions w mn mx) -> fst p + snd p <= lenN w.
Proof. intros H. destruct p as [i j]. unfold positions. rewrite grid_In by easy. simpl. lia. Qed.

Lemma Forall2_map_r {A B} (R : A -> B -> Prop) (f : A -> B) l :
  (forall a, In a l -> R a (f a)) -> Forall2 R l (map f l).
Proof.
  induction l as [|a l IH]; intros H; simpl; constructor; [apply H; now left|].
  apply IH. intros. apply H. now right.
Qed.

Lemma positions_ngrams w mn mx : 0 < mn -> is_ngrams w mn mx (map (subs w) (positions w mn mx)).
Proof.
  intros H. exists (positions w mn mx). split; [now apply grid_positions|].
  apply Forall2_map_r. intros [i j] Hp. apply positions_le in Hp; [|easy].
  now apply substr_occurs.
Qed.

(* a sorted list is determined by its elements *)
Lemma ss_unique {A} (R : A -> A -> Prop) l m :
  (forall a, ~ R a a) -> (forall a b c, R a b -> R b c -> R a c) ->
  StronglySorted R l -> StronglySorted R m -> (forall a, In a l <-> In a m) -> l = m.
Proof.
  intros Irr Tr. revert m; induction l as [|a l IH]; intros m Hl Hm E.
  - destruct m as [|b m]; [easy|]. now destruct (proj2 (E b) (or_introl eq_refl)).
  - destruct m as [|b m]; [now destruct (proj1 (E a) (or_introl eq_refl))|].
    inversion Hl as [|? ? Hl' Fl]. inversion Hm as [|? ? Hm' Fm]. subst.
    rewrite Forall_forall in Fl, Fm.
    assert (X : a = b).
    { destruct (proj1 (E a) (or_introl eq_refl)) as [->|Ha]; [easy|].
      destruct (proj2 (E b) (or_introl eq_refl)) as [->|Hb]; [easy|].
      destruct (Irr a). eauto. }
    subst b. f_equal. apply IH; auto. intros c. split; intros Hc.
    + destruct (proj1 (E c) (or_intror Hc)) as [->|]; [|easy]. destruct (Irr c). auto.
    + destruct (proj2 (E c) (or_intror Hc)) as [->|]; [|easy]. destruct (Irr c). auto.
Qed.
Lemma positions_unique len mn mx ps ps' :
  ngram_positions len mn mx ps -> ngram_positions len mn mx ps' -> ps = ps'.
Proof.
  intros [S1 I1] [S2 I2]. eapply ss_unique; [| |exact S1|exact S2|].
  - intros [i j]. unfold ngram_before. simpl. lia.
  - intros [i j] [i' j'] [i2 j2]. unfold ngram_before. simpl. lia.
  - intros [i j]. now rewrite I1, I2.
Qed.
Lemma is_ngrams_unique w mn mx gs gs' : is_ngrams w mn mx gs -> is_ngrams w mn mx gs' -> gs = gs'.
Proof.
  intros (ps & P & F) (ps' & P' & F'). rewrite (positions_unique _ _ _ _ _ P P') in F. clear P P'.
  revert gs F; induction F' as [|[i j] g ps' gs' H F' IH]; intros gs0 F.
  - now inversion F.
  - inversion F as [|? g0 ? gs1 H0 F1]. subst. f_equal; [|now apply IH].
    apply occurs_substr in H, H0. congruence.
Qed.

(* C17 *)
Lemma ngrams_spec word mn mx b gs :
  ngrams word mn mx b = Ok gs
  <-> 0 < mn <= mx /\ is_ngrams (in_brackets b word) mn mx gs.
Proof.
  split.
  - intros H. assert (R : 0 < mn <= mx).
    { unfold ngrams in H. apply bind_ok in H as (u & H & _). apply py_assert_ok in H.
      apply andb_true_iff in H as [H1 H2]. apply N.leb_le in H1. apply N.ltb_lt in H2. lia. }
    split; [easy|]. rewrite ngrams_eq in H by easy. injection H as <-.
    rewrite <- bracketed_in. now apply positions_ngrams.
  - intros [R H]. rewrite ngrams_eq by easy. f_equal. rewrite <- bracketed_in in H.
    eapply is_ngrams_unique; [|exact H]. now apply positions_ngrams.
Qed.
Lemma ngrams_reject word mn mx b :
  ngrams word mn mx b = Err AssertionError <-> mn = 0 \/ mx < mn.
Proof.
  split.
  - intros H. destruct (N.eq_dec mn 0) as [|N0]; [now left|]. right.
    destruct (N.lt_ge_cases mx mn); [easy|]. rewrite ngrams_eq in H by lia. easy.
  - intros H. unfold ngrams.
    destruct (N.leb_spec mn mx), (N.ltb_spec 0 mn); try lia; easy.
Qed.
