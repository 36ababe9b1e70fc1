(* Similarity queries. *)
From Coq Require Import Lia Sorted Permutation.
From Verif Require Import Py PyProofs Arr ArrProofs Subword Vocab VocabProofs Storage Chunks
  Embeddings Spec SpecVocab SpecLookup VocabFacts WordProofs StorageGet.
From Verif Require ExplicitEmb LookupProofs.

(* ---------------------------------------------------------------- *)
(* lists                                                             *)

Lemma skipn_In {A} n (l : list A) a : In a (skipn n l) -> In a l.
Proof. intros H. rewrite <- (firstn_skipn n l). apply in_app_iff. auto. Qed.
Lemma firstn_In' {A} n (l : list A) a : In a (firstn n l) -> In a l.
Proof. intros H. rewrite <- (firstn_skipn n l). apply in_app_iff. auto. Qed.
Lemma skipn_nth {A} n (l : list A) k : nth_error (skipn n l) k = nth_error l (n + k).
Proof. revert l. induction n as [|n IH]; intros l; [easy|]. destruct l; simpl; [now destruct k|apply IH]. Qed.
Lemma firstn_nth_lt {A} n (l : list A) k : (k < n)%nat -> nth_error (firstn n l) k = nth_error l k.
Proof.
  revert l k. induction n as [|n IH]; intros l k H; [lia|]. destruct l, k; simpl; try easy. apply IH. lia.
Qed.
Lemma In_skipn_pos {A} n (l : list A) a : In a (skipn n l) -> exists k, (n <= k)%nat /\ nth_error l k = Some a.
Proof. intros H. apply In_nth_error in H as [k Hk]. rewrite skipn_nth in Hk. exists (n + k)%nat. split; [lia|easy]. Qed.
Lemma StronglySorted_firstn {A} (R : A -> A -> Prop) n l : StronglySorted R l -> StronglySorted R (firstn n l).
Proof.
  intros H. revert n. induction H as [|a l H IH HF]; intros [|n]; simpl; constructor; auto.
  rewrite Forall_forall in *. intros x Hx. apply HF. now apply firstn_In' in Hx.
Qed.
Lemma StronglySorted_split {A} (R : A -> A -> Prop) n l a b : StronglySorted R l ->
  In a (firstn n l) -> In b (skipn n l) -> R a b.
Proof.
  intros H. revert n. induction H as [|x l H IH HF]; intros [|n] Ha Hb; simpl in *; try easy.
  destruct Ha as [<-|Ha]; [|eauto]. rewrite Forall_forall in HF. apply HF. now apply skipn_In in Hb.
Qed.

Lemma NoDup_appr {A} (l l' : list A) : NoDup (l ++ l') -> NoDup l'.
Proof. induction l as [|a l IH]; [easy|]. simpl. intros H. apply NoDup_cons_iff in H. tauto. Qed.
Lemma NoDup_appl {A} (l l' : list A) : NoDup (l ++ l') -> NoDup l.
Proof.
  induction l as [|a l IH]; [constructor|]. simpl. intros H. apply NoDup_cons_iff in H as [H1 H2].
  constructor; [|auto]. intros H. apply H1, in_app_iff. auto.
Qed.
Lemma filter_both {A} (f : A -> bool) l :
  (length (filter f l) + length (filter (fun x => negb (f x)) l) = length l)%nat.
Proof. induction l as [|a l IH]; [easy|]. simpl. destruct (f a); simpl; lia. Qed.
Lemma NoDup_map_in {A B} (f : A -> B) l : NoDup l ->
  (forall x y, In x l -> In y l -> f x = f y -> x = y) -> NoDup (map f l).
Proof.
  induction 1 as [|a l H ND IH]; intros Hf; [constructor|]. simpl. constructor.
  - intros Hi. apply in_map_iff in Hi as (x & E & Hx). apply Hf in E; [|now right|now left]. now subst.
  - apply IH. intros x y Hx Hy. apply Hf; now right.
Qed.

Section Sim.
  Context {F : Type} (o : fops F).

  (* ---------------------------------------------------------------- *)
  (* sorting                                                           *)

  Lemma insert_perm x l : Permutation (insert_desc o x l) (x :: l).
  Proof.
    induction l as [|y l IH]; simpl; [easy|]. destruct (fle o (snd y) (snd x)); [easy|].
    rewrite IH. apply perm_swap.
  Qed.
  Lemma sort_perm l : Permutation (sort_desc o l) l.
  Proof. induction l as [|x l IH]; simpl; [easy|]. rewrite insert_perm. now constructor. Qed.

  Definition desc (a b : str * F) : Prop := fle o (snd b) (snd a) = true.

  Lemma insert_sorted S x l : ordered_on o S -> In (snd x) S -> Forall (fun y => In (snd y) S) l ->
    StronglySorted desc l -> StronglySorted desc (insert_desc o x l).
  Proof.
    intros [T Tr] Hx Hl H. induction H as [|y l H IH HF]; simpl.
    - constructor; constructor.
    - pose proof (Forall_inv Hl) as Hy. apply Forall_inv_tail in Hl.
      destruct (fle o (snd y) (snd x)) eqn:E.
      + constructor; [now constructor|]. constructor; [exact E|].
        rewrite Forall_forall in *. intros z Hz. unfold desc. apply (Tr _ (snd y)); auto. now apply HF.
      + constructor; [now apply IH|].
        assert (E' : fle o (snd x) (snd y) = true).
        { destruct (T (snd x) (snd y) Hx Hy); congruence. }
        apply Forall_forall. intros z Hz. apply (Permutation_in _ (insert_perm x l)) in Hz.
        destruct Hz as [<-|Hz]; [exact E'|]. rewrite Forall_forall in HF. now apply HF.
  Qed.
  Lemma sort_sorted S l : ordered_on o S -> Forall (fun y => In (snd y) S) l -> StronglySorted desc (sort_desc o l).
  Proof.
    intros O H. induction H as [|x l Hx H IH]; simpl; [constructor|].
    apply (insert_sorted S); auto. rewrite Forall_forall in *. intros y Hy. apply H.
    now apply (Permutation_in _ (sort_perm l)).
  Qed.

  (* ---------------------------------------------------------------- *)
  (* skipped words                                                     *)

  Lemma skip_indices_In v skips i : built_vocab v ->
    In i (skip_indices v skips) <->
    exists w, (0 <= i)%Z /\ nth_error (vocab_words v) (Z.to_nat i) = Some w /\ In w skips.
  Proof.
    intros B. unfold skip_indices. rewrite (dedup_In Z.eqb Z.eqb_eq), in_flat_map. split.
    - intros (w & Hw & Hi). destruct (sget w (vocab_index v)) as [j|] eqn:E; [|easy].
      destruct Hi as [<-|[]]. apply sget_words in E as [E1 E2]; [|easy]. eauto.
    - intros (w & H0 & Hn & Hw). exists w. split; [easy|].
      assert (E : sget w (vocab_index v) = Some i) by (now apply sget_words).
      rewrite E. now left.
  Qed.

  Lemma filter_count {A} (f : A -> bool) l :
    length (filter f l)
    = length (filter (fun i => match nth_error l i with Some a => f a | None => false end) (seq 0 (length l))).
  Proof.
    induction l as [|a l IH]; [easy|]. simpl length at 2. cbn [seq filter nth_error].
    rewrite <- seq_shift. 
    assert (E : forall (g : nat -> bool) m, length (filter g (map S m)) = length (filter (fun i => g (S i)) m)).
    { intros g m. induction m as [|x m IHm]; [easy|]. simpl. destruct (g (S x)); simpl; now rewrite IHm. }
    destruct (f a); simpl; rewrite E; simpl; now rewrite IH.
  Qed.

  Lemma skip_count v skips : built_vocab v -> length (skip_indices v skips) = n_skipped v skips.
  Proof.
    intros B. unfold n_skipped. rewrite filter_count.
    set (g := fun i => match nth_error (vocab_words v) i with
                       | Some a => existsb (str_eqb a) skips | None => false end).
    assert (P : Permutation (skip_indices v skips)
                  (map Z.of_nat (filter g (seq 0 (length (vocab_words v)))))).
    { apply NoDup_Permutation.
      - apply (dedup_NoDup Z.eqb Z.eqb_eq).
      - apply FinFun.Injective_map_NoDup; [intros x y; lia|]. apply NoDup_filter, seq_NoDup.
      - intros i. rewrite skip_indices_In, in_map_iff by easy. split.
        + intros (w & H0 & Hn & Hw). exists (Z.to_nat i). split; [lia|]. apply filter_In. split.
          * apply in_seq. assert (Z.to_nat i < length (vocab_words v))%nat by (apply nth_error_Some; congruence). lia.
          * unfold g. rewrite Hn. apply existsb_exists. exists w. split; [easy|]. now apply str_eqb_eq.
        + intros (j & <- & Hj). apply filter_In in Hj as [_ Hj]. unfold g in Hj. rewrite Nat2Z.id.
          destruct (nth_error (vocab_words v) j) as [w|]; [|easy]. exists w. split; [lia|]. split; [easy|].
          apply existsb_exists in Hj as (x & Hx & E). apply str_eqb_eq in E. now subst. }
    rewrite (Permutation_length P). apply map_length.
  Qed.

  (* ---------------------------------------------------------------- *)
  (* the heap                                                          *)

  Variable argpartition : list F -> nat -> list nat.
  Variable heappush : list (str * F) -> str * F -> list (str * F).

  Lemma heap_spec words sims skip part h0 : pushes heappush ->
    Forall (fun i => i < length words /\ i < length sims)%nat part ->
    exists heap,
      foldM (fun heap idx =>
               if mem_eqb Z.eqb (Z.of_nat idx) skip then Ok heap
               else
                 w <- py_index words (Z.of_nat idx) ;;
                 s <- py_index sims (Z.of_nat idx) ;;
                 Ok (heappush heap (w, s))) part h0 = Ok heap
      /\ Permutation heap
           (map (fun i => (nth i words [], nth i sims (fzero o)))
              (filter (fun i => negb (mem_eqb Z.eqb (Z.of_nat i) skip)) part) ++ h0).
  Proof.
    intros Hp. revert h0. induction part as [|i part IH]; intros h0 H.
    - exists h0. split; easy.
    - pose proof (Forall_inv H) as [H1 H2]. apply Forall_inv_tail in H. cbn [foldM filter].
      destruct (mem_eqb Z.eqb (Z.of_nat i) skip); cbn [negb bind]; [now apply IH|].
      rewrite (py_index_nth words i (nth i words [])) by (now apply nth_error_nth').
      rewrite (py_index_nth sims i (nth i sims (fzero o))) by (now apply nth_error_nth'). cbn [bind].
      destruct (IH (heappush h0 (nth i words [], nth i sims (fzero o))) H) as (heap & E & P).
      exists heap. split; [exact E|]. rewrite P. cbn [map app].
      rewrite (Hp h0). symmetry. apply Permutation_middle.
  Qed.

  (* ---------------------------------------------------------------- *)
  (* C27                                                               *)

  Section Query.
    Variables (e : embeddings F) (a : ndarray F) (query : list F) (skips : list str).
    Hypothesis BE : built_embeddings e.
    Hypothesis NN : nonneg_index (em_vocab e).
    Hypothesis Snd : em_storage e = SNd a.
    Hypothesis Lq : lenN query = em_dims e.

    Let words := vocab_words (em_vocab e).
    Let n := length words.
    Definition q_sims : list F := map (fun row => fdot o row query) (firstn n (nd_rows a)).

    Lemma n_rows : (n <= length (nd_rows a))%nat.
    Proof. clear Lq.
      pose proof BE as (_ & B & _ & _). pose proof (rows_bound e BE) as U. pose proof (upper_bound_ge _ B NN) as U2.
      rewrite (built_len _ B) in U2. rewrite Snd in U. simpl in U. unfold lenN in U2. unfold n, words. lia.
    Qed.
    Lemma sims_length : length q_sims = n.
    Proof. clear Lq. unfold q_sims. rewrite map_length, firstn_length. pose proof n_rows. lia. Qed.
    Lemma sims_all : all_similarities o e query q_sims.
    Proof. clear Lq.
      split; [apply sims_length|]. intros i s H. unfold q_sims in H. rewrite nth_error_map in H.
      destruct (nth_error (firstn n (nd_rows a)) i) as [row|] eqn:E; [|easy]. injection H as <-.
      exists row. split; [|easy]. rewrite Snd. simpl. apply py_index_nth.
      rewrite firstn_nth_lt in E; [easy|].
      assert (i < length (firstn n (nd_rows a)))%nat by (apply nth_error_Some; congruence).
      rewrite firstn_length in H. lia.
    Qed.
    Lemma sim_unique i s : similarity_of o e query i s -> (i < n)%nat -> nth_error q_sims i = Some s.
    Proof. clear Lq.
      intros (row & Hr & ->) Hi. rewrite Snd in Hr. simpl in Hr. rewrite py_index_nat in Hr.
      destruct (nth_error (nd_rows a) i) as [r|] eqn:E; [|easy]. injection Hr as ->.
      unfold q_sims. rewrite nth_error_map, firstn_nth_lt, E by easy. easy.
    Qed.

    Lemma similarity_eq k :
      em_similarity o argpartition heappush e query k skips
      = (let skip_ix := skip_indices (em_vocab e) skips in
         let from := (- k - Z.of_nat (length skip_ix))%Z in
         part <- np_argpartition argpartition q_sims from ;;
         partition <- py_slice part (slice_from from) ;;
         heap <- foldM (fun heap idx =>
                   if mem_eqb Z.eqb (Z.of_nat idx) skip_ix then Ok heap
                   else
                     w <- py_index words (Z.of_nat idx) ;;
                     s <- py_index q_sims (Z.of_nat idx) ;;
                     Ok (heappush heap (w, s))) partition [] ;;
         Ok (nlargest o k heap)).
    Proof.
      unfold em_similarity. rewrite Snd. cbn [storage_slice].
      pose proof BE as (_ & B & _ & _). rewrite (built_len _ B). fold words.
      rewrite py_slice_to by lia. cbn [bind nd_cols nd_rows].
      unfold em_dims in Lq. rewrite Snd in Lq. simpl in Lq. rewrite Lq, N.eqb_refl. cbn [bind].
      replace (Z.to_nat (Z.of_N (lenN words))) with n by (unfold n, lenN; lia). reflexivity.
    Qed.

    Lemma top_similarity k : partitions o argpartition -> pushes heappush -> ordered_on o q_sims ->
      (k + n_skipped (em_vocab e) skips <= n)%nat ->
      exists res, em_similarity o argpartition heappush e query (Z.of_nat k) skips = Ok res
        /\ top_k o e query k skips res.
    Proof.
      intros Pa Pu Ord Hk. destruct (Nat.eq_dec n 0) as [Z|Hn].
      { assert (k = 0)%nat as -> by lia.
        rewrite similarity_eq. unfold np_argpartition. cbv zeta. rewrite sims_length, Z. cbn [Z.of_nat]. rewrite Z.eqb_refl. cbn [bind].
        assert (X : forall from, py_slice (@nil nat) (slice_from from) = Ok []).
        { intros from. destruct (py_slice_spec (@nil nat) (slice_from from) ltac:(easy)) as (ix & l & _ & -> & H2).
          destruct H2 as [|? ? ? ? [H2 _]]; [easy|]. simpl in H2. lia. }
        rewrite X. cbn [bind foldM]. exists []. split; [easy|].
        constructor; simpl; try easy; try constructor. }
      pose proof BE as (_ & B & _ & _).
      rewrite similarity_eq. cbv zeta. set (sk := skip_indices (em_vocab e) skips).
      pose proof (skip_count (em_vocab e) skips B) as Ls. fold sk in Ls. rewrite <- Ls in Hk.
      set (m := (k + length sk)%nat) in *.
      replace (- Z.of_nat k - Z.of_nat (length sk))%Z with (- Z.of_nat m)%Z by (unfold m; lia).
      pose proof sims_length as Lm.
      (* the partition *)
      assert (X : exists kth part, np_argpartition argpartition q_sims (- Z.of_nat m) = Ok part
                /\ (kth < n)%nat /\ (kth = n - m \/ m = 0)%nat /\ part = argpartition q_sims kth
                /\ py_slice part (slice_from (- Z.of_nat m)) = Ok (skipn kth part)
                /\ Permutation part (seq 0 n)).
      { unfold np_argpartition. rewrite Lm. destruct (Z.eqb_spec (Z.of_nat n) 0); [lia|]. destruct (Z.ltb_spec (- Z.of_nat m) 0) as [L|L].
        - exists (n - m)%nat, (argpartition q_sims (n - m)).
          destruct (Pa q_sims (n - m)%nat) as [P1 _]; [lia|]. rewrite Lm in P1.
          assert (R : in_range 0 (Z.of_nat n) (- Z.of_nat m + Z.of_nat n) = true) by (apply in_range_spec; lia).
          rewrite R. replace (Z.to_nat (- Z.of_nat m + Z.of_nat n)) with (n - m)%nat by lia.
          split; [easy|]. split; [lia|]. split; [now left|]. split; [easy|]. split; [|easy].
          rewrite py_slice_last.
          + rewrite (Permutation_length P1), seq_length, Nat2Z.id. easy.
          + rewrite (Permutation_length P1), seq_length. lia.
        - assert (m = 0)%nat by lia. exists 0%nat, (argpartition q_sims 0).
          destruct (Pa q_sims 0%nat) as [P1 _]; [lia|]. rewrite Lm in P1.
          assert (R : in_range 0 (Z.of_nat n) (- Z.of_nat m) = true) by (apply in_range_spec; lia).
          rewrite R. replace (Z.to_nat (- Z.of_nat m)) with 0%nat by lia.
          split; [easy|]. split; [lia|]. split; [now right|]. split; [easy|]. split; [|easy].
          replace (- Z.of_nat m)%Z with 0%Z by lia. rewrite py_slice_all. easy. }
      destruct X as (kth & part & E1 & Lk & Km & Ep & E2 & Pp). rewrite E1. cbn [bind]. rewrite E2. cbn [bind].
      assert (InP : forall i, In i part <-> (i < n)%nat).
      { intros i. split; intros H.
        - apply (Permutation_in _ Pp), in_seq in H. lia.
        - apply (Permutation_in _ (Permutation_sym Pp)), in_seq. lia. }
      assert (NDp : NoDup part) by (eapply Permutation_NoDup; [symmetry; exact Pp|apply seq_NoDup]).
      assert (NDs : NoDup (skipn kth part)).
      { rewrite <- (firstn_skipn kth part) in NDp. now apply NoDup_appr in NDp. }
      destruct (heap_spec words q_sims sk (skipn kth part) [] Pu) as (heap & E3 & Ph).
      { apply Forall_forall. intros i Hi. apply skipn_In, InP in Hi. rewrite Lm. unfold n in Hi |- *. easy. }
      rewrite E3. cbn [bind]. eexists. split; [reflexivity|].
      rewrite app_nil_r in Ph. set (keep := filter _ (skipn kth part)) in Ph.
      set (pair := fun i => (nth i words [], nth i q_sims (fzero o))) in Ph.
      assert (InK : forall i, In i keep <-> In i (skipn kth part) /\ ~ In (Z.of_nat i) sk).
      { intros i. unfold keep. rewrite filter_In, negb_true_iff. now rewrite (mem_eqb_not_In Z.eqb Z.eqb_eq). }
      unfold nlargest. rewrite Nat2Z.id.
      assert (Hh : Forall (fun y => In (snd y) q_sims) heap).
      { apply Forall_forall. intros y Hy. apply (Permutation_in _ Ph) in Hy. apply in_map_iff in Hy as (i & <- & Hi).
        apply InK in Hi as [Hi _]. apply skipn_In, InP in Hi. simpl. apply nth_In. lia. }
      pose proof (sort_sorted q_sims heap Ord Hh) as Srt.
      assert (Ps : Permutation (sort_desc o heap) (map pair keep)) by (now rewrite sort_perm).
      (* how many are kept *)
      assert (Lkeep : (k <= length keep)%nat).
      { destruct Km as [->|M0]; [|unfold m in M0; lia].
        assert (Lsk : length (skipn (n - m) part) = m).
        { rewrite skipn_length, (Permutation_length Pp), seq_length. lia. }
        pose proof (filter_both (fun i => mem_eqb Z.eqb (Z.of_nat i) sk) (skipn (n - m) part)) as FL.
        rewrite Lsk in FL.
        assert (Le : (length (filter (fun i => mem_eqb Z.eqb (Z.of_nat i) sk) (skipn (n - m) part)) <= length sk)%nat).
        { rewrite <- (map_length Z.of_nat). apply NoDup_incl_length.
          - apply FinFun.Injective_map_NoDup; [intros x y; lia|]. now apply NoDup_filter.
          - intros z Hz. apply in_map_iff in Hz as (i & <- & Hi). apply filter_In in Hi as [_ Hi].
            now apply (mem_eqb_In Z.eqb Z.eqb_eq) in Hi. }
        unfold keep. unfold m in FL at 3. lia. }
      assert (InRes : forall w s, In (w, s) (sort_desc o heap) ->
                exists i, In i keep /\ nth_error words i = Some w /\ nth_error q_sims i = Some s).
      { intros w s H. apply (Permutation_in _ Ps) in H. apply in_map_iff in H as (i & E & Hi). exists i.
        split; [easy|]. apply InK in Hi as [Hi _]. apply skipn_In, InP in Hi. injection E as <- <-.
        split; apply nth_error_nth'; [exact Hi|lia]. }
      constructor.
      - rewrite firstn_length, (Permutation_length Ps), map_length. lia.
      - apply StronglySorted_firstn. exact Srt.
      - assert (ND : NoDup (map fst (sort_desc o heap))).
        { eapply Permutation_NoDup; [symmetry; apply Permutation_map; exact Ps|]. rewrite map_map. simpl.
          assert (NDk : NoDup keep) by (now apply NoDup_filter).
          apply NoDup_map_in; [easy|]. intros x y Hx Hy E.
          apply InK in Hx as [Hx _]. apply InK in Hy as [Hy _]. apply skipn_In, InP in Hx, Hy.
          pose proof (built_vocab_index _ B) as [ND _]. fold words in ND.
          apply (NoDup_nth words []); easy. }
        rewrite <- (firstn_skipn k (sort_desc o heap)), map_app in ND. now apply NoDup_appl in ND.
      - intros w s Hi. apply firstn_In' in Hi. apply InRes in Hi as (i & Hi & Hw & Hs). apply InK in Hi as [Hi Ns].
        split.
        + intros Hsk. apply Ns. apply skip_indices_In; [easy|]. exists w. rewrite Nat2Z.id. split; [lia|]. easy.
        + exists i. split; [easy|]. now apply sims_all.
      - intros i w s Hw Hs Ns Nr w' s' Hr.
        assert (Hi : (i < n)%nat) by (apply nth_error_Some; unfold words; congruence).
        apply sim_unique in Hs; [|easy].
        assert (Nsk : ~ In (Z.of_nat i) sk).
        { intros H. apply skip_indices_In in H as (w2 & _ & H2 & H3); [|easy]. rewrite Nat2Z.id in H2.
          fold words in Hw, H2. congruence. }
        destruct (in_dec Nat.eq_dec i (skipn kth part)) as [Hp|Hp].
        + (* cut off by nlargest *)
          assert (Hin : In (w, s) (sort_desc o heap)).
          { apply (Permutation_in _ (Permutation_sym Ps)). apply in_map_iff. exists i. split; [|now apply InK].
            unfold pair. f_equal; apply nth_error_nth; assumption. }
          rewrite <- (firstn_skipn k (sort_desc o heap)) in Hin. apply in_app_iff in Hin as [Hin|Hin].
          * exfalso. apply Nr. now apply (in_map fst) in Hin.
          * exact (StronglySorted_split desc k _ _ _ Srt Hr Hin).
        + (* before the partition point *)
          apply firstn_In' in Hr. apply InRes in Hr as (j & Hj & Hw' & Hs'). apply InK in Hj as [Hj _].
          apply In_skipn_pos in Hj as (pj & Lj & Ej).
          assert (Hi2 : In i part) by (now apply InP). apply In_nth_error in Hi2 as [pi Ei].
          assert (Li : (pi < kth)%nat).
          { destruct (Nat.lt_ge_cases pi kth) as [L|L]; [easy|]. exfalso. apply Hp.
            replace pi with (kth + (pi - kth))%nat in Ei by lia. rewrite <- skipn_nth in Ei. now apply nth_error_In in Ei. }
          destruct (Pa q_sims kth) as [_ Po]; [lia|]. specialize (Po Ord). rewrite <- Ep in Po.
          assert (Lp : length part = n) by (now rewrite (Permutation_length Pp), seq_length).
          destruct (nth_error part kth) as [c|] eqn:Ec; [|apply nth_error_None in Ec; lia].
          assert (Hc : (c < n)%nat) by (apply InP; now apply nth_error_In in Ec).
          destruct (nth_error q_sims c) as [y|] eqn:Ey; [|apply nth_error_None in Ey; lia].
          pose proof (proj1 (Po pi c i s y eq_refl Ey Ei Hs) Li) as R1.
          destruct (Nat.eq_dec pj kth) as [->|Nj].
          * rewrite Ec in Ej. injection Ej as ->. rewrite Ey in Hs'. injection Hs' as ->. exact R1.
          * pose proof (proj2 (Po pj c j s' y eq_refl Ey Ej Hs') ltac:(lia)) as R2.
            destruct Ord as [_ Tr]. apply (Tr s y s'); try easy; eapply nth_error_In; eassumption.
    Qed.

    (* C28 *)
    Lemma similarity_too_many k : n <> 0%nat -> (0 <= k)%Z -> (Z.of_nat n < k + Z.of_nat (n_skipped (em_vocab e) skips))%Z ->
      em_similarity o argpartition heappush e query k skips = Err ValueError.
    Proof.
      intros Hn H0 H. pose proof BE as (_ & B & _ & _). rewrite similarity_eq. cbv zeta.
      rewrite (skip_count _ _ B). unfold np_argpartition. rewrite sims_length.
      destruct (Z.eqb_spec (Z.of_nat n) 0); [lia|].
      destruct (Z.ltb_spec (- k - Z.of_nat (n_skipped (em_vocab e) skips)) 0); [|lia].
      destruct (in_range _ _ _) eqn:R; [|easy]. apply in_range_spec in R. lia.
    Qed.
  End Query.

  Lemma similarity_at_most (e : embeddings F) query k skips res :
    em_similarity o argpartition heappush e query k skips = Ok res -> (Z.of_nat (length res) <= Z.max 0 k)%Z.
  Proof.
    unfold em_similarity. intros H. apply bind_ok in H as (s & _ & H). destruct s as [a|]; [|easy].
    apply bind_ok in H as (? & _ & H). apply bind_ok in H as (? & _ & H). apply bind_ok in H as (? & _ & H).
    apply bind_ok in H as (heap & _ & H). injection H as <-. unfold nlargest. rewrite firstn_length. lia.
  Qed.

  (* C29 *)
  Lemma similarity_quantized (e : embeddings F) q query k skips : built_embeddings e -> em_storage e = SQuant q ->
    em_similarity o argpartition heappush e query k skips = Err AttributeError.
  Proof.
    intros (W & _ & _ & _) E. unfold em_similarity.
    destruct (storage_slice_ok (em_storage e) (slice_to (Z.of_N (vocab_len (em_vocab e)))) W ltac:(easy)) as [s Hs].
    rewrite Hs. cbn [bind]. rewrite E in Hs. simpl in Hs. apply bind_ok in Hs as (q' & _ & Hs). now injection Hs as <-.
  Qed.

  (* ---------------------------------------------------------------- *)
  (* queries by word                                                   *)

  Lemma embedding_len (e : embeddings F) w v : built_embeddings e ->
    em_embedding o e w None = Ok (Some v) -> lenN v = em_dims e.
  Proof.
    intros (W & _ & _ & _) H. unfold em_embedding in H. apply bind_ok in H as ([ix|] & _ & H); [|easy].
    apply bind_ok in H as ([x y] & H & E). injection E as <-. unfold em_embedding_at in H.
    destruct ix as [i|l].
    - apply bind_ok in H as (row & Hr & H). apply ExplicitEmb.storage_get_len in Hr; [|easy]. unfold em_dims.
      destruct (em_norms e) as [nm|]; [apply bind_ok in H as (? & _ & H)|]; injection H as <- _; exact Hr.
    - apply bind_ok in H as (rows & Hr & H). cbv zeta in H. injection H as <- _.
      apply LookupProofs.get_list_iff in Hr. apply LookupProofs.rows_at_len in Hr; [|easy].
      destruct (LookupProofs.vsum_is_sum o _ rows Hr) as [L _]. unfold vdiv, lenN. rewrite map_length.
      fold (em_dims e) in *. rewrite L. lia.
  Qed.

  Lemma sims_unique (e : embeddings F) a query sims : built_embeddings e -> nonneg_index (em_vocab e) ->
    em_storage e = SNd a -> all_similarities o e query sims -> sims = q_sims e a query.
  Proof.
    intros BE NN E [L A]. apply nth_error_ext'. intros i.
    pose proof (sims_length e a query BE NN E) as L2. unfold n_words in L.
    destruct (nth_error sims i) as [s|] eqn:Es.
    - symmetry. apply sim_unique; [easy|now apply A|]. rewrite <- L. apply nth_error_Some. congruence.
    - symmetry. apply nth_error_None. apply nth_error_None in Es. lia.
  Qed.

  Lemma word_similarity_top (e : embeddings F) a w query sims k :
    built_embeddings e -> nonneg_index (em_vocab e) -> em_storage e = SNd a ->
    partitions o argpartition -> pushes heappush ->
    em_embedding o e w None = Ok (Some query) ->
    all_similarities o e query sims -> ordered_on o sims ->
    (k + n_skipped (em_vocab e) [w] <= n_words (em_vocab e))%nat ->
    exists res, em_word_similarity o argpartition heappush e w (Z.of_nat k) = Ok (Some res)
      /\ top_k o e query k [w] res.
  Proof.
    intros BE NN E Pa Pu Hq Hs Ho Hk. rewrite (sims_unique e a query sims BE NN E Hs) in Ho.
    destruct (top_similarity e a query [w] BE NN E (embedding_len e w query BE Hq) k Pa Pu Ho Hk) as (res & R & T).
    exists res. split; [|easy]. unfold em_word_similarity. rewrite Hq. cbn [bind]. now rewrite R.
  Qed.
  Lemma word_similarity_none (e : embeddings F) w k :
    em_embedding o e w None = Ok None -> em_word_similarity o argpartition heappush e w k = Ok None.
  Proof. intros H. unfold em_word_similarity. now rewrite H. Qed.

  (* C30 *)
  Lemma is_target_len (a b c : list F) d : is_target o a b c d -> length d = length c.
  Proof. intros (x & (L & _) & ->). now rewrite map_length. Qed.

  Lemma analogy_spec (e : embeddings F) w1 w2 w3 k skip ea eb ec : built_embeddings e ->
    em_embedding o e w1 None = Ok ea -> em_embedding o e w2 None = Ok eb -> em_embedding o e w3 None = Ok ec ->
    match ea, eb, ec with
    | Some a, Some b, Some c =>
        exists d, is_target o a b c d
          /\ em_analogy o argpartition heappush e w1 w2 w3 k skip
             = match em_embedding_similarity o argpartition heappush e d k
                       (Some (match skip with None => [w1; w2; w3] | Some s => s end)) with
               | Ok r => Ok (Some r) | Err x => Err x end
    | _, _, _ => em_analogy o argpartition heappush e w1 w2 w3 k skip = Ok None
    end.
  Proof.
    intros BE Ha Hb Hc. unfold em_analogy. rewrite Ha, Hb, Hc. cbn [bind].
    destruct ea as [a|], eb as [b|], ec as [c|]; try easy.
    apply embedding_len in Ha, Hb, Hc; try easy. unfold lenN in *.
    eexists. split; [|reflexivity]. exists (vadd o c (vsub o b a)). split; [|easy]. split.
    - rewrite LookupProofs.vadd_length. unfold vsub. rewrite map2_length. apply Nat.min_l. lia.
    - intros j x y z Hx Hy Hz. unfold vadd, vsub. rewrite !map2_nth, Hx, Hy, Hz. easy.
  Qed.
  Lemma analogy_none (e : embeddings F) w1 w2 w3 k skip ea eb ec : built_embeddings e ->
    em_embedding o e w1 None = Ok ea -> em_embedding o e w2 None = Ok eb -> em_embedding o e w3 None = Ok ec ->
    em_analogy o argpartition heappush e w1 w2 w3 k skip = Ok None <-> (ea = None \/ eb = None \/ ec = None).
  Proof.
    intros BE Ha Hb Hc. pose proof (analogy_spec e w1 w2 w3 k skip ea eb ec BE Ha Hb Hc) as H.
    destruct ea, eb, ec; try (rewrite H; tauto). destruct H as (d & _ & ->).
    destruct (em_embedding_similarity _ _ _ _ _ _ _); split; try easy; intros [|[|]]; easy.
  Qed.

  Lemma analogy_top (e : embeddings F) a w1 w2 w3 skip x y z d sims k :
    built_embeddings e -> nonneg_index (em_vocab e) -> em_storage e = SNd a ->
    partitions o argpartition -> pushes heappush ->
    em_embedding o e w1 None = Ok (Some x) -> em_embedding o e w2 None = Ok (Some y) ->
    em_embedding o e w3 None = Ok (Some z) ->
    is_target o x y z d -> all_similarities o e d sims -> ordered_on o sims ->
    let skips := match skip with None => [w1; w2; w3] | Some s => s end in
    (k + n_skipped (em_vocab e) skips <= n_words (em_vocab e))%nat ->
    exists res, em_analogy o argpartition heappush e w1 w2 w3 (Z.of_nat k) skip = Ok (Some res)
      /\ top_k o e d k skips res.
  Proof.
    intros BE NN E Pa Pu Ha Hb Hc Ht Hs Ho skips Hk. rewrite (sims_unique e a d sims BE NN E Hs) in Ho.
    destruct (analogy_spec e w1 w2 w3 (Z.of_nat k) skip _ _ _ BE Ha Hb Hc) as (d' & Ht' & ->).
    apply embedding_len in Ha, Hb, Hc; try easy.
    assert (d' = d).
    { destruct Ht as (u & [L1 U1] & ->), Ht' as (u' & [L2 U2] & ->).
      assert (u' = u) as ->; [|easy]. apply nth_error_ext'. intros j. unfold lenN in *.
      destruct (nth_error x j) as [p|] eqn:Ex.
      2:{ apply nth_error_None in Ex. rewrite !(proj2 (nth_error_None _ _)) by lia. easy. }
      assert (J : (j < length x)%nat) by (apply nth_error_Some; congruence).
      destruct (nth_error y j) as [q|] eqn:Ey; [|apply nth_error_None in Ey; lia].
      destruct (nth_error z j) as [r|] eqn:Ez; [|apply nth_error_None in Ez; lia].
      now rewrite (U1 j p q r), (U2 j p q r). }
    subst d'.
    assert (Ld : lenN d = em_dims e) by (apply is_target_len in Ht; unfold lenN in *; lia).
    destruct (top_similarity e a d skips BE NN E Ld k Pa Pu Ho Hk) as (res & R & T).
    exists res. split; [|easy]. unfold em_embedding_similarity. fold skips. now rewrite R.
  Qed.

  Lemma embedding_similarity_top (e : embeddings F) a query sims k skip :
    built_embeddings e -> nonneg_index (em_vocab e) -> em_storage e = SNd a ->
    partitions o argpartition -> pushes heappush ->
    lenN query = em_dims e -> all_similarities o e query sims -> ordered_on o sims ->
    let skips := match skip with None => [] | Some s => s end in
    (k + n_skipped (em_vocab e) skips <= n_words (em_vocab e))%nat ->
    exists res, em_embedding_similarity o argpartition heappush e query (Z.of_nat k) skip = Ok res
      /\ top_k o e query k skips res.
  Proof.
    intros BE NN E Pa Pu L Hs Ho skips Hk. rewrite (sims_unique e a query sims BE NN E Hs) in Ho.
    exact (top_similarity e a query skips BE NN E L k Pa Pu Ho Hk).
  Qed.

  Lemma sims_exist (e : embeddings F) a query : built_embeddings e -> nonneg_index (em_vocab e) ->
    em_storage e = SNd a -> exists sims, all_similarities o e query sims.
  Proof. intros BE NN E. eexists. now apply (sims_all e a query). Qed.

  Lemma embedding_similarity_too_many (e : embeddings F) a query k skip :
    built_embeddings e -> nonneg_index (em_vocab e) -> em_storage e = SNd a ->
    lenN query = em_dims e -> (0 <= k)%Z -> (0 < n_words (em_vocab e))%nat ->
    (Z.of_nat (n_words (em_vocab e)) < k + Z.of_nat (n_skipped (em_vocab e) (match skip with None => [] | Some s => s end)))%Z ->
    em_embedding_similarity o argpartition heappush e query k skip = Err ValueError.
  Proof.
    intros BE NN E L K N H. unfold n_words in *. apply (similarity_too_many e a query _ BE NN E L k); [lia|easy|easy].
  Qed.

  Lemma at_most_k (e : embeddings F) k :
    (forall query skip res, em_embedding_similarity o argpartition heappush e query k skip = Ok res ->
       (Z.of_nat (length res) <= Z.max 0 k)%Z)
    /\ (forall w res, em_word_similarity o argpartition heappush e w k = Ok (Some res) ->
       (Z.of_nat (length res) <= Z.max 0 k)%Z)
    /\ (forall w1 w2 w3 skip res, em_analogy o argpartition heappush e w1 w2 w3 k skip = Ok (Some res) ->
       (Z.of_nat (length res) <= Z.max 0 k)%Z).
  Proof.
    split; [|split].
    - intros query skip res H. eapply similarity_at_most; exact H.
    - intros w res H. unfold em_word_similarity in H. apply bind_ok in H as ([v|] & _ & H); [|easy].
      apply bind_ok in H as (r & Hr & H). injection H as <-. eapply similarity_at_most; exact Hr.
    - intros w1 w2 w3 skip res H. unfold em_analogy in H.
      apply bind_ok in H as ([a|] & _ & H); apply bind_ok in H as ([b|] & _ & H); apply bind_ok in H as ([c|] & _ & H); try easy.
      cbv zeta in H. apply bind_ok in H as (r & Hr & H). injection H as <-. eapply similarity_at_most; exact Hr.
  Qed.

  (* C29 *)
  Lemma quantized_fails (e : embeddings F) q k : built_embeddings e -> em_storage e = SQuant q ->
    (forall query skip, em_embedding_similarity o argpartition heappush e query k skip = Err AttributeError)
    /\ (forall w v, em_embedding o e w None = Ok (Some v) ->
          em_word_similarity o argpartition heappush e w k = Err AttributeError)
    /\ (forall w1 w2 w3 skip a b c, em_embedding o e w1 None = Ok (Some a) -> em_embedding o e w2 None = Ok (Some b) ->
          em_embedding o e w3 None = Ok (Some c) ->
          em_analogy o argpartition heappush e w1 w2 w3 k skip = Err AttributeError).
  Proof.
    intros BE E. split; [|split].
    - intros query skip. now apply (similarity_quantized e q).
    - intros w v H. unfold em_word_similarity. rewrite H. cbn [bind]. now rewrite (similarity_quantized e q) by easy.
    - intros w1 w2 w3 skip a b c Ha Hb Hc. unfold em_analogy. rewrite Ha, Hb, Hc. cbn [bind].
      now rewrite (similarity_quantized e q) by easy.
  Qed.
End Sim.
