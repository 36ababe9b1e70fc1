(* The outcome of similarity queries for every k. *)
From Coq Require Import Lia Sorted Permutation.
From Verif Require Import Py PyProofs Arr ArrProofs Subword Vocab VocabProofs Storage Chunks
  Embeddings Spec SpecVocab SpecLookup SpecSim VocabFacts WordProofs StorageGet SimProofs.
From Verif Require ExplicitEmb LookupProofs.

Section Exact.
  Context {F : Type} (o : fops F).
  Variable argpartition : list F -> nat -> list nat.
  Variable heappush : list (str * F) -> str * F -> list (str * F).

  Section Query.
    Variables (e : embeddings F) (a : ndarray F) (query : list F) (skips : list str).
    Hypothesis BE : built_embeddings e.
    Hypothesis NN : nonneg_index (em_vocab e).
    Hypothesis Snd : em_storage e = SNd a.
    Hypothesis Lq : lenN query = em_dims e.
    Hypothesis Pa : partitions o argpartition.
    Hypothesis Pu : pushes heappush.

    Let words := vocab_words (em_vocab e).
    Let n := length words.
    Let sims := q_sims o e a query.

    Lemma slice_from_any (p : list nat) from : exists l, py_slice p (slice_from from) = Ok l
      /\ (forall i, In i l -> In i p) /\ (from = 0%Z -> l = p)
      /\ ((- Z.of_nat (length p) <= from < 0)%Z -> l = skipn (Z.to_nat (Z.of_nat (length p) + from)) p).
    Proof.
      clear. destruct (py_slice_spec p (slice_from from) ltac:(easy)) as (ix & l & _ & E & H2). exists l. split; [exact E|].
      split; [|split].
      - intros i Hi. clear E. induction H2 as [|j b ix l [_ H] H2 IH]; [easy|]. destruct Hi as [<-|Hi]; [now apply nth_error_In in H|auto].
      - intros ->. rewrite py_slice_all in E. now apply Ok_inj in E.
      - intros R. replace from with (- - from)%Z in E by lia. rewrite py_slice_last in E by lia. apply Ok_inj in E. rewrite <- E. f_equal. lia.
    Qed.

    Lemma outcome_similarity k : outcome o e query k skips (em_similarity o argpartition heappush e query k skips).
    Proof.
      pose proof BE as (_ & B & _ & _). pose proof (sims_length o argpartition e a query BE NN Snd) as Lm.
      pose proof (similarity_eq o argpartition heappush e a query skips BE Snd Lq k) as EQ. cbv zeta in EQ.
      pose proof (skip_count (em_vocab e) skips B) as Ls.
      fold words in EQ, Lm. fold sims in EQ, Lm. fold n in Lm.
      set (sk := skip_indices (em_vocab e) skips) in *. set (s := n_skipped (em_vocab e) skips) in *.
      unfold outcome. cbv zeta. unfold n_words. fold words. fold n. fold s. rewrite EQ. clear EQ. rewrite Ls.
      unfold np_argpartition. cbv zeta. rewrite Lm. split; [|split].
      - intros Z. rewrite Z, Z.eqb_refl. cbn [bind]. destruct (slice_from_any [] (- k - Z.of_nat s)) as (l & -> & I & _). cbn [bind].
        destruct l as [|i l]; [|destruct (I i); now left]. cbn [foldM bind]. unfold nlargest. cbn [sort_desc]. now rewrite firstn_nil.
      - intros P H. destruct (Z.eqb_spec (Z.of_nat n) 0); [lia|].
        destruct (Z.ltb_spec (- k - Z.of_nat s) 0); (destruct (in_range _ _ _) eqn:R; [|reflexivity]); apply in_range_spec in R; lia.
      - intros P H. destruct (Z.eqb_spec (Z.of_nat n) 0); [lia|].
        set (kth := if (- k - Z.of_nat s <? 0)%Z then (- k - Z.of_nat s + Z.of_nat n)%Z else (- k - Z.of_nat s)%Z).
        assert (RK : (0 <= kth < Z.of_nat n)%Z) by (unfold kth; destruct (Z.ltb_spec (- k - Z.of_nat s) 0); lia).
        rewrite (proj2 (in_range_spec 0 (Z.of_nat n) kth)) by lia. cbn [bind].
        destruct (Pa sims (Z.to_nat kth)) as [Pp _]; [lia|]. rewrite Lm in Pp.
        set (part := argpartition sims (Z.to_nat kth)) in *.
        assert (Lp : length part = n) by (now rewrite (Permutation_length Pp), seq_length).
        destruct (slice_from_any part (- k - Z.of_nat s)) as (l & -> & IL & _ & EL). cbn [bind].
        assert (InP : forall i, In i part -> (i < n)%nat).
        { intros i Hi. apply (Permutation_in _ Pp), in_seq in Hi. lia. }
        destruct (heap_spec o heappush words sims sk l [] Pu) as (heap & E3 & Ph).
        { apply Forall_forall. intros i Hi. apply IL, InP in Hi. rewrite Lm. now split. }
        rewrite E3. cbn [bind]. eexists. split; [reflexivity|]. unfold nlargest.
        rewrite app_nil_r in Ph. set (keep := filter (fun i : nat => negb (mem_eqb Z.eqb (Z.of_nat i) sk)) l) in Ph.
        set (pair := fun i => (nth i words [], nth i sims (fzero o))) in Ph.
        destruct (Z.le_gt_cases k 0) as [K0|K0].
        { replace (Z.to_nat k) with 0%nat by lia. cbn [firstn]. split; [reflexivity|]. split; [constructor|]. easy. }
        assert (NDp : NoDup part) by (eapply Permutation_NoDup; [symmetry; exact Pp|apply seq_NoDup]).
        specialize (EL ltac:(rewrite Lp; lia)). rewrite Lp in EL. subst l.
        set (from := Z.to_nat (Z.of_nat n + (- k - Z.of_nat s))) in *.
        assert (NDs : NoDup (skipn from part)).
        { rewrite <- (firstn_skipn from part) in NDp. now apply NoDup_appr in NDp. }
        assert (InK : forall i, In i keep -> (i < n)%nat /\ ~ In (Z.of_nat i) sk).
        { intros i Hi. apply filter_In in Hi as [Hi Hn]. apply negb_true_iff in Hn.
          apply (mem_eqb_not_In Z.eqb Z.eqb_eq) in Hn. split; [|exact Hn]. now apply InP, IL. }
        assert (Ps : Permutation (sort_desc o heap) (map pair keep)) by (now rewrite sort_perm).
        assert (Lkeep : (Z.to_nat k <= length keep)%nat).
        { assert (Lsk : length (skipn from part) = Z.to_nat (k + Z.of_nat s)).
          { rewrite skipn_length, Lp. unfold from. lia. }
          pose proof (filter_both (fun i => mem_eqb Z.eqb (Z.of_nat i) sk) (skipn from part)) as FL.
          rewrite Lsk in FL.
          assert (Le : (length (filter (fun i => mem_eqb Z.eqb (Z.of_nat i) sk) (skipn from part)) <= length sk)%nat).
          { rewrite <- (map_length Z.of_nat). apply NoDup_incl_length.
            - apply FinFun.Injective_map_NoDup; [intros x y; lia|]. now apply NoDup_filter.
            - intros z Hz. apply in_map_iff in Hz as (i & <- & Hi). apply filter_In in Hi as [_ Hi].
              now apply (mem_eqb_In Z.eqb Z.eqb_eq) in Hi. }
          fold s in Ls. unfold keep. lia. }
        split; [rewrite firstn_length, (Permutation_length Ps), map_length; lia|]. split.
        + assert (ND : NoDup (map fst (sort_desc o heap))).
          { eapply Permutation_NoDup; [symmetry; apply Permutation_map; exact Ps|]. rewrite map_map. simpl.
            assert (NDk : NoDup keep) by (now apply NoDup_filter).
            apply NoDup_map_in; [easy|]. intros x y Hx Hy E. apply InK in Hx as [Hx _]. apply InK in Hy as [Hy _].
            pose proof (built_vocab_index _ B) as [ND _]. fold words in ND. apply (NoDup_nth words []); easy. }
          rewrite <- (firstn_skipn (Z.to_nat k) (sort_desc o heap)), map_app in ND. now apply NoDup_appl in ND.
        + intros w x Hi. apply firstn_In', (Permutation_in _ Ps), in_map_iff in Hi as (i & E & Hi).
          apply InK in Hi as [Hi Ns]. injection E as <- <-.
          assert (Hw : nth_error words i = Some (nth i words [])) by (now apply nth_error_nth').
          split.
          * intros Hsk. apply Ns. apply skip_indices_In; [easy|]. exists (nth i words []). rewrite Nat2Z.id. split; [lia|]. easy.
          * exists i. split; [exact Hw|]. apply (sims_all o argpartition e a query BE NN Snd). apply nth_error_nth'. fold sims. lia.
    Qed.
  End Query.

  Section Outcomes.
    Variables (e : embeddings F) (a : ndarray F).
    Hypothesis BE : built_embeddings e.
    Hypothesis NN : nonneg_index (em_vocab e).
    Hypothesis Snd : em_storage e = SNd a.
    Hypothesis Pa : partitions o argpartition.
    Hypothesis Pu : pushes heappush.

    Theorem embedding_similarity_outcome query k skip :
      (lenN query <> em_dims e -> em_embedding_similarity o argpartition heappush e query k skip = Err ValueError)
      /\ (lenN query = em_dims e ->
          outcome o e query k (match skip with None => [] | Some s => s end)
            (em_embedding_similarity o argpartition heappush e query k skip)).
    Proof.
      split.
      - intros H. unfold em_embedding_similarity, em_similarity. rewrite Snd. cbn [storage_slice].
        destruct (py_slice_spec (nd_rows a) (slice_to (Z.of_N (vocab_len (em_vocab e)))) ltac:(easy)) as (ix & l & _ & -> & _).
        cbn [bind nd_cols nd_rows]. unfold em_dims in H. rewrite Snd in H. cbn in H.
        apply N.eqb_neq in H. rewrite H. reflexivity.
      - intros H. unfold em_embedding_similarity. apply (outcome_similarity e a query _ BE NN Snd H Pa Pu).
    Qed.
    Theorem word_similarity_outcome w query k : em_embedding o e w None = Ok (Some query) ->
      exists r, outcome o e query k [w] r
        /\ em_word_similarity o argpartition heappush e w k = match r with Ok l => Ok (Some l) | Err x => Err x end.
    Proof.
      intros H. exists (em_similarity o argpartition heappush e query k [w]). split.
      - apply (outcome_similarity e a query _ BE NN Snd (embedding_len o e w query BE H) Pa Pu).
      - unfold em_word_similarity. rewrite H. cbn [bind]. now destruct (em_similarity _ _ _ _ _ _ _).
    Qed.
    Theorem analogy_outcome w1 w2 w3 x y z k skip :
      em_embedding o e w1 None = Ok (Some x) -> em_embedding o e w2 None = Ok (Some y) ->
      em_embedding o e w3 None = Ok (Some z) ->
      exists d r, is_target o x y z d
        /\ outcome o e d k (match skip with None => [w1; w2; w3] | Some s => s end) r
        /\ em_analogy o argpartition heappush e w1 w2 w3 k skip = match r with Ok l => Ok (Some l) | Err x => Err x end.
    Proof.
      intros H1 H2 H3. destruct (analogy_spec o argpartition heappush e w1 w2 w3 k skip _ _ _ BE H1 H2 H3) as (d & T & E).
      exists d. eexists. split; [exact T|]. split; [|exact E].
      apply (embedding_similarity_outcome d k (Some _)). apply is_target_len in T.
      apply (embedding_len o e w3 z BE) in H3. unfold lenN in *. lia.
    Qed.
  End Outcomes.
End Exact.
