(* Membership, iteration and length. *)
From Coq Require Import Lia.
From Verif Require Import Py PyProofs Arr Subword Vocab VocabProofs Storage Chunks Embeddings Container
  Spec SpecVocab SpecLookup SpecContainer VocabFacts WordProofs LookupProofs.
Local Open Scope N_scope.

Section Items.
  Variables (known : str -> bool) (words : list str).
  Hypothesis K : forall s, known s = true <-> In s words.

  Lemma item_in_iff : forall x, item_in known x = true <-> all_among words x.
  Proof.
    fix IH 1. intros [s|l|]; cbn [item_in].
    - rewrite K. split.
      + intros H y L. inversion L; subst. now exists s.
      + intros H. destruct (H (ItStr s) (LeafStr s)) as (s' & E & I). now injection E as <-.
    - split.
      + intros H y L. inversion L as [| |a b l' I L']; subst.
        revert I H. revert L'. induction l as [|c l IHl]; intros L' I H; [destruct I|].
        cbn [forallb] in H. apply andb_true_iff in H as [H1 H2].
        destruct I as [<-|I]; [exact (proj1 (IH c) H1 y L')|]. apply IHl; try assumption.
        now apply (LeafIter _ b).
      + intros H. induction l as [|c l IHl]; [reflexivity|]. cbn [forallb]. apply andb_true_iff. split.
        * apply IH. intros y L. apply H. apply (LeafIter _ c); [now left|exact L].
        * apply IHl. intros y L. apply H. inversion L as [| |a b l' I L']; subst. apply (LeafIter _ b); [now right|exact L'].
    - split; [discriminate|]. intros H. destruct (H ItOther LeafOther) as (s & E & _). discriminate E.
  Qed.
  Lemma words_in gs : item_in known (ItIter (map ItStr gs)) = true <-> incl gs words.
  Proof.
    cbn [item_in]. rewrite forallb_forall. split.
    - intros H g I. apply K. apply (H (ItStr g)). now apply in_map.
    - intros H y I. apply in_map_iff in I as (g & <- & I). cbn. apply K. now apply H.
  Qed.
End Items.

Theorem vocab_in_iff v : built_vocab v ->
  (forall x, vocab_in v x = true <-> all_among (vocab_words v) x)
  /\ (forall w, vocab_in v (vocab_item w) = true <-> incl (vocab_iter w) (vocab_iter v))
  /\ NoDup (vocab_iter v) /\ vocab_len v = lenN (vocab_iter v).
Proof.
  intros B. destruct (built_lookup v B) as (L & _ & K & _). split; [|split; [|split]].
  - now apply item_in_iff.
  - intros w. now apply words_in.
  - apply (built_vocab_index v B).
  - exact L.
Qed.
Theorem ex_in_iff ngrams mn mx index ix : (forall i, index = Some i -> dict_wf i) -> ex_new ngrams mn mx index = Ok ix ->
  ex_iter ix = ngrams /\ NoDup ngrams /\ ex_len ix = lenN ngrams
  /\ (forall x, ex_in ix x = true <-> all_among ngrams x)
  /\ (forall g, In g ngrams <-> exists i, ex_getitem ix g = Ok i)
  /\ (forall g, ~ In g ngrams <-> ex_getitem ix g = Err KeyError)
  /\ (forall g i, ex_getitem ix g = Ok i <-> ex_call ix g = Some i).
Proof.
  intros W H. destruct (ex_new_inv ngrams mn mx index ix W H) as ((ND & NK & G & _) & E & _ & _ & _).
  rewrite E in *.
  assert (K : forall s, (match sget s (ex_index ix) with Some _ => true | None => false end) = true <-> In s ngrams).
  { intros s. change (dmem str_eqb s (ex_index ix) = true <-> In s ngrams). rewrite (dmem_In str_eqb str_eqb_eq). apply G. }
  split; [exact E|]. split; [exact ND|]. split.
  - unfold ex_len, lenN. rewrite <- (map_length fst). f_equal. apply Nat.le_antisymm; apply NoDup_incl_length; try assumption; intros g; apply G.
  - split; [now apply item_in_iff|]. split; [|split].
    + intros g. rewrite <- K. unfold ex_getitem. destruct (sget g (ex_index ix)) as [i|]; split; try easy; eauto. intros [i Hi]. discriminate.
    + intros g. rewrite <- K. unfold ex_getitem. destruct (sget g (ex_index ix)) as [i|]; split; try easy.
    + intros g i. unfold ex_getitem, ex_call. destruct (sget g (ex_index ix)) as [j|]; split; congruence.
Qed.
Theorem em_in_iff {F} (e : embeddings F) : built_embeddings e ->
  (forall x, em_in e x = true <-> all_among (vocab_words (em_vocab e)) x).
Proof. intros (_ & B & _). apply (vocab_in_iff _ B). Qed.
