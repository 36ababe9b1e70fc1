(* Assignments of norms and metadata. *)
From Coq Require Import Lia.
From Verif Require Import Py PyProofs IO Arr Vocab VocabProofs Storage Chunks Embeddings
  Spec SpecVocab SpecLookup SpecHeap VocabFacts WordProofs.

Section Setters.
  Context {F : Type}.

  Lemma compat_iff (s : storage F) v n : built_vocab v ->
    (norms_compat s v n = Ok tt
     <-> lenN (nm_vals n) = lenN (vocab_words v) /\ lenN (nm_vals n) <= fst (storage_shape s))
    /\ (norms_compat s v n = Ok tt \/ norms_compat s v n = Err AssertionError).
  Proof.
    intros B. unfold norms_compat, py_assert. rewrite (built_len _ B).
    destruct (N.leb_spec (lenN (nm_vals n)) (fst (storage_shape s))); cbn [bind].
    - destruct (N.eqb_spec (lenN (vocab_words v)) (lenN (nm_vals n))); split; auto; split; try easy. intros []; congruence.
    - split; [|auto]. split; [easy|]. lia.
  Qed.

  Lemma built_consistent (e : embeddings F) : built_embeddings e -> consistent e.
  Proof.
    intros (_ & B & _ & E). unfold embeddings_new in E. apply bind_ok in E as (u & E1 & E).
    apply py_assert_ok, Z.eqb_eq in E1. split; [easy|]. apply bind_ok in E as (u2 & E2 & _).
    intros n Hn. rewrite Hn in E2. destruct u2. now apply compat_iff in E2.
  Qed.
  Lemma consistent_built (e : embeddings F) : storage_wf (em_storage e) -> built_vocab (em_vocab e) ->
    (forall n, em_norms e = Some n -> norms_wf n) -> consistent e -> built_embeddings e.
  Proof.
    intros W B N [C1 C2]. split; [easy|]. split; [easy|]. split; [easy|]. unfold embeddings_new.
    rewrite C1, Z.eqb_refl. cbn [py_assert bind].
    destruct (em_norms e) as [n|] eqn:En.
    - rewrite (proj2 (proj1 (compat_iff (em_storage e) (em_vocab e) n B)) (C2 n eq_refl)). cbn [bind].
      destruct e; simpl in *; congruence.
    - cbn [bind]. destruct e; simpl in *; congruence.
  Qed.

  (* one assignment *)
  Lemma set_norms_spec (e : embeddings F) a : built_embeddings e ->
    (snd (em_set_norms e a) = Ok tt <-> match a with NaNone => True | NaNorms n => fitting e n | NaOther => False end)
    /\ (snd (em_set_norms e a) = Ok tt ->
        em_norms (fst (em_set_norms e a)) = match a with NaNorms n => Some n | _ => None end)
    /\ (snd (em_set_norms e a) <> Ok tt ->
        fst (em_set_norms e a) = e /\ snd (em_set_norms e a) = Err AssertionError)
    /\ em_storage (fst (em_set_norms e a)) = em_storage e /\ em_vocab (fst (em_set_norms e a)) = em_vocab e
    /\ em_metadata (fst (em_set_norms e a)) = em_metadata e.
  Proof.
    intros (_ & B & _ & _). unfold em_set_norms. destruct a as [|n|]; simpl; try easy.
    destruct (compat_iff (em_storage e) (em_vocab e) n B) as [I [E|E]]; rewrite E in *; simpl.
    - split; [|easy]. split; [|easy]. intros _. now apply I.
    - split; [|easy]. split; [easy|]. intros H. now apply I in H.
  Qed.
  Lemma set_metadata_spec (e : embeddings F) a :
    (snd (em_set_metadata e a) = Ok tt <-> a <> MaOther)
    /\ (snd (em_set_metadata e a) = Ok tt ->
        em_metadata (fst (em_set_metadata e a)) = match a with MaMetadata m => Some m | _ => None end)
    /\ (snd (em_set_metadata e a) <> Ok tt ->
        fst (em_set_metadata e a) = e /\ snd (em_set_metadata e a) = Err TypeError)
    /\ em_storage (fst (em_set_metadata e a)) = em_storage e /\ em_vocab (fst (em_set_metadata e a)) = em_vocab e
    /\ em_norms (fst (em_set_metadata e a)) = em_norms e.
  Proof. unfold em_set_metadata. destruct a; simpl; repeat split; easy. Qed.

  Lemma assign_kept (e : embeddings F) u : built_embeddings e ->
    (forall n, u = SetNorms (NaNorms n) -> norms_wf n) ->
    built_embeddings (fst (assign e u))
    /\ em_storage (fst (assign e u)) = em_storage e /\ em_vocab (fst (assign e u)) = em_vocab e.
  Proof.
    intros BE Hn. pose proof BE as (W & B & N & _). pose proof (built_consistent e BE) as [C1 C2].
    destruct u as [a|a]; simpl.
    - destruct (set_norms_spec e a BE) as (I & A & R & S & V & M). split; [|easy].
      destruct (snd (em_set_norms e a)) as [[]|x] eqn:E.
      + specialize (A eq_refl). pose proof (proj1 I eq_refl) as I1. apply consistent_built; rewrite ?S, ?V; try easy.
        * intros n Hx. rewrite A in Hx. destruct a; try easy. injection Hx as <-. auto.
        * unfold consistent, fitting. rewrite S, V. split; [easy|]. intros n Hx. rewrite A in Hx. destruct a; try easy.
          now injection Hx as <-.
      + destruct R as [-> _]; easy.
    - destruct (set_metadata_spec e a) as (_ & _ & _ & S & V & Nn). split; [|easy].
      apply consistent_built; unfold consistent, fitting; rewrite ?S, ?V, ?Nn; easy.
  Qed.

  Lemma assign_history (e : embeddings F) us : built_embeddings e ->
    (forall n, In (SetNorms (NaNorms n)) us -> norms_wf n) ->
    built_embeddings (assign_all e us) /\ consistent (assign_all e us)
    /\ em_storage (assign_all e us) = em_storage e /\ em_vocab (assign_all e us) = em_vocab e.
  Proof.
    revert e. induction us as [|u us IH]; intros e BE Hn.
    - split; [easy|]. split; [now apply built_consistent|easy].
    - destruct (assign_kept e u BE) as (B1 & S1 & V1); [intros n ->; apply Hn; now left|].
      simpl. destruct (IH (fst (assign e u)) B1) as (B2 & C2 & S2 & V2); [intros n H; apply Hn; now right|].
      rewrite S2, V2, S1, V1. easy.
  Qed.

  (* the components are the ones assigned last *)
  Lemma assign_last (e : embeddings F) us ok : built_embeddings e ->
    (forall n, In (SetNorms (NaNorms n)) us -> norms_wf n) ->
    (forall n, ok n = true <-> fitting e n) ->
    em_norms (assign_all e us) = fold_left (norms_after ok) us (em_norms e)
    /\ em_metadata (assign_all e us) = fold_left metadata_after us (em_metadata e).
  Proof.
    intros BE. revert e BE. induction us as [|u us IH]; intros e BE Hn Hok; [easy|].
    destruct (assign_kept e u BE) as (B1 & S1 & V1); [intros n ->; apply Hn; now left|].
    simpl. destruct (IH (fst (assign e u)) B1) as [E1 E2].
    - intros n H. apply Hn. now right.
    - intros n. unfold fitting. rewrite S1, V1. apply Hok.
    - rewrite E1, E2. destruct u as [a|a]; simpl.
      + destruct (set_norms_spec e a BE) as (I & A & R & _ & _ & M). rewrite M. split; [|easy]. f_equal.
        destruct a as [|n|]; simpl in *; [easy| |easy].
        destruct (ok n) eqn:Eo.
        * apply Hok in Eo. apply I in Eo. now apply A.
        * destruct R as [-> _]; [|easy]. intros X. apply I, Hok in X. congruence.
      + destruct (set_metadata_spec e a) as (_ & _ & _ & _ & _ & Nn). rewrite Nn. split; [easy|]. f_equal. now destruct a.
  Qed.
End Setters.
