(* Concrete memory for the theorems about results and out arguments. *)
From Coq Require Import Lia.
From Verif Require Import Py IO Arr Vocab Storage Chunks Embeddings Heap
  Spec SpecLookup SpecHeap SpecSim Samples VocabWitness LookupWitness.
Local Open Scope N_scope.

Lemma zq_proj_wf : qarray_wf zq_proj.
Proof. unfold zq_proj, qarray_wf, pq_wf, bo_wf; cbn; repeat split; try (repeat constructor); try easy; lia. Qed.
(* a buffer of two elements, consecutive or not *)
Definition h_q : heap Z := [0; 0; 0; 0]%Z.
Lemma q_out : allocated h_q [1; 2]%nat /\ NoDup [1; 2]%nat /\ may_project (qa_pq zq_proj) [1; 2]%nat.
Proof.
  split; [repeat constructor; cbn; lia|]. split; [repeat constructor; cbn; intuition lia|]. right. now exists 1%nat.
Qed.
Lemma q_strided : allocated h_q [1; 3]%nat /\ NoDup [1; 3]%nat /\ ~ consecutive [1; 3]%nat.
Proof.
  split; [repeat constructor; cbn; lia|]. split; [repeat constructor; cbn; intuition lia|]. intros [a H]. cbn in H. injection H. lia.
Qed.
Lemma q_rows : allocated h_q (concat [[0; 1]; [2; 3]]%nat) /\ NoDup (concat [[0; 1]; [2; 3]]%nat)
  /\ may_project (qa_pq zq_proj) (concat [[0; 1]; [2; 3]]%nat).
Proof.
  split; [repeat constructor; cbn; lia|]. split; [repeat constructor; cbn; intuition lia|]. right. now exists 0%nat.
Qed.
