(* Words with rows for C63. *)
From Coq Require Import Lia.
From Verif Require Import Py SpecUtf8 IO Arr Subword Vocab Storage Chunks Embeddings Spec SpecVocab SpecSubwords.
From Verif Require Import SubwordRows Samples.

Lemma rows_length v b w n : built_vocab v -> machine_size v ->
  (exists l, vocab_subword_indices v w b true = Ok l /\ length l = n) ->
  exists rows, word_rows v b w rows /\ length rows = n /\ can_hash v w.
Proof.
  intros B M (l & H & L). apply indices_iff in H as (C & rows & R & ->); [|easy..].
  exists rows. split; [easy|]. rewrite map_length in L. easy.
Qed.
Lemma rows_sample :
  (exists rows, word_rows v_bucket true [97; 98; 99] rows /\ length rows = 6%nat)
  /\ (exists rows, word_rows v_fasttext true [97; 98; 233] rows /\ rows <> [] /\ can_hash v_fasttext [97; 98; 233])
  /\ (exists rows, word_rows v_explicit true [99; 233; 233] rows /\ rows <> [])
  /\ word_rows v_bucket true [] [].
Proof.
  split; [|split; [|split]].
  - destruct (rows_length v_bucket true [97; 98; 99] 6 v_bucket_built) as (r & H & L & _); [easy| |eauto].
    eexists. split; vm_compute; reflexivity.
  - destruct (rows_length v_fasttext true [97; 98; 233] 5 v_fasttext_built) as (r & H & L & C); [easy| |].
    { eexists. split; vm_compute; reflexivity. }
    exists r. split; [easy|]. split; [now destruct r|easy].
  - destruct (rows_length v_explicit true [99; 233; 233] 1 v_explicit_built) as (r & H & L & C); [easy| |].
    { eexists. split; vm_compute; reflexivity. }
    exists r. split; [easy|]. now destruct r.
  - destruct (rows_length v_bucket true [] 0 v_bucket_built) as (r & H & L & _); [easy| |].
    { eexists. split; vm_compute; reflexivity. }
    destruct r; [easy|discriminate L].
Qed.
