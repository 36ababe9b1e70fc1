(* find_chunk, and the stand-alone loaders. *)
From Coq Require Import Lia.
From Verif Require Import Py PyProofs Utf8 Utf8Proofs IO IOProofs Arr Subword Vocab VocabProofs
  Storage StorageProofs Chunks Embeddings Spec ReaderProofs EmbeddingsProofs.

Lemma mem_chunk_In c l : mem_eqb chunk_id_eqb c l = true <-> In c l.
Proof. apply mem_eqb_In, chunk_id_eqb_eq. Qed.

Lemma seek_fwd_ge n d p u q : seek_fwd n d p = Ok (u, q) -> q = p + n.
Proof. unfold seek_fwd. destruct (_ || _); [easy|]. now intros [= _ <-]. Qed.

Lemma find_loop_runs wanted d p r :
  find_runs wanted d p r ->
  forall f, (1 <= f)%nat -> lenN d < p + 12 * N.of_nat f ->
  find_chunk_loop f wanted d p = r.
Proof.
  induction 1 as [p e H|p q H|p c n q H Hc|p c n q e H Hc Hs|p c n q u q' r H Hc Hs HR IH];
    intros f Hf Hd; (destruct f as [|f]; [lia|]); cbn [find_chunk_loop]; unfold rbind at 1; rewrite H.
  - easy.
  - easy.
  - apply mem_chunk_In in Hc. now rewrite Hc.
  - destruct (mem_eqb chunk_id_eqb c wanted) eqn:E; [now apply mem_chunk_In in E|].
    unfold rbind. now rewrite Hs.
  - destruct (mem_eqb chunk_id_eqb c wanted) eqn:E; [now apply mem_chunk_In in E|].
    rewrite (rbind_step _ _ _ _ _ _ Hs).
    apply read_chunk_header_some in H as (-> & L & _ & _). apply seek_fwd_ge in Hs.
    apply IH; lia.
Qed.

Lemma find_runs_total wanted d : forall p, exists r, find_runs wanted d p r.
Proof.
  assert (X : forall k p, lenN d - p < k -> exists r, find_runs wanted d p r).
  { induction k as [|k IH] using N.peano_ind; intros p Hk; [lia|].
    destruct (read_chunk_header d p) as [[[[c n]|] q]|e] eqn:E.
    - destruct (mem_eqb chunk_id_eqb c wanted) eqn:Em.
      + apply mem_chunk_In in Em. eexists. eapply FrHit; eauto.
      + assert (Hn : ~ In c wanted) by (intros X; apply mem_chunk_In in X; congruence).
        destruct (seek_fwd n d q) as [[u q']|e] eqn:Es.
        * pose proof E as E'. apply read_chunk_header_some in E' as (-> & L & _ & _).
          pose proof Es as Es'. apply seek_fwd_ge in Es'.
          destruct (IH q' ltac:(lia)) as [r Hr]. eexists. eapply FrSkip; eauto.
        * eexists. eapply FrSeekErr; eauto.
    - eexists. eapply FrEof; eauto.
    - eexists. eapply FrErr; eauto. }
  intros p. apply (X (lenN d - p + 1)). lia.
Qed.

Lemma find_runs_unique wanted d p r1 r2 :
  find_runs wanted d p r1 -> find_runs wanted d p r2 -> r1 = r2.
Proof.
  intros H1 H2.
  set (f := S (length d)).
  assert (X : lenN d < p + 12 * N.of_nat f) by (unfold f, lenN; lia).
  rewrite <- (find_loop_runs _ _ _ _ H1 f ltac:(unfold f; lia) X).
  apply (find_loop_runs _ _ _ _ H2 f ltac:(unfold f; lia) X).
Qed.

(* find_chunk reads the header at the beginning of the file, then runs the loop *)
Lemma find_chunk_spec wanted d p0 :
  (exists e, header_read_chunk d 0 = Err e /\ find_chunk wanted d p0 = Err e)
  \/ (exists ids p r, header_read_chunk d 0 = Ok (ids, p) /\ find_runs wanted d p r
                      /\ find_chunk wanted d p0 = r).
Proof.
  unfold find_chunk. erewrite rbind_step by reflexivity.
  destruct (header_read_chunk d 0) as [[ids p]|e] eqn:E.
  - right. destruct (find_runs_total wanted d p) as [r Hr]. exists ids, p, r.
    split; [easy|]. split; [easy|]. rewrite (rbind_step _ _ _ _ _ _ E).
    apply find_loop_runs; auto; unfold lenN; lia.
  - left. exists e. split; [easy|]. unfold rbind. now rewrite E.
Qed.

(* ---------------------------------------------------------------- *)
(* files made of chunks                                              *)

(* chunk headers found one after the other, each followed by its contents of the declared
   length; the last argument is the position behind the last chunk *)
Inductive chunks_at (d : bytes) : N -> list (chunk_id * N) -> N -> Prop :=
| CaNil p : chunks_at d p [] p
| CaCons p c n l q :
    fields_at d p [fU32; fU64] [chunk_id_val c; Z.of_N n] ->
    p + 12 + n < ssize_limit ->
    chunks_at d (p + 12 + n) l q -> chunks_at d p ((c, n) :: l) q.

Lemma chunks_at_app d l1 l2 p q r :
  chunks_at d p l1 q -> chunks_at d q l2 r -> chunks_at d p (l1 ++ l2) r.
Proof. induction 1; simpl; intros; [easy|]. constructor; auto. Qed.

Lemma find_runs_skip wanted d p l q r :
  chunks_at d p l q -> (forall x, In x l -> ~ In (fst x) wanted) ->
  find_runs wanted d q r -> find_runs wanted d p r.
Proof.
  induction 1 as [p|p c n l q F L H IH]; intros Hw Hr; [easy|].
  pose proof (read_chunk_header_at _ _ _ _ (N2Z.is_nonneg n) F) as R. rewrite N2Z.id in R.
  eapply FrSkip; [exact R| |apply seek_fwd_ok; lia|].
  - apply (Hw (c, n)). now left.
  - apply IH; [|easy]. intros x Hx. apply Hw. now right.
Qed.

Lemma find_runs_hit wanted d p c n :
  fields_at d p [fU32; fU64] [chunk_id_val c; Z.of_N n] -> In c wanted ->
  find_runs wanted d p (Ok (Some c, p + 12)).
Proof.
  intros F Hc. pose proof (read_chunk_header_at _ _ _ _ (N2Z.is_nonneg n) F) as R.
  eapply FrHit; eauto.
Qed.
Lemma find_runs_eof wanted d : find_runs wanted d (lenN d) (Ok (None, lenN d)).
Proof. apply FrEof, read_chunk_header_eof. Qed.

Lemma find_chunk_runs wanted d p0 ids p r :
  header_read_chunk d 0 = Ok (ids, p) -> find_runs wanted d p r ->
  find_chunk wanted d p0 = r.
Proof.
  intros H Hr. destruct (find_chunk_spec wanted d p0) as [(e & E & _)|(ids' & p' & r' & E & E2 & ->)].
  - congruence.
  - rewrite H in E. injection E as <- <-. eapply find_runs_unique; eauto.
Qed.

(* the byte layouts of Spec.v *)
Lemma pack_u32 v : (0 <= v < 2 ^ 32)%Z -> pack_field fU32 v = Ok (le_bytes 4 (Z.to_N v)).
Proof. intros H. simpl. apply in_range_spec in H. now rewrite H. Qed.
Lemma pack_u64 v : (0 <= v < 2 ^ 64)%Z -> pack_field fU64 v = Ok (le_bytes 8 (Z.to_N v)).
Proof. intros H. simpl. apply in_range_spec in H. now rewrite H. Qed.
Lemma pack_u32s ids : Forall (fun i => 0 <= i < 2 ^ 32)%Z ids ->
  pack (repeat fU32 (length ids)) ids = Ok (concat (map (fun i => le_bytes 4 (Z.to_N i)) ids)).
Proof.
  induction 1 as [|i ids Hi H IH]; cbn [length repeat pack]; [easy|].
  rewrite (pack_u32 _ Hi), IH. easy.
Qed.

Lemma header_bytes ids p :
  lenN ids < 2 ^ 32 -> Forall (fun i => 0 <= i < 2 ^ 32)%Z ids ->
  header_write_chunk ids p = (file_header ids, Ok tt).
Proof.
  intros L H. unfold header_write_chunk, wseq, wbytes, write_binary, wlet.
  cbn [pack]. rewrite (pack_u32 VERSION) by (unfold VERSION; lia).
  rewrite (pack_u32 (Z.of_nat (length ids))) by (unfold lenN in L; lia).
  rewrite (pack_u32s _ H). cbn [bind]. unfold wbytes, file_header, lenN. now rewrite <- Znat.nat_N_Z, N2Z.id.
Qed.
Lemma header_write_inv ids p out :
  header_write_chunk ids p = (out, Ok tt) ->
  lenN ids < 2 ^ 32 /\ Forall (fun i => 0 <= i < 2 ^ 32)%Z ids /\ out = file_header ids.
Proof.
  intros H. pose proof H as H0. unfold header_write_chunk in H.
  apply wseq_ok in H as (b1 & b2 & H1 & H & _). apply write_binary_ok in H.
  cbn [pack] in H. apply bind_ok in H as (x1 & X1 & H). apply bind_ok in H as (x2 & X2 & H).
  apply bind_ok in X2 as (x3 & X3 & X2). apply bind_ok in X2 as (x4 & X4 & X2).
  assert (Hl : lenN ids < 2 ^ 32).
  { cbn [pack_field] in X3. destruct (in_range 0 (2 ^ 32) (Z.of_nat (length ids))) eqn:E; [|easy].
    apply in_range_spec in E. unfold lenN. lia. }
  assert (Hf : Forall (fun i => 0 <= i < 2 ^ 32)%Z ids).
  { clear - X4. revert x4 X4. induction ids as [|i ids IH]; intros x4 X4; [constructor|].
    cbn [length repeat pack] in X4. apply bind_ok in X4 as (a & A & X4).
    apply bind_ok in X4 as (b & B & X4). constructor; [|eapply IH; eauto].
    cbn [pack_field] in A. destruct (in_range 0 (2 ^ 32) i) eqn:E; [|easy].
    now apply in_range_spec in E. }
  split; [easy|]. split; [easy|]. rewrite header_bytes in H0 by easy. now injection H0.
Qed.

Lemma chunk_bytes_fields d p c body :
  lenN body < 2 ^ 64 -> at_pos d p (chunk_bytes c body) ->
  fields_at d p [fU32; fU64] [chunk_id_val c; Z.of_N (lenN body)].
Proof.
  intros L A. exists (le_bytes 4 (Z.to_N (chunk_id_val c)) ++ le_bytes 8 (lenN body)). split.
  - cbn [pack]. rewrite pack_u32 by (destruct c; simpl; lia). rewrite pack_u64 by lia.
    cbn [bind]. now rewrite app_nil_r, N2Z.id.
  - unfold chunk_bytes in A. rewrite app_assoc in A. now apply at_pos_app in A.
Qed.
Lemma chunk_bytes_len c body : lenN (chunk_bytes c body) = 12 + lenN body.
Proof.
  unfold chunk_bytes. rewrite !lenN_app. unfold lenN at 1 2. rewrite !le_bytes_length. lia.
Qed.

Lemma chunks_bytes_at d p chunks :
  at_pos d p (chunks_bytes chunks) -> lenN d < ssize_limit ->
  chunks_at d p (map (fun c => (fst c, lenN (snd c))) chunks) (p + lenN (chunks_bytes chunks)).
Proof.
  intros A L. revert p A. induction chunks as [|[c body] chunks IH]; intros p A.
  - unfold chunks_bytes. simpl. rewrite lenN_nil, N.add_0_r. constructor.
  - change (chunks_bytes ((c, body) :: chunks)) with (chunk_bytes c body ++ chunks_bytes chunks) in *.
    cbn [map fst snd]. apply at_pos_app in A as [A1 A2].
    pose proof (at_pos_bound _ _ _ A1) as B. rewrite chunk_bytes_len in *.
    rewrite lenN_app, chunk_bytes_len. constructor.
    + apply chunk_bytes_fields; [|easy]. unfold ssize_limit in L. lia.
    + lia.
    + specialize (IH _ A2). replace (p + 12 + lenN body) with (p + (12 + lenN body)) by lia.
      now rewrite <- (N.add_assoc p) in IH.
Qed.

Lemma find_chunk_first ids before c body after wanted p0 :
  let d := file_header ids ++ chunks_bytes before ++ chunk_bytes c body ++ after in
  ids <> [] -> lenN ids < 2 ^ 32 -> Forall (fun i => 0 <= i < 2 ^ 32)%Z ids ->
  lenN d < ssize_limit ->
  (forall x, In x before -> ~ In (fst x) wanted) -> In c wanted ->
  find_chunk wanted d p0
  = Ok (Some c, lenN (file_header ids) + lenN (chunks_bytes before) + 12).
Proof.
  intros d Hne Hl Hf L Hw Hc.
  assert (A : at_pos d 0 (file_header ids ++ chunks_bytes before ++ chunk_bytes c body))
    by (apply at_pos_0; exists after; unfold d; now rewrite <- !app_assoc).
  apply at_pos_app in A as [A1 A]. apply at_pos_app in A as [A2 A3]. rewrite N.add_0_l in *.
  pose proof (header_roundtrip _ _ _ _ Hne (header_bytes ids 0 Hl Hf) A1 L) as RH.
  eapply find_chunk_runs; [exact RH|]. rewrite N.add_0_l.
  eapply find_runs_skip; [apply (chunks_bytes_at _ _ _ A2 L)| |].
  - intros x Hx. apply in_map_iff in Hx as (y & <- & Hy). simpl. now apply Hw.
  - eapply find_runs_hit; [|easy]. apply chunk_bytes_fields; [|exact A3].
    pose proof (at_pos_bound _ _ _ A3) as B. rewrite chunk_bytes_len in B. unfold ssize_limit in L. lia.
Qed.

Lemma find_chunk_none ids chunks wanted p0 :
  let d := file_header ids ++ chunks_bytes chunks in
  ids <> [] -> lenN ids < 2 ^ 32 -> Forall (fun i => 0 <= i < 2 ^ 32)%Z ids ->
  lenN d < ssize_limit ->
  (forall x, In x chunks -> ~ In (fst x) wanted) ->
  find_chunk wanted d p0 = Ok (None, lenN d).
Proof.
  intros d Hne Hl Hf L Hw.
  assert (A : at_pos d 0 (file_header ids ++ chunks_bytes chunks)) by apply at_pos_self.
  apply at_pos_app in A as [A1 A2]. rewrite N.add_0_l in *.
  pose proof (header_roundtrip _ _ _ _ Hne (header_bytes ids 0 Hl Hf) A1 L) as RH.
  eapply find_chunk_runs; [exact RH|]. rewrite N.add_0_l.
  eapply find_runs_skip; [apply (chunks_bytes_at _ _ _ A2 L)| |].
  - intros x Hx. apply in_map_iff in Hx as (y & <- & Hy). simpl. now apply Hw.
  - replace (lenN (file_header ids) + lenN (chunks_bytes chunks)) with (lenN d)
      by (unfold d; now rewrite lenN_app). apply find_runs_eof.
Qed.
