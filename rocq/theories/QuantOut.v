(* The out argument of QuantizedArray.embedding. *)
From Coq Require Import Lia.
From Verif Require Import Py PyProofs IO Arr Vocab Storage Chunks Embeddings Heap
  Spec SpecLookup SpecHeap StorageGet HeapProofs.
From Verif Require ExplicitEmb ArrProofs.
Local Open Scope N_scope.

Lemma mapM_len {A B} (f : A -> result B) l bs : mapM f l = Ok bs -> length bs = length l.
Proof.
  revert bs. induction l as [|a l IH]; intros bs H; cbn in H.
  - apply Ok_inj in H. now subst.
  - apply bind_ok in H as (b & _ & H). apply bind_ok in H as (r & Hr & H). apply Ok_inj in H. subst. cbn. now rewrite (IH _ Hr).
Qed.
Lemma py_index_same {A B} (l : list A) (m : list B) i a : length l = length m ->
  py_index l i = Ok a -> exists b, py_index m i = Ok b.
Proof.
  unfold py_index. intros L. rewrite <- L. set (j := if (i <? 0)%Z then _ else _).
  destruct (in_range 0 (Z.of_nat (length l)) j) eqn:R; [|discriminate]. intros _. apply in_range_spec in R.
  destruct (nth_error m (Z.to_nat j)) as [b|] eqn:E; [now exists b|]. apply nth_error_None in E. lia.
Qed.
Lemma app_inj_len {A} (a b c d : list A) : length a = length c -> a ++ b = c ++ d -> a = c /\ b = d.
Proof.
  revert c. induction a as [|x a IH]; intros [|y c] L E; try discriminate; [easy|]. cbn in *. injection E as <- E.
  destruct (IH c ltac:(lia) E) as [<- <-]. easy.
Qed.
Lemma mapM_each {A B} (f : A -> result B) (P : B -> Prop) l bs :
  (forall a b, In a l -> f a = Ok b -> P b) -> mapM f l = Ok bs -> Forall P bs.
Proof.
  revert bs. induction l as [|a l IH]; intros bs H E; cbn in E.
  - apply Ok_inj in E. subst. constructor.
  - apply bind_ok in E as (b & Hb & E). apply bind_ok in E as (r & Hr & E). apply Ok_inj in E. subst.
    constructor; [apply (H a); [now left|exact Hb]|]. apply IH; [|exact Hr]. intros x y I. apply H. now right.
Qed.
Lemma py_slice_len {A B} (l : list A) (m : list B) s l' m' : length l = length m ->
  py_slice l s = Ok l' -> py_slice m s = Ok m' -> length l' = length m'.
Proof.
  unfold py_slice. intros L H1 H2. rewrite <- L in H2. apply bind_ok in H1 as (ix & E & H1). rewrite E in H2. cbn [bind] in H2.
  apply Ok_inj in H1, H2. subst. clear E. induction ix as [|i ix IH]; [reflexivity|]. cbn [flat_map]. rewrite !app_length, IH. f_equal.
  destruct (nth_error l i) eqn:E1, (nth_error m i) eqn:E2; try reflexivity; exfalso.
  - apply nth_error_None in E2. assert (i < length l)%nat by (apply nth_error_Some; congruence). lia.
  - apply nth_error_None in E1. assert (i < length m)%nat by (apply nth_error_Some; congruence). lia.
Qed.
Lemma concat_inj {A} n (l m : list (list A)) : length l = length m ->
  Forall (fun r => length r = n) l -> Forall (fun r => length r = n) m -> concat l = concat m -> l = m.
Proof.
  revert m. induction l as [|r l IH]; intros [|s m] L H1 H2 E; try discriminate; [reflexivity|].
  inversion H1; inversion H2; subst. cbn in E. apply app_inj_len in E as [-> E]; [|lia]. f_equal. apply IH; auto.
Qed.
Lemma concat_len {A} n (l : list (list A)) : Forall (fun r => length r = n) l -> length (concat l) = (length l * n)%nat.
Proof. induction 1 as [|r l H HF IH]; [reflexivity|]. cbn. rewrite app_length, IH. lia. Qed.

Section Out.
  Context {F : Type} (o : fops F).
  Notation heap := (heap F).

  (* what is written is read *)
  Lemma assign_get (out : aref) v (h : heap) : allocated h out -> NoDup out -> length v = length out ->
    exists h', hassign out v h = (h', Ok tt) /\ h_read o h' out = v /\ only_changed out h h' /\ allocated h' out.
  Proof.
    intros A N L. pose proof (assign_changed out v h) as C. rewrite assign_ok in C |- * by easy. cbn [fst] in C.
    eexists. split; [reflexivity|]. split; [now apply write_read|]. split; [exact C|].
    eapply allocated_changed; [exact C|exact A].
  Qed.
  Lemma contiguous_spec (out : aref) : contiguous out = true <-> consecutive out.
  Proof.
    unfold contiguous, consecutive. destruct (list_eq_dec _ _ _) as [E|E]; split; intros H; try easy.
    - now exists (hd 0%nat out).
    - exfalso. apply E. destruct H as [a H]. destruct out as [|b out]; [reflexivity|].
      assert (b = a) by (cbn in H; congruence). cbn [hd]. subst b. exact H.
  Qed.

  Lemma select_len (q : pq F) code v : pq_wf q -> pq_select (pq_quantizers q) code = Ok v ->
    length v = N.to_nat (pq_reconstructed_len q).
  Proof.
    intros (_ & W & _) H. apply (ExplicitEmb.pq_select_len _ _ _ _ _ W) in H. unfold pq_reconstructed_len, lenN in *. lia.
  Qed.
  Lemma project_len (q : pq F) bo proj (v : list F) : pq_wf q -> pq_projection q = Some (bo, proj) ->
    length (map (fun row => fdot o v row) proj) = N.to_nat (pq_reconstructed_len q).
  Proof. intros (_ & _ & W) H. rewrite H in W. destruct W as (_ & L & _). rewrite map_length. unfold pq_reconstructed_len, lenN in *. lia. Qed.

  Lemma reconstruct_out (q : pq F) code out h v : pq_wf q -> allocated h out -> NoDup out ->
    length out = N.to_nat (pq_reconstructed_len q) -> may_project q out ->
    pq_reconstruct o q code = Ok v ->
    exists h', hpq_reconstruct o q code out h = (h', Ok out) /\ h_read o h' out = v /\ only_changed out h h' /\ allocated h' out.
  Proof.
    intros W A N L P H. unfold pq_reconstruct in H. apply bind_ok in H as (s & S1 & H).
    pose proof (select_len q code s W S1) as LS.
    destruct (assign_get out s h A N ltac:(lia)) as (h1 & E1 & R1 & C1 & A1).
    unfold hpq_reconstruct. rewrite L, Nat.eqb_refl. unfold hbind at 1, hlift. rewrite S1. unfold hbind at 1. rewrite E1.
    destruct (pq_projection q) as [[bo proj]|] eqn:EP.
    - destruct P as [P|P]; [congruence|]. apply contiguous_spec in P. rewrite P. unfold hbind at 1, hget. rewrite R1.
      pose proof (project_len q bo proj s W EP) as LP.
      destruct (assign_get out (map (fun row => fdot o s row) proj) h1 A1 N ltac:(lia)) as (h2 & E2 & R2 & C2 & A2).
      unfold hbind. rewrite E2. exists h2. split; [reflexivity|]. apply Ok_inj in H. subst v. split; [exact R2|].
      split; [|exact A2]. eapply changed_trans; eassumption.
    - apply Ok_inj in H. subst v. exists h1. split; [reflexivity|]. auto.
  Qed.

  Theorem embedding_out (q : qarray F) i out h v : qarray_wf q -> allocated h out -> NoDup out ->
    length out = N.to_nat (pq_reconstructed_len (qa_pq q)) -> may_project (qa_pq q) out ->
    qa_embedding o q i = Ok v ->
    exists h', hqa_embedding o q i out h = (h', Ok out) /\ h_read o h' out = v /\ only_changed out h h'.
  Proof.
    intros (W & _) A N L P H. unfold qa_embedding in H. apply bind_ok in H as (code & HC & H).
    apply bind_ok in H as (s & HS & H).
    destruct (reconstruct_out (qa_pq q) code out h s W A N L P HS) as (h1 & E1 & R1 & C1 & A1).
    unfold hqa_embedding. unfold hbind at 1, hlift at 1. rewrite HC. unfold hbind at 1. rewrite E1.
    destruct (qa_norms q) as [[bo ns]|].
    - apply bind_ok in H as (n & HN & H). apply Ok_inj in H. subst v. unfold hbind at 1, hlift. rewrite HN.
      unfold hbind at 1, hget. rewrite R1.
      destruct (assign_get out (vscale o n s) h1 A1 N) as (h2 & E2 & R2 & C2 & A2).
      { unfold vscale. rewrite map_length, <- R1. apply map_length. }
      unfold hbind. rewrite E2. exists h2. split; [reflexivity|]. split; [exact R2|]. eapply changed_trans; eassumption.
    - apply Ok_inj in H. subst v. exists h1. split; [reflexivity|]. auto.
  Qed.
  Theorem embedding_out_shape (q : qarray F) i out h code : py_index (qa_codes q) i = Ok code ->
    length out <> N.to_nat (pq_reconstructed_len (qa_pq q)) ->
    hqa_embedding o q i out h = (h, Err AssertionError).
  Proof.
    intros HC L. unfold hqa_embedding, hbind at 1, hlift. rewrite HC. unfold hbind, hpq_reconstruct.
    apply Nat.eqb_neq in L. rewrite L. reflexivity.
  Qed.
  Theorem embedding_out_error (q : qarray F) i out h x : qarray_wf q ->
    length out = N.to_nat (pq_reconstructed_len (qa_pq q)) ->
    qa_embedding o q i = Err x -> hqa_embedding o q i out h = (h, Err x).
  Proof.
    intros (W & _ & _ & _ & NW) L H. unfold qa_embedding in H. unfold hqa_embedding, hbind at 1, hlift.
    destruct (py_index (qa_codes q) i) as [code|y] eqn:HC; cbn [bind] in H; [|congruence].
    unfold hbind, hpq_reconstruct. rewrite L, Nat.eqb_refl. unfold pq_reconstruct in H.
    unfold hbind, hlift. destruct (pq_select (pq_quantizers (qa_pq q)) code) as [v|y]; cbn [bind] in H; [|congruence].
    exfalso. assert (X : forall s, (match qa_norms q with None => Ok s
                            | Some (_, norms) => n <- py_index norms i ;; Ok (vscale o n s) end) <> Err x).
    { intros s. destruct (qa_norms q) as [[bo ns]|]; [|easy]. destruct NW as [_ NW].
      destruct (py_index_same (qa_codes q) ns i code) as [b E]; [unfold lenN in NW; lia|exact HC|]. rewrite E. easy. }
    destruct (pq_projection (qa_pq q)) as [[? ?]|]; cbn [bind] in H; exact (X _ H).
  Qed.
  (* dot rejects the buffer when it has been written to *)
  Theorem embedding_out_strided (q : qarray F) i out h code bo proj v : qarray_wf q -> allocated h out -> NoDup out ->
    length out = N.to_nat (pq_reconstructed_len (qa_pq q)) ->
    pq_projection (qa_pq q) = Some (bo, proj) -> ~ consecutive out ->
    py_index (qa_codes q) i = Ok code -> pq_select (pq_quantizers (qa_pq q)) code = Ok v ->
    exists h', hqa_embedding o q i out h = (h', Err ValueError) /\ h_read o h' out = v.
  Proof.
    intros (W & _) A N L EP NC HC HS. rewrite <- contiguous_spec in NC. apply not_true_is_false in NC. pose proof (select_len (qa_pq q) code v W HS) as LS.
    destruct (assign_get out v h A N ltac:(lia)) as (h1 & E1 & R1 & C1 & A1).
    exists h1. split; [|exact R1]. unfold hqa_embedding, hbind at 1, hlift. rewrite HC. unfold hbind at 1, hpq_reconstruct.
    rewrite L, Nat.eqb_refl. unfold hbind at 1, hlift. rewrite HS. unfold hbind at 1. rewrite E1, EP, NC. reflexivity.
  Qed.

  (* ---------------------------------------------------------------- *)
  (* several rows                                                      *)

  Lemma read_concat (h : heap) rows : h_read o h (concat rows) = concat (map (h_read o h) rows).
  Proof. unfold h_read. now rewrite concat_map. Qed.
  Lemma assign_rows_get (out : list aref) n vs (h : heap) : allocated h (concat out) -> NoDup (concat out) ->
    length vs = length out -> Forall (fun r => length r = n) out -> Forall (fun r => length r = n) vs ->
    exists h', hassign_rows out vs h = (h', Ok tt) /\ map (h_read o h') out = vs
      /\ only_changed (concat out) h h' /\ allocated h' (concat out).
  Proof.
    intros A N L H1 H2. destruct (assign_get (concat out) (concat vs) h A N) as (h' & E & R & C & A').
    { rewrite (concat_len n) by easy. rewrite (concat_len n) by easy. now rewrite L. }
    exists h'. split; [exact E|]. split; [|now split]. rewrite read_concat in R. apply (concat_inj n); [now rewrite map_length|..]; try easy.
    clear - H1. induction H1 as [|r l H HF IH]; [constructor|]. cbn. constructor; [|exact IH]. unfold h_read. now rewrite map_length.
  Qed.
  Lemma batch_split (q : pq F) codes vs : pq_reconstruct_batch o q codes = Ok vs ->
    exists ss, mapM (pq_select (pq_quantizers q)) codes = Ok ss
      /\ vs = match pq_projection q with
              | None => ss
              | Some (_, proj) => map (fun s => map (fun row => fdot o s row) proj) ss
              end.
  Proof.
    unfold pq_reconstruct_batch. revert vs. induction codes as [|c codes IH]; intros vs H; cbn [mapM] in H |- *.
    - apply Ok_inj in H. subst. exists []. split; [reflexivity|]. now destruct (pq_projection q) as [[? ?]|].
    - apply bind_ok in H as (v & Hv & H). apply bind_ok in H as (r & Hr & H). apply Ok_inj in H. subst vs.
      destruct (IH r Hr) as (ss & -> & ->). unfold pq_reconstruct in Hv. apply bind_ok in Hv as (s & -> & Hv). cbn [bind].
      exists (s :: ss). split; [reflexivity|]. destruct (pq_projection q) as [[? ?]|]; apply Ok_inj in Hv; now subst.
  Qed.
  Lemma reconstruct_batch_out (q : pq F) codes cols (out : list aref) h vs : pq_wf q -> allocated h (concat out) -> NoDup (concat out) ->
    length out = length codes -> cols = pq_reconstructed_len q -> Forall (fun r => lenN r = cols) out ->
    may_project q (concat out) -> pq_reconstruct_batch o q codes = Ok vs ->
    exists h', hpq_reconstruct_batch o q codes cols out h = (h', Ok out) /\ map (h_read o h') out = vs
      /\ only_changed (concat out) h h' /\ allocated h' (concat out) /\ Forall (fun r => length r = N.to_nat cols) vs.
  Proof.
    intros W A N L EC R P H. apply batch_split in H as (ss & HS & HV).
    assert (R' : Forall (fun r => length r = N.to_nat cols) out).
    { eapply Forall_impl; [|exact R]. intros r Hr. cbv beta in Hr. unfold lenN in Hr. lia. }
    assert (LS : Forall (fun r => length r = N.to_nat cols) ss).
    { eapply mapM_each; [|exact HS]. intros c v _ Hv. rewrite EC. now apply (select_len q c). }
    destruct (assign_rows_get out (N.to_nat cols) ss h A N) as (h1 & E1 & R1 & C1 & A1);
      [now rewrite (mapM_len _ _ _ HS)|easy|easy|].
    unfold hpq_reconstruct_batch. rewrite L, Nat.eqb_refl, EC, N.eqb_refl. rewrite <- EC.
    unfold hbind at 1, hlift. rewrite HS. unfold hbind at 1. rewrite E1.
    destruct (pq_projection q) as [[bo proj]|] eqn:EP.
    - destruct P as [P|P]; [congruence|]. apply contiguous_spec in P. rewrite P. unfold hbind at 1. rewrite R1.
      assert (LV : Forall (fun r => length r = N.to_nat cols) vs).
      { rewrite HV. apply Forall_forall. intros x Hx. apply in_map_iff in Hx as (s & <- & _). rewrite EC. now apply (project_len q bo). }
      destruct (assign_rows_get out (N.to_nat cols) vs h1 A1 N) as (h2 & E2 & R2 & C2 & A2);
        [now rewrite HV, map_length, (mapM_len _ _ _ HS)|easy|easy|].
      unfold hbind. rewrite <- HV, E2. exists h2. split; [reflexivity|]. split; [exact R2|].
      split; [eapply changed_trans; eassumption|]. now split.
    - subst vs. exists h1. split; [reflexivity|]. auto.
  Qed.
  Lemma scale_rows_len n ns (vs : list (list F)) : Forall (fun r => length r = n) vs ->
    Forall (fun r => length r = n) (map2 (vscale o) ns vs).
  Proof.
    intros H. revert ns. induction H as [|r l H HF IH]; intros [|x ns]; cbn; try constructor; [|apply IH].
    unfold vscale. now rewrite map_length.
  Qed.
  Lemma map2_len (ns : list F) (vs : list (list F)) : length ns = length vs -> length (map2 (vscale o) ns vs) = length vs.
  Proof. revert ns. induction vs as [|v vs IH]; intros [|n ns] H; try discriminate; [reflexivity|]. cbn in *. rewrite IH; lia. Qed.
  Lemma batch_out (q : qarray F) codes cs norms cols (out : list aref) h vs : qarray_wf q ->
    allocated h (concat out) -> NoDup (concat out) -> length out = length cs ->
    cols = pq_reconstructed_len (qa_pq q) -> Forall (fun r => lenN r = cols) out ->
    may_project (qa_pq q) (concat out) -> codes = Ok cs ->
    (forall bo ns ns', qa_norms q = Some (bo, ns) -> norms ns = Ok ns' -> length ns' = length cs) ->
    (ws <- pq_reconstruct_batch o (qa_pq q) cs ;;
     match qa_norms q with
     | None => Ok ws
     | Some (_, ns) => ns' <- norms ns ;; Ok (map2 (vscale o) ns' ws)
     end) = Ok vs ->
    exists h', hqa_embedding_batch o q codes norms cols out h = (h', Ok out) /\ map (h_read o h') out = vs
      /\ only_changed (concat out) h h'.
  Proof.
    intros (W & _) A N L EC R P -> LN H. apply bind_ok in H as (ws & HB & H).
    destruct (reconstruct_batch_out (qa_pq q) cs cols out h ws W A N L EC R P HB) as (h1 & E1 & R1 & C1 & A1 & L1).
    assert (LW : length ws = length cs) by (now apply mapM_len in HB).
    unfold hqa_embedding_batch. unfold hbind at 1, hlift at 1. unfold hbind at 1. rewrite E1.
    destruct (qa_norms q) as [[bo ns]|].
    - apply bind_ok in H as (ns' & HN & H). apply Ok_inj in H. subst vs. specialize (LN bo ns ns' eq_refl HN).
      unfold hbind at 1, hlift. rewrite HN. unfold hbind at 1. rewrite R1.
      destruct (assign_rows_get out (N.to_nat cols) (map2 (vscale o) ns' ws) h1 A1 N) as (h2 & E2 & R2 & C2 & A2).
      + rewrite map2_len; lia.
      + eapply Forall_impl; [|exact R]. intros r Hr. cbv beta in Hr. unfold lenN in Hr. lia.
      + now apply scale_rows_len.
      + unfold hbind. rewrite E2. exists h2. split; [reflexivity|]. split; [exact R2|]. eapply changed_trans; eassumption.
    - apply Ok_inj in H. subst vs. exists h1. split; [reflexivity|]. auto.
  Qed.
  Theorem embedding_list_out (q : qarray F) l cols (out : list aref) h vs : qarray_wf q ->
    allocated h (concat out) -> NoDup (concat out) -> length out = length l ->
    cols = pq_reconstructed_len (qa_pq q) -> Forall (fun r => lenN r = cols) out ->
    may_project (qa_pq q) (concat out) -> qa_embedding_list o q l = Ok vs ->
    exists h', hqa_embedding_list o q l cols out h = (h', Ok out) /\ map (h_read o h') out = vs
      /\ only_changed (concat out) h h'.
  Proof.
    intros W A N L EC R P H. unfold qa_embedding_list in H. apply bind_ok in H as (cs & HC & H).
    unfold hqa_embedding_list. apply (batch_out q _ cs) with (vs := vs); try easy.
    - now rewrite (mapM_len _ _ _ HC).
    - intros bo ns ns' _ HN. now rewrite (mapM_len _ _ _ HC), (mapM_len _ _ _ HN).
  Qed.
  Theorem embedding_slice_out (q : qarray F) s cols (out : list aref) h vs : qarray_wf q ->
    allocated h (concat out) -> NoDup (concat out) -> length out = length vs ->
    cols = pq_reconstructed_len (qa_pq q) -> Forall (fun r => lenN r = cols) out ->
    may_project (qa_pq q) (concat out) -> qa_embedding_slice o q s = Ok vs ->
    exists h', hqa_embedding_slice o q s cols out h = (h', Ok out) /\ map (h_read o h') out = vs
      /\ only_changed (concat out) h h'.
  Proof.
    intros W A N L EC R P H. unfold qa_embedding_slice in H. apply bind_ok in H as (cs & HC & H).
    assert (LN : forall bo ns ns', qa_norms q = Some (bo, ns) -> py_slice ns s = Ok ns' -> length ns' = length cs).
    { intros bo ns ns' EN HN. destruct W as (_ & _ & _ & _ & W). rewrite EN in W. destruct W as [_ W].
      eapply py_slice_len; [|exact HN|exact HC]. unfold lenN in W. lia. }
    unfold hqa_embedding_slice. apply (batch_out q _ cs) with (vs := vs); try easy.
    apply bind_ok in H as (ws & HB & H). apply mapM_len in HB. destruct (qa_norms q) as [[bo ns]|].
    - apply bind_ok in H as (ns' & HN & H). apply Ok_inj in H. subst vs. specialize (LN bo ns ns' eq_refl HN).
      rewrite map2_len in L; lia.
    - apply Ok_inj in H. subst. lia.
  Qed.
  Theorem embedding_batch_shape (q : qarray F) l cs cols (out : list aref) h : mapM (py_index (qa_codes q)) l = Ok cs ->
    length out <> length l \/ cols <> pq_reconstructed_len (qa_pq q) ->
    hqa_embedding_list o q l cols out h = (h, Err AssertionError).
  Proof.
    intros HC H. unfold hqa_embedding_list, hqa_embedding_batch, hbind at 1, hlift. rewrite HC. unfold hbind, hpq_reconstruct_batch.
    rewrite (mapM_len _ _ _ HC). destruct (Nat.eqb_spec (length out) (length l)); [|reflexivity].
    destruct (N.eqb_spec cols (pq_reconstructed_len (qa_pq q))); [|reflexivity]. now destruct H.
  Qed.
End Out.
