(* Output buffers and histories of queries. *)
From Coq Require Import Lia.
From Verif Require Import Py PyProofs IO Arr Vocab Storage Chunks Embeddings Heap
  Spec SpecVocab SpecLookup SpecHeap WordProofs StorageGet.
From Verif Require ExplicitEmb LookupProofs ArrProofs.

Section HeapProofs.
  Context {F : Type} (o : fops F).
  Notation heap := (heap F).

  (* ---------------------------------------------------------------- *)
  (* memory                                                            *)

  Lemma write_length (r : aref) vals (h : heap) : length (h_write h r vals) = length h.
  Proof.
    revert vals h. induction r as [|a r IH]; intros [|v vals] h; simpl; try easy.
    now rewrite IH, ExplicitEmb.set_nth_length.
  Qed.
  Lemma write_other (r : aref) vals (h : heap) a : ~ In a r -> nth_error (h_write h r vals) a = nth_error h a.
  Proof.
    revert vals h. induction r as [|b r IH]; intros [|v vals] h H; simpl; try easy.
    rewrite IH by (intros X; apply H; now right). apply ExplicitEmb.set_nth_other. intros ->. apply H. now left.
  Qed.
  Lemma write_read (r : aref) vals (h : heap) : NoDup r -> allocated h r -> length vals = length r ->
    h_read o (h_write h r vals) r = vals.
  Proof.
    intros N. revert vals h. induction N as [|a r Ha N IH]; intros [|v vals] h A L; try easy.
    pose proof (Forall_inv A) as A1. apply Forall_inv_tail in A. simpl. f_equal.
    - apply nth_error_nth. rewrite write_other by easy. now apply ExplicitEmb.set_nth_same.
    - apply IH; [|now injection L].
      apply Forall_forall. rewrite ExplicitEmb.set_nth_length. now apply Forall_forall.
  Qed.

  Lemma changed_refl c (h : heap) : only_changed c h h.
  Proof. split; easy. Qed.
  Lemma changed_trans c (h1 h2 h3 : heap) : only_changed c h1 h2 -> only_changed c h2 h3 -> only_changed c h1 h3.
  Proof.
    intros [L1 C1] [L2 C2]. split; [lia|]. intros a Ha Hc. rewrite C2, C1; try easy. lia.
  Qed.
  Lemma changed_incl c c' (h h' : heap) : incl c c' -> only_changed c h h' -> only_changed c' h h'.
  Proof. intros I [L C]. split; [easy|]. intros a Ha Hn. apply C; auto. Qed.
  Lemma changed_app c (h : heap) l : only_changed c h (h ++ l).
  Proof. split; [rewrite app_length; lia|]. intros a Ha _. now apply nth_error_app1. Qed.
  Lemma changed_fresh c r (h : heap) s h' : (forall a, In a r -> (length h <= a)%nat) ->
    only_changed r (h ++ s) h' -> only_changed c h h'.
  Proof.
    intros H [L C]. rewrite app_length in *. split; [lia|]. intros a Ha _. rewrite C.
    - now apply nth_error_app1.
    - lia.
    - intros I. apply H in I. lia.
  Qed.
  Lemma assign_changed (r : aref) vals (h : heap) : only_changed r h (fst (hassign r vals h)).
  Proof.
    assert (W : forall v, only_changed r h (h_write h r v)).
    { intros v. split; [now rewrite write_length|]. intros a _ Ha. now apply write_other. }
    unfold hassign. destruct (_ =? _)%nat; [apply W|]. destruct vals as [|v [|? ?]]; try apply changed_refl. apply W.
  Qed.
  Lemma read_changed c (h h' : heap) r : only_changed c h h' -> allocated h r -> disjoint c r ->
    h_read o h' r = h_read o h r.
  Proof.
    intros [L C] A D. unfold h_read. apply map_ext_in. intros a Ha.
    unfold allocated in A. rewrite Forall_forall in A. specialize (A a Ha).
    assert (E : nth_error h' a = nth_error h a) by (apply C; [easy|intros X; eapply D; eauto]).
    destruct (nth_error h a) as [x|] eqn:Ex; [|apply nth_error_None in Ex; lia].
    now rewrite (nth_error_nth _ _ _ Ex), (nth_error_nth _ _ _ E).
  Qed.

  (* ---------------------------------------------------------------- *)
  (* nothing but out is written                                        *)

  Definition out_cells (out : option aref) : list nat := match out with Some r => r | None => [] end.
  Definition framed {A} (c : list nat) (m : @hop F A) : Prop := forall h, only_changed c h (fst (m h)).

  Lemma framed_bind {A B} c (m : @hop F A) (k : A -> @hop F B) :
    framed c m -> (forall a, framed c (k a)) -> framed c (hbind m k).
  Proof.
    intros Hm Hk h. unfold hbind. pose proof (Hm h) as C. destruct (m h) as [h1 [a|x]]; simpl in *; [|easy].
    eapply changed_trans; [exact C|apply Hk].
  Qed.
  Lemma framed_ret {A} c (a : A) : framed c (hret a).
  Proof. intros h. apply changed_refl. Qed.
  Lemma framed_raise {A} c x : framed c (@hraise F A x).
  Proof. intros h. apply changed_refl. Qed.
  Lemma framed_lift {A} c (r : result A) : framed c (hlift r).
  Proof. intros h. apply changed_refl. Qed.
  Lemma framed_get c r : framed c (hget o r).
  Proof. intros h. apply changed_refl. Qed.
  Lemma framed_alloc c l : framed c (@halloc F l).
  Proof. intros h. apply changed_app. Qed.
  Lemma framed_assign r vals : framed r (@hassign F r vals).
  Proof. intros h. apply assign_changed. Qed.

  Hint Resolve framed_bind framed_ret framed_raise framed_lift framed_get framed_alloc framed_assign : frame.

  Lemma framed_get_list c e l : framed c (hstorage_get_list o (he_storage e) l).
  Proof.
    destruct (he_storage e); simpl; auto with frame. apply framed_bind; auto with frame.
    intros rs h. apply changed_refl.
  Qed.
  Lemma framed_storage_get c s i : framed c (hstorage_get o s i).
  Proof. destruct s; simpl; auto with frame. Qed.

  Lemma framed_at e idx out : framed (out_cells out) (he_embedding_at o e idx out).
  Proof.
    destruct idx as [i|l]; simpl.
    - apply framed_bind; [apply framed_storage_get|]. intros res. apply framed_bind.
      + destruct out; auto with frame.
      + intros r. destruct (he_norms e) as [[bo n]|]; auto 10 with frame.
    - apply framed_bind; [apply framed_get_list|]. intros res. destruct out as [r|].
      + assert (X : framed r (hbind (hget o r) (fun vals =>
                  hbind (hassign r (vdiv o vals (fnorm o vals))) (fun _ => hret (r, Some (fnorm o vals)))))) by auto 10 with frame.
        intros h. unfold hbind at 1. destruct (_ =? _)%nat.
        * unfold hbind at 1. pose proof (assign_changed r (vsum o (N.to_nat (hstorage_cols (he_storage e))) res) h) as C.
          destruct (hassign r _ h) as [h1 [u|x]]; simpl in C; [|exact C]. cbn [hret].
          eapply changed_trans; [exact C|]. apply X.
        * apply changed_refl.
      + intros h. unfold hbind at 1. cbn [halloc]. set (s := vsum _ _ _). set (r := seq (length h) (length s)).
        cbv beta iota.
        assert (X : only_changed r (h ++ s) (fst (hbind (hget o r) (fun vals =>
                  hbind (hassign r (vdiv o vals (fnorm o vals))) (fun _ => hret (r, Some (fnorm o vals)))) (h ++ s)))).
        { assert (Y : framed r (hbind (hget o r) (fun vals =>
                  hbind (hassign r (vdiv o vals (fnorm o vals))) (fun _ => hret (r, Some (fnorm o vals)))))) by auto 10 with frame.
          apply Y. }
        refine (changed_fresh _ r h s _ _ X). intros a Ha. apply in_seq in Ha. lia.
  Qed.

  Lemma framed_embedding e w out d : framed (out_cells out) (he_embedding o e w out d).
  Proof.
    apply framed_bind; [apply framed_lift|]. intros [i|].
    - apply framed_bind; [apply framed_at|auto with frame].
    - destruct out as [r|]; [|auto with frame]. destruct d; simpl; auto 10 with frame.
  Qed.
  Lemma framed_with_norm e w out d : framed (out_cells out) (he_embedding_with_norm o e w out d).
  Proof.
    unfold he_embedding_with_norm. destruct (he_norms e); [|auto with frame].
    apply framed_bind; [apply framed_lift|]. intros [i|].
    - apply framed_bind; [apply framed_at|auto with frame].
    - destruct out as [r|]; [|auto with frame]. destruct d as [[d x]|]; simpl; auto 10 with frame.
  Qed.
  Lemma framed_getitem e w : framed [] (he_getitem o e w).
  Proof.
    apply framed_bind; [apply framed_lift|]. intros i.
    apply framed_bind; [exact (framed_at e i None)|auto with frame].
  Qed.

  Lemma query_changes (e : hembeddings F) q h : only_changed (query_out q) h (run_query o e q h).
  Proof.
    destruct q as [w|w out d|w out d]; simpl; [apply framed_getitem| |].
    - pose proof (framed_embedding e w out d h). now destruct out.
    - pose proof (framed_with_norm e w out d h). now destruct out.
  Qed.
  Lemma queries_change (e : hembeddings F) qs h :
    only_changed (flat_map query_out qs) h (run_queries o e qs h).
  Proof.
    revert h. induction qs as [|q qs IH]; intros h; [apply changed_refl|]. simpl.
    eapply changed_trans; [eapply changed_incl; [|apply query_changes]|eapply changed_incl; [|apply IH]];
      intros a Ha; apply in_app_iff; auto.
  Qed.

  Lemma allocated_changed c (h h' : heap) l : only_changed c h h' -> allocated h l -> allocated h' l.
  Proof. intros [L _] A. eapply Forall_impl; [|exact A]. simpl. intros a. lia. Qed.

  Lemma value_changed c (h h' : heap) e : only_changed c h h' -> in_memory h e ->
    disjoint c (storage_cells e) -> disjoint c (norms_cells e) -> he_value o h' e = he_value o h e.
  Proof.
    intros C [A1 A2] D1 D2. unfold he_value, storage_cells, norms_cells in *. f_equal.
    - destruct (he_storage e) as [bo cols rows|q]; [|easy]. do 2 f_equal. apply map_ext_in. intros r Hr.
      eapply read_changed; [exact C| |].
      + unfold allocated in *. rewrite Forall_forall in *. intros a Ha. apply A1. apply in_concat. eauto.
      + intros a Ha Hr'. apply (D1 a Ha). apply in_concat. eauto.
    - destruct (he_norms e) as [[bo r]|]; [|easy]. do 2 f_equal. eapply read_changed; eauto.
  Qed.

  Lemma history_value (e : hembeddings F) qs h : in_memory h e ->
    (forall q, In q qs -> disjoint (query_out q) (storage_cells e) /\ disjoint (query_out q) (norms_cells e)) ->
    he_value o (run_queries o e qs h) e = he_value o h e /\ in_memory (run_queries o e qs h) e.
  Proof.
    intros M D. pose proof (queries_change e qs h) as C. split.
    - eapply value_changed; [exact C|easy|..]; intros a Ha; apply in_flat_map in Ha as (q & Hq & Ha);
        destruct (D q Hq) as [D1 D2]; [now apply D1|now apply D2].
    - destruct M. split; eapply allocated_changed; eauto.
  Qed.

  (* ---------------------------------------------------------------- *)
  (* what is returned                                                  *)

  Lemma map_py_index {A B} (f : A -> B) l i :
    py_index (map f l) i = match py_index l i with Ok a => Ok (f a) | Err x => Err x end.
  Proof.
    unfold py_index. rewrite map_length. set (j := if (i <? 0)%Z then _ else _).
    destruct (in_range _ _ j); [|easy]. rewrite nth_error_map. now destruct (nth_error l (Z.to_nat j)).
  Qed.
  Lemma map_mapM_index {A B} (f : A -> B) l ix :
    mapM (py_index (map f l)) ix = match mapM (py_index l) ix with Ok a => Ok (map f a) | Err x => Err x end.
  Proof.
    induction ix as [|i ix IH]; [easy|]. simpl. rewrite map_py_index. destruct (py_index l i); [|easy]. cbn [bind].
    rewrite IH. now destruct (mapM (py_index l) ix).
  Qed.

  Lemma value_shape h (e : hembeddings F) : snd (storage_shape (em_storage (he_value o h e))) = hstorage_cols (he_storage e).
  Proof. unfold he_value. simpl. now destruct (he_storage e). Qed.

  Lemma read_alloc (h : heap) l : h_read o (h ++ l) (seq (length h) (length l)) = l.
  Proof.
    unfold h_read. apply ArrProofs.nth_error_ext'. intros k. rewrite nth_error_map.
    destruct (Nat.lt_ge_cases k (length l)) as [L|L].
    - rewrite (nth_error_nth' _ 0%nat), seq_nth by (rewrite ?seq_length; easy). simpl.
      rewrite app_nth2, (nth_error_nth' _ (fzero o)) by lia. do 2 f_equal. lia.
    - rewrite !(proj2 (nth_error_None _ _)); [easy|easy|]. now rewrite seq_length.
  Qed.

  Lemma assign_ok r vals (h : heap) : length vals = length r -> hassign r vals h = (h_write h r vals, Ok tt).
  Proof. intros H. unfold hassign. now rewrite H, Nat.eqb_refl. Qed.

  Lemma vdiv_length (v : list F) n : length (vdiv o v n) = length v.
  Proof. apply map_length. Qed.

  Lemma py_index_In {A} (l : list A) i a : py_index l i = Ok a -> In a l.
  Proof.
    unfold py_index. destruct (in_range _ _ _); [|easy]. destruct (nth_error l _) eqn:E; [|easy].
    intros [= <-]. now apply nth_error_In in E.
  Qed.

  Lemma at_spec (e : hembeddings F) idx out h v n :
    in_memory h e -> storage_wf (em_storage (he_value o h e)) ->
    (forall r, out = Some r -> buffer h e r) ->
    em_embedding_at o (he_value o h e) idx = Ok (v, n) ->
    exists h' r n', he_embedding_at o e idx out h = (h', Ok (r, n'))
      /\ h_read o h' r = v
      /\ (forall ro, out = Some ro -> r = ro)
      /\ (n = None <-> n' = None)
      /\ (disjoint (out_cells out) (norms_cells e) -> n' = n).
  Proof.
    intros [M1 M2] W Hb H. destruct idx as [i|l]; simpl in H.
    - apply bind_ok in H as (row & Hr & H).
      (* the row as an array in memory *)
      assert (X : exists h1 r1, hstorage_get o (he_storage e) i h = (h1, Ok r1)
                  /\ h_read o h1 r1 = row /\ only_changed [] h h1).
      { pose proof (framed_storage_get [] (he_storage e) i h) as C.
        unfold he_value in Hr. simpl in Hr. destruct (he_storage e) as [bo cols rows|q]; simpl in *.
        - rewrite map_py_index in Hr. unfold hlift in *. destruct (py_index rows i) as [r1|]; [|easy].
          injection Hr as <-. exists h, r1. easy.
        - unfold hbind, hlift in *. rewrite Hr in *. unfold halloc in *.
          do 2 eexists. split; [reflexivity|]. split; [apply read_alloc|exact C]. }
      destruct X as (h1 & r1 & E1 & R1 & C1). simpl. unfold hbind at 1. rewrite E1.
      assert (Lr : length row = N.to_nat (hstorage_cols (he_storage e))).
      { pose proof (ExplicitEmb.storage_get_len o (em_storage (he_value o h e)) i row W Hr) as Hl.
        rewrite value_shape in Hl. unfold lenN in Hl. lia. }
      (* after writing out *)
      assert (Y : exists h2 r2, (match out with
               | Some r => hbind (hget o r1) (fun vals => hbind (hassign r vals) (fun _ => hret r))
               | None => hret r1
               end) h1 = (h2, Ok r2) /\ h_read o h2 r2 = row /\ (forall ro, out = Some ro -> r2 = ro)
               /\ only_changed (out_cells out) h h2).
      { destruct out as [r|].
        - destruct (Hb r eq_refl) as (A & N & L). unfold hbind, hget. rewrite R1, assign_ok by lia.
          do 2 eexists. split; [reflexivity|]. split; [apply write_read; try easy; [eapply allocated_changed; eauto|lia]|].
          split; [now intros ro [= <-]|]. eapply changed_trans; [eapply changed_incl; [|exact C1]; easy|].
          pose proof (assign_changed r row h1) as C2. rewrite assign_ok in C2 by lia. exact C2.
        - exists h1, r1. split; [easy|]. split; [easy|]. split; [easy|exact C1]. }
      destruct Y as (h2 & r2 & E2 & R2 & O2 & C2). unfold hbind at 1. rewrite E2.
      unfold he_value in H. cbn [em_norms] in H.
      destruct (he_norms e) as [[bo nr]|] eqn:En.
      + cbn [nm_vals] in H. unfold h_read in H. rewrite map_py_index in H. apply bind_ok in H as (x & Hx & H).
        injection H as <- <-. destruct (py_index nr i) as [a|] eqn:Ea; [|easy]. injection Hx as <-.
        unfold hbind, hlift, hget, hret. cbn [h_read map hd_error].
        exists h2, r2, (Some (nth a h2 (fzero o))). split; [easy|]. split; [easy|]. split; [easy|]. split; [easy|].
        intros D. f_equal. pose proof (py_index_In _ _ _ Ea) as Ia. unfold norms_cells in *. rewrite En in *.
        assert (R : h_read o h2 [a] = h_read o h [a]).
        { eapply read_changed; [exact C2|constructor; [|constructor]|].
          - unfold allocated in M2. rewrite Forall_forall in M2. auto.
          - intros b Hb' [<-|[]]. eapply D; eauto. }
        now injection R.
      + injection H as <- <-. exists h2, r2, None. easy.
    - apply bind_ok in H as (rows & Hr & H). cbv zeta in H. injection H as <- <-.
      assert (X : hstorage_get_list o (he_storage e) l h = (h, Ok rows)).
      { unfold he_value in Hr. simpl in Hr. destruct (he_storage e) as [bo cols rs|q]; simpl in *.
        - rewrite map_mapM_index in Hr. unfold hbind, hlift. destruct (mapM (py_index rs) l); [|easy].
          now injection Hr as <-.
        - unfold hlift. now rewrite Hr. }
      simpl. unfold hbind at 1. rewrite X. unfold em_dims. rewrite value_shape.
      set (s := vsum o _ rows).
      assert (Ls : length s = N.to_nat (hstorage_cols (he_storage e))).
      { assert (Hr2 : storage_get_list o (em_storage (he_value o h e)) l = Ok rows) by exact Hr.
        apply LookupProofs.get_list_iff, LookupProofs.rows_at_len in Hr2; [|easy].
        rewrite value_shape in Hr2. exact (proj1 (LookupProofs.vsum_is_sum o _ rows Hr2)). }
      assert (Y : exists h1 r1, (match out with
               | Some r => if (length s =? length r)%nat then hbind (hassign r s) (fun _ => hret r) else hraise ValueError
               | None => halloc s
               end) h = (h1, Ok r1) /\ h_read o h1 r1 = s /\ NoDup r1 /\ allocated h1 r1
               /\ (forall ro, out = Some ro -> r1 = ro)).
      { destruct out as [r|].
        - destruct (Hb r eq_refl) as (A & N & L). rewrite Ls, L, Nat.eqb_refl.
          unfold hbind. rewrite assign_ok by lia. do 2 eexists. split; [reflexivity|].
          split; [apply write_read; try easy; lia|]. split; [easy|]. split.
          + unfold allocated. now rewrite write_length.
          + now intros ro [= <-].
        - unfold halloc. do 2 eexists. split; [reflexivity|]. split; [apply read_alloc|]. split; [apply seq_NoDup|].
          split; [|easy]. apply Forall_forall. intros a Ha. apply in_seq in Ha. rewrite app_length. lia. }
      destruct Y as (h1 & r1 & E1 & R1 & N1 & A1 & O1). unfold hbind at 1. rewrite E1.
      assert (Lr : length r1 = length s) by (rewrite <- R1; symmetry; apply map_length).
      unfold hbind, hget. rewrite R1, assign_ok by (rewrite vdiv_length; lia).
      do 3 eexists. split; [reflexivity|]. split; [apply write_read; try easy; rewrite vdiv_length; lia|].
      split; [easy|]. split; [easy|]. easy.
  Qed.

  Lemma buffer_none h (e : hembeddings F) : forall r, @None aref = Some r -> buffer h e r.
  Proof. easy. Qed.

  (* ---------------------------------------------------------------- *)
  (* the three methods                                                 *)

  Lemma embedding_mem (e : hembeddings F) w out d h v :
    in_memory h e -> storage_wf (em_storage (he_value o h e)) -> (forall r, out = Some r -> buffer h e r) ->
    em_embedding o (he_value o h e) w None = Ok (Some v) ->
    exists h' r, he_embedding o e w out d h = (h', Ok (Some r)) /\ h_read o h' r = v
      /\ (forall ro, out = Some ro -> r = ro).
  Proof.
    intros M W B H. unfold em_embedding in H. change (em_vocab (he_value o h e)) with (he_vocab e) in H.
    unfold he_embedding. unfold hbind at 1. unfold hlift.
    destruct (vocab_idx (he_vocab e) w) as [[i|]|]; cbn [bind] in H; try easy.
    apply bind_ok in H as ([x y] & H & E). injection E as <-.
    destruct (at_spec e i out h x y M W B H) as (h' & r & n' & E & R & O & _).
    unfold hbind. rewrite E. exists h', r. easy.
  Qed.
  Lemma embedding_mem_none (e : hembeddings F) w out h :
    em_embedding o (he_value o h e) w None = Ok None ->
    he_embedding o e w out None h = (h, Ok None).
  Proof.
    intros H. unfold em_embedding in H. change (em_vocab (he_value o h e)) with (he_vocab e) in H.
    unfold he_embedding. unfold hbind at 1. unfold hlift.
    destruct (vocab_idx (he_vocab e) w) as [[i|]|]; cbn [bind] in H; try easy.
    - apply bind_ok in H as ([x y] & H & E). easy.
    - now destruct out.
  Qed.
  Lemma embedding_mem_default (e : hembeddings F) w out d h :
    em_embedding o (he_value o h e) w None = Ok None ->
    buffer h e out -> length d = length out ->
    exists h', he_embedding o e w (Some out) (Some d) h = (h', Ok (Some out)) /\ h_read o h' out = h_read o h d.
  Proof.
    intros H (A & N & _) L. unfold em_embedding in H. change (em_vocab (he_value o h e)) with (he_vocab e) in H.
    unfold he_embedding. unfold hbind at 1. unfold hlift.
    destruct (vocab_idx (he_vocab e) w) as [[i|]|]; cbn [bind] in H; try easy.
    - apply bind_ok in H as ([x y] & H & E). easy.
    - unfold hbind, hget, hret. assert (L' : length (h_read o h d) = length out) by (unfold h_read; now rewrite map_length).
      rewrite assign_ok by easy. eexists. split; [reflexivity|]. now apply write_read.
  Qed.
  Lemma getitem_mem (e : hembeddings F) w h v :
    in_memory h e -> storage_wf (em_storage (he_value o h e)) ->
    em_getitem o (he_value o h e) w = Ok v ->
    exists h' r, he_getitem o e w h = (h', Ok r) /\ h_read o h' r = v.
  Proof.
    intros M W H. unfold em_getitem in H. change (em_vocab (he_value o h e)) with (he_vocab e) in H.
    unfold he_getitem. unfold hbind at 1. unfold hlift.
    destruct (vocab_getitem (he_vocab e) w) as [i|]; cbn [bind] in H; try easy.
    apply bind_ok in H as ([x y] & H & E). injection E as <-.
    destruct (at_spec e i None h x y M W (buffer_none h e) H) as (h' & r & n' & E & R & O & _).
    unfold hbind. rewrite E. exists h', r. easy.
  Qed.
  Lemma with_norm_mem (e : hembeddings F) w out d h v n :
    in_memory h e -> storage_wf (em_storage (he_value o h e)) -> (forall r, out = Some r -> buffer h e r) ->
    em_embedding_with_norm o (he_value o h e) w None = Ok (Some (v, n)) ->
    exists h' r n', he_embedding_with_norm o e w out d h = (h', Ok (Some (r, n'))) /\ h_read o h' r = v
      /\ (forall ro, out = Some ro -> r = ro)
      /\ (disjoint (match out with Some r => r | None => [] end) (norms_cells e) -> n' = n).
  Proof.
    intros M W B H. unfold em_embedding_with_norm in H. change (em_vocab (he_value o h e)) with (he_vocab e) in H.
    unfold he_embedding_with_norm.
    assert (En : he_norms e <> None) by (intros X; unfold he_value in H; cbn [em_norms] in H; now rewrite X in H).
    destruct (he_norms e) as [p|] eqn:Ep; [|easy].
    assert (H' : (idx <- vocab_idx (he_vocab e) w ;;
        match idx with None => Ok None | Some i => r <- em_embedding_at o (he_value o h e) i ;; Ok (Some r) end)
        = Ok (Some (v, n))).
    { unfold he_value in H at 1. cbn [em_norms] in H. rewrite Ep in H. destruct p. exact H. }
    clear H. unfold hbind at 1. unfold hlift.
    destruct (vocab_idx (he_vocab e) w) as [[i|]|]; cbn [bind] in H'; try easy.
    apply bind_ok in H' as ([x y] & H & E). injection E as <- <-.
    destruct (at_spec e i out h x y M W B H) as (h' & r & n' & E & R & O & _ & D).
    unfold hbind. rewrite E. exists h', r, n'. easy.
  Qed.
End HeapProofs.
