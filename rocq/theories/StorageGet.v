(* Access to storages: slices, arrays, iteration. *)
From Coq Require Import Lia.
From Verif Require Import Py PyProofs Arr ArrProofs Subword Vocab VocabProofs Storage Chunks Embeddings
  Spec SpecVocab SpecLookup WordProofs.

Section Access.
  Context {F : Type} (o : fops F).

  (* the k-th row of a quantized array *)
  Definition qa_row (q : qarray F) (k : nat) : result (list F) :=
    match nth_error (qa_codes q) k with
    | None => Err IndexError
    | Some code =>
        out <- pq_reconstruct o (qa_pq q) code ;;
        match qa_norms q with
        | None => Ok out
        | Some (_, ns) =>
            match nth_error ns k with None => Err IndexError | Some n => Ok (vscale o n out) end
        end
    end.

  Lemma py_index_nat {A} (l : list A) k :
    py_index l (Z.of_nat k) = match nth_error l k with Some a => Ok a | None => Err IndexError end.
  Proof.
    rewrite py_index_from_end. unfold from_end. replace (Z.of_nat k <? 0)%Z with false by (symmetry; apply Z.ltb_ge; lia).
    rewrite Nat2Z.id. destruct (nth_error l k); [|easy]. destruct (Z.ltb_spec (Z.of_nat k) 0); [lia|easy].
  Qed.

  Lemma qa_embedding_nat (q : qarray F) k : qa_embedding o q (Z.of_nat k) = qa_row q k.
  Proof.
    unfold qa_embedding, qa_row. rewrite py_index_nat. destruct (nth_error (qa_codes q) k) as [l|]; [|easy].
    cbn [bind]. destruct (pq_reconstruct o (qa_pq q) l); [|easy]. cbn [bind].
    destruct (qa_norms q) as [[bo ns]|]; [|easy]. rewrite py_index_nat. now destruct (nth_error ns k).
  Qed.

  (* negative keys count from the end *)
  Lemma storage_get_from_end (s : storage F) i : storage_wf s -> (- Z.of_nat (storage_rows s) <= i < 0)%Z ->
    storage_get o s i = storage_get o s (i + Z.of_nat (storage_rows s)).
  Proof.
    intros W H.
    assert (X : forall A (l : list A), (- Z.of_nat (length l) <= i < 0)%Z ->
                py_index l i = py_index l (i + Z.of_nat (length l))).
    { intros A l Hl. rewrite !py_index_from_end. unfold from_end.
      destruct (Z.ltb_spec i 0); [|lia]. destruct (Z.ltb_spec (i + Z.of_nat (length l)) 0); [lia|]. now replace (i + Z.of_nat (length l) <? 0)%Z with false by (symmetry; apply Z.ltb_ge; lia). }
    destruct s as [a|q]; simpl in *; [now apply X|].
    unfold qa_embedding. rewrite (X _ (qa_codes q)) by easy.
    destruct (py_index (qa_codes q) (i + Z.of_nat (length (qa_codes q)))) as [c|]; [|easy]. cbn [bind].
    destruct (pq_reconstruct o (qa_pq q) c); [|easy]. cbn [bind].
    destruct W as (_ & _ & _ & _ & W). destruct (qa_norms q) as [[bo ns]|]; [|easy]. destruct W as (_ & L).
    unfold lenN in L. assert (E : length ns = length (qa_codes q)) by lia.
    rewrite (X _ ns) by (rewrite E; easy). now rewrite E.
  Qed.

  Lemma storage_get_range (s : storage F) i row : storage_get o s i = Ok row ->
    (- Z.of_nat (storage_rows s) <= i < Z.of_nat (storage_rows s))%Z.
  Proof.
    assert (X : forall A (l : list A) a, py_index l i = Ok a -> (- Z.of_nat (length l) <= i < Z.of_nat (length l))%Z).
    { intros A l a H. unfold py_index in H. destruct (Z.ltb_spec i 0).
      - destruct (in_range 0 (Z.of_nat (length l)) (i + Z.of_nat (length l))) eqn:R; [|easy].
        apply in_range_spec in R. lia.
      - destruct (in_range 0 (Z.of_nat (length l)) i) eqn:R; [|easy]. apply in_range_spec in R. lia. }
    intros H. destruct s as [a|q]; simpl in *; [now apply X in H|].
    unfold qa_embedding in H. apply bind_ok in H as (c & H & _). now apply X in H.
  Qed.

  (* ---------------------------------------------------------------- *)
  (* slices                                                            *)

  Lemma Forall2_index {A} (l l' : list A) idx :
    Forall2 (fun i a => (0 <= i < Z.of_nat (length l))%Z /\ nth_error l (Z.to_nat i) = Some a) idx l' ->
    forall k i, nth_error idx k = Some i -> (0 <= i)%Z /\ exists a, nth_error l' k = Some a /\ nth_error l (Z.to_nat i) = Some a.
  Proof.
    intros H k i Hk. destruct (Forall2_nth_r _ _ _ H k i Hk) as (a & Ha & [B E]). split; [lia|]. eauto.
  Qed.

  Lemma slice_rows_wf {A} cols (l l' : list (list A)) s : rows_wf cols l -> py_slice l s = Ok l' -> rows_wf cols l'.
  Proof.
    intros W H. apply py_slice_inv in H as (idx & _ & F2). unfold rows_wf in *.
    induction F2 as [|i a idx l' [_ E] F2 IH]; constructor; [|easy].
    rewrite Forall_forall in W. apply W. now apply nth_error_In in E.
  Qed.

  Lemma storage_slice_spec (s s' : storage F) sl : storage_wf s -> storage_slice s sl = Ok s' ->
    storage_wf s' /\ snd (storage_shape s') = snd (storage_shape s)
    /\ exists idx, slice_positions (Z.of_nat (storage_rows s)) sl idx
         /\ storage_rows s' = length idx
         /\ Forall (fun i => 0 <= i < Z.of_nat (storage_rows s))%Z idx
         /\ forall k i, nth_error idx k = Some i -> storage_get o s' (Z.of_nat k) = storage_get o s i.
  Proof.
    intros W H. destruct s as [a|q]; simpl in *.
    - apply bind_ok in H as (rows & Hr & H). injection H as <-. destruct W as [W1 W2]. split.
      { split; [easy|]. simpl. eapply slice_rows_wf; eauto. }
      split; [easy|]. apply py_slice_inv in Hr as (idx & P & F2). exists idx. split; [easy|].
      split; [simpl; symmetry; eapply Forall2_len; eauto|]. split.
      { clear P. induction F2 as [|i x idx l' [B _] F2 IH]; constructor; easy. }
      intros k i Hk. simpl. destruct (Forall2_index _ _ _ F2 k i Hk) as (Hi & x & E1 & E2).
      rewrite (py_index_nth _ _ _ E1). symmetry. now apply py_index_z.
    - apply bind_ok in H as (q' & Hq & H). injection H as <-. unfold qa_slice in Hq.
      apply bind_ok in Hq as (codes & Hc & Hq). destruct W as (W1 & W2 & W3 & W4 & W5).
      pose proof (slice_rows_wf _ _ _ _ W4 Hc) as W4'.
      apply py_slice_inv in Hc as (idx & P & F2).
      assert (L : length idx = length codes) by (eapply Forall2_len; eauto).
      assert (B : Forall (fun i => 0 <= i < Z.of_nat (length (qa_codes q)))%Z idx).
      { clear -F2. induction F2 as [|i x idx l' [B _] F2 IH]; constructor; easy. }
      destruct (qa_norms q) as [[bo ns]|] eqn:En.
      + apply bind_ok in Hq as (ns' & Hn & Hq). injection Hq as <-.
        apply py_slice_inv in Hn as (idx2 & P2 & F3). destruct W5 as [W5 L5].
        unfold lenN in L5. assert (L5' : length ns = length (qa_codes q)) by lia.
        rewrite L5' in P2. pose proof (slice_positions_unique _ _ _ _ P P2) as <-.
        assert (L2 : length idx = length ns') by (eapply Forall2_len; eauto).
        split.
        { simpl. repeat split; try easy; try apply W1. unfold lenN. simpl. lia. }
        split; [easy|]. exists idx. split; [easy|]. split; [simpl; easy|]. split; [easy|].
        intros k i Hk. destruct (Forall2_index _ _ _ F2 k i Hk) as (Hi & x & E1 & E2).
        destruct (Forall2_index _ _ _ F3 k i Hk) as (_ & n & E3 & E4).
        cbn [storage_get]. rewrite <- (Z2Nat.id i Hi). rewrite !qa_embedding_nat. unfold qa_row. cbn [qa_codes qa_pq qa_norms].
        rewrite E1, E2, En, E3, E4. easy.
      + injection Hq as <-. split.
        { simpl. repeat split; try easy; apply W1. }
        split; [easy|]. exists idx. split; [easy|]. split; [simpl; easy|]. split; [easy|].
        intros k i Hk. destruct (Forall2_index _ _ _ F2 k i Hk) as (Hi & x & E1 & E2).
        cbn [storage_get]. rewrite <- (Z2Nat.id i Hi). rewrite !qa_embedding_nat. unfold qa_row. cbn [qa_codes qa_pq qa_norms].
        rewrite E1, E2, En. easy.
  Qed.

  Lemma storage_slice_ok (s : storage F) sl : storage_wf s -> sl_step sl <> Some 0%Z ->
    exists s', storage_slice s sl = Ok s'.
  Proof.
    intros W H. destruct s as [a|q]; simpl.
    - destruct (py_slice_spec (nd_rows a) sl H) as (_ & rows & _ & -> & _). cbn [bind]. eauto.
    - unfold qa_slice. destruct (py_slice_spec (qa_codes q) sl H) as (_ & codes & _ & -> & _). cbn [bind].
      destruct (qa_norms q) as [[bo ns]|]; [|cbn [bind]; eauto].
      destruct (py_slice_spec ns sl H) as (_ & ns' & _ & -> & _). cbn [bind]. eauto.
  Qed.

  (* ---------------------------------------------------------------- *)
  (* numpy.asarray, iteration                                          *)

  Lemma mapM_nth_ok {A B} (f : A -> result B) l bs : mapM f l = Ok bs ->
    forall k, nth_error bs k = match nth_error l k with
                               | Some a => match f a with Ok b => Some b | Err _ => None end
                               | None => None
                               end.
  Proof.
    revert bs. induction l as [|a l IH]; intros bs H k.
    - injection H as <-. now destruct k.
    - cbn [mapM] in H. apply bind_ok in H as (b & Hb & H). apply bind_ok in H as (bs' & Hbs & H).
      injection H as <-. destruct k as [|k]; simpl; [now rewrite Hb|]. now apply IH.
  Qed.
  Lemma mapM_elem_ok {A B} (f : A -> result B) l bs : mapM f l = Ok bs ->
    forall a, In a l -> exists b, f a = Ok b.
  Proof.
    revert bs. induction l as [|a l IH]; intros bs H x Hx; [easy|].
    cbn [mapM] in H. apply bind_ok in H as (b & Hb & H). apply bind_ok in H as (bs' & Hbs & H).
    destruct Hx as [<-|Hx]; eauto.
  Qed.

  Lemma map2_nth {A B C} (f : A -> B -> C) x y k :
    nth_error (map2 f x y) k = match nth_error x k, nth_error y k with
                               | Some a, Some b => Some (f a b)
                               | _, _ => None
                               end.
  Proof.
    revert y k. induction x as [|a x IH]; intros [|b y] [|k]; simpl; try easy.
    - now destruct (nth_error x k).
  Qed.
  Lemma map2_length {A B C} (f : A -> B -> C) x y : length (map2 f x y) = Nat.min (length x) (length y).
  Proof. revert y. induction x as [|a x IH]; intros [|b y]; simpl; try easy. now rewrite IH. Qed.

  Lemma storage_array_spec (s : storage F) rows : storage_wf s -> storage_array o s = Ok rows ->
    length rows = storage_rows s
    /\ forall k row, nth_error rows k = Some row -> storage_get o s (Z.of_nat k) = Ok row.
  Proof.
    intros W H. destruct s as [a|q]; simpl in *.
    - injection H as <-. split; [easy|]. intros k row E. now apply py_index_nth.
    - unfold qa_array in H. apply bind_ok in H as (out & Ho & H). unfold pq_reconstruct_batch in Ho.
      pose proof (mapM_len _ _ _ Ho) as L. pose proof (mapM_nth_ok _ _ _ Ho) as Nt.
      destruct W as (W1 & W2 & W3 & W4 & W5). destruct (qa_norms q) as [[bo ns]|] eqn:En; injection H as <-.
      + destruct W5 as [_ L5]. unfold lenN in L5. split; [rewrite map2_length; lia|].
        intros k row E. rewrite map2_nth, Nt in E. rewrite qa_embedding_nat. unfold qa_row.
        destruct (nth_error ns k) eqn:E1; [|easy]. destruct (nth_error (qa_codes q) k) eqn:E2; [|easy].
        destruct (pq_reconstruct o (qa_pq q) l) eqn:E3; [|easy]. injection E as <-. cbn [bind].
        now rewrite En, E1.
      + split; [easy|]. intros k row E. rewrite Nt in E. rewrite qa_embedding_nat. unfold qa_row.
        destruct (nth_error (qa_codes q) k) eqn:E2; [|easy].
        destruct (pq_reconstruct o (qa_pq q) l) eqn:E3; [|easy]. injection E as <-. cbn [bind].
        now rewrite En.
  Qed.

  Lemma storage_array_ok (s : storage F) : storage_wf s -> valid_codes s -> exists rows, storage_array o s = Ok rows.
  Proof.
    intros W V. destruct s as [a|q]; simpl in *; [eauto|]. unfold qa_array, pq_reconstruct_batch.
    destruct W as (W1 & W2 & W3 & W4 & W5).
    destruct (mapM_all_ok (pq_reconstruct o (qa_pq q)) (qa_codes q)) as [out Ho].
    { intros c Hc. unfold rows_wf in W4. rewrite Forall_forall in V, W4. apply pq_reconstruct_ok; auto.
      rewrite W4 by easy. easy. }
    rewrite Ho. cbn [bind]. destruct (qa_norms q) as [[bo ns]|]; eauto.
  Qed.

  Lemma slice_valid_codes (s s' : storage F) sl : valid_codes s -> storage_slice s sl = Ok s' -> valid_codes s'.
  Proof.
    intros V H. destruct s as [a|q]; simpl in *.
    - apply bind_ok in H as (rows & _ & H). now injection H as <-.
    - apply bind_ok in H as (q' & Hq & H). injection H as <-. unfold qa_slice in Hq.
      apply bind_ok in Hq as (codes & Hc & Hq).
      assert (X : Forall (Forall (fun c => Byte.to_N c < pq_n_centroids (qa_pq q))) codes).
      { apply py_slice_inv in Hc as (idx & _ & F2). rewrite Forall_forall in V. clear Hq.
        induction F2 as [|i a idx l' [_ E] F2 IH]; [constructor|]. constructor; [|easy].
        apply V. now apply nth_error_In in E. }
      destruct (qa_norms q) as [[bo ns]|].
      + apply bind_ok in Hq as (ns' & _ & Hq). now injection Hq as <-.
      + now injection Hq as <-.
  Qed.
End Access.
