(* Conversion of bucket embeddings to explicit embeddings. *)
From Coq Require Import Lia.
From Verif Require Import Py PyProofs Utf8 Utf8Proofs IO Arr ArrProofs Subword Vocab VocabProofs Storage Chunks
  Embeddings Spec SpecVocab SpecLookup VocabFacts NgramProofs HashProofs IndexerProofs WordProofs ExplicitConv
  StorageGet.

Lemma set_nth_length {A} n (a : A) l : length (set_nth n a l) = length l.
Proof. revert n; induction l as [|b l IH]; intros [|n]; simpl; auto. Qed.
Lemma set_nth_same {A} n (a : A) l : (n < length l)%nat -> nth_error (set_nth n a l) n = Some a.
Proof. revert n; induction l as [|b l IH]; intros [|n] H; simpl in *; try lia; [easy|]. apply IH. lia. Qed.
Lemma set_nth_other {A} n m (a : A) l : n <> m -> nth_error (set_nth n a l) m = nth_error l m.
Proof. revert n m; induction l as [|b l IH]; intros [|n] [|m] H; simpl; try easy. apply IH. lia. Qed.
Lemma set_nth_Forall {A} (P : A -> Prop) n a l : P a -> Forall P l -> Forall P (set_nth n a l).
Proof.
  intros Ha Hl. revert n; induction Hl as [|b l Hb Hl IH]; intros [|n]; simpl; constructor; auto.
Qed.

Lemma py_setrow_ok {F} (rows : list (list F)) k row :
  (k < length rows)%nat -> py_setrow rows (Z.of_nat k) row = Ok (set_nth k row rows).
Proof.
  intros H. unfold py_setrow. destruct (Z.ltb_spec (Z.of_nat k) 0); [lia|].
  assert (R : in_range 0 (Z.of_nat (length rows)) (Z.of_nat k) = true) by (apply in_range_spec; lia).
  now rewrite R, Nat2Z.id.
Qed.

Section Conv.
  Context {F : Type} (o : fops F).

  (* rows have as many elements as the storage has columns *)
  Lemma pq_select_len (qs : list (list (list F))) code sub n v :
    Forall (fun m => lenN m = n /\ rows_wf sub m) qs -> pq_select qs code = Ok v ->
    lenN v = lenN qs * sub.
  Proof.
    revert code v. induction qs as [|q qs IH]; intros [|c code] v W H; try easy.
    - injection H as <-. easy.
    - simpl in H. pose proof (Forall_inv_tail W) as W'. apply Forall_inv in W as [_ Wq].
      destruct (nth_error q (N.to_nat (Byte.to_N c))) as [s|] eqn:E; [|easy].
      apply bind_ok in H as (rest & Hr & H). injection H as <-. apply IH in Hr; [|easy].
      rewrite lenN_app, lenN_cons, Hr. unfold rows_wf in Wq. rewrite Forall_forall in Wq.
      rewrite (Wq s) by (now apply nth_error_In in E). lia.
  Qed.
  Lemma pq_reconstruct_len (q : pq F) code v : pq_wf q -> pq_reconstruct o q code = Ok v ->
    lenN v = pq_reconstructed_len q.
  Proof.
    intros (_ & W & P) H. unfold pq_reconstruct in H. apply bind_ok in H as (out & Ho & H).
    unfold pq_reconstructed_len. destruct (pq_projection q) as [[bo proj]|].
    - apply Ok_inj in H. subst v. unfold lenN at 1. rewrite map_length. destruct P as (_ & P & _). exact P.
    - injection H as <-. eapply pq_select_len; eauto.
  Qed.
  Lemma storage_get_len (s : storage F) i row : storage_wf s -> storage_get o s i = Ok row ->
    lenN row = snd (storage_shape s).
  Proof.
    intros W H. destruct s as [a|q]; simpl in *.
    - destruct W as [_ W]. rewrite py_index_from_end in H.
      destruct (nth_error _ _) eqn:E in H; [|easy]. destruct (_ <? _)%Z; [easy|]. injection H as <-.
      unfold rows_wf in W. rewrite Forall_forall in W. apply W. now apply nth_error_In in E.
    - destruct W as (W & _). unfold qa_embedding in H. apply bind_ok in H as (c & _ & H).
      apply bind_ok in H as (out & Ho & H). apply pq_reconstruct_len in Ho; [|easy].
      destruct (qa_norms q) as [[bo ns]|].
      + apply bind_ok in H as (n & _ & H). injection H as <-. unfold vscale. now rewrite lenN_map.
      + now injection H as <-.
  Qed.

  Lemma first_rows (s : storage F) n rows : storage_wf s -> (n <= storage_rows s)%nat ->
    (x <- storage_slice s (slice_to (Z.of_nat n)) ;; storage_array o x) = Ok rows ->
    length rows = n /\ forall k row, nth_error rows k = Some row -> storage_get o s (Z.of_nat k) = Ok row.
  Proof.
    intros W L H. apply bind_ok in H as (s' & Hs & Ha).
    destruct (storage_slice_spec o s s' _ W Hs) as (W' & _ & idx & P & Li & _ & G).
    destruct (storage_array_spec o s' rows W' Ha) as [Lr Gr].
    assert (E : idx = map Z.of_nat (seq 0 n)).
    { eapply slice_positions_unique; [exact P|]. unfold slice_positions. simpl.
      unfold clamp, from_end. split.
      - intros k i Hk. rewrite nth_map_seq in Hk. destruct (_ <? _)%nat; [|easy]. injection Hk as <-. lia.
      - intros k. rewrite map_length, seq_length. destruct (Z.ltb_spec (Z.of_nat n) 0); [lia|]. lia. }
    rewrite E, map_length, seq_length in Li. split; [lia|]. intros k row Hk.
    rewrite <- (Gr k row Hk). symmetry. rewrite <- (G k (Z.of_nat k)); [easy|].
    rewrite E, nth_map_seq. assert (k < n)%nat by (rewrite <- Li, <- Lr; apply nth_error_Some; congruence).
    apply Nat.ltb_lt in H. now rewrite H.
  Qed.

  Definition conv_step (e : embeddings F) (ix : ex_indexer) (n : Z) (rows : list (list F)) (ngram : str) :=
    i <- ex_getitem ix ngram ;;
    b <- bucket_indexer_call (em_vocab e) ngram ;;
    row <- storage_get o (em_storage e) (n + Z.of_N b)%Z ;;
    py_setrow rows (n + i)%Z row.

  Record conv_inv (e : embeddings F) (ix : ex_indexer) (n : nat) (rows0 : list (list F)) (P : list str)
    (rows : list (list F)) : Prop := {
    ci_len : length rows = length rows0;
    ci_words : forall k, (k < n)%nat -> nth_error rows k = nth_error rows0 k;
    ci_cols : Forall (fun r => lenN r = em_dims e) rows0 -> Forall (fun r => lenN r = em_dims e) rows;
    ci_grams : forall g i b, In g P -> sget g (ex_index ix) = Some i ->
      bucket_indexer_call (em_vocab e) g = Ok b ->
      exists row, storage_get o (em_storage e) (Z.of_nat n + Z.of_N b)%Z = Ok row
                  /\ nth_error rows (n + Z.to_nat i) = Some row }.

  Lemma conv_run e ix n rows0 P rows : storage_wf (em_storage e) ->
    (forall g i, sget g (ex_index ix) = Some i -> (0 <= i)%Z) ->
    (forall g h b c i j, sget g (ex_index ix) = Some i -> sget h (ex_index ix) = Some j ->
       bucket_indexer_call (em_vocab e) g = Ok b -> bucket_indexer_call (em_vocab e) h = Ok c ->
       (i = j <-> b = c)) ->
    foldM (conv_step e ix (Z.of_nat n)) P rows0 = Ok rows -> conv_inv e ix n rows0 P rows.
  Proof.
    intros W Pos Same. revert rows. induction P as [|g P IH] using rev_ind; intros rows H.
    - injection H as <-. constructor; try easy.
    - rewrite foldM_app in H. apply bind_ok in H as (rows1 & H1 & H). apply IH in H1.
      cbn [foldM] in H. apply bind_ok in H as (x & H & E). injection E as ->.
      unfold conv_step in H. apply bind_ok in H as (i & Hi & H). apply bind_ok in H as (b & Hb & H).
      apply bind_ok in H as (row & Hr & H).
      unfold ex_getitem in Hi. destruct (sget g (ex_index ix)) as [i'|] eqn:Ei; [|easy]. injection Hi as ->.
      pose proof (Pos g i Ei) as Pi.
      assert (Lt : (n + Z.to_nat i < length rows1)%nat).
      { unfold py_setrow in H. destruct (Z.ltb_spec (Z.of_nat n + i) 0); [lia|].
        destruct (in_range _ _ _) eqn:R in H; [|easy]. apply in_range_spec in R. lia. }
      replace (Z.of_nat n + i)%Z with (Z.of_nat (n + Z.to_nat i)) in H by lia.
      rewrite py_setrow_ok in H by easy. injection H as <-. destruct H1 as [L1 W1 C1 G1].
      constructor.
      + now rewrite set_nth_length.
      + intros k Hk. rewrite set_nth_other by lia. auto.
      + intros C0. apply set_nth_Forall; [|auto].
        apply storage_get_len in Hr; [|easy]. exact Hr.
      + intros h j c Ih Ej Hc. destruct (Z.eq_dec i j) as [->|Nij].
        * exists row. rewrite set_nth_same by easy. split; [|easy].
          assert (b = c) by (apply (Same g h b c j j); easy). now subst c.
        * apply in_app_iff in Ih as [Ih|[<-|[]]]; [|congruence].
          pose proof (Pos h j Ej). rewrite set_nth_other by lia. eapply G1; eauto.
  Qed.

  (* ---------------------------------------------------------------- *)

  Lemma conv_unfold e : is_bucket (em_vocab e) ->
    em_bucket_to_explicit o e
    = (v <- bucket_to_explicit_vocab (em_vocab e) ;;
       match v with
       | VExplicit _ _ ix =>
           first <- (s <- storage_slice (em_storage e) (slice_to (Z.of_N (vocab_len v))) ;; storage_array o s) ;;
           rows <- foldM (conv_step e ix (Z.of_N (vocab_len v))) (ex_ngrams ix)
                     (first ++ repeat (vzero o (N.to_nat (em_dims e)))
                                (Z.to_nat (vocab_upper_bound v) - length first)) ;;
           embeddings_new (SNd (NdA BoNative (em_dims e) rows)) v (em_norms e) None
       | _ => Err TypeError
       end).
  Proof. intros K. unfold em_bucket_to_explicit, conv_step. now destruct (em_vocab e). Qed.

  Lemma conv_spec e e' : built_embeddings e -> is_bucket (em_vocab e) ->
    em_bucket_to_explicit o e = Ok e' -> exists ix, converted o e e' ix.
  Proof.
    intros BE K H. pose proof BE as (W & B & NW & _). rewrite conv_unfold in H by easy.
    apply bind_ok in H as (v' & Hv & H).
    pose proof (built_indexer _ B (bucket_nonneg _ K)) as C.
    destruct (to_explicit_spec _ _ B K Hv) as (ix & Ev & Rg & ND & Mem & Tot & Same & Rng & Hx & Wd).
    destruct (to_explicit_built _ _ B K Hv) as [Bv' Nv'].
    assert (Ln : vocab_len v' = N.of_nat (n_words (em_vocab e))).
    { rewrite (built_len _ Bv'), Ev. easy. }
    assert (Zn : Z.of_N (vocab_len v') = Z.of_nat (n_words (em_vocab e))) by lia.
    rewrite Zn in H. set (n := n_words (em_vocab e)) in *.
    assert (Rows : (n <= storage_rows (em_storage e))%nat).
    { pose proof (rows_bound e BE) as U. pose proof (upper_bound_ge _ B (bucket_nonneg _ K)) as G.
      rewrite (built_len _ B) in G. unfold n, n_words. unfold lenN in G. lia. }
    assert (Key : forall g i, sget g (ex_index ix) = Some i -> In g (ex_ngrams ix)).
    { intros g i Hg.
      destruct (ex_new_inv _ _ _ _ _ (fun j (E : Some (ex_index ix) = Some j) => match E in _ = s return match s with Some d => dict_wf d | None => True end with eq_refl => Wd end) Hx) as ((_ & _ & Kk & _) & _).
      apply Kk. apply (dget_In str_eqb str_eqb_eq) in Hg. now apply (in_map fst) in Hg. }
    rewrite Ev in H. apply bind_ok in H as (first & Hf & H). apply bind_ok in H as (rows & Hr & H).
    rewrite <- Ev in H, Hr.
    destruct (first_rows (em_storage e) n first W Rows Hf) as [Lf Gf].
    set (rows0 := first ++ repeat (vzero o (N.to_nat (em_dims e))) (Z.to_nat (vocab_upper_bound v') - length first)) in *.
    apply conv_run in Hr as [L1 W1 C1 G1]; try easy.
    2:{ intros g i Hg. assert (X : (0 <= i < vocab_upper_bound v' - Z.of_N (vocab_len v'))%Z); [|lia].
        apply Rng. eauto. }
    2:{ intros g h b c i j Hg Hh Hb Hc. apply call_in_bucket in Hb, Hc; try easy. now apply (Same g h). }
    assert (E' : e' = Emb (SNd (NdA BoNative (em_dims e) rows)) v' (em_norms e) None).
    { unfold embeddings_new in H. apply bind_ok in H as (? & _ & H). apply bind_ok in H as (? & _ & H).
      now injection H as <-. }
    assert (Cols0 : Forall (fun r => lenN r = em_dims e) rows0).
    { unfold rows0. apply Forall_app. split.
      - apply Forall_forall. intros r Hr. apply In_nth_error in Hr as [k Hk]. apply Gf in Hk.
        apply storage_get_len in Hk; [|easy]. exact Hk.
      - apply Forall_forall. intros r Hr. apply repeat_spec in Hr. subst r. unfold vzero.
        rewrite lenN_repeat. lia. }
    specialize (C1 Cols0).
    exists ix. rewrite E'. constructor; cbn [em_vocab em_norms em_metadata em_storage].
    - split; easy.
    - easy.
    - easy.
    - split; [|easy]. split; [|split; [|split]]; cbn [em_vocab em_norms em_metadata em_storage]; try easy.
      + rewrite H, E'. easy.
    - easy.
    - intros k Hk. specialize (W1 k Hk). unfold rows0 in W1. rewrite nth_error_app1 in W1 by lia.
      destruct (nth_error first k) as [row|] eqn:Ek.
      2:{ apply nth_error_None in Ek. lia. }
      exists row. split; [|now apply Gf]. simpl. now apply py_index_nth.
    - intros g i b Hg Hb. apply call_in_bucket in Hb; try easy.
      destruct (G1 g i b (Key g i Hg) Hg Hb) as (row & R1 & R2). exists row. split; [|easy].
      simpl. assert (Pi : (0 <= i)%Z).
      { assert (X : (0 <= i < vocab_upper_bound v' - Z.of_N (vocab_len v'))%Z); [|lia]. apply Rng. eauto. }
      fold n. replace (Z.of_nat n + i)%Z with (Z.of_nat (n + Z.to_nat i)) by lia. now apply py_index_nth.
  Qed.

  (* ---------------------------------------------------------------- *)
  (* lookup of unknown words                                           *)

  Lemma conv_unknown e e' ix w gs : built_embeddings e -> is_bucket (em_vocab e) ->
    machine_size (em_vocab e) -> converted o e e' ix ->
    ~ In w (vocab_words (em_vocab e)) -> ngrams w (ex_min_n ix) (ex_max_n ix) true = Ok gs ->
    exists l, vocab_subword_indices (em_vocab e') w true false = Ok l
      /\ (l = [] <-> filter (known_gram ix) gs = [])
      /\ forall bs, Forall2 (in_bucket (em_vocab e)) (filter (known_gram ix) gs) bs ->
         exists rows,
           storage_get_list o (em_storage e') (map sw_index l) = Ok rows
           /\ storage_get_list o (em_storage e)
                (map (fun b => (Z.of_nat (n_words (em_vocab e)) + Z.of_N b)%Z) bs) = Ok rows.
  Proof.
    intros BE K M C Nw G. pose proof BE as (W & B & _ & _).
    destruct C as [[_ Ev] _ _ [BE' N'] _ _ Gr].
    pose proof BE' as (W' & B' & _ & _). rewrite Ev in *. simpl vocab_subword_indices.
    rewrite (ex_subword_spec ix w _ true false gs G).
    eexists. split; [reflexivity|]. split.
    - clear. induction gs as [|g gs IH]; [easy|]. simpl. unfold known_gram at 1, ex_call at 1.
      destruct (sget g (ex_index ix)); [easy|]. exact IH.
    - intros bs Hb. set (l := flat_map _ gs).
      assert (X : exists rows, mapM (storage_get o (em_storage e')) (map sw_index l) = Ok rows
        /\ mapM (storage_get o (em_storage e))
             (map (fun b => (Z.of_nat (n_words (em_vocab e)) + Z.of_N b)%Z) bs) = Ok rows).
      { clear G. subst l. revert bs Hb. induction gs as [|g gs IH]; intros bs Hb; simpl in Hb |- *.
        - inversion Hb. subst. now exists [].
        - unfold known_gram in Hb at 1. unfold ex_call at 1. destruct (sget g (ex_index ix)) as [i|] eqn:Ei.
          + inversion Hb as [|? b ? bs' Hb1 Hb2]. subst. destruct (IH bs' Hb2) as (rows & R1 & R2).
            destruct (Gr g i b Ei Hb1) as (row & G1 & G2).
            exists (row :: rows). cbn [app map sw_index sw_mk].
            assert (En : (i + Z.of_N (lenN (vocab_words (em_vocab e))))%Z
                         = (Z.of_nat (n_words (em_vocab e)) + i)%Z) by (unfold n_words, lenN; lia).
            cbn [mapM]. idtac. rewrite En.
            rewrite G1, G2. cbn [bind]. cbn [sw_mk] in R1. rewrite R1, R2. easy.
          + now apply IH. }
      destruct X as (rows & X1 & X2). exists rows. split.
      + destruct (get_list_map o (em_storage e') (map sw_index l)) as [E|(x & y & _ & E)]; congruence.
      + destruct (get_list_map o (em_storage e) (map (fun b => (Z.of_nat (n_words (em_vocab e)) + Z.of_N b)%Z) bs))
          as [E|(x & y & _ & E)]; congruence.
  Qed.

  Lemma bucket_subwords v w gs : built_vocab v -> is_bucket v -> machine_size v ->
    (exists mn mx, vocab_ngram_range v = Some (mn, mx) /\ ngrams w mn mx true = Ok gs) ->
    forall bs, Forall2 (in_bucket v) gs bs ->
    (gs <> [] \/ exists x, utf8_encode w = Ok x) ->
    exists l, vocab_subword_indices v w true false = Ok l
      /\ map sw_index l = map (fun b => (Z.of_nat (n_words v) + Z.of_N b)%Z) bs.
  Proof.
    intros B K M (mn & mx & Rg & G) bs Hb Ne.
    pose proof (built_indexer _ B (bucket_nonneg _ K)) as C. unfold n_words, machine_size in *.
    destruct v as [|ws idx ix|ws idx ix|]; try easy; simpl in Rg, Hb, M, C |- *; injection Rg as <- <-.
    - destruct C as [R E]. destruct (ff_subword_spec ix w (lenN ws) true gs ltac:(lia) M G) as [_ Hf].
      rewrite Hf. eexists. split; [reflexivity|]. rewrite map_map. clear -Hb.
      induction Hb as [|g b gs bs H Hb IH]; [easy|]. cbn [map]. f_equal; [|exact IH]. cbn [sw_index sw_mk].
      rewrite H, <- ff_call_spec. unfold lenN. lia.
    - destruct C as [R E].
      assert (Enc : exists x, utf8_encode (in_brackets true w) = Ok x).
      { destruct Ne as [Ne|Ne]; [|now apply encode_brackets].
        apply encode_chars. intros c Hc.
        assert (Gw : gs = word_grams (ft_min_n ix) (ft_max_n ix) w).
        { rewrite (word_grams_ok _ _ w) in G by apply R. now injection G as <-. }
        assert (Lb : lenN (in_brackets true w) = lenN w + 2).
        { unfold in_brackets. rewrite lenN_cons, lenN_app. change (lenN [62]) with 1. lia. }
        rewrite Gw in Ne. apply word_grams_nonempty in Ne; [|apply R].
        destruct R as [R _].
        destruct (char_in_gram (in_brackets true w) (ft_min_n ix) c) as (pre & g & post & Eg & Lg & Icg); [lia|easy|].
        assert (Ig : In g gs).
        { rewrite Gw. apply word_grams_In; [easy|]. exists pre, post. split; [easy|lia]. }
        apply In_nth_error in Ig as [k Hk]. destruct (Forall2_nth_r _ _ _ Hb k g Hk) as (b & _ & bg & Hbg & _).
        apply in_split in Icg as (g1 & g2 & ->). apply (encode_parts _ _ Hbg g1 [c] g2). easy. }
      destruct Enc as [x Hx].
      destruct (ft_subword_spec ix w (lenN ws) true false x gs E M Hx G) as (hs & Hh & ->).
      eexists. split; [reflexivity|]. rewrite map_map. simpl. clear -Hb Hh E.
      revert hs Hh. induction Hb as [|g b gs bs H Hb IH]; intros hs Hh.
      + injection Hh as <-. easy.
      + cbn [mapM] in Hh. apply bind_ok in Hh as (h & H1 & Hh). apply bind_ok in Hh as (hs' & H2 & Hh).
        injection Hh as <-. cbn [combine map fst snd]. rewrite (IH hs' H2). f_equal.
        destruct H as (bg & Hg & Hz). rewrite ft_call_spec, Hg in H1. apply Ok_inj in H1.
        rewrite <- H1, Z2N.id.
        * rewrite Hz. unfold lenN. lia.
        * apply Z.mod_pos_bound. lia.
  Qed.

  (* ---------------------------------------------------------------- *)
  (* C23                                                               *)

  Lemma conv_known_word e e' ix w d dn : built_embeddings e -> is_bucket (em_vocab e) -> converted o e e' ix ->
    In w (vocab_words (em_vocab e)) ->
    em_embedding o e' w d = em_embedding o e w d
    /\ em_getitem o e' w = em_getitem o e w
    /\ em_embedding_with_norm o e' w dn = em_embedding_with_norm o e w dn.
  Proof.
    intros BE K C Hw. pose proof BE as (W & B & _ & _).
    destruct C as [[_ Ev] En _ [BE' N'] _ Wd _]. pose proof BE' as (_ & B' & _ & _).
    apply In_nth_error in Hw as [k Hk].
    assert (Hk' : nth_error (vocab_words (em_vocab e')) k = Some w) by (rewrite Ev; easy).
    destruct (lookup_known _ k w B Hk) as [G1 I1]. destruct (lookup_known _ k w B' Hk') as [G2 I2].
    assert (Lk : (k < n_words (em_vocab e))%nat) by (unfold n_words; apply nth_error_Some; congruence).
    destruct (Wd k Lk) as (row & R1 & R2).
    assert (At : em_embedding_at o e' (IdxInt (Z.of_nat k)) = em_embedding_at o e (IdxInt (Z.of_nat k))).
    { simpl. now rewrite R1, R2, En. }
    unfold em_embedding, em_getitem, em_embedding_with_norm. rewrite I1, I2, G1, G2, En. cbn [bind].
    now rewrite At.
  Qed.

  Lemma conv_unknown_word e e' ix w d gs : built_embeddings e -> is_bucket (em_vocab e) ->
    machine_size (em_vocab e) -> converted o e e' ix ->
    ~ In w (vocab_words (em_vocab e)) -> ngrams w (ex_min_n ix) (ex_max_n ix) true = Ok gs ->
    let known := filter (known_gram ix) gs in
    (known = [] -> em_embedding o e' w d = Ok d)
    /\ (forall bs, known <> [] -> Forall2 (in_bucket (em_vocab e)) known bs ->
          em_embedding o e' w d = (r <- bucket_average o e bs ;; Ok (Some (fst r)))).
  Proof.
    intros BE K M C Nw G known. pose proof (conv_unknown e e' ix w gs BE K M C Nw G) as (l & Hl & Hn & Hr).
    fold known in Hn, Hr. destruct C as [[_ Ev] En _ [BE' N'] Dm _ _]. pose proof BE' as (_ & B' & _ & _).
    assert (S : sget w (vocab_index (em_vocab e')) = None).
    { apply sget_not_in; [easy|]. rewrite Ev. easy. }
    assert (I : vocab_idx (em_vocab e') w
      = match l with [] => Ok None | _ => Ok (Some (IdxList (map sw_index l))) end).
    { rewrite Ev in *. unfold vocab_idx. rewrite S, Hl. now destruct l. }
    unfold em_embedding. rewrite I. split.
    - intros Z. apply Hn in Z. subst l. easy.
    - intros bs Z Hb. destruct l as [|s l]; [exfalso; now apply Z, Hn|].
      cbn [bind]. unfold bucket_average, em_embedding_at. destruct (Hr bs Hb) as (rows & R1 & R2).
      rewrite R1, R2. cbn [bind]. now rewrite Dm.
  Qed.

  Lemma conv_all_known e e' ix w d dn gs : built_embeddings e -> is_bucket (em_vocab e) ->
    machine_size (em_vocab e) -> converted o e e' ix ->
    ~ In w (vocab_words (em_vocab e)) -> ngrams w (ex_min_n ix) (ex_max_n ix) true = Ok gs ->
    gs <> [] -> (forall g, In g gs -> In g (ex_ngrams ix)) ->
    em_embedding o e' w d = em_embedding o e w d
    /\ em_getitem o e' w = em_getitem o e w
    /\ em_embedding_with_norm o e' w dn = em_embedding_with_norm o e w dn.
  Proof.
    intros BE K M C Nw G Ne All. pose proof BE as (W & B & _ & _).
    pose proof (conv_unknown e e' ix w gs BE K M C Nw G) as (l & Hl & Hn & Hr).
    destruct C as [[Hv Ev] En _ [BE' N'] Dm _ _]. pose proof BE' as (_ & B' & _ & _).
    destruct (to_explicit_spec _ _ B K Hv) as (ix' & Ev' & Rg & ND & Mem & Tot & _).
    rewrite Ev in Ev'. injection Ev' as <-.
    assert (Kn : filter (known_gram ix) gs = gs).
    { clear -All Tot. induction gs as [|g gs IH]; [easy|]. simpl. unfold known_gram at 1.
      destruct (Tot g (All g (or_introl eq_refl))) as (b & i & _ & ->). f_equal.
      apply IH. intros. apply All. now right. }
    assert (Bs : exists bs, Forall2 (in_bucket (em_vocab e)) gs bs).
    { clear -All Tot. induction gs as [|g gs IH]; [exists []; constructor|].
      destruct (Tot g (All g (or_introl eq_refl))) as (b & i & Hb & _).
      destruct IH as [bs Hbs]; [intros; apply All; now right|]. exists (b :: bs). now constructor. }
    destruct Bs as [bs Hbs]. rewrite Kn in *.
    destruct (bucket_subwords (em_vocab e) w gs B K M (ex_intro _ _ (ex_intro _ _ (conj Rg G))) bs Hbs (or_introl Ne))
      as (l2 & Hl2 & Em).
    assert (S : sget w (vocab_index (em_vocab e')) = None).
    { apply sget_not_in; [easy|]. rewrite Ev. easy. }
    assert (S2 : sget w (vocab_index (em_vocab e)) = None) by (now apply sget_not_in).
    assert (Nl : l <> []) by (intros Z; now apply Hn in Z).
    assert (Nl2 : l2 <> []).
    { intros Z. subst l2. destruct Hbs; easy. }
    assert (I1 : vocab_idx (em_vocab e') w = Ok (Some (IdxList (map sw_index l)))
                 /\ vocab_getitem (em_vocab e') w = Ok (IdxList (map sw_index l))).
    { rewrite Ev in *. unfold vocab_idx, vocab_getitem. rewrite S, Hl. now destruct l. }
    assert (I2 : vocab_idx (em_vocab e) w = Ok (Some (IdxList (map sw_index l2)))
                 /\ vocab_getitem (em_vocab e) w = Ok (IdxList (map sw_index l2))).
    { destruct (em_vocab e); try easy; unfold vocab_idx, vocab_getitem; rewrite S2, Hl2; now destruct l2. }
    destruct I1 as [I1 J1]. destruct I2 as [I2 J2].
    assert (At : em_embedding_at o e' (IdxList (map sw_index l)) = em_embedding_at o e (IdxList (map sw_index l2))).
    { destruct (Hr bs Hbs) as (rows & R1 & R2). unfold em_embedding_at. rewrite Em, R1, R2. cbn [bind].
      now rewrite Dm. }
    unfold em_embedding, em_getitem, em_embedding_with_norm. rewrite I1, I2, J1, J2, En. cbn [bind].
    now rewrite At.
  Qed.

  (* ---------------------------------------------------------------- *)
  (* C22 for embeddings                                                *)

  Lemma foldM_ok {A B} (P : A -> Prop) (f : A -> B -> result A) l a :
    P a -> (forall a b, P a -> In b l -> exists a', f a b = Ok a' /\ P a') ->
    exists a', foldM f l a = Ok a' /\ P a'.
  Proof.
    revert a; induction l as [|b l IH]; intros a Pa H; [exists a; easy|]. cbn [foldM].
    destruct (H a b Pa (or_introl eq_refl)) as (a' & -> & Pa'). cbn [bind]. apply IH; [easy|].
    intros. apply H; [easy|now right].
  Qed.

  Lemma conv_ok e : built_embeddings e -> is_bucket (em_vocab e) -> valid_codes (em_storage e) ->
    ((exists e', em_bucket_to_explicit o e = Ok e') <-> explicit_possible (em_vocab e)).
  Proof.
    intros BE K V. pose proof BE as (W & B & _ & _). rewrite <- to_explicit_ok_iff by easy. split.
    - intros [e' H]. destruct (conv_spec e e' BE K H) as [ix [[Hv _] _ _ _ _ _ _]]. eauto.
    - intros [v' Hv]. rewrite conv_unfold by easy. rewrite Hv. cbn [bind].
      pose proof (built_indexer _ B (bucket_nonneg _ K)) as C.
      destruct (to_explicit_spec _ _ B K Hv) as (ix & Ev & Rg & ND & Mem & Tot & Same & Rng & Hx & Wd).
      destruct (to_explicit_built _ _ B K Hv) as [Bv' Nv'].
      pose proof (upper_bound_ge _ Bv' Nv') as Ub'. pose proof (built_len _ Bv') as Ln.
      assert (Lw : vocab_words v' = vocab_words (em_vocab e)) by (now rewrite Ev).
      pose proof (built_len _ B) as Le.
      assert (Le' : vocab_len (em_vocab e) = vocab_len v') by (rewrite Le, Ln, Lw; easy).
      pose proof (rows_bound e BE) as Rb. pose proof (upper_bound_ge _ B (bucket_nonneg _ K)) as Ub.
      rewrite Ev. cbv beta iota. rewrite <- Ev. set (n := Z.of_N (vocab_len v')) in *.
      destruct (storage_slice_ok (em_storage e) (slice_to n) W ltac:(easy)) as [s' Hs].
      destruct (storage_slice_spec o _ _ _ W Hs) as (W' & _ & _).
      destruct (storage_array_ok o s' W' (slice_valid_codes _ _ _ V Hs)) as [first Hf].
      assert (FF : (s <- storage_slice (em_storage e) (slice_to n) ;; storage_array o s) = Ok first).
      { rewrite Hs. exact Hf. }
      rewrite FF. cbn [bind].
      assert (Fr : length first = Z.to_nat n).
      { apply (first_rows (em_storage e) (Z.to_nat n) first W); [lia|]. rewrite Z2Nat.id by lia. exact FF. }
      set (rows0 := first ++ _).
      assert (L0 : length rows0 = Z.to_nat (vocab_upper_bound v')).
      { unfold rows0. rewrite app_length, repeat_length. lia. }
      destruct (foldM_ok (fun r => length r = Z.to_nat (vocab_upper_bound v'))
                  (conv_step e ix n) (ex_ngrams ix) rows0 L0) as (rows & Hr & Lr).
      { intros r g Lr Hg. destruct (Tot g Hg) as (b & i & Hb & Hi). apply call_in_bucket in Hb; [|easy|easy].
        unfold conv_step, ex_getitem. rewrite Hi, Hb. cbn [bind].
        assert (Bb : (Z.of_N b < vocab_upper_bound (em_vocab e) - Z.of_N (vocab_len (em_vocab e)))%Z).
        { unfold vocab_upper_bound. destruct (em_vocab e) as [|ws idx x|ws idx x|]; try easy; simpl in Hb.
          - injection Hb as <-. pose proof (ff_call_bound x g). unfold ff_upper_bound. lia.
          - simpl in C. apply ft_call_bound in Hb; [|lia]. unfold ft_upper_bound. lia. }
        destruct (storage_get_ok o (em_storage e) (n + Z.of_N b) W V) as [row ->]; [lia|]. cbn [bind].
        assert (Bi : (0 <= i < vocab_upper_bound v' - n)%Z) by (apply Rng; eauto).
        replace (n + i)%Z with (Z.of_nat (Z.to_nat (n + i))) by lia.
        rewrite py_setrow_ok by lia. eexists. split; [reflexivity|]. now rewrite set_nth_length. }
      rewrite Hr. cbn [bind]. unfold embeddings_new. cbn [storage_shape fst nd_rows].
      assert (A1 : (Z.of_N (lenN rows) =? vocab_upper_bound v')%Z = true).
      { apply Z.eqb_eq. unfold lenN. lia. }
      rewrite A1. cbn [py_assert bind].
      destruct (em_norms e) as [nm|] eqn:En; [|cbn [bind]; eauto].
      pose proof (norms_len e nm BE En) as Ln2. unfold norms_compat. cbn [storage_shape fst nd_rows].
      assert (A2 : (lenN (nm_vals nm) <=? lenN rows) = true).
      { apply N.leb_le. unfold lenN at 2. lia. }
      rewrite A2. cbn [py_assert bind].
      assert (A3 : (vocab_len v' =? lenN (nm_vals nm)) = true) by (apply N.eqb_eq; lia).
      rewrite A3. cbn [py_assert bind]. eauto.
  Qed.
End Conv.
