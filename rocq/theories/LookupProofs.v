(* Embedding lookup, reconstruction, iteration. *)
From Coq Require Import Lia.
From Verif Require Import Py PyProofs Utf8 Utf8Proofs IO Arr ArrProofs Subword Vocab VocabProofs Storage Chunks
  Embeddings Spec SpecVocab SpecLookup VocabFacts WordProofs StorageGet.
From Verif Require ExplicitEmb.

Section Lookup.
  Context {F : Type} (o : fops F).

  (* ---------------------------------------------------------------- *)
  (* sums                                                              *)

  Lemma vadd_length (x y : list F) : length (vadd o x y) = Nat.min (length x) (length y).
  Proof. apply map2_length. Qed.

  Lemma fold_vadd cols rs (r : list F) : length r = cols -> Forall (fun x => length x = cols) rs ->
    length (fold_left (vadd o) rs r) = cols
    /\ forall j, (j < cols)%nat ->
       nth j (fold_left (vadd o) rs r) (fzero o)
       = fold_left (fadd o) (map (fun x => nth j x (fzero o)) rs) (nth j r (fzero o)).
  Proof.
    intros L H. revert r L. induction H as [|x rs Hx H IH]; intros r L; simpl; [easy|].
    destruct (IH (vadd o r x)) as [I1 I2]; [rewrite vadd_length; lia|]. split; [easy|].
    intros j Hj. rewrite I2 by easy. f_equal.
    assert (E : nth_error (vadd o r x) j = Some (fadd o (nth j r (fzero o)) (nth j x (fzero o)))).
    { unfold vadd. rewrite map2_nth, !(nth_error_nth' _ (fzero o)) by lia. easy. }
    now apply nth_error_nth.
  Qed.

  Lemma vsum_is_sum cols (rows : list (list F)) : Forall (fun x => length x = cols) rows ->
    is_sum o cols rows (vsum o cols rows).
  Proof.
    intros H. destruct rows as [|r rs]; simpl.
    - split; [apply repeat_length|]. intros j Hj. unfold vzero, column_sum. simpl.
      now rewrite (nth_error_nth' _ (fzero o)), nth_repeat by (rewrite repeat_length; easy).
    - destruct (fold_vadd cols rs r (Forall_inv H) (Forall_inv_tail H)) as [L N]. split; [easy|].
      intros j Hj. rewrite (nth_error_nth' _ (fzero o)) by lia. rewrite N by easy. easy.
  Qed.
  Lemma is_sum_unique cols rows (v w : list F) : is_sum o cols rows v -> is_sum o cols rows w -> v = w.
  Proof.
    intros [L1 N1] [L2 N2]. apply nth_error_ext'. intros j.
    destruct (Nat.lt_ge_cases j cols) as [H|H]; [now rewrite N1, N2|].
    rewrite !(proj2 (nth_error_None _ _)) by lia. easy.
  Qed.

  (* ---------------------------------------------------------------- *)
  (* list keys                                                         *)

  Lemma mapM_Forall2 {A B} (f : A -> result B) l bs :
    mapM f l = Ok bs <-> Forall2 (fun a b => f a = Ok b) l bs.
  Proof.
    split.
    - revert bs. induction l as [|a l IH]; intros bs H; simpl in H.
      + injection H as <-. constructor.
      + apply bind_ok in H as (b & Hb & H). apply bind_ok in H as (bs' & Hbs & H). injection H as <-.
        constructor; auto.
    - induction 1 as [|a b l bs H H2 IH]; [easy|]. simpl. now rewrite H, IH.
  Qed.
  Lemma get_list_iff (s : storage F) l rows : storage_get_list o s l = Ok rows <-> rows_at o s l rows.
  Proof.
    unfold rows_at. rewrite <- mapM_Forall2.
    destruct (get_list_map o s l) as [->|(x & y & E1 & E2)]; [easy|]. rewrite E1, E2. easy.
  Qed.
  Lemma rows_at_len (s : storage F) l rows : storage_wf s -> rows_at o s l rows ->
    Forall (fun r => length r = N.to_nat (snd (storage_shape s))) rows.
  Proof.
    intros W. induction 1 as [|i r l rows H H2 IH]; constructor; [|easy].
    apply ExplicitEmb.storage_get_len in H; [|easy]. unfold lenN in H. lia.
  Qed.

  (* ---------------------------------------------------------------- *)
  (* C24                                                               *)

  Lemma embedding_known (e : embeddings F) k w d dn : built_embeddings e -> valid_codes (em_storage e) ->
    nonneg_index (em_vocab e) ->
    nth_error (vocab_words (em_vocab e)) k = Some w ->
    exists row, storage_get o (em_storage e) (Z.of_nat k) = Ok row
      /\ em_getitem o e w = Ok row
      /\ em_embedding o e w d = Ok (Some row)
      /\ forall n, em_norms e = Some n ->
           exists x, nth_error (nm_vals n) k = Some x
             /\ em_embedding_with_norm o e w dn = Ok (Some (row, Some x)).
  Proof.
    intros BE V N Hk. pose proof BE as (W & B & _ & _).
    destruct (lookup_known _ k w B Hk) as [G I].
    assert (Lk : (k < length (vocab_words (em_vocab e)))%nat) by (apply nth_error_Some; congruence).
    pose proof (rows_bound e BE) as U. pose proof (upper_bound_ge _ B N) as U2. rewrite (built_len _ B) in U2.
    unfold lenN in U2.
    destruct (storage_get_ok o (em_storage e) (Z.of_nat k) W V) as [row Hr]; [lia|].
    exists row. split; [easy|]. unfold em_getitem, em_embedding, em_embedding_with_norm. rewrite G, I. cbn [bind].
    unfold em_embedding_at. rewrite Hr. cbn [bind].
    destruct (em_norms e) as [n|] eqn:En; [|cbn [bind fst]; easy].
    pose proof (norms_len e n BE En) as Ln. rewrite (built_len _ B) in Ln. unfold lenN in Ln.
    destruct (nth_error (nm_vals n) k) as [x|] eqn:Ex; [|apply nth_error_None in Ex; lia].
    rewrite (py_index_nth _ _ _ Ex). cbn [bind fst]. split; [easy|]. split; [easy|].
    intros n' [= <-]. eauto.
  Qed.

  Lemma subword_lookup v w l : built_vocab v -> ~ In w (vocab_words v) -> has_subwords v w l ->
    vocab_getitem v w = Ok (IdxList l) /\ vocab_idx v w = Ok (Some (IdxList l)).
  Proof.
    intros B H (Ne & sw & Hs & ->). pose proof (sget_not_in v w B H) as S.
    destruct (lookup_cases v w B) as
      [(i & S' & _)|(_ & [(ws & idx & -> & _)|[(x & E & _)|[(E & _)|(l & E & _ & -> & ->)]]])];
      try congruence; [easy|..].
    - rewrite E in Hs. injection Hs as <-. easy.
    - rewrite E in Hs. injection Hs as <-. easy.
  Qed.

  Lemma embedding_unknown (e : embeddings F) w l d dn : built_embeddings e -> valid_codes (em_storage e) ->
    nonneg_index (em_vocab e) -> machine_size (em_vocab e) ->
    ~ In w (vocab_words (em_vocab e)) -> has_subwords (em_vocab e) w l ->
    exists rows s, rows_at o (em_storage e) l rows /\ is_sum o (N.to_nat (em_dims e)) rows s
      /\ em_getitem o e w = Ok (map (fun x => fdiv o x (fnorm o s)) s)
      /\ em_embedding o e w d = Ok (Some (map (fun x => fdiv o x (fnorm o s)) s))
      /\ (em_norms e <> None ->
          em_embedding_with_norm o e w dn = Ok (Some (map (fun x => fdiv o x (fnorm o s)) s, Some (fnorm o s)))).
  Proof.
    intros BE V N M H S. pose proof BE as (W & B & _ & _).
    destruct (subword_lookup _ w l B H S) as [G I].
    destruct S as (Ne & sw & Hs & El).
    pose proof (idx_bounds _ w _ B N M I) as Bd. unfold within in Bd. simpl in Bd.
    rewrite (rows_bound e BE) in Bd.
    destruct (get_list_ok o (em_storage e) l W V Bd) as (rows & _ & Hr).
    exists rows, (vsum o (N.to_nat (em_dims e)) rows).
    pose proof (proj1 (get_list_iff _ _ _) Hr) as Ra. split; [easy|].
    split; [apply vsum_is_sum; eapply rows_at_len; eauto|].
    unfold em_getitem, em_embedding, em_embedding_with_norm. rewrite G, I. cbn [bind].
    unfold em_embedding_at. rewrite Hr. cbn [bind fst]. split; [easy|]. split; [easy|].
    destruct (em_norms e); easy.
  Qed.

  Lemma no_subword_lookup v w : built_vocab v -> ~ In w (vocab_words v) -> no_subwords v w ->
    vocab_getitem v w = Err KeyError /\ vocab_idx v w = Ok None.
  Proof.
    intros B H S. pose proof (sget_not_in v w B H) as E.
    destruct (lookup_cases v w B) as
      [(i & S' & _)|(_ & [(ws & idx & -> & -> & ->)|[(x & E' & I' & _)|[(_ & -> & ->)|(l & E' & Ne & I' & _)]]])];
      try congruence; try easy.
    - exfalso. destruct v; [simpl in I'; discriminate|..]; unfold no_subwords in S; congruence.
    - exfalso. destruct v; [simpl in I', E; rewrite E in I'; discriminate|..]; unfold no_subwords in S; congruence.
  Qed.

  Lemma embedding_none (e : embeddings F) w d dn : built_embeddings e ->
    ~ In w (vocab_words (em_vocab e)) -> no_subwords (em_vocab e) w ->
    em_getitem o e w = Err KeyError /\ em_embedding o e w d = Ok d
    /\ (em_norms e <> None -> em_embedding_with_norm o e w dn = Ok dn).
  Proof.
    intros (W & B & _ & _) H S. destruct (no_subword_lookup _ w B H S) as [G I].
    unfold em_getitem, em_embedding, em_embedding_with_norm. rewrite G, I. cbn [bind].
    split; [easy|]. split; [easy|]. destruct (em_norms e); easy.
  Qed.

  Lemma embedding_type_error (e : embeddings F) w dn : built_embeddings e ->
    nonneg_index (em_vocab e) -> machine_size (em_vocab e) -> valid_codes (em_storage e) ->
    (em_embedding_with_norm o e w dn = Err TypeError <-> em_norms e = None).
  Proof.
    intros BE N M V. split.
    - unfold em_embedding_with_norm. destruct (em_norms e) as [n|] eqn:En; [|easy].
      destruct (vocab_idx (em_vocab e) w) as [r|x] eqn:E; cbn [bind].
      + destruct r as [r|]; [|easy]. destruct (embedding_at_ok o e w r BE N M V E) as [y ->]. easy.
      + pose proof BE as (W & B & _ & _). intros [= ->].
        destruct (no_index_error o e w None BE N M V) as [_ X]. specialize (X TypeError).
        unfold em_embedding in X. rewrite E in X. cbn [bind] in X. now specialize (X eq_refl).
    - intros E. unfold em_embedding_with_norm. now rewrite E.
  Qed.

  Lemma embedding_agree (e : embeddings F) w : built_embeddings e ->
    (forall v, em_getitem o e w = Ok v <-> em_embedding o e w None = Ok (Some v))
    /\ (forall d v, em_embedding o e w None = Ok (Some v) -> em_embedding o e w d = Ok (Some v))
    /\ (em_getitem o e w = Err KeyError -> forall d, em_embedding o e w d = Ok d \/ exists x, em_embedding o e w d = Err x)
    /\ (em_norms e <> None -> forall v,
         em_embedding o e w None = Ok (Some v)
         <-> exists x, em_embedding_with_norm o e w None = Ok (Some (v, x))).
  Proof.
    intros BE. pose proof BE as (W & B & _ & _).
    unfold em_getitem, em_embedding, em_embedding_with_norm.
    destruct (lookup_cases _ w B) as
      [(j & S & E & G)|(S & [(ws & idx & Ev & E & G)|[(x & Ex & E & G)|[(_ & E & G)|(l & El & _ & E & G)]]])];
      rewrite E, G; cbn [bind].
    - destruct (em_embedding_at o e (IdxInt j)) as [[r x]|x]; cbn [bind fst].
      + split; [intros v; split; intros [= <-]; easy|]. split; [intros d v [= <-]; easy|].
        split; [easy|]. intros Nn v. destruct (em_norms e); [|easy]. split; [intros [= <-]; eauto|].
        intros [y [= <- <-]]. easy.
      + split; [easy|]. split; [easy|]. split; [eauto|]. intros Nn v. destruct (em_norms e); [|easy].
        split; [easy|intros [y [=]]].
    - split; [easy|]. split; [easy|]. split; [auto|]. intros Nn v. destruct (em_norms e); [|easy].
      split; [easy|intros [y [=]]].
    - split; [easy|]. split; [easy|]. split; [eauto|]. intros Nn v. destruct (em_norms e); [|easy].
      split; [easy|intros [y [=]]].
    - split; [easy|]. split; [easy|]. split; [auto|]. intros Nn v. destruct (em_norms e); [|easy].
      split; [easy|intros [y [=]]].
    - destruct (em_embedding_at o e (IdxList (map sw_index l))) as [[r x]|x]; cbn [bind fst].
      + split; [intros v; split; intros [= <-]; easy|]. split; [intros d v [= <-]; easy|].
        split; [easy|]. intros Nn v. destruct (em_norms e); [|easy]. split; [intros [= <-]; eauto|].
        intros [y [= <- <-]]. easy.
      + split; [easy|]. split; [easy|]. split; [eauto|]. intros Nn v. destruct (em_norms e); [|easy].
        split; [easy|intros [y [=]]].
  Qed.

  (* ---------------------------------------------------------------- *)
  (* C32                                                               *)

  Lemma pq_select_iff qs code (v : list F) :
    pq_select qs code = Ok v <->
    exists parts, length code = length qs /\ length parts = length code
      /\ (forall k m c, nth_error qs k = Some m -> nth_error code k = Some c ->
           nth_error m (N.to_nat (Byte.to_N c)) = nth_error parts k)
      /\ v = concat parts.
  Proof.
    split.
    - revert code v. induction qs as [|q qs IH]; intros [|c code] v H; simpl in H; try easy.
      + injection H as <-. exists []. repeat split. now intros [|k].
      + destruct (nth_error q (N.to_nat (Byte.to_N c))) as [sub|] eqn:E; [|easy].
        apply bind_ok in H as (rest & Hr & H). injection H as <-.
        destruct (IH _ _ Hr) as (parts & L1 & L2 & P & ->). exists (sub :: parts).
        split; [simpl; lia|]. split; [simpl; lia|]. split; [|easy].
        intros [|k] m c' Hm Hc; simpl in *; [|eauto]. injection Hm as <-. injection Hc as <-. easy.
    - intros (parts & L1 & L2 & P & ->). revert code parts L1 L2 P.
      induction qs as [|q qs IH]; intros [|c code] [|p parts] L1 L2 P; simpl in *; try easy.
      pose proof (P O q c eq_refl eq_refl) as P0. rewrite P0. simpl.
      rewrite (IH code parts); [easy|lia|lia|]. intros k m c' Hm Hc. apply (P (S k) m c' Hm Hc).
  Qed.
  Lemma reconstruct_iff (q : pq F) code v : pq_reconstruct o q code = Ok v <->
    exists parts, centroids q code parts /\ projected o q (concat parts) v.
  Proof.
    unfold pq_reconstruct, projected, centroids. split.
    - intros H. apply bind_ok in H as (out & Ho & H). apply pq_select_iff in Ho as (parts & L1 & L2 & P & ->).
      exists parts. split; [easy|]. destruct (pq_projection q) as [[bo proj]|]; apply Ok_inj in H; subst v; [|easy].
      split; [apply map_length|]. intros j row Hj. now rewrite nth_error_map, Hj.
    - intros (parts & (L1 & L2 & P) & Q).
      assert (E : pq_select (pq_quantizers q) code = Ok (concat parts)) by (apply pq_select_iff; eauto).
      rewrite E. cbn [bind]. destruct (pq_projection q) as [[bo proj]|]; [|now subst].
      destruct Q as [L Q]. f_equal. symmetry. apply nth_error_ext'. intros j. rewrite nth_error_map.
      destruct (nth_error proj j) as [row|] eqn:Ej; simpl; [auto|].
      apply nth_error_None. apply nth_error_None in Ej. lia.
  Qed.

  Lemma quantized_get (q : qarray F) k row :
    storage_get o (SQuant q) (Z.of_nat k) = Ok row <-> quantized_row o q k row.
  Proof.
    change (storage_get o (SQuant q)) with (qa_embedding o q). rewrite qa_embedding_nat.
    unfold qa_row, quantized_row, scaled. split.
    - destruct (nth_error (qa_codes q) k) as [code|]; [|easy]. intros H.
      apply bind_ok in H as (out & Ho & H). apply reconstruct_iff in Ho as (parts & P1 & P2).
      exists code, parts, out. split; [easy|]. split; [easy|]. split; [easy|].
      destruct (qa_norms q) as [[bo ns]|]; [|now injection H as <-].
      destruct (nth_error ns k) as [n|]; [|easy]. injection H as <-. eauto.
    - intros (code & parts & v & -> & P1 & P2 & P3).
      assert (E : pq_reconstruct o (qa_pq q) code = Ok v) by (apply reconstruct_iff; eauto).
      rewrite E. cbn [bind]. destruct (qa_norms q) as [[bo ns]|]; [|now subst].
      destruct P3 as (n & -> & ->). easy.
  Qed.

  Lemma array_iff (s : storage F) rows : storage_wf s ->
    (storage_array o s = Ok rows <-> rows_at o s (map Z.of_nat (seq 0 (storage_rows s))) rows).
  Proof.
    intros W. unfold rows_at. split.
    - intros H. destruct (storage_array_spec o s rows W H) as [L G].
      rewrite <- L. clear -G.
      assert (X : forall m, (forall k row, nth_error rows k = Some row -> storage_get o s (Z.of_nat (m + k)) = Ok row) ->
                  Forall2 (fun i row => storage_get o s i = Ok row) (map Z.of_nat (seq m (length rows))) rows).
      { clear G. induction rows as [|r rows IH]; intros m G; simpl; constructor.
        - specialize (G O r eq_refl). now rewrite Nat.add_0_r in G.
        - apply IH. intros k row Hk. specialize (G (S k) row Hk). now rewrite Nat.add_succ_r in G. }
      now apply X.
    - intros H. destruct s as [a|q]; simpl in *.
      + f_equal. apply nth_error_ext'. intros k.
        destruct (nth_error (nd_rows a) k) as [r|] eqn:E.
        * assert (Lk : (k < length (nd_rows a))%nat) by (apply nth_error_Some; congruence).
          assert (Ek : nth_error (map Z.of_nat (seq 0 (length (nd_rows a)))) k = Some (Z.of_nat k)).
          { rewrite nth_map_seq. apply Nat.ltb_lt in Lk. now rewrite Lk. }
          destruct (Forall2_nth_r _ _ _ H k _ Ek) as (r' & E1 & E2). simpl in E2.
          rewrite (py_index_nth _ _ _ E) in E2. congruence.
        * symmetry. apply nth_error_None. apply nth_error_None in E.
          apply Forall2_len in H. rewrite map_length, seq_length in H. lia.
      + destruct (storage_array o (SQuant q)) as [rows'|x] eqn:E.
        * destruct (storage_array_spec o (SQuant q) rows' W E) as [L G]. simpl in L, E. rewrite E. f_equal.
          apply nth_error_ext'. intros k. destruct (nth_error rows' k) as [r|] eqn:Ek.
          -- assert (Lk : (k < length (qa_codes q))%nat) by (rewrite <- L; apply nth_error_Some; congruence).
             assert (Ei : nth_error (map Z.of_nat (seq 0 (length (qa_codes q)))) k = Some (Z.of_nat k)).
             { rewrite nth_map_seq. apply Nat.ltb_lt in Lk. now rewrite Lk. }
             destruct (Forall2_nth_r _ _ _ H k _ Ei) as (r' & E1 & E2).
             apply G in Ek. simpl in Ek, E2. congruence.
          -- symmetry. apply nth_error_None. apply nth_error_None in Ek.
             apply Forall2_len in H. rewrite map_length, seq_length in H. lia.
        * exfalso. simpl in E. unfold qa_array, pq_reconstruct_batch in E.
          destruct (mapM_all_ok (pq_reconstruct o (qa_pq q)) (qa_codes q)) as [out Ho].
          { intros c Hc. apply In_nth_error in Hc as [k Hk].
            assert (Lk : (k < length (qa_codes q))%nat) by (apply nth_error_Some; congruence).
            assert (Ei : nth_error (map Z.of_nat (seq 0 (length (qa_codes q)))) k = Some (Z.of_nat k)).
            { rewrite nth_map_seq. apply Nat.ltb_lt in Lk. now rewrite Lk. }
            destruct (Forall2_nth_r _ _ _ H k _ Ei) as (r' & E1 & E2). rewrite qa_embedding_nat in E2.
            unfold qa_row in E2. rewrite Hk in E2. apply bind_ok in E2 as (out & Ho & _). eauto. }
          rewrite Ho in E. cbn [bind] in E. destruct (qa_norms q) as [[bo ns]|]; easy.
  Qed.

  Lemma embedding_slice (q : qarray F) sl : sl_step sl <> Some 0%Z ->
    qa_embedding_slice o q sl = (s <- storage_slice (SQuant q) sl ;; storage_array o s).
  Proof.
    intros Z. unfold qa_embedding_slice. simpl. unfold qa_slice.
    destruct (py_slice (qa_codes q) sl) as [c|x]; [|easy].
    cbn [bind]. destruct (qa_norms q) as [[bo ns]|] eqn:En; [|easy].
    destruct (py_slice_spec ns sl Z) as (_ & l & _ & -> & _). cbn [bind].
    unfold storage_array, qa_array. cbn [qa_pq qa_codes qa_norms]. easy.
  Qed.

  (* ---------------------------------------------------------------- *)
  (* C33                                                               *)

  Lemma iter_array (s : storage F) : no_quantized_norms s -> storage_iter o s = storage_array o s.
  Proof.
    intros H. destruct s as [a|q]; [easy|]. simpl in *. unfold qa_iter, qa_array, pq_reconstruct_batch. rewrite H.
    now destruct (mapM _ _).
  Qed.
  Lemma iter_iff (s : storage F) rows : storage_wf s -> no_quantized_norms s ->
    (storage_iter o s = Ok rows <-> rows_at o s (map Z.of_nat (seq 0 (storage_rows s))) rows).
  Proof. intros W N. rewrite iter_array by easy. now apply array_iff. Qed.
  Lemma iter_ok (s : storage F) : storage_wf s -> valid_codes s -> no_quantized_norms s ->
    exists rows, storage_iter o s = Ok rows.
  Proof. intros W V N. rewrite iter_array by easy. now apply storage_array_ok. Qed.

  (* with norms, iteration yields the rows of the matrix without norms *)
  Lemma iter_quantized (q : qarray F) :
    storage_iter o (SQuant q) = storage_array o (SQuant (QA (qa_pq q) (qa_len q) (qa_codes q) None)).
  Proof. simpl. unfold qa_iter, qa_array, pq_reconstruct_batch. cbn. now destruct (mapM _ _). Qed.

  Lemma em_iter_spec (e : embeddings F) l : built_embeddings e -> nonneg_index (em_vocab e) ->
    no_quantized_norms (em_storage e) -> em_iter o e = Ok l ->
    map (fun x => fst (fst x)) l = vocab_words (em_vocab e)
    /\ forall w row n, In (w, row, n) l ->
         em_getitem o e w = Ok row
         /\ match em_norms e with
            | None => n = None
            | Some _ => em_embedding_with_norm o e w None = Ok (Some (row, n))
            end.
  Proof.
    intros BE N NQ H. pose proof BE as (W & B & _ & _). unfold em_iter in H.
    apply bind_ok in H as (rows & Hr & H). apply iter_iff in Hr; [|easy|easy].
    pose proof (rows_bound e BE) as U. pose proof (upper_bound_ge _ B N) as U2. rewrite (built_len _ B) in U2.
    unfold lenN in U2.
    assert (Lr : length rows = storage_rows (em_storage e)).
    { apply Forall2_len in Hr. rewrite map_length, seq_length in Hr. lia. }
    assert (G : forall k row, nth_error rows k = Some row -> storage_get o (em_storage e) (Z.of_nat k) = Ok row).
    { intros k row Hk. assert (Lk : (k < storage_rows (em_storage e))%nat) by (rewrite <- Lr; apply nth_error_Some; congruence).
      assert (Ek : nth_error (map Z.of_nat (seq 0 (storage_rows (em_storage e)))) k = Some (Z.of_nat k)).
      { rewrite nth_map_seq. apply Nat.ltb_lt in Lk. now rewrite Lk. }
      destruct (Forall2_nth_r _ _ _ Hr k _ Ek) as (r' & E1 & E2). congruence. }
    assert (CN : forall k, nth_error (combine (vocab_words (em_vocab e)) rows) k
              = match nth_error (vocab_words (em_vocab e)) k, nth_error rows k with
                | Some a, Some b => Some (a, b) | _, _ => None end).
    { generalize (vocab_words (em_vocab e)) as ws. clear. induction rows as [|r rows IH]; intros [|w ws] [|k]; simpl; try easy.
      now destruct (nth_error ws k). }
    assert (CF : map fst (combine (vocab_words (em_vocab e)) rows) = vocab_words (em_vocab e)).
    { assert (L : (length (vocab_words (em_vocab e)) <= length rows)%nat) by lia. revert L.
      generalize (vocab_words (em_vocab e)) as ws. clear. induction rows as [|r rows IH]; intros [|w ws] L; simpl in *; try easy.
      f_equal. apply IH. lia. }
    destruct (em_norms e) as [n|] eqn:En; injection H as <-.
    - pose proof (norms_len e n BE En) as Ln. rewrite (built_len _ B) in Ln. unfold lenN in Ln. split.
      + rewrite <- CF at 2. apply nth_error_ext'. intros k. rewrite !nth_error_map, map2_nth.
        destruct (nth_error (combine _ rows) k) as [[w r]|] eqn:E1; [|easy].
        destruct (nth_error (nm_vals n) k) as [x|] eqn:E2; [easy|]. exfalso.
        rewrite CN in E1. destruct (nth_error (vocab_words (em_vocab e)) k) eqn:E3; [|easy].
        assert (k < length (vocab_words (em_vocab e)))%nat by (apply nth_error_Some; congruence).
        apply nth_error_None in E2. lia.
      + intros w row x Hi. apply In_nth_error in Hi as [k Hk]. rewrite map2_nth, CN in Hk.
        destruct (nth_error (vocab_words (em_vocab e)) k) as [w'|] eqn:E1; [|easy].
        destruct (nth_error rows k) as [r|] eqn:E2; [|easy].
        destruct (nth_error (nm_vals n) k) as [y|] eqn:E3; [|easy]. injection Hk as -> -> <-.
        destruct (lookup_known _ k w B E1) as [Gw Iw].
        unfold em_getitem, em_embedding_with_norm. rewrite Gw, Iw, En. cbn [bind].
        unfold em_embedding_at. rewrite (G _ _ E2), En. cbn [bind]. rewrite (py_index_nth _ _ _ E3). easy.
    - split.
      + rewrite map_map. simpl. exact CF.
      + intros w row x Hi. apply in_map_iff in Hi as ([w' r] & E & Hi). injection E as -> -> <-.
        split; [|easy]. apply In_nth_error in Hi as [k Hk]. rewrite CN in Hk.
        destruct (nth_error (vocab_words (em_vocab e)) k) as [w'|] eqn:E1; [|easy].
        destruct (nth_error rows k) as [r|] eqn:E2; [|easy]. injection Hk as -> ->.
        destruct (lookup_known _ k w B E1) as [Gw Iw].
        unfold em_getitem. rewrite Gw. cbn [bind].
        unfold em_embedding_at. rewrite (G _ _ E2), En. easy.
  Qed.
End Lookup.
