(* word2vec files that are cut short. *)
From Coq Require Import Lia.
From Verif Require Import Py PyProofs Utf8 Utf8Proofs Utf8More SpecUtf8 IO IOProofs ReaderProofs Arr
  Subword Vocab VocabProofs Storage Chunks Embeddings Spec SpecVocab SpecLookup VocabFacts
  ArrProofs StorageGet ExplicitEmb WordProofs PyText SpecCompat PyTextProofs Compat CompatProofs
  Word2vecProofs.
Local Open Scope N_scope.
Local Open Scope list_scope.
#[local] Ltac Zify.zify_post_hook ::= Z.to_euclidean_division_equations.

Lemma dropN_takeN {A} p m (d : list A) : dropN p (takeN m d) = takeN (m - p) (dropN p d).
Proof. rewrite !takeN_firstn, !dropN_skipn, skipn_firstn_comm. f_equal. lia. Qed.
Lemma takeN_takeN {A} n m (d : list A) : takeN n (takeN m d) = takeN (N.min n m) d.
Proof. rewrite !takeN_firstn, firstn_firstn. f_equal. lia. Qed.
Lemma lenN_takeN_min {A} n (d : list A) : lenN (takeN n d) = N.min n (lenN d).
Proof. rewrite takeN_firstn. unfold lenN. rewrite firstn_length. lia. Qed.

Lemma until_take delim : forall l w k, until delim l = Some w ->
  until delim (takeN k l) = if lenN w <? k then Some w else None.
Proof.
  intros l w k. rewrite takeN_firstn. revert w k.
  induction l as [|b l IH]; intros w k H; [discriminate|]. cbn [until] in H.
  destruct (N.eq_dec k 0) as [->|K]; [destruct (N.ltb_spec (lenN w) 0); [lia|reflexivity]|].
  replace (N.to_nat k) with (S (N.to_nat (k - 1))) by lia. cbn [firstn until].
  destruct (Byte.eqb b delim).
  - injection H as <-. destruct (N.ltb_spec (lenN (@nil byte)) k); [easy|]. unfold lenN in *; simpl in *; lia.
  - destruct (until delim l) as [u|] eqn:E; [|easy]. injection H as <-.
    rewrite (IH u (k - 1) eq_refl). unfold lenN. simpl length.
    destruct (N.ltb_spec (N.of_nat (length u)) (k - 1)), (N.ltb_spec (N.of_nat (S (length u))) k); try lia; easy.
Qed.
Lemma until_len delim l w : until delim l = Some w -> lenN w + 1 <= lenN l.
Proof.
  intros H. apply until_some in H as (rest & -> & _). unfold lenN. rewrite app_length. simpl. lia.
Qed.

Section Cut.
  Context {F : Type} (o : fops F) (h : endian) (c : codec F) (lossy : bool).

  (* position of the first element of a row whose word starts at p *)
  Definition row_data (d : bytes) (p : N) : option (str * N) :=
    match until x20 (dropN p d) with
    | Some w => match decode_word lossy w with Ok s => Some (strip s, p + lenN w + 1) | Err _ => None end
    | None => None
    end.
  Definition row_elems (cols : N) (d : bytes) (s : N) : list F :=
    let bs := takeN (cols * 4) (dropN s d) in
    map (fun m => dec c (f32_of_le m)) (split_elems (length bs / 4) 4 bs).

  Lemma row_ok cols d p w row q : w2v_read_row h c lossy cols d p = Ok ((w, row), q) <->
    cols * 4 < ssize_limit
    /\ exists s, row_data d p = Some (w, s) /\ np_assign cols (row_elems cols d s) = Ok row
                 /\ q = s + lenN (takeN (cols * 4) (dropN s d)).
  Proof.
    unfold w2v_read_row, w2v_read_word, read_until, row_data.
    unfold rbind. rewrite ?fromfile_native_eq.
    destruct (until x20 (dropN p d)) as [u|]; [|split; [easy|now intros (_ & s & ? & _)]].
    unfold rlift at 1. destruct (decode_word lossy u) as [z|]; [|split; [easy|now intros (_ & s & ? & _)]].
    rewrite fromfile_native_eq. destruct (N.leb_spec ssize_limit (cols * 4)) as [G|G]; [split; [easy|intros [? _]; lia]|].
    cbv zeta. fold (row_elems cols d (p + lenN u + 1)). unfold rlift, rret. split.
    - intros H. split; [easy|]. exists (p + lenN u + 1). split.
      + destruct (np_assign _ _); [|easy]. now injection H as <- <- <-.
      + destruct (np_assign _ _); [|easy]. now injection H as <- <- <-.
    - intros (_ & s & E & R & ->). injection E as <- <-. now rewrite R.
  Qed.
  Lemma row_err cols d p : (forall w row q, w2v_read_row h c lossy cols d p <> Ok ((w, row), q)) ->
    exists x, w2v_read_row h c lossy cols d p = Err x.
  Proof.
    destruct (w2v_read_row h c lossy cols d p) as [[[w row] q]|x]; [|eauto]. intros H. now destruct (H w row q).
  Qed.

  Lemma row_data_take d p m w s : row_data d p = Some (w, s) -> 
    row_data (takeN m d) p = if s <=? m then Some (w, s) else None.
  Proof.
    unfold row_data. destruct (until x20 (dropN p d)) as [u|] eqn:E; [|easy]. intros H.
    rewrite dropN_takeN, (until_take _ _ _ _ E).
    destruct (decode_word lossy u) as [z|] eqn:D; [|easy]. injection H as <- <-.
    destruct (N.ltb_spec (lenN u) (m - p)), (N.leb_spec (p + lenN u + 1) m); try lia; try easy.
    now rewrite D.
  Qed.
  Lemma row_elems_len cols d s : lenN (row_elems cols d s) = N.min (cols * 4) (lenN d - s) / 4.
  Proof.
    unfold row_elems. cbv zeta. unfold lenN at 1. rewrite map_length, split_elems_length.
    rewrite <- lenN_dropN, <- lenN_takeN. unfold lenN.
    now rewrite Nnat.Nat2N.inj_div.
  Qed.
  Lemma np_assign_ok cols (l : list F) row : np_assign cols l = Ok row ->
    lenN row = cols /\ (lenN l = cols \/ lenN l = 1).
  Proof.
    unfold np_assign. destruct (N.eqb_spec (lenN l) cols) as [E|E].
    - intros [= <-]. auto.
    - destruct l as [|x [|]]; try easy. intros [= <-]. split; [unfold lenN; rewrite repeat_length; lia|now right].
  Qed.

  Lemma row_forward cols d p w row q : w2v_read_row h c lossy cols d p = Ok ((w, row), q) ->
    p < q <= lenN d.
  Proof.
    intros H. apply row_ok in H as (_ & s & D & _ & ->). unfold row_data in D.
    destruct (until x20 (dropN p d)) as [u|] eqn:E; [|easy]. apply until_len in E.
    destruct (decode_word lossy u); [|easy]. injection D as _ <-.
    rewrite lenN_dropN in E. rewrite lenN_takeN, lenN_dropN. lia.
  Qed.
  Lemma row_eof cols d p : lenN d <= p -> exists x, w2v_read_row h c lossy cols d p = Err x.
  Proof.
    intros H. apply row_err. intros w row q E. apply row_forward in E. lia.
  Qed.

  (* one row *)
  Lemma row_take cols d p m w row q : w2v_read_row h c lossy cols d p = Ok ((w, row), q) ->
    m <= lenN d ->
    (q <= m -> w2v_read_row h c lossy cols (takeN m d) p = Ok ((w, row), q))
    /\ (m < q -> exists s, row_data d p = Some (w, s) /\ s <= q /\ (q = s + 4 * cols \/ q = lenN d /\ s + 4 <= q < s + 8)
         /\ ((1 < cols /\ s + 4 <= m < s + 8
              /\ exists row', w2v_read_row h c lossy cols (takeN m d) p = Ok ((w, row'), m) /\ lenN row' = cols)
             \/ (~ (1 < cols /\ s + 4 <= m < s + 8)
                 /\ exists x, w2v_read_row h c lossy cols (takeN m d) p = Err x))).
  Proof.
    intros H LM. apply row_ok in H as (L & s & D & A & ->).
    pose proof (row_data_take d p m w s D) as DT.
    assert (SD : s <= lenN d).
    { unfold row_data in D. destruct (until x20 (dropN p d)) as [u|] eqn:E; [|easy]. apply until_len in E.
      destruct (decode_word lossy u); [|easy]. injection D as _ <-. rewrite lenN_dropN in E. lia. }
    rewrite lenN_takeN, lenN_dropN. split; intros Q.
    - apply row_ok. split; [easy|]. exists s. rewrite DT.
      destruct (N.leb_spec s m); [|lia]. split; [easy|].
      assert (E : takeN (cols * 4) (dropN s (takeN m d)) = takeN (cols * 4) (dropN s d)).
      { rewrite dropN_takeN, takeN_takeN. destruct (N.le_gt_cases (cols * 4) (m - s)); [f_equal; lia|].
        rewrite N.min_r by lia. assert (lenN (dropN s d) <= m - s) by (rewrite lenN_dropN; lia).
        rewrite !takeN_all; try easy. lia. }
      unfold row_elems. rewrite E. split; [exact A|]. now rewrite lenN_takeN, lenN_dropN.
    - exists s. split; [easy|]. split; [lia|].
      pose proof (np_assign_ok _ _ _ A) as [_ LA]. rewrite row_elems_len in LA. split.
      { destruct LA as [LA|LA]; lia. }
      destruct (N.le_gt_cases s m) as [SM|SM].
      + pose proof (row_elems_len cols (takeN m d) s) as EL.
        rewrite lenN_takeN in EL. 
        destruct (N.lt_decidable 1 cols) as [C1|C1];
          [destruct (N.le_gt_cases (s + 4) m); [destruct (N.lt_ge_cases m (s + 8))|]|].
        * left. split; [easy|]. split; [easy|].
          assert (EL1 : lenN (row_elems cols (takeN m d) s) = 1) by lia.
          destruct (row_elems cols (takeN m d) s) as [|x [|]] eqn:RE; try (unfold lenN in EL1; simpl in EL1; lia).
          exists (repeat x (N.to_nat cols)). split; [|unfold lenN; rewrite repeat_length; lia].
          apply row_ok. split; [easy|]. exists s. rewrite DT, RE.
          destruct (N.leb_spec s m); [|lia]. split; [easy|]. split.
          -- unfold np_assign. rewrite EL1. destruct (N.eqb_spec 1 cols); [lia|easy].
          -- rewrite lenN_takeN, lenN_dropN, lenN_takeN. lia.
        * right. split; [lia|]. apply row_err. intros w' r' q' X. apply row_ok in X as (_ & s' & D' & A' & _).
          rewrite DT in D'. destruct (N.leb_spec s m); [|easy]. injection D' as <- <-.
          apply np_assign_ok in A' as [_ LA']. rewrite EL in LA'. lia.
        * right. split; [lia|]. apply row_err. intros w' r' q' X. apply row_ok in X as (_ & s' & D' & A' & _).
          rewrite DT in D'. destruct (N.leb_spec s m); [|easy]. injection D' as <- <-.
          apply np_assign_ok in A' as [_ LA']. rewrite EL in LA'. lia.
        * right. split; [lia|]. apply row_err. intros w' r' q' X. apply row_ok in X as (_ & s' & D' & A' & _).
          rewrite DT in D'. destruct (N.leb_spec s m); [|easy]. injection D' as <- <-.
          apply np_assign_ok in A' as [_ LA']. rewrite EL in LA'. lia.
      + right. split; [lia|]. apply row_err. intros w' r' q' X. apply row_ok in X as (_ & s' & D' & _).
        rewrite DT in D'. destruct (N.leb_spec s m); [lia|easy].
  Qed.

  Lemma rows_take cols d m : forall n p items q, (0 < n)%nat ->
    rrepeat n (w2v_read_row h c lossy cols) d p = Ok (items, q) -> m < q ->
    exists s, p < s /\ last_row cols d q s
      /\ ((one_float cols m s
           /\ exists items', rrepeat n (w2v_read_row h c lossy cols) (takeN m d) p = Ok (items', m)
                /\ map fst items' = map fst items /\ Forall (fun x => lenN (snd x) = cols) items')
          \/ (~ one_float cols m s
              /\ exists x, rrepeat n (w2v_read_row h c lossy cols) (takeN m d) p = Err x)).
  Proof.
    induction n as [|n IH]; intros p items q N H M; [lia|]. clear N. cbn [rrepeat] in H.
    apply rbind_ok in H as ([w row] & q1 & H1 & H). apply rbind_ok in H as (items1 & q2 & H2 & H).
    unfold rret in H. injection H as <- <-. pose proof (row_forward _ _ _ _ _ _ H1) as [P1 P2].
    pose proof H1 as H1'. apply row_ok in H1' as (L & s1 & D1 & A1 & Q1).
    destruct n as [|n].
    - cbn in H2. injection H2 as <- <-.
      destruct (row_take cols d p m w row q1 H1 ltac:(lia)) as [_ RT].
      destruct (RT M) as (s & D & SQ & LQ & C). exists s.
      assert (PS : p < s).
      { unfold row_data in D. destruct (until x20 (dropN p d)) as [u|]; [|easy].
        destruct (decode_word lossy u); [|easy]. injection D as _ <-. lia. }
      split; [easy|]. split; [unfold last_row; lia|]. destruct C as [(C1 & C2 & row' & R & LR)|(C & x & R)].
      + left. split; [easy|]. exists [(w, row')]. split; [|split; [easy|now repeat constructor]].
        cbn [rrepeat]. rstep R. reflexivity.
      + right. split; [easy|]. exists x. cbn [rrepeat]. unfold rbind. now rewrite R.
    - destruct (IH q1 items1 q2 ltac:(lia) H2 M) as (s & PS & LQ & C).
      exists s. split; [lia|]. split; [easy|].
      destruct (N.le_gt_cases q1 m) as [QM|QM].
      + assert (MD : m <= lenN d) by (destruct LQ; lia).
        destruct (row_take cols d p m w row q1 H1 MD) as [RT _]. specialize (RT QM).
        destruct C as [(C1 & items' & R & F1 & F2)|(C & x & R)].
        * left. split; [easy|]. exists ((w, row) :: items').
          split; [|split; [cbn [map fst]; now rewrite F1|]].
          -- cbn [rrepeat] in R |- *. rstep RT. cbn [rrepeat] in R. rstep R. reflexivity.
          -- constructor; [|easy]. cbn [snd]. now apply np_assign_ok in A1.
        * right. split; [easy|]. exists x. cbn [rrepeat] in R |- *. rstep RT.
          unfold rbind at 1. rewrite R. reflexivity.
      + right. split; [unfold one_float; lia|].
        destruct (row_take cols d p m w row q1 H1 ltac:(lia)) as [_ RT].
        destruct (RT QM) as (s' & _ & _ & _ & C').
        destruct C' as [(_ & C2 & row' & R & _)|(_ & x & R)].
        * destruct (row_eof cols (takeN m d) m) as [x Ex]; [rewrite lenN_takeN; lia|].
          exists x. cbn [rrepeat]. rstep R. unfold rbind. now rewrite Ex.
        * exists x. cbn [rrepeat]. unfold rbind. now rewrite R.
  Qed.

  Lemma rows_err0 cols d p n : (0 < n)%nat -> lenN d <= p ->
    exists x, rrepeat n (w2v_read_row h c lossy cols) d p = Err x.
  Proof.
    intros N L. destruct n; [lia|]. destruct (row_eof cols d p L) as [x E]. exists x. cbn [rrepeat].
    unfold rbind. now rewrite E.
  Qed.
End Cut.

(* ---------------------------------------------------------------- *)
(* the first line                                                    *)

Lemma split_prefix sep s2 : forall s1 b cur a x l,
  filter (fun w : str => match w with [] => false | _ => true end) (split_runs sep b cur s1) = a :: x :: l ->
  exists l', filter (fun w : str => match w with [] => false | _ => true end) (split_runs sep b cur (s1 ++ s2)) = a :: l'.
Proof.
  induction s1 as [|y s1 IH]; intros b cur a x l H.
  - cbn [split_runs filter] in H. destruct (rev cur); easy.
  - cbn [split_runs app] in *. destruct (sep y).
    + destruct b.
      * eapply IH; eauto.
      * cbn [filter] in *. destruct (rev cur) as [|z r]; [eapply IH; eauto|].
        injection H as <- _. eauto.
    + eapply IH; eauto.
Qed.

Lemma first_line_take : forall l m,
  first_line (takeN m l) = if lenN (first_line l) <=? m then first_line l else takeN m l.
Proof.
  intros l m. rewrite takeN_firstn. revert m.
  induction l as [|b l IH]; intros m; [cbn; rewrite firstn_nil; destruct (_ <=? _); easy|].
  destruct (N.eq_dec m 0) as [->|M].
  - change (N.to_nat 0) with 0%nat. cbn [firstn]. destruct (N.leb_spec (lenN (first_line (b :: l))) 0) as [X|X]; [|easy].
    cbn [first_line] in X.
    destruct (b =? x0a)%byte; unfold lenN in X; simpl in X; lia.
  - replace (N.to_nat m) with (S (N.to_nat (m - 1))) by lia. cbn [firstn first_line].
    destruct (b =? x0a)%byte.
    + destruct (N.leb_spec (lenN [b]) m) as [|X]; [easy|]. unfold lenN in X; simpl in X; lia.
    + rewrite IH. unfold lenN. simpl length.
      destruct (N.leb_spec (N.of_nat (length (first_line l))) (m - 1)),
        (N.leb_spec (N.of_nat (S (length (first_line l)))) m); try lia; easy.
Qed.

Lemma ascii_decode_ok bs s : ascii_decode bs = Ok s -> s = map Byte.to_N bs.
Proof. unfold ascii_decode. destruct (forallb _ _); [|easy]. now intros [= <-]. Qed.

Lemma shape_take d m r k q : w2v_read_shape d 0 = Ok ((r, k), q) ->
  (q <= m -> w2v_read_shape (takeN m d) 0 = Ok ((r, k), q))
  /\ (m < q -> forall r' k' q', w2v_read_shape (takeN m d) 0 = Ok ((r', k'), q') -> r' = r /\ q' = m).
Proof.
  unfold w2v_read_shape, rbind, readline, rlift. rewrite !dropN_0, !N.add_0_l, first_line_take.
  intros H. set (fl := first_line d) in *.
  destruct (ascii_decode fl) as [s|] eqn:D; [|easy]. cbn [bind] in H.
  destruct (py_split s) as [|a [|b [|]]] eqn:S; try easy.
  destruct (py_int a) as [ra|] eqn:Ia; [|easy]. cbn [bind] in H.
  destruct (py_int b) as [rb|] eqn:Ib; [|easy]. cbn [bind] in H. injection H as -> -> <-. split.
  - intros Q. destruct (N.leb_spec (lenN fl) m); [|lia]. rewrite D. cbn [bind]. rewrite S, Ia. cbn [bind].
    now rewrite Ib.
  - intros Q r' k' q' H. destruct (N.leb_spec (lenN fl) m); [lia|].
    destruct (ascii_decode (takeN m d)) as [s'|] eqn:D'; [|easy]. cbn [bind] in H.
    destruct (py_split s') as [|a' [|b' [|]]] eqn:S'; try easy.
    destruct (py_int a') as [ra'|] eqn:Ia'; [|easy]. cbn [bind] in H.
    destruct (py_int b') as [rb'|] eqn:Ib'; [|easy]. cbn [bind] in H. injection H as <- <- <-.
    apply ascii_decode_ok in D, D'.
    assert (P : exists t, fl = takeN m d ++ t).
    { assert (FD : exists u, d = fl ++ u).
      { unfold fl. clear. induction d as [|x d [u IH]]; [now exists []|]. cbn [first_line].
        destruct (x =? x0a)%byte; [now exists d|]. exists u. cbn [app]. now rewrite <- IH. }
      destruct FD as [u FD]. exists (dropN m fl). rewrite FD, takeN_app.
      replace (m - lenN fl) with 0 by lia. rewrite takeN_0, app_nil_r. symmetry. apply takeN_dropN. }
    destruct P as [t P]. rewrite P, map_app in D. rewrite <- D' in D.
    unfold py_split in S, S'.
    destruct (split_prefix is_space (map Byte.to_N t) s' false [] a' b' [] S') as [l' E].
    rewrite <- D in E. pose proof (eq_trans (eq_sym S) E) as X. injection X as <- _. split; [congruence|].
    rewrite lenN_takeN. assert (lenN fl <= lenN d); [|lia].
    clear. unfold fl. induction d as [|x d IH]; [easy|]. cbn [first_line].
    destruct (x =? x0a)%byte; unfold lenN in *; simpl length in *; lia.
Qed.

Section Load.
  Context {F : Type} (o : fops F) (h : endian) (c : codec F) (lossy : bool).

  Lemma normalize_len (rows : list (list F)) : length (fst (normalize_matrix o rows)) = length rows.
  Proof. rewrite normalize_rows. cbn [fst]. now rewrite map_length. Qed.

  Lemma rrepeat_length {A} (r : reader A) n d p l q : rrepeat n r d p = Ok (l, q) -> length l = n.
  Proof.
    revert p l q. induction n as [|n IH]; intros p l q H; cbn [rrepeat] in H.
    - unfold rret in H. now injection H as <- _.
    - apply rbind_ok in H as (a & p1 & _ & H). apply rbind_ok in H as (l1 & p2 & H1 & H).
      unfold rret in H. injection H as <- <-. simpl. f_equal. eapply IH; eauto.
  Qed.

  (* a successful load step by step *)
  Lemma load_word2vec_ok d e q : load_word2vec o h c lossy d 0 = Ok (e, q) ->
    exists r k p rows cols items, w2v_read_shape d 0 = Ok ((r, k), p)
      /\ np_zeros_shape r k = Ok (rows, cols)
      /\ rrepeat (N.to_nat rows) (w2v_read_row h c lossy cols) d p = Ok (items, q)
      /\ vocab_words (em_vocab e) = map fst items /\ NoDup (map fst items) /\ em_dims e = cols
      /\ simple_embeddings o e (map fst items) cols (map snd items).
  Proof.
    intros H. unfold load_word2vec in H. apply rbind_ok in H as ([r k] & p & H1 & H).
    apply rbind_ok in H as ([rows cols] & p' & H2 & H). apply rlift_ok in H2 as [H2 ->].
    apply rbind_ok in H as (items & q' & H3 & H).
    exists r, k, p, rows, cols, items.
    destruct (normalize_matrix o (map snd items)) as [mat nn] eqn:NM.
    apply rlift_ok in H as [H ->].
    destruct (validate_items_and_create_index (map fst items)) as [idx|] eqn:V;
      [|unfold simple_vocab_new in H; rewrite V in H; easy].
    apply validate_ok in V as [ND _].
    destruct (simple_result o (map fst items) cols (map snd items) ND ltac:(now rewrite !map_length))
      as (e' & HE & SE). rewrite NM in HE. rewrite HE in H. apply Ok_inj in H. subst e'.
    destruct SE as (S1 & S2 & S3).
    split; [easy|]. split; [easy|]. split; [easy|]. split; [now rewrite S2|]. split; [easy|].
    split; [unfold em_dims; now rewrite S1|]. easy.
  Qed.
  Lemma load_word2vec_steps d r k p rows cols items q : w2v_read_shape d 0 = Ok ((r, k), p) ->
    np_zeros_shape r k = Ok (rows, cols) ->
    rrepeat (N.to_nat rows) (w2v_read_row h c lossy cols) d p = Ok (items, q) ->
    NoDup (map fst items) ->
    exists e, load_word2vec o h c lossy d 0 = Ok (e, q) /\ simple_embeddings o e (map fst items) cols (map snd items).
  Proof.
    intros H1 H2 H3 ND.
    destruct (simple_result o (map fst items) cols (map snd items) ND ltac:(now rewrite !map_length))
      as (e' & HE & SE).
    exists e'. split; [|easy]. unfold load_word2vec. rstep H1. cbn [fst snd]. unfold rbind at 1, rlift at 1.
    rewrite H2. rstep H3. destruct (normalize_matrix o (map snd items)). unfold rlift. now rewrite HE.
  Qed.

  Lemma word2vec_cut d e q m : load_word2vec o h c lossy d 0 = Ok (e, q) ->
    (0 < n_words (em_vocab e))%nat -> m < q ->
    exists s, last_row (em_dims e) d q s
      /\ ((one_float (em_dims e) m s
           /\ exists e', load_word2vec o h c lossy (takeN m d) 0 = Ok (e', m)
                         /\ vocab_words (em_vocab e') = vocab_words (em_vocab e)
                         /\ em_dims e' = em_dims e)
          \/ (~ one_float (em_dims e) m s
              /\ exists x, load_word2vec o h c lossy (takeN m d) 0 = Err x)).
  Proof.
    intros H NW M. apply load_word2vec_ok in H as (r & k & p & rows & cols & items & H1 & H2 & H3 & W & ND & DM & SE).
    rewrite DM. assert (NR : (0 < N.to_nat rows)%nat).
    { apply rrepeat_length in H3. unfold n_words in NW. rewrite W, map_length in NW. lia. }
    destruct (rows_take h c lossy cols d m _ _ _ _ NR H3 M) as (s & PS & LQ & C).
    destruct (shape_take d m r k p H1) as [ST1 ST2]. exists s. split; [easy|].
    destruct (N.le_gt_cases p m) as [PM|PM].
    - specialize (ST1 PM). destruct C as [(C1 & items' & R & F1 & F2)|(C & x & R)].
      + left. split; [easy|]. rewrite <- F1 in ND.
        destruct (load_word2vec_steps _ _ _ _ _ _ _ _ ST1 H2 R ND) as (e' & L & SE').
        exists e'. split; [easy|]. destruct SE' as (S1 & S2 & _). rewrite W, <- F1.
        split; [now rewrite S2|]. unfold em_dims. now rewrite S1.
      + right. split; [easy|]. exists x. unfold load_word2vec. rstep ST1. cbn [fst snd].
        unfold rbind at 1, rlift at 1. rewrite H2. unfold rbind. now rewrite R.
    - right. split; [unfold one_float; lia|].
      destruct (load_word2vec o h c lossy (takeN m d) 0) as [[e' q']|x] eqn:L; [|eauto]. exfalso.
      apply load_word2vec_ok in L as (r' & k' & p' & rows' & cols' & items' & H1' & H2' & H3' & _).
      destruct (ST2 PM _ _ _ H1') as [-> ->].
      assert (RR : rows' = rows).
      { unfold np_zeros_shape in H2, H2'. destruct (_ || _) in H2; [easy|]. destruct (_ || _) in H2'; [easy|].
        destruct (_ <=? _)%Z in H2; [easy|]. destruct (_ <=? _)%Z in H2'; [easy|]. congruence. }
      subst rows'. destruct (rows_err0 h c lossy cols' (takeN m d) m _ NR) as [x E]; [rewrite lenN_takeN; lia|].
      congruence.
  Qed.
End Load.

Lemma word2vec_written_cut {F} (o : fops F) host c (e : embeddings F) old out h lossy m :
  built_embeddings e ->
  Forall (fun w => ~ In 32 w) (vocab_words (em_vocab e)) ->
  Forall no_edge_space (vocab_words (em_vocab e)) ->
  array_fits (N.of_nat (n_words (em_vocab e))) (em_dims e) -> (0 < n_words (em_vocab e))%nat ->
  write_word2vec o host c e old = (Some out, Ok tt) -> m + 1 < lenN out ->
  let s := lenN out - 1 - 4 * em_dims e in
  (one_float (em_dims e) m s
   /\ exists e', run_reader (load_word2vec o h c lossy) (takeN m out) = Ok e'
                 /\ vocab_words (em_vocab e') = vocab_words (em_vocab e) /\ em_dims e' = em_dims e)
  \/ (~ one_float (em_dims e) m s
      /\ exists x, run_reader (load_word2vec o h c lossy) (takeN m out) = Err x).
Proof.
  intros B NS NE AF NW W M s.
  destruct (word2vec_reload o host c e old out B NS NE AF W) as (rows & _ & R).
  destruct (R h lossy) as (e' & q & L & Q & SE).
  destruct Q as [Q|Q]; [unfold n_words in NW; rewrite Q in NW; simpl in NW; lia|].
  assert (V : vocab_words (em_vocab e') = vocab_words (em_vocab e)) by (destruct SE as (_ & -> & _); easy).
  assert (D : em_dims e' = em_dims e) by (unfold em_dims at 1; destruct SE as (-> & _); easy).
  destruct (word2vec_cut o h c lossy out e' q m L) as (s' & LR & C);
    [unfold n_words; now rewrite V|lia|].
  rewrite D in *. assert (s' = s) as ->.
  { unfold s. destruct LR as [L1 [L2|L2]]; lia. }
  unfold run_reader. destruct C as [(C & e2 & L2 & V2 & D2)|(C & x & L2)]; [left|right];
    (split; [easy|]); rewrite L2; [exists e2|exists x; easy].
  split; [easy|]. split; congruence.
Qed.
