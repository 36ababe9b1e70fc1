(* The scripts. *)
From Coq Require Import Lia.
From Verif Require Import Py PyProofs Utf8 Utf8Proofs IO IOProofs ReaderProofs Arr
  Subword Vocab VocabProofs Storage StorageInv Chunks Embeddings Spec SpecVocab SpecLookup VocabFacts
  ArrProofs StorageGet ExplicitEmb WordProofs LookupProofs InvProofs WriteProofs EmbeddingsProofs
  PyText SpecCompat PyTextProofs Compat CompatProofs CompatBuilt TextProofs Scripts SpecScripts.
Local Open Scope N_scope.
Local Open Scope list_scope.

(* ---------------------------------------------------------------- *)
(* Loading                                                           *)

Definition enc_len (w : str) : N := match utf8_encode w with Ok b => lenN b | Err _ => 0 end.
Lemma encode_split a b x : utf8_encode (a ++ b) = Ok x ->
  exists y z, utf8_encode a = Ok y /\ utf8_encode b = Ok z /\ x = y ++ z.
Proof.
  rewrite utf8_encode_app. intros H. apply bind_ok in H as (y & Hy & H). apply bind_ok in H as (z & Hz & H).
  apply Ok_inj in H. eauto.
Qed.
Lemma word_file_sizes ws d : word_file ws d ->
  Forall encodable ws /\ sumN (map enc_len ws) + lenN ws <= lenN d.
Proof.
  intros (lines & [E _] & P). revert d E.
  induction P as [|l w lines ws (g1 & g2 & -> & _) P IH]; intros d E.
  - split; [constructor|]. cbn. unfold lenN. simpl. lia.
  - cbn [map concat] in E. rewrite <- !app_assoc in E.
    apply encode_split in E as (y1 & z1 & _ & E & ->).
    apply encode_split in E as (y2 & z2 & Ew & E & ->).
    apply encode_split in E as (y3 & z3 & _ & E & ->).
    apply encode_split in E as (y4 & z4 & E4 & E & ->). apply IH in E as [F S]. split.
    + constructor; [eexists; eauto|easy].
    + cbn [map]. unfold enc_len at 1. rewrite Ew. cbn [sumN fold_right]. fold (sumN (map enc_len ws)).
      rewrite encode_one in E4 by lia. injection E4 as <-. rewrite !lenN_app.
      unfold lenN at 2. cbn [length]. unfold lenN in *. cbn [length]. lia.
Qed.
Lemma sum_subset {A} (f : A -> N) (l : list A) : NoDup l -> forall l', (forall x, In x l -> In x l') ->
  sumN (map f l) <= sumN (map f l').
Proof.
  induction 1 as [|a l Ha ND IH]; intros l' I; [cbn; lia|].
  destruct (in_split a l') as (x & y & ->); [apply I; now left|].
  specialize (IH (x ++ y)). rewrite map_app in IH |- *. cbn [map] in *.
  assert (X : forall p q, sumN (p ++ q) = sumN p + sumN q).
  { clear. induction p; intros q; cbn [app sumN fold_right]; [easy|]. fold (sumN (p ++ q)) (sumN p). rewrite IHp. lia. }
  rewrite X in *. cbn [sumN fold_right]. fold (sumN (map f l)) (sumN (map f y)).
  assert (sumN (map f l) <= sumN (map f x) + sumN (map f y)); [|lia]. apply IH.
  intros z Hz. assert (J : In z (x ++ a :: y)) by (apply I; now right).
  apply in_app_iff in J as [J|[J|J]]; [|congruence|]; apply in_app_iff; auto.
Qed.
Lemma words_writable ws d l : word_file ws d -> lenN d < 2 ^ 32 -> NoDup l -> (forall w, In w l -> In w ws) ->
  vocab_writable (VSimple l (enumerate l)).
Proof.
  intros WF L ND I. apply word_file_sizes in WF as [F S]. pose proof (sum_subset enc_len l ND ws I) as LE.
  assert (LL : lenN l <= lenN ws).
  { unfold lenN. pose proof (NoDup_incl_length ND I). lia. }
  assert (F' : Forall encodable l).
  { apply Forall_forall. intros w Hw. apply (proj1 (Forall_forall _ _) F). auto. }
  assert (X : exists bs, Forall2 item_bytes l bs /\ sumN (map lenN bs) = sumN (map enc_len l)).
  { assert (B : sumN (map enc_len l) < 2 ^ 32) by lia. clear - F' B. induction F' as [|w l [b Hb] F' IH].
    - exists []. split; [constructor|easy].
    - cbn [map sumN fold_right] in B. unfold enc_len at 1 in B. rewrite Hb in B. fold (sumN (map enc_len l)) in B.
      destruct IH as (bs & H1 & H2); [lia|]. exists (b :: bs). split.
      + constructor; [|easy]. split; [easy|lia].
      + cbn [map sumN fold_right]. unfold enc_len at 1. rewrite Hb. fold (sumN (map enc_len l)) (sumN (map lenN bs)).
        now rewrite H2. }
  destruct X as (bs & H1 & H2). exists bs. split; [exact H1|]. cbn [vocab_words]. rewrite H2, ssize_value. lia.
Qed.

Section Scripts.
  Context (o : fops f32) (host : endian) (t : toml_lib).
  Context (show : f32 -> str) (parse : str -> result f32).

  Lemma format_load_shape f lossy mmap d e : lenN d < ssize_limit ->
    format_load o host t parse f lossy mmap d = Ok e ->
    built_embeddings e /\ nonneg_index (em_vocab e) /\ has_ngrams (em_vocab e).
  Proof.
    intros L H. assert (X : forall v, not_explicit v -> nonneg_index v /\ has_ngrams v) by (now intros []).
    destruct f; cbn [format_load] in H.
    - apply load_finalfusion_inv in H as (B & G & _ & Hn & _); [|easy]. split; [easy|]. split; [|easy].
      unfold nonneg_index. destruct (em_vocab e); try easy.
    - apply fasttext_built in H as [B H]. split; [easy|]. now apply X.
    - apply word2vec_built in H as [B H]. split; [easy|]. now apply X.
    - apply text_dims_built in H as [B H]. split; [easy|]. now apply X.
    - apply text_built in H as [B H]. split; [easy|]. now apply X.
  Qed.
  Lemma format_load_built f lossy mmap d e : lenN d < ssize_limit ->
    format_load o host t parse f lossy mmap d = Ok e -> built_embeddings e /\ nonneg_index (em_vocab e).
  Proof. intros L H. apply format_load_shape in H; easy. Qed.

  Lemma getitem_len (e : embeddings f32) w v : built_embeddings e -> em_getitem o e w = Ok v ->
    lenN v = em_dims e.
  Proof.
    intros (W & _) H. unfold em_getitem in H. apply bind_ok in H as (i & _ & H).
    apply bind_ok in H as ([v' x] & H & H2). apply Ok_inj in H2. cbn [fst] in H2. subst v'.
    unfold em_embedding_at in H. destruct i as [i|l].
    - apply bind_ok in H as (r & Hr & H). apply storage_get_len in Hr; [|easy].
      destruct (em_norms e) as [n|]; [apply bind_ok in H as (y & _ & H)|];
        apply Ok_inj in H; injection H as <- _; exact Hr.
    - apply bind_ok in H as (rows & Hr & H). cbv zeta in H. apply Ok_inj in H. injection H as <- _.
      apply (proj1 (get_list_iff o _ _ _)) in Hr.
      pose proof (vsum_is_sum o _ rows (rows_at_len o _ _ _ W Hr)) as [L _].
      unfold vdiv. rewrite lenN_map. unfold lenN, em_dims in *. lia.
  Qed.

  (* ---------------------------------------------------------------- *)
  (* ffp-select                                                        *)

  Definition unrepresentable (e : embeddings f32) (w : str) : bool :=
    match em_getitem o e w with Err KeyError => true | _ => false end.

  Lemma set_row (m : list (list f32)) k cols v : lenN v = cols -> (k < length m)%nat ->
    (row <- np_assign cols v ;; py_setrow m (Z.of_nat k) row) = Ok (set_nth k v m).
  Proof.
    intros L K. unfold np_assign. rewrite L, N.eqb_refl. cbn [bind]. now apply py_setrow_ok.
  Qed.

  Lemma select_rows_ok (e : embeddings f32) ign vb : built_embeddings e -> forall ws k m out m',
    (k + length ws <= length m)%nat ->
    select_rows o e ign vb (em_dims e) (enumerate_from (Z.of_nat k) ws) m = (out, Ok m') ->
    length m' = length m
    /\ (forall j, (j < k)%nat -> nth_error m' j = nth_error m j)
    /\ (forall j w, nth_error ws j = Some w ->
          match em_getitem o e w with
          | Ok v => nth_error m' (k + j) = Some v
          | Err KeyError => ign = true /\ nth_error m' (k + j) = nth_error m (k + j)
          | Err _ => False
          end)
    /\ out = if vb then map cannot_represent (filter (unrepresentable e) ws) else [].
  Proof.
    intros B. induction ws as [|w ws IH]; intros k m out m' K H.
    - cbn in H. injection H as <- <-. repeat split; try easy.
      + intros [|j] w; easy.
      + now destruct vb.
    - cbn [enumerate_from select_rows] in H. cbn [length] in K. unfold unrepresentable at 1. cbn [filter].
      fold (unrepresentable e).
      replace (Z.of_nat k + 1)%Z with (Z.of_nat (S k)) in H by lia.
      destruct (em_getitem o e w) as [v|x] eqn:E.
      + rewrite set_row in H; [|now apply getitem_len in E|lia].
        apply IH in H as (L & P & R & O); [|rewrite set_nth_length; lia].
        rewrite set_nth_length in L. split; [easy|]. split; [|split].
        * intros j Hj. rewrite P by lia. apply set_nth_other. lia.
        * intros [|j] w' Hw.
          -- injection Hw as <-. rewrite E. rewrite Nat.add_0_r, P by lia. apply set_nth_same. lia.
          -- specialize (R j w' Hw). rewrite Nat.add_succ_r. cbn [Nat.add] in R.
             destruct (em_getitem o e w') as [|[]]; try easy. destruct R as [R1 R2]. split; [easy|].
             rewrite R2. apply set_nth_other. lia.
        * exact O.
      + destruct x; try easy. destruct ign; cbn [negb orb] in H; [|easy].
        destruct (select_rows o e true vb (em_dims e) (enumerate_from (Z.of_nat (S k)) ws) m) as [out' r] eqn:SR.
        injection H as <- ->. apply IH in SR as (L & P & R & O); [|lia]. split; [easy|]. split; [|split].
        * intros j Hj. apply P. lia.
        * intros [|j] w' Hw.
          -- injection Hw as <-. rewrite E. split; [easy|]. rewrite Nat.add_0_r. apply P. lia.
          -- specialize (R j w' Hw). rewrite Nat.add_succ_r. cbn [Nat.add] in R. easy.
        * rewrite O. rewrite orb_false_r. destruct vb; easy.
  Qed.

  Lemma select_rows_done (e : embeddings f32) ign vb : built_embeddings e -> forall ws k m,
    (k + length ws <= length m)%nat ->
    (forall w, In w ws -> (exists v, em_getitem o e w = Ok v)
                          \/ ign = true /\ em_getitem o e w = Err KeyError) ->
    exists out m', select_rows o e ign vb (em_dims e) (enumerate_from (Z.of_nat k) ws) m = (out, Ok m').
  Proof.
    intros B. induction ws as [|w ws IH]; intros k m K H; cbn [enumerate_from select_rows]; [eauto|].
    cbn [length] in K. replace (Z.of_nat k + 1)%Z with (Z.of_nat (S k)) by lia.
    destruct (H w (or_introl eq_refl)) as [[v E]|[I E]]; rewrite E.
    - rewrite set_row; [|now apply getitem_len in E|lia]. apply IH; [rewrite set_nth_length; lia|].
      intros w' Hw. apply H. now right.
    - rewrite I. cbn [negb]. rewrite orb_false_r. subst ign.
      destruct (IH (S k) m) as (out & m' & ->); [lia|intros w' Hw; apply H; now right|]. eauto.
  Qed.

  Lemma select_rows_exit (e : embeddings f32) vb : built_embeddings e -> forall ws k m,
    (k + length ws <= length m)%nat ->
    (forall w, In w ws -> (exists v, em_getitem o e w = Ok v) \/ em_getitem o e w = Err KeyError) ->
    (exists w, In w ws /\ em_getitem o e w = Err KeyError) ->
    exists w, In w ws /\ em_getitem o e w = Err KeyError
      /\ select_rows o e false vb (em_dims e) (enumerate_from (Z.of_nat k) ws) m
         = ([cannot_represent w], Err SystemExit).
  Proof.
    intros B. induction ws as [|w ws IH]; intros k m K H [w0 [Hi He]]; [easy|].
    cbn [enumerate_from select_rows]. cbn [length] in K.
    replace (Z.of_nat k + 1)%Z with (Z.of_nat (S k)) by lia.
    destruct (H w (or_introl eq_refl)) as [[v E]|E]; rewrite E.
    - rewrite set_row; [|now apply getitem_len in E|lia].
      destruct (IH (S k) (set_nth k v m)) as (w' & H1 & H2 & H3).
      + rewrite set_nth_length; lia.
      + intros w' Hw. apply H. now right.
      + destruct Hi as [->|Hi]; [congruence|]. eauto.
      + exists w'. split; [now right|easy].
    - exists w. split; [now left|]. split; [easy|]. cbn [negb]. now rewrite orb_true_r.
  Qed.

  Context (list_of_set : list str -> list str).

  Lemma padded_strip line w : padded line w -> strip (line ++ [10]) = w.
  Proof.
    intros (g1 & g2 & -> & H1 & H2 & H3). unfold strip.
    rewrite <- !app_assoc, lstrip_spaces by easy.
    assert (H2' : Forall (fun c => is_space c = true) (g2 ++ [10])).
    { apply Forall_app. split; [easy|]. constructor; [reflexivity|constructor]. }
    destruct w as [|ch w].
    - cbn [app]. rewrite <- (app_nil_r (g2 ++ [10])), lstrip_spaces by easy. reflexivity.
    - rewrite lstrip_id by apply H3. rewrite rstrip_spaces by easy. apply rstrip_id, H3.
  Qed.
  Lemma word_file_words lossy ws d : word_file ws d ->
    exists lines, text_lines lossy d = Ok lines /\ map strip lines = ws.
  Proof.
    intros (lines & T & P). exists (map (fun l => l ++ [10]) lines). split; [now apply text_file_lines|].
    clear T. induction P as [|l w lines ws H P IH]; [easy|]. cbn. rewrite IH. f_equal. now apply padded_strip.
  Qed.

  Lemma sget_words ws i w : indexed_words ws i -> In w ws -> exists k, nth_error ws k = Some w /\ sget w i = Some (Z.of_nat k).
  Proof.
    intros [_ H] I. apply In_nth_error in I as [k K]. exists k. split; [easy|]. apply H. split; [lia|].
    now rewrite Nat2Z.id.
  Qed.
  Lemma sget_none ws i w : indexed_words ws i -> ~ In w ws -> sget w i = None.
  Proof.
    intros [_ H] I. destruct (sget w i) as [z|] eqn:E; [|easy]. apply H in E as [_ E].
    apply nth_error_In in E. easy.
  Qed.

  Lemma select_metadata_eq input (e : embeddings f32) :
    select_metadata input e = source_info input (em_metadata e).
  Proof. unfold select_metadata, source_info. destruct (em_metadata e); reflexivity. Qed.

  (* the embeddings that are written *)
  Lemma select_new e ws input out m' ign vb : built_embeddings e -> NoDup ws ->
    select_rows o e ign vb (em_dims e) (enumerate ws)
      (repeat (vzero o (N.to_nat (em_dims e))) (length ws)) = (out, Ok m') ->
    exists e', embeddings_new (SNd (NdA BoNative (em_dims e) m')) (VSimple ws (enumerate ws)) None
                 (Some (select_metadata input e)) = Ok e'
      /\ built_embeddings e' /\ selected o e e' ws
      /\ em_metadata e' = Some (source_info input (em_metadata e))
      /\ em_vocab e' = VSimple ws (enumerate ws)
      /\ em_storage e' = SNd (NdA BoNative (em_dims e) m') /\ length m' = length ws.
  Proof.
    intros B D H. change (enumerate ws) with (enumerate_from (Z.of_nat 0) ws) in H.
    apply select_rows_ok in H as (L & _ & R & _); [|easy|rewrite repeat_length; lia].
    rewrite repeat_length in L. cbn [Nat.add] in R.
    assert (R' : forall j w, nth_error ws j = Some w ->
      match em_getitem o e w with
      | Ok v => nth_error m' j = Some v
      | Err KeyError => nth_error m' j = Some (vzero o (N.to_nat (em_dims e)))
      | Err _ => False
      end).
    { intros j w Hj. specialize (R j w Hj). destruct (em_getitem o e w) as [|[]]; try easy.
      destruct R as [_ ->].
      assert (j < length ws)%nat by (apply nth_error_Some; congruence).
      rewrite (nth_error_nth' _ []) by (rewrite repeat_length; lia). f_equal.
      apply (repeat_spec (length ws)). apply nth_In. rewrite repeat_length. lia. }
    clear R. rename R' into R.
    assert (V : simple_vocab_new ws = Ok (VSimple ws (enumerate ws))).
    { unfold simple_vocab_new. now rewrite validate_NoDup. }
    pose proof (enumerate_indexed ws D) as IW.
    assert (W : rows_wf (em_dims e) m').
    { apply Forall_forall. intros r I. apply In_nth_error in I as [j J].
      assert (J' : (j < length ws)%nat) by (rewrite <- L; apply nth_error_Some; congruence).
      apply nth_error_Some in J'. destruct (nth_error ws j) as [w|] eqn:EW; [|easy].
      specialize (R j w EW). destruct (em_getitem o e w) as [v|[]] eqn:E; try easy.
      - apply getitem_len in E; [|easy]. congruence.
      - rewrite R in J. injection J as <-. unfold vzero, lenN. rewrite repeat_length. lia. }
    destruct (embeddings_new (SNd (NdA BoNative (em_dims e) m')) (VSimple ws (enumerate ws)) None
                 (Some (select_metadata input e))) as [e'|] eqn:E.
    2: { exfalso. unfold embeddings_new, vocab_upper_bound in E. cbn [storage_shape fst nd_rows] in E.
         unfold vocab_len in E. cbn [vocab_index] in E. cbn [nd_rows nd_cols fst] in E. unfold lenN in E. rewrite (enumerate_length ws), L in E.
         rewrite Z.add_0_r, Z.eqb_refl in E. easy. }
    exists e'. split; [easy|].
    apply new_built in E as (B' & S' & V' & N' & M').
    2: { split; easy. }
    2: { now apply BuiltSimple with ws. }
    2: { easy. }
    assert (G : forall w k v, nth_error ws k = Some w -> nth_error m' k = Some v -> em_getitem o e' w = Ok v).
    { intros w k v Hk Hv. unfold em_getitem. rewrite V'. cbn [vocab_getitem].
      assert (I : In w ws) by (now apply nth_error_In in Hk).
      destruct IW as [_ IW]. rewrite (proj2 (IW w (Z.of_nat k))) by (rewrite Nat2Z.id; split; [lia|easy]).
      cbn [bind em_embedding_at]. rewrite S', N'. cbn [storage_get nd_rows]. rewrite py_index_nat, Hv. easy. }
    split; [easy|]. split; [|rewrite <- select_metadata_eq; easy]. constructor.
    - rewrite V'. eauto.
    - now rewrite V'.
    - now rewrite V'.
    - unfold em_dims. now rewrite S'.
    - easy.
    - intros w v I Hv. apply In_nth_error in I as [k K]. apply (G w k); [easy|]. specialize (R k w K).
      now rewrite Hv in R.
    - intros w I Hv. apply In_nth_error in I as [k K]. apply (G w k); [easy|]. specialize (R k w K).
      now rewrite Hv in R.
    - intros w I. unfold em_getitem. rewrite V'. cbn [vocab_getitem]. rewrite (sget_none ws); easy.
  Qed.

  Lemma same_simple (e1 e2 : embeddings f32) ws i cols rows : same_embeddings e1 e2 ->
    em_vocab e1 = VSimple ws i -> em_storage e1 = SNd (NdA BoNative cols rows) -> em_norms e1 = None ->
    e2 = e1.
  Proof.
    intros (S & V & Nn & M) E1 E2 E3. rewrite E1 in V. rewrite E2 in S. rewrite E3 in Nn.
    inversion V as [ws' i' X1 X2| | |]; subst. destruct e1, e2. cbn in *. congruence.
  Qed.

  (* what happens once the rows are there *)
  Lemma select_embeds_eq lossy ign vb input e ws d old lines : built_embeddings e ->
    lists_sets list_of_set -> text_lines lossy d = Ok lines -> map strip lines = ws ->
    array_fits (lenN (list_of_set ws)) (em_dims e) ->
    select_embeds o host t list_of_set lossy ign vb input e d old =
    let (out, r) := select_rows o e ign vb (em_dims e) (enumerate (list_of_set ws))
                      (repeat (vzero o (N.to_nat (em_dims e))) (length (list_of_set ws))) in
    match r with
    | Err x => Process [] out old (Err x)
    | Ok matrix =>
        let (file, r) :=
          before_open (embeddings_new (SNd (NdA BoNative (em_dims e) matrix))
                         (VSimple (list_of_set ws) (enumerate (list_of_set ws))) None
                         (Some (select_metadata input e)))
            (fun e => em_write_file host t e) old in
        Process [] out file r
    end.
  Proof.
    intros B LS T <- A. unfold select_embeds. rewrite T. cbn [bind]. cbv zeta.
    set (ws := list_of_set (map strip lines)) in *.
    assert (NZ : np_zeros_shape (Z.of_nat (length ws)) (Z.of_N (em_dims e)) = Ok (lenN ws, em_dims e)).
    { unfold np_zeros_shape, array_fits, lenN in *.
      destruct (Z.ltb_spec (Z.of_nat (length ws)) 0); [lia|].
      destruct (Z.ltb_spec (Z.of_N (em_dims e)) 0); [lia|]. cbn [orb].
      destruct (Z.leb_spec (2 ^ 63) (Z.max 1 (Z.of_nat (length ws)) * Z.max 1 (Z.of_N (em_dims e)) * 4)); [nia|].
      f_equal. f_equal; lia. }
    rewrite NZ. cbn [bind]. unfold simple_vocab_new.
    rewrite validate_NoDup by apply LS. cbn [bind]. reflexivity.
  Qed.

  Lemma selected_words (e e' : embeddings f32) ws1 ws2 : (forall w, In w ws1 <-> In w ws2) ->
    selected o e e' ws1 -> selected o e e' ws2.
  Proof.
    intros H [S1 S2 S3 S4 S5 S6 S7 S8]. constructor; try easy.
    - intros w. now rewrite S3.
    - intros w v I. apply S6. now apply H.
    - intros w I. apply S7. now apply H.
    - intros w I. apply S8. intros J. apply I. now apply H.
  Qed.

  Lemma select_main_ok f lossy mmap ign vb input d e ws words old p : lenN d < ssize_limit ->
    lists_sets list_of_set -> format_load o host t parse f lossy mmap d = Ok e -> word_file ws words ->
    select_main o host t parse list_of_set f lossy mmap ign vb input d words old = p ->
    pr_outcome p = Ok tt ->
    pr_stdout p = []
    /\ (forall w, In w ws -> em_getitem o e w <> Err KeyError -> exists v, em_getitem o e w = Ok v)
    /\ (forall w, In w ws -> em_getitem o e w = Err KeyError -> ign = true)
    /\ (exists bad, NoDup bad
          /\ (forall w, In w bad <-> In w ws /\ em_getitem o e w = Err KeyError)
          /\ pr_stderr p = if vb then map cannot_represent bad else [])
    /\ exists out, pr_file p = Some out
       /\ (lenN out < ssize_limit -> toml_roundtrips t (Some (source_info input (em_metadata e))) ->
           forall h2 mm, load_mode h2 mm -> exists e',
             run_reader (load_finalfusion h2 t mm) out = Ok e' /\ selected o e e' ws
             /\ em_metadata e' = Some (source_info input (em_metadata e))).
  Proof.
    intros Ld LS HL WF H OK. pose proof (format_load_built _ _ _ _ _ Ld HL) as [B _].
    destruct (word_file_words lossy ws words WF) as (lines & T & E).
    unfold select_main in H. rewrite HL in H. unfold select_embeds in H. rewrite T in H. cbn [bind] in H.
    cbv zeta in H. rewrite E in H. destruct (LS ws) as [ND IN].
    destruct (np_zeros_shape _ _) as [dims|]; [|subst p; easy]. cbn [bind] in H.
    unfold simple_vocab_new in H. rewrite validate_NoDup in H by easy. cbn [bind vocab_words] in H.
    destruct (select_rows o e ign vb (em_dims e) (enumerate (list_of_set ws)) _) as [out r] eqn:SR.
    destruct r as [m'|x]; [|subst p; easy].
    pose proof SR as SR'. apply (select_new e _ input) in SR' as (e' & En & B' & SE & MD & V' & S' & L'); [|easy|easy].
    rewrite En in H. cbn [before_open] in H. unfold em_write_file, open_wb in H.
    destruct (run_writer (em_write host t e')) as [bs r] eqn:EW. subst p. cbn [pr_outcome pr_stdout pr_stderr pr_file] in *.
    subst r. split; [easy|].
    change (enumerate (list_of_set ws)) with (enumerate_from (Z.of_nat 0) (list_of_set ws)) in SR.
    apply select_rows_ok in SR as (_ & _ & R & O); [|easy|rewrite repeat_length; lia].
    assert (R' : forall w, In w ws -> match em_getitem o e w with
                   | Ok _ => True | Err KeyError => ign = true | Err _ => False end).
    { intros w I. apply IN in I. apply In_nth_error in I as [j J]. specialize (R j w J).
      destruct (em_getitem o e w) as [|[]]; easy. }
    split; [|split; [|split]].
    - intros w I Hw. specialize (R' w I). destruct (em_getitem o e w) as [v|[]]; try easy. eauto.
    - intros w I Hw. specialize (R' w I). now rewrite Hw in R'.
    - exists (filter (unrepresentable e) (list_of_set ws)). split; [now apply NoDup_filter|].
      split; [|exact O]. intros w. rewrite filter_In, IN. unfold unrepresentable.
      split; intros [I X]; split; try easy.
      + destruct (em_getitem o e w) as [|[]]; easy.
      + now rewrite X.
    - exists bs. split; [easy|]. intros Lo TR h2 mm LM.
      destruct (em_roundtrip host h2 t mm e' bs) as (e2 & R2 & SM); try easy.
      + now rewrite V'.
      + now rewrite MD.
      + exists e2. split; [easy|].
        destruct SE as [X1 X2 X3 X4 X5 X6 X7 X8].
        assert (e2 = e') as -> by (eapply same_simple; eauto).
        split; [|easy]. eapply selected_words; [exact IN|]. constructor; easy.
  Qed.

  Lemma select_main_exit f lossy mmap vb input d e ws words old : lenN d < ssize_limit ->
    lists_sets list_of_set -> format_load o host t parse f lossy mmap d = Ok e -> word_file ws words ->
    array_fits (lenN ws) (em_dims e) ->
    (forall w, In w ws -> (exists v, em_getitem o e w = Ok v) \/ em_getitem o e w = Err KeyError) ->
    (exists w, In w ws /\ em_getitem o e w = Err KeyError) ->
    exists w, In w ws /\ em_getitem o e w = Err KeyError
      /\ select_main o host t parse list_of_set f lossy mmap false vb input d words old
         = Process [] [cannot_represent w] old (Err SystemExit).
  Proof.
    intros Ld LS HL WF AF HA HE. pose proof (format_load_built _ _ _ _ _ Ld HL) as [B _].
    destruct (word_file_words lossy ws words WF) as (lines & T & E). destruct (LS ws) as [ND IN].
    assert (LE : (length (list_of_set ws) <= length ws)%nat).
    { apply NoDup_incl_length; [easy|]. intros w. apply IN. }
    unfold select_main. rewrite HL.
    rewrite (select_embeds_eq lossy false vb input e ws words old lines); try easy.
    2: { unfold array_fits, lenN in *. nia. }
    destruct HE as (w0 & I0 & E0).
    destruct (select_rows_exit e vb B (list_of_set ws) 0
                (repeat (vzero o (N.to_nat (em_dims e))) (length (list_of_set ws)))) as (w & I & E1 & X).
    - rewrite repeat_length. lia.
    - intros w I. apply HA. now apply IN.
    - exists w0. split; [now apply IN|easy].
    - exists w. split; [now apply IN|]. split; [easy|]. unfold enumerate. change 0%Z with (Z.of_nat 0).
      now rewrite X.
  Qed.

  Lemma select_main_succeeds f lossy mmap ign vb input d e ws words old s b : lenN d < ssize_limit ->
    lists_sets list_of_set -> format_load o host t parse f lossy mmap d = Ok e -> word_file ws words ->
    array_fits (lenN ws) (em_dims e) -> em_dims e < 2 ^ 32 -> lenN words < 2 ^ 32 ->
    toml_dumps t (source_info input (em_metadata e)) = Ok s -> utf8_encode s = Ok b -> lenN b < 2 ^ 64 ->
    (forall w, In w ws -> (exists v, em_getitem o e w = Ok v)
                          \/ ign = true /\ em_getitem o e w = Err KeyError) ->
    pr_outcome (select_main o host t parse list_of_set f lossy mmap ign vb input d words old) = Ok tt.
  Proof.
    intros Ld LS HL WF AF DM LW TD TE TL HA. pose proof (format_load_built _ _ _ _ _ Ld HL) as [B _].
    destruct (word_file_words lossy ws words WF) as (lines & T & E). destruct (LS ws) as [ND IN].
    assert (LE : (length (list_of_set ws) <= length ws)%nat).
    { apply NoDup_incl_length; [easy|]. intros w. apply IN. }
    assert (AF' : array_fits (lenN (list_of_set ws)) (em_dims e)) by (unfold array_fits, lenN in *; nia).
    unfold select_main. rewrite HL.
    rewrite (select_embeds_eq lossy ign vb input e ws words old lines); try easy.
    destruct (select_rows_done e ign vb B (list_of_set ws) 0
                (repeat (vzero o (N.to_nat (em_dims e))) (length (list_of_set ws)))) as (out & m' & X).
    - rewrite repeat_length. lia.
    - intros w I. apply HA. now apply IN.
    - change (enumerate_from (Z.of_nat 0) (list_of_set ws)) with (enumerate (list_of_set ws)) in X. rewrite X.
      apply (select_new e _ input) in X as (e' & En & B' & SE & MD & V' & S' & L'); [|easy|easy].
      rewrite En. cbn [before_open]. unfold em_write_file, open_wb, run_writer.
      assert (SU : succeeds (em_write host t e')).
      { apply em_write_succeeds; [easy| | | |].
        - rewrite V'. eapply words_writable; eauto. intros w. apply IN.
        - rewrite S'. cbn [storage_sizes]. unfold ndarray_sizes. cbn [nd_cols nd_rows]. unfold array_fits in AF'.
          unfold lenN in *. rewrite L', ssize_value. split; [easy|]. nia.
        - destruct SE as [_ _ _ _ Nn _ _ _]. rewrite Nn. easy.
        - rewrite MD. intros m [= <-]. eauto. }
      destruct (SU 0) as [bs ->]. reflexivity.
  Qed.
End Scripts.

Lemma select_not_loaded o host t parse list_of_set f lossy mmap ign vb input d words old x :
  format_load o host t parse f lossy mmap d = Err x ->
  let p := select_main o host t parse list_of_set f lossy mmap ign vb input d words old in
  pr_file p = old /\ pr_outcome p = Err x /\ pr_stdout p = [] /\ pr_stderr p = [].
Proof. intros H. cbv zeta. unfold select_main. rewrite H. repeat split. Qed.
