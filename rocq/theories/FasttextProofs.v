(* fastText files: what is written, and reading it back. *)
From Coq Require Import Lia.
From Verif Require Import Py PyProofs Utf8 Utf8Proofs Utf8More SpecUtf8 IO IOProofs ReaderProofs Arr
  Subword Vocab VocabProofs Storage Chunks Embeddings Spec SpecVocab SpecLookup VocabFacts
  ArrProofs StorageGet ExplicitEmb WordProofs LookupProofs PyText SpecCompat PyTextProofs Compat
  CompatProofs Word2vecProofs TextProofs SimProofs.
Local Open Scope N_scope.
Local Open Scope list_scope.

Section Ft.
  Context {F : Type} (o : fops F).

  (* ---------------------------------------------------------------- *)
  (* the average over the subwords                                     *)

  (* the row u that the loop computes for word k *)
  Definition averaged (v : vocab) (cols : N) (m0 : list (list F)) (k : nat) (w : str) (u : list F) : Prop :=
    exists sw rows, vocab_subword_indices v w true false = Ok sw
      /\ Forall (fun i => Z.of_nat (n_words v) <= i)%Z (map sw_index sw)
      /\ Forall2 (fun i r => nth_error m0 (Z.to_nat i) = Some r) (Z.of_nat k :: map sw_index sw) rows
      /\ u = vdiv o (vsum o (N.to_nat cols) rows) (fofZ o (Z.of_nat (length sw) + 1)).

  Definition average_step (v : vocab) (cols : N) := fun (m : list (list F)) (wi : str * Z) =>
    let (word, i) := wi in
    sub <- vocab_subword_indices v word true false ;;
    let indices := i :: map sw_index sub in
    rows <- mapM (py_index m) indices ;;
    py_setrow m i (vdiv o (vsum o (N.to_nat cols) rows) (fofZ o (Z.of_nat (length indices)))).

  Lemma precompute_from v cols m0 : forall ws k m,
    (k + length ws <= n_words v)%nat -> (n_words v <= length m0)%nat ->
    length m = length m0 -> (forall j, (k <= j)%nat -> nth_error m j = nth_error m0 j) ->
    (forall j w, nth_error ws j = Some w -> exists u, averaged v cols m0 (k + j) w u) ->
    exists m', foldM (average_step v cols) (enumerate_from (Z.of_nat k) ws) m = Ok m'
      /\ length m' = length m0
      /\ (forall j, (j < k)%nat -> nth_error m' j = nth_error m j)
      /\ (forall j, (k + length ws <= j)%nat -> nth_error m' j = nth_error m0 j)
      /\ (forall j w, nth_error ws j = Some w ->
            exists u, nth_error m' (k + j) = Some u /\ averaged v cols m0 (k + j) w u).
  Proof.
    induction ws as [|w ws IH]; intros k m K NW LM MS AV.
    - exists m. repeat split; try easy.
      + intros j Hj. apply MS. simpl in Hj. lia.
      + intros j w H. destruct j; easy.
    - simpl length in *. cbn [enumerate_from foldM].
      destruct (AV 0%nat w eq_refl) as (u & sw & rows & HS & HB & HR & Hu). rewrite Nat.add_0_r in HR.
      assert (ST : average_step v cols m (w, Z.of_nat k) = Ok (set_nth k u m)).
      { unfold average_step. rewrite HS. cbn [bind].
        assert (MR : mapM (py_index m) (Z.of_nat k :: map sw_index sw) = Ok rows).
        { apply mapM_Forall2. inversion HR as [|? r ? rs R1 R2]; subst. rewrite Nat2Z.id in R1. constructor.
          - rewrite py_index_nat, MS, R1 by lia. easy.
          - clear - R2 HB MS K. revert rs R2. induction (map sw_index sw) as [|i l IH]; intros rs R2; inversion R2; subst; constructor.
            + inversion HB; subst. rewrite <- (Z2Nat.id i) by lia. rewrite py_index_nat, MS by lia.
              rewrite H1. easy.
            + inversion HB; subst. now apply IH. }
        rewrite MR. cbn [bind]. rewrite py_setrow_ok by lia. do 2 f_equal. rewrite Hu. f_equal. f_equal.
        cbn [length]. rewrite map_length. lia. }
      rewrite ST. cbn [bind]. replace (Z.of_nat k + 1)%Z with (Z.of_nat (S k)) by lia.
      destruct (IH (S k) (set_nth k u m)) as (m' & HF & L' & LO & HI & W).
      + lia.
      + lia.
      + now rewrite set_nth_length.
      + intros j Hj. rewrite set_nth_other by lia. apply MS. lia.
      + intros j w' Hj. destruct (AV (S j) w' Hj) as [u' Hu']. exists u'. now rewrite Nat.add_succ_r in Hu'.
      + exists m'. split; [easy|]. split; [easy|]. split; [|split].
        * intros j Hj. rewrite LO by lia. now rewrite set_nth_other by lia.
        * intros j Hj. apply HI. lia.
        * intros [|j] w' Hj.
          -- injection Hj as <-. exists u. rewrite Nat.add_0_r. split.
             ++ rewrite LO by lia. apply set_nth_same. lia.
             ++ exists sw, rows. easy.
          -- rewrite Nat.add_succ_r. now apply W.
  Qed.

  Lemma precompute_ok v cols m0 : (n_words v <= length m0)%nat ->
    (forall j w, nth_error (vocab_words v) j = Some w -> exists u, averaged v cols m0 j w u) ->
    exists m', precompute_word_vecs o v cols m0 = Ok m' /\ length m' = length m0
      /\ (forall j, (n_words v <= j)%nat -> nth_error m' j = nth_error m0 j)
      /\ (forall j w, nth_error (vocab_words v) j = Some w ->
            exists u, nth_error m' j = Some u /\ averaged v cols m0 j w u).
  Proof.
    intros L A.
    destruct (precompute_from v cols m0 (vocab_words v) 0 m0) as (m' & H & L' & _ & HI & W); try easy.
    exists m'. split; [exact H|]. split; [easy|]. split; [exact HI|exact W].
  Qed.

  (* storage[len(vocab):] *)
  Lemma slice_subwords (e : embeddings F) a s : built_embeddings e -> em_storage e = SNd a ->
    storage_slice (em_storage e) (slice_from (Z.of_N (vocab_len (em_vocab e)))) = Ok s ->
    exists bo cols, s = SNd (NdA bo cols (skipn (n_words (em_vocab e)) (nd_rows a))) /\ bo <> BoNA.
  Proof.
    intros B ES H. pose proof (words_rows e B) as L. destruct B as (W & BV & _).
    rewrite (built_len _ BV) in H. unfold lenN in H. rewrite nat_N_Z in H. fold (n_words (em_vocab e)) in H.
    set (n := n_words (em_vocab e)) in *. rewrite ES in *.
    destruct (storage_slice_spec o _ _ _ W H) as (W' & D & idx & P & Li & _ & G).
    cbn [storage_slice] in H. apply bind_ok in H as (rows & Hr & H). injection H as <-.
    exists (nd_bo a), (nd_cols a). split; [|apply W].
    do 2 f_equal. simpl in *.
    assert (E : idx = map (fun j => Z.of_nat (n + j)) (seq 0 (length (nd_rows a) - n))).
    { eapply slice_positions_unique; [exact P|]. unfold slice_positions. simpl.
      unfold clamp, from_end. split.
      - intros k i Hk. rewrite nth_error_map in Hk.
        destruct (nth_error (seq 0 (length (nd_rows a) - n)) k) eqn:Q; [|easy]. injection Hk as <-.
        apply nth_error_nth with (d := 0%nat) in Q as Q2. assert (k < length (nd_rows a) - n)%nat.
        { rewrite <- (seq_length (length (nd_rows a) - n) 0). apply nth_error_Some. congruence. }
        rewrite seq_nth in Q2 by easy. destruct (Z.ltb_spec (Z.of_nat n) 0); [lia|]. lia.
      - intros k. rewrite map_length, seq_length. destruct (Z.ltb_spec (Z.of_nat n) 0); [lia|]. lia. }
    assert (LI : length idx = (length (nd_rows a) - n)%nat) by (rewrite E, map_length; apply seq_length).
    apply nth_error_ext'. intros k. 
    destruct (Nat.lt_ge_cases k (length idx)) as [K|K].
    - assert (EI : nth_error idx k = Some (Z.of_nat (n + k))).
      { rewrite E, nth_error_map. rewrite (nth_error_nth' _ 0%nat) by (rewrite seq_length; lia).
        rewrite seq_nth by lia. reflexivity. }
      specialize (G k _ EI). rewrite !py_index_nat in G. rewrite skipn_nth.
      destruct (nth_error rows k), (nth_error (nd_rows a) (n + k)); congruence.
    - rewrite !(proj2 (nth_error_None _ _)); [easy| |]; rewrite ?skipn_length; lia.
  Qed.

  (* ---------------------------------------------------------------- *)
  (* what is written                                                   *)

  Lemma ft_vector_spec (e : embeddings F) k w vec : built_embeddings e ->
    ft_word_vector o e w (Z.of_nat k) = Ok vec ->
    fasttext_vector o e k w vec /\ lenN vec = em_dims e.
  Proof.
    intros B H. pose proof B as (W & _). unfold ft_word_vector in H.
    apply bind_ok in H as (sw & HS & H). apply bind_ok in H as (row & HR & H). cbv zeta in H.
    apply bind_ok in H as (emb & HE & H). apply bind_ok in H as (sub & HL & H). apply Ok_inj in H. subst vec.
    apply (proj1 (get_list_iff o _ _ _)) in HL.
    pose proof (vsum_is_sum o _ sub (rows_at_len o _ _ _ W HL)) as SM.
    pose proof (ExplicitEmb.storage_get_len o _ _ _ W HR) as LR.
    assert (E : emb = map (fun a => let x := fmul o a (fofZ o (Z.of_nat (length sw) + 1)) in
                                match em_norms e with
                                | None => x
                                | Some n => fmul o x (nth k (nm_vals n) (fzero o))
                                end) row).
    { destruct (em_norms e) as [n|].
      - apply bind_ok in HE as (x & HX & HE). apply Ok_inj in HE. subst emb. rewrite map_map.
        rewrite py_index_nat in HX. destruct (nth_error (nm_vals n) k) eqn:Q; [|easy]. injection HX as ->.
        apply nth_error_nth with (d := fzero o) in Q. now rewrite Q.
      - now apply Ok_inj in HE. }
    split.
    - exists sw, row, sub, (vsum o (N.to_nat (em_dims e)) sub). unfold em_dims in *. repeat split; try easy; try apply SM.
      unfold vsub. now rewrite E.
    - unfold vsub, lenN. rewrite map2_length. 
      replace (length emb) with (length row) by (rewrite E; symmetry; apply map_length).
      destruct SM as [LS _]. unfold em_dims in *. 
      match goal with |- context [Nat.min _ ?x] => replace x with (N.to_nat (snd (storage_shape (em_storage e)))) end.
      unfold lenN in LR. lia.
  Qed.

  Section File.
    Context (host : endian) (c : codec F).

    Definition ft_entry (b : bytes) : bytes := b ++ [x00] ++ repeat x00 8 ++ [x00].
    Lemma ft_words_written : forall ws p out,
      wfor (fun word => wlet (utf8_encode word) (fun b => wbytes b ;w; wbytes [x00] ;w;
              write_binary [fI64] [0%Z] ;w; write_binary [fI8] [0%Z])) ws p = (out, Ok tt) ->
      exists bs, Forall2 (fun w b => utf8_encode w = Ok b) ws bs /\ out = concat (map ft_entry bs).
    Proof.
      induction ws as [|w ws IH]; intros p out H.
      - cbn in H. injection H as <-. exists []. split; [constructor|easy].
      - cbn [wfor] in H. apply wseq_ok in H as (b1 & b2 & H1 & H & ->).
        apply IH in H as (bs & FB & ->). apply wlet_ok in H1 as (b & Eb & H1).
        apply wseq_ok in H1 as (x & y & E1 & H1 & ->). apply wbytes_ok in E1 as ->.
        apply wseq_ok in H1 as (x & z & E1 & H1 & ->). apply wbytes_ok in E1 as ->.
        apply wseq_ok in H1 as (x & z' & E1 & H1 & ->). apply write_binary_ok in E1, H1.
        vm_compute in E1, H1. injection E1 as <-. injection H1 as <-.
        exists (b :: bs). split; [now constructor|]. reflexivity.
    Qed.

    Lemma ft_vectors_written e : built_embeddings e -> forall ws k p out,
      wfor (fun wi : str * Z =>
              wlet (ft_word_vector o e (fst wi) (snd wi)) (fun embed => serialize host c BoNative embed))
           (enumerate_from (Z.of_nat k) ws) p = (out, Ok tt) ->
      exists vecs, length vecs = length ws /\ Forall (fun v => lenN v = em_dims e) vecs
        /\ (forall j w, nth_error ws j = Some w -> exists vec, nth_error vecs j = Some vec
              /\ fasttext_vector o e (k + j) w vec)
        /\ out = floats c (concat vecs).
    Proof.
      intros B. induction ws as [|w ws IH]; intros k p out H.
      - cbn in H. injection H as <-. exists []. repeat split; try easy. intros [|j]; easy.
      - cbn [enumerate_from wfor fst snd] in H. apply wseq_ok in H as (b1 & b2 & H1 & H & ->).
        replace (Z.of_nat k + 1)%Z with (Z.of_nat (S k)) in H by lia.
        apply IH in H as (vecs & L & FV & HV & ->). apply wlet_ok in H1 as (vec & HE & H1).
        rewrite serialize_bytes in H1 by easy. injection H1 as <-.
        destruct (ft_vector_spec e k w vec B HE) as [SV LV].
        exists (vec :: vecs). split; [simpl; lia|]. split; [now constructor|]. split.
        + intros [|j] w' Hj; simpl in Hj.
          * injection Hj as <-. exists vec. rewrite Nat.add_0_r. easy.
          * destruct (HV j w' Hj) as (v & E1 & E2). exists v. rewrite Nat.add_succ_r. easy.
        + unfold floats. cbn [concat]. now rewrite map_app, concat_app.
    Qed.

    Record ft_written (e : embeddings F) (out : bytes) : Prop := {
      fw_parts : exists ws idx ix a b_hdr b_cfg b_voc bs b_shape vecs,
        em_vocab e = VFastText ws idx ix /\ em_storage e = SNd a
        /\ pack [fI32; fI32] [FT_MAGIC; 12%Z] = Ok b_hdr
        /\ pack (repeat fI32 12 ++ [fF64])
             [Z.of_N (em_dims e); 0; 0; 0; 0; 1; 1; 1; Z.of_N (ft_buckets ix);
              Z.of_N (ft_min_n ix); Z.of_N (ft_max_n ix); 0; 0]%Z = Ok b_cfg
        /\ pack [fI32; fI32; fI32; fI64; fI64]
             [Z.of_nat (length ws); Z.of_nat (length ws); 0; 0; -1]%Z = Ok b_voc
        /\ Forall2 (fun w b => utf8_encode w = Ok b) ws bs
        /\ pack [fU64; fU64] [Z.of_nat (length (nd_rows a)); Z.of_N (em_dims e)]%Z = Ok b_shape
        /\ length vecs = length ws /\ Forall (fun v => lenN v = em_dims e) vecs
        /\ (forall j w, nth_error ws j = Some w -> exists vec, nth_error vecs j = Some vec
              /\ fasttext_vector o e j w vec)
        /\ out = b_hdr ++ b_cfg ++ b_voc ++ concat (map ft_entry bs) ++ [x00] ++ b_shape
                 ++ floats c (concat (vecs ++ skipn (length ws) (nd_rows a)))
                 ++ floats c (concat (nd_rows a)) }.

    Lemma write_fasttext_ok e old out : built_embeddings e ->
      write_fasttext o host c e old = (Some out, Ok tt) -> ft_written e out.
    Proof.
      intros B H. unfold write_fasttext, open_wb, run_writer in H.
      destruct (ft_write o host c e 0) as [out' r] eqn:WR. injection H as -> ->.
      unfold ft_write in WR. destruct (em_vocab e) as [| |ws idx ix|] eqn:V; try discriminate.
      pose proof B as (W & BV & _).
      apply wseq_ok in WR as (b_hdr & x1 & E1 & WR & ->). apply write_binary_ok in E1.
      apply wseq_ok in WR as (b_cfg & x2 & E2 & WR & ->). apply write_binary_ok in E2.
      apply wseq_ok in WR as (b_v & x3 & E3 & WR & ->).
      apply wseq_ok in WR as (b_shape & x4 & E4 & WR & ->). apply write_binary_ok in E4.
      apply wseq_ok in WR as (b_s & b_t & E5 & E6 & ->).
      destruct (em_storage e) as [a|q] eqn:SE; [|discriminate]. cbn [serialize_storage] in E6.
      rewrite serialize_bytes in E6 by apply W. injection E6 as <-.
      unfold write_ft_vocab in E3. apply wseq_ok in E3 as (v1 & y1 & F1 & E3 & ->). apply write_binary_ok in F1.
      apply wseq_ok in E3 as (v2 & y2 & F2 & E3 & ->). apply write_binary_ok in F2.
      cbn [vocab_words] in E3. apply ft_words_written in E3 as (bs & FB & ->).
      pose proof (built_len _ BV) as BL. rewrite V in BL. cbn [vocab_words] in BL.
      unfold write_ft_storage_subwords in E5. apply wseq_ok in E5 as (s1 & s2 & G1 & G2 & ->).
      rewrite V in G1. cbn [vocab_words] in G1.
      apply (ft_vectors_written e B ws 0) in G1 as (vecs & LV & FV & HV & ->).
      apply wlet_ok in G2 as (sl & G2 & G3).
      destruct (slice_subwords e a sl B SE G2) as (bo & cols & -> & NB).
      cbn [serialize_storage nd_bo nd_rows] in G3. rewrite serialize_bytes in G3 by easy. injection G3 as <-.
      rewrite V in *. change (n_words (VFastText ws idx ix)) with (length ws).
      assert (BV2 : pack [fI32; fI32; fI32; fI64; fI64] [Z.of_nat (length ws); Z.of_nat (length ws); 0; 0; -1]%Z
                    = Ok (v1 ++ v2)).
      { change [fI32; fI32; fI32; fI64; fI64] with ([fI32; fI32; fI32] ++ [fI64; fI64]).
        change [Z.of_nat (length ws); Z.of_nat (length ws); 0; 0; -1]%Z
          with ([Z.of_nat (length ws); Z.of_nat (length ws); 0]%Z ++ [0; -1]%Z).
        rewrite pack_app by easy. rewrite BL in F1. unfold lenN in F1. rewrite nat_N_Z in F1.
        rewrite F1, F2. easy. }
      cbn [storage_shape fst snd] in E4.
      change [fBool; fU64; fU64] with ([fBool] ++ [fU64; fU64]) in E4.
      match type of E4 with pack _ [0%Z; ?x; ?y] = _ => change [0%Z; x; y] with ([0%Z] ++ [x; y]) in E4 end.
      rewrite pack_app in E4 by easy. cbn [pack pack_field Z.eqb bind app] in E4.
      apply bind_ok in E4 as (sh & E4 & E7). apply Ok_inj in E7. subst b_shape.
      constructor. exists ws, idx, ix, a, b_hdr, b_cfg, (v1 ++ v2), bs, sh, vecs. repeat split; try easy.
      - rewrite <- E4. unfold em_dims, lenN. rewrite SE, nat_N_Z. reflexivity.
      - rewrite concat_app. unfold floats. rewrite map_app, concat_app, <- !app_assoc. reflexivity.
    Qed.

    (* ---------------------------------------------------------------- *)
    (* reading it back                                                   *)

    Lemma ft_word_read lossy d p w b : utf8_encode w = Ok b -> ~ In 0 w -> at_pos d p (ft_entry b) ->
      ft_read_word lossy d p = Ok (w, p + lenN (ft_entry b)).
    Proof.
      intros E N0 A. unfold ft_read_word.
      assert (RU : read_until x00 d p = Ok (b, p + lenN b + 1)).
      { pose proof A as A2. unfold ft_entry in A2. apply at_pos_drop in A2 as [post A2].
        unfold read_until. rewrite A2, <- !app_assoc. cbn [app]. rewrite until_app; [easy|].
        intros I. apply N0. change 0 with (Byte.to_N x00). now apply (encode_ascii w b). }
      rstep RU. unfold ft_entry in A. apply at_pos_app in A as [_ A]. apply at_pos_app in A as [_ A].
      apply at_pos_app in A as [A1 A2]. change (lenN [x00]) with 1 in *. change (lenN (repeat x00 8)) with 8 in *.
      assert (R1 : read1 fI64 d (p + lenN b + 1) = Ok (0%Z, p + lenN b + 1 + N.of_nat 8)).
      { apply (read1_at _ _ fI64); [easy|]. exists (repeat x00 8). split; [reflexivity|easy]. }
      rstep R1. change (N.of_nat 8) with 8.
      assert (R2 : read1 fI8 d (p + lenN b + 1 + 8) = Ok (0%Z, p + lenN b + 1 + 8 + N.of_nat 1)).
      { apply (read1_at _ _ fI8); [easy|]. exists [x00]. split; [reflexivity|easy]. }
      rstep R2. change (negb (0 =? 0)%Z) with false; cbv iota beta. unfold rlift. rewrite (decode_word_encode lossy w b E).
      f_equal. f_equal. unfold ft_entry. rewrite !lenN_app. change (lenN [x00]) with 1.
      change (lenN (repeat x00 8)) with 8. lia.
    Qed.
    Lemma ft_words_read lossy d : forall ws bs p, Forall2 (fun w b => utf8_encode w = Ok b) ws bs ->
      Forall (fun w => ~ In 0 w) ws -> at_pos d p (concat (map ft_entry bs)) ->
      rrepeat (length ws) (ft_read_word lossy) d p = Ok (ws, p + lenN (concat (map ft_entry bs))).
    Proof.
      induction ws as [|w ws IH]; intros bs p FB NZ A; inversion FB as [|? b ? bs' E FB']; subst.
      - cbn. unfold rret. now rewrite N.add_0_r.
      - inversion NZ; subst. cbn [map concat] in A. apply at_pos_app in A as [A1 A2].
        cbn [length rrepeat]. rstep (ft_word_read lossy d p w b E ltac:(easy) A1).
        rstep (IH _ _ FB' ltac:(easy) A2). unfold rret. f_equal. f_equal. cbn [map concat].
        rewrite lenN_app. lia.
    Qed.

    Lemma pack_u64_i64 r k : (r < 2 ^ 63)%Z -> (k < 2 ^ 63)%Z -> forall b,
      pack [fU64; fU64] [r; k] = Ok b -> pack [fI64; fI64] [r; k] = Ok b.
    Proof.
      intros R K b. cbn [pack pack_field]. unfold in_range.
      destruct (Z.leb_spec 0 r); [|easy]. destruct (Z.leb_spec 0 k); [|now destruct (Z.ltb_spec r (2 ^ 64))].
      destruct (Z.ltb_spec r (2 ^ 64)); [|easy]. destruct (Z.ltb_spec k (2 ^ 64)); [|easy].
      destruct (Z.leb_spec (- 2 ^ 63) r); [|lia]. destruct (Z.leb_spec (- 2 ^ 63) k); [|lia].
      destruct (Z.ltb_spec r (2 ^ 63)); [|lia]. destruct (Z.ltb_spec k (2 ^ 63)); [|lia].
      cbn [andb bind]. unfold signed_bytes. change (8 * Z.of_nat 8)%Z with 64%Z. now rewrite !Z.mod_small by lia.
    Qed.
    Lemma read_false d p : at_pos d p [x00] -> read1 fBool d p = Ok (0%Z, p + 1).
    Proof.
      intros A. unfold read1, rbind, read_required_binary, read_binary, rbind.
      pose proof (read_at d p [x00] A ltac:(reflexivity)) as R. change (lenN [x00]) with 1 in R.
      change (N.of_nat (calcsize [fBool])) with 1. rewrite R. reflexivity.
    Qed.

    (* the matrix in the file *)
    Lemma ft_matrix_read h v d p (rows : list (list F)) cols b :
      at_pos d p ([x00] ++ b ++ floats c (concat rows)) ->
      pack [fU64; fU64] [Z.of_nat (length rows); Z.of_N cols] = Ok b ->
      Forall (fun r => lenN r = cols) rows -> array_fits (lenN rows) cols ->
      read_ft_storage o h c v d p =
      match precompute_word_vecs o v cols (in_file c rows) with
      | Ok m => Ok (NdA BoNative cols m, p + lenN ([x00] ++ b ++ floats c (concat rows)))
      | Err x => Err x
      end.
    Proof.
      intros A PK CO AF. unfold array_fits in AF. unfold read_ft_storage.
      apply at_pos_app in A as [A1 A]. apply at_pos_app in A as [A2 A]. rstep (read_false d p A1).
      change (negb (0 =? 0)%Z) with false; cbv iota beta. change (lenN [x00]) with 1 in *.
      assert (RW : lenN rows < 2 ^ 63 /\ cols < 2 ^ 63) by lia.
      pose proof (pack_lenN _ _ _ PK) as LB. change (N.of_nat (calcsize [fU64; fU64])) with 16 in LB.
      apply pack_u64_i64 in PK; [|unfold lenN in RW; lia|lia].
      pose proof (read2_at d (p + 1) fI64 fI64 _ _ eq_refl eq_refl (ex_intro _ b (conj PK A2))) as R2.
      rstep R2. change (N.of_nat (field_size fI64 + field_size fI64)) with 16.
      rewrite LB in A.
      assert (CL : lenN (concat rows) = lenN rows * cols).
      { clear - CO. unfold lenN. induction CO as [|r rows H H2 IH]; [easy|]. simpl concat. rewrite app_length.
        unfold lenN in H. simpl length. lia. }
      assert (RF : fromfile_count h c (Z.of_nat (length rows) * Z.of_N cols) d (p + 1 + 16)
                   = Ok (concat (in_file c rows), p + 1 + 16 + lenN (floats c (concat rows)))).
      { unfold fromfile_count. destruct (Z.ltb_spec (Z.of_nat (length rows) * Z.of_N cols) 0); [lia|].
        replace (Z.to_N (Z.of_nat (length rows) * Z.of_N cols)) with (lenN (concat rows)) by (unfold lenN in *; lia).
        rewrite fromfile_native_at; [|easy|unfold ssize_limit; nia].
        f_equal. f_equal. unfold in_file. now rewrite concat_map. }
      rstep RF. unfold rlift, reshape_any. destruct (Z.ltb_spec (Z.of_nat (length rows)) 0); [lia|].
      destruct (Z.ltb_spec (Z.of_N cols) 0); [lia|]. cbn [bind].
      replace (Z.to_N (Z.of_nat (length rows))) with (lenN (in_file c rows)) by (unfold in_file, lenN; rewrite map_length; lia).
      rewrite N2Z.id, reshape2_concat.
      - cbn [bind]. destruct (precompute_word_vecs _ _ _ _); [|easy]. cbn [bind].
        f_equal. f_equal. rewrite !lenN_app. change (lenN [x00]) with 1. rewrite LB. lia.
      - unfold in_file. rewrite Forall_map. eapply Forall_impl; [|exact CO]. intros r H1. cbn beta in H1.
        unfold lenN in *. now rewrite map_length.
    Qed.

    Lemma ft_vocab_read lossy d p ws idx ix bs b : 
      Forall2 (fun w b => utf8_encode w = Ok b) ws bs -> Forall (fun w => ~ In 0 w) ws ->
      pack [fI32; fI32; fI32; fI64; fI64] [Z.of_nat (length ws); Z.of_nat (length ws); 0; 0; -1]%Z = Ok b ->
      at_pos d p (b ++ concat (map ft_entry bs)) -> built_vocab (VFastText ws idx ix) ->
      read_ft_vocab (Z.of_N (ft_buckets ix)) (Z.of_N (ft_min_n ix)) (Z.of_N (ft_max_n ix)) lossy d p
      = Ok (VFastText ws idx ix, p + lenN (b ++ concat (map ft_entry bs))).
    Proof.
      intros FB NZ PK A BV. apply at_pos_app in A as [A1 A2].
      assert (FA : fields_at d p [fI32; fI32; fI32; fI64; fI64]
                     [Z.of_nat (length ws); Z.of_nat (length ws); 0; 0; -1]%Z) by (now exists b).
      apply pack_lenN in PK. 
      change (N.of_nat (calcsize [fI32; fI32; fI32; fI64; fI64])) with 28 in PK.
      apply (fields_at_app d p [fI32; fI32; fI32] [fI64; fI64] [Z.of_nat (length ws); Z.of_nat (length ws); 0]%Z [0; -1]%Z) in FA as [FA1 FA2]; [|easy].
      apply fields_at_cons in FA2 as [FA2 FA3]; [|easy].
      unfold read_ft_vocab.
      assert (R1 : read_required_binary [fI32; fI32; fI32] d p = Ok ([Z.of_nat (length ws); Z.of_nat (length ws); 0]%Z, p + N.of_nat 12)).
      { apply read_required_at; [|cbn; lia|cbn; unfold ssize_limit; lia|easy].
        intros f [<-|[<-|[<-|[]]]]; easy. }
      rstep R1. change (negb (0 =? 0)%Z) with false; cbv iota beta.
      rstep (read1_at _ _ fI64 _ eq_refl FA2). rstep (read1_at _ _ fI64 _ eq_refl FA3).
      change (0 <=? -1)%Z with false; cbv iota beta. rewrite Nat2Z.id.
      rewrite PK in A2.
      replace (p + N.of_nat (calcsize [fI32; fI32; fI32]) + N.of_nat (field_size fI64) + N.of_nat (field_size fI64)) with (p + 28)
        by (cbn; lia).
      rstep (ft_words_read lossy d ws bs _ FB NZ A2).
      assert (X : exists bu mn mx, ft_new bu mn mx = Ok ix /\ fasttext_vocab_new ws ix = Ok (VFastText ws idx ix)).
      { remember (VFastText ws idx ix) as v eqn:EV. 
        destruct BV as [ws' v Hv|ws' e mn mx ix' v Hi Hv|ws' bu mn mx ix' v Hi Hv|ws' gs mn mx index ix' v Hd Hi Hv].
        1,2,4: unfold simple_vocab_new, bucket_vocab_new, explicit_vocab_new in Hv;
               apply bind_ok in Hv as (i & _ & E); apply Ok_inj in E; subst v; discriminate.
        exists bu, mn, mx. pose proof Hv as Hv2. unfold fasttext_vocab_new in Hv2.
        apply bind_ok in Hv2 as (i & _ & E). apply Ok_inj in E. rewrite <- E in EV. injection EV as -> _ ->. easy. }
      destruct X as (bu & mn & mx & HI & HV). unfold rlift. rewrite (ft_new_again _ _ _ _ HI). cbn [bind]. rewrite HV.
      f_equal. f_equal. rewrite lenN_app, PK. lia.
    Qed.

    Lemma averaged_unique v cols m0 k w u1 u2 :
      averaged v cols m0 k w u1 -> averaged v cols m0 k w u2 -> u1 = u2.
    Proof.
      intros (s1 & r1 & S1 & _ & R1 & ->) (s2 & r2 & S2 & _ & R2 & ->). rewrite S1 in S2.
      apply Ok_inj in S2. subst s2. f_equal. f_equal. clear S1.
      revert r2 R2. induction R1 as [|i r l rs H _ IH]; intros r2 R2; inversion R2; subst; [easy|].
      f_equal; [congruence|auto].
    Qed.

    (* the average of word k, computed from what is in the file *)
    Lemma average_in_file e a ws idx ix vecs k w vec :
      built_embeddings e -> em_vocab e = VFastText ws idx ix -> em_storage e = SNd a ->
      lenN ws < 2 ^ 63 -> length vecs = length ws -> Forall (fun v => lenN v = em_dims e) vecs ->
      nth_error vecs k = Some vec -> fasttext_vector o e k w vec ->
      exists u, averaged (em_vocab e) (em_dims e) (in_file c (vecs ++ skipn (length ws) (nd_rows a))) k w u
                /\ fasttext_average o e c k w u.
    Proof.
      intros B V SE M LV FV NV FT. pose proof B as (W & BV & _). pose proof FT as (sw & row & sub & s & HS & HR & HL & HM & EV).
      assert (NI : nonneg_index (em_vocab e)) by (rewrite V; easy).
      assert (MS : machine_size (em_vocab e)) by (rewrite V; easy).
      pose proof (subword_bounds _ _ _ _ _ BV NI MS HS) as SB.
      rewrite (rows_bound e B), SE, (built_len _ BV), V in SB. cbn [storage_rows vocab_words] in SB.
      set (rt := fun x => dec c (enc c x)).
      exists (vdiv o (vsum o (N.to_nat (em_dims e)) (in_file c (vec :: sub))) (fofZ o (Z.of_nat (length sw) + 1))).
      split.
      - exists sw, (in_file c (vec :: sub)). split; [easy|]. split; [|split; [|easy]].
        + rewrite Forall_map. eapply Forall_impl; [|exact SB]. intros x H. cbn beta in H |- *.
          rewrite V. unfold n_words. cbn [vocab_words]. unfold lenN in H. lia.
        + unfold in_file. cbn [map]. constructor.
          * rewrite Nat2Z.id, nth_error_map, nth_error_app1, NV by (apply nth_error_Some; congruence). easy.
          * unfold rows_at in HL. rewrite SE in HL. cbn [storage_get] in HL.
            assert (SB2 : Forall (fun i => Z.of_nat (length ws) <= i)%Z (map sw_index sw)).
            { rewrite Forall_map. eapply Forall_impl; [|exact SB]. intros x H. cbn beta in H. unfold lenN in H. lia. }
            clear - HL SB2 LV. revert SB2. induction HL as [|i r l rs H _ IH]; intros SB2; cbn [map]; constructor.
            -- inversion SB2; subst. rewrite nth_error_map, nth_error_app2, skipn_nth by lia.
               replace (length ws + (Z.to_nat i - length vecs))%nat with (Z.to_nat i) by lia.
               rewrite <- (Z2Nat.id i) in H by lia. rewrite py_index_nat in H.
               destruct (nth_error (nd_rows a) (Z.to_nat i)); [|easy]. apply Ok_inj in H. now subst.
            -- inversion SB2; subst. now apply IH.
      - exists sw, sub, vec, (vsum o (N.to_nat (em_dims e)) (in_file c (vec :: sub))).
        repeat split; try easy.
        all: apply vsum_is_sum; unfold in_file; rewrite Forall_map; constructor.
        1,3: rewrite map_length; rewrite Forall_forall in FV; apply nth_error_In, FV in NV; unfold lenN in NV; lia.
        all: pose proof (rows_at_len o _ _ _ W HL) as RL; eapply Forall_impl; [|exact RL]; intros r H;
             cbn beta in H |- *; now rewrite map_length.
    Qed.

    Lemma fasttext_reload e old out : built_embeddings e ->
      Forall (fun w => ~ In 0 w) (vocab_words (em_vocab e)) ->
      array_fits (N.of_nat (storage_rows (em_storage e))) (em_dims e) ->
      write_fasttext o host c e old = (Some out, Ok tt) ->
      exists us, length us = n_words (em_vocab e)
        /\ (forall k w, nth_error (vocab_words (em_vocab e)) k = Some w ->
              exists u, nth_error us k = Some u /\ fasttext_average o e c k w u)
        /\ forall h lossy, exists e', run_reader (load_fasttext o h c lossy) out = Ok e'
              /\ fasttext_embeddings o e e' c us.
    Proof.
      intros B NZ AF H. apply write_fasttext_ok in H; [|easy].
      destruct H as [(ws & idx & ix & a & b_hdr & b_cfg & b_voc & bs & b_shape & vecs & V & SE & P1 & P2 & P3 & FB & P4 & LV & FV & HV & E)].
      pose proof B as (W & BV & _). rewrite V in *. cbn [vocab_words] in *. change (n_words (VFastText ws idx ix)) with (length ws).
      set (n := length ws) in *. pose proof (words_rows e B) as NR. rewrite V, SE in NR.
      change (n <= length (nd_rows a))%nat in NR. rewrite SE in AF. cbn [storage_rows] in AF.
      set (sub := skipn n (nd_rows a)) in *. set (m0 := in_file c (vecs ++ sub)).
      assert (NB : (Z.of_nat n < 2 ^ 31)%Z).
      { cbn [pack] in P3. apply bind_ok in P3 as (x & P3 & _). cbn [pack_field] in P3. unfold in_range in P3.
        destruct (Z.ltb_spec (Z.of_nat n) (2 ^ 31)); [easy|]. rewrite andb_false_r in P3. discriminate. }
      assert (M : lenN ws < 2 ^ 63) by (unfold lenN; fold n; lia).
      assert (AV : forall j w, nth_error ws j = Some w ->
                exists u, averaged (VFastText ws idx ix) (em_dims e) m0 j w u /\ fasttext_average o e c j w u).
      { intros j w Hj. destruct (HV j w Hj) as (vec & NV & FT).
        destruct (average_in_file e a ws idx ix vecs j w vec B V SE M LV FV NV FT) as (u & A1 & A2).
        rewrite V in A1. exists u. easy. }
      assert (LM : length m0 = length (nd_rows a)).
      { unfold m0, in_file. rewrite map_length, app_length, LV. unfold sub. rewrite skipn_length. lia. }
      destruct (precompute_ok (VFastText ws idx ix) (em_dims e) m0) as (m' & HM & LM' & HI & HW).
      { rewrite LM. exact NR. }
      { intros j w Hj. destruct (AV j w Hj) as (u & U & _). now exists u. }
      change (n_words (VFastText ws idx ix)) with n in HI. cbn [vocab_words] in HW.
      exists (firstn n m'). assert (LU : length (firstn n m') = n) by (rewrite firstn_length; lia).
      split; [exact LU|]. split.
      { intros k w Hk. destruct (HW k w Hk) as (u & N1 & A1). destruct (AV k w Hk) as (u2 & A2 & A3).
        rewrite <- (averaged_unique _ _ _ _ _ _ _ A1 A2) in A3. exists u. split; [|easy].
        rewrite nth_error_firstn'. assert (k < n)%nat by (apply nth_error_Some; congruence).
        destruct (Nat.ltb_spec k n); [easy|lia]. }
      intros h lossy.
      pose proof (at_pos_self out) as A. rewrite E in A at 2. 
      apply at_pos_app in A as [A1 A]. apply at_pos_app in A as [A2 A].
      replace (b_voc ++ concat (map ft_entry bs) ++ [x00] ++ b_shape ++ floats c (concat (vecs ++ sub)) ++ floats c (concat (nd_rows a)))
        with ((b_voc ++ concat (map ft_entry bs)) ++ ([x00] ++ b_shape ++ floats c (concat (vecs ++ sub))) ++ floats c (concat (nd_rows a))) in A
        by (rewrite <- !app_assoc; reflexivity).
      apply at_pos_app in A as [A3 A]. apply at_pos_app in A as [A4 _].
      rewrite (pack_lenN _ _ _ P1) in *. rewrite (pack_lenN _ _ _ P2) in *.
      assert (RD : exists md q, load_fasttext o h c lossy out 0 = Ok (Emb
                 (SNd (NdA BoNative (em_dims e) (map (fun r => map (fun x => fdiv o x (fnorm o r)) r) (firstn n m') ++ skipn n m')))
                 (VFastText ws idx ix) (Some (Norms BoNative (map (fnorm o) (firstn n m'))))
                 (Some md), q)).
      { unfold load_fasttext.
        assert (R1 : read_ft_header out 0 = Ok (tt, 8)).
        { unfold read_ft_header.
          pose proof (read2_at out 0 fI32 fI32 _ _ eq_refl eq_refl (ex_intro _ b_hdr (conj P1 A1))) as R.
          rstep R. reflexivity. }
        rstep R1. clear R1.
        assert (R2 : read_required_binary (repeat fI32 12 ++ [fF64]) out 8 =
          Ok ([Z.of_N (em_dims e); 0; 0; 0; 0; 1; 1; 1; Z.of_N (ft_buckets ix); Z.of_N (ft_min_n ix); Z.of_N (ft_max_n ix); 0; 0]%Z, 8 + N.of_nat 56)).
        { apply (read_required_at out 8).
          - intros f I. apply in_app_iff in I as [I|[<-|[]]]; [|easy]. apply repeat_spec in I. now subst.
          - cbn. lia.
          - cbn. unfold ssize_limit. lia.
          - exists b_cfg. split; [exact P2|exact A2]. }
        assert (R3 : exists md, read_ft_cfg out 8 = Ok (FtCfg md (Z.of_N (ft_buckets ix)) (Z.of_N (ft_min_n ix)) (Z.of_N (ft_max_n ix)), 64)).
        { eexists. unfold read_ft_cfg. rstep R2. reflexivity. }
        destruct R3 as (md & R3). rstep R3. cbn [fc_buckets fc_min_n fc_max_n fc_metadata].
        rstep (ft_vocab_read lossy out 64 ws idx ix bs b_voc FB NZ P3 A3 BV).
        assert (P4' : pack [fU64; fU64] [Z.of_nat (length (vecs ++ sub)); Z.of_N (em_dims e)] = Ok b_shape).
        { rewrite <- P4. do 3 f_equal. unfold m0, in_file in LM. rewrite map_length in LM. lia. }
        assert (CO : Forall (fun r => lenN r = em_dims e) (vecs ++ sub)).
        { apply Forall_app. split; [exact FV|]. rewrite SE in W. destruct W as [_ W].
          unfold rows_wf in W. unfold em_dims. rewrite SE. cbn [storage_shape snd]. unfold sub.
          rewrite <- (firstn_skipn n (nd_rows a)), Forall_app in W. apply W. }
        assert (AF' : array_fits (lenN (vecs ++ sub)) (em_dims e)).
        { unfold m0, in_file in LM. rewrite map_length in LM. unfold lenN. now rewrite LM. }
        pose proof (ft_matrix_read h (VFastText ws idx ix) out _ _ _ _ A4 P4' CO AF') as R5.
        fold m0 in R5. rewrite HM in R5. rstep R5.
        pose proof (rows_bound e B) as RB. rewrite V, SE in RB. cbn [storage_rows] in RB.
        pose proof (built_len _ BV) as BL. cbn [vocab_words] in BL. rewrite BL.
        replace (N.to_nat (lenN ws)) with n by (unfold lenN, n; lia). cbn [nd_rows nd_bo nd_cols].
        rewrite normalize_rows. unfold rlift, embeddings_new, norms_compat.
        cbn [storage_shape nd_rows nd_cols fst nm_vals]. rewrite RB, BL. unfold lenN.
        rewrite app_length, !map_length, LU, skipn_length, LM', LM.
        fold n. replace (n + (length (nd_rows a) - n))%nat with (length (nd_rows a)) by lia.
        rewrite nat_N_Z, Z.eqb_refl, N.eqb_refl. destruct (N.leb_spec (N.of_nat n) (N.of_nat (length (nd_rows a)))); [|lia].
        cbn [py_assert bind]. now eexists _, _. }
      destruct RD as (md & q & RD). eexists. unfold run_reader. rewrite RD. split; [reflexivity|].
      eexists. cbn [em_vocab em_storage em_norms]. repeat split.
      - now rewrite V.
      - rewrite V. exact LU.
      - rewrite SE. cbn [storage_rows]. rewrite app_length, map_length, LU, skipn_length. lia.
      - intros k u Hk. rewrite nth_error_app1, nth_error_map, Hk; [easy|].
        rewrite map_length. apply nth_error_Some. congruence.
      - intros k Hk. rewrite V, SE in Hk. change (n_words (VFastText ws idx ix)) with n in Hk.
        cbn [storage_rows] in Hk. rewrite SE. cbn [storage_get]. rewrite py_index_nat.
        rewrite nth_error_app2, map_length, LU, skipn_nth by (rewrite map_length; lia).
        replace (n + (k - n))%nat with k by lia. rewrite HI by lia. unfold m0, in_file.
        rewrite nth_error_map, nth_error_app2, LV by lia. unfold sub. rewrite skipn_nth.
        replace (n + (k - n))%nat with k by lia.
        destruct (nth_error (nd_rows a) k) eqn:Q; [now exists l|]. apply nth_error_None in Q. lia.
    Qed.

    (* ---------------------------------------------------------------- *)
    (* writing succeeds                                                  *)

    Lemma wseq_steps w1 w2 p b1 b2 : w1 p = (b1, Ok tt) -> w2 (p + lenN b1) = (b2, Ok tt) ->
      (w1 ;w; w2) p = (b1 ++ b2, Ok tt).
    Proof. unfold wseq. intros -> ->. reflexivity. Qed.
    Lemma wseq_exists w1 w2 p : (exists b, w1 p = (b, Ok tt)) -> (forall q, exists b, w2 q = (b, Ok tt)) ->
      exists b, (w1 ;w; w2) p = (b, Ok tt).
    Proof.
      intros [b1 H1] H2. destruct (H2 (p + lenN b1)) as [b2 H]. exists (b1 ++ b2). now apply wseq_steps.
    Qed.
    Lemma wfor_exists {A} (f : A -> writer) l : (forall a, In a l -> forall p, exists b, f a p = (b, Ok tt)) ->
      forall p, exists b, wfor f l p = (b, Ok tt).
    Proof.
      induction l as [|a l IH]; intros H p; [now exists []|]. cbn [wfor]. apply wseq_exists.
      - apply H. now left.
      - intros q. apply IH. intros x I. apply H. now right.
    Qed.
    Lemma write_binary_exists fmt vs p : (exists b, pack fmt vs = Ok b) -> exists b, write_binary fmt vs p = (b, Ok tt).
    Proof. intros [b H]. exists b. unfold write_binary. now rewrite H. Qed.
    Lemma pack_i32s fmt vs : fmt = repeat fI32 (length vs) -> Forall (fun v => - 2 ^ 31 <= v < 2 ^ 31)%Z vs ->
      exists b, pack fmt vs = Ok b.
    Proof.
      intros -> H. induction H as [|v vs R _ [b IH]]; cbn [length repeat pack]; [now exists []|].
      cbn [pack_field]. unfold in_range. destruct (Z.leb_spec (- 2 ^ 31) v); [|lia].
      destruct (Z.ltb_spec v (2 ^ 31)); [|lia]. cbn [andb bind]. rewrite IH. cbn [bind]. now eexists.
    Qed.

    Lemma write_fasttext_succeeds e a ws idx ix old : built_embeddings e ->
      em_vocab e = VFastText ws idx ix -> em_storage e = SNd a -> Forall encodable ws ->
      lenN ws < 2 ^ 31 -> em_dims e < 2 ^ 31 -> ft_buckets ix < 2 ^ 31 -> ft_max_n ix < 2 ^ 31 ->
      exists out, write_fasttext o host c e old = (Some out, Ok tt).
    Proof.
      intros B V SE EN L1 L2 L3 L4. pose proof B as (W & BV & _).
      assert (MM : ft_min_n ix <= ft_max_n ix).
      { pose proof (built_indexer _ BV) as C. rewrite V in C. specialize (C I). cbn in C. unfold ngram_range in C. lia. }
      pose proof (built_len _ BV) as BL. rewrite V in BL. cbn [vocab_words] in BL.
      pose proof (rows_bound e B) as RB. rewrite V, SE in RB. unfold vocab_upper_bound in RB. rewrite BL in RB. unfold ft_upper_bound in RB. cbn [storage_rows] in RB.
      enough (X : exists out, ft_write o host c e 0 = (out, Ok tt)).
      { destruct X as [out X]. exists out. unfold write_fasttext, open_wb, run_writer. now rewrite X. }
      unfold ft_write. rewrite V. apply wseq_exists; [|intros p1; apply wseq_exists; [|intros p2; apply wseq_exists;
        [|intros p3; apply wseq_exists; [|intros p4; apply wseq_exists; [|intros p5]]]]].
      - apply write_binary_exists. apply pack_i32s; [reflexivity|]. repeat constructor; unfold FT_MAGIC; lia.
      - apply write_binary_exists.
        match goal with |- exists b, pack _ [?d; 0; 0; 0; 0; 1; 1; 1; ?bu; ?mn; ?mx; 0; 0]%Z = _ =>
          change [d; 0; 0; 0; 0; 1; 1; 1; bu; mn; mx; 0; 0]%Z with ([d; 0; 0; 0; 0; 1; 1; 1; bu; mn; mx; 0]%Z ++ [0]%Z) end.
        rewrite pack_app by easy.
        destruct (pack_i32s (repeat fI32 12) [Z.of_N (em_dims e); 0; 0; 0; 0; 1; 1; 1; Z.of_N (ft_buckets ix); Z.of_N (ft_min_n ix); Z.of_N (ft_max_n ix); 0]%Z) as [b ->];
          [reflexivity|repeat constructor; lia|]. cbn. now eexists.
      - unfold write_ft_vocab. rewrite BL. cbn [vocab_words]. apply wseq_exists; [|intros q1; apply wseq_exists; [|intros q2]].
        + apply write_binary_exists. apply pack_i32s; [reflexivity|]. repeat constructor; lia.
        + apply write_binary_exists. now eexists.
        + apply wfor_exists. intros w I p. rewrite Forall_forall in EN. destruct (EN w I) as [b Eb].
          rewrite Eb. cbn [wlet]. apply wseq_exists; [now exists b|]. intros r1. apply wseq_exists; [now exists [x00]|].
          intros r2. apply wseq_exists; [|intros r3]; apply write_binary_exists; now eexists.
      - apply write_binary_exists. rewrite SE. cbn [storage_shape fst snd pack pack_field]. unfold in_range.
        unfold em_dims in L2. rewrite SE in L2. cbn [storage_shape snd] in L2.
        destruct (Z.leb_spec 0 (Z.of_N (lenN (nd_rows a)))); [|lia]. destruct (Z.leb_spec 0 (Z.of_N (nd_cols a))); [|lia].
        destruct (Z.ltb_spec (Z.of_N (lenN (nd_rows a))) (2 ^ 64)); [|unfold lenN in *; lia].
        destruct (Z.ltb_spec (Z.of_N (nd_cols a)) (2 ^ 64)); [|lia]. cbn [andb bind]. now eexists.
      - unfold write_ft_storage_subwords. apply wseq_exists.
        + apply wfor_exists. intros [w i] I p. cbn [fst snd].
          assert (X : exists k, i = Z.of_nat k /\ nth_error ws k = Some w).
          { rewrite V in I. cbn [vocab_words] in I. unfold enumerate in I. apply In_nth_error in I as [k I].
            rewrite enumerate_from_nth in I. destruct (nth_error ws k) eqn:Q; [|easy].
            cbn in I. injection I as -> <-. exists k. split; [lia|easy]. }
          destruct X as (k & -> & Q).
          assert (K : (k < length ws)%nat) by (apply nth_error_Some; congruence).
          assert (EW : encodable w) by (rewrite Forall_forall in EN; apply EN; eapply nth_error_In; eauto).
          unfold ft_word_vector.
          destruct (vocab_subword_indices (em_vocab e) w true false) as [sw|er] eqn:SW.
          2:{ apply subword_err in SW as [(x & y & SW & _)|(x & y & z & _ & SW)]; [congruence| |easy].
              assert (encodable (in_brackets true w)) as [bb EB]; [|congruence].
              unfold in_brackets. change (60 :: w ++ [62]) with ([60] ++ w ++ [62]). apply encodable_app; [|apply encodable_app; [easy|]]; apply encodable_ascii; repeat constructor. }
          cbn [bind].
          destruct (storage_get_ok o (em_storage e) (Z.of_nat k)) as [row ->]; [easy|rewrite SE; easy|rewrite SE; cbn; unfold lenN in RB; lia|].
          cbn [bind].
          assert (SB : Forall (fun i => 0 <= i < Z.of_nat (storage_rows (em_storage e)))%Z (map sw_index sw)).
          { assert (NI : nonneg_index (em_vocab e)) by (rewrite V; easy).
            assert (MS : machine_size (em_vocab e)) by (rewrite V; unfold machine_size; cbn; lia).
            pose proof (subword_bounds _ _ _ _ _ BV NI MS SW) as SB. rewrite (rows_bound e B) in SB.
            rewrite Forall_map. eapply Forall_impl; [|exact SB]. intros x H. cbn beta in H. lia. }
          destruct (get_list_ok o (em_storage e) (map sw_index sw) W) as (rows & _ & GL); [rewrite SE; easy|exact SB|].
          destruct (em_norms e) as [n|] eqn:NN.
          * pose proof (norms_len e n B NN) as NL. rewrite V, BL in NL. rewrite py_index_nat.
            destruct (nth_error (nm_vals n) k) eqn:Q2; [|apply nth_error_None in Q2; unfold lenN in NL; lia].
            cbn [bind]. rewrite GL. cbn [bind wlet]. rewrite serialize_bytes by easy. now eexists.
          * cbn [bind]. rewrite GL. cbn [bind wlet]. rewrite serialize_bytes by easy. now eexists.
        + intros q. destruct (storage_slice_ok (em_storage e) (slice_from (Z.of_N (vocab_len (em_vocab e)))) W) as [sl SL]; [easy|].
          rewrite SL. cbn [wlet]. destruct (slice_subwords e a sl B SE SL) as (bo & cols & -> & NB).
          cbn [serialize_storage]. rewrite serialize_bytes by easy. now eexists.
      - rewrite SE. cbn [serialize_storage]. rewrite SE in W. rewrite serialize_bytes by apply W. now eexists.
    Qed.
  End File.
End Ft.
