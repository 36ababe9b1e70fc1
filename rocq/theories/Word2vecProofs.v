(* word2vec files: what is written, and reading it back. *)
From Coq Require Import Lia.
From Verif Require Import Py PyProofs Utf8 Utf8Proofs Utf8More SpecUtf8 IO IOProofs ReaderProofs Arr
  Subword Vocab VocabProofs Storage Chunks Embeddings Spec SpecVocab SpecLookup VocabFacts
  ArrProofs StorageGet ExplicitEmb WordProofs PyText SpecCompat PyTextProofs Compat CompatProofs.
Local Open Scope N_scope.
Local Open Scope list_scope.

Definition shape_line (rows cols : N) : str := str_of_N rows ++ [32] ++ str_of_N cols ++ [10].

Lemma shape_line_ascii rows cols : Forall (fun c => c < 128) (shape_line rows cols).
Proof.
  assert (D : forall n, Forall (fun c => c < 128) (str_of_N n)).
  { intros n. eapply Forall_impl; [|apply str_of_N_digit]. unfold digit. intros; lia. }
  unfold shape_line. apply Forall_app; split; [apply D|]. constructor; [lia|].
  apply Forall_app; split; [apply D|]. constructor; [lia|constructor].
Qed.
Lemma shape_split rows cols : py_split (shape_line rows cols) = [str_of_N rows; str_of_N cols].
Proof.
  assert (D : forall n, Forall (fun c => is_space c = false) (str_of_N n)).
  { intros n. eapply Forall_impl; [|apply str_of_N_digit]. exact digit_not_space. }
  apply py_split_two; auto using str_of_N_nonempty.
Qed.
Lemma byte_of_N_inj a b : a < 256 -> b < 256 -> byte_of_N a = byte_of_N b -> a = b.
Proof.
  intros A B H. apply (f_equal Byte.to_N) in H. rewrite !to_N_byte_of_N in H.
  rewrite !N.mod_small in H; lia.
Qed.
Lemma shape_first_line rows cols rest :
  first_line (map byte_of_N (shape_line rows cols) ++ rest) = map byte_of_N (shape_line rows cols).
Proof.
  assert (E : shape_line rows cols = (str_of_N rows ++ [32] ++ str_of_N cols) ++ [10]).
  { unfold shape_line. now rewrite <- !app_assoc. }
  rewrite E, map_app. cbn [map]. change (byte_of_N 10) with x0a.
  rewrite <- app_assoc. cbn [app]. apply first_line_app.
  intros I. apply in_map_iff in I as (x & Hx & I). change x0a with (byte_of_N 10) in Hx.
  assert (D : forall n, Forall (fun c => 32 <= c < 128) (str_of_N n)).
  { intros n. eapply Forall_impl; [|apply str_of_N_digit]. unfold digit. intros; lia. }
  assert (X : 32 <= x < 128).
  { apply in_app_iff in I as [I|[I|I]]; [|lia|];
      [pose proof (D rows) as Q|pose proof (D cols) as Q]; rewrite Forall_forall in Q; now apply Q. }
  apply byte_of_N_inj in Hx; lia.
Qed.

Section W2v.
  Context {F : Type} (o : fops F) (host : endian) (c : codec F).

  Definition w2v_entry (b : bytes) (row : list F) : bytes := b ++ [x20] ++ floats c row ++ [x0a].

  Definition w2v_put (e : embeddings F) (m : storage F) : str * Z -> writer := fun wi =>
    let (word, idx) := wi in
    wlet (unnormalized_row o e m idx) (fun row =>
    wlet (utf8_encode word) (fun b_word =>
      wbytes b_word ;w; wbytes [x20] ;w; serialize host c (fst row) (snd row) ;w; wbytes [x0a])).

  Lemma w2v_rows_written e m : built_embeddings e ->
    storage_slice (em_storage e) (slice_to (Z.of_N (vocab_len (em_vocab e)))) = Ok m ->
    forall ws k p out, (k + length ws <= n_words (em_vocab e))%nat ->
    wfor (w2v_put e m) (enumerate_from (Z.of_nat k) ws) p = (out, Ok tt) ->
    exists bs rows, Forall2 (fun w b => utf8_encode w = Ok b) ws bs /\ length rows = length ws
      /\ (forall j row, nth_error rows j = Some row -> written_row o e (k + j) row /\ lenN row = em_dims e)
      /\ out = concat (map2 w2v_entry bs rows).
  Proof.
    intros B HS. induction ws as [|w ws IH]; intros k p out L H.
    - cbn in H. injection H as <-. exists [], []. repeat split; try easy; destruct j; easy.
    - cbn [enumerate_from wfor] in H. apply wseq_ok in H as (b1 & b2 & H1 & H2 & ->).
      unfold w2v_put in H1. apply wlet_ok in H1 as ([bo row] & Hr & H1).
      apply wlet_ok in H1 as (b & Hb & H1). cbn [fst snd] in H1. simpl length in L.
      destruct (unnormalized_spec o e m k bo row B HS ltac:(lia) Hr) as (Hbo & Wr & Lr).
      apply wseq_ok in H1 as (c1 & c2 & E1 & H1 & ->). apply wbytes_ok in E1 as ->.
      apply wseq_ok in H1 as (c3 & c4 & E1 & H1 & ->). apply wbytes_ok in E1 as ->.
      apply wseq_ok in H1 as (c5 & c6 & E1 & E2 & ->). apply wbytes_ok in E2 as ->.
      rewrite serialize_bytes in E1 by easy. injection E1 as <-.
      replace (Z.of_nat k + 1)%Z with (Z.of_nat (S k)) in H2 by lia.
      destruct (IH (S k) _ _ ltac:(lia) H2) as (bs & rows & FB & LR & WR & ->).
      exists (b :: bs), (row :: rows). split; [now constructor|]. split; [simpl; lia|]. split.
      + intros [|j] r Hj; simpl in Hj.
        * injection Hj as <-. now rewrite Nat.add_0_r.
        * rewrite Nat.add_succ_r. now apply (WR j).
      + reflexivity.
  Qed.

  Lemma w2v_rows_put e m : built_embeddings e -> valid_codes (em_storage e) ->
    storage_slice (em_storage e) (slice_to (Z.of_N (vocab_len (em_vocab e)))) = Ok m ->
    forall ws k p, (k + length ws <= n_words (em_vocab e))%nat ->
    Forall encodable ws ->
    exists out, wfor (w2v_put e m) (enumerate_from (Z.of_nat k) ws) p = (out, Ok tt).
  Proof.
    intros B V HS. induction ws as [|w ws IH]; intros k p L E.
    - exists []. reflexivity.
    - inversion E as [|? ? [b Eb] Ew]; subst. simpl length in L. cbn [enumerate_from wfor].
      destruct (unnormalized_ok o e m k B V HS ltac:(lia)) as [[bo row] Hr].
      destruct (unnormalized_spec o e m k bo row B HS ltac:(lia) Hr) as (Hbo & _).
      destruct (IH (S k) (p + lenN (w2v_entry b row)) ltac:(lia) Ew) as [out Ho].
      exists (w2v_entry b row ++ out). unfold wseq at 1.
      assert (X : w2v_put e m (w, Z.of_nat k) p = (w2v_entry b row, Ok tt)).
      { unfold w2v_put. rewrite Hr. cbn [wlet]. rewrite Eb. cbn [wlet fst snd].
        unfold wseq, wbytes. rewrite serialize_bytes by easy. reflexivity. }
      rewrite X. replace (Z.of_nat k + 1)%Z with (Z.of_nat (S k)) by lia. now rewrite Ho.
  Qed.

  Lemma write_word2vec_ok e old out : built_embeddings e ->
    write_word2vec o host c e old = (Some out, Ok tt) ->
    exists bs rows, Forall2 (fun w b => utf8_encode w = Ok b) (vocab_words (em_vocab e)) bs
      /\ written_rows o e rows /\ Forall (fun r => lenN r = em_dims e) rows
      /\ out = map byte_of_N (shape_line (N.of_nat (n_words (em_vocab e))) (em_dims e))
               ++ concat (map2 w2v_entry bs rows).
  Proof.
    intros B H. unfold write_word2vec, before_open in H.
    destruct (storage_slice _ _) as [m|] eqn:S; [|easy]. unfold open_wb, run_writer in H.
    destruct (w2v_write o host c e m 0) as [out' r] eqn:W. injection H as -> ->.
    destruct (slice_words o e m B S) as (_ & R & D & _).
    unfold w2v_write in W. pose proof (shape_rows m) as SR.
    destruct (storage_shape m) as [mr mc] eqn:SH. cbn [fst snd] in *. subst mr mc.
    apply wseq_ok in W as (b1 & b2 & E1 & W & ->). apply wbytes_ok in E1 as ->.
    fold (w2v_put e m) in W. unfold enumerate in W.
    destruct (w2v_rows_written e m B S (vocab_words (em_vocab e)) 0 _ _ ltac:(unfold n_words; lia) W) as (bs & rows & FB & LR & WR & ->).
    exists bs, rows. split; [easy|]. split; [split; [easy|]|split].
    - intros k row Hk. now apply WR.
    - apply Forall_forall. intros r I. apply In_nth_error in I as [k Hk]. now apply WR in Hk.
    - now rewrite R.
  Qed.
  Lemma write_word2vec_succeeds e old : built_embeddings e -> valid_codes (em_storage e) ->
    Forall encodable (vocab_words (em_vocab e)) ->
    exists out, write_word2vec o host c e old = (Some out, Ok tt).
  Proof.
    intros B V E. unfold write_word2vec, before_open.
    destruct (storage_slice_ok (em_storage e) (slice_to (Z.of_N (vocab_len (em_vocab e))))) as [m S];
      [apply B|easy|]. rewrite S. unfold open_wb, run_writer, w2v_write.
    destruct (storage_shape m) as [r k] eqn:SH. fold (w2v_put e m). unfold enumerate.
    edestruct (w2v_rows_put e m B V S (vocab_words (em_vocab e)) 0) as [out Ho]; [unfold n_words; lia|easy|].
    unfold wseq at 1, wbytes at 1. change 0%Z with (Z.of_nat 0). rewrite Ho. eauto.
  Qed.
  (* an encoding error happens after the file has been emptied *)

  (* ---------------------------------------------------------------- *)
  (* reading                                                           *)

  Lemma w2v_row_read h lossy d p lead w b row rest :
    Forall (fun b => b = x0a) lead -> utf8_encode w = Ok b -> ~ In 32 w -> no_edge_space w ->
    lenN row * 4 < ssize_limit ->
    at_pos d p (lead ++ b ++ [x20] ++ floats c row ++ rest) ->
    w2v_read_row h c lossy (lenN row) d p = Ok ((w, map (fun x => dec c (enc c x)) row), p + lenN (lead ++ b ++ [x20] ++ floats c row)).
  Proof.
    intros HL Eb NS NE L A. unfold w2v_read_row.
    assert (EL : utf8_encode (map Byte.to_N lead ++ w) = Ok (lead ++ b)).
    { rewrite utf8_encode_app, Eb. rewrite encode_ascii_str.
      - cbn [bind]. f_equal. f_equal. rewrite map_map. rewrite <- (map_id lead) at 2.
        apply map_ext. intros x. apply byte_of_N_to_N.
      - rewrite Forall_map. eapply Forall_impl; [|exact HL]. intros x ->. reflexivity. }
    assert (NI : ~ In x20 (lead ++ b)).
    { intros I. apply in_app_iff in I as [I|I].
      - rewrite Forall_forall in HL. apply HL in I. discriminate.
      - apply NS. change 32 with (Byte.to_N x20). now apply (encode_ascii w b). }
    assert (RW : w2v_read_word x20 lossy d p = Ok (map Byte.to_N lead ++ w, p + lenN (lead ++ b) + 1)).
    { unfold w2v_read_word, rbind, read_until. apply at_pos_drop in A as [post ->].
      rewrite !app_assoc, <- (app_assoc _ _ rest), <- !app_assoc.
      replace (lead ++ b ++ [x20] ++ floats c row ++ rest ++ post)
        with ((lead ++ b) ++ x20 :: (floats c row ++ rest ++ post)) by now rewrite <- !app_assoc.
      rewrite until_app by easy. unfold rlift. now rewrite (decode_word_encode lossy _ _ EL). }
    rstep RW.
    rewrite app_assoc in A. apply at_pos_app in A as [_ A]. apply at_pos_app in A as [_ A].
    apply at_pos_app in A as [A _]. change (lenN [x20]) with 1 in A.
    rstep (fromfile_native_at c h row d _ A L). unfold rbind, rlift, np_assign.
    rewrite lenN_map, N.eqb_refl. unfold rret.
    rewrite strip_spaces; [|rewrite Forall_map; eapply Forall_impl; [|exact HL]; now intros x ->|easy].
    f_equal. f_equal. rewrite !lenN_app. change (lenN [x20]) with 1. lia.
  Qed.

  Lemma w2v_rows_read h lossy d : forall ws bs rows cols p lead,
    Forall (fun b => b = x0a) lead -> Forall2 (fun w b => utf8_encode w = Ok b) ws bs ->
    length rows = length ws ->
    Forall (fun w => ~ In 32 w) ws -> Forall no_edge_space ws ->
    Forall (fun r => lenN r = cols) rows -> cols * 4 < ssize_limit ->
    at_pos d p (lead ++ concat (map2 w2v_entry bs rows)) ->
    exists q, rrepeat (length ws) (w2v_read_row h c lossy cols) d p = Ok (combine ws (in_file c rows), q)
      /\ (ws = [] \/ q + 1 = p + lenN (lead ++ concat (map2 w2v_entry bs rows))).
  Proof.
    induction ws as [|w ws IH]; intros bs rows cols p lead HL FB LR NS NE CO L A.
    - exists p. split; [reflexivity|now left].
    - destruct rows as [|row rows]; [discriminate|]. inversion FB as [|? b ? bs' Eb FB']; subst.
      inversion NS; inversion NE; inversion CO; subst.
      cbn [map2 concat] in A. unfold w2v_entry at 1 in A. rewrite <- !app_assoc in A.
      cbn [length rrepeat combine].
      rstep (w2v_row_read h lossy d p lead w b row _ HL Eb ltac:(easy) ltac:(easy) L A).
      assert (A' : at_pos d (p + lenN (lead ++ b ++ [x20] ++ floats c row)) ([x0a] ++ concat (map2 w2v_entry bs' rows))).
      { replace (lead ++ b ++ [x20] ++ floats c row ++ [x0a] ++ concat (map2 w2v_entry bs' rows))
          with ((lead ++ b ++ [x20] ++ floats c row) ++ ([x0a] ++ concat (map2 w2v_entry bs' rows))) in A
          by now rewrite <- !app_assoc.
        now apply at_pos_app in A. }
      destruct (IH bs' rows (lenN row) _ [x0a] ltac:(now repeat constructor) FB' ltac:(simpl in LR; lia)
                  ltac:(easy) ltac:(easy) ltac:(easy) L A') as (q & Hq & Q).
      exists q. split; [rstep Hq; reflexivity|]. right.
      cbn [map2 concat]. unfold w2v_entry at 1. rewrite !lenN_app in *. change (lenN [x0a]) with 1 in *.
      change (lenN [x20]) with 1 in *. destruct Q as [->|Q]; [|lia].
      destruct rows; [|discriminate]. inversion FB'; subst. cbn in Hq. injection Hq as <-.
      cbn [map2 concat]. change (lenN (@nil byte)) with 0. lia.
  Qed.

  Lemma w2v_shape_read d rows cols rest : d = map byte_of_N (shape_line rows cols) ++ rest ->
    w2v_read_shape d 0 = Ok ((Z.of_N rows, Z.of_N cols), lenN (map byte_of_N (shape_line rows cols))).
  Proof.
    intros ->. unfold w2v_read_shape, rbind, readline. rewrite dropN_0, shape_first_line.
    rewrite N.add_0_l. unfold rlift. rewrite ascii_decode_map by apply shape_line_ascii. cbn [bind].
    rewrite shape_split, !py_int_str. reflexivity.
  Qed.
  Lemma zeros_fit rows cols : array_fits rows cols ->
    np_zeros_shape (Z.of_N rows) (Z.of_N cols) = Ok (rows, cols).
  Proof.
    unfold array_fits, np_zeros_shape. intros H.
    destruct (Z.ltb_spec (Z.of_N rows) 0); [lia|]. destruct (Z.ltb_spec (Z.of_N cols) 0); [lia|].
    cbn [orb]. destruct (Z.leb_spec (2 ^ 63) (Z.max 1 (Z.of_N rows) * Z.max 1 (Z.of_N cols) * 4)) as [X|X].
    - exfalso. change (2 ^ 63)%Z with (Z.of_N (2 ^ 63)) in X. lia.
    - now rewrite !N2Z.id.
  Qed.

  (* the rows as they come back from a file *)
  Lemma word2vec_reload e old out : built_embeddings e ->
    Forall (fun w => ~ In 32 w) (vocab_words (em_vocab e)) ->
    Forall no_edge_space (vocab_words (em_vocab e)) ->
    array_fits (N.of_nat (n_words (em_vocab e))) (em_dims e) ->
    write_word2vec o host c e old = (Some out, Ok tt) ->
    exists rows, written_rows o e rows
      /\ forall h lossy, exists e' q, load_word2vec o h c lossy out 0 = Ok (e', q)
           /\ (vocab_words (em_vocab e) = [] \/ q + 1 = lenN out)
           /\ simple_embeddings o e' (vocab_words (em_vocab e)) (em_dims e) (in_file c rows).
  Proof.
    intros B NS NE AF H. destruct (write_word2vec_ok e old out B H) as (bs & rows & FB & WR & CO & E).
    exists rows. split; [easy|]. intros h lossy.
    pose proof (proj1 WR) as LR.
    assert (LI : length (in_file c rows) = length (vocab_words (em_vocab e)))
      by (unfold in_file; rewrite map_length; exact LR).
    destruct (simple_result o (vocab_words (em_vocab e)) (em_dims e) (in_file c rows)) as (e' & HE & SE);
      [apply (built_indexed _ (proj1 (proj2 B)))|easy|].
    pose proof (w2v_shape_read out _ _ _ E) as RS. 
    assert (A : at_pos out (lenN (map byte_of_N (shape_line (N.of_nat (n_words (em_vocab e))) (em_dims e))))
                  ([] ++ concat (map2 w2v_entry bs rows))).
    { pose proof (at_pos_self out) as A. rewrite E in A at 2. now apply at_pos_app in A as [_ A]. }
    assert (C4 : em_dims e * 4 < ssize_limit) by (unfold array_fits, ssize_limit in *; nia).
    destruct (w2v_rows_read h lossy out _ _ _ (em_dims e) _ [] ltac:(constructor) FB LR NS NE CO C4 A)
      as (q & Hq & Q).
    exists e', q. split; [|split; [|easy]].
    - unfold load_word2vec. rstep RS. cbn [fst snd].
      unfold rlift at 1. rewrite (zeros_fit _ _ AF). unfold rbind at 1.
      rewrite Nat2N.id. unfold n_words in Hq |- *. rstep Hq.
      rewrite combine_map_fst, combine_map_snd by easy.
      destruct (normalize_matrix o (in_file c rows)) as [mm nn]. unfold rlift. rewrite HE. reflexivity.
    - destruct Q as [Q|Q]; [now left|right]. rewrite Q, E at 1. cbn [app]. rewrite lenN_app. reflexivity.
  Qed.

  Lemma in_file_exact rows : exact_in_file c rows -> in_file c rows = rows.
  Proof.
    intros H. unfold in_file. rewrite <- (map_id rows) at 2. apply map_ext_in. intros r I.
    unfold exact_in_file in H. rewrite Forall_forall in H. apply exact_row. now apply H.
  Qed.

  Lemma word2vec_round_trip e old out : built_embeddings e ->
    Forall (fun w => ~ In 32 w) (vocab_words (em_vocab e)) ->
    Forall no_edge_space (vocab_words (em_vocab e)) ->
    array_fits (N.of_nat (n_words (em_vocab e))) (em_dims e) ->
    write_word2vec o host c e old = (Some out, Ok tt) ->
    exists rows, written_rows o e rows
      /\ forall h lossy, exists e', run_reader (load_word2vec o h c lossy) out = Ok e'
           /\ simple_embeddings o e' (vocab_words (em_vocab e)) (em_dims e) (in_file c rows).
  Proof.
    intros B NS NE AF H. destruct (word2vec_reload e old out B NS NE AF H) as (rows & WR & R).
    exists rows. split; [easy|]. intros h lossy. destruct (R h lossy) as (e' & q & L & _ & SE).
    exists e'. split; [|easy]. unfold run_reader. now rewrite L.
  Qed.
End W2v.
