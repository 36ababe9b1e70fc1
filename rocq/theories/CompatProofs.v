(* Lemmas shared by the formats of compat/: rows that are written, arrays of elements in a
   file, and the construction of the result. *)
From Coq Require Import Lia.
From Verif Require Import Py PyProofs Utf8 Utf8Proofs Utf8More SpecUtf8 IO IOProofs ReaderProofs Arr
  Subword Vocab VocabProofs Storage Chunks Embeddings Spec SpecVocab SpecLookup VocabFacts
  ArrProofs StorageGet ExplicitEmb WordProofs PyText SpecCompat PyTextProofs Compat.
Local Open Scope N_scope.
Local Open Scope list_scope.

Lemma ex_bound_nonneg ngrams mn mx index ix : ex_new ngrams mn mx index = Ok ix -> (0 <= ex_bound ix)%Z.
Proof.
  unfold ex_new. intros H. apply bind_ok in H as (u & _ & H). apply bind_ok in H as (a & _ & H).
  apply bind_ok in H as (b & _ & H). destruct index as [d|].
  - apply bind_ok in H as (u1 & _ & H). apply bind_ok in H as (u2 & _ & H).
    apply bind_ok in H as (m & _ & H). apply bind_ok in H as (u3 & Hu & H).
    apply py_assert_ok, Z.eqb_eq in Hu. injection H as <-. simpl. lia.
  - apply bind_ok in H as (u1 & _ & H). injection H as <-. simpl. lia.
Qed.
Lemma subword_rows_nonneg v : built_vocab v -> (0 <= subword_rows v)%Z.
Proof.
  intros B. destruct B as [ws v Hv|ws e mn mx ix v Hi Hv|ws b mn mx ix v Hi Hv|ws gs mn mx index ix v Hd Hi Hv].
  - unfold simple_vocab_new in Hv. apply bind_ok in Hv as (idx & _ & E). now injection E as <-.
  - unfold bucket_vocab_new in Hv. apply bind_ok in Hv as (idx & _ & E). injection E as <-. simpl. lia.
  - unfold fasttext_vocab_new in Hv. apply bind_ok in Hv as (idx & _ & E). injection E as <-. simpl. lia.
  - unfold explicit_vocab_new in Hv. apply bind_ok in Hv as (idx & _ & E). injection E as <-.
    simpl. now apply ex_bound_nonneg in Hi.
Qed.

(* indexing with a natural number *)
Lemma py_index_nat {A} (l : list A) k :
  py_index l (Z.of_nat k) = match nth_error l k with Some a => Ok a | None => Err IndexError end.
Proof.
  destruct (nth_error l k) eqn:E; [now apply py_index_nth|].
  rewrite py_index_from_end. unfold from_end. destruct (Z.ltb_spec (Z.of_nat k) 0); [lia|].
  now rewrite Nat2Z.id, E.
Qed.

Section Shared.
  Context {F : Type} (o : fops F) (c : codec F).

  Lemma shape_rows (s : storage F) : fst (storage_shape s) = N.of_nat (storage_rows s).
  Proof. destruct s; reflexivity. Qed.

  Lemma words_rows (e : embeddings F) : built_embeddings e ->
    (n_words (em_vocab e) <= storage_rows (em_storage e))%nat.
  Proof.
    intros B. pose proof (rows_bound e B) as R. destruct B as (_ & BV & _).
    rewrite (upper_bound_rows _ BV) in R. pose proof (subword_rows_nonneg _ BV). lia.
  Qed.

  (* storage[:len(vocab)] *)
  Lemma slice_words (e : embeddings F) m : built_embeddings e ->
    storage_slice (em_storage e) (slice_to (Z.of_N (vocab_len (em_vocab e)))) = Ok m ->
    storage_wf m /\ storage_rows m = n_words (em_vocab e) /\ snd (storage_shape m) = em_dims e
    /\ forall k, (k < n_words (em_vocab e))%nat ->
         storage_get o m (Z.of_nat k) = storage_get o (em_storage e) (Z.of_nat k).
  Proof.
    intros B H. pose proof (words_rows e B) as L. destruct B as (W & BV & _).
    rewrite (built_len _ BV) in H. unfold lenN in H. rewrite nat_N_Z in H. fold (n_words (em_vocab e)) in H.
    set (n := n_words (em_vocab e)) in *.
    destruct (storage_slice_spec o _ _ _ W H) as (W' & D & idx & P & Li & _ & G).
    assert (E : idx = map Z.of_nat (seq 0 n)).
    { eapply slice_positions_unique; [exact P|]. unfold slice_positions. simpl.
      unfold clamp, from_end. split.
      - intros k i Hk. rewrite nth_map_seq in Hk. destruct (_ <? _)%nat; [|easy]. injection Hk as <-. lia.
      - intros k. rewrite map_length, seq_length. destruct (Z.ltb_spec (Z.of_nat n) 0); [lia|]. lia. }
    rewrite E, map_length, seq_length in Li. repeat split; try easy.
    intros k Hk. apply G. rewrite E, nth_map_seq. apply Nat.ltb_lt in Hk. now rewrite Hk.
  Qed.

  Lemma row_bo_wf (m : storage F) : storage_wf m -> row_bo m <> BoNA.
  Proof. destruct m; simpl; [now intros [H _]|now intros ((H & _) & _)]. Qed.

  (* the row that is written for a word *)
  Lemma unnormalized_spec (e : embeddings F) m k bo row : built_embeddings e ->
    storage_slice (em_storage e) (slice_to (Z.of_N (vocab_len (em_vocab e)))) = Ok m ->
    (k < n_words (em_vocab e))%nat -> unnormalized_row o e m (Z.of_nat k) = Ok (bo, row) ->
    bo <> BoNA /\ written_row o e k row /\ lenN row = em_dims e.
  Proof.
    intros B S K H. destruct (slice_words e m B S) as (W & _ & D & G).
    unfold unnormalized_row in H. rewrite G in H by easy. apply bind_ok in H as (r & Hr & H).
    assert (Lr : lenN r = em_dims e) by (eapply storage_get_len; [apply B|exact Hr]).
    destruct (em_norms e) as [nn|] eqn:EN.
    - apply bind_ok in H as (x & Hx & H). apply Ok_inj in H. injection H as <- <-.
      split; [easy|]. split; [|unfold lenN; now rewrite map_length].
      exists r. split; [easy|]. rewrite EN. exists x. split; [|easy].
      rewrite py_index_nat in Hx.
      destruct (nth_error (nm_vals nn) k); [congruence|easy].
    - apply Ok_inj in H. injection H as <- <-. split; [now apply row_bo_wf|].
      split; [|easy]. exists r. now rewrite EN.
  Qed.

  Lemma unnormalized_ok (e : embeddings F) m k : built_embeddings e -> valid_codes (em_storage e) ->
    storage_slice (em_storage e) (slice_to (Z.of_N (vocab_len (em_vocab e)))) = Ok m ->
    (k < n_words (em_vocab e))%nat -> exists x, unnormalized_row o e m (Z.of_nat k) = Ok x.
  Proof.
    intros B V S K. destruct (slice_words e m B S) as (W & _ & D & G).
    unfold unnormalized_row. rewrite G by easy. pose proof (words_rows e B) as L.
    destruct (storage_get_ok o (em_storage e) (Z.of_nat k)) as [r ->]; [apply B|easy|lia|]. cbn [bind].
    destruct (em_norms e) as [nn|] eqn:EN; [|eauto].
    pose proof (norms_len e nn B EN) as NL. destruct B as (_ & BV & _). rewrite (built_len _ BV) in NL.
    unfold lenN in NL. rewrite py_index_nat.
    destruct (nth_error (nm_vals nn) k) eqn:E; [cbn [bind]; eauto|].
    apply nth_error_None in E. unfold n_words in K. lia.
  Qed.

  Lemma written_row_unique e k r1 r2 : written_row o e k r1 -> written_row o e k r2 -> r1 = r2.
  Proof.
    intros (x & X1 & X2) (y & Y1 & Y2). assert (x = y) by congruence. subst y.
    destruct (em_norms e); [|congruence].
    destruct X2 as (z & Z1 & ->), Y2 as (z' & Z1' & ->). rewrite Z1 in Z1'. now injection Z1' as ->.
  Qed.
  Lemma written_rows_unique e r1 r2 : written_rows o e r1 -> written_rows o e r2 -> r1 = r2.
  Proof.
    intros [L1 H1] [L2 H2]. apply nth_error_ext'. intros k.
    destruct (nth_error r1 k) as [a|] eqn:A, (nth_error r2 k) as [b|] eqn:B; try easy.
    - f_equal. eapply written_row_unique; eauto.
    - apply nth_error_None in B. assert (k < length r1)%nat by (apply nth_error_Some; congruence). lia.
    - apply nth_error_None in A. assert (k < length r2)%nat by (apply nth_error_Some; congruence). lia.
  Qed.

  (* elements in a file *)
  Definition floats (row : list F) : bytes := concat (map (fun x => f32_le (enc c x)) row).
  Lemma floats_len row : lenN (floats row) = 4 * lenN row.
  Proof.
    unfold floats, lenN. induction row as [|x row IH]; simpl; [easy|]. unfold lenN in *. lia.
  Qed.
  Lemma serialize_bytes host bo row p : bo <> BoNA -> serialize host c bo row p = (floats row, Ok tt).
  Proof. intros H. unfold serialize. rewrite serialize_array_as_le_bytes by (now left). easy. Qed.

  Lemma of_mem_native host m : of_mem host BoNative (match host with Big => rev m | Little => m end) = m.
  Proof. destruct host; [easy|]. unfold of_mem. simpl. apply rev_involutive. Qed.

  (* what np.fromfile returns: as many elements as are there *)
  Lemma fromfile_native_eq host n d p :
    fromfile_native host c n d p =
    if ssize_limit <=? n * 4 then Err OverflowError
    else let bs := takeN (n * 4) (dropN p d) in
         Ok (map (fun m => dec c (f32_of_le m)) (split_elems (length bs / 4) 4 bs), p + lenN bs).
  Proof.
    unfold fromfile_native, rbind, fromfile, rret. change (N.of_nat 4) with 4.
    destruct (_ <=? _); [easy|]. cbv zeta. f_equal. f_equal.
    destruct host; [reflexivity|]. rewrite map_map. apply map_ext. intros m. f_equal. f_equal.
    apply (of_mem_native Big).
  Qed.
  Lemma fromfile_native_at host row d p : at_pos d p (floats row) -> lenN row * 4 < ssize_limit ->
    fromfile_native host c (lenN row) d p
    = Ok (map (fun x => dec c (enc c x)) row, p + lenN (floats row)).
  Proof.
    intros A L. rewrite fromfile_native_eq. destruct (N.leb_spec ssize_limit (lenN row * 4)); [lia|].
    apply at_pos_drop in A as [post ->]. cbv zeta.
    pose proof (floats_len row) as FL.
    replace (lenN row * 4) with (lenN (floats row)) by lia. rewrite takeN_app_l.
    f_equal. f_equal. rewrite <- (app_nil_r (floats row)).
    assert (E : (length (floats row ++ []) / 4 = length (map (fun x => f32_le (enc c x)) row))%nat).
    { rewrite app_nil_r, map_length. unfold lenN in FL.
      replace (length (floats row)) with (length row * 4)%nat by lia. now rewrite Nat.div_mul. }
    rewrite E. unfold floats. rewrite split_elems_concat.
    - rewrite map_map. apply map_ext. intros x. now rewrite f32_of_le_le.
    - rewrite Forall_map. apply Forall_forall. intros x _. apply f32_le_length.
  Qed.
  Lemma exact_row row : Forall (fun x => dec c (enc c x) = x) row -> map (fun x => dec c (enc c x)) row = row.
  Proof.
    intros H. rewrite <- (map_id row) at 2. apply map_ext_in. now apply Forall_forall.
  Qed.

  Lemma normalize_rows (rows : list (list F)) :
    normalize_matrix o rows = (map (fun r => map (fun x => fdiv o x (fnorm o r)) r) rows, map (fnorm o) rows).
  Proof.
    unfold normalize_matrix. f_equal. induction rows as [|r rows IH]; simpl; [easy|]. now rewrite IH.
  Qed.

  (* the result of the word2vec and text readers *)
  Lemma simple_result words cols rows : NoDup words -> length rows = length words ->
    exists e, (let (matrix, norms) := normalize_matrix o rows in
               v <- simple_vocab_new words ;;
               embeddings_new (SNd (NdA BoNative cols matrix)) v (Some (Norms BoNative norms)) None) = Ok e
      /\ simple_embeddings o e words cols rows.
  Proof.
    intros D L. rewrite normalize_rows. unfold simple_vocab_new. rewrite validate_NoDup by easy.
    cbn [bind]. unfold embeddings_new, vocab_upper_bound, norms_compat, vocab_len.
    cbn [storage_shape nd_rows nd_cols fst nm_vals vocab_index bind].
    unfold lenN. rewrite !map_length, enumerate_length, L, Z.add_0_r, Z.eqb_refl, N.leb_refl, N.eqb_refl.
    cbn [py_assert bind]. eexists. split; [reflexivity|]. unfold simple_embeddings. cbn.
    pose proof (enumerate_indexed words D). easy.
  Qed.
  Lemma decode_word_encode lossy w b : utf8_encode w = Ok b -> decode_word lossy b = Ok w.
  Proof.
    intros H. apply utf8_decode_encode in H. unfold decode_word. destruct lossy; [|easy].
    f_equal. apply decode_replace_strict. unfold utf8_decode in H. destruct (decode_strict b); [|easy].
    congruence.
  Qed.
End Shared.
