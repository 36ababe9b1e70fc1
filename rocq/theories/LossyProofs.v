(* Lossy decoding in the loaders of the compatibility formats. *)
From Coq Require Import Lia.
From Verif Require Import Py PyProofs Utf8 Utf8Proofs Utf8More SpecUtf8 IO IOProofs Arr Subword Vocab
  Storage Chunks Embeddings PyText Compat SpecCompat.
Local Open Scope N_scope.
Local Open Scope list_scope.

(* the first outcome is the second one or a decoding error *)
Definition but_decode {A} (r r' : result A) : Prop := r = r' \/ r = Err UnicodeDecodeError.
Definition rbut_decode {A} (m m' : reader A) : Prop := forall d p, but_decode (m d p) (m' d p).
(* no decoding error *)
Definition decodes {A} (r : result A) : Prop := r <> Err UnicodeDecodeError.
Definition rdecodes {A} (m : reader A) : Prop := forall d p, decodes (m d p).

Lemma but_refl {A} (r : result A) : but_decode r r.
Proof. now left. Qed.
Lemma but_bind {A B} (m m' : result A) (k k' : A -> result B) :
  but_decode m m' -> (forall a, but_decode (k a) (k' a)) -> but_decode (bind m k) (bind m' k').
Proof.
  intros [->| ->] K; [|now right]. destruct m' as [a|x]; cbn [bind]; [apply K|now left].
Qed.
Lemma rbut_refl {A} (m : reader A) : rbut_decode m m.
Proof. intros d p. apply but_refl. Qed.
Lemma rbut_bind {A B} (m m' : reader A) (k k' : A -> reader B) :
  rbut_decode m m' -> (forall a, rbut_decode (k a) (k' a)) -> rbut_decode (rbind m k) (rbind m' k').
Proof.
  intros M K d p. unfold rbind. destruct (M d p) as [->| ->]; [|now right].
  destruct (m' d p) as [[a q]|x]; [apply K|now left].
Qed.
Lemma rbut_lift {A} (r r' : result A) : but_decode r r' -> rbut_decode (rlift r) (rlift r').
Proof. intros [->| ->] d p; [now left|]. now right. Qed.
Lemma rbut_repeat {A} n (m m' : reader A) : rbut_decode m m' -> rbut_decode (rrepeat n m) (rrepeat n m').
Proof.
  intros H. induction n as [|n IH]; simpl; [apply rbut_refl|].
  apply rbut_bind; [easy|]. intros a. apply rbut_bind; [easy|]. intros l. apply rbut_refl.
Qed.

Lemma decodes_bind {A B} (m : result A) (k : A -> result B) :
  decodes m -> (forall a, decodes (k a)) -> decodes (bind m k).
Proof. unfold decodes. intros M K. destruct m as [a|x]; cbn [bind]; [apply K|congruence]. Qed.
Lemma rdecodes_bind {A B} (m : reader A) (k : A -> reader B) :
  rdecodes m -> (forall a, rdecodes (k a)) -> rdecodes (rbind m k).
Proof.
  intros M K d p. specialize (M d p). unfold decodes, rbind in *.
  destruct (m d p) as [[a q]|x]; [apply K|congruence].
Qed.
Lemma rdecodes_lift {A} (r : result A) : decodes r -> rdecodes (rlift r).
Proof. unfold decodes. intros H d p. unfold rlift. destruct r; unfold decodes; congruence. Qed.
Lemma rdecodes_ret {A} (a : A) : rdecodes (rret a).
Proof. easy. Qed.
Lemma rdecodes_fail {A} x : x <> UnicodeDecodeError -> rdecodes (@rfail A x).
Proof. unfold rdecodes, decodes, rfail. congruence. Qed.
Lemma rdecodes_repeat {A} n (m : reader A) : rdecodes m -> rdecodes (rrepeat n m).
Proof.
  intros H. induction n as [|n IH]; simpl; [apply rdecodes_ret|].
  apply rdecodes_bind; [easy|]. intros a. apply rdecodes_bind; [easy|]. intros l. apply rdecodes_ret.
Qed.
Lemma decodes_mapM {A B} (f : A -> result B) l : (forall a, decodes (f a)) -> decodes (mapM f l).
Proof.
  intros H. induction l as [|a l IH]; [easy|]. cbn [mapM].
  apply decodes_bind; [easy|]. intros b. apply decodes_bind; [easy|]. easy.
Qed.
Lemma decodes_foldM {A B} (f : A -> B -> result A) l : (forall a b, decodes (f a b)) ->
  forall a, decodes (foldM f l a).
Proof.
  intros H. induction l as [|b l IH]; intros a; [easy|]. cbn [foldM].
  apply decodes_bind; [easy|]. easy.
Qed.
Lemma decodes_assert c : decodes (py_assert c).
Proof. now destruct c. Qed.
Lemma decodes_index {A} (l : list A) i : decodes (py_index l i).
Proof.
  unfold py_index. cbv zeta. destruct (in_range _ _ _); [|easy]. now destruct (nth_error _ _).
Qed.
Lemma decodes_setrow {F} (m : list (list F)) i r : decodes (py_setrow m i r).
Proof. unfold py_setrow. cbv zeta. now destruct (in_range _ _ _). Qed.
Lemma decodes_encode s : decodes (utf8_encode s).
Proof.
  induction s as [|c s IH]; [easy|]. cbn [utf8_encode]. destruct (encode_cp c); [|easy].
  now apply decodes_bind.
Qed.
Lemma decodes_zeros r c : decodes (np_zeros_shape r c).
Proof. unfold np_zeros_shape. destruct (_ || _)%bool; [easy|]. now destruct (_ <=? _)%Z. Qed.
Lemma decodes_assign {F} c (l : list F) : decodes (np_assign c l).
Proof. unfold np_assign. destruct (_ =? _); [easy|]. destruct l as [|x [|y l]]; easy. Qed.
Lemma decodes_simple ws : decodes (simple_vocab_new ws).
Proof.
  unfold simple_vocab_new, validate_items_and_create_index. cbv zeta.
  repeat (apply decodes_bind; [|intros; try easy]); auto using decodes_assert.
Qed.
Lemma decodes_fasttext ws ix : decodes (fasttext_vocab_new ws ix).
Proof.
  unfold fasttext_vocab_new, validate_items_and_create_index. cbv zeta.
  repeat (apply decodes_bind; [|intros; try easy]); auto using decodes_assert.
Qed.
Lemma decodes_uint32 z : decodes (to_uint32 z).
Proof. unfold to_uint32. now destruct (in_range _ _ _). Qed.
Lemma decodes_ft_new b mn mx : decodes (ft_new b mn mx).
Proof.
  unfold ft_new. repeat (apply decodes_bind; [auto using decodes_assert, decodes_uint32|intros]).
  easy.
Qed.
Lemma decodes_embeddings_new {F} (s : storage F) v n m : decodes (embeddings_new s v n m).
Proof.
  unfold embeddings_new, norms_compat. apply decodes_bind; [apply decodes_assert|]. intros _.
  apply decodes_bind; [|easy]. destruct n; [|easy].
  apply decodes_bind; [apply decodes_assert|]. intros _. apply decodes_assert.
Qed.
Lemma decodes_int s : decodes (py_int s).
Proof.
  unfold py_int. destruct s as [|c s]; [now destruct (int_digits _ _ _)|].
  destruct (c =? 45); [now destruct (int_digits _ _ _)|].
  destruct (c =? 43); now destruct (int_digits _ _ _).
Qed.

Lemma rdecodes_read n : rdecodes (read n).
Proof. intros d p. unfold read. now destruct (_ <=? _). Qed.
Lemma rdecodes_binary fmt : rdecodes (read_binary fmt).
Proof.
  apply rdecodes_bind; [apply rdecodes_read|]. intros b.
  destruct (Nat.eqb _ _); [apply rdecodes_ret|]. destruct (negb _); [now apply rdecodes_fail|apply rdecodes_ret].
Qed.
Lemma rdecodes_required fmt : rdecodes (read_required_binary fmt).
Proof.
  apply rdecodes_bind; [apply rdecodes_binary|]. intros [v|]; [apply rdecodes_ret|now apply rdecodes_fail].
Qed.
Lemma rdecodes_read1 f : rdecodes (read1 f).
Proof.
  apply rdecodes_bind; [apply rdecodes_required|].
  intros [|a [|]]; auto using rdecodes_ret; now apply rdecodes_fail.
Qed.
Lemma rdecodes_read2 f g : rdecodes (read2 f g).
Proof.
  apply rdecodes_bind; [apply rdecodes_required|].
  intros [|a [|b [|]]]; auto using rdecodes_ret; now apply rdecodes_fail.
Qed.
Lemma rdecodes_until x : rdecodes (read_until x).
Proof. intros d p. unfold read_until. now destruct (until _ _). Qed.
Lemma rdecodes_fromfile k n : rdecodes (fromfile k n).
Proof. intros d p. unfold fromfile. now destruct (_ <=? _). Qed.
Lemma rdecodes_native {F} h (c : codec F) n : rdecodes (fromfile_native h c n).
Proof. apply rdecodes_bind; [apply rdecodes_fromfile|]. intros l. apply rdecodes_ret. Qed.

Lemma but_word bs : but_decode (decode_word false bs) (decode_word true bs).
Proof.
  unfold decode_word, utf8_decode, but_decode. destruct (decode_strict bs) as [s|] eqn:E; [|now right].
  left. now rewrite (decode_replace_strict bs s E).
Qed.

Section Lossy.
  Context {F : Type} (o : fops F) (h : endian) (c : codec F).

  Lemma but_w2v : rbut_decode (load_word2vec o h c false) (load_word2vec o h c true).
  Proof.
    apply rbut_bind; [apply rbut_refl|]. intros shape. apply rbut_bind; [apply rbut_refl|].
    intros [rows cols]. apply rbut_bind; [|intros l; apply rbut_refl].
    apply rbut_repeat. apply rbut_bind; [|intros; apply rbut_refl].
    apply rbut_bind; [apply rbut_refl|]. intros w. apply rbut_lift, but_word.
  Qed.
  Lemma but_lines d : but_decode (text_lines false d) (text_lines true d).
  Proof. apply but_bind; [apply but_word|]. intros s. apply but_refl. Qed.
  Lemma but_text parse d : but_decode (load_text o parse false d) (load_text o parse true d).
  Proof. apply but_bind; [apply but_lines|]. intros l. apply but_refl. Qed.
  Lemma but_text_dims parse d : but_decode (load_text_dims o parse false d) (load_text_dims o parse true d).
  Proof. apply but_bind; [apply but_lines|]. intros l. apply but_refl. Qed.
  Lemma but_ft : rbut_decode (load_fasttext o h c false) (load_fasttext o h c true).
  Proof.
    apply rbut_bind; [apply rbut_refl|]. intros _. apply rbut_bind; [apply rbut_refl|]. intros cfg.
    apply rbut_bind; [|intros v; apply rbut_refl].
    apply rbut_bind; [apply rbut_refl|]. intros [|a [|b [|nl [|]]]]; try apply rbut_refl.
    destruct (negb _); [apply rbut_refl|]. apply rbut_bind; [apply rbut_refl|]. intros _.
    apply rbut_bind; [apply rbut_refl|]. intros pr. destruct (_ <=? _)%Z; [apply rbut_refl|].
    apply rbut_bind; [|intros ws; apply rbut_refl]. apply rbut_repeat.
    apply rbut_bind; [apply rbut_refl|]. intros w. apply rbut_bind; [apply rbut_refl|]. intros _.
    apply rbut_bind; [apply rbut_refl|]. intros et. destruct (negb _); [apply rbut_refl|].
    apply rbut_lift, but_word.
  Qed.

  Lemma run_but {A} (m m' : reader A) d : rbut_decode m m' -> but_decode (run_reader m d) (run_reader m' d).
  Proof.
    intros H. unfold run_reader. destruct (H d 0) as [->| ->]; [now left|now right].
  Qed.
  Theorem lossy_word2vec d : but_decode (run_reader (load_word2vec o h c false) d) (run_reader (load_word2vec o h c true) d).
  Proof. apply run_but, but_w2v. Qed.
  Theorem lossy_fasttext d : but_decode (run_reader (load_fasttext o h c false) d) (run_reader (load_fasttext o h c true) d).
  Proof. apply run_but, but_ft. Qed.

  (* ------------------------------------------------------------ *)
  Lemma decodes_subword v w : decodes (vocab_subword_indices v w true false).
  Proof.
    destruct v; try easy. cbn [vocab_subword_indices]. unfold ft_subword_indices. cbv zeta.
    apply decodes_bind; [apply decodes_encode|]. easy.
  Qed.
  Lemma rdecodes_ft : rdecodes (load_fasttext o h c true).
  Proof.
    apply rdecodes_bind.
    { apply rdecodes_bind; [apply rdecodes_read2|]. intros [a b].
      destruct (negb _); [now apply rdecodes_fail|]. destruct (negb _); [now apply rdecodes_fail|].
      apply rdecodes_ret. }
    intros _. apply rdecodes_bind.
    { apply rdecodes_bind; [apply rdecodes_required|]. intros l.
      do 13 (destruct l as [|? l]; [apply rdecodes_fail; discriminate|]).
      destruct l as [|? l]; [|apply rdecodes_fail; discriminate].
      apply rdecodes_bind; [apply rdecodes_lift, decodes_index|]. intros.
      apply rdecodes_bind; [apply rdecodes_lift, decodes_index|]. intros. apply rdecodes_ret. }
    intros cfg. apply rdecodes_bind.
    { apply rdecodes_bind; [apply rdecodes_required|]. intros [|a [|b [|nl [|]]]]; try now apply rdecodes_fail.
      destruct (negb _); [now apply rdecodes_fail|]. apply rdecodes_bind; [apply rdecodes_read1|]. intros _.
      apply rdecodes_bind; [apply rdecodes_read1|]. intros pr. destruct (_ <=? _)%Z; [now apply rdecodes_fail|].
      apply rdecodes_bind.
      - apply rdecodes_repeat. apply rdecodes_bind; [apply rdecodes_until|]. intros w.
        apply rdecodes_bind; [apply rdecodes_read1|]. intros _.
        apply rdecodes_bind; [apply rdecodes_read1|]. intros et. destruct (negb _); [now apply rdecodes_fail|].
        now apply rdecodes_lift.
      - intros ws. apply rdecodes_lift. apply decodes_bind; [apply decodes_ft_new|]. intros ix.
        apply decodes_fasttext. }
    intros v. apply rdecodes_bind.
    { apply rdecodes_bind; [apply rdecodes_read1|]. intros q. destruct (negb _); [now apply rdecodes_fail|].
      apply rdecodes_bind; [apply rdecodes_read2|]. intros [rows cols].
      apply rdecodes_bind.
      - unfold fromfile_count. destruct (_ <? _)%Z; [|apply rdecodes_native].
        intros d p. apply rdecodes_native.
      - intros l. apply rdecodes_lift.
        apply decodes_bind.
        + unfold reshape_any. cbv zeta. apply decodes_bind.
          { destruct (_ <? _)%Z; [|easy]. destruct (_ <=? _)%Z; [easy|]. now destruct (_ =? _)%Z. }
          intros r'. apply decodes_bind.
          { destruct (_ <? _)%Z; [|easy]. destruct (_ <=? _)%Z; [easy|]. now destruct (_ =? _)%Z. }
          intros c'. apply decodes_bind; [|easy]. unfold reshape2. now destruct (_ =? _).
        + intros [[nr nc] m]. apply decodes_bind; [|easy]. apply decodes_foldM. intros m' [w i].
          apply decodes_bind; [apply decodes_subword|]. intros sw. cbv zeta.
          apply decodes_bind; [apply decodes_mapM; intros; apply decodes_index|]. intros rs. apply decodes_setrow. }
    intros a. cbv zeta. destruct (normalize_matrix _ _) as [ws ns].
    apply rdecodes_lift, decodes_embeddings_new.
  Qed.
  Theorem lossy_fasttext_decodes d : decodes (run_reader (load_fasttext o h c true) d).
  Proof.
    pose proof (rdecodes_ft d 0) as H. unfold decodes, run_reader in *.
    destruct (load_fasttext _ _ _ _ _ _) as [[e q]|x]; congruence.
  Qed.

  Section Text.
  Variable parse : str -> result F.
  Hypothesis Hparse : forall s, parse s <> Err UnicodeDecodeError.
  Lemma decodes_text_lines rows cols l : decodes (load_text_lines o parse rows cols l).
  Proof.
    unfold load_text_lines. apply decodes_bind; [apply decodes_zeros|]. intros [nr nc].
    apply decodes_bind.
    - apply decodes_mapM. intros line. unfold text_row. destruct (re_split_ws _) as [|w ps]; [easy|].
      apply decodes_bind; [now apply decodes_mapM|]. intros xs.
      apply decodes_bind; [apply decodes_assign|]. easy.
    - intros items. cbv zeta. destruct (normalize_matrix _ _) as [ws ns].
      apply decodes_bind; [apply decodes_simple|]. intros v. apply decodes_embeddings_new.
  Qed.
  Theorem lossy_text_decodes d : decodes (load_text o parse true d).
  Proof.
    unfold load_text, text_lines. apply decodes_bind; [easy|]. intros [|l0 ls]; [easy|].
    cbv zeta. apply decodes_text_lines.
  Qed.
  Theorem lossy_text_dims_decodes d : decodes (load_text_dims o parse true d).
  Proof.
    unfold load_text_dims, text_lines. apply decodes_bind; [easy|]. intros [|l0 ls]; [easy|].
    destruct (py_split l0) as [|r [|k [|]]]; try easy.
    apply decodes_bind; [apply decodes_int|]. intros r'. apply decodes_bind; [apply decodes_int|]. intros k'.
    apply decodes_text_lines.
  Qed.
  End Text.

  Lemma first_line_ascii d : ~ Forall (fun b => Byte.to_N b < 128) (first_line d)
    <-> exists l b r, d = l ++ b :: r /\ ~ In x0a l /\ 128 <= Byte.to_N b.
  Proof.
    induction d as [|a d IH]; cbn [first_line].
    - split; [intros H; exfalso; apply H; constructor|]. intros (l & b & r & E & _). now destruct l.
    - destruct (Byte.eqb a x0a) eqn:E.
      + apply byte_eqb_eq in E. subst a. split.
        * intros H. exfalso. apply H. constructor; [now vm_compute|constructor].
        * intros (l & b & r & E & NL & B). exfalso. destruct l as [|b0 l]; cbn in E.
          -- injection E as <- _. now vm_compute in B.
          -- injection E as <- _. apply NL. now left.
      + assert (NE : a <> x0a). { intros ->. rewrite (proj2 (byte_eqb_eq x0a x0a) eq_refl) in E. discriminate. }
        split.
        * intros H. destruct (N.lt_ge_cases (Byte.to_N a) 128) as [LT|GE].
          -- destruct (proj1 IH) as (l & b & r & -> & NL & B); [intros X; apply H; now constructor|].
             exists (a :: l), b, r. split; [easy|]. split; [intros [?|?]; congruence|easy].
          -- now exists [], a, d.
        * intros (l & b & r & E2 & NL & B) H. inversion H as [|? ? H1 H2]; subst.
          destruct l as [|b0 l]; cbn in E2; injection E2 as <- ->; [lia|].
          apply (proj2 IH); [|easy]. exists l, b, r. split; [easy|]. split; [|easy]. intros I. apply NL. now right.
  Qed.
  Theorem lossy_word2vec_decodes d :
    run_reader (load_word2vec o h c true) d = Err UnicodeDecodeError
    <-> ~ Forall (fun b => Byte.to_N b < 128) (first_line d).
  Proof.
    assert (T : forall shape, rdecodes (
      dims <~ rlift (np_zeros_shape (fst shape) (snd shape)) ;;
      let '(rows, cols) := dims in
      items <~ rrepeat (N.to_nat rows) (w2v_read_row h c true cols) ;;
      let (matrix, norms) := normalize_matrix o (map snd items) in
      rlift (v <- simple_vocab_new (map fst items) ;;
           embeddings_new (SNd (NdA BoNative cols matrix)) v (Some (Norms BoNative norms)) None))).
    { intros shape. apply rdecodes_bind; [apply rdecodes_lift, decodes_zeros|]. intros [rows cols].
      apply rdecodes_bind.
      - apply rdecodes_repeat. apply rdecodes_bind.
        + apply rdecodes_bind; [apply rdecodes_until|]. intros w. now apply rdecodes_lift.
        + intros w. apply rdecodes_bind; [apply rdecodes_native|]. intros l.
          apply rdecodes_bind; [apply rdecodes_lift, decodes_assign|]. intros r. apply rdecodes_ret.
      - intros items. destruct (normalize_matrix _ _) as [ws ns]. apply rdecodes_lift.
        apply decodes_bind; [apply decodes_simple|]. intros v. apply decodes_embeddings_new. }
    assert (D0 : dropN 0 d = d) by (rewrite dropN_skipn; reflexivity).
    unfold run_reader, load_word2vec, w2v_read_shape, ascii_decode.
    unfold rbind at 1. unfold rbind at 1. unfold readline at 1. cbv zeta. rewrite D0.
    assert (FA : forallb (fun b => Byte.to_N b <? 128) (first_line d) = true
                 <-> Forall (fun b => Byte.to_N b < 128) (first_line d)).
    { rewrite forallb_forall, Forall_forall. split; intros H x Hx; apply N.ltb_lt, H, Hx. }
    destruct (forallb _ _) eqn:E.
    - split; [|intros N; exfalso; now apply N, FA].
      intros H _. revert H.
      unfold rlift at 1. cbn [bind].
      destruct (py_split _) as [|r [|k [|]]]; try discriminate.
      pose proof (decodes_int r) as Dr. destruct (py_int r) as [zr|x]; cbn [bind]; [|unfold decodes in Dr; congruence].
      pose proof (decodes_int k) as Dk. destruct (py_int k) as [zk|x]; cbn [bind]; [|unfold decodes in Dk; congruence].
      specialize (T (zr, zk) d (0 + lenN (first_line d))). unfold decodes in T. cbn [fst snd] in T |- *.
      destruct (rbind _ _ _ _) as [[e q]|x]; congruence.
    - split; [|easy]. intros _ H. apply FA in H. discriminate.
  Qed.
  Theorem lossy_word2vec_header d :
    run_reader (load_word2vec o h c true) d = Err UnicodeDecodeError
    <-> exists l b r, d = l ++ b :: r /\ ~ In x0a l /\ 128 <= Byte.to_N b.
  Proof. rewrite lossy_word2vec_decodes. apply first_line_ascii. Qed.
End Lossy.

(* a text file and its lossy decoding, encoded again *)
Theorem lossy_text_again {F} (o : fops F) parse d d' :
  utf8_encode (decode_replace d) = Ok d' ->
  load_text o parse true d = load_text o parse false d'
  /\ load_text_dims o parse true d = load_text_dims o parse false d'.
Proof.
  intros H. assert (E : text_lines true d = text_lines false d').
  { unfold text_lines, decode_word. cbn [bind].
    assert (U : utf8_decode d' = Ok (decode_replace d)) by (apply decode_iff, encode_iff; exact H).
    rewrite U. reflexivity. }
  unfold load_text, load_text_dims. now rewrite E.
Qed.
Theorem lossy_text_encodes d : exists d', utf8_encode (decode_replace d) = Ok d'.
Proof.
  destruct (utf8_encode (decode_replace d)) as [d'|x] eqn:E; [now exists d'|].
  apply encode_error in E as [_ E]. exfalso. apply E, replace_scalar.
Qed.
