(* The exceptions that the loaders may raise. *)
From Coq Require Import Lia.
From Verif Require Import Py PyProofs Utf8 Utf8Proofs Utf8More SpecUtf8 IO IOProofs ReaderProofs FindProofs Spec Arr Subword Vocab
  Storage Chunks Embeddings PyText Compat SpecErrors.
Local Open Scope N_scope.
Local Open Scope list_scope.

Definition only (P : exn -> Prop) {A} (r : result A) : Prop := forall x, r = Err x -> P x.
Definition ronly (P : exn -> Prop) {A} (m : reader A) : Prop := forall d p x, m d p = Err x -> P x.

Lemma only_ok (P : exn -> Prop) {A} (a : A) : only P (Ok a).
Proof. discriminate. Qed.
Lemma only_err (P : exn -> Prop) {A} x : P x -> only P (@Err A x).
Proof. intros H y E. congruence. Qed.
Lemma only_bind (P : exn -> Prop) {A B} (m : result A) (k : A -> result B) :
  only P m -> (forall a, m = Ok a -> only P (k a)) -> only P (bind m k).
Proof.
  intros M K. destruct m as [a|x]; cbn [bind]; [now apply K|].
  intros y E. apply M. congruence.
Qed.
Lemma only_assert (P : exn -> Prop) c : P AssertionError -> only P (py_assert c).
Proof. intros H. unfold py_assert. destruct c; [apply only_ok|now apply only_err]. Qed.
Lemma only_mapM (P : exn -> Prop) {A B} (f : A -> result B) l : (forall a, In a l -> only P (f a)) -> only P (mapM f l).
Proof.
  induction l as [|a l IH]; intros H; cbn [mapM]; [apply only_ok|].
  apply only_bind; [apply H; now left|]. intros b _. apply only_bind; [|intros; apply only_ok].
  apply IH. intros c I. apply H. now right.
Qed.
Lemma only_foldM (P : exn -> Prop) {A B} (f : A -> B -> result A) l : (forall a b, In b l -> only P (f a b)) ->
  forall a, only P (foldM f l a).
Proof.
  induction l as [|b l IH]; intros H a; cbn [foldM]; [apply only_ok|].
  apply only_bind; [apply H; now left|]. intros c _. apply IH. intros. apply H. now right.
Qed.

Lemma ronly_ret (P : exn -> Prop) {A} (a : A) : ronly P (rret a).
Proof. discriminate. Qed.
Lemma ronly_fail (P : exn -> Prop) {A} x : P x -> ronly P (@rfail A x).
Proof. intros H d p y E. unfold rfail in E. congruence. Qed.
Lemma ronly_lift (P : exn -> Prop) {A} (r : result A) : only P r -> ronly P (rlift r).
Proof. intros H d p x E. apply H. unfold rlift in E. destruct r; congruence. Qed.
Lemma ronly_bind (P : exn -> Prop) {A B} (m : reader A) (k : A -> reader B) :
  ronly P m -> (forall a, ronly P (k a)) -> ronly P (rbind m k).
Proof.
  intros M K d p x E. unfold rbind in E. destruct (m d p) as [[a q]|y] eqn:D; [exact (K _ _ _ _ E)|].
  apply (M d p). congruence.
Qed.
Lemma ronly_repeat (P : exn -> Prop) {A} n (m : reader A) : ronly P m -> ronly P (rrepeat n m).
Proof.
  intros H. induction n as [|n IH]; cbn [rrepeat]; [apply ronly_ret|].
  apply ronly_bind; [easy|]. intros a. apply ronly_bind; [easy|]. intros l. apply ronly_ret.
Qed.
Lemma ronly_tell (P : exn -> Prop) : ronly P tell.
Proof. discriminate. Qed.
Lemma ronly_read (P : exn -> Prop) n : P OverflowError -> ronly P (read n).
Proof. intros H d p x. unfold read. destruct (_ <=? _); [|discriminate]. now intros [= <-]. Qed.
Lemma ronly_seek (P : exn -> Prop) n : P OverflowError -> ronly P (seek_fwd n).
Proof. intros H d p x. unfold seek_fwd. destruct (_ || _)%bool; [|discriminate]. now intros [= <-]. Qed.
Lemma ronly_fromfile (P : exn -> Prop) k n : P OverflowError -> ronly P (fromfile k n).
Proof. intros H d p x. unfold fromfile. destruct (_ <=? _); [|discriminate]. now intros [= <-]. Qed.

(* follow the structure of the program; exceptions are dealt with by the hypotheses *)
Ltac only_step :=
  match goal with
  | |- forall _, _ => intro
  | |- only _ (Ok _) => apply only_ok
  | |- only _ (Err _) => apply only_err; assumption
  | |- only _ (bind _ _) => apply only_bind
  | |- only _ (py_assert _) => apply only_assert; assumption
  | |- only _ (if ?c then _ else _) => destruct c
  | |- only _ (match ?c with _ => _ end) => destruct c
  | |- ronly _ (rret _) => apply ronly_ret
  | |- ronly _ (rfail _) => apply ronly_fail; assumption
  | |- ronly _ (rlift _) => apply ronly_lift
  | |- ronly _ (rbind _ _) => apply ronly_bind
  | |- ronly _ (rrepeat _ _) => apply ronly_repeat
  | |- ronly _ tell => apply ronly_tell
  | |- ronly _ (read _) => apply ronly_read; assumption
  | |- ronly _ (seek_fwd _) => apply ronly_seek; assumption
  | |- ronly _ (fromfile _ _) => apply ronly_fromfile; assumption
  | |- ronly _ (if ?c then _ else _) => destruct c
  | |- ronly _ (match ?c with _ => _ end) => destruct c
  end.

Section Files.
  Variable P : exn -> Prop.

  Lemma only_decode bs : P UnicodeDecodeError -> only P (utf8_decode bs).
  Proof.
    intros H. unfold utf8_decode. repeat only_step.
  Qed.
  Lemma only_chunk_id n : P ValueError -> only P (chunk_id_of n).
  Proof. intros H. unfold chunk_id_of. repeat only_step. Qed.
  Lemma only_type_id n : P ValueError -> only P (type_id_of n).
  Proof. intros H. unfold type_id_of. repeat only_step. Qed.
  Lemma only_reshape {A} r c (l : list A) : P ValueError -> only P (reshape2 r c l).
  Proof. intros H. unfold reshape2. repeat only_step. Qed.
  Lemma only_memmap k o n d : P ValueError -> only P (memmap k o n d).
  Proof. intros H. unfold memmap. repeat only_step. Qed.


  Section Binary.
    Hypotheses (HF : P FormatError) (HO : P OverflowError) (HV : P ValueError).
    Lemma ronly_binary fmt : ronly P (read_binary fmt).
    Proof. unfold read_binary. repeat only_step. Qed.
    Lemma ronly_required fmt : ronly P (read_required_binary fmt).
    Proof. unfold read_required_binary. repeat (apply ronly_binary || only_step). Qed.
    Lemma ronly_read1 f : ronly P (read1 f).
    Proof. unfold read1. repeat (apply ronly_required || only_step). Qed.
    Lemma ronly_read2 f g : ronly P (read2 f g).
    Proof. unfold read2. repeat (apply ronly_required || only_step). Qed.
    Lemma ronly_read4 f g h i : ronly P (read4 f g h i).
    Proof. unfold read4. repeat (apply ronly_required || only_step). Qed.
    Lemma ronly_chunk_header : ronly P read_chunk_header.
    Proof. unfold read_chunk_header. repeat (apply ronly_binary || apply only_chunk_id || only_step); assumption. Qed.
    Lemma ronly_required_chunk_header : ronly P read_required_chunk_header.
    Proof. unfold read_required_chunk_header. repeat (apply ronly_chunk_header || only_step). Qed.
    Lemma ronly_header : ronly P header_read_chunk.
    Proof. unfold header_read_chunk. repeat (apply ronly_read1 || apply ronly_required || only_step). Qed.

    Lemma runs_only wanted d p r : find_runs wanted d p r -> only P r.
    Proof.
      induction 1 as [p e H|p q H|p c n q H Hc|p c n q e H Hc Hs|p c n q u q' r H Hc Hs HR IH];
        try apply only_ok.
      - apply only_err. exact (ronly_chunk_header _ _ _ H).
      - apply only_err. exact (ronly_seek _ _ HO _ _ _ Hs).
      - exact IH.
    Qed.
    Lemma ronly_find wanted : ronly P (find_chunk wanted).
    Proof.
      intros d p x E. destruct (find_chunk_spec wanted d p) as [(e & H & F)|(ids & q & r & _ & R & F)].
      - rewrite F in E. injection E as <-. exact (ronly_header _ _ _ H).
      - rewrite F in E. exact (runs_only _ _ _ _ R _ E).
    Qed.
    Lemma runs_hit wanted d p r : find_runs wanted d p r -> forall c q, r = Ok (Some c, q) ->
      In c wanted /\ exists n p', read_chunk_header d p' = Ok (Some (c, n), q).
    Proof.
      induction 1 as [p e H|p q H|p c n q H Hc|p c n q e H Hc Hs|p c n q u q' r H Hc Hs HR IH];
        intros c0 q0 E; try discriminate.
      - injection E as <- <-. eauto.
      - now apply IH.
    Qed.
    Lemma find_hit wanted d p c q : find_chunk wanted d p = Ok (Some c, q) ->
      In c wanted /\ exists n p', read_chunk_header d p' = Ok (Some (c, n), q).
    Proof.
      intros E. destruct (find_chunk_spec wanted d p) as [(e & H & F)|(ids & q' & r & _ & R & F)].
      - rewrite F in E. discriminate.
      - rewrite F in E. exact (runs_hit _ _ _ _ R _ _ E).
    Qed.
    (* a loader of one chunk *)
    Lemma ronly_found {A} wanted (k : option chunk_id -> reader A) :
      (forall d p, only P (k None d p)) ->
      (forall c n d p q, In c wanted -> read_chunk_header d p = Ok (Some (c, n), q) -> only P (k (Some c) d q)) ->
      ronly P (rbind (find_chunk wanted) k).
    Proof.
      intros N K d p x E. unfold rbind in E. destruct (find_chunk wanted d p) as [[[c|] q]|e] eqn:F.
      - destruct (find_hit _ _ _ _ _ F) as (I & n & p' & H). exact (K _ _ _ _ _ I H _ E).
      - exact (N _ _ _ E).
      - injection E as <-. exact (ronly_find _ _ _ _ F).
    Qed.

    Section Vocabs.
      Hypotheses (HU : P UnicodeDecodeError) (HA : P AssertionError).
      Lemma ronly_item : ronly P read_item.
      Proof. unfold read_item. repeat (apply ronly_read1 || apply only_decode || only_step); assumption. Qed.
      Lemma ronly_items n : ronly P (read_items n).
      Proof. apply ronly_repeat, ronly_item. Qed.
      Lemma ronly_item_index : ronly P read_item_with_index.
      Proof. unfold read_item_with_index. repeat (apply ronly_read1 || apply ronly_item || only_step). Qed.
      Lemma only_validate ws : only P (validate_items_and_create_index ws).
      Proof. unfold validate_items_and_create_index. repeat only_step. Qed.
      Lemma only_uint32 z : only P (to_uint32 z).
      Proof. unfold to_uint32. repeat only_step. Qed.
      Lemma only_ff_new b mn mx : only P (ff_new b mn mx).
      Proof. unfold ff_new. repeat (apply only_uint32 || only_step). Qed.
      Lemma only_ft_new b mn mx : only P (ft_new b mn mx).
      Proof. unfold ft_new. repeat (apply only_uint32 || only_step). Qed.
      Lemma only_ex_new l mn mx ix : only P (ex_new l mn mx ix).
      Proof. unfold ex_new, py_max. repeat (apply only_uint32 || only_step). Qed.
      Lemma ronly_vocab c x : P x -> ronly P (vocab_read_chunk c x).
      Proof.
        intros X. unfold vocab_read_chunk, simple_vocab_read_chunk, bucket_vocab_read_chunk,
          fasttext_vocab_read_chunk, explicit_vocab_read_chunk, simple_vocab_new, bucket_vocab_new,
          fasttext_vocab_new, explicit_vocab_new, read_items_with_indices.
        repeat (apply ronly_read1 || apply ronly_read4 || apply ronly_items || apply ronly_item_index
                || apply only_ff_new || apply only_ft_new || apply only_ex_new || apply only_validate || only_step).
      Qed.
      Lemma ronly_load_vocab : ronly P load_vocab.
      Proof.
        apply ronly_found; [intros; now apply only_err|]. intros c n d p q _ _ x. now apply ronly_vocab.
      Qed.
      Lemma ronly_load_vocab_of c : ronly P (load_vocab_of c).
      Proof.
        apply ronly_found; [intros; now apply only_err|]. intros c' n d p q _ _ x. now apply ronly_vocab.
      Qed.
    End Vocabs.

    Lemma ronly_array h k n : ronly P (read_array_as_native h k n).
    Proof. unfold read_array_as_native. repeat only_step. Qed.
    Lemma ronly_norms h : ronly P (norms_read_chunk h).
    Proof.
      unfold norms_read_chunk. repeat (apply ronly_read2 || apply ronly_array || apply only_type_id || only_step);
        assumption.
    Qed.
    Lemma ronly_load_norms h : ronly P (load_norms h).
    Proof.
      apply ronly_found; [intros; now apply only_err|]. intros c n d p q [<-|[]] _ x. apply ronly_norms.
    Qed.

    Section Storages.
      Hypotheses (HA : P AssertionError) (HZ : P ZeroDivisionError).
      Lemma ronly_array_header : ronly P read_array_header.
      Proof.
        unfold read_array_header. repeat (apply ronly_read1 || apply ronly_read2 || apply only_type_id || only_step);
          assumption.
      Qed.
      Lemma ronly_quantized_header h : ronly P (read_quantized_header h).
      Proof.
        unfold read_quantized_header, pq_new.
        repeat (apply ronly_read1 || apply ronly_array || (apply only_reshape; assumption) || only_step).
      Qed.
      Lemma ronly_storage h mm c y : (h = Big /\ mm = true -> P NotImplementedError) -> P y ->
        ronly P (storage_read_chunk h mm c y).
      Proof.
        intros HN HY. unfold storage_read_chunk, ndarray_load, qarray_load.
        destruct c; try (apply ronly_fail; exact HY).
        - apply ronly_bind; [|intros; apply ronly_ret]. destruct mm.
          + unfold ndarray_mmap_chunk. destruct h; [|apply ronly_fail; now apply HN].
            apply ronly_bind; [apply ronly_array_header|]. intros [r k].
            apply ronly_bind; [apply ronly_tell|]. intros o. apply ronly_bind; [now apply ronly_seek|].
            intros _ d p. apply (ronly_lift P). repeat ((apply only_memmap; assumption) || only_step).
          + unfold ndarray_read_chunk.
            repeat (apply ronly_array_header || apply ronly_array || (apply only_reshape; assumption) || only_step).
        - apply ronly_bind; [|intros; apply ronly_ret]. destruct mm.
          + unfold qarray_mmap_chunk. destruct h; [|apply ronly_fail; now apply HN].
            apply ronly_bind; [apply ronly_quantized_header|]. intros [[z [r k]] ns].
            apply ronly_bind; [apply ronly_tell|]. intros o. apply ronly_bind; [now apply ronly_seek|].
            intros _ d p. apply (ronly_lift P). repeat ((apply only_memmap; assumption) || only_step).
          + unfold qarray_read_chunk.
            repeat (apply ronly_quantized_header || apply ronly_array || (apply only_reshape; assumption) || only_step).
      Qed.
      Lemma ronly_load_storage h mm : (h = Big /\ mm = true -> P NotImplementedError) ->
        ronly P (load_storage h mm).
      Proof.
        intros HN. apply ronly_found; [intros; now apply only_err|].
        intros c n d p q I _ x E.
        assert (S : storage_read_chunk h mm c NotImplementedError = storage_read_chunk h mm c ValueError).
        { destruct I as [<-|[<-|[]]]; reflexivity. }
        rewrite S in E. revert E. now apply ronly_storage.
      Qed.
      Lemma ronly_load_storage_of h mm c : (h = Big /\ mm = true -> P NotImplementedError) ->
        ronly P (load_storage_of h mm c).
      Proof.
        intros HN. apply ronly_found; [intros; now apply only_err|].
        intros c' n d p q I _ x. now apply ronly_storage.
      Qed.
    End Storages.

    Section Meta.
      Hypotheses (HU : P UnicodeDecodeError).
      Variable t : toml_lib.
      Hypothesis HT : forall x, toml_error t x -> P x.
      (* the header of the chunk is read again *)
      Lemma only_meta d p n q : read_chunk_header d p = Ok (Some (CMetadata, n), q) ->
        only P (metadata_read_chunk t d q).
      Proof.
        intros H x E. pose proof (read_chunk_header_some _ _ _ _ _ H) as (Q & _ & _ & _).
        unfold metadata_read_chunk, rbind at 1, seek_back in E.
        replace (12 <=? q) with true in E by (symmetry; apply N.leb_le; lia).
        replace (q - 12) with p in E by lia.
        unfold read_chunk_header in H. apply rbind_ok in H as ([vs|] & q1 & B & H); [|discriminate].
        destruct vs as [|i [|m [|]]]; try discriminate.
        apply rbind_ok in H as (c & q2 & C & H).
        unfold rlift in C. destruct (chunk_id_of i) as [c'|] eqn:CI; [|discriminate].
        injection C as -> <-. injection H as -> <- <-.
        assert (R : read2 fU32 fU64 d p = Ok ((i, m), q1)).
        { unfold read2, read_required_binary, rbind. rewrite B. reflexivity. }
        rewrite (rbind_step _ _ _ _ _ _ R) in E. cbv beta iota in E.
        unfold rbind at 1, rlift in E. rewrite CI in E.
        unfold rbind at 1 in E. rewrite chunk_id_eqb_refl in E. cbn [py_assert] in E.
        revert E. apply ronly_bind; [now apply ronly_read|]. intros b.
        destruct (negb _); [now apply ronly_fail|]. apply (ronly_lift P). apply only_bind; [now apply only_decode|].
        intros s _ y Y. apply HT. now exists s.
      Qed.
      Lemma ronly_load_metadata : ronly P (load_metadata t).
      Proof.
        apply ronly_found; [intros; now apply only_err|].
        intros c n d p q [<-|[]] H. exact (only_meta _ _ _ _ H).
      Qed.
      Lemma only_embeddings_new {F} (s : storage F) v n m : P AssertionError -> only P (embeddings_new s v n m).
      Proof. intros HA. unfold embeddings_new, norms_compat. repeat only_step. Qed.
      Lemma ronly_load_finalfusion h mm : P AssertionError -> P ZeroDivisionError ->
        (h = Big /\ mm = true -> P NotImplementedError) -> ronly P (load_finalfusion h t mm).
      Proof.
        intros HA HZ HN. unfold load_finalfusion.
        apply ronly_bind; [apply ronly_header|]. intros _ d p x E.
        unfold rbind at 1 in E. destruct (read_required_chunk_header d p) as [[[c n] q]|e] eqn:RH;
          [|injection E as <-; exact (ronly_required_chunk_header _ _ _ RH)].
        assert (H : read_chunk_header d p = Ok (Some (c, n), q)).
        { unfold read_required_chunk_header in RH. apply rbind_ok in RH as ([w|] & q1 & B & RH); [|discriminate].
          injection RH as -> ->. exact B. }
        cbn [fst] in E. unfold rbind at 1 in E.
        match type of E with context [match ?m d q with _ => _ end] => set (mr := m) in * end.
        assert (M : only P (mr d q)).
        { unfold mr. destruct c; try (intros y; apply ronly_ret).
          unfold rbind at 1. destruct (metadata_read_chunk t d q) as [[m q']|y] eqn:Y.
          - intros z. apply ronly_bind; [apply ronly_required_chunk_header|]. intros; apply ronly_ret.
          - intros z [= <-]. exact (only_meta _ _ _ _ H _ Y). }
        destruct (mr d q) as [[[meta cid] q']|y]; [|apply M; congruence].
        revert E. apply ronly_bind; [now apply ronly_vocab|]. intros v.
        apply ronly_bind; [apply ronly_required_chunk_header|]. intros h0.
        apply ronly_bind; [now apply ronly_storage|]. intros st.
        apply ronly_bind; [apply ronly_chunk_header|]. intros mb.
        apply ronly_bind; [|intros; apply ronly_lift; now apply only_embeddings_new].
        destruct mb as [[[] k]|]; try (now apply ronly_fail); [|apply ronly_ret].
        apply ronly_bind; [apply ronly_norms|]. intros; apply ronly_ret.
      Qed.
    End Meta.
  End Binary.
End Files.

(* ---------------------------------------------------------------- *)
(* The other formats                                                 *)

Lemma only_encode (P : exn -> Prop) s : Forall scalar s -> only P (utf8_encode s).
Proof. intros H x E. apply encode_error in E as (_ & E). contradiction. Qed.
Lemma split_runs_some sep b cur s : split_runs sep b cur s <> [].
Proof.
  revert b cur. induction s as [|c s IH]; intros b cur; cbn [split_runs]; [easy|].
  destruct (sep c); [|apply IH]. destruct b; [apply IH|discriminate].
Qed.

Lemma split_lines_cur s : forall cur, cur <> [] -> split_lines cur s <> [].
Proof.
  induction s as [|c s IH]; intros cur C; cbn [split_lines]; [now destruct cur|].
  destruct (c =? 10); [discriminate|]. now apply IH.
Qed.
Lemma split_lines_none s : split_lines [] s = [] -> s = [].
Proof.
  destruct s as [|c s]; [easy|]. cbn [split_lines]. destruct (c =? 10); [discriminate|].
  intros E. exfalso. revert E. now apply split_lines_cur.
Qed.
Lemma newlines_none s : newlines s = [] -> s = [].
Proof. destruct s as [|c s]; [easy|]. cbn [newlines]. now destruct (c =? 13). Qed.
Lemma replace_none bs : decode_replace bs = [] -> bs = [].
Proof.
  destruct bs as [|b bs]; [easy|]. cbn [decode_replace].
  destruct (_ <? _); [easy|]. destruct (_ <? _); [easy|].
  repeat match goal with |- context [if ?x then _ else _] => destruct x
         | |- context [match ?x with _ => _ end] => destruct x end; easy.
Qed.
Lemma text_lines_none lossy d : text_lines lossy d = Ok [] -> d = [].
Proof.
  unfold text_lines, decode_word. intros E. apply bind_ok in E as (s & D & E).
  assert (S : s = []) by (apply newlines_none, split_lines_none; congruence). subst s.
  destruct lossy.
  - apply replace_none. congruence.
  - apply utf8_encode_decode in D. cbn in D. congruence.
Qed.

Section Compat.
  Variable P : exn -> Prop.
  Context {F : Type} (o : fops F) (h : endian) (c : codec F).
  Hypotheses (HV : P ValueError) (HU : P UnicodeDecodeError) (HA : P AssertionError).

  Lemma only_word lossy bs : only P (decode_word lossy bs).
  Proof. unfold decode_word. destruct lossy; [apply only_ok|now apply only_decode]. Qed.
  Lemma only_int s : only P (py_int s).
  Proof. unfold py_int. repeat only_step. Qed.
  Lemma only_zeros r k : only P (np_zeros_shape r k).
  Proof. unfold np_zeros_shape. repeat only_step. Qed.
  Lemma only_assign k (l : list F) : only P (np_assign k l).
  Proof. unfold np_assign. repeat only_step. Qed.
  Lemma only_simple ws : only P (simple_vocab_new ws).
  Proof. unfold simple_vocab_new. repeat (apply only_validate || only_step); assumption. Qed.

  Lemma ronly_until x : P EOFError -> ronly P (read_until x).
  Proof. intros H d p y. unfold read_until. destruct (until _ _); [discriminate|]. now intros [= <-]. Qed.

  Lemma zeros_cols r k n m : np_zeros_shape r k = Ok (n, m) -> m * 4 < ssize_limit.
  Proof.
    unfold np_zeros_shape. destruct (_ || _)%bool; [discriminate|]. destruct (_ <=? _)%Z eqn:E; [discriminate|].
    intros [= <- <-]. apply Z.leb_gt in E. unfold ssize_limit. nia.
  Qed.
  Lemma ronly_native n : n * 4 < ssize_limit -> ronly P (fromfile_native h c n).
  Proof.
    intros L. unfold fromfile_native. apply ronly_bind; [|intros; apply ronly_ret].
    intros d p x. unfold fromfile. destruct (_ <=? _) eqn:E; [|discriminate]. apply N.leb_le in E. lia.
  Qed.

  Lemma ronly_word2vec lossy : P EOFError -> ronly P (load_word2vec o h c lossy).
  Proof.
    intros HE. unfold load_word2vec. apply ronly_bind.
    { unfold w2v_read_shape. apply ronly_bind; [discriminate|]. intros l.
      unfold ascii_decode. repeat (apply only_int || only_step). }
    intros [r k]. cbn [fst snd]. intros d p x E. unfold rbind at 1, rlift in E.
    destruct (np_zeros_shape r k) as [[n m]|y] eqn:Z; [|apply (only_zeros r k); congruence].
    apply zeros_cols in Z. revert E. apply ronly_bind.
    { apply ronly_repeat. unfold w2v_read_row, w2v_read_word.
      repeat ((apply ronly_until; assumption) || apply only_word || (apply ronly_native; assumption)
              || apply only_assign || only_step). }
    intros items. destruct (normalize_matrix _ _) as [mx ns]. apply ronly_lift.
    apply only_bind; [apply only_simple|]. intros. now apply only_embeddings_new.
  Qed.

  Section Text.
    Variable parse : str -> result F.
    Hypothesis HP : forall s, only P (parse s).
    Lemma only_text_row k l : only P (text_row parse k l).
    Proof.
      unfold text_row. destruct (re_split_ws (rstrip l)) as [|w parts] eqn:E.
      - exfalso. exact (split_runs_some _ _ _ _ E).
      - apply only_bind; [apply only_mapM; intros; apply HP|]. intros xs _.
        apply only_bind; [apply only_assign|]. intros; apply only_ok.
    Qed.
    Lemma only_text_lines r k ls : only P (load_text_lines o parse r k ls).
    Proof.
      unfold load_text_lines. apply only_bind; [apply only_zeros|]. intros [n m] _.
      apply only_bind; [apply only_mapM; intros; apply only_text_row|]. intros items _.
      destruct (normalize_matrix _ _) as [mx ns].
      apply only_bind; [apply only_simple|]. intros. now apply only_embeddings_new.
    Qed.
    Lemma only_load_text lossy d : only P (load_text o parse lossy d).
    Proof.
      unfold load_text, text_lines. apply only_bind; [apply only_bind; [apply only_word|intros; apply only_ok]|].
      intros ls _. destruct ls as [|l ls]; [now apply only_err|]. apply only_text_lines.
    Qed.
    Lemma only_load_text_dims lossy d : (d = [] -> P StopIteration) -> only P (load_text_dims o parse lossy d).
    Proof.
      intros HS. unfold load_text_dims.
      apply only_bind; [apply only_bind; [apply only_word|intros; apply only_ok]|].
      intros ls L. destruct ls as [|l ls]; [apply only_err, HS, (text_lines_none _ _ L)|].
      destruct (py_split l) as [|r [|k [|]]]; try (now apply only_err).
      apply only_bind; [apply only_int|]. intros n _. apply only_bind; [apply only_int|]. intros m _.
      apply only_text_lines.
    Qed.
  End Text.

  Section Fasttext.
    Hypotheses (HF : P FormatError) (HO : P OverflowError) (HE : P EOFError) (HI : P IndexError)
      (HN : P NotImplementedError).
    Lemma only_index {A} (l : list A) i : only P (py_index l i).
    Proof. unfold py_index. repeat only_step. Qed.
    Lemma ronly_ft_vocab b mn mx lossy : ronly P (read_ft_vocab b mn mx lossy).
    Proof.
      unfold read_ft_vocab, ft_read_word, fasttext_vocab_new.
      repeat ((apply ronly_required; assumption) || (apply ronly_read1; assumption)
              || (apply ronly_until; assumption) || apply only_word
              || (apply only_ft_new; assumption) || (apply only_validate; assumption) || only_step).
    Qed.
    Lemma decode_scalar lossy bs s : decode_word lossy bs = Ok s -> Forall scalar s.
    Proof.
      unfold decode_word. destruct lossy; [intros [= <-]; apply replace_scalar|].
      intros E. apply strict_iff, decode_replace_strict in E. subst s. apply replace_scalar.
    Qed.
    Lemma rrepeat_all {A} (Q : A -> Prop) n (m : reader A) : (forall d p a q, m d p = Ok (a, q) -> Q a) ->
      forall d p l q, rrepeat n m d p = Ok (l, q) -> Forall Q l.
    Proof.
      intros H. induction n as [|n IH]; intros d p l q E; cbn [rrepeat] in E; [injection E as <- <-; constructor|].
      apply rbind_ok in E as (a & q1 & E1 & E). apply rbind_ok in E as (l' & q2 & E2 & E).
      injection E as <- <-. constructor; [exact (H _ _ _ _ E1)|exact (IH _ _ _ _ E2)].
    Qed.
    Lemma ft_vocab_scalar b mn mx lossy d p v q : read_ft_vocab b mn mx lossy d p = Ok (v, q) ->
      exists ws index ix, v = VFastText ws index ix /\ Forall (Forall scalar) ws.
    Proof.
      unfold read_ft_vocab. intros E. apply rbind_ok in E as (l & q0 & _ & E).
      destruct l as [|n [|k [|nl [|]]]]; try discriminate.
      destruct (negb _); [discriminate|]. apply rbind_ok in E as (z & q1 & _ & E).
      apply rbind_ok in E as (pr & q2 & _ & E). destruct (_ <=? _)%Z; [discriminate|].
      apply rbind_ok in E as (ws & q3 & W & E). unfold rlift in E.
      destruct (ft_new b mn mx) as [ix|]; [|discriminate]. cbn [bind] in E. unfold fasttext_vocab_new in E.
      destruct (validate_items_and_create_index ws) as [index|]; [|discriminate]. cbn [bind] in E.
      exists ws, index, ix. split; [congruence|]. refine (rrepeat_all _ _ _ _ _ _ _ _ W).
      intros d' p' w r R. unfold ft_read_word in R. apply rbind_ok in R as (bs & r0 & _ & R).
      apply rbind_ok in R as (y & r1 & _ & R). apply rbind_ok in R as (ty & r2 & _ & R).
      destruct (negb _); [discriminate|]. unfold rlift in R.
      destruct (decode_word lossy bs) as [s|] eqn:D; [|discriminate]. injection R as <- <-.
      exact (decode_scalar _ _ _ D).
    Qed.
    Lemma only_setrow (m : list (list F)) i r : only P (py_setrow m i r).
    Proof. unfold py_setrow. repeat only_step. Qed.
    Lemma only_reshape_any r k (l : list F) : only P (reshape_any r k l).
    Proof. unfold reshape_any. repeat ((apply only_reshape; assumption) || only_step). Qed.
    Lemma In_enumerate {A} (l : list A) a i : In (a, i) (enumerate l) -> In a l.
    Proof.
      unfold enumerate. generalize 0%Z. induction l as [|b l IH]; intros z; cbn; [tauto|].
      intros [[= <- _]|H]; [now left|right; exact (IH _ H)].
    Qed.
    Lemma only_precompute ws index ix k (m : list (list F)) : Forall (Forall scalar) ws ->
      only P (precompute_word_vecs o (VFastText ws index ix) k m).
    Proof.
      intros S. unfold precompute_word_vecs. apply only_foldM. intros a [w i] I.
      apply In_enumerate in I. cbn [vocab_words] in I. rewrite Forall_forall in S. specialize (S _ I).
      apply only_bind.
      { cbn [vocab_subword_indices]. unfold ft_subword_indices. apply only_bind; [|intros; apply only_ok].
        apply only_encode. cbn. constructor; [left; lia|]. apply Forall_app. split; [exact S|].
        repeat constructor. }
      intros sub _. apply only_bind; [apply only_mapM; intros; apply only_index|]. intros rows _. apply only_setrow.
    Qed.
    Lemma ronly_count n : ronly P (fromfile_count h c n).
    Proof.
      unfold fromfile_count, fromfile_native. destruct (_ <? _)%Z; [intros d p; apply (ronly_bind P)|apply ronly_bind];
        try (now apply ronly_fromfile); intros; apply ronly_ret.
    Qed.
    Lemma ronly_fasttext lossy : ronly P (load_fasttext o h c lossy).
    Proof.
      unfold load_fasttext. apply ronly_bind.
      { unfold read_ft_header. repeat ((apply ronly_read2; assumption) || only_step). }
      intros _. apply ronly_bind.
      { unfold read_ft_cfg. apply ronly_bind; [now apply ronly_required|]. intros l.
        repeat (destruct l as [|? l]; try (now apply ronly_fail)).
        repeat (apply only_index || only_step). }
      intros cfg d p x E. unfold rbind at 1 in E.
      match type of E with context [read_ft_vocab ?b ?mn ?mx ?ls d p] =>
        destruct (read_ft_vocab b mn mx ls d p) as [[v q]|y] eqn:V end;
        [|injection E as <-; exact (ronly_ft_vocab _ _ _ _ _ _ _ V)].
      apply ft_vocab_scalar in V as (ws & index & ix & -> & S).
      revert E. apply ronly_bind.
      { unfold read_ft_storage. apply ronly_bind; [now apply ronly_read1|]. intros z.
        destruct (negb _); [now apply ronly_fail|]. apply ronly_bind; [now apply ronly_read2|]. intros [r k].
        apply ronly_bind; [apply ronly_count|]. intros a. apply ronly_lift.
        apply only_bind; [apply only_reshape_any|]. intros [[n m] mx] _.
        apply only_bind; [now apply only_precompute|]. intros; apply only_ok. }
      intros a. destruct (normalize_matrix _ _) as [mx ns]. apply ronly_lift. now apply only_embeddings_new.
    Qed.
  End Fasttext.
End Compat.

(* ---------------------------------------------------------------- *)
(* The closed lists                                                  *)

Lemma run_only (P : exn -> Prop) {A} (m : reader A) d x : ronly P m -> run_reader m d = Err x -> P x.
Proof.
  intros H E. unfold run_reader in E. destruct (m d 0) as [[a q]|y] eqn:M; [discriminate|].
  injection E as <-. exact (H _ _ _ M).
Qed.

Ltac listed := cbn; tauto.
Theorem errors_finalfusion h t mm d x : run_reader (load_finalfusion h t mm) d = Err x ->
  In x finalfusion_errors \/ toml_error t x \/ mmap_error h mm x.
Proof.
  apply (run_only (fun x => In x finalfusion_errors \/ toml_error t x \/ mmap_error h mm x)).
  apply ronly_load_finalfusion; try (left; listed); [tauto|]. intros [-> ->]. right. right. now split.
Qed.
Theorem errors_vocab d x :
  run_reader load_vocab d = Err x \/ (exists c, run_reader (load_vocab_of c) d = Err x) ->
  In x vocab_errors.
Proof.
  intros [E|(c & E)]; revert E; apply (run_only (fun x => In x vocab_errors));
    [apply ronly_load_vocab|apply ronly_load_vocab_of]; listed.
Qed.
Theorem errors_storage h mm d x :
  run_reader (load_storage h mm) d = Err x \/ (exists c, run_reader (load_storage_of h mm c) d = Err x) ->
  In x storage_errors \/ mmap_error h mm x.
Proof.
  intros [E|(c & E)]; revert E; apply (run_only (fun x => In x storage_errors \/ mmap_error h mm x));
    [apply ronly_load_storage|apply ronly_load_storage_of]; try (left; listed);
    intros [-> ->]; right; now split.
Qed.
Theorem errors_norms h d x : run_reader (load_norms h) d = Err x -> In x norms_errors.
Proof. apply (run_only (fun x => In x norms_errors)), ronly_load_norms; listed. Qed.
Theorem errors_metadata t d x : run_reader (load_metadata t) d = Err x ->
  In x metadata_errors \/ toml_error t x.
Proof.
  apply (run_only (fun x => In x metadata_errors \/ toml_error t x)), ronly_load_metadata;
    try (left; listed); tauto.
Qed.
Theorem errors_word2vec {F} (o : fops F) h c lossy d x :
  run_reader (load_word2vec o h c lossy) d = Err x -> In x word2vec_errors.
Proof. apply (run_only (fun x => In x word2vec_errors)), ronly_word2vec; listed. Qed.
Theorem errors_text {F} (o : fops F) parse lossy d x :
  load_text o parse lossy d = Err x -> In x text_errors \/ (exists s, parse s = Err x).
Proof.
  apply (only_load_text (fun x => In x text_errors \/ (exists s, parse s = Err x))); try (left; listed).
  intros s y E. right. now exists s.
Qed.
Theorem errors_text_dims {F} (o : fops F) parse lossy d x :
  load_text_dims o parse lossy d = Err x ->
  In x text_errors \/ (exists s, parse s = Err x) \/ (x = StopIteration /\ d = []).
Proof.
  apply (only_load_text_dims
    (fun x => In x text_errors \/ (exists s, parse s = Err x) \/ (x = StopIteration /\ d = [])));
    try (left; listed); [|tauto].
  intros s y E. right. left. now exists s.
Qed.
Theorem errors_fasttext {F} (o : fops F) h c lossy d x :
  run_reader (load_fasttext o h c lossy) d = Err x -> In x fasttext_errors.
Proof. apply (run_only (fun x => In x fasttext_errors)), ronly_fasttext; listed. Qed.
