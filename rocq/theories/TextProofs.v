(* Text files: what is written, and reading it back. *)
From Coq Require Import Lia.
From Verif Require Import Py PyProofs Utf8 Utf8Proofs Utf8More SpecUtf8 IO IOProofs ReaderProofs Arr
  Subword Vocab VocabProofs Storage Chunks Embeddings Spec SpecVocab SpecLookup VocabFacts
  ArrProofs StorageGet ExplicitEmb WordProofs PyText SpecCompat PyTextProofs Compat CompatProofs
  Word2vecProofs.
Local Open Scope N_scope.
Local Open Scope list_scope.

Lemma encodable_app a b : encodable a -> encodable b -> encodable (a ++ b).
Proof. intros [x X] [y Y]. exists (x ++ y). rewrite utf8_encode_app, X, Y. reflexivity. Qed.
Lemma encode_two a b x y : utf8_encode a = Ok x -> utf8_encode b = Ok y -> utf8_encode (a ++ b) = Ok (x ++ y).
Proof. intros A B. now rewrite utf8_encode_app, A, B. Qed.
Lemma encodable_ascii s : Forall (fun c => c < 128) s -> encodable s.
Proof. intros H. exists (map byte_of_N s). now apply encode_ascii_str. Qed.
Lemma encodable_concat l : Forall encodable l -> encodable (concat l).
Proof. induction 1; [now exists []|]. simpl. now apply encodable_app. Qed.

(* ---------------------------------------------------------------- *)
(* one line                                                          *)

Lemma last_default {A} (l : list A) a b : l <> [] -> last l a = last l b.
Proof.
  induction l as [|x l IH]; [easy|]. intros _. destruct l as [|y l]; [easy|]. now apply IH.
Qed.
Lemma in_last {A} (l : list A) a : l <> [] -> In (last l a) l.
Proof.
  induction l as [|x l IH]; [easy|]. intros _. destruct l as [|y l]; [now left|]. right. now apply IH.
Qed.
Lemma split_gaps : forall gaps comps w, length gaps = length comps -> Forall gap gaps ->
  Forall (fun x => x <> [] /\ no_ascii_space x) comps -> no_ascii_space w ->
  split_runs is_ascii_space false [] (w ++ concat (map2 (@app N) gaps comps)) = w :: comps
  /\ (w <> [] -> split_runs is_ascii_space true [] (w ++ concat (map2 (@app N) gaps comps)) = w :: comps).
Proof.
  induction gaps as [|g gaps IH]; intros [|x comps] w L G C W; try discriminate.
  - cbn [map2 concat]. rewrite app_nil_r. split.
    + destruct w as [|c w]; [reflexivity|]. now apply split_runs_last.
    + intros N. now apply split_runs_last.
  - inversion G as [|? ? [G1 G2] G']; inversion C as [|? ? [C1 C2] C']; subst.
    cbn [map2 concat]. rewrite <- !app_assoc.
    destruct (IH comps x ltac:(simpl in L; lia) G' C' C2) as [_ IH2]. specialize (IH2 C1). split.
    + rewrite split_runs_first by easy. now rewrite IH2.
    + intros N. rewrite split_runs_next by easy. now rewrite IH2.
Qed.

Lemma rev_last_concat gaps : forall comps w, length gaps = length comps ->
  Forall (fun x : str => x <> []) comps ->
  forall P : N -> Prop, match rev (last comps w) with [] => True | c :: _ => P c end ->
  match rev (w ++ concat (map2 (@app N) gaps comps)) with [] => True | c :: _ => P c end.
Proof.
  induction gaps as [|g gaps IH]; intros [|x comps] w L C P H; try discriminate.
  - cbn [map2 concat]. now rewrite app_nil_r.
  - cbn [map2 concat]. inversion C as [|? ? C1 C2]; subst.
    assert (H' : match rev (last comps x) with [] => True | c :: _ => P c end).
    { destruct comps as [|y comps]; [exact H|]. now rewrite (last_default (y :: comps) x w). }
    specialize (IH comps x ltac:(simpl in L; lia) C2 P H').
    rewrite <- app_assoc, app_assoc, rev_app_distr.
    assert (NE : rev (x ++ concat (map2 (@app N) gaps comps)) <> []).
    { intros E. apply (f_equal (@rev N)) in E. rewrite rev_involutive in E. now destruct x. }
    destruct (rev (x ++ concat (map2 (@app N) gaps comps))); [easy|]. exact IH.
Qed.

Lemma line_parts line w comps : text_line line w comps -> re_split_ws (rstrip line) = w :: comps.
Proof.
  intros (gaps & tail & L & -> & W & G & C & T & E).
  rewrite app_assoc, rstrip_spaces by easy. rewrite rstrip_id.
  - unfold re_split_ws. now apply split_gaps.
  - apply rev_last_concat; [easy| |easy]. eapply Forall_impl; [|exact C]. now intros x [H _].
Qed.

(* ---------------------------------------------------------------- *)
(* lines of a file                                                   *)

Lemma text_file_lines lossy lines d : text_file lines d ->
  text_lines lossy d = Ok (map (fun l => l ++ [10]) lines).
Proof.
  intros [E H]. unfold text_lines. rewrite (decode_word_encode lossy _ _ E). cbn [bind].
  rewrite newlines_id.
  - rewrite split_lines_concat; [easy|]. eapply Forall_impl; [|exact H]. now intros l [? _].
  - intros I. apply in_concat in I as (l & I & J). apply in_map_iff in I as (l' & <- & I).
    rewrite Forall_forall in H. apply H in I as [_ I]. apply in_app_iff in J as [J|[J|[]]]; [easy|discriminate].
Qed.

Lemma nth_error_firstn' {A} (l : list A) : forall n i,
  nth_error (firstn n l) i = if (i <? n)%nat then nth_error l i else None.
Proof.
  induction l as [|a l IH]; intros n i.
  - rewrite firstn_nil. destruct i, (_ <? n)%nat; easy.
  - destruct n; [destruct i; easy|]. destruct i; [easy|]. cbn [firstn nth_error]. rewrite IH. reflexivity.
Qed.

Section Text.
  Context {F : Type} (o : fops F) (show : F -> str) (parse : str -> result F).

  Definition out_line (sep w : str) (row : list F) : str := w ++ sep ++ join_space (map show row).

  Lemma join_space_gaps sep x xs : sep ++ join_space (x :: xs)
    = concat (map2 (@app N) (sep :: map (fun _ => [32]) xs) (x :: xs)).
  Proof.
    cbn [join_space map2 concat]. rewrite <- app_assoc. f_equal. f_equal.
    induction xs as [|y xs IH]; [reflexivity|]. cbn [map map2 concat]. now rewrite IH.
  Qed.

  Lemma text_row_line cols line w comps : text_line line w comps ->
    text_row parse cols line = (xs <- mapM parse comps ;; row <- np_assign cols xs ;; Ok (w, row)).
  Proof. intros H. unfold text_row. now rewrite (line_parts _ _ _ H). Qed.

  (* the lines that are written can be read *)
  Lemma out_line_ok sep w row : row <> [] -> gap sep -> no_ascii_space w ->
    Forall (fun x => show x <> [] /\ Forall (fun ch => is_space ch = false) (show x)) row ->
    text_line (out_line sep w row ++ [10]) w (map show row).
  Proof.
    intros N G W S. destruct row as [|x row]; [easy|].
    assert (S' : Forall (fun x : str => x <> [] /\ no_ascii_space x) (map show (x :: row))).
    { rewrite Forall_map. eapply Forall_impl; [|exact S]. intros y [H1 H2]. split; [easy|].
      eapply Forall_impl; [|exact H2]. intros ch H. cbv beta in *.
      destruct (is_ascii_space ch) eqn:E; [|easy]. apply ascii_is_space in E. congruence. }
    exists (sep :: map (fun _ => [32]) (map show row)), [10]. repeat split; try easy.
    - cbn [length]. now rewrite !map_length.
    - unfold out_line. cbn [map]. rewrite join_space_gaps. now rewrite <- app_assoc.
    - constructor; [easy|]. rewrite Forall_map. apply Forall_forall. intros; split; [easy|now repeat constructor].
    - now repeat constructor.
    - assert (L : Forall (fun y : str => match rev y with [] => True | c :: _ => is_space c = false end) (map show (x :: row))).
      { rewrite Forall_map. eapply Forall_impl; [|exact S]. intros y [_ H]. cbv beta in *. apply Forall_rev in H.
        destruct (rev (show y)); [easy|]. now inversion H. }
      rewrite Forall_forall in L. apply L. apply (in_last _ w). easy.
  Qed.

  (* ---------------------------------------------------------------- *)
  (* writing                                                           *)

  Definition text_put (e : embeddings F) (m : storage F) (sep : str) : str * Z -> writer := fun wi =>
    let (word, idx) := wi in
    wlet (unnormalized_row o e m idx) (fun row =>
      wstr word ;w; wstr sep ;w; wstr (join_space (map show (snd row))) ;w; wstr [10]).

  Lemma wstr_ok s p out : wstr s p = (out, Ok tt) <-> utf8_encode s = Ok out.
  Proof.
    unfold wstr, wlet, wfail, wbytes. destruct (utf8_encode s); split; intros H; try easy; congruence.
  Qed.
  Lemma wstr_seq s w p out : (wstr s ;w; w) p = (out, Ok tt) ->
    exists b1 b2, utf8_encode s = Ok b1 /\ w (p + lenN b1) = (b2, Ok tt) /\ out = b1 ++ b2.
  Proof.
    intros H. apply wseq_ok in H as (b1 & b2 & H1 & H2 & ->). apply wstr_ok in H1. eauto.
  Qed.

  Lemma text_rows_written e m sep : built_embeddings e ->
    storage_slice (em_storage e) (slice_to (Z.of_N (vocab_len (em_vocab e)))) = Ok m ->
    forall ws k p out, (k + length ws <= n_words (em_vocab e))%nat ->
    wfor (text_put e m sep) (enumerate_from (Z.of_nat k) ws) p = (out, Ok tt) ->
    exists rows, length rows = length ws
      /\ (forall j row, nth_error rows j = Some row -> written_row o e (k + j) row /\ lenN row = em_dims e)
      /\ utf8_encode (concat (map (fun l => l ++ [10]) (map2 (out_line sep) ws rows))) = Ok out.
  Proof.
    intros B HS. induction ws as [|w ws IH]; intros k p out L H.
    - cbn in H. injection H as <-. exists []. repeat split; try easy; destruct j; easy.
    - cbn [enumerate_from wfor] in H. apply wseq_ok in H as (b1 & b2 & H1 & H2 & ->).
      unfold text_put in H1. apply wlet_ok in H1 as ([bo row] & Hr & H1). cbn [snd] in H1. simpl length in L.
      destruct (unnormalized_spec o e m k bo row B HS ltac:(lia) Hr) as (Hbo & Wr & Lr).
      apply wstr_seq in H1 as (c1 & c2 & E1 & H1 & ->). apply wstr_seq in H1 as (c3 & c4 & E2 & H1 & ->).
      apply wstr_seq in H1 as (c5 & c6 & E3 & H1 & ->). apply wstr_ok in H1.
      replace (Z.of_nat k + 1)%Z with (Z.of_nat (S k)) in H2 by lia.
      destruct (IH (S k) _ _ ltac:(lia) H2) as (rows & LR & WR & E).
      exists (row :: rows). split; [simpl; lia|]. split.
      + intros [|j] r Hj; simpl in Hj.
        * injection Hj as <-. now rewrite Nat.add_0_r.
        * rewrite Nat.add_succ_r. now apply (WR j).
      + cbn [map2 map concat]. unfold out_line at 1. rewrite <- !app_assoc.
        rewrite utf8_encode_app, E1. cbn [bind]. rewrite utf8_encode_app, E2. cbn [bind].
        rewrite utf8_encode_app, E3. cbn [bind]. rewrite utf8_encode_app, H1. cbn [bind].
        rewrite E. reflexivity.
  Qed.

  Definition header_line (dims : bool) (e : embeddings F) : list str :=
    if dims then [str_of_N (N.of_nat (n_words (em_vocab e))) ++ [32] ++ str_of_N (em_dims e)] else [].

  Lemma write_text_ok e dims sep old out : built_embeddings e ->
    write_text_any o show e dims sep old = (Some out, Ok tt) ->
    exists rows, written_rows o e rows /\ Forall (fun r => lenN r = em_dims e) rows
      /\ utf8_encode (concat (map (fun l => l ++ [10])
            (header_line dims e ++ map2 (out_line sep) (vocab_words (em_vocab e)) rows))) = Ok out.
  Proof.
    intros B H. unfold write_text_any, before_open in H.
    destruct (storage_slice _ _) as [m|] eqn:S; [|easy]. unfold open_wb, run_writer in H.
    destruct (text_write o show e m dims sep 0) as [out' r] eqn:W. injection H as -> ->.
    destruct (slice_words o e m B S) as (_ & R & D & _).
    unfold text_write in W. pose proof (shape_rows m) as SR.
    destruct (storage_shape m) as [mr mc] eqn:SH. cbn [fst snd] in *. subst mr mc.
    apply wseq_ok in W as (b1 & b2 & E1 & W & ->).
    fold (text_put e m sep) in W. unfold enumerate in W.
    destruct (text_rows_written e m sep B S (vocab_words (em_vocab e)) 0 _ _ ltac:(unfold n_words; lia) W)
      as (rows & LR & WR & E).
    exists rows. split; [split; [easy|]|split].
    - intros k row Hk. now apply WR.
    - apply Forall_forall. intros r I. apply In_nth_error in I as [k Hk]. now apply WR in Hk.
    - rewrite map_app, concat_app.
      assert (HL : utf8_encode (concat (map (fun l => l ++ [10]) (header_line dims e))) = Ok b1).
      { destruct dims.
        - apply wstr_ok in E1. rewrite R in E1. cbn [header_line map concat]. rewrite app_nil_r, <- !app_assoc. exact E1.
        - apply wret_ok in E1 as ->. reflexivity. }
      now apply encode_two.
  Qed.

  Lemma wstr_step s w p b1 b2 : utf8_encode s = Ok b1 -> w (p + lenN b1) = (b2, Ok tt) ->
    (wstr s ;w; w) p = (b1 ++ b2, Ok tt).
  Proof. intros H1 H2. unfold wseq, wstr. rewrite H1. cbn [wlet]. unfold wbytes. now rewrite H2. Qed.

  Lemma encodable_join xs : Forall encodable xs -> encodable (join_space xs).
  Proof.
    destruct xs as [|x xs]; [now exists []|]. cbn [join_space]. intros H. inversion H; subst.
    apply encodable_app; [easy|]. apply encodable_concat. rewrite Forall_map.
    eapply Forall_impl; [|eassumption]. intros y Y. change (32 :: y) with ([32] ++ y).
    apply encodable_app; [|easy]. apply encodable_ascii. now repeat constructor.
  Qed.

  Lemma write_text_succeeds e dims sep old rows : built_embeddings e -> valid_codes (em_storage e) ->
    Forall encodable (vocab_words (em_vocab e)) -> encodable sep ->
    written_rows o e rows -> Forall (Forall (fun x => encodable (show x))) rows ->
    exists out, write_text_any o show e dims sep old = (Some out, Ok tt).
  Proof.
    intros B V E ES [LR WR] SH. unfold write_text_any, before_open.
    destruct (storage_slice_ok (em_storage e) (slice_to (Z.of_N (vocab_len (em_vocab e))))) as [m S];
      [apply B|easy|]. rewrite S. unfold open_wb, run_writer, text_write.
    assert (X : forall ws k p, (k + length ws <= n_words (em_vocab e))%nat -> Forall encodable ws ->
      exists out, wfor (text_put e m sep) (enumerate_from (Z.of_nat k) ws) p = (out, Ok tt)).
    { clear E. induction ws as [|w ws IH]; intros k p L E.
      - exists []. reflexivity.
      - inversion E as [|? ? [b Eb] Ew]; subst. simpl length in L. cbn [enumerate_from wfor].
        destruct (unnormalized_ok o e m k B V S ltac:(lia)) as [[bo row] Hr].
        destruct (unnormalized_spec o e m k bo row B S ltac:(lia) Hr) as (_ & Wr & _).
        assert (I : In row rows).
        { destruct (nth_error rows k) as [r|] eqn:N; [|apply nth_error_None in N; lia].
          pose proof (WR k r N) as W'. destruct Wr as (x & X1 & X2), W' as (y & Y1 & Y2).
          assert (x = y) by congruence. subst y.
          destruct (em_norms e).
          - destruct X2 as (z & Z1 & ->), Y2 as (z' & Z1' & ->). assert (z = z') by congruence. subst z'.
            now apply nth_error_In in N.
          - subst. now apply nth_error_In in N. }
        rewrite Forall_forall in SH. specialize (SH _ I).
        assert (EJ : encodable (join_space (map show row))).
        { apply encodable_join. rewrite Forall_map. exact SH. }
        destruct ES as [bs Es], EJ as [bj Ej].
        assert (P : forall p, exists out, text_put e m sep (w, Z.of_nat k) p = (out, Ok tt)).
        { intros p'. unfold text_put. rewrite Hr. cbn [wlet snd].
          eexists. eapply wstr_step; [exact Eb|]. eapply wstr_step; [exact Es|].
          eapply wstr_step; [exact Ej|]. apply wstr_ok. reflexivity. }
        destruct (P p) as [o1 O1]. destruct (IH (Datatypes.S k) (p + lenN o1) ltac:(lia) Ew) as [o2 O2].
        exists (o1 ++ o2). unfold wseq at 1. rewrite O1.
        replace (Z.of_nat k + 1)%Z with (Z.of_nat (Datatypes.S k)) by lia. now rewrite O2. }
    fold (text_put e m sep). unfold enumerate. destruct (storage_shape m) as [r k].
    assert (H1 : exists b1, (if dims then wstr (str_of_N r ++ [32] ++ str_of_N k ++ [10]) else wret) 0 = (b1, Ok tt)).
    { destruct dims; [|now exists []]. destruct (encodable_ascii _ (shape_line_ascii r k)) as [b Hb].
      exists b. now apply wstr_ok. }
    destruct H1 as [b1 H1].
    destruct (X (vocab_words (em_vocab e)) 0%nat (0 + lenN b1) ltac:(unfold n_words; lia) E) as [b2 H2].
    unfold wseq. change (Z.of_nat 0) with 0%Z in H2. rewrite H1, H2. eauto.
  Qed.

  (* ---------------------------------------------------------------- *)
  (* reading                                                           *)

  Lemma mapM_parse row : Forall (fun x => parse (show x) = Ok x) row -> mapM parse (map show row) = Ok row.
  Proof. induction 1 as [|x row H _ IH]; [reflexivity|]. cbn [map mapM]. rewrite H. cbn [bind]. now rewrite IH. Qed.

  Lemma rows_parse sep cols : gap sep -> 0 < cols -> forall ws rows, length rows = length ws ->
    Forall no_ascii_space ws -> Forall (fun r => lenN r = cols) rows -> text_exact show parse rows ->
    mapM (text_row parse cols) (map (fun l => l ++ [10]) (map2 (out_line sep) ws rows)) = Ok (combine ws rows).
  Proof.
    intros G C. induction ws as [|w ws IH]; intros [|row rows] L W CO X; try discriminate; [reflexivity|].
    inversion W; inversion CO; inversion X as [|? ? X1 X2]; subst. cbn [map2 map mapM combine].
    assert (N : row <> []) by (intros ->; now cbn in C).
    rewrite (text_row_line (lenN row) _ w (map show row)).
    - rewrite mapM_parse by (eapply Forall_impl; [|exact X1]; now intros x (_ & _ & _ & ?)).
      cbn [bind]. unfold np_assign. rewrite N.eqb_refl. cbn [bind].
      rewrite IH; [reflexivity|simpl in L; lia|easy|easy|easy].
    - apply out_line_ok; try easy. eapply Forall_impl; [|exact X1]. now intros x (? & ? & _).
  Qed.

  Lemma load_lines words rows cols lines : length rows = length words -> NoDup words ->
    array_fits (lenN words) cols -> length lines = length words ->
    mapM (text_row parse cols) lines = Ok (combine words rows) ->
    exists e, load_text_lines o parse (Z.of_N (lenN words)) (Z.of_N cols) lines = Ok e
      /\ simple_embeddings o e words cols rows.
  Proof.
    intros L ND AF LL M. unfold load_text_lines. rewrite zeros_fit by easy. cbn [bind].
    rewrite takeN_all by (unfold lenN; lia). rewrite M. cbn [bind].
    rewrite combine_length, L, Nat.min_id. unfold lenN. rewrite Nat2N.id, Nat.sub_diag. cbn [repeat].
    rewrite app_nil_r. rewrite combine_map_fst, combine_map_snd by easy.
    apply simple_result; easy.
  Qed.

  (* what the parts of a line do not contain *)
  Lemma no_nl_line sep w row : ~ In 10 sep -> ~ In 13 sep -> no_ascii_space w ->
    Forall (fun x => Forall (fun ch => is_space ch = false) (show x)) row ->
    ~ In 10 (out_line sep w row) /\ ~ In 13 (out_line sep w row).
  Proof.
    intros S1 S2 W X.
    assert (J : forall ch, is_space ch = true -> ch <> 32 -> ~ In ch (join_space (map show row))).
    { intros ch Hc N32 I. assert (Q : Forall (fun s => ~ In ch s) (map show row)).
      { rewrite Forall_map. eapply Forall_impl; [|exact X]. intros x Hx J. cbv beta in *.
        rewrite Forall_forall in Hx. apply Hx in J. congruence. }
      destruct (map show row) as [|y ys]; [easy|]. cbn [join_space] in I. inversion Q as [|? ? Q1 Q2]; subst.
      apply in_app_iff in I as [I|I]; [easy|]. apply in_concat in I as (z & I & K).
      apply in_map_iff in I as (z' & <- & I). destruct K as [K|K]; [congruence|].
      rewrite Forall_forall in Q2. now apply Q2 in I. }
    assert (WW : forall ch, is_ascii_space ch = true -> ~ In ch w).
    { intros ch Hc I. unfold no_ascii_space in W. rewrite Forall_forall in W. apply W in I. congruence. }
    unfold out_line. split; intros I; apply in_app_iff in I as [I|I].
    - now apply (WW 10) in I.
    - apply in_app_iff in I as [I|I]; [easy|]. now apply (J 10) in I.
    - now apply (WW 13) in I.
    - apply in_app_iff in I as [I|I]; [easy|]. now apply (J 13) in I.
  Qed.

  Lemma written_text_file e dims sep rows out : length rows = n_words (em_vocab e) ->
    ~ In 10 sep -> ~ In 13 sep -> Forall no_ascii_space (vocab_words (em_vocab e)) ->
    text_exact show parse rows ->
    utf8_encode (concat (map (fun l => l ++ [10])
            (header_line dims e ++ map2 (out_line sep) (vocab_words (em_vocab e)) rows))) = Ok out ->
    text_file (header_line dims e ++ map2 (out_line sep) (vocab_words (em_vocab e)) rows) out.
  Proof.
    intros L S1 S2 W X H. split; [easy|]. apply Forall_app. split.
    - destruct dims; [|constructor]. constructor; [|constructor].
      assert (D : forall n ch, In ch (str_of_N n) -> 48 <= ch <= 57).
      { intros n ch I. pose proof (str_of_N_digit n) as D. rewrite Forall_forall in D. now apply D in I. }
      split; intros I; apply in_app_iff in I as [I|[I|I]]; try discriminate; apply D in I; lia.
    - unfold n_words in L. clear H. revert rows L X.
      induction (vocab_words (em_vocab e)) as [|w ws IH]; intros [|row rows] L X; try discriminate; [constructor|].
      inversion W; inversion X as [|? ? X1 X2]; subst. cbn [map2]. constructor.
      + apply no_nl_line; try easy. eapply Forall_impl; [|exact X1]. now intros x (_ & ? & _).
      + apply IH; auto.
  Qed.

  Lemma text_dims_round_trip e sep old out rows : built_embeddings e -> 0 < em_dims e ->
    gap sep -> ~ In 10 sep -> ~ In 13 sep -> Forall no_ascii_space (vocab_words (em_vocab e)) ->
    array_fits (N.of_nat (n_words (em_vocab e))) (em_dims e) ->
    write_text_any o show e true sep old = (Some out, Ok tt) ->
    written_rows o e rows -> text_exact show parse rows ->
    forall lossy, exists e', load_text_dims o parse lossy out = Ok e'
       /\ simple_embeddings o e' (vocab_words (em_vocab e)) (em_dims e) rows.
  Proof.
    intros B D0 G S1 S2 W AF H WR0 X lossy.
    destruct (write_text_ok e true sep old out B H) as (rows' & WR & CO & E).
    assert (rows' = rows) as -> by (eapply written_rows_unique; eauto).
    pose proof (written_text_file e true sep rows out (proj1 WR) S1 S2 W X E) as TF.
    unfold load_text_dims. rewrite (text_file_lines lossy _ _ TF). cbn [bind header_line app map].
    match goal with |- context [py_split ?x] =>
      replace x with (shape_line (N.of_nat (n_words (em_vocab e))) (em_dims e))
        by (unfold shape_line; now rewrite <- !app_assoc) end.
    rewrite shape_split, !py_int_str. cbn [bind].
    apply load_lines; [apply WR|apply (built_indexed _ (proj1 (proj2 B)))|easy| |].
    - rewrite map_length. rewrite map2_length. rewrite (proj1 WR). apply Nat.min_id.
    - apply rows_parse; try easy. apply WR.
  Qed.

  Lemma text_round_trip e sep old out rows : built_embeddings e -> 0 < em_dims e ->
    (0 < n_words (em_vocab e))%nat ->
    gap sep -> ~ In 10 sep -> ~ In 13 sep -> Forall no_ascii_space (vocab_words (em_vocab e)) ->
    array_fits (N.of_nat (n_words (em_vocab e))) (em_dims e) ->
    write_text_any o show e false sep old = (Some out, Ok tt) ->
    written_rows o e rows -> text_exact show parse rows ->
    forall lossy, exists e', load_text o parse lossy out = Ok e'
       /\ simple_embeddings o e' (vocab_words (em_vocab e)) (em_dims e) rows.
  Proof.
    intros B D0 NW G S1 S2 W AF H WR0 X lossy.
    destruct (write_text_ok e false sep old out B H) as (rows' & WR & CO & E).
    assert (rows' = rows) as -> by (eapply written_rows_unique; eauto).
    pose proof (written_text_file e false sep rows out (proj1 WR) S1 S2 W X E) as TF.
    unfold load_text. rewrite (text_file_lines lossy _ _ TF). cbn [bind header_line app].
    pose proof (proj1 WR) as LR. unfold n_words in *.
    pose proof (built_indexed _ (proj1 (proj2 B))) as [ND _].
    remember (vocab_words (em_vocab e)) as words eqn:EW.
    destruct words as [|w ws]; [simpl in NW; lia|]. destruct rows as [|row rows]; [discriminate|].
    assert (LL : length (map2 (out_line sep) ws rows) = length ws).
    { rewrite map2_length. simpl in LR. rewrite Nat.min_l; lia. }
    cbn [map2 map].
    match goal with |- context [Z.of_nat (@length ?T (map ?f ?l))] =>
      assert (LM : @length T (map f l) = length ws) by (etransitivity; [apply map_length|exact LL]) end.
    rewrite LM.
    inversion X as [|? ? X1 X2]; subst. inversion CO as [|? ? C1 C2]; subst. inversion W as [|? ? W1 W2]; subst.
    assert (RN : row <> []) by (intros ->; unfold lenN in C1; simpl length in C1; lia).
    rewrite (line_parts _ w (map show row)).
    2: { apply out_line_ok; try easy. eapply Forall_impl; [|exact X1]. now intros x (? & ? & _). }
    cbn [tl]. rewrite map_length.
    replace (Z.of_nat (length row)) with (Z.of_N (em_dims e)) by (rewrite <- C1; unfold lenN; lia).
    replace (Z.of_nat (length ws) + 1)%Z with (Z.of_N (lenN (w :: ws))) by (unfold lenN; simpl length; lia).
    apply (load_lines (w :: ws) (row :: rows)); try easy.
    - cbn [length]. f_equal. exact LM.
    - apply (rows_parse sep (em_dims e) G D0 (w :: ws) (row :: rows)); easy.
  Qed.

  (* ---------------------------------------------------------------- *)
  (* lines with other numbers of components                            *)

  Lemma mapM_nth {A B} (f : A -> result B) l bs i a : mapM f l = Ok bs -> nth_error l i = Some a ->
    exists b, f a = Ok b /\ nth_error bs i = Some b.
  Proof.
    intros H N. pose proof (mapM_nth_ok f l bs H i) as E. rewrite N in E.
    destruct (f a) as [b|] eqn:Fa; [eauto|]. exfalso.
    clear E. revert bs i H N. induction l as [|x l IH]; intros bs i H N; [now destruct i|].
    cbn [mapM] in H. apply bind_ok in H as (y & Hy & H). apply bind_ok in H as (ys & Hys & _).
    destruct i; [simpl in N; congruence|]. eapply IH; eauto.
  Qed.
  Lemma mapM_len {A B} (f : A -> result B) l bs : mapM f l = Ok bs -> length bs = length l.
  Proof.
    revert bs. induction l as [|x l IH]; intros bs H; cbn [mapM] in H; [now injection H as <-|].
    apply bind_ok in H as (y & _ & H). apply bind_ok in H as (ys & Hys & H). injection H as <-.
    simpl. f_equal. now apply IH.
  Qed.

  Lemma text_lines_counts rows cols lines e : load_text_lines o parse rows cols lines = Ok e ->
    (Z.of_N (em_dims e) = cols)%Z
    /\ n_words (em_vocab e) = Nat.min (Z.to_nat rows) (length lines)
    /\ Z.of_nat (n_words (em_vocab e)) = rows
    /\ forall i line w comps, nth_error lines i = Some line -> (i < n_words (em_vocab e))%nat ->
       text_line line w comps ->
       nth_error (vocab_words (em_vocab e)) i = Some w
       /\ (lenN comps = em_dims e \/ lenN comps = 1).
  Proof.
    intros H. unfold load_text_lines in H. apply bind_ok in H as ([nr nc] & HZ & H).
    assert (NZ : nr = Z.to_N rows /\ nc = Z.to_N cols /\ (0 <= rows)%Z /\ (0 <= cols)%Z).
    { unfold np_zeros_shape in HZ. destruct (_ || _) eqn:E in HZ; [easy|]. destruct (_ <=? _)%Z in HZ; [easy|].
      apply orb_false_iff in E as [E1 E2]. apply Z.ltb_ge in E1, E2. injection HZ as <- <-. easy. }
    destruct NZ as (-> & -> & R0 & C0).
    apply bind_ok in H as (items & HI & H).
    rewrite normalize_rows in H. apply bind_ok in H as (v & HV & H).
    unfold simple_vocab_new in HV. apply bind_ok in HV as (idx & HX & HV). injection HV as <-.
    apply validate_ok in HX as [ND ->].
    assert (ER : lenN (map snd items ++ repeat (vzero o (N.to_nat (Z.to_N cols))) (N.to_nat (Z.to_N rows) - length items))
                 = lenN items).
    { unfold embeddings_new in H. apply bind_ok in H as (u & U & H). apply py_assert_ok, Z.eqb_eq in U.
      unfold vocab_upper_bound, vocab_len in U. cbn [storage_shape nd_rows fst vocab_index] in U.
      unfold lenN in U. rewrite enumerate_length, !map_length in U. unfold lenN. lia. }
    assert (EE : em_storage e = SNd (NdA BoNative (Z.to_N cols) (map (fun r => map (fun x => fdiv o x (fnorm o r)) r)
                   (map snd items ++ repeat (vzero o (N.to_nat (Z.to_N cols))) (N.to_nat (Z.to_N rows) - length items))))
                 /\ em_vocab e = VSimple (map fst items) (enumerate (map fst items))).
    { unfold embeddings_new in H. apply bind_ok in H as (u & _ & H). apply bind_ok in H as (u2 & _ & H).
      now injection H as <-. }
    destruct EE as [ES EV].
    assert (LI : length items = Nat.min (Z.to_nat rows) (length lines)).
    { apply mapM_len in HI. rewrite HI, takeN_firstn, firstn_length. lia. }
    unfold em_dims, n_words. rewrite ES, EV. cbn [storage_shape nd_cols snd vocab_words]. rewrite map_length.
    split; [lia|]. split; [easy|]. split.
    { unfold lenN in ER. rewrite app_length, repeat_length, map_length in ER. lia. }
    intros i line w comps N I T.
    assert (N' : nth_error (takeN (Z.to_N rows) lines) i = Some line).
    { rewrite takeN_firstn, nth_error_firstn'. destruct (Nat.ltb_spec i (N.to_nat (Z.to_N rows))); [easy|lia]. }
    destruct (mapM_nth _ _ _ _ _ HI N') as ([w' row] & TR & NI).
    rewrite (text_row_line _ _ _ _ T) in TR. apply bind_ok in TR as (xs & Hx & TR).
    apply bind_ok in TR as (r & Hr & TR). injection TR as <- <-.
    split; [rewrite nth_error_map, NI; easy|].
    apply mapM_len in Hx. unfold np_assign in Hr. unfold lenN in *. rewrite <- Hx.
    destruct (N.eqb_spec (N.of_nat (length xs)) (Z.to_N cols)); [now left|].
    destruct xs as [|y [|]]; try easy. now right.
  Qed.

  Lemma text_line_nl line w comps : text_line line w comps -> text_line (line ++ [10]) w comps.
  Proof.
    intros (gaps & tail & L & -> & H1 & H2 & H3 & H4 & H5). exists gaps, (tail ++ [10]).
    split; [easy|]. split; [now rewrite <- !app_assoc|]. repeat split; try easy.
    apply Forall_app. split; [easy|]. now repeat constructor.
  Qed.

  (* a file that is accepted has as many components on each line as on the first one, or one *)
  Lemma load_text_counts lossy lines d e first w0 comps0 : text_file (first :: lines) d ->
    text_line first w0 comps0 -> load_text o parse lossy d = Ok e ->
    em_dims e = lenN comps0 /\ n_words (em_vocab e) = S (length lines)
    /\ forall i line w comps, nth_error (first :: lines) i = Some line -> text_line line w comps ->
         nth_error (vocab_words (em_vocab e)) i = Some w /\ (lenN comps = em_dims e \/ lenN comps = 1).
  Proof.
    intros T TL H. unfold load_text in H. rewrite (text_file_lines lossy _ _ T) in H. cbn [bind map] in H.
    rewrite (line_parts _ _ _ (text_line_nl _ _ _ TL)) in H. cbn [tl] in H.
    apply text_lines_counts in H as (D & NW & R & L). rewrite map_length in *.
    cbn [length] in NW. rewrite map_length in NW. split; [unfold lenN; lia|]. split; [unfold str in *; lia|].
    intros i line w comps Hi HT. apply (L i (line ++ [10]) w comps).
    - change ((first ++ [10]) :: map (fun l => l ++ [10]) lines) with (map (fun l : str => l ++ [10]) (first :: lines)).
      exact (map_nth_error (fun l : str => l ++ [10]) _ _ Hi).
    - assert (i < S (length lines))%nat by (change (S (length lines)) with (length (first :: lines)); apply nth_error_Some; congruence). unfold str in *; lia.
    - now apply text_line_nl.
  Qed.
  Lemma load_text_dims_counts lossy lines d e first : text_file (first :: lines) d ->
    load_text_dims o parse lossy d = Ok e ->
    (n_words (em_vocab e) <= length lines)%nat
    /\ (exists r k, py_split (first ++ [10]) = [r; k] /\ py_int r = Ok (Z.of_nat (n_words (em_vocab e)))
                    /\ py_int k = Ok (Z.of_N (em_dims e)))
    /\ forall i line w comps, nth_error lines i = Some line -> (i < n_words (em_vocab e))%nat ->
         text_line line w comps ->
         nth_error (vocab_words (em_vocab e)) i = Some w /\ (lenN comps = em_dims e \/ lenN comps = 1).
  Proof.
    intros T H. unfold load_text_dims in H. rewrite (text_file_lines lossy _ _ T) in H. cbn [bind map] in H.
    destruct (py_split (first ++ [10])) as [|r [|k [|]]] eqn:SP; try discriminate.
    apply bind_ok in H as (rows & HR & H). apply bind_ok in H as (cols & HC & H).
    apply text_lines_counts in H as (D & NW & R & L). rewrite map_length in *.
    split; [unfold str in *; lia|]. split; [exists r, k; rewrite HR, HC, R, D; easy|].
    intros i line w comps Hi HN HT. apply (L i (line ++ [10]) w comps); [|easy|now apply text_line_nl].
    exact (map_nth_error (fun l : str => l ++ [10]) _ _ Hi).
  Qed.
End Text.
