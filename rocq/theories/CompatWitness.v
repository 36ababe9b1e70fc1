(* Concrete embeddings and files for the theorems about the word2vec, text and fastText formats. *)
From Coq Require Import Lia Reals Lra.
From Verif Require Import Py PyProofs Utf8 IO Arr ArrProofs Subword Vocab Storage Chunks Embeddings PyText Compat
  Spec SpecVocab SpecLookup SpecReal SpecCompat Samples VocabWitness LookupProofs LookupWitness
  CompatProofs Word2vecProofs TextProofs FasttextProofs FasttextReal.
Local Open Scope N_scope.
Local Open Scope list_scope.

(* ---------------------------------------------------------------- *)
(* whole numbers stored as such                                      *)

Definition zc : codec Z :=
  Codec (fun z => f32_of_le (signed_bytes 4 z)) (fun f => signed_val 4 (f32_le f)).
Definition z_show (z : Z) : str := str_of_N (Z.to_N z).

(* 32 and 10 are the bytes of a space and a line feed *)
Definition e_w2v : embeddings Z :=
  Emb (SNd (NdA BoBig 2 [[32; 10]; [3; -1]; [10; 0]]%Z)) v_simple (Some (Norms BoNative [1; 2; 3]%Z)) None.
Lemma e_w2v_built : built_embeddings e_w2v.
Proof. split; [simpl; wf|]. split; [apply v_simple_built|]. split; [|reflexivity]. intros n [= <-]. easy. Qed.
Definition rows_w2v : list (list Z) := [[32; 10]; [6; -2]; [30; 0]]%Z.
Lemma rows_w2v_written : written_rows z_ops e_w2v rows_w2v.
Proof.
  split; [reflexivity|]. intros [|[|[|k]]] row H; simpl in H; try (destruct k; discriminate);
    injection H as <-; eexists; (split; [reflexivity|]); simpl; eexists; split; reflexivity.
Qed.
Lemma e_w2v_words : Forall (fun w => ~ In 32 w) (vocab_words v_simple)
  /\ Forall no_edge_space (vocab_words v_simple) /\ Forall encodable (vocab_words v_simple)
  /\ Forall no_ascii_space (vocab_words v_simple) /\ Forall (fun w => ~ In 0 w) (vocab_words v_simple)
  /\ array_fits (N.of_nat (n_words v_simple)) 2.
Proof.
  cbn. repeat split; repeat constructor; simpl; try (intuition discriminate); try reflexivity; now eexists.
Qed.
Definition out_w2v : bytes :=
  match write_word2vec z_ops Little zc e_w2v None with (Some out, _) => out | _ => [] end.
Lemma out_w2v_ok old : write_word2vec z_ops Little zc e_w2v old = (Some out_w2v, Ok tt).
Proof. vm_compute. reflexivity. Qed.
Lemma out_w2v_reload : exists e', run_reader (load_word2vec z_ops Big zc false) out_w2v = Ok e'
  /\ simple_embeddings z_ops e' (vocab_words v_simple) 2 rows_w2v.
Proof.
  destruct (word2vec_round_trip z_ops Little zc e_w2v None out_w2v) as (rows & WR & H).
  - apply e_w2v_built.
  - apply e_w2v_words.
  - apply e_w2v_words.
  - apply e_w2v_words.
  - apply out_w2v_ok.
  - destruct (H Big false) as (e' & L & S). exists e'. split; [exact L|].
    rewrite (written_rows_unique z_ops e_w2v _ _ WR rows_w2v_written) in S.
    change (in_file zc rows_w2v) with rows_w2v in S. exact S.
Qed.

(* the file without its last 5 bytes: one float of the last row, which fills both columns *)
Lemma out_w2v_cut : exists e',
  run_reader (load_word2vec z_ops Little zc false) (takeN (lenN out_w2v - 5) out_w2v) = Ok e'
  /\ em_vocab e' = v_simple.
Proof. eexists. split; vm_compute; reflexivity. Qed.

(* Arithmetic in which, as with floats, 0 / 0 is not a number (None), nor is any result
   computed from it. *)
Definition lift2 (f : Z -> Z -> Z) (a b : option Z) : option Z :=
  match a, b with Some x, Some y => Some (f x y) | _, _ => None end.
Definition nan_ops : fops (option Z) :=
  FOps (option Z) (Some 0%Z) (lift2 Z.add) (lift2 Z.sub) (lift2 Z.mul)
    (fun a b => match b with Some 0%Z => None | _ => lift2 Z.div a b end) Some
    (fun a b => match a, b with Some x, Some y => Z.leb x y | _, _ => false end)
    (fun a b => fold_right (lift2 Z.add) (Some 0%Z) (map2 (lift2 Z.mul) a b))
    (fun a => fold_right (lift2 Z.add) (Some 0%Z) (map (option_map Z.abs) a)).
Definition nc : codec (option Z) :=
  Codec (fun x => match x with Some z => enc zc z | None => enc zc (-1)%Z end)
        (fun f => let z := dec zc f in if (z <? 0)%Z then None else Some z).
Definition e_zero : embeddings (option Z) :=
  Emb (SNd (NdA BoNative 2 [[Some 0; Some 0]; [Some 3; Some 0]; [Some 0; Some 2]]%Z)) v_simple None None.
Lemma e_zero_built : built_embeddings e_zero.
Proof. split; [simpl; wf|]. split; [apply v_simple_built|]. split; [|reflexivity]. easy. Qed.
Lemma e_zero_reload : exists out e', write_word2vec nan_ops Little nc e_zero None = (Some out, Ok tt)
  /\ run_reader (load_word2vec nan_ops Little nc false) out = Ok e'
  /\ em_storage e' = SNd (NdA BoNative 2 [[None; None]; [Some 1; Some 0]; [Some 0; Some 1]]%Z)
  /\ em_norms e' = Some (Norms BoNative [Some 0; Some 3; Some 2]%Z).
Proof.
  eexists. eexists. split; [vm_compute; reflexivity|]. split; [vm_compute; reflexivity|]. split; reflexivity.
Qed.

(* ---------------------------------------------------------------- *)
(* text                                                              *)

Definition e_text : embeddings Z :=
  Emb (SNd (NdA BoNative 2 [[32; 10]; [3; 1]; [10; 0]]%Z)) v_simple (Some (Norms BoNative [1; 2; 3]%Z)) None.
Lemma e_text_built : built_embeddings e_text.
Proof. split; [simpl; wf|]. split; [apply v_simple_built|]. split; [|reflexivity]. intros n [= <-]. easy. Qed.
Definition rows_text : list (list Z) := [[32; 10]; [6; 2]; [30; 0]]%Z.
Lemma rows_text_written : written_rows z_ops e_text rows_text.
Proof.
  split; [reflexivity|]. intros [|[|[|k]]] row H; simpl in H; try (destruct k; discriminate);
    injection H as <-; eexists; (split; [reflexivity|]); simpl; eexists; split; reflexivity.
Qed.
Lemma rows_text_exact : text_exact z_show py_int rows_text.
Proof.
  unfold text_exact, rows_text. repeat (apply Forall_cons || apply Forall_nil);
    (split; [discriminate|]; split; [repeat constructor|]; split; [eexists; reflexivity|reflexivity]).
Qed.
Definition out_text (dims : bool) : bytes :=
  match write_text_any z_ops z_show e_text dims [32] None with (Some out, _) => out | _ => [] end.
Lemma out_text_ok dims old : write_text_any z_ops z_show e_text dims [32] old = (Some (out_text dims), Ok tt).
Proof. destruct dims; vm_compute; reflexivity. Qed.

(* "a 1 2\nb 3\n": the one component of b fills both columns *)
Definition short_lines : list str := [[97; 32; 49; 32; 50]; [98; 32; 51]].
Definition short_text : bytes := [x61; x20; x31; x20; x32; x0a; x62; x20; x33; x0a].
Lemma short_text_file : text_file short_lines short_text.
Proof.
  split; [vm_compute; reflexivity|].
  repeat constructor; simpl; intuition discriminate.
Qed.
Lemma short_text_lines :
  text_line [97; 32; 49; 32; 50] [97] [[49]; [50]] /\ text_line [98; 32; 51] [98] [[51]].
Proof.
  split.
  - exists [[32]; [32]], []. repeat split; repeat constructor; easy.
  - exists [[32]], []. repeat split; repeat constructor; easy.
Qed.
Lemma short_text_loads : exists e, load_text z_ops1 py_int false short_text = Ok e /\ em_dims e = 2
  /\ em_storage e = SNd (NdA BoNative 2 [[1; 2]; [3; 3]]%Z).
Proof. eexists. split; [|split]; vm_compute; reflexivity. Qed.

(* an empty vocabulary: the file without dimensions cannot be read *)
Definition e_none : embeddings Z := Emb (SNd (NdA BoNative 2 [])) (VSimple [] []) None None.
Lemma e_none_built : built_embeddings e_none.
Proof.
  split; [simpl; wf|]. split; [eapply BuiltSimple with (ws := []); reflexivity|]. split; [|reflexivity]. easy.
Qed.
Lemma e_none_text lossy old : write_text_any z_ops z_show e_none false [32] old = (Some [], Ok tt)
  /\ load_text z_ops py_int lossy [] = Err ValueError.
Proof. split; [reflexivity|]. destruct lossy; reflexivity. Qed.

(* ---------------------------------------------------------------- *)
(* fastText                                                          *)

(* word "cé" with the n-grams "<cé", "cé>", "<cé>", 3 buckets *)
Definition e_ftz : embeddings Z :=
  Emb (SNd (NdA BoBig 2 [[1; 0]; [1; 2]; [3; 5]; [0; 4]]%Z)) v_fasttext (Some (Norms BoNative [2]%Z)) None.
Lemma e_ftz_built : built_embeddings e_ftz.
Proof. split; [simpl; wf|]. split; [apply v_fasttext_built|]. split; [|reflexivity]. intros n [= <-]. easy. Qed.
Definition out_ft : bytes :=
  match write_fasttext z_ops1 Little zc e_ftz None with (Some out, _) => out | _ => [] end.
Lemma out_ft_ok old : write_fasttext z_ops1 Little zc e_ftz old = (Some out_ft, Ok tt).
Proof. vm_compute. reflexivity. Qed.
Lemma e_ft_words : Forall (fun w => ~ In 0 w) (vocab_words v_fasttext) /\ array_fits 4 2
  /\ Forall encodable (vocab_words v_fasttext).
Proof. repeat split; repeat constructor; simpl; try (intuition discriminate); now eexists. Qed.

(* a writer that is rejected empties the file *)
Lemma ft_rejects {F} (o : fops F) host c (e : embeddings F) old :
  (forall ws idx ix, em_vocab e <> VFastText ws idx ix) ->
  write_fasttext o host c e old = (Some [], Err ValueError).
Proof.
  intros H. unfold write_fasttext, open_wb, run_writer, ft_write.
  destruct (em_vocab e) as [| |ws idx ix|] eqn:V; try reflexivity. now destruct (H ws idx ix).
Qed.
Lemma header_rejects w old : chunk_write_file CHeader w old = (Some [], Err TypeError).
Proof. reflexivity. Qed.
(* a word that cannot be encoded: the header has been written by then *)
Definition e_bad : embeddings f32 :=
  Emb (SNd (NdA BoNative 1 [[f1]])) (VSimple [[55296]] [([55296], 0%Z)]) None None.
Lemma e_bad_built : built_embeddings e_bad.
Proof.
  split; [simpl; wf|]. split; [eapply BuiltSimple with (ws := [[55296]]); reflexivity|].
  split; [|reflexivity]. easy.
Qed.
Lemma e_bad_rejected : exists out, em_write_file Little s_toml e_bad (Some [x01]) = (Some out, Err UnicodeEncodeError)
  /\ out <> [x01].
Proof. eexists. split; [vm_compute; reflexivity|discriminate]. Qed.

Lemma writers_ignore_old {F} (o : fops F) host c show (e : embeddings F) old1 old2 : built_embeddings e ->
  write_word2vec o host c e old1 = write_word2vec o host c e old2
  /\ (forall dims sep, write_text_any o show e dims sep old1 = write_text_any o show e dims sep old2)
  /\ write_fasttext o host c e old1 = write_fasttext o host c e old2.
Proof.
  intros (W & _). unfold write_word2vec, write_text_any, before_open.
  destruct (StorageGet.storage_slice_ok (em_storage e) (slice_to (Z.of_N (vocab_len (em_vocab e)))) W) as [m ->]; easy.
Qed.

(* ---------------------------------------------------------------- *)
(* real numbers; a codec that knows finitely many of them            *)

Fixpoint r_index (x : R) (l : list R) : nat :=
  match l with [] => O | y :: l' => if Req_EM_T x y then O else S (r_index x l') end.
Definition tc (l : list R) : codec R :=
  Codec (fun x => F32 (byte_of_N (N.of_nat (r_index x l))) x00 x00 x00)
        (fun f => nth (N.to_nat (Byte.to_N (f32_0 f))) l 0%R).
Lemma r_index_nth x l : In x l -> nth (r_index x l) l 0%R = x /\ (r_index x l < length l)%nat.
Proof.
  induction l as [|y l IH]; intros I; [easy|]. simpl. destruct (Req_EM_T x y) as [->|NE]; [split; [easy|lia]|].
  destruct I as [->|I]; [easy|]. destruct (IH I). simpl. split; [easy|lia].
Qed.
Lemma tc_exact l x : In x l -> (length l < 256)%nat -> dec (tc l) (enc (tc l) x) = x.
Proof.
  intros I L. destruct (r_index_nth x l I) as [E B]. cbn [tc enc dec f32_0].
  rewrite to_N_byte_of_N, N.mod_small by lia. now rewrite Nat2N.id.
Qed.

Lemma fasttext_vector_unique {F} (o : fops F) (e : embeddings F) k w v1 v2 :
  fasttext_vector o e k w v1 -> fasttext_vector o e k w v2 -> v1 = v2.
Proof.
  intros (sw & row & sub & s & A1 & A2 & A3 & A4 & ->) (sw' & row' & sub' & s' & B1 & B2 & B3 & B4 & ->).
  rewrite A1 in B1. apply Ok_inj in B1. subst sw'. rewrite A2 in B2. apply Ok_inj in B2. subst row'.
  assert (sub' = sub) as ->.
  { unfold rows_at in *. clear -A3 B3. revert sub' B3. induction A3 as [|i r l rows Hi Hr IH]; intros rows' H.
    - now inversion H.
    - inversion H as [|i' r' l' t' H1 H2]; subst. rewrite Hi in H1. injection H1 as <-. f_equal. auto. }
  now rewrite (is_sum_unique o _ _ _ _ A4 B4).
Qed.

(* word2vec *)
Lemma e_real_w2v : exists rows, written_rows r_ops e_real rows /\ exact_in_file (tc [1; 2; 3; 4]%R) rows
  /\ Forall (Exists (fun a => a <> 0%R)) rows.
Proof.
  exists [[1 * 1; 2 * 1]; [3 * 1; 4 * 1]]%R. split; [split; [reflexivity|]|split].
  - intros [|[|k]] row H; simpl in H; try (destruct k; discriminate); injection H as <-;
      eexists; (split; [reflexivity|]); simpl; eexists; split; reflexivity.
  - repeat (apply Forall_cons || apply Forall_nil); apply tc_exact; simpl; try lia; rewrite Rmult_1_r; auto.
  - repeat (apply Forall_cons || apply Forall_nil); apply Exists_cons_hd; lra.
Qed.
Lemma e_real_words : Forall (fun w => ~ In 32 w) (vocab_words v_bucket)
  /\ Forall no_edge_space (vocab_words v_bucket) /\ Forall encodable (vocab_words v_bucket)
  /\ array_fits (N.of_nat (n_words v_bucket)) 2.
Proof.
  cbn. repeat split; repeat constructor; simpl; try (intuition discriminate); try reflexivity; now eexists.
Qed.

(* fastText: the row of "cé" is r, its norm n; the rows of the buckets are (1, 0) *)
Definition e_ftr (r : list R) (n : option (norms R)) : embeddings R :=
  Emb (SNd (NdA BoNative 2 [r; [1; 0]; [1; 0]; [1; 0]]%R)) v_fasttext n None.
Definition e_unit : embeddings R := e_ftr [3 / 5; 4 / 5]%R (Some (Norms BoNative [2%R])).
Definition e_long : embeddings R := e_ftr [3; 4]%R None.
Lemma e_unit_built : built_embeddings e_unit.
Proof. split; [simpl; wf|]. split; [apply v_fasttext_built|]. split; [|reflexivity]. intros n [= <-]. easy. Qed.
Lemma e_long_built : built_embeddings e_long.
Proof. split; [simpl; wf|]. split; [apply v_fasttext_built|]. split; [|reflexivity]. easy. Qed.

Lemma e_ftr_vector a b n vec : fasttext_vector r_ops (e_ftr [a; b] n) 0 w_ce vec ->
  vec = match n with
    | None => [a * 4 - 3; b * 4 - 0]
    | Some m => [a * 4 * nth 0 (nm_vals m) 0 - 3; b * 4 * nth 0 (nm_vals m) 0 - 0]
    end%R.
Proof.
  intros H. eapply fasttext_vector_unique; [exact H|].
  eexists. exists [a; b], (repeat [1; 0]%R 3), [3; 0]%R.
  split; [vm_compute; reflexivity|]. split; [reflexivity|]. split; [|split].
  - unfold rows_at. cbn [map sw_index repeat]. repeat (constructor; [reflexivity|]). constructor.
  - split; [reflexivity|]. intros j Hj. change (j < 2)%nat in Hj.
    destruct j as [|[|j]]; [| |lia]; unfold column_sum; simpl; f_equal; lra.
  - destruct n; reflexivity.
Qed.
Lemma e_ftr_exact a b n l : (length l < 256)%nat -> In 1%R l -> In 0%R l ->
  (forall vec, fasttext_vector r_ops (e_ftr [a; b] n) 0 w_ce vec -> Forall (fun x => In x l) vec) ->
  exact_fasttext r_ops (e_ftr [a; b] n) (tc l).
Proof.
  intros L I1 I0 H. split.
  - intros [|k] w vec Hk FV; [|destruct k; discriminate]. injection Hk as <-. apply H in FV.
    constructor; [|constructor]. eapply Forall_impl; [|exact FV]. intros x I. now apply tc_exact.
  - intros [|[|[|[|j]]]] row Hj G; try (cbn in G; try apply Ok_inj in G; subst row).
    + cbn in Hj. lia.
    + repeat constructor; now apply tc_exact.
    + repeat constructor; now apply tc_exact.
    + repeat constructor; now apply tc_exact.
    + exfalso. unfold e_ftr in G. cbn [em_storage storage_get nd_rows] in G. rewrite py_index_nat in G.
      cbn [nth_error] in G. destruct (nth_error [] j) eqn:Q; [destruct j|]; discriminate.
Qed.
Definition c_unit : codec R := tc [9 / 5; 32 / 5; 1; 0]%R.
Definition c_long : codec R := tc [9; 16; 1; 0]%R.
Lemma e_unit_exact : exact_fasttext r_ops e_unit c_unit.
Proof.
  apply e_ftr_exact; [simpl; lia|simpl; auto|simpl; auto|]. intros vec H. apply e_ftr_vector in H. subst vec.
  simpl. repeat (apply Forall_cons || apply Forall_nil).
  - left. lra.
  - right; left. lra.
Qed.
Lemma e_long_exact : exact_fasttext r_ops e_long c_long.
Proof.
  apply e_ftr_exact; [simpl; lia|simpl; auto|simpl; auto|]. intros vec H. apply e_ftr_vector in H. subst vec.
  simpl. repeat (apply Forall_cons || apply Forall_nil).
  - left. lra.
  - right; left. lra.
Qed.
Lemma e_ftr_written c a b n old : built_embeddings (e_ftr [a; b] n) ->
  exists out, write_fasttext r_ops Little c (e_ftr [a; b] n) old = (Some out, Ok tt).
Proof.
  intros B. eapply write_fasttext_succeeds; [exact B|reflexivity|reflexivity|apply e_ft_words| | | |]; reflexivity.
Qed.
Lemma e_unit_rows k row : (k < 1)%nat -> storage_get r_ops (em_storage e_unit) (Z.of_nat k) = Ok row ->
  sum_squares row = 1%R.
Proof.
  intros K H. assert (k = 0)%nat as -> by lia. apply Ok_inj in H. subst row. simpl. lra.
Qed.

(* rows that are not unit vectors come back as other rows *)
Lemma e_long_changes : exists out,
  write_fasttext r_ops Little c_long e_long None = (Some out, Ok tt)
  /\ forall h lossy, exists e', run_reader (load_fasttext r_ops h c_long lossy) out = Ok e'
       /\ em_storage e' <> em_storage e_long /\ em_norms e' <> em_norms e_long.
Proof.
  destruct (e_ftr_written c_long 3%R 4%R None None e_long_built) as [out W]. exists out. split; [exact W|].
  destruct (fasttext_exact Little c_long e_long None out e_long_built) as (rows & [LR WR] & L);
    [apply e_ft_words|apply e_ft_words|apply e_long_exact|exact W|].
  intros h lossy. destruct (L h lossy) as (e' & HL & m & EV & ES & EN & _ & _ & MW & _). exists e'. split; [exact HL|].
  split; [|rewrite EN; easy].
  destruct rows as [|row rows]; [discriminate|]. destruct (WR 0%nat row eq_refl) as (r & G & ->).
  apply Ok_inj in G. subst r. specialize (MW 0%nat _ eq_refl). rewrite ES. intros E.
  injection E as E. subst m. injection MW as E _. cbn in E.
  assert (S : sqrt (3 * 3 + (4 * 4 + 0)) = 5%R) by (replace (3 * 3 + (4 * 4 + 0))%R with (5 * 5)%R by lra; apply sqrt_square; lra).
  cbn [fnorm r_ops sum_squares] in E. rewrite S in E. lra.
Qed.
