(* The stand-alone loaders of vocabularies and norms on truncated files. *)
From Coq Require Import Lia.
From Verif Require Import Py PyProofs Utf8 Utf8Proofs IO IOProofs Arr Subword Vocab VocabProofs
  Storage StorageProofs Chunks Embeddings Spec ReaderProofs EmbeddingsProofs FindProofs
  LoaderProofs ExtendProofs.

Lemma decode_prefix b x w w0 :
  utf8_decode b = Ok w -> utf8_decode (b ++ x) = Ok w0 -> exists r, w0 = w ++ r.
Proof.
  intros H H0. apply utf8_encode_decode in H. unfold utf8_decode in H0.
  rewrite (decode_strict_encode _ _ _ H) in H0. destruct (decode_strict x) as [r|]; [|easy].
  injection H0 as <-. eauto.
Qed.

Lemma takeN_prefix {A} n p (d ext : list A) :
  exists x, takeN n (dropN p (d ++ ext)) = takeN n (dropN p d) ++ x.
Proof. rewrite dropN_app, takeN_app. eauto. Qed.

Lemma read_item_cut d ext p w q w0 q0 :
  read_item d p = Ok (w, q) -> read_item (d ++ ext) p = Ok (w0, q0) -> exists r, w0 = w ++ r.
Proof.
  intros H H0. unfold read_item in *.
  apply rbind_ok in H as (n & p1 & H1 & H). apply solid_read1 in H1 as [_ H1].
  rewrite (rbind_step _ _ _ _ _ _ (H1 ext)) in H0.
  apply rbind_ok in H as (b & p2 & H2 & H). apply rbind_ok in H0 as (b0 & p20 & H20 & H0).
  apply read_ok in H2 as (E & _ & _). apply read_ok in H20 as (E0 & _ & _).
  apply rlift_ok in H as [H _]. apply rlift_ok in H0 as [H0 _].
  destruct (takeN_prefix (Z.to_N n) p1 d ext) as [x X]. rewrite E0, X, <- E in H0.
  eapply decode_prefix; eauto.
Qed.

Lemma read_item_pos d p w q : read_item d p = Ok (w, q) -> p < lenN d.
Proof.
  intros H. apply rbind_ok in H as (n & p1 & H1 & H). apply read_u32_ok in H1. lia.
Qed.

Lemma read_items_cut d ext : forall n p ws q ws0 q0,
  rrepeat n read_item d p = Ok (ws, q) -> rrepeat n read_item (d ++ ext) p = Ok (ws0, q0) ->
  ws = ws0 \/ cut_last ws0 ws.
Proof.
  induction n as [|n IH]; intros p ws q ws0 q0 H H0; simpl in *.
  - unfold rret in *. injection H as <- _. injection H0 as <- _. now left.
  - apply rbind_ok in H as (w & p1 & H1 & H). apply rbind_ok in H as (l & p2 & H2 & H).
    apply rbind_ok in H0 as (w0 & p10 & H10 & H0). apply rbind_ok in H0 as (l0 & p20 & H20 & H0).
    unfold rret in *. injection H as <- _. injection H0 as <- _.
    destruct n as [|n].
    + simpl in *. unfold rret in *. injection H2 as <- _. injection H20 as <- _.
      destruct (read_item_cut _ _ _ _ _ _ _ H1 H10) as [r ->]. right.
      apply (CutLast [] w r).
    + assert (L : p1 < lenN d).
      { simpl in H2. apply rbind_ok in H2 as (a & p3 & H3 & _). now apply read_item_pos in H3. }
      apply stable_read_item in H1 as [_ H1]. specialize (H1 L ext). rewrite H1 in H10.
      injection H10 as <- <-. destruct (IH _ _ _ _ _ H2 H20) as [->|C]; [now left|right].
      destruct C as [front a r]. apply (CutLast (w :: front) a r).
Qed.

Lemma new_index_inv (k : list str -> dict str Z -> vocab) ws v :
  (index <- validate_items_and_create_index ws ;; Ok (k ws index)) = Ok v ->
  exists i, validate_items_and_create_index ws = Ok i /\ v = k ws i.
Proof. intros H. apply bind_ok in H as (i & H1 & H). injection H as <-. eauto. Qed.

(* explicit vocabularies: the last item of each n-gram is its index *)
Lemma solid_item_index : solid read_item_with_index.
Proof.
  intros d p [w i] q H. unfold read_item_with_index in *.
  apply rbind_ok in H as (w' & p1 & H1 & H). apply rbind_ok in H as (i' & p2 & H2 & H).
  unfold rret in H. injection H as <- <- <-. pose proof (read_u64_ok _ _ _ _ H2) as (-> & L & _).
  apply stable_read_item in H1 as [L1 H1]. apply solid_read1 in H2 as [L2 H2].
  split; [lia|]. intros ext. rewrite (rbind_step _ _ _ _ _ _ (H1 ltac:(lia) ext)).
  now rewrite (rbind_step _ _ _ _ _ _ (H2 ext)).
Qed.
Lemma solid_rrepeat {A} n (m : reader A) : solid m -> solid (rrepeat n m).
Proof.
  intros Hm. induction n as [|n IH]; simpl; [apply solid_ret|].
  apply solid_bind; [easy|]. intros a. apply solid_bind; [easy|]. intros l. apply solid_ret.
Qed.

Lemma solid_explicit : solid explicit_vocab_read_chunk.
Proof.
  intros d p v q H. unfold explicit_vocab_read_chunk in *.
  apply rbind_ok in H as ([[[nw ng] mn] mx] & p1 & H1 & H).
  apply solid_read4 in H1 as [L1 H1].
  apply rbind_ok in H as (ws & p2 & H2 & H).
  apply rbind_ok in H as ([gs ix] & p3 & H3 & H).
  unfold read_items_with_indices in *.
  apply rbind_ok in H3 as (kvs & p4 & H3 & H4). unfold rret in H4. injection H4 as <- <- <-.
  assert (X : p2 < lenN d).
  { destruct (N.to_nat (Z.to_N ng)) as [|n] eqn:En.
    - simpl in H3. unfold rret in H3. injection H3 as <- <-.
      apply rbind_ok in H as (x & p5 & H5 & _). apply rlift_ok in H5 as [H5 _].
      exfalso. revert H5. unfold ex_new. simpl. destruct (py_assert _); simpl; [|easy].
      destruct (to_uint32 mn); simpl; [|easy]. now destruct (to_uint32 mx).
    - simpl in H3. apply rbind_ok in H3 as ([a i] & p5 & H5 & _).
      unfold read_item_with_index in H5. apply rbind_ok in H5 as (a' & p6 & H5 & _).
      now apply read_item_pos in H5. }
  apply stable_read_items in H2 as [L2 H2].
  apply (solid_rrepeat _ _ solid_item_index) in H3 as [L3 H3].
  apply rbind_ok in H as (x & p5 & H5 & H). apply rlift_ok in H5 as [H5 ->].
  apply rlift_ok in H as [H ->].
  split; [lia|]. intros ext.
  rewrite (rbind_step _ _ _ _ _ _ (H1 ext)), (rbind_step _ _ _ _ _ _ (H2 X ext)).
  erewrite rbind_step. 2:{ rewrite (rbind_step _ _ _ _ _ _ (H3 ext)). reflexivity. }
  cbv beta iota. unfold rlift, rbind. now rewrite H5, H.
Qed.

Lemma vocab_read_cut c e d ext p v q v0 q0 :
  vocab_read_chunk c e d p = Ok (v, q) -> vocab_read_chunk c e (d ++ ext) p = Ok (v0, q0) ->
  v = v0 \/ cut_vocab v0 v.
Proof.
  intros H H0. destruct c; try easy; cbn [vocab_read_chunk] in *.
  - unfold simple_vocab_read_chunk in *.
    apply rbind_ok in H as (n & p1 & H1 & H). apply solid_read1 in H1 as [_ H1].
    rewrite (rbind_step _ _ _ _ _ _ (H1 ext)) in H0.
    apply rbind_ok in H as (ws & p2 & H2 & H). apply rbind_ok in H0 as (ws0 & p20 & H20 & H0).
    apply rlift_ok in H as [H _]. apply rlift_ok in H0 as [H0 _].
    apply (new_index_inv VSimple) in H as (i & Hi & ->).
    apply (new_index_inv VSimple) in H0 as (i0 & Hi0 & ->).
    destruct (read_items_cut _ _ _ _ _ _ _ _ H2 H20) as [->|C].
    + left. congruence.
    + right. now split.
  - unfold bucket_vocab_read_chunk in *.
    apply rbind_ok in H as ([[[n mn] mx] b] & p1 & H1 & H). apply solid_read4 in H1 as [_ H1].
    rewrite (rbind_step _ _ _ _ _ _ (H1 ext)) in H0.
    apply rbind_ok in H as (ws & p2 & H2 & H). apply rbind_ok in H0 as (ws0 & p20 & H20 & H0).
    apply rbind_ok in H as (x & p3 & H3 & H). apply rbind_ok in H0 as (x0 & p30 & H30 & H0).
    apply rlift_ok in H as [H _]. apply rlift_ok in H0 as [H0 _].
    apply rlift_ok in H3 as [H3 _]. apply rlift_ok in H30 as [H30 _].
    apply (new_index_inv (fun ws i => VBucket ws i x)) in H as (i & Hi & ->).
    apply (new_index_inv (fun ws i => VBucket ws i x0)) in H0 as (i0 & Hi0 & ->).
    destruct (read_items_cut _ _ _ _ _ _ _ _ H2 H20) as [->|C].
    + left. congruence.
    + right. split; [easy|]. congruence.
  - unfold fasttext_vocab_read_chunk in *.
    apply rbind_ok in H as ([[[n mn] mx] b] & p1 & H1 & H). apply solid_read4 in H1 as [_ H1].
    rewrite (rbind_step _ _ _ _ _ _ (H1 ext)) in H0.
    apply rbind_ok in H as (ws & p2 & H2 & H). apply rbind_ok in H0 as (ws0 & p20 & H20 & H0).
    apply rbind_ok in H as (x & p3 & H3 & H). apply rbind_ok in H0 as (x0 & p30 & H30 & H0).
    apply rlift_ok in H as [H _]. apply rlift_ok in H0 as [H0 _].
    apply rlift_ok in H3 as [H3 _]. apply rlift_ok in H30 as [H30 _].
    apply (new_index_inv (fun ws i => VFastText ws i x)) in H as (i & Hi & ->).
    apply (new_index_inv (fun ws i => VFastText ws i x0)) in H0 as (i0 & Hi0 & ->).
    destruct (read_items_cut _ _ _ _ _ _ _ _ H2 H20) as [->|C].
    + left. congruence.
    + right. split; [easy|]. congruence.
  - apply solid_explicit in H as [_ H]. rewrite (H ext) in H0. injection H0 as <- _. now left.
Qed.

Lemma load_vocab_cut d ext v v0 :
  run_reader load_vocab d = Ok v -> run_reader load_vocab (d ++ ext) = Ok v0 ->
  v = v0 \/ cut_vocab v0 v.
Proof.
  unfold run_reader, load_vocab. destruct (rbind _ _ d 0) as [[v' q]|e] eqn:H; [|easy].
  intros [= ->].
  apply rbind_ok in H as ([c|] & p1 & H1 & H); [|easy].
  rewrite (rbind_step _ _ _ _ _ _ (find_chunk_extend _ _ ext _ _ _ H1)).
  destruct (vocab_read_chunk c ValueError (d ++ ext) p1) as [[v1 q1]|] eqn:H0; [|easy].
  intros [= ->]. eapply vocab_read_cut; eauto.
Qed.
Lemma load_vocab_of_cut cid d ext v v0 :
  run_reader (load_vocab_of cid) d = Ok v -> run_reader (load_vocab_of cid) (d ++ ext) = Ok v0 ->
  v = v0 \/ cut_vocab v0 v.
Proof.
  unfold run_reader, load_vocab_of. destruct (rbind _ _ d 0) as [[v' q]|e] eqn:H; [|easy].
  intros [= ->].
  apply rbind_ok in H as ([c|] & p1 & H1 & H); [|easy].
  rewrite (rbind_step _ _ _ _ _ _ (find_chunk_extend _ _ ext _ _ _ H1)).
  destruct (vocab_read_chunk cid ValueError (d ++ ext) p1) as [[v1 q1]|] eqn:H0; [|easy].
  intros [= ->]. eapply vocab_read_cut; eauto.
Qed.

Lemma cut_vocab_same v v0 v1 : same_vocab v v0 -> cut_vocab v0 v1 -> cut_vocab v v1.
Proof. intros S C. destruct S; auto. Qed.

Lemma vocab_file_truncated v out d ext v' :
  built_vocab v -> has_ngrams v ->
  run_writer (chunk_write (vocab_chunk_id v) (vocab_write_chunk v)) = (out, Ok tt) ->
  lenN out < ssize_limit -> out = d ++ ext ->
  run_reader load_vocab d = Ok v' \/ run_reader (load_vocab_of (vocab_chunk_id v)) d = Ok v' ->
  same_vocab v v' \/ cut_vocab v v'.
Proof.
  intros B G H L -> R. destruct (vocab_file _ _ B G H L) as (v0 & R1 & R2 & S).
  assert (X : v' = v0 \/ cut_vocab v0 v').
  { destruct R as [R|R]; [eapply load_vocab_cut|eapply load_vocab_of_cut]; eauto. }
  destruct X as [->|C]; [now left|right]. eapply cut_vocab_same; eauto.
Qed.

(* norms: elements are missing at the end *)
Lemma norms_read_cut h d ext p n q n0 q0 :
  norms_read_chunk h d p = Ok (n, q) -> norms_read_chunk h (d ++ ext) p = Ok (n0, q0) ->
  exists r, nm_vals n0 = nm_vals n ++ r.
Proof.
  unfold norms_read_chunk. intros H H0.
  apply rbind_ok in H as ([c t] & p1 & H1 & H). apply solid_read2 in H1 as [_ H1].
  rewrite (rbind_step _ _ _ _ _ _ (H1 ext)) in H0. cbv beta iota in H0.
  apply rbind_ok in H as (tid & p2 & H2 & H). apply solid_lift in H2 as [_ H2].
  rewrite (rbind_step _ _ _ _ _ _ (H2 ext)) in H0.
  destruct tid; [easy|].
  apply rbind_ok in H as (pos & p3 & H3 & H). apply solid_tell in H3 as [_ H3].
  rewrite (rbind_step _ _ _ _ _ _ (H3 ext)) in H0.
  apply rbind_ok in H as (u & p4 & H4 & H). apply solid_seek_fwd in H4 as [_ H4].
  rewrite (rbind_step _ _ _ _ _ _ (H4 ext)) in H0.
  apply rbind_ok in H as (l & p5 & H5 & H). apply rbind_ok in H0 as (l0 & p50 & H50 & H0).
  unfold rret in *. injection H as <- _. injection H0 as <- _. cbn [nm_vals].
  apply read_array_ok in H5 as (E & _ & _). apply read_array_ok in H50 as (E0 & _ & _).
  change (N.of_nat 4) with 4 in *.
  destruct (takeN_prefix (Z.to_N c * 4) p4 d ext) as [x X]. rewrite X in E0.
  set (bs := takeN _ (dropN p4 d)) in *.
  exists (map f32_of_le (skipn (length bs / 4) l0)).
  rewrite <- map_app. f_equal. rewrite E, E0.
  rewrite <- (split_elems_prefix (length bs / 4) (length (bs ++ x) / 4) 4 bs x).
  - now rewrite firstn_skipn.
  - lia.
  - apply Nat.div_le_mono; [lia|]. rewrite app_length. lia.
  - pose proof (Nat.div_mod_eq (length bs) 4). lia.
Qed.

Lemma norms_file_truncated h1 h2 n out d ext n' :
  norms_wf n ->
  run_writer (chunk_write CNdNorms (norms_write_chunk h1 n)) = (out, Ok tt) ->
  lenN out < ssize_limit -> out = d ++ ext ->
  run_reader (load_norms h2) d = Ok n' -> exists r, nm_vals n = nm_vals n' ++ r.
Proof.
  intros W H L -> R. pose proof (norms_file _ h2 _ _ W H L) as E.
  unfold run_reader, load_norms in *. destruct (rbind _ _ d 0) as [[x q]|e] eqn:H'; [|easy].
  injection R as ->.
  apply rbind_ok in H' as ([c|] & p1 & H1 & H'); [|easy].
  rewrite (rbind_step _ _ _ _ _ _ (find_chunk_extend _ _ ext _ _ _ H1)) in E.
  destruct c; try easy.
  destruct (norms_read_chunk h2 (d ++ ext) p1) as [[n0 q0]|] eqn:H0; [|easy].
  injection E as ->. eapply norms_read_cut in H0; eauto.
Qed.
