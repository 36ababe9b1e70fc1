(* Loading, then writing, then loading again: what is needed for a write to complete, and that
   everything that was loaded meets it. *)
From Coq Require Import Lia.
From Verif Require Import Py PyProofs Utf8 Utf8Proofs IO IOProofs Arr Subword Vocab VocabProofs
  Storage StorageProofs Chunks Embeddings Spec ReaderProofs EmbeddingsProofs FindProofs
  LoaderProofs ExtendProofs TruncProofs InvProofs StorageInv.

Definition succeeds (w : writer) : Prop := forall p, exists b, w p = (b, Ok tt).

Lemma succeeds_ret : succeeds wret.
Proof. intros p. now exists []. Qed.
Lemma succeeds_bytes b : succeeds (wbytes b).
Proof. intros p. now exists b. Qed.
Lemma succeeds_seq w1 w2 : succeeds w1 -> succeeds w2 -> succeeds (w1 ;w; w2).
Proof.
  intros H1 H2 p. destruct (H1 p) as [b1 E1]. destruct (H2 (p + lenN b1)) as [b2 E2].
  exists (b1 ++ b2). unfold wseq. now rewrite E1, E2.
Qed.
Lemma succeeds_let {A} (r : result A) k a : r = Ok a -> succeeds (k a) -> succeeds (wlet r k).
Proof. intros -> H. exact H. Qed.
Lemma succeeds_tell k : (forall p, succeeds (k p)) -> succeeds (wtell k).
Proof. intros H p. apply H. Qed.
Lemma succeeds_for {A} (f : A -> writer) l :
  Forall (fun a => succeeds (f a)) l -> succeeds (wfor f l).
Proof.
  induction 1 as [|a l Ha H IH]; simpl; [apply succeeds_ret|]. now apply succeeds_seq.
Qed.
Lemma succeeds_binary fmt vs bs : pack fmt vs = Ok bs -> succeeds (write_binary fmt vs).
Proof. intros H. unfold write_binary. eapply succeeds_let; [exact H|]. apply succeeds_bytes. Qed.
Lemma succeeds_array h bo l : succeeds (serialize_array_as_le h bo l).
Proof. unfold serialize_array_as_le. destruct bo, h; apply succeeds_bytes. Qed.

Ltac packs := cbn [pack]; repeat first [rewrite pack_u32 by lia | rewrite pack_u64 by lia];
  cbn [bind]; reflexivity.

Lemma mapM_items ws bs : Forall2 item_bytes ws bs -> mapM utf8_encode ws = Ok bs.
Proof.
  induction 1 as [|w b ws bs [H _] _ IH]; simpl; [easy|]. now rewrite H, IH.
Qed.
Lemma items_len ws bs : Forall2 item_bytes ws bs -> lenN ws = lenN bs.
Proof. intros H. unfold lenN. now rewrite (Forall2_len _ _ _ H). Qed.
Lemma items_sum ws bs : Forall2 item_bytes ws bs -> bytes_len_sum ws = Ok (sumN (map lenN bs)).
Proof. intros H. now apply bytes_len_sum_ok, mapM_items. Qed.
Lemma items_size ws bs : Forall2 item_bytes ws bs ->
  calculate_binary_list_size ws = Ok (sumN (map lenN bs) + 8 + lenN ws * 4).
Proof. intros H. unfold calculate_binary_list_size. now rewrite (items_sum _ _ H). Qed.

Lemma succeeds_words ws bs : Forall2 item_bytes ws bs -> succeeds (write_words_binary ws).
Proof.
  intros H. apply succeeds_for. induction H as [|w b ws bs [H L] _ IH]; constructor; [|easy].
  eapply succeeds_let; [exact H|]. apply succeeds_seq; [|apply succeeds_bytes].
  unfold lenN in L. eapply succeeds_binary. packs.
Qed.

Lemma ssize_value : ssize_limit = 9223372036854775808.
Proof. easy. Qed.

Lemma succeeds_vocab v : built_vocab v -> vocab_writable v -> succeeds (vocab_write_chunk v).
Proof.
  intros B (bs & H & W).
  destruct B as [ws v Hv|ws e mn mx ix v Hi Hv|ws b mn mx ix v Hi Hv|ws gs mn mx index ix v Hd Hi Hv].
  - unfold simple_vocab_new in Hv. apply bind_ok in Hv as (idx & _ & E). injection E as <-.
    simpl in *. rewrite ssize_value in W. unfold simple_vocab_write_chunk.
    apply succeeds_seq. { eapply succeeds_binary. simpl. reflexivity. }
    eapply succeeds_let; [apply (items_sum _ _ H)|]. apply succeeds_seq.
    + eapply succeeds_binary. unfold lenN in *. packs.
    + eapply succeeds_words; eauto.
  - unfold bucket_vocab_new in Hv. apply bind_ok in Hv as (idx & _ & E). injection E as <-.
    apply ff_new_ok in Hi. simpl in *. rewrite ssize_value in W. unfold write_bucket_vocab.
    eapply succeeds_let; [apply (items_size _ _ H)|]. apply succeeds_seq.
    + eapply succeeds_binary. unfold lenN in *. cbn [chunk_id_val]. packs.
    + eapply succeeds_words; eauto.
  - unfold fasttext_vocab_new in Hv. apply bind_ok in Hv as (idx & _ & E). injection E as <-.
    apply ft_new_ok in Hi. simpl in *. rewrite ssize_value in W. unfold write_bucket_vocab, ft_upper_bound.
    eapply succeeds_let; [apply (items_size _ _ H)|]. apply succeeds_seq.
    + eapply succeeds_binary. unfold lenN in *. cbn [chunk_id_val]. packs.
    + eapply succeeds_words; eauto.
  - unfold explicit_vocab_new in Hv. apply bind_ok in Hv as (idx & _ & E). injection E as <-.
    apply ex_new_inv in Hi as (I & _); [|easy]. destruct I as (_ & _ & _ & I).
    simpl in *. destruct W as (gbs & HG & HI & W). rewrite ssize_value in W.
    unfold explicit_vocab_write_chunk.
    eapply succeeds_let; [apply (items_size _ _ H)|].
    eapply succeeds_let; [apply (items_size _ _ HG)|]. apply succeeds_seq; [|apply succeeds_seq].
    + eapply succeeds_binary. unfold lenN in *. cbn [chunk_id_val]. packs.
    + eapply succeeds_words; eauto.
    + apply succeeds_for. clear - HG HI. induction HG as [|g b gs bs [HG L] _ IH]; [constructor|].
      inversion HI as [|? ? (i & Ei & Bi) HI']; subst. constructor; [|now apply IH].
      unfold write_ngram. eapply succeeds_let; [exact HG|]. apply succeeds_seq; [|apply succeeds_seq].
      * unfold lenN in L. eapply succeeds_binary. packs.
      * apply succeeds_bytes.
      * eapply succeeds_let. { unfold ex_getitem. now rewrite Ei. }
        eapply succeeds_binary. packs.
Qed.

Lemma succeeds_storage h s : storage_wf s -> storage_sizes s -> succeeds (storage_write_chunk h s).
Proof.
  intros W S. destruct s as [a|q]; simpl in *.
  - destruct S as (S1 & S2 & S3). rewrite ssize_value in S3. unfold ndarray_write_chunk.
    apply succeeds_seq. { eapply succeeds_binary. simpl. reflexivity. }
    apply succeeds_tell. intros p. pose proof (pad_bounds p). cbv zeta.
    apply succeeds_seq; [|apply succeeds_seq; [|apply succeeds_array]].
    + eapply succeeds_binary. unfold lenN in *. cbn [type_id_val]. packs.
    + eapply succeeds_binary. apply pack_pads.
  - destruct S as (S1 & S2 & S3 & S4 & S5). rewrite ssize_value in S5. unfold qarray_write_chunk.
    cbv zeta.
    apply succeeds_seq. { eapply succeeds_binary. simpl. reflexivity. }
    apply succeeds_tell. intros p. pose proof (pad_bounds p).
    apply succeeds_seq; [|apply succeeds_seq; [|apply succeeds_seq;
      [|apply succeeds_seq; [|apply succeeds_seq]]]].
    + cbn [type_id_val].
      destruct (pq_projection (qa_pq q)), (qa_norms q) as [[? ?]|]; unfold lenN in *;
        eapply succeeds_binary; packs.
    + eapply succeeds_binary. apply pack_pads.
    + destruct (pq_projection (qa_pq q)) as [[? ?]|]; [apply succeeds_array|apply succeeds_ret].
    + apply succeeds_array.
    + destruct (qa_norms q) as [[? ?]|]; [apply succeeds_array|apply succeeds_ret].
    + apply succeeds_bytes.
Qed.

Lemma succeeds_norms h n : lenN (nm_vals n) * 4 < ssize_limit -> succeeds (norms_write_chunk h n).
Proof.
  rewrite ssize_value. intros L. unfold norms_write_chunk, norms_write_elems.
  apply succeeds_seq. { eapply succeeds_binary. simpl. reflexivity. }
  apply succeeds_tell. intros p. pose proof (pad_bounds p). cbv zeta.
  apply succeeds_seq; [|apply succeeds_array].
  eapply succeeds_binary. apply pack_app_pads.
  unfold f32s_le. rewrite lenN_map. cbn [type_id_val]. packs.
Qed.

Lemma succeeds_metadata t m s b :
  toml_dumps t m = Ok s -> utf8_encode s = Ok b -> lenN b < 2 ^ 64 ->
  succeeds (metadata_write_chunk t m).
Proof.
  intros H1 H2 L. unfold metadata_write_chunk. eapply succeeds_let.
  { rewrite H1. exact H2. }
  apply succeeds_seq; [|apply succeeds_bytes]. eapply succeeds_binary. unfold lenN in L.
  cbn [chunk_id_val]. packs.
Qed.

Lemma succeeds_header ids : lenN ids < 2 ^ 32 -> Forall (fun i => 0 <= i < 2 ^ 32)%Z ids ->
  succeeds (header_write_chunk ids).
Proof. intros L H p. eexists. now apply header_bytes. Qed.

(* ---------------------------------------------------------------- *)

Lemma norms_read_inv h d p n q :
  norms_read_chunk h d p = Ok (n, q) -> n = native_norms n /\ lenN (nm_vals n) * 4 < ssize_limit.
Proof.
  intros H. unfold norms_read_chunk in H. apply rbind_ok in H as ([c t] & p1 & _ & H).
  apply rbind_ok in H as (tid & p2 & _ & H). destruct tid; [easy|].
  apply rbind_ok in H as (pos & p3 & _ & H). apply rbind_ok in H as (u & p4 & _ & H).
  apply rbind_ok in H as (l & p5 & H1 & H). unfold rret in H. injection H as <- _.
  split; [easy|]. apply read_array_ok in H1 as (E & _ & B). simpl. rewrite lenN_map, E.
  unfold lenN. rewrite split_elems_length. change (N.of_nat 4) with 4 in *.
  set (bs := takeN _ _) in *.
  assert (L : lenN bs <= Z.to_N c * 4) by (unfold bs; rewrite lenN_takeN; lia).
  pose proof (Nat.div_mod_eq (length bs) 4). unfold lenN in L. lia.
Qed.

Definition loaded_metadata (t : toml_lib) (m : option metadata) : Prop :=
  forall x, m = Some x -> exists s, toml_loads t s = Ok x.

Lemma load_finalfusion_inv h t mm d e :
  run_reader (load_finalfusion h t mm) d = Ok e -> lenN d < ssize_limit ->
  built_embeddings e /\ has_ngrams (em_vocab e) /\ vocab_writable (em_vocab e)
  /\ match em_vocab e with
     | VExplicit _ _ ix => Forall (fun kv => 0 <= snd kv)%Z (ex_index ix)
     | _ => True
     end
  /\ em_storage e = native_storage (em_storage e) /\ storage_sizes (em_storage e)
  /\ (forall n, em_norms e = Some n -> n = native_norms n /\ lenN (nm_vals n) * 4 < ssize_limit)
  /\ loaded_metadata t (em_metadata e).
Proof.
  intros H Hd. unfold run_reader in H.
  destruct (load_finalfusion h t mm d 0) as [[e' q]|] eqn:E; [|easy]. injection H as ->.
  unfold load_finalfusion in E. apply rbind_ok in E as (ids & p1 & _ & E).
  apply rbind_ok in E as (hd & p2 & _ & E). apply rbind_ok in E as ([meta cid] & p3 & HM & E).
  apply rbind_ok in E as (v & p4 & HV & E). apply rbind_ok in E as (hd2 & p5 & _ & E).
  apply rbind_ok in E as (s & p6 & HS & E). apply rbind_ok in E as (mb & p7 & _ & E).
  apply rbind_ok in E as (n & p8 & HN & E). apply rlift_ok in E as [E _].
  apply vocab_read_inv in HV as (_ & BV & GV & WV & IV); [|easy].
  apply storage_read_inv in HS as (_ & WS & NS & SS); [|easy].
  assert (EE : em_storage e = s /\ em_vocab e = v /\ em_norms e = n /\ em_metadata e = meta).
  { unfold embeddings_new in E. apply bind_ok in E as (u & _ & E).
    apply bind_ok in E as (u2 & _ & E). now injection E as <-. }
  destruct EE as (-> & -> & EN & EM).
  assert (HN' : forall x, em_norms e = Some x -> x = native_norms x /\ lenN (nm_vals x) * 4 < ssize_limit).
  { rewrite EN. intros x ->. destruct mb as [[[] ?]|]; try easy.
    apply rbind_ok in HN as (y & p9 & HN & HN2). unfold rret in HN2. injection HN2 as -> _.
    now apply norms_read_inv in HN. }
  split; [|repeat split; auto].
  - split; [|split; [|split]].
    + assert (X : em_storage e = s).
      { unfold embeddings_new in E. apply bind_ok in E as (u & _ & E).
        apply bind_ok in E as (u2 & _ & E). now injection E as <-. }
      now rewrite X.
    + assert (X : em_vocab e = v).
      { unfold embeddings_new in E. apply bind_ok in E as (u & _ & E).
        apply bind_ok in E as (u2 & _ & E). now injection E as <-. }
      now rewrite X.
    + intros x Hx. apply HN' in Hx as [Hx _]. rewrite Hx. easy.
    + unfold embeddings_new in E |- *. apply bind_ok in E as (u & E1 & E).
      apply bind_ok in E as (u2 & E2 & E). injection E as <-. simpl. rewrite E1. cbn [bind].
      rewrite E2. easy.
  - apply HN'; auto.
  - apply HN'; auto.
  - intros x Hx. rewrite EM in Hx. rewrite Hx in HM. clear EM Hx.
    destruct (fst hd); try (unfold rret in HM; now injection HM).
    apply rbind_ok in HM as (m & p9 & HM & HM2). apply rbind_ok in HM2 as (h3 & p10 & _ & HM2).
    unfold rret in HM2. injection HM2 as -> _ _.
    unfold metadata_read_chunk in HM. apply rbind_ok in HM as (u & p11 & _ & HM).
    apply rbind_ok in HM as ([i cl] & p12 & _ & HM). apply rbind_ok in HM as (c & p13 & _ & HM).
    apply rbind_ok in HM as (u2 & p14 & _ & HM). apply rbind_ok in HM as (buf & p15 & _ & HM).
    destruct (negb _); [easy|]. apply rlift_ok in HM as [HM _].
    apply bind_ok in HM as (str & _ & HM). eauto.
Qed.


Lemma em_write_succeeds h t e :
  built_embeddings e -> vocab_writable (em_vocab e) -> storage_sizes (em_storage e) ->
  (forall n, em_norms e = Some n -> lenN (nm_vals n) * 4 < ssize_limit) ->
  (forall m, em_metadata e = Some m ->
     exists s b, toml_dumps t m = Ok s /\ utf8_encode s = Ok b /\ lenN b < 2 ^ 64) ->
  succeeds (em_write h t e).
Proof.
  intros (WS & WV & _) HV HS HN HM. unfold em_write.
  apply succeeds_seq.
  - apply succeeds_header.
    + rewrite lenN_map. unfold em_chunks. destruct (em_metadata e), (em_norms e); easy.
    + apply Forall_map, Forall_forall. intros [c w] _. simpl. destruct c; simpl; lia.
  - apply succeeds_for. unfold em_chunks. apply Forall_app; split; [|apply Forall_app; split;
      [|apply Forall_app; split]].
    + destruct (em_metadata e) as [m|]; [|constructor]. constructor; [|constructor].
      destruct (HM m eq_refl) as (s & b & H1 & H2 & H3). simpl. eapply succeeds_metadata; eauto.
    + constructor; [|constructor]. now apply succeeds_vocab.
    + constructor; [|constructor]. now apply succeeds_storage.
    + destruct (em_norms e) as [n|]; [|constructor]. constructor; [|constructor].
      apply succeeds_norms. auto.
Qed.

Lemma load_write_load h1 h2 h3 t mm1 mm2 d e :
  toml_stable t -> load_mode h3 mm2 -> lenN d < ssize_limit ->
  run_reader (load_finalfusion h1 t mm1) d = Ok e ->
  exists out, run_writer (em_write h2 t e) = (out, Ok tt)
  /\ (lenN out < ssize_limit ->
      exists e', run_reader (load_finalfusion h3 t mm2) out = Ok e' /\ same_embeddings e e').
Proof.
  intros Ht Hm Hd H. apply load_finalfusion_inv in H as (B & G & WV & _ & NS & SS & HN & HM); [|easy].
  assert (S : succeeds (em_write h2 t e)).
  { apply em_write_succeeds; auto.
    - intros n Hn. now apply HN in Hn.
    - intros m Hm2. apply HM in Hm2 as (s & Hs). apply Ht in Hs as (s' & b & ? & ? & ? & ?). eauto. }
  destruct (S 0) as [out E]. exists out. split; [exact E|]. intros L.
  eapply em_roundtrip; eauto.
  intros m s Em Es. apply HM in Em as (s0 & Hs). apply Ht in Hs as (s' & b & D & _ & _ & R).
  rewrite D in Es. now injection Es as <-.
Qed.
