(* Writing and loading complete embeddings. *)
From Coq Require Import Lia.
From Verif Require Import Py PyProofs Utf8 Utf8Proofs IO IOProofs Arr Subword Vocab VocabProofs
  Storage StorageProofs Chunks Embeddings Spec.

Lemma storage_roundtrip h1 s p out d :
  storage_wf s ->
  storage_write_chunk h1 s p = (out, Ok tt) ->
  at_pos d p out -> lenN d < ssize_limit ->
  12 <= lenN out
  /\ fields_at d p [fU32; fU64] [chunk_id_val (storage_chunk_id s); Z.of_N (lenN out - 12)]
  /\ (forall h2 e, storage_read_chunk h2 false (storage_chunk_id s) e d (p + 12)
        = Ok (native_storage s, p + lenN out))
  /\ (forall e, storage_read_chunk Little true (storage_chunk_id s) e d (p + 12)
        = Ok (native_storage s, p + lenN out)).
Proof.
  intros W H A L. destruct s as [a|q]; simpl in W, H.
  - destruct (ndarray_roundtrip _ _ _ _ _ W H A L) as (H1 & H2 & H3 & H4).
    split; [easy|]. split; [easy|]. split; intros; simpl; unfold ndarray_load.
    + rstep (H3 h2). easy.
    + rstep H4. easy.
  - destruct (qarray_roundtrip _ _ _ _ _ W H A L) as (H1 & H2 & H3 & H4).
    split; [easy|]. split; [easy|]. split; intros; simpl; unfold qarray_load.
    + rstep (H3 h2). easy.
    + rstep H4. easy.
Qed.

(* a list of writers run one after the other *)
Inductive written : N -> list writer -> list bytes -> Prop :=
| WrNil p : written p [] []
| WrCons p w ws b bs :
    w p = (b, Ok tt) -> written (p + lenN b) ws bs -> written p (w :: ws) (b :: bs).

Lemma wfor_written {A} (f : A -> writer) l p out :
  wfor f l p = (out, Ok tt) -> exists bs, written p (map f l) bs /\ out = concat bs.
Proof.
  revert p out; induction l as [|a l IH]; intros p out H; simpl in *.
  - apply wret_ok in H as ->. exists []. split; [constructor|easy].
  - apply wseq_ok in H as (b1 & b2 & H1 & H & ->). apply IH in H as (bs & W & ->).
    exists (b1 :: bs). split; [now constructor|easy].
Qed.

Definition opt_list {A B} (f : A -> B) (o : option A) : list B :=
  match o with Some a => [f a] | None => [] end.

(* the file: header, metadata (if any), vocabulary, storage, norms (if any) *)
Lemma em_write_inv h t e out :
  em_write h t e 0 = (out, Ok tt) ->
  exists ids hb mb vb sb nb,
    ids <> []
    /\ header_write_chunk ids 0 = (hb, Ok tt)
    /\ match em_metadata e with
       | Some m => metadata_write_chunk t m (lenN hb) = (mb, Ok tt)
       | None => mb = []
       end
    /\ vocab_write_chunk (em_vocab e) (lenN hb + lenN mb) = (vb, Ok tt)
    /\ storage_write_chunk h (em_storage e) (lenN hb + lenN mb + lenN vb) = (sb, Ok tt)
    /\ match em_norms e with
       | Some n => norms_write_chunk h n (lenN hb + lenN mb + lenN vb + lenN sb) = (nb, Ok tt)
       | None => nb = []
       end
    /\ out = hb ++ mb ++ vb ++ sb ++ nb.
Proof.
  unfold em_write. set (chunks := em_chunks h t e).
  set (ids := map (fun c => chunk_id_val (fst c)) chunks).
  intros H. apply wseq_ok in H as (hb & rest & H1 & H & ->). rewrite N.add_0_l in H.
  assert (Hne : ids <> []).
  { unfold ids, chunks, em_chunks. destruct (em_metadata e); discriminate. }
  clearbody ids.
  exists ids, hb. unfold chunks, em_chunks in H. clear chunks.
  destruct (em_metadata e) as [m|], (em_norms e) as [n|];
    cbn [app wfor snd] in H.
  - apply wseq_ok in H as (mb & r1 & Hm & H & ->). apply wseq_ok in H as (vb & r2 & Hv & H & ->).
    apply wseq_ok in H as (sb & r3 & Hs & H & ->). apply wseq_ok in H as (nb & r4 & Hn & H & ->).
    apply wret_ok in H as ->. exists mb, vb, sb, nb. repeat (split; [easy|]). now rewrite app_nil_r.
  - apply wseq_ok in H as (mb & r1 & Hm & H & ->). apply wseq_ok in H as (vb & r2 & Hv & H & ->).
    apply wseq_ok in H as (sb & r3 & Hs & H & ->). apply wret_ok in H as ->.
    exists mb, vb, sb, []. repeat (split; [easy|]). easy.
  - apply wseq_ok in H as (vb & r2 & Hv & H & ->).
    apply wseq_ok in H as (sb & r3 & Hs & H & ->). apply wseq_ok in H as (nb & r4 & Hn & H & ->).
    apply wret_ok in H as ->. exists [], vb, sb, nb. rewrite !N.add_0_r. repeat (split; [easy|]).
    now rewrite app_nil_r.
  - apply wseq_ok in H as (vb & r2 & Hv & H & ->).
    apply wseq_ok in H as (sb & r3 & Hs & H & ->). apply wret_ok in H as ->.
    exists [], vb, sb, []. rewrite !N.add_0_r. repeat (split; [easy|]). easy.
Qed.

Lemma read_chunk_header_eof d : read_chunk_header d (lenN d) = Ok (None, lenN d).
Proof.
  unfold read_chunk_header, read_binary, read, rbind. cbn [calcsize field_size].
  change (ssize_limit <=? N.of_nat (4 + (8 + 0))) with false. cbn iota.
  rewrite dropN_all by lia. rewrite takeN_all by (rewrite lenN_nil; lia).
  simpl. unfold rret. now rewrite N.add_0_r.
Qed.

Lemma same_vocab_len v w : same_vocab v w -> vocab_len v = vocab_len w.
Proof. now destruct 1. Qed.
Lemma same_vocab_bound v w : same_vocab v w -> vocab_upper_bound v = vocab_upper_bound w.
Proof. now destruct 1. Qed.
Lemma native_shape {F} (s : storage F) : storage_shape (native_storage s) = storage_shape s.
Proof. destruct s; easy. Qed.

Lemma embeddings_new_same {F} (e : embeddings F) v' :
  embeddings_new (em_storage e) (em_vocab e) (em_norms e) (em_metadata e) = Ok e ->
  same_vocab (em_vocab e) v' ->
  embeddings_new (native_storage (em_storage e)) v' (option_map native_norms (em_norms e))
    (em_metadata e)
  = Ok (Emb (native_storage (em_storage e)) v' (option_map native_norms (em_norms e))
          (em_metadata e)).
Proof.
  intros H S. unfold embeddings_new in *. rewrite native_shape, <- (same_vocab_bound _ _ S).
  apply bind_ok in H as (u & Hu & H). rewrite Hu. cbn [bind].
  apply bind_ok in H as (u2 & Hu2 & H). destruct (em_norms e) as [n|]; simpl in *; [|easy].
  unfold norms_compat in *. rewrite native_shape, <- (same_vocab_len _ _ S). simpl.
  apply bind_ok in Hu2 as (u3 & Hu3 & Hu2). rewrite Hu3. cbn [bind]. now rewrite Hu2.
Qed.


Lemma em_roundtrip h1 h2 t mmap e out :
  built_embeddings e -> has_ngrams (em_vocab e) -> toml_roundtrips t (em_metadata e) ->
  load_mode h2 mmap ->
  run_writer (em_write h1 t e) = (out, Ok tt) -> lenN out < ssize_limit ->
  exists e', run_reader (load_finalfusion h2 t mmap) out = Ok e' /\ same_embeddings e e'.
Proof.
  intros (Ws & Wv & Wn & We) Hg Ht Hm H L. unfold run_writer in H.
  apply em_write_inv in H
    as (ids & hb & mb & vb & sb & nb & Hids & Hh & Hmd & Hv & Hs & Hn & HO).
  assert (A : at_pos out 0 (hb ++ mb ++ vb ++ sb ++ nb)) by (rewrite <- HO; apply at_pos_self).
  assert (LO : lenN out = lenN hb + lenN mb + lenN vb + lenN sb + lenN nb)
    by (rewrite HO, !lenN_app; lia).
  clear HO.
  apply at_pos_app in A as [Ah A]. apply at_pos_app in A as [Am A].
  apply at_pos_app in A as [Av A]. apply at_pos_app in A as [As An].
  rewrite !N.add_0_l in *.
  pose proof (header_roundtrip _ _ _ _ Hids Hh Ah L) as RH. rewrite N.add_0_l in RH.
  destruct (vocab_roundtrip _ _ _ _ FormatError Wv Hg Hv Av L) as (nv & v' & Fv & Rv & Sv & Lv & _).
  destruct (storage_roundtrip _ _ _ _ _ Ws Hs As L) as (Ls & Fs & Rs & Rs').
  assert (RS : storage_read_chunk h2 mmap (storage_chunk_id (em_storage e)) FormatError out
                 (lenN hb + lenN mb + lenN vb + 12)
               = Ok (native_storage (em_storage e), lenN hb + lenN mb + lenN vb + lenN sb)).
  { destruct mmap; [|apply Rs]. destruct Hm as [Hm| ->]; [easy|apply Rs']. }
  exists (Emb (native_storage (em_storage e)) v' (option_map native_norms (em_norms e)) (em_metadata e)).
  split; [|now repeat split].
  unfold run_reader.
  enough (X : load_finalfusion h2 t mmap out 0
     = Ok (Emb (native_storage (em_storage e)) v' (option_map native_norms (em_norms e)) (em_metadata e), lenN out))
    by (now rewrite X).
  unfold load_finalfusion. rstep RH.
  assert (Tail : forall c,
     (forall d : unit, c = vocab_chunk_id (em_vocab e)) ->
     (v <~ vocab_read_chunk c FormatError;;
      h <~ read_required_chunk_header;;
      s <~ storage_read_chunk h2 mmap (fst h) FormatError;;
      maybe <~ read_chunk_header;;
      n <~ match maybe with
           | Some (CNdNorms, _) => n <~ norms_read_chunk h2;; rret (Some n)
           | Some _ => rfail FormatError
           | None => rret None
           end;; rlift (embeddings_new s v n (em_metadata e))) out (lenN hb + lenN mb + 12)
     = Ok (Emb (native_storage (em_storage e)) v' (option_map native_norms (em_norms e)) (em_metadata e), lenN out)).
  { intros c Hc. rewrite (Hc tt). rstep Rv.
    rstep (read_required_chunk_header_at _ _ _ _ (N2Z.is_nonneg _) Fs). cbn [fst]. rstep RS.
    pose proof (embeddings_new_same e v' We Sv) as EN.
    destruct (em_norms e) as [n|].
    - destruct (norms_roundtrip _ _ _ _ _ (Wn n eq_refl) Hn An L) as (Ln & Fn & Rn).
      rstep (read_chunk_header_at _ _ _ _ (N2Z.is_nonneg _) Fn).
      erewrite (rbind_step (rbind _ _)) by (rewrite (rbind_step _ _ _ _ _ _ (Rn h2)); reflexivity).
      simpl option_map in EN. unfold rlift. rewrite EN. do 2 f_equal. lia.
    - subst nb. rewrite lenN_nil in LO. rewrite N.add_0_r in LO. rewrite <- LO.
      rstep (read_chunk_header_eof out). erewrite rbind_step by reflexivity.
      simpl option_map in EN. unfold rlift. now rewrite EN. }
  destruct (em_metadata e) as [m|] eqn:Em.
  - destruct (metadata_roundtrip t m _ _ _ Ht Hmd Am L) as (Lm & Fm & Rm).
    rstep (read_required_chunk_header_at _ _ _ _ (N2Z.is_nonneg _) Fm). cbn [fst].
    erewrite (rbind_step (rbind _ _)).
    2: { rewrite (rbind_step _ _ _ _ _ _ Rm).
         rewrite (rbind_step _ _ _ _ _ _ (read_required_chunk_header_at _ _ _ _ (N2Z.is_nonneg _) Fv)).
         reflexivity. }
    cbn beta iota. now apply Tail.
  - subst mb. rewrite lenN_nil, !N.add_0_r in *.
    rstep (read_required_chunk_header_at _ _ _ _ (N2Z.is_nonneg _) Fv). cbn [fst].
    assert (X : match vocab_chunk_id (em_vocab e) with
        | CMetadata => m <~ metadata_read_chunk t;; h <~ read_required_chunk_header;; rret (Some m, fst h)
        | c => rret (None, c) end out (lenN hb + 12)
        = Ok ((None, vocab_chunk_id (em_vocab e)), lenN hb + 12)) by (now destruct (em_vocab e)).
    rewrite (rbind_step _ _ _ _ _ _ X). cbn iota. now apply Tail.
Qed.
