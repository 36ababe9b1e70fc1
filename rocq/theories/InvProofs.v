(* What a successfully loaded vocabulary, storage or file looks like. *)
From Coq Require Import Lia.
From Verif Require Import Py PyProofs Utf8 Utf8Proofs IO IOProofs Arr Subword Vocab VocabProofs
  Storage StorageProofs Chunks Embeddings Spec ReaderProofs EmbeddingsProofs FindProofs
  LoaderProofs ExtendProofs TruncProofs.

(* ---------------------------------------------------------------- *)
(* vocabularies                                                      *)

(* strings that can be written: encodable, and the length fits four bytes *)
Definition item_bytes (w : str) (b : bytes) : Prop := utf8_encode w = Ok b /\ lenN b < 2 ^ 32.

Lemma read_item_ok d p w q :
  read_item d p = Ok (w, q) ->
  exists b, item_bytes w b /\ q = p + 4 + lenN b /\ q <= lenN d.
Proof.
  intros H. unfold read_item in H. apply rbind_ok in H as (n & p1 & H1 & H).
  apply read_u32_ok in H1 as (E1 & E2 & E3).
  apply rbind_ok in H as (b & p2 & H2 & H). apply read_ok in H2 as (E4 & E5 & _).
  apply rlift_ok in H as [H ->]. apply utf8_encode_decode in H.
  pose proof (f_equal lenN E4) as L. rewrite lenN_takeN, lenN_dropN in L.
  exists b. repeat split; auto; lia.
Qed.

Lemma read_items_ok n d p ws q :
  read_items n d p = Ok (ws, q) -> p <= lenN d ->
  lenN ws = n /\ exists bs, Forall2 item_bytes ws bs
    /\ q = p + lenN ws * 4 + sumN (map lenN bs) /\ q <= lenN d.
Proof.
  unfold read_items. intros H Hp.
  assert (X : lenN ws = N.of_nat (N.to_nat n) /\ exists bs, Forall2 item_bytes ws bs
    /\ q = p + lenN ws * 4 + sumN (map lenN bs) /\ q <= lenN d).
  { revert p ws H Hp. generalize (N.to_nat n) as k. induction k as [|k IH]; intros p ws H Hp.
    - unfold rrepeat, rret in H. injection H as <- <-. split; [easy|]. exists [].
      split; [constructor|]. change (lenN (@nil str)) with 0; change (sumN (map lenN (@nil bytes))) with 0; cbn [map]; try change (lenN (@nil str)) with 0; lia.
    - cbn [rrepeat] in H. apply rbind_ok in H as (w & p1 & H1 & H).
      apply rbind_ok in H as (l & p2 & H2 & H). unfold rret in H. injection H as <- <-.
      apply read_item_ok in H1 as (b & Hb & E1 & E2).
      apply IH in H2 as (L & bs & Hbs & E3 & E4); [|easy].
      rewrite lenN_cons. split; [lia|]. exists (b :: bs). split; [now constructor|].
      cbn [map sumN]. unfold sumN in *. simpl. lia. }
  rewrite N2Nat.id in X. exact X.
Qed.

Lemma read_ngrams_ok n d p gs ix q :
  read_items_with_indices n d p = Ok ((gs, ix), q) -> p <= lenN d ->
  exists kvs bs, gs = map fst kvs /\ ix = dict_of str_eqb kvs /\ lenN kvs = n
    /\ Forall (fun kv => 0 <= snd kv < 2 ^ 64)%Z kvs
    /\ Forall2 item_bytes gs bs
    /\ q = p + lenN gs * 12 + sumN (map lenN bs) /\ q <= lenN d.
Proof.
  unfold read_items_with_indices. intros H Hp.
  apply rbind_ok in H as (kvs & q' & H & H'). unfold rret in H'. injection H' as <- <- <-.
  assert (X : lenN kvs = N.of_nat (N.to_nat n)
    /\ Forall (fun kv : str * Z => 0 <= snd kv < 2 ^ 64)%Z kvs
    /\ exists bs, Forall2 item_bytes (map fst kvs) bs
    /\ q' = p + lenN (map fst kvs) * 12 + sumN (map lenN bs) /\ q' <= lenN d).
  { revert p kvs H Hp. generalize (N.to_nat n) as k. induction k as [|k IH]; intros p kvs H Hp.
    - unfold rrepeat, rret in H. injection H as <- <-. split; [easy|]. split; [constructor|].
      exists []. split; [constructor|]. change (lenN (@nil str)) with 0; change (sumN (map lenN (@nil bytes))) with 0; cbn [map]; try change (lenN (@nil str)) with 0; lia.
    - cbn [rrepeat] in H. apply rbind_ok in H as (kv & p1 & H1 & H).
      apply rbind_ok in H as (l & p2 & H2 & H). unfold rret in H. injection H as <- <-.
      unfold read_item_with_index in H1. apply rbind_ok in H1 as (g & p3 & H1 & H3).
      apply rbind_ok in H3 as (i & p4 & H3 & H4). unfold rret in H4. injection H4 as <- <-.
      apply read_item_ok in H1 as (b & Hb & E1 & E2). apply read_u64_ok in H3 as (E5 & E6 & E7).
      apply IH in H2 as (L & HF & bs & Hbs & E3 & E4); [|easy].
      rewrite lenN_cons. split; [lia|]. split; [now constructor|].
      exists (b :: bs). split; [now constructor|]. cbn [map fst]. rewrite lenN_cons.
      unfold sumN in *. simpl. lia. }
  rewrite N2Nat.id in X. destruct X as (L & HF & bs & Hb & E1 & E2).
  exists kvs, bs. repeat split; auto.
Qed.

(* everything needed to write the vocabulary again *)
Definition vocab_writable (v : vocab) : Prop :=
  exists bs, Forall2 item_bytes (vocab_words v) bs
  /\ match v with
     | VExplicit ws _ ix =>
         exists gbs, Forall2 item_bytes (ex_ngrams ix) gbs
         /\ Forall (fun g => exists i, sget g (ex_index ix) = Some i /\ 0 <= i < 2 ^ 64)%Z
              (ex_ngrams ix)
         /\ lenN ws * 4 + sumN (map lenN bs)
            + lenN (ex_ngrams ix) * 4 + sumN (map lenN gbs) < ssize_limit
     | _ => lenN (vocab_words v) * 4 + sumN (map lenN bs) < ssize_limit
     end.

Lemma read4_u64 f2 f3 f4 d p a b c e q :
  read4 fU64 f2 f3 f4 d p = Ok ((a, b, c, e), q) -> q <= lenN d.
Proof.
  intros H. unfold read4 in H. apply rbind_ok in H as (vs & p1 & H1 & H).
  apply read_required_ok in H1 as (_ & _ & _ & E).
  destruct vs as [|x1 [|x2 [|x3 [|x4 [|]]]]]; try easy. unfold rret in H. now injection H as _ _ _ _ <-.
Qed.

Lemma validate_idx ws idx : validate_items_and_create_index ws = Ok idx -> idx = enumerate ws.
Proof. intros H. now apply validate_ok in H as (_ & ->). Qed.

Lemma vocab_read_inv c e d p v q :
  vocab_read_chunk c e d p = Ok (v, q) -> lenN d < ssize_limit ->
  c = vocab_chunk_id v /\ built_vocab v /\ has_ngrams v /\ vocab_writable v
  /\ match v with
     | VExplicit _ _ ix => Forall (fun kv => 0 <= snd kv)%Z (ex_index ix)
     | _ => True
     end.
Proof.
  intros H Hd. destruct c; try easy; simpl in H.
  - unfold simple_vocab_read_chunk in H. apply rbind_ok in H as (n & p1 & H1 & H).
    apply read_u64_ok in H1 as (E1 & E2 & E3).
    apply rbind_ok in H as (ws & p2 & H2 & H). apply read_items_ok in H2 as (L & bs & F & E4 & E5); [|lia].
    apply rlift_ok in H as [H ->]. pose proof H as H'. unfold simple_vocab_new in H'.
    apply bind_ok in H' as (idx & Hi & E). injection E as <-.
    split; [easy|]. split; [econstructor; exact H|]. split; [easy|]. split; [|easy].
    exists bs. simpl. split; [easy|]. lia.
  - unfold bucket_vocab_read_chunk in H. apply rbind_ok in H as ([[[n mn] mx] b] & p1 & H1 & H).
    apply read4_u64 in H1.
    apply rbind_ok in H as (ws & p2 & H2 & H). apply read_items_ok in H2 as (L & bs & F & E4 & E5); [|lia].
    apply rbind_ok in H as (ix & p3 & H3 & H). apply rlift_ok in H3 as [H3 ->].
    apply rlift_ok in H as [H ->]. pose proof H as H'. unfold bucket_vocab_new in H'.
    apply bind_ok in H' as (idx & Hi & E). injection E as <-.
    split; [easy|]. split; [eapply BuiltBucket; eassumption|]. split; [easy|]. split; [|easy].
    exists bs. simpl. split; [easy|]. lia.
  - unfold fasttext_vocab_read_chunk in H. apply rbind_ok in H as ([[[n mn] mx] b] & p1 & H1 & H).
    apply read4_u64 in H1.
    apply rbind_ok in H as (ws & p2 & H2 & H). apply read_items_ok in H2 as (L & bs & F & E4 & E5); [|lia].
    apply rbind_ok in H as (ix & p3 & H3 & H). apply rlift_ok in H3 as [H3 ->].
    apply rlift_ok in H as [H ->]. pose proof H as H'. unfold fasttext_vocab_new in H'.
    apply bind_ok in H' as (idx & Hi & E). injection E as <-.
    split; [easy|]. split; [eapply BuiltFastText; eassumption|]. split; [easy|]. split; [|easy].
    exists bs. simpl. split; [easy|]. lia.
  - unfold explicit_vocab_read_chunk in H. apply rbind_ok in H as ([[[n gn] mn] mx] & p1 & H1 & H).
    apply read4_u64 in H1.
    apply rbind_ok in H as (ws & p2 & H2 & H). apply read_items_ok in H2 as (L & bs & F & E4 & E5); [|lia].
    apply rbind_ok in H as ([gs ixd] & p3 & H3 & H).
    apply read_ngrams_ok in H3 as (kvs & gbs & E6 & E7 & E8 & FK & FG & E9 & E10); [|lia].
    apply rbind_ok in H as (ix & p4 & H4 & H). apply rlift_ok in H4 as [H4 ->].
    apply rlift_ok in H as [H ->]. pose proof H as H'. unfold explicit_vocab_new in H'.
    apply bind_ok in H' as (idx & Hi & E). injection E as <-.
    assert (W : forall i, Some ixd = Some i -> dict_wf i).
    { intros i [= <-]. subst ixd. unfold dict_wf. apply (dict_of_NoDup_keys str_eqb str_eqb_eq). }
    pose proof (ex_new_inv _ _ _ _ _ W H4) as (I & Eg & _ & _ & Ei).
    assert (ND : NoDup gs) by (destruct I as (I & _); now rewrite Eg in I).
    assert (EK : ixd = kvs).
    { rewrite E7. apply (dict_of_id str_eqb str_eqb_eq). now rewrite <- E6. }
    split; [easy|]. split; [eapply BuiltExplicit; eassumption|].
    assert (Hgs : gs <> []).
    { intros Eg0. unfold ex_new in H4. apply bind_ok in H4 as (u1 & _ & H4).
      apply bind_ok in H4 as (m1 & _ & H4). apply bind_ok in H4 as (m2 & _ & H4).
      apply bind_ok in H4 as (u2 & _ & H4). apply bind_ok in H4 as (u3 & _ & H4).
      assert (X : map snd ixd = []).
      { rewrite EK. destruct kvs; [easy|]. now rewrite Eg0 in E6. }
      rewrite X in H4. easy. }
    split; [simpl; now rewrite Eg|]. split.
    + exists bs. split; [easy|]. exists gbs. rewrite Eg, Ei, EK. split; [easy|]. split.
      * apply Forall_forall. intros g Hg. rewrite E6 in Hg. apply in_map_iff in Hg as ([g' i] & Eg' & Hin).
        simpl in Eg'. subst g'. exists i. split.
        -- apply (In_dget str_eqb str_eqb_eq); auto. now rewrite <- E6.
        -- rewrite Forall_forall in FK. apply (FK _ Hin).
      * lia.
    + rewrite Ei, EK. eapply Forall_impl; [|exact FK]. intros a Ha. cbv beta in Ha. lia.
Qed.

