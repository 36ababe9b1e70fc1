(* Writing: success, exceptions and what a failed write leaves in the file. *)
From Coq Require Import Lia.
From Verif Require Import Py PyProofs Utf8 Utf8Proofs Utf8More SpecUtf8 IO IOProofs ReaderProofs FindProofs Arr Subword Vocab VocabProofs
  Storage StorageProofs StorageInv Chunks Embeddings EmbeddingsProofs InvProofs WriteProofs HeaderProofs Spec
  SpecFinalfusion PyText Compat SpecWrite ErrorProofs.
Local Open Scope N_scope.
Local Open Scope list_scope.

(* ---------------------------------------------------------------- *)
(* Success                                                           *)

Lemma size_items l n : strings_size l n ->
  exists bs, Forall2 item_bytes l bs /\ n = lenN l * 4 + sumN (map lenN bs).
Proof.
  intros (bs & H & ->). exists bs. split.
  - induction H as [|s b l bs [U L] H IH]; constructor; [|exact IH]. split; [now apply encode_iff|exact L].
  - rewrite N.mul_comm. f_equal. clear. induction bs as [|b bs IH]; [reflexivity|].
    cbn [concat map]. rewrite lenN_app, IH. unfold sumN. cbn. lia.
Qed.
Lemma Forall2_split {A B} (R : A -> B -> Prop) l1 l2 bs : Forall2 R (l1 ++ l2) bs ->
  exists b1 b2, bs = b1 ++ b2 /\ Forall2 R l1 b1 /\ Forall2 R l2 b2.
Proof. intros H. apply Forall2_app_inv_l in H as (b1 & b2 & H1 & H2 & ->). eauto. Qed.
Lemma sumN_app l1 l2 : sumN (l1 ++ l2) = sumN l1 + sumN l2.
Proof. unfold sumN. induction l1 as [|a l IH]; cbn; [reflexivity|]. rewrite IH. lia. Qed.

Lemma explicit_inv ws i ix : built_vocab (VExplicit ws i ix) -> ex_inv ix.
Proof.
  intros B. inversion B as [ws0 v0 E|ws0 e mn mx ix0 v0 E1 E|ws0 b mn mx ix0 v0 E1 E|ws' gs mn mx index ix' v' D E V].
  - unfold simple_vocab_new in E. destruct (validate_items_and_create_index ws0); discriminate.
  - unfold bucket_vocab_new in E. destruct (validate_items_and_create_index ws0); discriminate.
  - unfold fasttext_vocab_new in E. destruct (validate_items_and_create_index ws0); discriminate.
  - subst. unfold explicit_vocab_new in V. destruct (validate_items_and_create_index ws'); [|discriminate].
    cbn [bind] in V. injection V; clear V; intros; subst. now apply (ex_new_inv _ _ _ _ _ D E).
Qed.
Lemma fits_writable v : built_vocab v -> vocab_fits v -> vocab_writable v.
Proof.
  intros B ((n & S & L) & X). apply size_items in S as (bs & H & ->).
  unfold vocab_strings in *. apply Forall2_split in H as (b1 & b2 & -> & H1 & H2).
  rewrite map_app, sumN_app, lenN_app in L. unfold vocab_writable.
  exists b1. split; [exact H1|]. destruct v as [ws i|ws i ix|ws i ix|ws i ix]; cbn [vocab_words] in *;
    rewrite ssize_value; change (2 ^ 63) with 9223372036854775808 in L; unfold bytes, str in *; try lia.
  exists b2. split; [exact H2|]. split; [|lia].
  pose proof (explicit_inv _ _ _ B) as E.
  destruct E as (_ & _ & K & _). rewrite Forall_forall in X |- *. intros g G.
  apply K in G. apply (dget_Some_In str_eqb str_eqb_eq) in G as (z & G). exists z. split; [exact G|].
  apply (dget_In str_eqb str_eqb_eq) in G. exact (X _ G).
Qed.
Lemma fits_sizes s : storage_fits s -> storage_sizes s.
Proof.
  destruct s as [a|q]; cbn.
  - unfold ndarray_sizes. rewrite ssize_value. change (2 ^ 63) with 9223372036854775808. tauto.
  - unfold qarray_sizes, pq_reconstructed_len. rewrite ssize_value. change (2 ^ 63) with 9223372036854775808.
    set (x := lenN (pq_quantizers (qa_pq q))). set (y := pq_sub_len (qa_pq q)). set (z := pq_n_centroids (qa_pq q)).
    intros (H1 & H2 & H3 & H4 & H5). repeat (split; [assumption|]).
    replace (match pq_projection (qa_pq q) with Some _ => (x * y) ^ 2 * 4 | None => 0 end)
      with (match pq_projection (qa_pq q) with Some _ => 4 * (x * y) * (x * y) | None => 0 end)
      by (destruct (pq_projection (qa_pq q)); [rewrite N.pow_2_r; lia|reflexivity]).
    replace (match qa_norms q with Some (_, ns) => lenN ns * 4 | None => 0 end)
      with (match qa_norms q with Some (_, ns) => 4 * lenN ns | None => 0 end)
      by (destruct (qa_norms q) as [[? ?]|]; [lia|reflexivity]).
    replace (x * z * y * 4) with (4 * z * (x * y)) by lia. exact H5.
Qed.

Theorem write_succeeds h t e mb : built_embeddings e ->
  vocab_fits (em_vocab e) -> storage_fits (em_storage e) -> meta_bytes t (em_metadata e) mb ->
  (forall n, em_norms e = Some n -> lenN (nm_vals n) * 4 < 2 ^ 63) ->
  exists out, run_writer (em_write h t e) = (out, Ok tt).
Proof.
  intros B V S M N. apply (em_write_succeeds h t e B).
  - apply fits_writable; [apply B|exact V].
  - now apply fits_sizes.
  - intros n E. specialize (N n E). rewrite ssize_value. exact N.
  - intros m E. rewrite E in M. destruct M as (s & b & T & U & L & _). exists s, b.
    split; [exact T|]. split; [now apply encode_iff|exact L].
Qed.

(* ---------------------------------------------------------------- *)
(* Exceptions                                                        *)

Definition wonly (P : exn -> Prop) (w : writer) : Prop := forall p out x, w p = (out, Err x) -> P x.
Lemma wonly_ret (P : exn -> Prop) : wonly P wret.
Proof. discriminate. Qed.
Lemma wonly_bytes (P : exn -> Prop) b : wonly P (wbytes b).
Proof. discriminate. Qed.
Lemma wonly_seq (P : exn -> Prop) w1 w2 : wonly P w1 -> wonly P w2 -> wonly P (w1 ;w; w2).
Proof.
  intros H1 H2 p out x E. unfold wseq in E. destruct (w1 p) as [b1 [[]|y]] eqn:E1.
  - destruct (w2 (p + lenN b1)) as [b2 r2] eqn:E2. injection E as _ ->. exact (H2 _ _ _ E2).
  - injection E as _ <-. exact (H1 _ _ _ E1).
Qed.
Lemma wonly_let (P : exn -> Prop) {A} (r : result A) k : only P r -> (forall a, r = Ok a -> wonly P (k a)) -> wonly P (wlet r k).
Proof.
  intros H K. unfold wlet. destruct r as [a|y]; [now apply K|]. intros p out x E. injection E as _ <-. now apply H.
Qed.
Lemma wonly_tell (P : exn -> Prop) k : (forall p, wonly P (k p)) -> wonly P (wtell k).
Proof. intros H p. exact (H p p). Qed.
Lemma wonly_for (P : exn -> Prop) {A} (f : A -> writer) l : (forall a, In a l -> wonly P (f a)) -> wonly P (wfor f l).
Proof.
  induction l as [|a l IH]; intros H; cbn [wfor]; [apply wonly_ret|].
  apply wonly_seq; [apply H; now left|]. apply IH. intros b I. apply H. now right.
Qed.
Lemma only_pack_field (P : exn -> Prop) f v : P StructError -> only P (pack_field f v).
Proof. intros H. unfold pack_field. repeat only_step. Qed.
Lemma only_pack (P : exn -> Prop) fmt : P StructError -> forall vs, only P (pack fmt vs).
Proof.
  intros H. induction fmt as [|f fmt IH]; intros vs; cbn [pack]; [repeat only_step|].
  destruct f; repeat ((apply only_pack_field; assumption) || apply IH || only_step).
Qed.
Lemma wonly_binary (P : exn -> Prop) fmt vs : P StructError -> wonly P (write_binary fmt vs).
Proof. intros H. apply wonly_let; [now apply only_pack|]. intros. apply wonly_bytes. Qed.
Lemma wonly_array (P : exn -> Prop) h bo l : wonly P (serialize_array_as_le h bo l).
Proof. intros p out x E. destruct (succeeds_array h bo l p) as (b & S). congruence. Qed.
Lemma only_utf8 (P : exn -> Prop) s : P UnicodeEncodeError -> only P (utf8_encode s).
Proof. intros H x E. apply encode_error in E as (-> & _). exact H. Qed.

Section Errors.
  Variable P : exn -> Prop.
  Hypotheses (HS : P StructError) (HU : P UnicodeEncodeError).
  Lemma only_sum l : only P (bytes_len_sum l).
  Proof. apply only_bind; [apply only_mapM; intros; now apply only_utf8|intros; apply only_ok]. Qed.
  Lemma only_size l : only P (calculate_binary_list_size l).
  Proof. apply only_bind; [apply only_sum|intros; apply only_ok]. Qed.
  Lemma wonly_words l : wonly P (write_words_binary l).
  Proof.
    apply wonly_for. intros w _. apply wonly_let; [now apply only_utf8|]. intros b _.
    apply wonly_seq; [now apply wonly_binary|apply wonly_bytes].
  Qed.
  Lemma wonly_vocab v : built_vocab v -> wonly P (vocab_write_chunk v).
  Proof.
    intros B. assert (BK : forall c ws mn mx b, wonly P (write_bucket_vocab c ws mn mx b)).
    { intros. apply wonly_let; [apply only_size|]. intros n _.
      apply wonly_seq; [now apply wonly_binary|apply wonly_words]. }
    destruct v as [ws i|ws i ix|ws i ix|ws i ix]; cbn [vocab_write_chunk]; try apply BK.
    - apply wonly_seq; [now apply wonly_binary|]. apply wonly_let; [apply only_sum|]. intros n _.
      apply wonly_seq; [now apply wonly_binary|apply wonly_words].
    - apply wonly_let; [apply only_size|]. intros n _. apply wonly_let; [apply only_size|]. intros m _.
      apply wonly_seq; [now apply wonly_binary|]. apply wonly_seq; [apply wonly_words|].
      apply wonly_for. intros g G. apply wonly_let; [now apply only_utf8|]. intros b _.
      apply wonly_seq; [now apply wonly_binary|]. apply wonly_seq; [apply wonly_bytes|].
      apply wonly_let; [|intros; now apply wonly_binary].
      apply explicit_inv in B as (_ & _ & K & _). apply K in G.
      apply (dget_Some_In str_eqb str_eqb_eq) in G as (z & G).
      unfold ex_getitem. unfold sget in *. rewrite G. apply only_ok.
  Qed.
  Lemma wonly_storage h s : wonly P (storage_write_chunk h s).
  Proof.
    destruct s as [a|q]; cbn [storage_write_chunk].
    - apply wonly_seq; [now apply wonly_binary|]. apply wonly_tell. intros p.
      repeat ((apply wonly_binary; assumption) || apply wonly_array || apply wonly_seq).
    - apply wonly_seq; [now apply wonly_binary|]. apply wonly_tell. intros p. cbv zeta.
      apply wonly_seq; [now apply wonly_binary|]. apply wonly_seq; [now apply wonly_binary|].
      apply wonly_seq; [destruct (pq_projection (qa_pq q)) as [[? ?]|]; [apply wonly_array|apply wonly_ret]|].
      apply wonly_seq; [apply wonly_array|].
      apply wonly_seq; [destruct (qa_norms q) as [[? ?]|]; [apply wonly_array|apply wonly_ret]|apply wonly_bytes].
  Qed.
  Lemma wonly_norms h n : wonly P (norms_write_chunk h n).
  Proof.
    apply wonly_seq; [now apply wonly_binary|]. apply wonly_tell. intros p.
    apply wonly_seq; [now apply wonly_binary|apply wonly_array].
  Qed.
  Lemma wonly_metadata t m : (forall x, toml_dumps t m = Err x -> P x) -> wonly P (metadata_write_chunk t m).
  Proof.
    intros H. apply wonly_let.
    - apply only_bind; [exact H|]. intros s _. now apply only_utf8.
    - intros b _. apply wonly_seq; [now apply wonly_binary|apply wonly_bytes].
  Qed.
  Lemma wonly_header ids : wonly P (header_write_chunk ids).
  Proof. apply wonly_seq; [apply wonly_bytes|now apply wonly_binary]. Qed.
  Lemma wonly_em h t e : built_embeddings e ->
    (forall m x, em_metadata e = Some m -> toml_dumps t m = Err x -> P x) -> wonly P (em_write h t e).
  Proof.
    intros (_ & BV & _) HM. apply wonly_seq; [apply wonly_header|]. apply wonly_for.
    intros [c w] I. cbn [snd]. unfold em_chunks in I. apply in_app_or in I as [I|I].
    { destruct (em_metadata e) as [m|]; [|destruct I]. destruct I as [[= <- <-]|[]].
      apply wonly_metadata. intros x. now apply HM. }
    apply in_app_or in I as [[[= <- <-]|[]]|I]; [now apply wonly_vocab|].
    apply in_app_or in I as [[[= <- <-]|[]]|I]; [apply wonly_storage|].
    destruct (em_norms e) as [n|]; [|destruct I]. destruct I as [[= <- <-]|[]]. apply wonly_norms.
  Qed.
End Errors.

Theorem write_errors h t e out x : built_embeddings e -> run_writer (em_write h t e) = (out, Err x) ->
  x = StructError \/ x = UnicodeEncodeError \/ (exists m, em_metadata e = Some m /\ toml_dumps t m = Err x).
Proof.
  intros B. apply (wonly_em (fun x => x = StructError \/ x = UnicodeEncodeError
    \/ (exists m, em_metadata e = Some m /\ toml_dumps t m = Err x))); try tauto.
  intros m y E T. right. right. now exists m.
Qed.
Theorem vocab_write_errors v out x : built_vocab v ->
  run_writer (chunk_write (vocab_chunk_id v) (vocab_write_chunk v)) = (out, Err x) ->
  x = StructError \/ x = UnicodeEncodeError.
Proof.
  intros B. set (P := fun x => x = StructError \/ x = UnicodeEncodeError).
  assert (W : wonly P (chunk_write (vocab_chunk_id v) (vocab_write_chunk v))).
  { unfold chunk_write. replace (chunk_id_eqb (vocab_chunk_id v) CHeader) with false by (destruct v; reflexivity).
    unfold P. apply wonly_seq; [apply wonly_header; tauto|]. apply wonly_vocab; tauto. }
  exact (W 0 out x).
Qed.

(* ---------------------------------------------------------------- *)
(* What is left                                                      *)

Lemma sum_fails l : unwritable l -> bytes_len_sum l = Err UnicodeEncodeError.
Proof.
  intros H. unfold bytes_len_sum. assert (M : mapM utf8_encode l = Err UnicodeEncodeError); [|now rewrite M].
  induction H as [s l H|s l H IH]; cbn [mapM].
  - assert (E : utf8_encode s = Err UnicodeEncodeError) by (apply encode_error; now split). now rewrite E.
  - destruct (utf8_encode s) as [b|x] eqn:E; cbn [bind]; [now rewrite IH|].
    apply encode_error in E as (-> & _). reflexivity.
Qed.
Lemma size_fails l : unwritable l -> calculate_binary_list_size l = Err UnicodeEncodeError.
Proof. intros H. unfold calculate_binary_list_size. now rewrite sum_fails. Qed.
Lemma size_error l x : calculate_binary_list_size l = Err x -> x = UnicodeEncodeError.
Proof.
  revert x. change (only (fun x => x = UnicodeEncodeError) (calculate_binary_list_size l)).
  apply only_bind; [|intros; apply only_ok]. apply only_bind; [|intros; apply only_ok].
  apply only_mapM. intros. now apply only_utf8.
Qed.
Lemma vocab_fails v p : unwritable (vocab_strings v) ->
  vocab_write_chunk v p = (vocab_stub v, Err UnicodeEncodeError).
Proof.
  intros H. unfold vocab_strings in H.
  destruct v as [ws i|ws i ix|ws i ix|ws i ix]; cbn [vocab_words vocab_write_chunk] in *;
    [rewrite app_nil_r in H..|].
  - unfold simple_vocab_write_chunk, write_binary, wseq, wlet. rewrite (sum_fails _ H). reflexivity.
  - unfold write_bucket_vocab. rewrite (size_fails _ H). reflexivity.
  - unfold write_bucket_vocab. rewrite (size_fails _ H). reflexivity.
  - unfold explicit_vocab_write_chunk. destruct (calculate_binary_list_size ws) as [n|x] eqn:E; cbn [wlet].
    + apply Exists_app in H as [H|H]; [rewrite (size_fails _ H) in E; discriminate|].
      rewrite (size_fails _ H). reflexivity.
    + apply size_error in E. now subst.
Qed.
Lemma meta_writes t m s body p : toml_dumps t m = Ok s -> utf8_of s body -> lenN body < 2 ^ 64 ->
  metadata_write_chunk t m p = (chunk_bytes CMetadata body, Ok tt).
Proof.
  intros T U L. unfold metadata_write_chunk. rewrite T. cbn [bind]. apply encode_iff in U. rewrite U. cbn [wlet].
  unfold wseq, write_binary.
  assert (K : pack [fU32; fU64] [chunk_id_val CMetadata; Z.of_nat (length body)]
              = Ok (le_bytes 4 5 ++ le_bytes 8 (lenN body))).
  { cbn [pack chunk_id_val]. change (pack_field fU32 5) with (@Ok bytes (le_bytes 4 5)). cbn [bind].
    unfold pack_field, in_range. destruct (Z.leb_spec 0 (Z.of_nat (length body))); [|lia].
    destruct (Z.ltb_spec (Z.of_nat (length body)) (2 ^ 64)); [|unfold lenN in L; lia].
    cbn [andb bind]. rewrite app_nil_r. unfold lenN. now rewrite <- nat_N_Z, N2Z.id. }
  rewrite K. cbn [wlet wbytes]. unfold chunk_bytes. cbn [chunk_id_val]. rewrite <- app_assoc. reflexivity.
Qed.
Lemma chunk_numbers_eq h t e : map (fun c => chunk_id_val (fst c)) (em_chunks h t e) = chunk_numbers e.
Proof.
  unfold em_chunks, chunk_numbers. destruct (em_metadata e), (em_norms e), (em_vocab e), (em_storage e); reflexivity.
Qed.
Lemma chunk_numbers_valid {F} (e : embeddings F) : valid_ids (chunk_numbers e).
Proof.
  unfold chunk_numbers, valid_ids.
  destruct (em_metadata e), (em_norms e), (em_vocab e), (em_storage e);
    (split; [discriminate|]); (split; [reflexivity|]); repeat constructor; lia.
Qed.
Lemma header_written h t e p :
  header_write_chunk (map (fun c => chunk_id_val (fst c)) (em_chunks h t e)) p = (file_header (chunk_numbers e), Ok tt).
Proof.
  rewrite chunk_numbers_eq. destruct (chunk_numbers_valid e) as (_ & V1 & V2). now apply header_bytes.
Qed.

Theorem word_fails h t e mb old : meta_bytes t (em_metadata e) mb -> unwritable (vocab_strings (em_vocab e)) ->
  em_write_file h t e old
  = (Some (file_header (chunk_numbers e) ++ mb ++ vocab_stub (em_vocab e)), Err UnicodeEncodeError).
Proof.
  intros M H. unfold em_write_file, open_wb, run_writer, em_write.
  unfold wseq at 1. rewrite header_written. unfold em_chunks.
  destruct (em_metadata e) as [m|]; cbn [app wfor snd].
  - destruct M as (s & body & T & U & L & ->).
    unfold wseq at 1. rewrite (meta_writes _ _ _ _ _ T U L). unfold wseq at 1.
    rewrite (vocab_fails _ _ H). reflexivity.
  - cbn in M. subst mb. unfold wseq at 1. rewrite (vocab_fails _ _ H). reflexivity.
Qed.
Theorem toml_fails h t e m x old : em_metadata e = Some m ->
  toml_dumps t m = Err x \/ (x = UnicodeEncodeError /\ exists s, toml_dumps t m = Ok s /\ ~ Forall scalar s) ->
  em_write_file h t e old = (Some (file_header (chunk_numbers e)), Err x).
Proof.
  intros M H. unfold em_write_file, open_wb, run_writer, em_write.
  unfold wseq at 1. rewrite header_written. unfold em_chunks. rewrite M. cbn [app wfor snd].
  assert (W : forall p, metadata_write_chunk t m p = ([], Err x)).
  { intros p. unfold metadata_write_chunk. destruct H as [H|(-> & s & H & S)]; rewrite H; [reflexivity|]. cbn [bind].
    assert (E : utf8_encode s = Err UnicodeEncodeError) by (apply encode_error; now split). now rewrite E. }
  unfold wseq at 1. rewrite W. rewrite app_nil_r. reflexivity.
Qed.

(* it cannot be loaded *)
Lemma short_header d p : p <= lenN d -> lenN d < p + 12 -> read_required_chunk_header d p = Err FormatError.
Proof.
  intros L1 L2. unfold read_required_chunk_header, read_chunk_header, read_binary, rbind, read.
  cbn [calcsize field_size]. change (ssize_limit <=? N.of_nat _) with false. cbv iota beta zeta.
  change (8 + 0)%nat with 8%nat. change (4 + 8)%nat with 12%nat.
  pose proof (lenN_takeN (N.of_nat 12) (dropN p d)) as X. rewrite lenN_dropN in X.
  set (b := takeN (N.of_nat 12) (dropN p d)) in *.
  assert (B : (length b < 12)%nat) by (unfold lenN in *; lia).
  destruct (Nat.eqb (length b) 0); [reflexivity|].
  destruct (Nat.eqb_spec (length b) 12) as [Y|Y]; [lia|]. reflexivity.
Qed.
Theorem left_over h t mm (e : embeddings f32) mb stub : toml_roundtrips t (em_metadata e) ->
  (mb = [] \/ meta_bytes t (em_metadata e) mb) -> lenN stub < 12 ->
  let d := file_header (chunk_numbers e) ++ mb ++ stub in
  lenN d < ssize_limit -> run_reader (load_finalfusion h t mm) d = Err FormatError.
Proof.
  intros T M S d L.
  assert (H : header_read_chunk d 0 = Ok (chunk_numbers e, lenN (file_header (chunk_numbers e)))).
  { apply header_read_spec; [exact L|]. split; [apply chunk_numbers_valid|]. split; [reflexivity|]. now exists (mb ++ stub). }
  set (hd := file_header (chunk_numbers e)) in *.
  assert (LD : lenN d = lenN hd + (lenN mb + lenN stub)) by (unfold d; rewrite !lenN_app; lia).
  unfold run_reader, load_finalfusion. rewrite (rbind_step _ _ _ _ _ _ H).
  assert (Z : mb = [] -> read_required_chunk_header d (lenN hd) = Err FormatError).
  { intros ->. change (lenN []) with 0 in LD. apply short_header; lia. }
  destruct M as [->|M]; [unfold rbind at 1; now rewrite Z|].
  destruct (em_metadata e) as [m|]; cbn [meta_bytes] in M; [|subst mb; unfold rbind at 1; now rewrite Z].
  destruct M as (s & body & D & U & B & E).
  pose proof (meta_writes t m s body (lenN hd) D U B) as W. rewrite <- E in W.
  assert (A : at_pos d (lenN hd) mb) by (exists hd, stub; split; reflexivity).
  destruct (metadata_roundtrip t m _ _ _ T W A L) as (L12 & FM & RM).
  rewrite (rbind_step _ _ _ _ _ _ (read_required_chunk_header_at _ _ _ _ (N2Z.is_nonneg _) FM)). cbn [fst].
  unfold rbind at 1. rewrite (rbind_step _ _ _ _ _ _ RM). unfold rbind at 1.
  rewrite short_header by lia. reflexivity.
Qed.
