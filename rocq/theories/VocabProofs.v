(* Facts about vocabularies: construction and serialization. *)
From Coq Require Import Lia FinFun.
From Verif Require Import Py PyProofs Utf8 Utf8Proofs IO IOProofs Subword Vocab Arr Storage Chunks
  Embeddings Spec.

Definition sumN (l : list N) : N := fold_right N.add 0 l.
Lemma fold_left_add l a : fold_left N.add l a = a + sumN l.
Proof.
  revert a; induction l as [|x l IH]; intros a; simpl; [lia|]. rewrite IH; lia.
Qed.

(* ---------------------------------------------------------------- *)
(* construction                                                      *)

Lemma validate_ok items idx :
  validate_items_and_create_index items = Ok idx -> NoDup items /\ idx = enumerate items.
Proof.
  unfold validate_items_and_create_index. intros H.
  apply bind_ok in H as (u & Hu & H). apply py_assert_ok, Nat.eqb_eq in Hu.
  apply bind_ok in H as (u' & Hu' & H). injection H as <-.
  assert (N : NoDup (map fst (enumerate items))).
  { apply (dict_of_length str_eqb str_eqb_eq). unfold enumerate at 2.
    rewrite enumerate_from_length. now symmetry. }
  unfold enumerate in N at 1. rewrite enumerate_from_fst in N.
  split; [easy|]. apply (dict_of_id str_eqb str_eqb_eq).
  unfold enumerate. now rewrite enumerate_from_fst.
Qed.

Lemma validate_NoDup items :
  NoDup items -> validate_items_and_create_index items = Ok (enumerate items).
Proof.
  intros H. unfold validate_items_and_create_index.
  assert (E : dict_of str_eqb (enumerate items) = enumerate items).
  { apply (dict_of_id str_eqb str_eqb_eq). unfold enumerate. now rewrite enumerate_from_fst. }
  rewrite E.
  assert (L : length (enumerate items) = length items) by apply enumerate_from_length.
  now rewrite L, Nat.eqb_refl.
Qed.

Lemma validate_dup items :
  ~ NoDup items -> validate_items_and_create_index items = Err AssertionError.
Proof.
  intros H. unfold validate_items_and_create_index.
  destruct (Nat.eqb_spec (length items) (length (dict_of str_eqb (enumerate items)))) as [E|E].
  - exfalso; apply H. symmetry in E.
    rewrite <- (enumerate_from_length 0%Z items) in E.
    apply (dict_of_length str_eqb str_eqb_eq) in E.
    unfold enumerate in E. now rewrite enumerate_from_fst in E.
  - easy.
Qed.

Lemma NoDup_dec_str (l : list str) : NoDup l \/ ~ NoDup l.
Proof.
  destruct (Nat.eq_dec (length (dedup str_eqb l)) (length l)) as [E|E].
  - left. now apply (dedup_length_NoDup str_eqb str_eqb_eq).
  - right. intros H. apply E. now apply (dedup_length_NoDup str_eqb str_eqb_eq).
Qed.

(* ---------------------------------------------------------------- *)
(* indexers are determined by the parameters that are serialized      *)

Lemma to_uint32_ok z n : to_uint32 z = Ok n -> Z.of_N n = z /\ n < 2 ^ 32.
Proof.
  unfold to_uint32. destruct (in_range 0 (2 ^ 32) z) eqn:E; [|easy].
  intros [= <-]. apply in_range_spec in E. lia.
Qed.
Lemma to_uint32_of_N n : n < 2 ^ 32 -> to_uint32 (Z.of_N n) = Ok n.
Proof.
  intros H. unfold to_uint32.
  rewrite (proj2 (in_range_spec 0 (2 ^ 32) (Z.of_N n))) by lia. now rewrite N2Z.id.
Qed.

Lemma range_check_ok a b u :
  py_assert ((a <=? b) && (0 <? a))%Z = Ok u -> (0 < a <= b)%Z.
Proof.
  intros H. apply py_assert_ok, andb_true_iff in H as [H1 H2].
  apply Z.leb_le in H1. apply Z.ltb_lt in H2. lia.
Qed.
Lemma range_check a b : (0 < a <= b)%Z -> py_assert ((a <=? b) && (0 <? a))%Z = Ok tt.
Proof.
  intros H. rewrite (proj2 (Z.leb_le a b)), (proj2 (Z.ltb_lt 0 a)) by lia. easy.
Qed.

Lemma ff_new_ok e mn mx ix :
  ff_new e mn mx = Ok ix ->
  Z.of_N (ff_exp ix) = e /\ Z.of_N (ff_min_n ix) = mn /\ Z.of_N (ff_max_n ix) = mx
  /\ (0 < mn <= mx)%Z /\ (0 < e < 64)%Z /\ (mx < 2 ^ 32)%Z.
Proof.
  unfold ff_new. intros H.
  apply bind_ok in H as (u & H1 & H). apply range_check_ok in H1.
  apply bind_ok in H as (u' & H2 & H).
  apply py_assert_ok, andb_true_iff in H2 as [H2 H3].
  apply Z.ltb_lt in H2, H3.
  apply bind_ok in H as (a & Ha & H). apply bind_ok in H as (b & Hb & H).
  injection H as <-. apply to_uint32_ok in Ha, Hb. simpl. lia.
Qed.
Lemma ff_new_again e mn mx ix :
  ff_new e mn mx = Ok ix ->
  ff_new (Z.of_N (ff_exp ix)) (Z.of_N (ff_min_n ix)) (Z.of_N (ff_max_n ix)) = Ok ix.
Proof. intros H. destruct (ff_new_ok _ _ _ _ H) as (-> & -> & -> & _). easy. Qed.

Lemma ft_new_ok b mn mx ix :
  ft_new b mn mx = Ok ix ->
  Z.of_N (ft_buckets ix) = b /\ Z.of_N (ft_min_n ix) = mn /\ Z.of_N (ft_max_n ix) = mx
  /\ (0 < mn <= mx)%Z /\ (0 < b < 2 ^ 32)%Z /\ (mx < 2 ^ 32)%Z.
Proof.
  unfold ft_new. intros H.
  apply bind_ok in H as (u & H1 & H). apply range_check_ok in H1.
  apply bind_ok in H as (u' & H2 & H).
  apply py_assert_ok, andb_true_iff in H2 as [H2 H3].
  apply Z.ltb_lt in H2. apply Z.leb_le in H3.
  apply bind_ok in H as (x & Ha & H). apply bind_ok in H as (y & Hb & H).
  injection H as <-. apply to_uint32_ok in Ha, Hb. simpl. lia.
Qed.
Lemma ft_new_again b mn mx ix :
  ft_new b mn mx = Ok ix ->
  ft_new (Z.of_N (ft_buckets ix)) (Z.of_N (ft_min_n ix)) (Z.of_N (ft_max_n ix)) = Ok ix.
Proof. intros H. destruct (ft_new_ok _ _ _ _ H) as (-> & -> & -> & _). easy. Qed.

(* what the explicit indexer guarantees *)
Definition ex_inv (ix : ex_indexer) : Prop :=
  NoDup (ex_ngrams ix)
  /\ NoDup (map fst (ex_index ix))
  /\ (forall g, In g (map fst (ex_index ix)) <-> In g (ex_ngrams ix))
  /\ 0 < ex_min_n ix <= ex_max_n ix /\ ex_max_n ix < 2 ^ 32.

Lemma NoDup_same_length_incl (a b : list str) :
  NoDup a -> NoDup b -> length a = length b -> incl a b -> (forall g, In g b <-> In g a).
Proof.
  intros Ha Hb L I g. split; [|apply I].
  apply (NoDup_length_incl Ha); [lia|easy].
Qed.

Lemma ex_new_inv ngrams mn mx index ix :
  (forall i, index = Some i -> dict_wf i) ->
  ex_new ngrams mn mx index = Ok ix ->
  ex_inv ix /\ ex_ngrams ix = ngrams /\ Z.of_N (ex_min_n ix) = mn /\ Z.of_N (ex_max_n ix) = mx
  /\ match index with
     | None => ex_index ix = enumerate ngrams
     | Some i => ex_index ix = i
     end.
Proof.
  unfold ex_new. intros Hd H.
  apply bind_ok in H as (u & H1 & H). apply range_check_ok in H1.
  apply bind_ok in H as (a & Ha & H). apply bind_ok in H as (b & Hb & H).
  apply to_uint32_ok in Ha, Hb.
  destruct index as [i|].
  - apply bind_ok in H as (u2 & H2 & H). apply py_assert_ok, Nat.eqb_eq in H2.
    apply bind_ok in H as (u3 & H3 & H). apply py_assert_ok, andb_true_iff in H3 as [H3 H4].
    apply Nat.eqb_eq in H4.
    apply bind_ok in H as (m & Hm & H). apply bind_ok in H as (u4 & H5 & H).
    injection H as <-. unfold ex_inv; simpl.
    apply (dedup_length_NoDup str_eqb str_eqb_eq) in H2.
    rewrite (dedup_id str_eqb str_eqb_eq) in H3 by easy.
    rewrite forallb_forall in H3.
    specialize (Hd i eq_refl). unfold dict_wf in Hd.
    repeat split; try easy; try lia.
    + apply (NoDup_same_length_incl ngrams (map fst i)); auto.
      * now rewrite map_length.
      * intros x Hx. apply (dmem_In str_eqb str_eqb_eq), H3, Hx.
    + intros Hg. apply (dmem_In str_eqb str_eqb_eq), H3, Hg.
  - apply bind_ok in H as (u2 & H2 & H). apply py_assert_ok, Nat.eqb_eq in H2.
    injection H as <-. unfold ex_inv; simpl.
    assert (N : NoDup (map fst (enumerate ngrams))).
    { apply (dict_of_length str_eqb str_eqb_eq). unfold enumerate at 2.
      rewrite enumerate_from_length. now symmetry. }
    rewrite (dict_of_id str_eqb str_eqb_eq) by easy.
    assert (E : map fst (enumerate ngrams) = ngrams) by apply enumerate_from_fst.
    rewrite E in *. repeat split; try easy; try lia.
Qed.

(* the n-gram index that is read back *)
Definition reread_index (ix : ex_indexer) (vals : list Z) : dict str Z :=
  combine (ex_ngrams ix) vals.

Lemma mapM_ok_nth {A B} (f : A -> result B) l bs :
  mapM f l = Ok bs -> Forall2 (fun a b => f a = Ok b) l bs.
Proof.
  revert bs; induction l as [|a l IH]; intros bs H.
  - injection H as <-. constructor.
  - simpl in H. apply bind_ok in H as (b & Hb & H). apply bind_ok in H as (bs' & Hbs & H).
    injection H as <-. constructor; auto.
Qed.
Lemma Forall2_mapM {A B} (f : A -> result B) l bs :
  Forall2 (fun a b => f a = Ok b) l bs -> mapM f l = Ok bs.
Proof.
  induction 1 as [|a b l bs H1 H2 IH]; [easy|]. simpl. now rewrite H1, IH.
Qed.
Lemma Forall2_len {A B} (R : A -> B -> Prop) l m : Forall2 R l m -> length l = length m.
Proof. induction 1; simpl; auto. Qed.
Lemma mapM_len {A B} (f : A -> result B) l bs : mapM f l = Ok bs -> length bs = length l.
Proof. intros H. apply mapM_ok_nth, Forall2_len in H. now symmetry. Qed.

(* ---------------------------------------------------------------- *)
(* word lists                                                        *)

Lemma bytes_len_sum_ok ws bs :
  mapM utf8_encode ws = Ok bs -> bytes_len_sum ws = Ok (sumN (map lenN bs)).
Proof.
  intros H. unfold bytes_len_sum. rewrite H. simpl. now rewrite fold_left_add.
Qed.
Lemma bytes_len_sum_inv ws n :
  bytes_len_sum ws = Ok n -> exists bs, mapM utf8_encode ws = Ok bs /\ n = sumN (map lenN bs).
Proof.
  intros H. apply bind_ok in H as (bs & Hb & H). injection H as <-.
  rewrite fold_left_add. eauto.
Qed.

Lemma write_item_ok b p out :
  (write_binary [fU32] [Z.of_nat (length b)] ;w; wbytes b) p = (out, Ok tt) ->
  exists h, pack [fU32] [Z.of_nat (length b)] = Ok h /\ out = h ++ b /\ lenN h = 4.
Proof.
  intros H. apply wseq_ok in H as (h & b' & H1 & H2 & ->).
  apply write_binary_ok in H1. apply wbytes_ok in H2. subst b'.
  exists h. split; [easy|]. split; [easy|]. now apply pack_lenN in H1.
Qed.

Lemma read_item_at w b h d p :
  utf8_encode w = Ok b -> pack [fU32] [Z.of_nat (length b)] = Ok h ->
  at_pos d p (h ++ b) -> lenN d < ssize_limit ->
  read_item d p = Ok (w, p + lenN (h ++ b)).
Proof.
  intros Hw Hh A L. apply at_pos_app in A as [A1 A2].
  assert (L4 : lenN h = 4) by (now apply pack_lenN in Hh).
  assert (F : fields_at d p [fU32] [Z.of_nat (length b)]) by (exists h; auto).
  unfold read_item. rstep (read_u32 _ _ _ F).
  rewrite L4 in A2. pose proof (at_pos_bound _ _ _ A2).
  replace (Z.to_N (Z.of_nat (length b))) with (lenN b) by (unfold lenN; lia).
  erewrite rbind_step by (apply read_at; [exact A2 | lia]).
  unfold rlift. rewrite (utf8_decode_encode _ _ Hw). rewrite lenN_app, L4.
  do 2 f_equal. lia.
Qed.

Lemma words_roundtrip ws p out d :
  write_words_binary ws p = (out, Ok tt) -> at_pos d p out -> lenN d < ssize_limit ->
  read_items (lenN ws) d p = Ok (ws, p + lenN out)
  /\ exists n, bytes_len_sum ws = Ok n /\ lenN out = n + lenN ws * 4.
Proof.
  unfold read_items. rewrite to_nat_lenN. revert p out.
  induction ws as [|w ws IH]; intros p out H A L.
  - unfold write_words_binary in H. simpl in H. apply wret_ok in H. subst out.
    split; [|exists 0; easy]. simpl. unfold rret. do 2 f_equal. rewrite lenN_nil. lia.
  - unfold write_words_binary in H. cbn [wfor] in H.
    apply wseq_ok in H as (o1 & o2 & H1 & H2 & ->).
    apply wlet_ok in H1 as (b & Hb & H1).
    apply write_item_ok in H1 as (h & Hh & -> & L4).
    apply at_pos_app in A as [A1 A2].
    destruct (IH _ _ H2 A2 L) as (IH1 & n & IHn & IHl).
    split.
    + cbn [length rrepeat]. rstep (read_item_at _ _ _ _ _ Hb Hh A1 L).
      erewrite rbind_step by exact IH1. unfold rret. do 2 f_equal. rewrite !lenN_app. lia.
    + exists (lenN b + n). split.
      * unfold bytes_len_sum in *. apply bind_ok in IHn as (bs & Hbs & IHn).
        cbn [mapM]. rewrite Hb, Hbs. cbn [bind]. injection IHn as <-.
        f_equal. cbn [map]. rewrite !fold_left_add. simpl. lia.
      * rewrite !lenN_app, L4, IHl, lenN_cons. lia.
Qed.

(* position independence of the length: the writer appends the same bytes anywhere *)

Lemma ngrams_roundtrip ix gs p out d :
  wfor (write_ngram ix) gs p = (out, Ok tt) -> at_pos d p out -> lenN d < ssize_limit ->
  exists vals, mapM (ex_getitem ix) gs = Ok vals
  /\ rrepeat (length gs) read_item_with_index d p = Ok (combine gs vals, p + lenN out)
  /\ Forall (fun v => (0 <= v < 2 ^ 64)%Z) vals
  /\ exists n, bytes_len_sum gs = Ok n /\ lenN out = n + lenN gs * 12.
Proof.
  revert p out. induction gs as [|g gs IH]; intros p out H A L.
  - simpl in H. apply wret_ok in H. subst out. exists [].
    split; [easy|]. split; [|split; [constructor|exists 0; easy]].
    simpl. unfold rret. do 2 f_equal. rewrite lenN_nil. lia.
  - cbn [wfor] in H. apply wseq_ok in H as (o1 & o2 & H1 & H2 & ->).
    unfold write_ngram in H1. apply wlet_ok in H1 as (b & Hb & H1).
    apply wseq_ok in H1 as (h & o1' & Hh & H1 & ->). apply write_binary_ok in Hh.
    apply wseq_ok in H1 as (b' & o3 & Hb' & H1 & ->). apply wbytes_ok in Hb'. subst b'.
    apply wlet_ok in H1 as (v & Hv & H1). apply write_binary_ok in H1.
    rewrite app_assoc in A, H2. rewrite app_assoc.
    apply at_pos_app in A as [A A2]. apply at_pos_app in A as [A1 A3].
    destruct (IH _ _ H2 A2 L) as (vals & Hvals & IH1 & IHf & n & IHn & IHl).
    assert (F : fields_at d (p + lenN (h ++ b)) [fU64] [v]) by (exists o3; auto).
    exists (v :: vals).
    assert (L4 : lenN h = 4) by (now apply pack_lenN in Hh).
    assert (L8 : lenN o3 = 8) by (now apply pack_lenN in H1).
    split; [|split; [|split]].
    + simpl. now rewrite Hv, Hvals.
    + cbn [length rrepeat combine].
      assert (R : read_item_with_index d p = Ok ((g, v), p + lenN (h ++ b) + 8)).
      { unfold read_item_with_index. rstep (read_item_at _ _ _ _ _ Hb Hh A1 L).
        rstep (read_u64 _ _ _ F). easy. }
      rstep R. 
      replace (p + lenN ((h ++ b) ++ o3)) with (p + lenN (h ++ b) + 8) in IH1
        by (rewrite (lenN_app _ o3); lia).
      erewrite rbind_step by exact IH1. unfold rret. do 2 f_equal. rewrite !lenN_app. lia.
    + constructor; [|easy]. now apply fields_at_u64_range in F.
    + exists (lenN b + n). split.
      * unfold bytes_len_sum in *. apply bind_ok in IHn as (bs & Hbs & IHn).
        cbn [mapM]. rewrite Hb, Hbs. cbn [bind]. injection IHn as <-.
        f_equal. cbn [map]. rewrite !fold_left_add. simpl. lia.
      * rewrite !lenN_app, L4, L8, IHl, lenN_cons. lia.
Qed.

(* ---------------------------------------------------------------- *)
(* vocabulary chunks                                                 *)

Lemma combine_map_fst {A B} (l : list A) (m : list B) :
  length l = length m -> map fst (combine l m) = l.
Proof.
  revert m; induction l as [|a l IH]; intros [|b m]; simpl; try easy.
  intros [= E]. now rewrite IH.
Qed.
Lemma combine_map_snd {A B} (l : list A) (m : list B) :
  length l = length m -> map snd (combine l m) = m.
Proof.
  revert m; induction l as [|a l IH]; intros [|b m]; simpl; try easy.
  intros [= E]. now rewrite IH.
Qed.

Lemma reread_same ix vals :
  ex_inv ix -> mapM (ex_getitem ix) (ex_ngrams ix) = Ok vals ->
  same_dict (ex_index ix) (combine (ex_ngrams ix) vals)
  /\ map snd (combine (ex_ngrams ix) vals) = vals
  /\ NoDup (map fst (combine (ex_ngrams ix) vals))
  /\ map fst (combine (ex_ngrams ix) vals) = ex_ngrams ix.
Proof.
  intros (N1 & N2 & K & _) H.
  pose proof (mapM_len _ _ _ H) as L. apply mapM_ok_nth in H.
  assert (E : map fst (combine (ex_ngrams ix) vals) = ex_ngrams ix)
    by (now apply combine_map_fst).
  split; [|split; [now apply combine_map_snd | split; [now rewrite E | easy]]].
  intros g. symmetry.
  destruct (in_dec str_dec g (ex_ngrams ix)) as [I|I].
  - assert (G : In g (map fst (ex_index ix))) by (now apply K).
    apply (dget_Some_In str_eqb str_eqb_eq) in G as [v Hv].
    unfold sget. rewrite Hv.
    apply (In_dget str_eqb str_eqb_eq); [now rewrite E|].
    clear -H I Hv. induction H as [|a b l l' Hab H IH]; [easy|].
    destruct I as [->|I]; [|right; auto].
    left. f_equal. unfold ex_getitem, sget in Hab. rewrite Hv in Hab. congruence.
  - unfold sget. rewrite (proj2 (dget_None str_eqb str_eqb_eq g _)) by now rewrite E.
    symmetry. apply (dget_None str_eqb str_eqb_eq). now rewrite K.
Qed.

Lemma same_dict_values (d1 d2 : dict str Z) :
  NoDup (map fst d1) -> NoDup (map fst d2) -> same_dict d1 d2 ->
  forall v, In v (map snd d1) <-> In v (map snd d2).
Proof.
  intros N1 N2 S v. split; intros H; apply in_map_iff in H as ([k w] & <- & H);
    simpl; apply in_map_iff; exists (k, w); split; auto.
  - apply (In_dget str_eqb str_eqb_eq) in H; [|easy].
    apply (dget_In str_eqb str_eqb_eq). rewrite <- H. symmetry; apply S.
  - apply (In_dget str_eqb str_eqb_eq) in H; [|easy].
    apply (dget_In str_eqb str_eqb_eq). rewrite <- H. apply S.
Qed.

Lemma fold_left_max_spec l a :
  (forall x, In x l -> (x <= fold_left Z.max l a)%Z) /\ (a <= fold_left Z.max l a)%Z
  /\ (fold_left Z.max l a = a \/ In (fold_left Z.max l a) l).
Proof.
  revert a; induction l as [|y l IH]; intros a; simpl.
  - split; [easy|]. split; [lia|now left].
  - destruct (IH (Z.max a y)) as (H1 & H2 & H3). split; [|split].
    + intros x [->|Hx]; [lia|auto].
    + lia.
    + destruct H3 as [H3|H3]; [|auto]. rewrite H3. 
      destruct (Z.max_spec a y) as [[? ->]|[? ->]]; auto.
Qed.

Lemma py_max_spec l m :
  py_max l = Ok m <-> In m l /\ (forall x, In x l -> (x <= m)%Z).
Proof.
  destruct l as [|a l]; simpl.
  - split; [easy|]. intros [[] _].
  - destruct (fold_left_max_spec l a) as (H1 & H2 & H3). split.
    + intros [= <-]. split; [destruct H3; auto|]. intros x [<-|Hx]; [lia|auto].
    + intros [I B]. f_equal.
      assert (fold_left Z.max l a <= m)%Z by (apply B; destruct H3; auto).
      assert (m <= fold_left Z.max l a)%Z by (destruct I as [->|I]; auto).
      lia.
Qed.

Lemma Zeqb_eq a b : Z.eqb a b = true <-> a = b.
Proof. apply Z.eqb_eq. Qed.

Lemma dedup_length_same (a b : list Z) :
  (forall v, In v a <-> In v b) -> length (dedup Z.eqb a) = length (dedup Z.eqb b).
Proof.
  intros H. apply Nat.le_antisymm; apply NoDup_incl_length;
    try apply (dedup_NoDup Z.eqb Zeqb_eq);
    intros x Hx; rewrite (dedup_In Z.eqb Zeqb_eq) in *; now apply H.
Qed.

Lemma ex_new_reread ngrams mn mx index ix vals :
  (forall i, index = Some i -> dict_wf i) ->
  ex_new ngrams mn mx index = Ok ix -> ngrams <> [] ->
  mapM (ex_getitem ix) (ex_ngrams ix) = Ok vals ->
  ex_new (ex_ngrams ix) (Z.of_N (ex_min_n ix)) (Z.of_N (ex_max_n ix))
    (Some (combine (ex_ngrams ix) vals))
  = Ok (EX (ex_ngrams ix) (combine (ex_ngrams ix) vals) (ex_bound ix) (ex_min_n ix) (ex_max_n ix)).
Proof.
  intros Hd H Hne Hv.
  destruct (ex_new_inv _ _ _ _ _ Hd H) as (I & En & Emn & Emx & Ei).
  destruct (reread_same _ _ I Hv) as (S & Esnd & Nd & Efst).
  destruct I as (N1 & N2 & K & R1 & R2).
  assert (L : length (combine (ex_ngrams ix) vals) = length (ex_ngrams ix))
    by (rewrite <- (map_length fst), Efst; easy).
  (* the bound of the original indexer is determined by the values *)
  assert (B : exists m, py_max (map snd (ex_index ix)) = Ok m /\ ex_bound ix = (m + 1)%Z
              /\ (m + 1 = Z.of_nat (length (dedup Z.eqb (map snd (ex_index ix)))))%Z).
  { unfold ex_new in H.
    apply bind_ok in H as (u & _ & H). apply bind_ok in H as (a & _ & H).
    apply bind_ok in H as (b & _ & H). destruct index as [i|].
    - apply bind_ok in H as (u2 & _ & H). apply bind_ok in H as (u3 & _ & H).
      apply bind_ok in H as (m & Hm & H). apply bind_ok in H as (u4 & H5 & H).
      injection H as <-. simpl. exists m. apply py_assert_ok, Z.eqb_eq in H5. auto.
    - apply bind_ok in H as (u2 & H2 & H). apply py_assert_ok, Nat.eqb_eq in H2.
      injection H as <-. simpl in *. rewrite Ei in *.
      clear - Hne N1.
      assert (V : map snd (enumerate ngrams) = map Z.of_nat (seq 0 (length ngrams))).
      { unfold enumerate. change 0%Z with (Z.of_nat 0). generalize 0%nat.
        induction ngrams as [|g gs IH]; intros k; [easy|]. simpl. f_equal.
        replace (Z.of_nat k + 1)%Z with (Z.of_nat (S k)) by lia.
        destruct gs as [|g' gs']; [easy|]. apply IH; [easy|]. now inversion N1. }
      rewrite V. exists (Z.of_nat (length ngrams) - 1)%Z.
      assert (Lg : (0 < length ngrams)%nat) by (destruct ngrams; [easy|simpl; lia]).
      split; [|split].
      + apply py_max_spec. split.
        * apply in_map_iff. exists (length ngrams - 1)%nat. split; [lia|]. apply in_seq. lia.
        * intros x Hx. apply in_map_iff in Hx as (k & <- & Hk). apply in_seq in Hk. lia.
      + unfold enumerate. rewrite enumerate_from_length. lia.
      + rewrite (dedup_id Z.eqb Zeqb_eq).
        * rewrite map_length, seq_length. lia.
        * apply FinFun.Injective_map_NoDup; [intros x y; apply Nat2Z.inj | apply seq_NoDup]. }
  destruct B as (m & Hm & Hb & Hc).
  unfold ex_new. rewrite range_check by lia. cbn [bind].
  rewrite !to_uint32_of_N by lia. cbn [bind].
  rewrite (dedup_id str_eqb str_eqb_eq) by easy. rewrite Nat.eqb_refl. cbn [py_assert bind].
  rewrite L, Nat.eqb_refl, andb_true_r.
  replace (forallb _ (ex_ngrams ix)) with true.
  2:{ symmetry. apply forallb_forall. intros g Hg. apply (dmem_In str_eqb str_eqb_eq).
      now rewrite Efst. }
  cbn [py_assert bind].
  assert (V : forall v, In v (map snd (ex_index ix)) <-> In v (map snd (combine (ex_ngrams ix) vals)))
    by (apply same_dict_values; auto).
  assert (Hm' : py_max (map snd (combine (ex_ngrams ix) vals)) = Ok m).
  { apply py_max_spec in Hm as [I1 I2]. apply py_max_spec. split; [now apply V|].
    intros x Hx. apply I2. now apply V. }
  rewrite Hm'. cbn [bind].
  rewrite <- (dedup_length_same _ _ V), <- Hc, Z.eqb_refl. cbn [py_assert bind].
  now rewrite Hb.
Qed.

Lemma calculate_size ws size n :
  calculate_binary_list_size ws = Ok size -> bytes_len_sum ws = Ok n ->
  size = n + 8 + lenN ws * 4.
Proof.
  unfold calculate_binary_list_size. intros H Hn. rewrite Hn in H. now injection H as <-.
Qed.

Lemma simple_vocab_roundtrip ws idx p out d :
  simple_vocab_new ws = Ok (VSimple ws idx) ->
  simple_vocab_write_chunk ws p = (out, Ok tt) -> at_pos d p out -> lenN d < ssize_limit ->
  12 <= lenN out
  /\ fields_at d p [fU32; fU64] [chunk_id_val CSimpleVocab; Z.of_N (lenN out - 12)]
  /\ simple_vocab_read_chunk d (p + 12) = Ok (VSimple ws idx, p + lenN out).
Proof.
  intros Hn H A L. unfold simple_vocab_write_chunk in H.
  apply wseq_ok in H as (b1 & b2 & H1 & H2 & ->). apply write_binary_ok in H1.
  apply wlet_ok in H2 as (s & Hs & H2).
  apply wseq_ok in H2 as (b3 & b4 & H2 & H3 & ->). apply write_binary_ok in H2.
  assert (L1 : lenN b1 = 4) by (now apply pack_lenN in H1).
  assert (L3 : lenN b3 = 16) by (now apply pack_lenN in H2).
  apply at_pos_app in A as [A1 A]. apply at_pos_app in A as [A3 A4].
  assert (F1 : fields_at d p [fU32] [chunk_id_val CSimpleVocab]) by (exists b1; auto).
  assert (F2 : fields_at d (p + 4) [fU64; fU64]
     [Z.of_N (8 + lenN ws * 4 + s); Z.of_nat (length ws)])
    by (exists b3; rewrite L1 in A3; auto).
  apply fields_u64 in F2 as [F2 F3].
  destruct (words_roundtrip _ _ _ _ H3 A4 L) as (R & n & Hs' & Ln).
  assert (n = s) by congruence. subst n.
  rewrite !lenN_app, L1, L3, Ln.
  split; [lia|]. split.
  - apply fields_u32. split; [easy|].
    replace (4 + (16 + (s + lenN ws * 4)) - 12) with (8 + lenN ws * 4 + s) by lia. easy.
  - unfold simple_vocab_read_chunk.
    replace (p + 12) with (p + 4 + 8) by lia. rstep (read_u64 _ _ _ F3).
    replace (Z.to_N (Z.of_nat (length ws))) with (lenN ws) by (unfold lenN; lia).
    replace (p + 4 + 8 + 8) with (p + lenN b1 + lenN b3) by lia.
    rstep R. unfold rlift. rewrite Hn. do 2 f_equal. lia.
Qed.

Lemma bucket_header_roundtrip cid ws mn mx b p out d :
  write_bucket_vocab cid ws mn mx b p = (out, Ok tt) -> at_pos d p out -> lenN d < ssize_limit ->
  12 <= lenN out
  /\ fields_at d p [fU32; fU64] [chunk_id_val cid; Z.of_N (lenN out - 12)]
  /\ read4 fU64 fU32 fU32 fU32 d (p + 12)
     = Ok ((Z.of_nat (length ws), Z.of_N mn, Z.of_N mx, Z.of_N b), p + 32)
  /\ read_items (lenN ws) d (p + 32) = Ok (ws, p + lenN out).
Proof.
  intros H A L. unfold write_bucket_vocab in H.
  apply wlet_ok in H as (size & Hs & H).
  apply wseq_ok in H as (b1 & b2 & H1 & H2 & ->). apply write_binary_ok in H1.
  assert (L1 : lenN b1 = 32) by (now apply pack_lenN in H1).
  apply at_pos_app in A as [A1 A2].
  destruct (words_roundtrip _ _ _ _ H2 A2 L) as (R & n & Hn & Ln).
  rewrite (calculate_size _ _ _ Hs Hn) in H1. clear Hs.
  assert (F : fields_at d p [fU32; fU64; fU64; fU32; fU32; fU32]
      [chunk_id_val cid; Z.of_N (n + 8 + lenN ws * 4 + 8 + 4); Z.of_nat (length ws);
       Z.of_N mn; Z.of_N mx; Z.of_N b]) by (exists b1; auto).
  apply fields_u32 in F as [F1 F]. apply fields_u64 in F as [F2 F].
  rewrite lenN_app, L1, Ln. split; [lia|]. split; [|split].
  - apply fields_u32. split; [easy|].
    replace (32 + (n + lenN ws * 4) - 12) with (n + 8 + lenN ws * 4 + 8 + 4) by lia. easy.
  - replace (p + 12) with (p + 4 + 8) by lia.
    erewrite read4_at by (try exact F; easy). do 2 f_equal. simpl. lia.
  - rewrite L1 in R. rewrite R. do 2 f_equal. lia.
Qed.

Lemma explicit_vocab_roundtrip ws idx ngrams mn mx index ix p out d :
  (forall i, index = Some i -> dict_wf i) ->
  ex_new ngrams mn mx index = Ok ix -> ngrams <> [] ->
  explicit_vocab_new ws ix = Ok (VExplicit ws idx ix) ->
  explicit_vocab_write_chunk ws ix p = (out, Ok tt) -> at_pos d p out -> lenN d < ssize_limit ->
  exists vals,
  12 <= lenN out
  /\ fields_at d p [fU32; fU64]
       [chunk_id_val CExplicitSubwordVocab; Z.of_N (lenN out - 12 - 8 * lenN ngrams)]
  /\ 8 * lenN ngrams + 12 <= lenN out
  /\ mapM (ex_getitem ix) ngrams = Ok vals
  /\ explicit_vocab_read_chunk d (p + 12)
     = Ok (VExplicit ws idx (EX ngrams (combine ngrams vals) (ex_bound ix)
             (ex_min_n ix) (ex_max_n ix)), p + lenN out).
Proof.
  intros Hd He Hne Hv H A L. unfold explicit_vocab_write_chunk in H.
  destruct (ex_new_inv _ _ _ _ _ Hd He) as (I & En & _ & _ & _).
  apply wlet_ok in H as (size & Hs & H). apply wlet_ok in H as (nsize & Hns & H).
  apply wseq_ok in H as (b1 & b2 & H1 & H & ->). apply write_binary_ok in H1.
  apply wseq_ok in H as (b3 & b4 & H2 & H3 & ->).
  assert (L1 : lenN b1 = 36) by (now apply pack_lenN in H1).
  apply at_pos_app in A as [A1 A]. apply at_pos_app in A as [A3 A4].
  destruct (words_roundtrip _ _ _ _ H2 A3 L) as (R & n & Hn & Ln).
  destruct (ngrams_roundtrip _ _ _ _ _ H3 A4 L) as (vals & Hvals & R' & Rv & m & Hm & Lm).
  rewrite (calculate_size _ _ _ Hs Hn), (calculate_size _ _ _ Hns Hm) in H1. clear Hs Hns.
  pose proof (ex_new_reread _ _ _ _ _ _ Hd He Hne Hvals) as Re.
  assert (W : explicit_vocab_new ws
     (EX (ex_ngrams ix) (combine (ex_ngrams ix) vals) (ex_bound ix) (ex_min_n ix) (ex_max_n ix))
     = Ok (VExplicit ws idx (EX (ex_ngrams ix) (combine (ex_ngrams ix) vals) (ex_bound ix)
             (ex_min_n ix) (ex_max_n ix)))).
  { unfold explicit_vocab_new in *. apply bind_ok in Hv as (i & Hi & Hv).
    injection Hv as ->. now rewrite Hi. }
  rewrite En in *.
  assert (F : fields_at d p [fU32; fU64; fU64; fU64; fU32; fU32]
      [chunk_id_val CExplicitSubwordVocab;
       Z.of_N (n + 8 + lenN ws * 4 + (m + 8 + lenN ngrams * 4) + 8);
       Z.of_nat (length ws); Z.of_nat (length ngrams);
       Z.of_N (ex_min_n ix); Z.of_N (ex_max_n ix)]) by (exists b1; auto).
  apply fields_u32 in F as [F1 F]. apply fields_u64 in F as [F2 F].
  exists vals. rewrite !lenN_app, L1, Ln, Lm. split; [lia|]. split; [|split; [lia|split; [easy|]]].
  - apply fields_u32. split; [easy|].
    replace (36 + (n + lenN ws * 4 + (m + lenN ngrams * 12)) - 12 - 8 * lenN ngrams)
      with (n + 8 + lenN ws * 4 + (m + 8 + lenN ngrams * 4) + 8) by lia. easy.
  - unfold explicit_vocab_read_chunk.
    replace (p + 12) with (p + 4 + 8) by lia.
    erewrite rbind_step by (eapply read4_at; try exact F; easy). cbn beta iota.
    replace (Z.to_N (Z.of_nat (length ws))) with (lenN ws) by (unfold lenN; lia).
    replace (Z.to_N (Z.of_nat (length ngrams))) with (lenN ngrams) by (unfold lenN; lia).
    rewrite L1 in R. 
    replace (p + 4 + 8 + N.of_nat (field_size fU64 + (field_size fU64 + (field_size fU32 + field_size fU32))))
      with (p + 36) by (simpl; lia).
    rstep R. unfold read_items_with_indices.
    rewrite to_nat_lenN. rewrite L1 in R'.
    destruct (reread_same ix vals I) as (_ & Es & Nd & Ef); [now rewrite En|].
    rewrite En in *.
    erewrite rbind_step.
    2:{ erewrite rbind_step by (exact R'). unfold rret. reflexivity. }
    cbn beta iota. rewrite Ef. rewrite (dict_of_id str_eqb str_eqb_eq) by easy.
    unfold rbind, rlift.
    set (X := ex_new _ _ _ _). assert (EX' : X = _) by exact Re. rewrite EX'.
    cbn iota. rewrite W. do 2 f_equal. lia.
Qed.

Lemma vocab_roundtrip v p out d e :
  built_vocab v -> has_ngrams v ->
  vocab_write_chunk v p = (out, Ok tt) -> at_pos d p out -> lenN d < ssize_limit ->
  exists n v', fields_at d p [fU32; fU64] [chunk_id_val (vocab_chunk_id v); Z.of_N n]
  /\ vocab_read_chunk (vocab_chunk_id v) e d (p + 12) = Ok (v', p + lenN out)
  /\ same_vocab v v' /\ 12 <= lenN out /\ (not_explicit v -> n = lenN out - 12).
Proof.
  intros B Hg H A L. destruct B as [ws v Hv | ws ex mn mx ix v Hi Hv
    | ws b mn mx ix v Hi Hv | ws ngrams mn mx index ix v Hd Hi Hv].
  - pose proof Hv as Hv'. unfold simple_vocab_new in Hv'.
    apply bind_ok in Hv' as (i & Hi & E). injection E as <-.
    simpl in H. destruct (simple_vocab_roundtrip _ _ _ _ _ Hv H A L) as (H1 & H2 & H3).
    exists (lenN out - 12), (VSimple ws i). repeat split; auto. constructor.
  - pose proof Hv as Hv'. unfold bucket_vocab_new in Hv'.
    apply bind_ok in Hv' as (i & Hi' & E). injection E as <-.
    simpl in H. destruct (bucket_header_roundtrip _ _ _ _ _ _ _ _ H A L) as (H1 & H2 & H3 & H4).
    exists (lenN out - 12), (VBucket ws i ix). repeat split; auto; [|constructor].
    simpl. unfold bucket_vocab_read_chunk. rstep H3.
    replace (Z.to_N (Z.of_nat (length ws))) with (lenN ws) by (unfold lenN; lia).
    rstep H4. rewrite (ff_new_again _ _ _ _ Hi). unfold rlift, rbind. now rewrite Hv.
  - pose proof Hv as Hv'. unfold fasttext_vocab_new in Hv'.
    apply bind_ok in Hv' as (i & Hi' & E). injection E as <-.
    simpl in H. destruct (bucket_header_roundtrip _ _ _ _ _ _ _ _ H A L) as (H1 & H2 & H3 & H4).
    exists (lenN out - 12), (VFastText ws i ix). repeat split; auto; [|constructor].
    simpl. unfold fasttext_vocab_read_chunk. rstep H3.
    replace (Z.to_N (Z.of_nat (length ws))) with (lenN ws) by (unfold lenN; lia).
    rstep H4. unfold ft_upper_bound. rewrite (ft_new_again _ _ _ _ Hi).
    unfold rlift, rbind. now rewrite Hv.
  - pose proof Hv as Hv'. unfold explicit_vocab_new in Hv'.
    apply bind_ok in Hv' as (i & Hi' & E). injection E as <-.
    destruct (ex_new_inv _ _ _ _ _ Hd Hi) as (I & En & _ & _ & _).
    simpl in H, Hg. rewrite En in Hg.
    destruct (explicit_vocab_roundtrip _ _ _ _ _ _ _ _ _ _ Hd Hi Hg Hv H A L)
      as (vals & H1 & H2 & H3 & H4 & H5).
    eexists _, _. split; [exact H2|]. split; [exact H5|]. split; [|now split].
    rewrite <- En in H4.
    destruct (reread_same ix vals I H4) as (S & _). rewrite En in S.
    destruct ix as [gs di bd m1 m2]. simpl in *. subst gs. now constructor.
Qed.
