(* Which files load_fasttext reads and what it makes of them. *)
From Coq Require Import Lia String.
From Verif Require Import Py PyProofs Utf8 Utf8Proofs Utf8More SpecUtf8 IO IOProofs ReaderProofs Arr
  Subword Vocab VocabProofs Storage Chunks Embeddings Spec SpecVocab SpecLookup VocabFacts
  ArrProofs StorageGet LookupProofs PyText SpecCompat PyTextProofs Compat CompatProofs
  FasttextProofs SpecFasttext StorageInv ExplicitEmb WordProofs TextProofs SimProofs.
Local Open Scope N_scope.
Local Open Scope list_scope.

(* the reader uses the bytes b of b ++ s and gives a *)
Definition consumes {A} (m : reader A) (P : bytes -> bytes -> A -> Prop) : Prop :=
  forall pre s a q, m (pre ++ s) (lenN pre) = Ok (a, q) <->
    exists b s', s = b ++ s' /\ q = lenN pre + lenN b /\ P b s' a.

Lemma consumes_ext {A} (m : reader A) (P Q : bytes -> bytes -> A -> Prop) :
  consumes m P -> (forall b s a, P b s a <-> Q b s a) -> consumes m Q.
Proof.
  intros H E pre s a q. rewrite (H pre s a q). split; intros (b & s' & ? & ? & ?); exists b, s'; firstorder.
Qed.
Lemma consumes_bind {A B} (m : reader A) (k : A -> reader B) P Q :
  consumes m P -> (forall a, consumes (k a) (Q a)) ->
  consumes (rbind m k) (fun b s x => exists b1 b2 a, b = b1 ++ b2 /\ P b1 (b2 ++ s) a /\ Q a b2 s x).
Proof.
  intros HM HK pre s x q. split.
  - intros H. apply rbind_ok in H as (a & p & H1 & H2). apply HM in H1 as (b1 & s1 & -> & -> & H1).
    rewrite app_assoc, <- lenN_app in H2. apply HK in H2 as (b2 & s2 & -> & -> & H2).
    exists (b1 ++ b2), s2. rewrite <- app_assoc. split; [easy|]. split; [rewrite !lenN_app; lia|].
    exists b1, b2, a. auto.
  - intros (b & s' & -> & -> & b1 & b2 & a & -> & H1 & H2).
    assert (X : m (pre ++ (b1 ++ b2) ++ s') (lenN pre) = Ok (a, lenN pre + lenN b1)).
    { apply HM. exists b1, (b2 ++ s'). rewrite <- app_assoc. auto. }
    unfold rbind. rewrite X. rewrite <- app_assoc, (app_assoc pre), <- lenN_app. apply HK.
    exists b2, s'. split; [easy|]. split; [rewrite !lenN_app; lia|easy].
Qed.
Lemma consumes_ret {A} (a : A) : consumes (rret a) (fun b _ x => b = [] /\ x = a).
Proof.
  intros pre s x q. unfold rret. split.
  - intros [= <- <-]. exists [], s. repeat split. change (lenN (@nil byte)) with 0. lia.
  - intros (b & s' & -> & -> & -> & ->). change (lenN (@nil byte)) with 0. now rewrite N.add_0_r.
Qed.
Lemma consumes_fail {A} x : consumes (@rfail A x) (fun _ _ _ => False).
Proof. intros pre s a q. unfold rfail. split; [easy|]. now intros (b & s' & _ & _ & ?). Qed.
Lemma consumes_lift {A} (r : result A) : consumes (rlift r) (fun b _ x => b = [] /\ r = Ok x).
Proof.
  intros pre s x q. unfold rlift. split.
  - destruct r; [|easy]. intros [= <- <-]. exists [], s. repeat split. change (lenN (@nil byte)) with 0. lia.
  - intros (b & s' & -> & -> & -> & ->). change (lenN (@nil byte)) with 0. now rewrite N.add_0_r.
Qed.
Lemma consumes_repeat {A} n (m : reader A) P : consumes m (fun b _ a => P b a) ->
  consumes (rrepeat n m) (fun b _ l => exists bs, b = concat bs /\ Forall2 P bs l /\ length l = n).
Proof.
  intros H. induction n as [|n IH]; cbn [rrepeat].
  - eapply consumes_ext; [apply consumes_ret|]. intros b s l. cbn beta. split.
    + intros [-> ->]. exists []. repeat split. constructor.
    + intros (bs & -> & F2 & L). destruct l; [|easy]. inversion F2. easy.
  - eapply consumes_ext.
    { apply consumes_bind; [exact H|]. intros a. apply consumes_bind; [exact IH|]. intros l. apply consumes_ret. }
    intros b s l. cbn beta. split.
    + intros (b1 & b2 & a & -> & HP & b3 & b4 & l' & -> & (bs & -> & F2 & L) & -> & ->).
      exists (b1 :: bs). cbn [concat]. rewrite app_nil_r. split; [easy|]. split; [now constructor|]. simpl. lia.
    + intros (bs & -> & F2 & L). destruct F2 as [|b1 a bs l HP F2]; [easy|].
      exists b1, (concat bs), a. split; [easy|]. split; [easy|]. exists (concat bs), [], l.
      rewrite app_nil_r. split; [easy|]. split; [|easy]. exists bs. simpl in L. split; [easy|]. split; [easy|]. lia.
Qed.

Lemma takeN_all {A} n (l : list A) : lenN l <= n -> takeN n l = l.
Proof. intros H. rewrite takeN_firstn. apply firstn_all2. unfold lenN in H. lia. Qed.

(* the fixed-size fields *)
Lemma consumes_required fmt : (forall f, In f fmt -> plain f = true) -> (0 < calcsize fmt)%nat ->
  N.of_nat (calcsize fmt) < ssize_limit ->
  consumes (read_required_binary fmt)
    (fun b _ vs => lenN b = N.of_nat (calcsize fmt) /\ vs = unpack fmt b).
Proof.
  intros HP H0 HL pre s vs q. split.
  - intros H. pose proof H as H'. apply read_required_ok in H as (-> & _ & -> & Q).
    rewrite dropN_app_l in *. rewrite lenN_app in Q.
    exists (takeN (N.of_nat (calcsize fmt)) s), (dropN (N.of_nat (calcsize fmt)) s).
    assert (X : lenN (takeN (N.of_nat (calcsize fmt)) s) = N.of_nat (calcsize fmt)).
    { rewrite takeN_firstn. unfold lenN in *. rewrite firstn_length. lia. }
    split; [now rewrite takeN_firstn, dropN_skipn, firstn_skipn|]. rewrite X. auto.
  - intros (b & s' & -> & -> & L & ->). unfold read_required_binary, read_binary, rbind, read.
    destruct (N.leb_spec ssize_limit (N.of_nat (calcsize fmt))); [lia|].
    rewrite dropN_app_l. replace (takeN (N.of_nat (calcsize fmt)) (b ++ s')) with b
      by (rewrite <- L; symmetry; apply takeN_app_l).
    destruct (Nat.eqb_spec (length b) 0) as [E|E]; [unfold lenN in L; lia|].
    destruct (Nat.eqb_spec (length b) (calcsize fmt)) as [E2|E2]; [|unfold lenN in L; lia].
    reflexivity.
Qed.

Definition field_bytes (f : field) (v : Z) : bytes := int_le (field_size f) v.
Definition field_ok (f : field) (v : Z) : Prop :=
  match f with
  | fI32 | fI64 | fI8 => int_fits (field_size f) v
  | fF64 => (0 <= v < 2 ^ 64)%Z
  | _ => False
  end.
Definition numeric (f : field) : Prop := f = fI32 \/ f = fI64 \/ f = fI8 \/ f = fF64.

Lemma int_iff k b z : (0 < k)%nat ->
  (length b = k /\ z = signed_val k b) <-> (b = int_le k z /\ int_fits k z).
Proof.
  intros K. split.
  - intros [L ->]. pose proof (le_val_lt b) as H. unfold lenN in H. rewrite L in H.
    assert (P : (256 ^ N.of_nat k = 2 ^ (8 * N.of_nat k))%N) by (now rewrite N.pow_mul_r).
    rewrite P in H.
    assert (PZ : Z.of_N (2 ^ (8 * N.of_nat k)) = (2 ^ (8 * Z.of_nat k))%Z).
    { rewrite N2Z.inj_pow. f_equal. lia. }
    assert (DB : (2 ^ (8 * Z.of_nat k) = 2 * 2 ^ (8 * Z.of_nat k - 1))%Z).
    { rewrite <- Z.pow_succ_r by lia. f_equal. lia. }
    assert (PP : (0 < 2 ^ (8 * Z.of_nat k - 1))%Z) by (apply Z.pow_pos_nonneg; lia).
    assert (HZ : (Z.of_N (le_val b) < 2 ^ (8 * Z.of_nat k))%Z) by (rewrite <- PZ; lia).
    unfold signed_val, int_fits, int_le. cbv zeta.
    destruct (Z.ltb_spec (Z.of_N (le_val b)) (2 ^ (8 * Z.of_nat k - 1))) as [C|C].
    + split; [|lia]. rewrite Z.mod_small by lia. rewrite N2Z.id, <- L. symmetry. apply le_bytes_le_val.
    + split; [|lia].
      replace ((Z.of_N (le_val b) - 2 ^ (8 * Z.of_nat k)) mod 2 ^ (8 * Z.of_nat k))%Z with (Z.of_N (le_val b)).
      * rewrite N2Z.id, <- L. symmetry. apply le_bytes_le_val.
      * symmetry. rewrite <- (Z_mod_plus_full _ 1), Z.mul_1_l. rewrite Z.sub_add. apply Z.mod_small. lia.
  - intros [-> I]. split; [apply le_bytes_length|]. symmetry. apply (signed_roundtrip k z); [lia|exact I].
Qed.
Lemma field_iff f b z : numeric f ->
  (length b = field_size f /\ z = unpack_field f b) <-> (b = field_bytes f z /\ field_ok f z).
Proof.
  intros [->|[->|[->| ->]]]; cbn [unpack_field field_ok]; unfold field_bytes; cbn [field_size].
  1-3: apply int_iff; lia.
  split.
  - intros [L ->]. pose proof (le_val_lt b) as H. unfold lenN in H. rewrite L in H.
    change (256 ^ N.of_nat 8) with (2 ^ 64) in H. split; [|lia].
    unfold int_le. change (8 * Z.of_nat 8)%Z with 64%Z. rewrite Z.mod_small by lia.
    rewrite N2Z.id, <- L. symmetry. apply le_bytes_le_val.
  - intros [-> I]. split; [apply le_bytes_length|]. unfold int_le. change (8 * Z.of_nat 8)%Z with 64%Z.
    rewrite Z.mod_small by lia. rewrite le_val_small; [lia|]. change (256 ^ N.of_nat 8) with (2 ^ 64). lia.
Qed.
Lemma numeric_plain f : numeric f -> plain f = true /\ f <> fPad.
Proof. now intros [->|[->|[->| ->]]]. Qed.
Lemma unpack_iff fmt : Forall numeric fmt -> forall b vs,
  (length b = calcsize fmt /\ vs = unpack fmt b)
  <-> (b = concat (map2 field_bytes fmt vs) /\ Forall2 field_ok fmt vs).
Proof.
  induction 1 as [|f fmt N H IH]; intros b vs.
  - cbn. split.
    + intros [L ->]. destruct b; [|easy]. split; [easy|constructor].
    + intros [-> F2]. inversion F2. easy.
  - assert (U : unpack (f :: fmt) b = unpack_field f (firstn (field_size f) b) :: unpack fmt (skipn (field_size f) b))
      by (destruct N as [->|[->|[->| ->]]]; reflexivity).
    assert (CS : calcsize (f :: fmt) = (field_size f + calcsize fmt)%nat) by reflexivity.
    rewrite U, CS. split.
    + intros [L ->].
      assert (X1 : length (firstn (field_size f) b) = field_size f) by (rewrite firstn_length; lia).
      assert (X2 : length (skipn (field_size f) b) = calcsize fmt) by (rewrite skipn_length; lia).
      pose proof (proj1 (field_iff f _ _ N) (conj X1 eq_refl)) as [Y1 Y2].
      pose proof (proj1 (IH _ _) (conj X2 eq_refl)) as [Y3 Y4].
      cbn [map2 concat]. rewrite <- Y1, <- Y3, firstn_skipn. split; [easy|]. now constructor.
    + intros [-> F2]. inversion F2 as [|? v ? vs' HO F2' E1 E2]; subst. cbn [map2 concat].
      assert (X1 : length (field_bytes f v) = field_size f) by apply le_bytes_length.
      rewrite app_length, firstn_app, skipn_app, X1, Nat.sub_diag.
      rewrite (firstn_all2 (field_bytes f v)), (skipn_all2 (field_bytes f v)) by lia.
      cbn [firstn skipn app]. rewrite app_nil_r.
      pose proof (proj2 (field_iff f _ _ N) (conj eq_refl HO)) as [Y1 Y2].
      pose proof (proj2 (IH _ _) (conj eq_refl F2')) as [Y3 Y4]. split; [lia|]. now rewrite <- Y2, <- Y4.
Qed.
Lemma consumes_fields fmt : Forall numeric fmt -> (0 < calcsize fmt)%nat ->
  N.of_nat (calcsize fmt) < ssize_limit ->
  consumes (read_required_binary fmt)
    (fun b _ vs => b = concat (map2 field_bytes fmt vs) /\ Forall2 field_ok fmt vs).
Proof.
  intros H H0 HL. eapply consumes_ext; [apply consumes_required; [|easy|easy]|].
  - intros f I. rewrite Forall_forall in H. now apply numeric_plain, H.
  - intros b s vs. cbn beta. rewrite <- (unpack_iff fmt H). unfold lenN. split; intros [A B]; (split; [lia|easy]).
Qed.
Lemma consumes_read1 f : numeric f ->
  consumes (read1 f) (fun b _ v => b = field_bytes f v /\ field_ok f v).
Proof.
  intros H. eapply consumes_ext.
  { apply consumes_bind; [apply (consumes_fields [f])|].
    - constructor; [exact H|constructor].
    - destruct H as [->|[->|[->| ->]]]; cbn; lia.
    - destruct H as [->|[->|[->| ->]]]; cbn; unfold ssize_limit; lia.
    - intros l. instantiate (1 := fun l b _ x => b = [] /\ l = [x]).
      destruct l as [|a [|]].
      + eapply consumes_ext; [apply consumes_fail|]. cbn. split; [easy|]. now intros [_ ?].
      + eapply consumes_ext; [apply consumes_ret|]. cbn. intros b s x. split; intros [-> E]; split; congruence.
      + eapply consumes_ext; [apply consumes_fail|]. cbn. split; [easy|]. now intros [_ ?]. }
  intros b s v. cbn beta. split.
  - intros (b1 & b2 & l & -> & (-> & F2) & -> & ->). inversion F2; subst. cbn. rewrite !app_nil_r. easy.
  - intros (-> & O). exists (field_bytes f v), [], [v]. rewrite app_nil_r. split; [easy|].
    cbn. rewrite app_nil_r. split; [|easy]. split; [easy|]. auto.
Qed.
Lemma consumes_read2 f g : numeric f -> numeric g ->
  consumes (read2 f g) (fun b _ v => b = field_bytes f (fst v) ++ field_bytes g (snd v)
                                     /\ field_ok f (fst v) /\ field_ok g (snd v)).
Proof.
  intros H H2. eapply consumes_ext.
  { apply consumes_bind; [apply (consumes_fields [f; g])|].
    - constructor; [exact H|constructor; [exact H2|constructor]].
    - destruct H as [->|[->|[->| ->]]]; cbn; lia.
    - destruct H as [->|[->|[->| ->]]], H2 as [->|[->|[->| ->]]]; cbn; unfold ssize_limit; lia.
    - intros l. instantiate (1 := fun l b _ x => b = [] /\ l = [fst x; snd x]).
      destruct l as [|a [|a2 [|]]].
      1,2,4: eapply consumes_ext; [apply consumes_fail|]; cbn; split; [easy|]; now intros [_ ?].
      eapply consumes_ext; [apply consumes_ret|]. cbn. intros b s [x y]. cbn. split; intros [-> E]; split; congruence. }
  intros b s [v w]. cbn [fst snd]. cbn beta. split.
  - intros (b1 & b2 & l & -> & (-> & F2) & -> & ->). inversion F2 as [|? ? ? ? O1 F3]; subst.
    inversion F3; subst. cbn. rewrite !app_nil_r. easy.
  - intros (-> & O1 & O2). exists (field_bytes f v ++ field_bytes g w), [], [v; w]. rewrite app_nil_r. split; [easy|].
    cbn. rewrite app_nil_r. split; [|easy]. split; [easy|]. auto.
Qed.
Lemma consumes_until delim :
  consumes (read_until delim) (fun b _ w => b = w ++ [delim] /\ ~ In delim w).
Proof.
  intros pre s w q. unfold read_until. rewrite dropN_app_l. split.
  - destruct (until delim s) as [u|] eqn:U; [|easy]. intros [= -> <-].
    apply until_some in U as (rest & -> & NI). exists (w ++ [delim]), rest.
    rewrite <- app_assoc. split; [easy|]. split; [|easy]. rewrite lenN_app. change (lenN [delim]) with 1. lia.
  - intros (b & s' & -> & -> & -> & NI). rewrite <- app_assoc. cbn [app].
    rewrite until_app by easy. f_equal. f_equal. rewrite lenN_app. change (lenN [delim]) with 1. lia.
Qed.
Lemma consumes_bool :
  consumes (read1 fBool) (fun b _ v => exists x, b = [x] /\ v = if Byte.eqb x x00 then 0%Z else 1%Z).
Proof.
  assert (Q : forall x, (if (le_val [x] =? 0)%N then 0%Z else 1%Z) = if Byte.eqb x x00 then 0%Z else 1%Z)
    by (intros []; reflexivity).
  eapply consumes_ext.
  { apply consumes_bind.
    - instantiate (1 := fun b _ vs => exists x, b = [x] /\ vs = [if Byte.eqb x x00 then 0%Z else 1%Z]).
      intros pre s vs q. split.
      + intros H. apply read_required_ok in H as (-> & _ & -> & L). rewrite dropN_app_l, lenN_app in *.
        change (N.of_nat (calcsize [fBool])) with 1 in *. destruct s as [|x s]; [unfold lenN in L; simpl in L; lia|].
        exists [x], s. repeat split. exists x. split; [easy|]. rewrite <- Q, takeN_firstn. reflexivity.
      + intros (b & s' & -> & -> & x & -> & ->). unfold read_required_binary, read_binary, rbind, read.
        change (ssize_limit <=? N.of_nat (calcsize [fBool])) with false. cbv iota.
        rewrite dropN_app_l, takeN_firstn. rewrite <- Q. reflexivity.
    - intros l. instantiate (1 := fun l b _ x => b = [] /\ l = [x]). destruct l as [|a [|]].
      + eapply consumes_ext; [apply consumes_fail|]. cbn. split; [easy|]. now intros [_ ?].
      + eapply consumes_ext; [apply consumes_ret|]. cbn. intros b s x. split; intros [-> E]; split; congruence.
      + eapply consumes_ext; [apply consumes_fail|]. cbn. split; [easy|]. now intros [_ ?]. }
  intros b s v. cbn beta. split.
  - intros (b1 & b2 & l & -> & (x & -> & ->) & -> & E). exists x. split; [easy|]. congruence.
  - intros (x & -> & ->). exists [x], [], [if Byte.eqb x x00 then 0%Z else 1%Z]. repeat split. now exists x.
Qed.

(* ---------------------------------------------------------------- *)
Lemma consumes_if {A} (b : bool) (m1 m2 : reader A) P1 P2 : consumes m1 P1 -> consumes m2 P2 ->
  consumes (if b then m1 else m2) (fun x s a => if b then P1 x s a else P2 x s a).
Proof. now destruct b. Qed.

Lemma consumes_header :
  consumes read_ft_header (fun b _ _ => b = int_le 4 793712314 ++ int_le 4 12).
Proof.
  eapply consumes_ext.
  { apply consumes_bind; [apply (consumes_read2 fI32 fI32); now left|]. intros mv.
    instantiate (1 := fun mv b _ _ => b = [] /\ mv = (FT_MAGIC, 12%Z)). destruct mv as [magic version].
    destruct (Z.eqb_spec magic FT_MAGIC) as [->|NE]; cbn [negb].
    - destruct (Z.eqb_spec version 12) as [->|NE]; cbn [negb].
      + eapply consumes_ext; [apply consumes_ret|]. intros b s []. now cbn.
      + eapply consumes_ext; [apply consumes_fail|]. intros b s []. cbn. split; [easy|]. intros [_ E]. congruence.
    - eapply consumes_ext; [apply consumes_fail|]. intros b s []. cbn. split; [easy|]. intros [_ E]. congruence. }
  intros b s []. cbn beta iota. split.
  - intros (b1 & b2 & mv & -> & (-> & _) & -> & ->). now rewrite app_nil_r.
  - intros ->. exists (int_le 4 793712314 ++ int_le 4 12), [], (FT_MAGIC, 12%Z).
    rewrite app_nil_r. split; [easy|]. cbn [fst snd field_ok field_size].
    split; [|easy]. split; [easy|]. unfold int_fits, FT_MAGIC. split; split; cbn; lia.
Qed.

Lemma losses_iff z s : py_index ft_losses (z - 1) = Ok s <-> ft_loss_name z s.
Proof.
  unfold ft_loss_name. split.
  - intros H. assert (R : (-2 <= z <= 3)%Z).
    { unfold py_index in H. cbv zeta in H. change (Z.of_nat (length ft_losses)) with 3%Z in H.
      unfold in_range in H. destruct (Z.ltb_spec (z - 1) 0); destruct (_ && _)%bool eqn:E in H; try discriminate;
      apply andb_prop in E as [E1 E2]; apply Z.leb_le in E1; apply Z.ltb_lt in E2; lia. }
    assert (C : z = (-2)%Z \/ z = (-1)%Z \/ z = 0%Z \/ z = 1%Z \/ z = 2%Z \/ z = 3%Z) by lia.
    destruct C as [->|[->|[->|[->|[->| ->]]]]]; apply Ok_inj in H; subst s; cbn; tauto.
  - intros H. cbn in H. repeat (destruct H as [[= <- <-]|H]; [reflexivity|]). easy.
Qed.
Lemma models_iff z s : py_index ft_models (z - 1) = Ok s <-> ft_model_name z s.
Proof.
  unfold ft_model_name. split.
  - intros H. assert (R : (-2 <= z <= 3)%Z).
    { unfold py_index in H. cbv zeta in H. change (Z.of_nat (length ft_models)) with 3%Z in H.
      unfold in_range in H. destruct (Z.ltb_spec (z - 1) 0); destruct (_ && _)%bool eqn:E in H; try discriminate;
      apply andb_prop in E as [E1 E2]; apply Z.leb_le in E1; apply Z.ltb_lt in E2; lia. }
    assert (C : z = (-2)%Z \/ z = (-1)%Z \/ z = 0%Z \/ z = 1%Z \/ z = 2%Z \/ z = 3%Z) by lia.
    destruct C as [->|[->|[->|[->|[->| ->]]]]]; apply Ok_inj in H; subst s; cbn; tauto.
  - intros H. cbn in H. repeat (destruct H as [[= <- <-]|H]; [reflexivity|]). easy.
Qed.

Definition cfg_of (f : ft_file) (loss model : str) : ft_cfg :=
  FtCfg [(py_str "dims", MInt (tf_dims f)); (py_str "window_size", MInt (tf_window f));
            (py_str "epoch", MInt (tf_epoch f)); (py_str "min_count", MInt (tf_min_count f));
            (py_str "ns", MInt (tf_ns f)); (py_str "word_ngrams", MInt (tf_word_ngrams f));
            (py_str "loss", MStr loss); (py_str "model", MStr model);
            (py_str "buckets", MInt (tf_buckets f)); (py_str "min_n", MInt (tf_min_n f));
            (py_str "max_n", MInt (tf_max_n f)); (py_str "lr_update_rate", MInt (tf_lr f));
            (py_str "sampling_threshold", MFloat (tf_threshold f))]
    (tf_buckets f) (tf_min_n f) (tf_max_n f).
(* the settings of f *)
Definition cfg_bytes (f : ft_file) : bytes := concat (map (int_le 4) (ft_ints f)) ++ int_le 8 (tf_threshold f).
Definition with_cfg (l : list Z) (t : Z) (g : ft_file) : ft_file :=
  match l with
  | [a1; a2; a3; a4; a5; a6; a7; a8; a9; a10; a11; a12] =>
      FtFile a1 a2 a3 a4 a5 a6 a7 a8 a9 a10 a11 a12 t (tf_size g) (tf_n_words g) (tf_tokens g) (tf_prune g)
        (tf_words g) (tf_rows g) (tf_cols g) (tf_data g)
  | _ => g
  end.

Lemma consumes_cfg :
  consumes read_ft_cfg (fun b _ cfg => exists f loss model,
     b = cfg_bytes f /\ Forall (int_fits 4) (ft_ints f) /\ (0 <= tf_threshold f < 2 ^ 64)%Z
     /\ ft_loss_name (tf_loss f) loss /\ ft_model_name (tf_model f) model /\ cfg = cfg_of f loss model).
Proof.
  assert (NF : Forall numeric (repeat fI32 12 ++ [fF64])).
  { apply Forall_app. split; [apply Forall_forall; intros f I; apply repeat_spec in I; now left|].
    constructor; [|constructor]. right; right; now right. }
  eapply consumes_ext.
  { apply consumes_bind.
    - apply consumes_fields; [exact NF|cbn; lia|cbn; unfold ssize_limit; lia].
    - intros l.
      instantiate (1 := fun l b _ cfg => b = [] /\ exists f loss model, l = ft_ints f ++ [tf_threshold f]
        /\ ft_loss_name (tf_loss f) loss /\ ft_model_name (tf_model f) model /\ cfg = cfg_of f loss model).
      do 14 (destruct l as [|? l];
             [try (eapply consumes_ext; [apply consumes_fail|]; intros b s cfg; cbn beta; split; [easy|];
                   intros (_ & f & lo & mo & E & _); discriminate)|]).
      2: { eapply consumes_ext; [apply consumes_fail|]; intros b s cfg; cbn beta; split; [easy|].
           intros (_ & f & lo & mo & E & _). discriminate. }
      eapply consumes_ext.
      { apply consumes_bind; [apply consumes_lift|]. intros loss. apply consumes_bind; [apply consumes_lift|].
        intros model. apply consumes_ret. }
      intros b s cfg. cbn beta. split.
      + intros (b1 & b2 & loss & -> & (-> & HL) & b3 & b4 & model & -> & (-> & HM) & -> & ->).
        split; [easy|].
        exists (FtFile z z0 z1 z2 z3 z4 z5 z6 z7 z8 z9 z10 z11 0 0 0 0 [] 0 0 []), loss, model.
        split; [reflexivity|]. split; [now apply losses_iff|]. split; [now apply models_iff|]. reflexivity.
      + intros (-> & f & loss & model & E & HL & HM & ->). cbn [ft_ints app] in E. injection E as -> -> -> -> -> -> -> -> -> -> -> -> ->.
        exists [], [], loss. split; [easy|]. split; [split; [easy|now apply losses_iff]|].
        exists [], [], model. split; [easy|]. split; [split; [easy|now apply models_iff]|]. easy. }
  intros b s cfg. cbn beta. split.
  - intros (b1 & b2 & l & -> & (-> & F2) & -> & f & loss & model & -> & HL & HM & ->).
    exists f, loss, model. rewrite app_nil_r. split.
    { unfold cfg_bytes, ft_ints. cbn [repeat app map2 map concat]. rewrite <- !app_assoc, !app_nil_r. reflexivity. }
    cbn [ft_ints repeat app] in F2.
    repeat match goal with H : Forall2 _ (_ :: _) (_ :: _) |- _ => inversion H; clear H; subst end.
    split; [|auto]. unfold ft_ints. repeat (constructor; [assumption|]). constructor.
  - intros (f & loss & model & -> & HF & HT & HL & HM & ->).
    exists (cfg_bytes f), [], (ft_ints f ++ [tf_threshold f]). rewrite app_nil_r. split; [easy|]. split.
    + split; [unfold cfg_bytes, ft_ints; cbn [repeat app map2 map concat]; rewrite <- !app_assoc, !app_nil_r; reflexivity|].
      unfold ft_ints in HF |- *. cbn [repeat app].
      repeat match goal with H : Forall _ (_ :: _) |- _ => inversion H; clear H; subst end.
      repeat (constructor; [assumption|]). constructor.
    + split; [easy|]. exists f, loss, model. auto.
Qed.

Definition word_bytes (w : bytes * Z) : bytes := fst w ++ [x00] ++ int_le 8 (snd w) ++ [x00].
Lemma int_le_0 z : int_fits 1 z -> int_le 1 z = [x00] <-> z = 0%Z.
Proof.
  intros H. split; [|now intros ->]. intros E.
  pose proof (proj2 (int_iff 1 (int_le 1 z) z ltac:(lia)) (conj eq_refl H)) as [_ ->]. now rewrite E.
Qed.
Lemma but_eqb z b1 : (if negb (z =? 0)%Z then false else b1) = (z =? 0)%Z && b1.
Proof. now destruct (z =? 0)%Z. Qed.
Lemma consumes_word lossy :
  consumes (ft_read_word lossy) (fun b _ s => exists w, b = word_bytes w /\ ~ In x00 (fst w)
     /\ int_fits 8 (snd w) /\ (if lossy then s = decode_replace (fst w) else utf8_decode (fst w) = Ok s)).
Proof.
  eapply consumes_ext.
  { apply consumes_bind; [apply consumes_until|]. intros w. apply consumes_bind.
    - apply (consumes_read1 fI64). right; now left.
    - intros n. apply consumes_bind; [apply (consumes_read1 fI8); right; right; now left|]. intros et.
      apply consumes_if; [apply consumes_fail|apply consumes_lift]. }
  intros b s x. cbn beta. split.
  - intros (b1 & b2 & w & -> & (-> & NI) & b3 & b4 & n & -> & (-> & ON) & b5 & b6 & et & -> & (-> & OE) & H).
    destruct (Z.eqb_spec et 0) as [->|]; [|easy]. cbn [negb] in H. destruct H as [-> H].
    exists (w, n). cbn [fst snd]. split.
    + unfold word_bytes. cbn [fst snd]. rewrite <- !app_assoc. reflexivity.
    + split; [easy|]. split; [easy|]. destruct lossy; [now apply Ok_inj in H|exact H].
  - intros ([w n] & -> & NI & IF & H). unfold word_bytes. cbn [fst snd] in *.
    exists (w ++ [x00]), (int_le 8 n ++ [x00]), w. rewrite <- app_assoc. split; [easy|]. split; [easy|].
    exists (int_le 8 n), [x00], n. split; [easy|]. split; [easy|].
    exists [x00], [], 0%Z. split; [easy|]. split; [split; [easy|]; cbn; unfold int_fits; cbn; lia|].
    cbn. split; [easy|]. destruct lossy; [now subst|exact H].
Qed.

Definition decoded (lossy : bool) (w : bytes * Z) (s : str) : Prop :=
  if lossy then s = decode_replace (fst w) else utf8_decode (fst w) = Ok s.
Lemma words_iff lossy b l n :
  (exists bs, b = concat bs /\ Forall2 (fun b s => exists w, b = word_bytes w /\ ~ In x00 (fst w)
     /\ int_fits 8 (snd w) /\ decoded lossy w s) bs l /\ length l = n)
  <-> exists ws, b = concat (map word_bytes ws) /\ Forall (fun w => ~ In x00 (fst w) /\ int_fits 8 (snd w)) ws
                 /\ Forall2 (decoded lossy) ws l /\ length ws = n.
Proof.
  split.
  - intros (bs & -> & F2 & <-). induction F2 as [|b s bs l (w & -> & H1 & H2 & H3) _ (ws & IH1 & IH2 & IH3 & IH4)].
    + exists []. repeat split; constructor.
    + exists (w :: ws). cbn [concat map]. rewrite IH1. split; [easy|]. split; [now constructor|]. split; [now constructor|].
      simpl. congruence.
  - intros (ws & -> & F1 & F2 & <-). exists (map word_bytes ws). split; [easy|].
    induction F2 as [|w s ws l H F2 IH]; [split; [constructor|easy]|]. inversion F1 as [|? ? [I1 I2] F1']; subst.
    destruct (IH F1') as [IH1 IH2]. cbn [map]. split; [constructor; [now exists w|easy]|]. simpl. congruence.
Qed.

Definition vocab_part (f : ft_file) : bytes :=
  int_le 4 (tf_size f) ++ int_le 4 (tf_n_words f) ++ int_le 4 0
  ++ int_le 8 (tf_tokens f) ++ int_le 8 (tf_prune f) ++ concat (map word_bytes (tf_words f)).
Definition voc_ok (lossy : bool) (f : ft_file) (ws : list str) : Prop :=
  int_fits 4 (tf_size f) /\ int_fits 4 (tf_n_words f) /\ int_fits 8 (tf_tokens f) /\ int_fits 8 (tf_prune f)
  /\ Forall (fun w => ~ In x00 (fst w) /\ int_fits 8 (snd w)) (tf_words f)
  /\ length (tf_words f) = Z.to_nat (tf_size f) /\ (tf_prune f < 0)%Z /\ ft_decoded lossy f ws.

Lemma consumes_vocab bu mn mx lossy :
  consumes (read_ft_vocab bu mn mx lossy) (fun b _ v => exists f ws,
    b = vocab_part f /\ voc_ok lossy f ws
    /\ (ix <- ft_new bu mn mx ;; fasttext_vocab_new ws ix) = Ok v).
Proof.
  eapply consumes_ext.
  { apply consumes_bind.
    - apply (consumes_fields [fI32; fI32; fI32]).
      + repeat (constructor; [now left|]). constructor.
      + cbn; lia.
      + cbn; unfold ssize_limit; lia.
    - intros l. instantiate (1 := fun l b _ v => exists f ws, l = [tf_size f; tf_n_words f; 0%Z]
        /\ b = int_le 8 (tf_tokens f) ++ int_le 8 (tf_prune f) ++ concat (map word_bytes (tf_words f))
        /\ int_fits 8 (tf_tokens f) /\ int_fits 8 (tf_prune f)
        /\ Forall (fun w => ~ In x00 (fst w) /\ int_fits 8 (snd w)) (tf_words f)
        /\ length (tf_words f) = Z.to_nat (tf_size f) /\ (tf_prune f < 0)%Z /\ ft_decoded lossy f ws
        /\ (ix <- ft_new bu mn mx ;; fasttext_vocab_new ws ix) = Ok v).
      destruct l as [|size [|nw [|labels [|]]]].
      1-3,5: eapply consumes_ext; [apply consumes_fail|]; intros b s v; cbn beta; split; [easy|];
             intros (f & ws & E & _); discriminate.
      destruct (Z.eqb_spec labels 0) as [->|NE]; cbn [negb].
      2: { eapply consumes_ext; [apply consumes_fail|]; intros b s v; cbn beta; split; [easy|].
           intros (f & ws & E & _). congruence. }
      eapply consumes_ext.
      { apply consumes_bind; [apply (consumes_read1 fI64); right; now left|]. intros tokens.
        apply consumes_bind; [apply (consumes_read1 fI64); right; now left|]. intros prune.
        apply consumes_if; [apply consumes_fail|].
        apply consumes_bind; [apply consumes_repeat, consumes_word|]. intros ws. apply consumes_lift. }
      intros b s v. cbn beta. split.
      + intros (b1 & b2 & tokens & -> & (-> & T) & b3 & b4 & prune & -> & (-> & P) & H).
        destruct (Z.leb_spec 0 prune); [easy|]. destruct H as (b5 & b6 & l & -> & H & -> & HV).
        apply (words_iff lossy) in H as (wb & -> & W1 & W2 & W3).
        exists (FtFile 0 0 0 0 0 0 0 0 0 0 0 0 0 size nw tokens prune wb 0 0 []), l.
        cbn [tf_size tf_n_words tf_tokens tf_prune tf_words]. rewrite app_nil_r.
        repeat (split; [assumption || reflexivity|]). exact HV.
      + intros (f & ws & E & -> & T & P & W1 & W3 & PR & W2 & HV). injection E as -> ->.
        eexists _, _, _. split; [reflexivity|]. split; [split; [reflexivity|exact T]|].
        eexists _, _, _. split; [reflexivity|]. split; [split; [reflexivity|exact P]|].
        destruct (Z.leb_spec 0 (tf_prune f)); [lia|].
        exists (concat (map word_bytes (tf_words f))), [], ws. rewrite app_nil_r. split; [easy|]. split; [|easy].
        apply (words_iff lossy). exists (tf_words f). auto. }
  intros b s v. cbn beta. split.
  - intros (b1 & b2 & l & -> & (-> & F2) & f & ws & -> & -> & T & P & W1 & W3 & PR & W2 & HV).
    repeat match goal with H : Forall2 _ (_ :: _) (_ :: _) |- _ => inversion H; clear H; subst end.
    exists f, ws. cbn [map2 concat field_bytes field_size app]. unfold vocab_part, voc_ok.
    rewrite app_nil_r, <- !app_assoc. split; [reflexivity|]. split; [|exact HV]. repeat (split; [assumption|]). exact W2.
  - intros (f & ws & -> & (S1 & S2 & T & P & W1 & W3 & PR & W2) & HV).
    exists (int_le 4 (tf_size f) ++ int_le 4 (tf_n_words f) ++ int_le 4 0),
      (int_le 8 (tf_tokens f) ++ int_le 8 (tf_prune f) ++ concat (map word_bytes (tf_words f))),
      [tf_size f; tf_n_words f; 0%Z].
    unfold vocab_part. rewrite <- !app_assoc. split; [reflexivity|]. split.
    + split; [cbn [map2 concat field_bytes field_size]; now rewrite app_nil_r|].
      constructor; [exact S1|]. constructor; [exact S2|]. constructor; [|constructor]. cbn. unfold int_fits. cbn. lia.
    + exists f, ws. repeat (split; [assumption || reflexivity|]). exact HV.
Qed.

Section Load.
  Context {F : Type} (o : fops F) (host : endian) (cd : codec F) (lossy : bool).

  Definition elems (data : bytes) : list F := map (fun m => dec cd (f32_of_le m)) (split_elems (length data / 4) 4 data).
  Lemma split_f32s (l : list f32) : map f32_of_le (split_elems (length l) 4 (floats_le l)) = l.
  Proof.
    unfold floats_le. induction l as [|x l IH]; [easy|]. cbn [length map concat].
    destruct x as [a b c d]. cbn [f32_le app split_elems firstn skipn map]. rewrite IH. reflexivity.
  Qed.
  Lemma floats_le_len l : lenN (floats_le l) = 4 * lenN l.
  Proof. unfold floats_le, lenN. induction l as [|x l IH]; simpl; [easy|]. lia. Qed.
  Lemma f32s_split n data : lenN data = 4 * n -> exists l, lenN l = n /\ data = floats_le l.
  Proof.
    revert data. induction n as [|n IH] using N.peano_ind; intros data L.
    - exists []. destruct data; [easy|]. unfold lenN in L. simpl in L. lia.
    - destruct data as [|a [|b [|c [|d data]]]]; try (unfold lenN in L; simpl in L; lia).
      destruct (IH data) as (l & L1 & ->); [unfold lenN in *; simpl in L; lia|].
      exists (F32 a b c d :: l). split; [unfold lenN in *; simpl; lia|]. reflexivity.
  Qed.
  Lemma elems_floats l : elems (floats_le l) = map (dec cd) l.
  Proof.
    unfold elems. pose proof (floats_le_len l) as L. unfold lenN in L.
    replace (length (floats_le l) / 4)%nat with (length l).
    - transitivity (map (dec cd) (map f32_of_le (split_elems (length l) 4 (floats_le l)))).
      + now rewrite map_map.
      + now rewrite split_f32s.
    - replace (length (floats_le l)) with (length l * 4)%nat by lia. now rewrite Nat.div_mul.
  Qed.

  Lemma concat_split_rows {A} r c (l : list A) : lenN l = r * c ->
    concat (split_rows (N.to_nat r) (N.to_nat c) l) = l.
  Proof.
    intros H. assert (X : forall n (l : list A), length l = (n * N.to_nat c)%nat ->
      concat (split_rows n (N.to_nat c) l) = l).
    { clear. induction n as [|n IH]; intros l H; simpl; [now destruct l|].
      rewrite IH by (rewrite skipn_length; simpl in H; lia). apply firstn_skipn. }
    apply X. unfold lenN in H. lia.
  Qed.
  Lemma reshape2_iff {A} r c (l : list A) m :
    reshape2 r c l = Ok m <-> lenN m = r /\ Forall (fun row => lenN row = c) m /\ l = concat m.
  Proof.
    split.
    - intros H. apply reshape2_ok in H as [L ->]. destruct (split_rows_wf r c l L) as [W1 W2].
      rewrite concat_split_rows by easy. auto.
    - intros (<- & W & ->). now apply reshape2_concat.
  Qed.
  Lemma concat_len {A} c (m : list (list A)) : Forall (fun row => lenN row = c) m -> lenN (concat m) = lenN m * c.
  Proof.
    intros H. unfold lenN. induction H as [|r m L H IH]; [easy|]. cbn [concat]. rewrite app_length.
    unfold lenN in L. simpl length. lia.
  Qed.
  Lemma reshape_any_iff rows cols (l : list F) r c m :
    reshape_any rows cols l = Ok (r, c, m) <->
    lenN m = r /\ Forall (fun row => lenN row = c) m /\ l = concat m
    /\ ((0 <= rows /\ 0 <= cols)%Z /\ Z.of_N r = rows /\ Z.of_N c = cols
        \/ (rows < 0 < cols)%Z /\ Z.of_N c = cols
        \/ (cols < 0 < rows)%Z /\ Z.of_N r = rows).
  Proof.
    assert (G : forall r' c' (x : N * N * list (list F)),
      (m <- reshape2 (Z.to_N r') (Z.to_N c') l ;; Ok (Z.to_N r', Z.to_N c', m)) = Ok x <->
      exists m, x = (Z.to_N r', Z.to_N c', m) /\ lenN m = Z.to_N r' /\ Forall (fun row => lenN row = Z.to_N c') m /\ l = concat m).
    { intros r' c' x. split.
      - intros H. apply bind_ok in H as (m' & H & E). apply Ok_inj in E. apply reshape2_iff in H. exists m'. easy.
      - intros (m' & -> & H). apply reshape2_iff in H. now rewrite H. }
    unfold reshape_any. cbv zeta.
    destruct (Z.ltb_spec rows 0) as [R|R], (Z.ltb_spec cols 0) as [C|C]; cbn [bind].
    - destruct (Z.leb_spec cols 0); [|lia]. split; [easy|]. intros (_ & _ & _ & [?|[?|?]]); lia.
    - destruct (Z.leb_spec cols 0); cbn [bind]; [split; [easy|]; intros (_ & _ & _ & [?|[?|?]]); lia|].
      destruct (Z.eqb_spec (Z.of_nat (length l) mod cols) 0) as [M|M]; cbn [bind].
      + rewrite G. split.
        * intros (m' & [= -> -> ->] & H1 & H2 & H3). rewrite H1. split; [easy|]. split; [easy|]. split; [easy|]. right; left. lia.
        * intros (L & W & -> & [?|[[H1 H2]|?]]); try lia. subst cols. pose proof (concat_len _ _ W) as CL.
          unfold lenN in CL. rewrite N2Z.id.
          assert (X : Z.to_N (Z.of_nat (length (concat m)) / Z.of_N c) = r).
          { replace (Z.of_nat (length (concat m))) with (Z.of_N r * Z.of_N c)%Z by (unfold lenN in L; lia).
            rewrite Z.div_mul by lia. apply N2Z.id. }
          rewrite X. exists m. auto.
      + split; [easy|]. intros (L & W & -> & [?|[[H1 H2]|?]]); try lia. exfalso. apply M. subst cols.
        pose proof (concat_len _ _ W) as CL. unfold lenN in CL.
        replace (Z.of_nat (length (concat m))) with (Z.of_N (N.of_nat (length m)) * Z.of_N c)%Z by lia. apply Z.mod_mul. lia.
    - destruct (Z.leb_spec rows 0); cbn [bind]; [split; [easy|]; intros (_ & _ & _ & [?|[?|?]]); lia|].
      destruct (Z.eqb_spec (Z.of_nat (length l) mod rows) 0) as [M|M]; cbn [bind].
      + rewrite G. split.
        * intros (m' & [= -> -> ->] & H1 & H2 & H3). rewrite H1. split; [easy|]. split; [easy|]. split; [easy|]. right; right. lia.
        * intros (L & W & -> & [?|[?|[H1 H2]]]); try lia. subst rows. pose proof (concat_len _ _ W) as CL.
          unfold lenN in CL, L. rewrite N2Z.id.
          assert (X : Z.to_N (Z.of_nat (length (concat m)) / Z.of_N r) = c).
          { replace (Z.of_nat (length (concat m))) with (Z.of_N c * Z.of_N r)%Z by lia.
            rewrite Z.div_mul by lia. apply N2Z.id. }
          rewrite X. exists m. auto.
      + split; [easy|]. intros (L & W & -> & [?|[?|[H1 H2]]]); try lia. exfalso. apply M. subst rows.
        pose proof (concat_len _ _ W) as CL. unfold lenN in CL, L.
        replace (Z.of_nat (length (concat m))) with (Z.of_N c * Z.of_N r)%Z by lia. apply Z.mod_mul. lia.
    - rewrite G. split.
      + intros (m' & [= -> -> ->] & H1 & H2 & H3). rewrite H1. split; [easy|]. split; [easy|]. split; [easy|]. left. lia.
      + intros (L & W & -> & [(_ & <- & <-)|[?|?]]); try lia. rewrite !N2Z.id. exists m. auto.
  Qed.

  Lemma consumes_array {B} rows cols (K : N * N * list (list F) -> result B) :
    consumes (array <~ fromfile_count host cd (rows * cols) ;; rlift (x <- reshape_any rows cols array ;; K x))
      (fun b s y => exists r c (m0 : list (list f32)), b = floats_le (concat m0)
         /\ lenN m0 = r /\ Forall (fun row => lenN row = c) m0 /\ 4 * (r * c) < 2 ^ 63
         /\ ((0 <= rows /\ 0 <= cols)%Z /\ Z.of_N r = rows /\ Z.of_N c = cols
            \/ (rows < 0 < cols)%Z /\ Z.of_N c = cols /\ lenN s < 4
            \/ (cols < 0 < rows)%Z /\ Z.of_N r = rows /\ lenN s < 4)
         /\ K (r, c, map (map (dec cd)) m0) = Ok y).
  Proof.
    intros pre s y q.
    assert (E : fromfile_count host cd (rows * cols) (pre ++ s) (lenN pre) =
      let n := if (rows * cols <? 0)%Z then lenN s / 4 else Z.to_N (rows * cols) in
      if ssize_limit <=? n * 4 then Err OverflowError
      else Ok (elems (takeN (n * 4) s), lenN pre + lenN (takeN (n * 4) s))).
    { unfold fromfile_count. destruct (rows * cols <? 0)%Z; rewrite fromfile_native_eq, dropN_app_l; [|easy].
      rewrite lenN_app. replace (lenN pre + lenN s - lenN pre) with (lenN s) by lia. easy. }
    set (n := if (rows * cols <? 0)%Z then lenN s / 4 else Z.to_N (rows * cols)) in *. cbv zeta in E.
    unfold rbind. rewrite E. clear E. split.
    - destruct (N.leb_spec ssize_limit (n * 4)) as [G|G]; [easy|]. intros H.
      apply rlift_ok in H as [H ->]. apply bind_ok in H as ([[r c] m] & H & HK).
      apply reshape_any_iff in H as (L & W & EL & SH). pose proof (concat_len _ _ W) as CL.
      rewrite <- EL, L in CL.
      assert (TL : lenN (takeN (n * 4) s) = N.min (n * 4) (lenN s)).
      { rewrite takeN_firstn. unfold lenN. rewrite firstn_length. lia. }
      assert (NL : lenN (elems (takeN (n * 4) s)) = lenN (takeN (n * 4) s) / 4).
      { unfold elems, lenN. rewrite map_length, split_elems_length. now rewrite Nat2N.inj_div. }
      assert (RC : n = r * c).
      { unfold n in *. destruct (Z.ltb_spec (rows * cols) 0) as [S|S].
        - rewrite TL, CL in NL. rewrite NL. rewrite N.min_l; [|pose proof (N.mul_div_le (lenN s) 4); lia].
          now rewrite N.div_mul.
        - destruct SH as [(_ & S1 & S2)|[?|?]]; [|nia|nia]. rewrite <- S1, <- S2. lia. }
      assert (TL2 : lenN (takeN (n * 4) s) = 4 * (r * c)).
      { rewrite CL, TL in NL. rewrite TL, <- RC. rewrite <- RC in NL.
        destruct (N.le_gt_cases (n * 4) (lenN s)) as [X|X]; [lia|].
        rewrite N.min_r in NL by lia. assert (lenN s / 4 < n) by (apply N.div_lt_upper_bound; lia). lia. }
      destruct (f32s_split (r * c) _ TL2) as (l0 & L0 & E0).
      destruct (split_rows_wf r c l0 L0) as [W1 W2].
      exists (takeN (n * 4) s), (dropN (n * 4) s).
      split; [now rewrite takeN_firstn, dropN_skipn, firstn_skipn|]. split; [easy|].
      exists r, c, (split_rows (N.to_nat r) (N.to_nat c) l0).
      rewrite concat_split_rows by easy. split; [easy|]. split; [easy|]. split; [exact W2|].
      split; [unfold ssize_limit in G; lia|]. split.
      + destruct SH as [?|[[S1 S2]|[S1 S2]]]; [now left| |]; right; [left|right]; (split; [easy|]; split; [easy|]);
        unfold n in *; (destruct (Z.ltb_spec (rows * cols) 0); [|nia]);
        rewrite dropN_skipn; unfold lenN; rewrite skipn_length; fold (lenN s);
        pose proof (N.div_mod (lenN s) 4 ltac:(lia)); pose proof (N.mod_lt (lenN s) 4 ltac:(lia)); unfold lenN in *; lia.
      + assert (EM : m = map (map (dec cd)) (split_rows (N.to_nat r) (N.to_nat c) l0)).
        { assert (X : reshape2 r c (map (dec cd) l0) = Ok m).
          { apply reshape2_iff. rewrite <- elems_floats, <- E0. auto. }
          assert (Y : reshape2 r c (map (dec cd) l0) = Ok (map (map (dec cd)) (split_rows (N.to_nat r) (N.to_nat c) l0))).
          { apply reshape2_iff. rewrite <- concat_map, concat_split_rows by easy. split; [|split; [|easy]].
            - unfold lenN. now rewrite map_length.
            - rewrite Forall_map. eapply Forall_impl; [|exact W2]. intros row H. unfold lenN in *. now rewrite map_length. }
          rewrite X in Y. now apply Ok_inj in Y. }
        now rewrite <- EM.
    - intros (b & s' & -> & -> & r & c & m0 & -> & L & W & LT & SH & HK).
      pose proof (concat_len _ _ W) as CL. pose proof (floats_le_len (concat m0)) as FL. rewrite CL, L in FL.
      assert (RC : n = r * c).
      { unfold n. destruct (Z.ltb_spec (rows * cols) 0) as [S|S].
        - rewrite lenN_app, FL. destruct SH as [?|[?|?]]; [nia| |];
          (rewrite (N.mul_comm 4), N.add_comm, N.div_add by lia; rewrite N.div_small by lia; lia).
        - destruct SH as [(_ & S1 & S2)|[?|?]]; [|nia|nia]. rewrite <- S1, <- S2. lia. }
      rewrite RC. destruct (N.leb_spec ssize_limit (r * c * 4)) as [G|G]; [unfold ssize_limit in G; lia|].
      replace (takeN (r * c * 4) (floats_le (concat m0) ++ s')) with (floats_le (concat m0)).
      2: { symmetry. replace (r * c * 4) with (lenN (floats_le (concat m0))) by lia. apply takeN_app_l. }
      rewrite elems_floats. unfold rlift.
      assert (X : reshape_any rows cols (map (dec cd) (concat m0)) = Ok (r, c, map (map (dec cd)) m0)).
      { apply reshape_any_iff. rewrite <- concat_map. split; [|split; [|split; [easy|tauto]]].
        - unfold lenN in *. now rewrite map_length.
        - rewrite Forall_map. eapply Forall_impl; [|exact W]. intros row H. unfold lenN in *. now rewrite map_length. }
      rewrite X. cbn [bind]. rewrite HK. easy.
  Qed.

  Definition matrix_part (f : ft_file) : bytes :=
    [x00] ++ int_le 8 (tf_rows f) ++ int_le 8 (tf_cols f) ++ tf_data f.
  Definition matrix_ok (f : ft_file) (s : bytes) (r c : N) (m0 : list (list f32)) : Prop :=
    int_fits 8 (tf_rows f) /\ int_fits 8 (tf_cols f) /\ ft_shape f s r c
    /\ tf_data f = floats_le (concat m0) /\ lenN m0 = r /\ Forall (fun row => lenN row = c) m0.
  Lemma consumes_storage v :
    consumes (read_ft_storage o host cd v) (fun b s a => exists f r c m0 m,
      b = matrix_part f /\ matrix_ok f s r c m0
      /\ precompute_word_vecs o v c (map (map (dec cd)) m0) = Ok m /\ a = NdA BoNative c m).
  Proof.
    eapply consumes_ext.
    { apply consumes_bind; [apply consumes_bool|]. intros qz. apply consumes_if; [apply consumes_fail|].
      apply consumes_bind; [apply (consumes_read2 fI64 fI64); right; now left|].
      intros rc. instantiate (1 := fun rc b s y => exists r c (m0 : list (list f32)), b = floats_le (concat m0)
         /\ lenN m0 = r /\ Forall (fun row => lenN row = c) m0 /\ 4 * (r * c) < 2 ^ 63
         /\ ((0 <= fst rc /\ 0 <= snd rc)%Z /\ Z.of_N r = fst rc /\ Z.of_N c = snd rc
            \/ (fst rc < 0 < snd rc)%Z /\ Z.of_N c = snd rc /\ lenN s < 4
            \/ (snd rc < 0 < fst rc)%Z /\ Z.of_N r = fst rc /\ lenN s < 4)
         /\ (m' <- precompute_word_vecs o v c (map (map (dec cd)) m0) ;; Ok (NdA BoNative c m')) = Ok y).
      destruct rc as [rows cols]. cbn [fst snd].
      refine (consumes_array rows cols (fun x => let '(_, ncols, m) := x in
        m' <- precompute_word_vecs o v ncols m ;; Ok (NdA BoNative ncols m'))). }
    intros b s a. cbn beta. split.
    - intros (b1 & b2 & qz & -> & (x & -> & ->) & H).
      destruct (Byte.eqb x x00) eqn:X; cbn [negb Z.eqb] in H; [|easy]. apply Byte.byte_dec_bl in X. subst x.
      destruct H as (b3 & b4 & [rows cols] & -> & (-> & R1 & R2) & r & c & m0 & -> & L & W & LT & SH & HK).
      cbn [fst snd] in *. apply bind_ok in HK as (m & HM & E). apply Ok_inj in E.
      exists (FtFile 0 0 0 0 0 0 0 0 0 0 0 0 0 0 0 0 0 [] rows cols (floats_le (concat m0))), r, c, m0, m.
      unfold matrix_part, matrix_ok, ft_shape. cbn [tf_rows tf_cols tf_data].
      rewrite <- !app_assoc. split; [reflexivity|]. split; [|easy].
      split; [exact R1|]. split; [exact R2|]. rewrite floats_le_len, (concat_len c m0 W), L. auto 10.
    - intros (f & r & c & m0 & m & -> & (R1 & R2 & (S1 & S2 & S3) & E & L & W) & HM & ->).
      exists [x00], (int_le 8 (tf_rows f) ++ int_le 8 (tf_cols f) ++ tf_data f), 0%Z.
      split; [reflexivity|]. split; [exists x00; easy|]. cbn [negb Z.eqb].
      exists (int_le 8 (tf_rows f) ++ int_le 8 (tf_cols f)), (tf_data f), (tf_rows f, tf_cols f). cbn [fst snd].
      rewrite <- app_assoc. split; [easy|]. split; [easy|]. exists r, c, m0. rewrite HM. auto 10.
  Qed.

  Definition finish (cfg : ft_cfg) (v : vocab) (a : ndarray F) : result (embeddings F) :=
    let n := N.to_nat (vocab_len v) in
    let (words, norms) := normalize_matrix o (firstn n (nd_rows a)) in
    embeddings_new (SNd (NdA (nd_bo a) (nd_cols a) (words ++ skipn n (nd_rows a)))) v
      (Some (Norms BoNative norms)) (Some (fc_metadata cfg)).

  Lemma ft_bytes_parts f : ft_bytes f =
    (int_le 4 793712314 ++ int_le 4 12) ++ cfg_bytes f ++ vocab_part f ++ matrix_part f.
  Proof.
    unfold ft_bytes, ft_before_data, cfg_bytes, vocab_part, matrix_part.
    change (fun w : bytes * Z => fst w ++ [x00] ++ int_le 8 (snd w) ++ [x00]) with word_bytes.
    rewrite <- !app_assoc. reflexivity.
  Qed.

  Definition parsed (f : ft_file) (rest : bytes) (e : embeddings F) : Prop :=
    exists loss model ws v r c m0 m,
      Forall (int_fits 4) (ft_ints f) /\ (0 <= tf_threshold f < 2 ^ 64)%Z
      /\ ft_loss_name (tf_loss f) loss /\ ft_model_name (tf_model f) model
      /\ voc_ok lossy f ws
      /\ (ix <- ft_new (tf_buckets f) (tf_min_n f) (tf_max_n f) ;; fasttext_vocab_new ws ix) = Ok v
      /\ matrix_ok f rest r c m0
      /\ precompute_word_vecs o v c (map (map (dec cd)) m0) = Ok m
      /\ finish (cfg_of f loss model) v (NdA BoNative c m) = Ok e.

  Lemma consumes_load : consumes (load_fasttext o host cd lossy)
    (fun b s e => exists f, b = ft_bytes f /\ parsed f s e).
  Proof.
    eapply consumes_ext.
    { apply consumes_bind; [apply consumes_header|]. intros u. apply consumes_bind; [apply consumes_cfg|]. intros cfg.
      apply consumes_bind; [apply consumes_vocab|]. intros v. apply consumes_bind; [apply consumes_storage|]. intros a.
      instantiate (1 := fun a b _ e => b = [] /\ finish cfg v a = Ok e). unfold finish. cbv zeta.
      destruct (normalize_matrix o _) as [x y]. apply consumes_lift. }
    intros b s e. cbn beta. split.
    - intros (b1 & b2 & u & -> & -> & b3 & b4 & cfg & -> & (f1 & loss & model & -> & A1 & A2 & A3 & A4 & ->)
        & b5 & b6 & v & -> & (f2 & ws & -> & A5 & A6) & b7 & b8 & a & -> & (f3 & r & c & m0 & m & -> & A7 & A8 & ->) & -> & A9).
      exists (FtFile (tf_dims f1) (tf_window f1) (tf_epoch f1) (tf_min_count f1) (tf_ns f1) (tf_word_ngrams f1)
                (tf_loss f1) (tf_model f1) (tf_buckets f1) (tf_min_n f1) (tf_max_n f1) (tf_lr f1) (tf_threshold f1)
                (tf_size f2) (tf_n_words f2) (tf_tokens f2) (tf_prune f2) (tf_words f2) (tf_rows f3) (tf_cols f3) (tf_data f3)).
      split.
      + rewrite ft_bytes_parts, app_nil_r. reflexivity.
      + exists loss, model, ws, v, r, c, m0, m.
        repeat (split; [assumption|]). exact A9.
    - intros (f & -> & loss & model & ws & v & r & c & m0 & m & A1 & A2 & A3 & A4 & A5 & A6 & A7 & A8 & A9).
      rewrite ft_bytes_parts. eexists _, _, tt. split; [reflexivity|]. split; [reflexivity|].
      eexists _, _, _. split; [reflexivity|]. split; [exists f, loss, model; auto 10|].
      eexists _, _, v. split; [reflexivity|]. split; [exists f, ws; auto|].
      exists (matrix_part f), [], (NdA BoNative c m). split; [now rewrite app_nil_r|]. split; [|easy].
      exists f, r, c, m0, m. auto.
  Qed.

  Lemma precompute_length v c m m' : precompute_word_vecs o v c m = Ok m' -> length m' = length m.
  Proof.
    unfold precompute_word_vecs. generalize (enumerate (vocab_words v)). intros l. revert m.
    induction l as [|[w i] l IH]; intros m H; cbn [foldM] in H; [now apply Ok_inj in H; subst|].
    apply bind_ok in H as (m2 & H1 & H2). apply IH in H2. rewrite H2.
    apply bind_ok in H1 as (sw & _ & H1). cbv zeta in H1. apply bind_ok in H1 as (rs & _ & H1).
    unfold py_setrow in H1. cbv zeta in H1. destruct (in_range _ _ _); [|easy]. apply Ok_inj in H1. subst m2.
    apply set_nth_length.
  Qed.

  Lemma ft_vocab_iff bu mn mx ws v : int_fits 4 bu -> int_fits 4 mn -> int_fits 4 mx ->
    (ix <- ft_new bu mn mx ;; fasttext_vocab_new ws ix) = Ok v <->
    NoDup ws /\ (0 < mn <= mx)%Z /\ (0 < bu)%Z
    /\ v = VFastText ws (enumerate ws) (FT (Z.to_N bu) (Z.to_N mn) (Z.to_N mx)).
  Proof.
    unfold int_fits. change (8 * Z.of_nat 4 - 1)%Z with 31%Z. intros B1 B2 B3. split.
    - intros H. apply bind_ok in H as (ix & HI & H). apply ft_new_ok in HI as (E1 & E2 & E3 & R1 & R2 & R3).
      unfold fasttext_vocab_new in H. apply bind_ok in H as (idx & HV & H). apply Ok_inj in H.
      apply validate_ok in HV as [ND ->]. split; [easy|]. split; [easy|]. split; [lia|]. rewrite <- H.
      destruct ix as [x y z]. cbn [ft_buckets ft_min_n ft_max_n] in *. rewrite <- E1, <- E2, <- E3, !N2Z.id. reflexivity.
    - intros (ND & R1 & R2 & ->). unfold ft_new.
      destruct (Z.leb_spec mn mx); [|lia]. destruct (Z.ltb_spec 0 mn); [|lia]. destruct (Z.ltb_spec 0 bu); [|lia].
      destruct (Z.leb_spec bu (2 ^ 32 - 1)); [|lia]. cbn [andb py_assert bind]. unfold to_uint32, in_range.
      destruct (Z.leb_spec 0 mn); [|lia]. destruct (Z.ltb_spec mn (2 ^ 32)); [|lia].
      destruct (Z.leb_spec 0 mx); [|lia]. destruct (Z.ltb_spec mx (2 ^ 32)); [|lia]. cbn [andb bind].
      unfold fasttext_vocab_new. now rewrite validate_NoDup.
  Qed.

  Lemma decoded_encodable w s : decoded lossy w s -> encodable s.
  Proof.
    unfold decoded. intros H. destruct (utf8_encode s) as [b|x] eqn:E; [now exists b|].
    apply encode_error in E as [_ E]. exfalso. apply E. destruct lossy.
    - subst s. apply replace_scalar.
    - apply strict_iff in H. apply decode_replace_strict in H. subst s. apply replace_scalar.
  Qed.

  (* what becomes of the parts *)
  Lemma finish_spec f ws v r c m0 loss model :
    Forall encodable ws -> lenN ws < 2 ^ 31 -> NoDup ws -> (0 < tf_min_n f <= tf_max_n f)%Z -> (tf_max_n f < 2 ^ 31)%Z ->
    (0 < tf_buckets f < 2 ^ 31)%Z ->
    v = VFastText ws (enumerate ws) (FT (Z.to_N (tf_buckets f)) (Z.to_N (tf_min_n f)) (Z.to_N (tf_max_n f))) ->
    tf_data f = floats_le (concat m0) -> lenN m0 = r -> Forall (fun row => lenN row = c) m0 ->
    ft_loss_name (tf_loss f) loss -> ft_model_name (tf_model f) model ->
    Z.of_N r = (Z.of_nat (length ws) + tf_buckets f)%Z ->
    exists m e, precompute_word_vecs o v c (map (map (dec cd)) m0) = Ok m
      /\ finish (cfg_of f loss model) v (NdA BoNative c m) = Ok e
      /\ ft_embeddings o cd f r c ws e.
  Proof.
    intros EN L ND RN RN2 RB V ED L0 W0 HL HM HR.
    set (m1 := map (map (dec cd)) m0).
    assert (L1 : length m1 = N.to_nat r) by (unfold m1, lenN in *; rewrite map_length; lia).
    assert (W1 : Forall (fun row => length row = N.to_nat c) m1).
    { unfold m1. rewrite Forall_map. eapply Forall_impl; [|exact W0]. intros row H. unfold lenN in H. rewrite map_length. lia. }
    assert (BV : built_vocab v).
    { apply (BuiltFastText ws (tf_buckets f) (tf_min_n f) (tf_max_n f)
               (FT (Z.to_N (tf_buckets f)) (Z.to_N (tf_min_n f)) (Z.to_N (tf_max_n f)))).
      - unfold ft_new. destruct (Z.leb_spec (tf_min_n f) (tf_max_n f)); [|lia]. destruct (Z.ltb_spec 0 (tf_min_n f)); [|lia].
        destruct (Z.ltb_spec 0 (tf_buckets f)); [|lia]. destruct (Z.leb_spec (tf_buckets f) (2 ^ 32 - 1)); [|lia].
        cbn [andb py_assert bind]. unfold to_uint32, in_range.
        destruct (Z.leb_spec 0 (tf_min_n f)); [|lia]. destruct (Z.ltb_spec (tf_min_n f) (2 ^ 32)); [|lia].
        destruct (Z.leb_spec 0 (tf_max_n f)); [|lia]. destruct (Z.ltb_spec (tf_max_n f) (2 ^ 32)); [|lia]. reflexivity.
      - unfold fasttext_vocab_new. rewrite validate_NoDup by easy. now rewrite V. }
    assert (VL : vocab_len v = lenN ws) by (rewrite (built_len _ BV), V; easy).
    assert (UB : vocab_upper_bound v = Z.of_N r).
    { unfold vocab_upper_bound. rewrite VL, V. unfold lenN. cbn. lia. }
    assert (NW : n_words v = length ws) by (now rewrite V).
    assert (AV : forall j w, nth_error ws j = Some w -> exists u, averaged o v c m1 j w u /\ ft_mean o v c m1 j w u).
    { intros j w Hj. assert (J : (j < length ws)%nat) by (apply nth_error_Some; congruence).
      destruct (vocab_subword_indices v w true false) as [sw|er] eqn:SW.
      2:{ assert (EW : encodable w) by (rewrite Forall_forall in EN; apply EN; eapply nth_error_In; eauto).
          apply subword_err in SW as [(x & y & SW & _)|(x & y & z & _ & SW)]; [congruence| |easy].
          assert (encodable (in_brackets true w)) as [bb EB]; [|congruence].
          unfold in_brackets. change (60 :: w ++ [62]) with ([60] ++ w ++ [62]).
          apply encodable_app; [|apply encodable_app; [easy|]]; apply encodable_ascii; repeat constructor. }
      assert (NI : nonneg_index v) by (rewrite V; easy).
      assert (MS : machine_size v) by (rewrite V; unfold machine_size; cbn; lia).
      pose proof (subword_bounds _ _ _ _ _ BV NI MS SW) as SB. rewrite UB, VL in SB.
      assert (RW : exists rows, Forall2 (fun i row => (0 <= i)%Z /\ nth_error m1 (Z.to_nat i) = Some row) (Z.of_nat j :: map sw_index sw) rows).
      { assert (IB : Forall (fun i => 0 <= i < Z.of_N r)%Z (Z.of_nat j :: map sw_index sw)).
        { constructor; [lia|]. rewrite Forall_map. eapply Forall_impl; [|exact SB]. intros x H. cbn beta in H. lia. }
        clear - IB L1. induction IB as [|i l H _ [rows IH]]; [exists []; constructor|].
        destruct (nth_error m1 (Z.to_nat i)) as [row|] eqn:Q; [|apply nth_error_None in Q; lia].
        exists (row :: rows). constructor; [|easy]. split; [lia|easy]. }
      destruct RW as [rows RW].
      exists (vdiv o (vsum o (N.to_nat c) rows) (fofZ o (Z.of_nat (length sw) + 1))). split.
      - exists sw, rows. split; [easy|]. split; [|split; [|easy]].
        + rewrite NW, Forall_map. eapply Forall_impl; [|exact SB]. intros x H. cbn beta in H. unfold lenN in H. lia.
        + clear - RW. induction RW as [|i row l rows [_ H] _ IH]; now constructor.
      - exists sw, rows, (vsum o (N.to_nat c) rows). split; [easy|]. split; [easy|]. split; [|easy].
        apply vsum_is_sum. clear - RW W1. revert RW. generalize (Z.of_nat j :: map sw_index sw). intros l RW.
        induction RW as [|i row l rows [_ H] _ IH]; constructor; [|easy].
        rewrite Forall_forall in W1. apply W1. eapply nth_error_In; eauto. }
    destruct (precompute_ok o v c m1) as (m & HP & LM & HI & HW).
    { rewrite NW, L1. lia. }
    { rewrite V. cbn [vocab_words]. intros j w Hj. rewrite <- V. destruct (AV j w Hj) as (u & U & _). now exists u. }
    assert (VW : vocab_words v = ws) by (now rewrite V). rewrite VW in HW. rewrite NW in HI.
    set (n := length ws) in *. set (us := firstn n m).
    assert (LU : length us = n) by (unfold us; rewrite firstn_length; lia).
    exists m. eexists. split; [exact HP|]. split.
    { unfold finish. cbn [nd_rows nd_bo nd_cols]. rewrite VL. replace (N.to_nat (lenN ws)) with n by (unfold lenN, n; lia).
      rewrite normalize_rows. fold us. unfold embeddings_new, norms_compat.
      cbn [storage_shape nd_rows nd_cols fst nm_vals]. rewrite UB, VL. unfold lenN.
      rewrite app_length, !map_length, LU, skipn_length, LM, L1.
      replace (N.of_nat (n + (N.to_nat r - n))) with r by lia. rewrite Z.eqb_refl. fold n. rewrite N.eqb_refl.
      destruct (N.leb_spec (N.of_nat n) r); [|lia]. cbn [py_assert bind]. reflexivity. }
    exists (enumerate ws), loss, model, m0, us, (map (fun r => map (fun x => fdiv o x (fnorm o r)) r) us ++ skipn n m).
    cbn [em_vocab em_storage em_norms em_metadata]. cbv zeta. fold m1.
    split; [exact V|]. split; [now apply enumerate_indexed|]. split; [easy|]. split; [easy|]. split; [easy|].
    split; [easy|]. split; [unfold lenN; rewrite app_length, map_length, LU, skipn_length, LM, L1; lia|].
    split; [exact LU|]. split; [|split; [|split; [easy|split; [easy|split; [easy|reflexivity]]]]].
    - intros k w u Hw Hu. assert (K : (k < n)%nat) by (apply nth_error_Some; congruence).
      destruct (HW k w Hw) as (u' & N1 & A1). unfold us in Hu. rewrite nth_error_firstn' in Hu.
      destruct (Nat.ltb_spec k n); [|lia]. rewrite N1 in Hu. injection Hu as ->.
      destruct (AV k w Hw) as (u2 & A2 & A3). rewrite <- (averaged_unique o _ _ _ _ _ _ _ A1 A2) in A3.
      split; [exact A3|]. rewrite nth_error_app1 by (rewrite map_length, LU; lia).
      rewrite nth_error_map. unfold us. rewrite nth_error_firstn'. destruct (Nat.ltb_spec k n); [|lia]. now rewrite N1.
    - intros k K. rewrite nth_error_app2, map_length, LU, skipn_nth by (rewrite map_length, LU; lia).
      replace (n + (k - n))%nat with k by lia. now apply HI.
  Qed.

  Lemma decoded_words f ws : ft_decoded lossy f ws -> Forall encodable ws /\ length (tf_words f) = length ws.
  Proof.
    intros H. split; [|unfold ft_decoded in H; induction H; simpl; congruence].
    unfold ft_decoded in H. induction H as [|w s l ws H _ IH]; constructor; [|easy]. exact (decoded_encodable w s H).
  Qed.
  Lemma ints_fit f : Forall (int_fits 4) (ft_ints f) ->
    int_fits 4 (tf_buckets f) /\ int_fits 4 (tf_min_n f) /\ int_fits 4 (tf_max_n f).
  Proof.
    intros H. rewrite Forall_forall in H. repeat split; apply H; cbn; tauto.
  Qed.

  Lemma parsed_spec f rest e : parsed f rest e ->
    exists r c ws, ft_loadable lossy f rest r c ws /\ ft_embeddings o cd f r c ws e.
  Proof.
    intros (loss & model & ws & v & r & c & m0 & m & A1 & A2 & A3 & A4 & A5 & A6 & A7 & A8 & A9).
    destruct (ints_fit f A1) as (I1 & I2 & I3). apply ft_vocab_iff in A6 as (ND & RN & RB & V); try easy.
    destruct A5 as (S1 & S2 & S3 & S4 & S5 & S6 & S7 & S8). destruct (decoded_words f ws S8) as [EN LW].
    destruct A7 as (R1 & R2 & SH & ED & L0 & W0).
    assert (BD : int_fits 4 (tf_size f)) by easy. unfold int_fits in BD, I1, I2, I3.
    change (8 * Z.of_nat 4 - 1)%Z with 31%Z in *.
    assert (HR : Z.of_N r = (Z.of_nat (length ws) + tf_buckets f)%Z).
    { unfold finish in A9. cbn [nd_rows nd_bo nd_cols] in A9. rewrite normalize_rows in A9.
      unfold embeddings_new in A9. apply bind_ok in A9 as (u & U & _). apply py_assert_ok, Z.eqb_eq in U.
      cbn [storage_shape nd_rows fst] in U. apply precompute_length in A8. rewrite map_length in A8.
      unfold vocab_upper_bound, vocab_len in U. rewrite V in U. cbn [vocab_index] in U.
      unfold lenN in U, L0. rewrite enumerate_length in U. rewrite app_length, map_length, firstn_length, skipn_length in U.
      cbn in U. lia. }
    exists r, c, ws. split.
    - split; [|]. { repeat (split; [assumption|]). easy. }
      split; [now exists loss|]. split; [now exists model|]. repeat (split; [assumption|]). exact HR.
    - destruct (finish_spec f ws v r c m0 loss model) as (m' & e' & P1 & P2 & P3); try easy; try (unfold lenN; lia).
      rewrite A8 in P1. apply Ok_inj in P1. subst m'. rewrite A9 in P2. apply Ok_inj in P2. now subst e'.
  Qed.
  Lemma loadable_parsed f rest r c ws : ft_loadable lossy f rest r c ws ->
    exists e, parsed f rest e /\ ft_embeddings o cd f r c ws e.
  Proof.
    intros ((F1 & F2 & F3 & F4 & F5 & F6 & F7 & F8 & F9) & (loss & HL) & (model & HM) & LW & PR & RN & RB & DW & ND & SH & HR).
    pose proof SH as (S1 & S2 & S3). destruct (f32s_split (r * c) _ S1) as (l0 & L0 & E0).
    destruct (split_rows_wf r c l0 L0) as [W1 W2]. destruct (ints_fit f F1) as (I1 & I2 & I3).
    destruct (decoded_words f ws DW) as [EN LW2].
    pose proof F3 as BD. unfold int_fits in BD, I1, I2, I3. change (8 * Z.of_nat 4 - 1)%Z with 31%Z in *.
    destruct (finish_spec f ws (VFastText ws (enumerate ws) (FT (Z.to_N (tf_buckets f)) (Z.to_N (tf_min_n f)) (Z.to_N (tf_max_n f))))
      r c (split_rows (N.to_nat r) (N.to_nat c) l0) loss model EN) as (m & e & P1 & P2 & P3);
      try easy; try lia; try (unfold lenN; lia).
    - now rewrite concat_split_rows.
    - exists e. split; [|exact P3]. exists loss, model, ws. eexists. exists r, c. eexists. exists m.
      split; [easy|]. split; [easy|]. split; [easy|]. split; [easy|].
      split; [repeat (split; [assumption|]); easy|]. split; [now apply ft_vocab_iff|]. split; [|split; [exact P1|exact P2]].
      split; [easy|]. split; [easy|]. split; [easy|]. rewrite concat_split_rows by easy. easy.
  Qed.

  Lemma load_parts d e q : load_fasttext o host cd lossy d 0 = Ok (e, q) <->
    exists f rest, d = ft_bytes f ++ rest /\ q = lenN (ft_bytes f) /\ parsed f rest e.
  Proof.
    pose proof (consumes_load [] d e q) as H. change (lenN (@nil byte)) with 0 in H. cbn [app] in H. rewrite H. split.
    - intros (b & s & -> & -> & f & -> & P). exists f, s. auto.
    - intros (f & s & -> & -> & P). exists (ft_bytes f), s. split; [easy|]. split; [easy|]. now exists f.
  Qed.
  Theorem load_fasttext_only d e : run_reader (load_fasttext o host cd lossy) d = Ok e ->
    exists f rest r c ws, d = ft_bytes f ++ rest /\ ft_loadable lossy f rest r c ws /\ ft_embeddings o cd f r c ws e.
  Proof.
    unfold run_reader. destruct (load_fasttext o host cd lossy d 0) as [[e' q]|] eqn:H; [|easy]. intros E. apply Ok_inj in E. subst e'.
    apply load_parts in H as (f & rest & -> & _ & P). apply parsed_spec in P as (r & c & ws & P). exists f, rest, r, c, ws. easy.
  Qed.
  Theorem load_fasttext_any f rest r c ws : ft_loadable lossy f rest r c ws ->
    exists e, run_reader (load_fasttext o host cd lossy) (ft_bytes f ++ rest) = Ok e
              /\ ft_embeddings o cd f r c ws e.
  Proof.
    intros H. destruct (loadable_parsed f rest r c ws H) as (e & P & Q).
    assert (X : load_fasttext o host cd lossy (ft_bytes f ++ rest) 0 = Ok (e, lenN (ft_bytes f))).
    { apply load_parts. exists f, rest. auto. }
    exists e. unfold run_reader. rewrite X. easy.
  Qed.
End Load.
