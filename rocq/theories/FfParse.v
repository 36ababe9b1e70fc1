(* Readers described by the bytes they take. *)
From Coq Require Import Lia.
From Verif Require Import Py PyProofs Utf8 Utf8Proofs Utf8More SpecUtf8 IO IOProofs ReaderProofs Arr
  StorageProofs StorageInv Spec SpecFinalfusion.
Local Open Scope N_scope.
Local Open Scope list_scope.

(* at position p the reader takes the bytes b, leaves the bytes s, gives a and moves to q *)
Definition rel (A : Type) : Type := N -> bytes -> bytes -> A -> N -> Prop.
Definition forward {A} (P : rel A) : Prop :=
  forall p b s a q, P p b s a q -> q = p + lenN b \/ s = [] /\ p + lenN b <= q.
Definition parses {A} (m : reader A) (P : rel A) : Prop :=
  forward P
  /\ forall d p a q, m d p = Ok (a, q) <-> exists b s, dropN p d = b ++ s /\ P p b s a q.
(* readers that move over what they take *)
Definition here {A} (R : N -> bytes -> bytes -> A -> Prop) : rel A :=
  fun p b s a q => q = p + lenN b /\ R p b s a.
Definition seqP {A B} (P : rel A) (Q : A -> rel B) : rel B :=
  fun p b s x q => exists b1 b2 a p1, b = b1 ++ b2 /\ P p b1 (b2 ++ s) a p1 /\ Q a p1 b2 s x q.

Lemma parses_ext {A} (m : reader A) (P Q : rel A) :
  parses m P -> (forall p b s a q, P p b s a q <-> Q p b s a q) -> parses m Q.
Proof.
  intros [F H] E. split.
  - intros p b s a q X. apply E in X. eapply F, X.
  - intros d p a q. rewrite (H d p a q). split; intros (b & s & ? & X); exists b, s; (split; [easy|]); now apply E.
Qed.
Lemma parses_eq {A} (m m' : reader A) P : (forall d p, m' d p = m d p) -> parses m P -> parses m' P.
Proof. intros E [F H]. split; [exact F|]. intros d p a q. now rewrite E. Qed.

Lemma forward_drop {A} (P : rel A) d p b s a q : forward P -> dropN p d = b ++ s -> P p b s a q ->
  dropN q d = s.
Proof.
  intros F E H. apply F in H as [->|[-> L]].
  - rewrite <- dropN_dropN, E. apply dropN_app_l.
  - replace q with (p + lenN b + (q - p - lenN b)) by lia. rewrite <- !dropN_dropN, E, dropN_app_l.
    now rewrite dropN_skipn, skipn_nil.
Qed.
Lemma parses_bind {A B} (m : reader A) (k : A -> reader B) P Q :
  parses m P -> (forall a, parses (k a) (Q a)) -> parses (rbind m k) (seqP P Q).
Proof.
  intros [FM HM] HK. split.
  - intros p b s x q (b1 & b2 & a & p1 & -> & H1 & H2). apply FM in H1. destruct (HK a) as [F _]. apply F in H2.
    rewrite lenN_app. destruct H1 as [->|[E L]].
    + destruct H2 as [->|[-> L]]; [left|right; split; [easy|]]; lia.
    + apply app_eq_nil in E as [-> ->]. right. split; [easy|]. change (lenN (@nil byte)) with 0 in *. lia.
  - intros d p x q. split.
    + intros H. apply rbind_ok in H as (a & p1 & H1 & H2). apply HM in H1 as (b1 & s1 & E1 & H1).
      apply HK in H2 as (b2 & s2 & E2 & H2). rewrite (forward_drop _ _ _ _ _ _ _ FM E1 H1) in E2. subst s1.
      exists (b1 ++ b2), s2. rewrite <- app_assoc. split; [easy|]. exists b1, b2, a, p1. auto.
    + intros (b & s & E & b1 & b2 & a & p1 & -> & H1 & H2). rewrite <- app_assoc in E.
      assert (X : m d p = Ok (a, p1)) by (apply HM; eauto). unfold rbind. rewrite X. apply HK.
      exists b2, s. split; [|easy]. apply (forward_drop _ _ _ _ _ _ _ FM E H1).
Qed.

Lemma forward_here {A} (R : N -> bytes -> bytes -> A -> Prop) : forward (here R).
Proof. intros p b s a q [-> _]. now left. Qed.
Lemma lenN_nil {A} : lenN (@nil A) = 0.
Proof. easy. Qed.
Lemma parses_ret {A} (a : A) : parses (rret a) (here (fun _ b _ x => b = [] /\ x = a)).
Proof.
  split; [apply forward_here|]. intros d p x q. unfold rret. split.
  - intros [= <- <-]. exists [], (dropN p d). repeat split. rewrite lenN_nil. lia.
  - intros (b & s & E & -> & -> & ->). now rewrite lenN_nil, N.add_0_r.
Qed.
Lemma parses_lift {A} (r : result A) : parses (rlift r) (here (fun _ b _ x => b = [] /\ r = Ok x)).
Proof.
  split; [apply forward_here|]. intros d p x q. unfold rlift. split.
  - destruct r; [|easy]. intros [= <- <-]. exists [], (dropN p d). repeat split. rewrite lenN_nil. lia.
  - intros (b & s & E & -> & -> & ->). now rewrite lenN_nil, N.add_0_r.
Qed.
Lemma parses_fail {A} x : parses (@rfail A x) (fun _ _ _ _ _ => False).
Proof. split; [easy|]. intros d p a q. unfold rfail. split; [easy|]. now intros (b & s & _ & ?). Qed.
Lemma parses_fail' {A} x (P : rel A) : (forall p b s a q, ~ P p b s a q) -> parses (@rfail A x) P.
Proof. intros H. eapply parses_ext; [apply parses_fail|]. intros p b s a q. split; [easy|]. apply H. Qed.
Lemma parses_tell : parses tell (here (fun p b _ a => b = [] /\ a = p)).
Proof.
  split; [apply forward_here|]. intros d p a q. unfold tell. split.
  - intros [= <- <-]. exists [], (dropN p d). repeat split. rewrite lenN_nil. lia.
  - intros (b & s & E & -> & -> & ->). now rewrite lenN_nil, N.add_0_r.
Qed.

(* up to n bytes *)
Definition upto (n : N) (b s : bytes) : Prop := lenN b = n \/ lenN b < n /\ s = [].
Lemma upto_iff n l b s : l = b ++ s /\ upto n b s <-> b = takeN n l /\ s = dropN n l.
Proof.
  split.
  - intros [-> [<-|[L ->]]].
    + now rewrite takeN_app_l, dropN_app_l.
    + rewrite app_nil_r, takeN_all, dropN_all by lia. easy.
  - intros [-> ->]. split; [symmetry; apply takeN_dropN|]. unfold upto.
    destruct (N.le_gt_cases n (lenN l)) as [L|L].
    + left. rewrite lenN_takeN. lia.
    + right. rewrite takeN_all, dropN_all by lia. easy.
Qed.
Lemma parses_seek_fwd n : n <= 4 ->
  parses (seek_fwd n) (fun p b s _ q => q = p + n /\ q < ssize_limit /\ upto n b s).
Proof.
  intros N4. split.
  - intros p b s a q (-> & _ & [->|[L ->]]); [now left|right]. split; [easy|]. lia.
  - intros d p [] q. unfold seek_fwd.
    destruct (N.leb_spec ssize_limit n) as [L|L]; [unfold ssize_limit in L; lia|]. cbn [orb].
    destruct (N.leb_spec ssize_limit (p + n)) as [L2|L2].
    + split; [easy|]. intros (b & s & _ & -> & ? & _). lia.
    + split.
      * intros [= <-]. exists (takeN n (dropN p d)), (dropN n (dropN p d)).
        destruct (proj2 (upto_iff n (dropN p d) _ _) (conj eq_refl eq_refl)) as [E U]. auto.
      * intros (b & s & _ & -> & _). easy.
Qed.
Lemma parses_read n : n < ssize_limit -> parses (read n) (here (fun _ b s x => x = b /\ upto n b s)).
Proof.
  intros L. split; [apply forward_here|]. intros d p x q. unfold read.
  destruct (N.leb_spec ssize_limit n); [lia|]. cbv zeta. split.
  - intros [= <- <-]. exists (takeN n (dropN p d)), (dropN n (dropN p d)).
    destruct (proj2 (upto_iff n (dropN p d) _ _) (conj eq_refl eq_refl)) as [E U].
    split; [exact E|]. split; [easy|]. auto.
  - intros (b & s & E & -> & -> & U). destruct (proj1 (upto_iff n (dropN p d) b s) (conj E U)) as [E1 _].
    now rewrite <- E1.
Qed.
(* a complete read *)
Lemma parses_read_all n : n < ssize_limit ->
  forall d p b q, read n d p = Ok (b, q) /\ lenN b = n <->
    q = p + n /\ lenN b = n /\ exists s, dropN p d = b ++ s.
Proof.
  intros L d p b q. destruct (parses_read n L) as [_ H]. specialize (H d p b q). split.
  - intros [X E]. apply H in X as (b' & s & E1 & -> & <- & U). rewrite E. eauto.
  - intros (-> & E & s & E1). split; [|easy]. apply H. exists b, s. split; [easy|]. unfold here.
    split; [lia|]. split; [easy|]. now left.
Qed.

(* unsigned numbers *)
Definition ufield (f : field) : Prop := f = fU32 \/ f = fU64.
Definition ubytes (f : field) (n : N) : bytes := le_bytes (field_size f) n.
Definition ufits (f : field) (n : N) : Prop := n < 2 ^ (8 * N.of_nat (field_size f)).
Lemma ufield_iff f b z : ufield f ->
  (length b = field_size f /\ z = unpack_field f b)
  <-> exists n, z = Z.of_N n /\ b = ubytes f n /\ ufits f n.
Proof.
  intros HF. assert (U : unpack_field f b = Z.of_N (le_val b)) by (now destruct HF as [->| ->]).
  assert (P : 256 ^ N.of_nat (field_size f) = 2 ^ (8 * N.of_nat (field_size f))) by now rewrite N.pow_mul_r.
  rewrite U. split.
  - intros [L ->]. exists (le_val b). split; [easy|]. split.
    + unfold ubytes. rewrite <- L. symmetry. apply le_bytes_le_val.
    + unfold ufits. rewrite <- P, <- L. apply le_val_lt.
  - intros (n & -> & -> & B). split; [apply le_bytes_length|]. f_equal. symmetry.
    apply le_val_small. unfold ufits in B. now rewrite P.
Qed.
Lemma uunpack_iff fmt : Forall ufield fmt -> forall b vs,
  (length b = calcsize fmt /\ vs = unpack fmt b)
  <-> exists ns, vs = map Z.of_N ns /\ b = concat (map2 ubytes fmt ns) /\ Forall2 ufits fmt ns.
Proof.
  induction 1 as [|f fmt N H IH]; intros b vs.
  - cbn. split.
    + intros [L ->]. destruct b; [|easy]. exists []. repeat split. constructor.
    + intros (ns & -> & -> & F2). inversion F2. easy.
  - assert (U : unpack (f :: fmt) b = unpack_field f (firstn (field_size f) b) :: unpack fmt (skipn (field_size f) b))
      by (destruct N as [->| ->]; reflexivity).
    assert (CS : calcsize (f :: fmt) = (field_size f + calcsize fmt)%nat) by reflexivity.
    rewrite U, CS. split.
    + intros [L ->].
      assert (X1 : length (firstn (field_size f) b) = field_size f) by (rewrite firstn_length; lia).
      assert (X2 : length (skipn (field_size f) b) = calcsize fmt) by (rewrite skipn_length; lia).
      pose proof (proj1 (ufield_iff f _ _ N) (conj X1 eq_refl)) as (n & Z1 & Y1 & Y2).
      pose proof (proj1 (IH _ _) (conj X2 eq_refl)) as (ns & Z2 & Y3 & Y4).
      exists (n :: ns). cbn [map map2 concat]. rewrite <- Y1, <- Y3, firstn_skipn, Z1, Z2.
      split; [easy|]. split; [easy|]. now constructor.
    + intros (ns & -> & -> & F2). inversion F2 as [|? v ? vs' HO F2' E1 E2]; subst. cbn [map2 concat map].
      assert (X1 : length (ubytes f v) = field_size f) by apply le_bytes_length.
      rewrite app_length, firstn_app, skipn_app, X1, Nat.sub_diag.
      rewrite (firstn_all2 (ubytes f v)), (skipn_all2 (ubytes f v)) by lia.
      cbn [firstn skipn app]. rewrite app_nil_r.
      pose proof (proj2 (ufield_iff f _ _ N) (ex_intro _ v (conj eq_refl (conj eq_refl HO)))) as [Y1 Y2].
      pose proof (proj2 (IH _ _) (ex_intro _ vs' (conj eq_refl (conj eq_refl F2')))) as [Y3 Y4].
      split; [lia|]. now rewrite <- Y2, <- Y4.
Qed.
Lemma ufield_plain f : ufield f -> plain f = true.
Proof. now intros [->| ->]. Qed.

Lemma read_binary_iff fmt d p vs q : N.of_nat (calcsize fmt) < ssize_limit -> (0 < calcsize fmt)%nat ->
  read_binary fmt d p = Ok (Some vs, q) <->
  exists b s, dropN p d = b ++ s /\ q = p + lenN b /\ length b = calcsize fmt /\ vs = unpack fmt b.
Proof.
  intros L L0. unfold read_binary. split.
  - intros H. apply rbind_ok in H as (b & p1 & H1 & H). apply parses_read in H1 as (b' & s & E & -> & <- & U); [|easy].
    destruct (Nat.eqb_spec (length b) 0); [easy|]. destruct (Nat.eqb_spec (length b) (calcsize fmt)) as [EL|]; [|easy].
    cbn [negb] in H. injection H as <- <-. exists b, s. auto.
  - intros (b & s & E & -> & EL & ->).
    assert (X : read (N.of_nat (calcsize fmt)) d p = Ok (b, p + lenN b)).
    { apply parses_read; [easy|]. exists b, s. split; [easy|]. split; [easy|]. split; [easy|]. left. unfold lenN. lia. }
    rewrite (rbind_step _ _ _ _ _ _ X).
    destruct (Nat.eqb_spec (length b) 0); [lia|]. destruct (Nat.eqb_spec (length b) (calcsize fmt)); [|easy]. easy.
Qed.
Lemma read_binary_none fmt d p q : N.of_nat (calcsize fmt) < ssize_limit -> (0 < calcsize fmt)%nat ->
  read_binary fmt d p = Ok (None, q) <-> q = p /\ dropN p d = [].
Proof.
  intros L L0. unfold read_binary. split.
  - intros H. apply rbind_ok in H as (b & p1 & H1 & H). apply parses_read in H1 as (b' & s & E & -> & <- & U); [|easy].
    destruct (Nat.eqb_spec (length b) 0) as [Z|]; [|destruct (negb _); easy].
    destruct b; [|easy]. injection H as <-. rewrite lenN_nil. split; [lia|].
    destruct U as [U|[_ ->]]; [rewrite lenN_nil in U; lia|easy].
  - intros [-> E].
    assert (X : read (N.of_nat (calcsize fmt)) d p = Ok ([], p + 0)).
    { apply parses_read; [easy|]. exists [], []. split; [easy|]. split; [easy|]. split; [easy|]. right. rewrite lenN_nil.
      split; [lia|easy]. }
    rewrite (rbind_step _ _ _ _ _ _ X). cbn [length Nat.eqb]. now rewrite N.add_0_r.
Qed.
Lemma parses_required fmt : Forall ufield fmt -> (0 < calcsize fmt)%nat -> N.of_nat (calcsize fmt) < ssize_limit ->
  parses (read_required_binary fmt)
    (here (fun _ b _ vs => exists ns, vs = map Z.of_N ns /\ b = concat (map2 ubytes fmt ns) /\ Forall2 ufits fmt ns)).
Proof.
  intros HF L0 L. split; [apply forward_here|]. intros d p vs q. unfold read_required_binary. split.
  - intros H. apply rbind_ok in H as ([v|] & p1 & H1 & H); [|easy]. injection H as <- <-.
    apply read_binary_iff in H1 as (b & s & E & -> & X); [|easy|easy]. exists b, s. split; [easy|]. split; [easy|].
    now apply uunpack_iff.
  - intros (b & s & E & -> & X). apply uunpack_iff in X as [X1 X2]; [|easy].
    assert (Y : read_binary fmt d p = Ok (Some vs, p + lenN b)).
    { apply read_binary_iff; [easy|easy|]. exists b, s. auto. }
    now rewrite (rbind_step _ _ _ _ _ _ Y).
Qed.
Lemma parses_read1 f : ufield f ->
  parses (read1 f) (here (fun _ b _ v => exists n, v = Z.of_N n /\ b = ubytes f n /\ ufits f n)).
Proof.
  intros HF. eapply parses_ext.
  { apply parses_bind; [apply (parses_required [f])|].
    - now constructor.
    - destruct HF as [->| ->]; cbn; lia.
    - destruct HF as [->| ->]; cbn; unfold ssize_limit; lia.
    - intros l. instantiate (1 := fun l => here (fun _ b _ x => b = [] /\ l = [x])).
      destruct l as [|a [|]].
      1,3: apply parses_fail'; intros ? ? ? ? ? (_ & _ & ?); discriminate.
      eapply parses_ext; [apply parses_ret|]. intros p b s x q. unfold here.
      split; intros (-> & -> & E); repeat split; congruence. }
  intros p b s v q. unfold seqP, here. split.
  - intros (b1 & b2 & l & p1 & -> & (-> & ns & -> & -> & F2) & -> & -> & E).
    inversion F2 as [|? n ? ns' O1 F3]; subst. inversion F3; subst. cbn in *. rewrite !app_nil_r, lenN_nil, N.add_0_r.
    split; [easy|]. exists n. split; [congruence|]. easy.
  - intros (-> & n & -> & -> & O). exists (ubytes f n), [], [Z.of_N n], (p + lenN (ubytes f n)).
    rewrite app_nil_r, lenN_nil, N.add_0_r. split; [easy|]. split; [|easy]. split; [easy|]. exists [n]. cbn.
    rewrite app_nil_r. split; [easy|]. split; [easy|]. auto.
Qed.
Lemma parses_read2 f g : ufield f -> ufield g ->
  parses (read2 f g) (here (fun _ b _ v => exists n m, v = (Z.of_N n, Z.of_N m)
     /\ b = ubytes f n ++ ubytes g m /\ ufits f n /\ ufits g m)).
Proof.
  intros HF HG. eapply parses_ext.
  { apply parses_bind; [apply (parses_required [f; g])|].
    - repeat (constructor; try assumption).
    - destruct HF as [->| ->]; cbn; lia.
    - destruct HF as [->| ->], HG as [->| ->]; cbn; unfold ssize_limit; lia.
    - intros l. instantiate (1 := fun l => here (fun _ b _ x => b = [] /\ l = [fst x; snd x])).
      destruct l as [|a [|a2 [|]]].
      1,2,4: apply parses_fail'; intros ? ? ? ? ? (_ & _ & ?); discriminate.
      eapply parses_ext; [apply parses_ret|]. intros p b s [x y] q. unfold here. cbn.
      split; intros (-> & -> & E); repeat split; congruence. }
  intros p b s [v w] q. unfold seqP, here. cbn [fst snd]. split.
  - intros (b1 & b2 & l & p1 & -> & (-> & ns & -> & -> & F2) & -> & -> & E).
    inversion F2 as [|? n ? ns' O1 F3]; subst. inversion F3 as [|? m ? ns2 O2 F4]; subst. inversion F4; subst.
    cbn in *. rewrite !app_nil_r, lenN_nil, N.add_0_r.
    split; [easy|]. exists n, m. split; [congruence|]. easy.
  - intros (-> & n & m & E & -> & O1 & O2). injection E as -> ->.
    exists (ubytes f n ++ ubytes g m), [], [Z.of_N n; Z.of_N m], (p + lenN (ubytes f n ++ ubytes g m)).
    rewrite app_nil_r, lenN_nil, N.add_0_r. split; [easy|]. split; [|easy]. split; [easy|]. exists [n; m]. cbn.
    rewrite app_nil_r. split; [easy|]. split; [easy|]. auto.
Qed.
Lemma parses_read4 f g h i : ufield f -> ufield g -> ufield h -> ufield i ->
  parses (read4 f g h i) (here (fun _ b _ v => exists n m k l, v = (Z.of_N n, Z.of_N m, Z.of_N k, Z.of_N l)
     /\ b = ubytes f n ++ ubytes g m ++ ubytes h k ++ ubytes i l
     /\ ufits f n /\ ufits g m /\ ufits h k /\ ufits i l)).
Proof.
  intros HF HG HH HI. eapply parses_ext.
  { apply parses_bind; [apply (parses_required [f; g; h; i])|].
    - repeat (constructor; try assumption).
    - destruct HF as [->| ->]; cbn; lia.
    - destruct HF as [->| ->], HG as [->| ->], HH as [->| ->], HI as [->| ->]; cbn; unfold ssize_limit; lia.
    - intros l. instantiate (1 := fun l => here (fun _ b _ x => b = []
        /\ l = [fst (fst (fst x)); snd (fst (fst x)); snd (fst x); snd x])).
      destruct l as [|a [|a2 [|a3 [|a4 [|]]]]].
      1,2,3,4,6: apply parses_fail'; intros ? ? ? ? ? (_ & _ & ?); discriminate.
      eapply parses_ext; [apply parses_ret|]. intros p b s [[[x y] z] u] q. unfold here. cbn.
      split; intros (-> & -> & E); repeat split; congruence. }
  intros p b s [[[v w] x] y] q. unfold seqP, here. cbn [fst snd]. split.
  - intros (b1 & b2 & l & p1 & -> & (-> & ns & -> & -> & F2) & -> & -> & E).
    inversion F2 as [|? n ? ns' O1 F3]; subst. inversion F3 as [|? m ? ns2 O2 F4]; subst.
    inversion F4 as [|? k ? ns3 O3 F5]; subst. inversion F5 as [|? l ? ns4 O4 F6]; subst. inversion F6; subst.
    cbn in *. rewrite !app_nil_r, lenN_nil, N.add_0_r.
    split; [easy|]. exists n, m, k, l. split; [congruence|]. easy.
  - intros (-> & n & m & k & l & E & -> & O1 & O2 & O3 & O4). injection E as -> -> -> ->.
    exists (ubytes f n ++ ubytes g m ++ ubytes h k ++ ubytes i l), [], [Z.of_N n; Z.of_N m; Z.of_N k; Z.of_N l],
      (p + lenN (ubytes f n ++ ubytes g m ++ ubytes h k ++ ubytes i l)).
    rewrite app_nil_r, lenN_nil, N.add_0_r. split; [easy|]. split; [|easy]. split; [easy|]. exists [n; m; k; l]. cbn.
    rewrite app_nil_r. split; [easy|]. split; [easy|]. auto 6.
Qed.

Definition r_u32 : N -> bytes -> bytes -> Z -> Prop := fun _ b _ v => exists n, v = Z.of_N n /\ b = u32 n /\ n < 2 ^ 32.
Definition r_u64 : N -> bytes -> bytes -> Z -> Prop := fun _ b _ v => exists n, v = Z.of_N n /\ b = u64 n /\ n < 2 ^ 64.
Lemma parses_u32 : parses (read1 fU32) (here r_u32).
Proof. apply (parses_read1 fU32). now left. Qed.
Lemma parses_u64 : parses (read1 fU64) (here r_u64).
Proof. apply (parses_read1 fU64). now right. Qed.
Lemma lenN_u32 n : lenN (u32 n) = 4.
Proof. unfold u32, lenN. now rewrite le_bytes_length. Qed.
Lemma lenN_u64 n : lenN (u64 n) = 8.
Proof. unfold u64, lenN. now rewrite le_bytes_length. Qed.

(* repetition *)
Fixpoint rep {A} (R : bytes -> bytes -> A -> Prop) (n : nat) (b s : bytes) (l : list A) : Prop :=
  match n, l with
  | O, [] => b = []
  | S n', a :: l' => exists b1 b2, b = b1 ++ b2 /\ R b1 (b2 ++ s) a /\ rep R n' b2 s l'
  | _, _ => False
  end.
Lemma parses_repeat {A} (m : reader A) R n : parses m (here (fun _ b s a => R b s a)) ->
  parses (rrepeat n m) (here (fun _ b s l => rep R n b s l)).
Proof.
  intros H. induction n as [|n IH]; cbn [rrepeat].
  - eapply parses_ext; [apply parses_ret|]. intros p b s l q. unfold here. destruct l; cbn; split; intros (-> & ?).
    + split; [easy|]. tauto.
    + subst b. auto.
    + easy.
    + easy.
  - eapply parses_ext.
    { apply parses_bind; [exact H|]. intros a. apply parses_bind; [exact IH|]. intros l. apply parses_ret. }
    intros p b s l q. unfold seqP, here. split.
    + intros (b1 & b2 & a & p1 & -> & (-> & H1) & b3 & b4 & l' & p2 & -> & (-> & H2) & -> & -> & ->).
      rewrite app_nil_r in *. rewrite !lenN_app, lenN_nil in *. split; [lia|]. cbn. exists b1, b3.
      split; [easy|]. rewrite app_nil_l in H2. easy.
    + intros (-> & X). destruct l as [|a l]; [easy|]. destruct X as (b1 & b2 & -> & H1 & H2).
      exists b1, b2, a, (p + lenN b1). split; [easy|]. split; [easy|].
      exists b2, [], l, (p + lenN b1 + lenN b2). rewrite app_nil_r, !lenN_app, lenN_nil. split; [easy|].
      split; [easy|]. split; [lia|]. easy.
Qed.
Lemma rep_all {A} (R : bytes -> bytes -> A -> Prop) (Q : A -> bytes -> Prop) n b s l :
  (forall x y a, y <> [] -> (R x y a <-> Q a x)) -> s <> [] ->
  rep R n b s l <-> exists bs, Forall2 Q l bs /\ b = concat bs /\ length l = n.
Proof.
  intros E NE. revert b l. induction n as [|n IH]; intros b l.
  - destruct l; cbn; split.
    + intros ->. exists []. auto.
    + intros (bs & F2 & -> & _). now inversion F2.
    + easy.
    + now intros (bs & _ & _ & ?).
  - destruct l as [|a l]; cbn; split.
    + easy.
    + now intros (bs & _ & _ & ?).
    + intros (b1 & b2 & -> & H1 & H2). apply IH in H2 as (bs & F2 & -> & L). apply E in H1.
      * exists (b1 :: bs). split; [now constructor|]. split; [easy|]. lia.
      * now intros X%app_eq_nil.
    + intros (bs & F2 & -> & L). inversion F2 as [|? b1 ? bs' H1 F2']; subst. exists b1, (concat bs'). split; [easy|].
      split; [apply E; [now intros X%app_eq_nil|easy]|]. apply IH. exists bs'. auto.
Qed.
