(* decode_replace against the recommendation of the Unicode standard. *)
From Coq Require Import Lia.
From Verif Require Import Py PyProofs Utf8 Utf8Proofs SpecUtf8 Utf8More SpecLossy.

Inductive seq_of : N -> bytes -> Prop :=
| Seq1 b0 : Byte.to_N b0 < 0x80 -> seq_of (Byte.to_N b0) [b0]
| Seq2 b0 b1 : 0xC2 <= Byte.to_N b0 < 0xE0 -> is_cont b1 = true -> seq_of (cp2 b0 b1) [b0; b1]
| Seq3 b0 b1 b2 : 0xE0 <= Byte.to_N b0 < 0xF0 -> second_ok b0 b1 = true -> is_cont b2 = true ->
    seq_of (cp3 b0 b1 b2) [b0; b1; b2]
| Seq4 b0 b1 b2 b3 : 0xF0 <= Byte.to_N b0 < 0xF5 -> second_ok b0 b1 = true -> is_cont b2 = true ->
    is_cont b3 = true -> seq_of (cp4 b0 b1 b2 b3) [b0; b1; b2; b3].

Lemma form_decodes c b : utf8_form c b <-> decode_strict b = Some [c].
Proof.
  rewrite <- strict_iff, decode_iff. split.
  - intros H. rewrite <- (app_nil_r b). constructor; [easy|constructor].
  - intros H. inversion H as [|c' s' b' bs' F R]; subst. inversion R; subst. now rewrite app_nil_r.
Qed.
Lemma strict_nil b : decode_strict b = Some [] -> b = [].
Proof. intros H. apply strict_iff, decode_iff in H. now inversion H. Qed.
Lemma ocons_one n r c : ocons n (decode_strict r) = Some [c] -> r = [] /\ n = c.
Proof.
  destruct (decode_strict r) as [s|] eqn:E; [|easy]. simpl. intros H. injection H as -> ->.
  split; [now apply strict_nil|easy].
Qed.

Lemma seq_iff c b : utf8_form c b <-> seq_of c b.
Proof.
  rewrite form_decodes. split.
  - intros H. destruct b as [|b0 r0]; [easy|]. cbn [decode_strict] in H.
    destruct (N.ltb_spec (Byte.to_N b0) 0x80); [apply ocons_one in H as [-> <-]; now constructor|].
    destruct (N.ltb_spec (Byte.to_N b0) 0xC2); [easy|].
    destruct (N.ltb_spec (Byte.to_N b0) 0xE0).
    { destruct r0 as [|b1 r1]; [easy|]. destruct (is_cont b1) eqn:C; [|easy].
      apply ocons_one in H as [-> <-]. constructor; [lia|easy]. }
    destruct (N.ltb_spec (Byte.to_N b0) 0xF0).
    { destruct r0 as [|b1 [|b2 r2]]; [easy..|]. destruct (second_ok b0 b1) eqn:C, (is_cont b2) eqn:C2; try easy.
      apply ocons_one in H as [-> <-]. constructor; [lia|easy..]. }
    destruct (N.ltb_spec (Byte.to_N b0) 0xF5); [|easy].
    destruct r0 as [|b1 [|b2 [|b3 r3]]]; [easy..|].
    destruct (second_ok b0 b1) eqn:C, (is_cont b2) eqn:C2, (is_cont b3) eqn:C3; try easy.
    apply ocons_one in H as [-> <-]. constructor; [lia|easy..].
  - intros H. destruct H as [b0 H|b0 b1 H C|b0 b1 b2 H C C2|b0 b1 b2 b3 H C C2 C3]; cbn [decode_strict];
      repeat match goal with |- context [?a <? ?b] => destruct (N.ltb_spec a b); [lia|] || (destruct (N.ltb_spec a b); [|lia]) end;
      rewrite ?C, ?C2, ?C3; easy.
Qed.

(* decision of starts *)
Definition startsb (x : bytes) : bool :=
  match x with
  | [b0] => let n := Byte.to_N b0 in (n <? 0x80) || (0xC2 <=? n) && (n <? 0xF5)
  | [b0; b1] => let n := Byte.to_N b0 in
      (0xC2 <=? n) && (n <? 0xE0) && is_cont b1 || (0xE0 <=? n) && (n <? 0xF5) && second_ok b0 b1
  | [b0; b1; b2] => let n := Byte.to_N b0 in (0xE0 <=? n) && (n <? 0xF5) && second_ok b0 b1 && is_cont b2
  | [b0; b1; b2; b3] => let n := Byte.to_N b0 in
      (0xF0 <=? n) && (n <? 0xF5) && second_ok b0 b1 && is_cont b2 && is_cont b3
  | _ => false
  end.
Definition some_second (b0 : byte) : byte :=
  if Byte.to_N b0 =? 0xE0 then xa0 else if Byte.to_N b0 =? 0xF0 then x90 else x80.
Lemma some_second_ok b0 : second_ok b0 (some_second b0) = true.
Proof.
  destruct b0; reflexivity.
Qed.

Lemma starts_iff x : starts x <-> startsb x = true.
Proof.
  split.
  - intros (N0 & c & rest & H). apply seq_iff in H. remember (x ++ rest) as y eqn:E.
    destruct H as [b0 H|b0 b1 H C|b0 b1 b2 H C C2|b0 b1 b2 b3 H C C2 C3];
      destruct x as [|a0 [|a1 [|a2 [|a3 [|a4 x]]]]]; try easy; cbn [app] in E;
      try discriminate E; injection E; clear E; intros; subst;
      unfold startsb;
      repeat match goal with
      | H : ?n < ?m |- context [?n <? ?m] => rewrite (proj2 (N.ltb_lt n m) H)
      | |- context [?n <? ?m] => rewrite (proj2 (N.ltb_lt n m)) by lia
      | |- context [?n <? ?m] => rewrite (proj2 (N.ltb_ge n m)) by lia
      | |- context [?n <=? ?m] => rewrite (proj2 (N.leb_le n m)) by lia
      | |- context [?n <=? ?m] => rewrite (proj2 (N.leb_gt n m)) by lia
      end; rewrite ?C, ?C2, ?C3; easy.
  - intros H. split; [now destruct x|].
    assert (D : forall n m, (n <? m) = true -> n < m) by (intros; now apply N.ltb_lt).
    assert (L : forall n m, (n <=? m) = true -> n <= m) by (intros; now apply N.leb_le).
    destruct x as [|b0 [|b1 [|b2 [|b3 [|b4 x]]]]]; try easy; unfold startsb in H.
    + apply orb_true_iff in H as [H|H].
      { apply D in H. exists (Byte.to_N b0), []. apply seq_iff. now constructor. }
      apply andb_true_iff in H as [H1 H2]. apply L in H1. apply D in H2.
      destruct (N.lt_ge_cases (Byte.to_N b0) 0xE0).
      { exists (cp2 b0 x80), [x80]. apply seq_iff. constructor; [lia|easy]. }
      destruct (N.lt_ge_cases (Byte.to_N b0) 0xF0).
      { exists (cp3 b0 (some_second b0) x80), [some_second b0; x80]. apply seq_iff.
        constructor; [lia|apply some_second_ok|easy]. }
      exists (cp4 b0 (some_second b0) x80 x80), [some_second b0; x80; x80]. apply seq_iff.
      constructor; [lia|apply some_second_ok|easy..].
    + apply orb_true_iff in H as [H|H]; apply andb_true_iff in H as [H C]; apply andb_true_iff in H as [H1 H2];
        apply L in H1; apply D in H2.
      { exists (cp2 b0 b1), []. apply seq_iff. constructor; [lia|easy]. }
      destruct (N.lt_ge_cases (Byte.to_N b0) 0xF0).
      { exists (cp3 b0 b1 x80), [x80]. apply seq_iff. constructor; [lia|easy..]. }
      exists (cp4 b0 b1 x80 x80), [x80; x80]. apply seq_iff. constructor; [lia|easy..].
    + apply andb_true_iff in H as [H C2]. apply andb_true_iff in H as [H C]. apply andb_true_iff in H as [H1 H2].
      apply L in H1; apply D in H2.
      destruct (N.lt_ge_cases (Byte.to_N b0) 0xF0).
      { exists (cp3 b0 b1 b2), []. apply seq_iff. constructor; [lia|easy..]. }
      exists (cp4 b0 b1 b2 x80), [x80]. apply seq_iff. constructor; [lia|easy..].
    + apply andb_true_iff in H as [H C3]. apply andb_true_iff in H as [H C2]. apply andb_true_iff in H as [H C].
      apply andb_true_iff in H as [H1 H2]. apply L in H1; apply D in H2.
      exists (cp4 b0 b1 b2 b3), []. apply seq_iff. constructor; [lia|easy..].
Qed.

Lemma replace_seq c b bs : seq_of c b -> decode_replace (b ++ bs) = c :: decode_replace bs.
Proof.
  intros H. destruct H as [b0 H|b0 b1 H C|b0 b1 b2 H C C2|b0 b1 b2 b3 H C C2 C3]; cbn [app decode_replace];
    repeat match goal with |- context [?a <? ?b] => destruct (N.ltb_spec a b); [lia|] || (destruct (N.ltb_spec a b); [|lia]) end;
    rewrite ?C, ?C2, ?C3; easy.
Qed.

(* no character starts here *)
Definition none_here (bs : bytes) : Prop := forall c b rest, seq_of c b -> bs <> b ++ rest.
Lemma subpart_iff x after : subpart x after <->
  none_here (x ++ after)
  /\ (startsb x = true /\ (forall y rest, after = y :: rest -> startsb (x ++ [y]) = false)
      \/ length x = 1%nat /\ startsb x = false).
Proof.
  assert (NS : forall z, ~ starts z <-> startsb z = false).
  { intros z. rewrite starts_iff. destruct (startsb z); split; congruence. }
  unfold subpart, none_here. split; intros [H [[H1 H2]|[H1 H2]]]; (split; [intros c b rest F; apply (H c b rest); now apply seq_iff|]).
  - left. split; [now apply starts_iff|]. intros y rest E. apply NS. eauto.
  - right. split; [easy|now apply NS].
  - left. split; [now apply starts_iff|]. intros y rest E. apply NS. eauto.
  - right. split; [easy|now apply NS].
Qed.

Lemma replace_bad x bs : subpart x bs -> decode_replace (x ++ bs) = REPLACEMENT :: decode_replace bs.
Proof.
  intros H. apply subpart_iff in H as [NH H].
  assert (K1 : forall b0 r, x ++ bs = b0 :: r -> 0x80 <= Byte.to_N b0).
  { intros b0 r E. destruct (N.lt_ge_cases (Byte.to_N b0) 0x80); [|easy].
    exfalso. apply (NH (Byte.to_N b0) [b0] r); [now constructor|easy]. }
  assert (K2 : forall b0 b1 r, x ++ bs = b0 :: b1 :: r -> 0xC2 <= Byte.to_N b0 < 0xE0 -> is_cont b1 = false).
  { intros b0 b1 r E R. destruct (is_cont b1) eqn:C; [|easy].
    exfalso. apply (NH (cp2 b0 b1) [b0; b1] r); [now constructor|easy]. }
  assert (K3 : forall b0 b1 b2 r, x ++ bs = b0 :: b1 :: b2 :: r -> 0xE0 <= Byte.to_N b0 < 0xF0 ->
    second_ok b0 b1 = true -> is_cont b2 = false).
  { intros b0 b1 b2 r E R C. destruct (is_cont b2) eqn:C2; [|easy].
    exfalso. apply (NH (cp3 b0 b1 b2) [b0; b1; b2] r); [now constructor|easy]. }
  assert (K4 : forall b0 b1 b2 b3 r, x ++ bs = b0 :: b1 :: b2 :: b3 :: r -> 0xF0 <= Byte.to_N b0 < 0xF5 ->
    second_ok b0 b1 = true -> is_cont b2 = true -> is_cont b3 = false).
  { intros b0 b1 b2 b3 r E R C C2. destruct (is_cont b3) eqn:C3; [|easy].
    exfalso. apply (NH (cp4 b0 b1 b2 b3) [b0; b1; b2; b3] r); [now constructor|easy]. }
  clear NH.
  assert (Lb : forall n m, (n <=? m) = negb (m <? n)) by (intros; apply N.leb_antisym).
  destruct x as [|b0 [|b1 [|b2 [|b3 [|b4 x]]]]].
  - destruct H as [[H _]|[H _]]; discriminate H.
  - cbn [app] in *. pose proof (K1 b0 bs eq_refl) as G1. cbn [decode_replace].
    destruct (N.ltb_spec (Byte.to_N b0) 0x80); [lia|].
    destruct (N.ltb_spec (Byte.to_N b0) 0xC2); [easy|].
    destruct (N.ltb_spec (Byte.to_N b0) 0xE0).
    { destruct bs as [|b1 r1]; [easy|]. rewrite (K2 b0 b1 r1 eq_refl) by lia. easy. }
    destruct (N.ltb_spec (Byte.to_N b0) 0xF5).
    2:{ destruct (N.ltb_spec (Byte.to_N b0) 0xF0); [lia|easy]. }
    destruct H as [[_ H]|[_ H]].
    2:{ unfold startsb in H. rewrite (proj2 (N.ltb_lt (Byte.to_N b0) 0xF5)), (proj2 (N.leb_le 0xC2 (Byte.to_N b0))), orb_true_r in H by lia. discriminate H. }
    destruct bs as [|b1 r1]; [destruct (_ <? _); easy|].
    specialize (H b1 r1 eq_refl). unfold startsb in H.
    apply orb_false_iff in H as [_ H].
    rewrite (proj2 (N.ltb_lt (Byte.to_N b0) 0xF5)), (proj2 (N.leb_le 0xE0 (Byte.to_N b0))) in H by lia.
    cbn [andb] in H. rewrite H. destruct (_ <? _); easy.
  - destruct H as [[H1 H2]|[H _]]; [|discriminate H]. cbn [app] in *. unfold startsb in H1.
    apply orb_true_iff in H1 as [H|H]; apply andb_true_iff in H as [H C]; apply andb_true_iff in H as [Ha Hb];
      apply N.leb_le in Ha; apply N.ltb_lt in Hb.
    { rewrite (K2 b0 b1 bs eq_refl) in C by lia. discriminate C. }
    cbn [decode_replace].
    destruct (N.ltb_spec (Byte.to_N b0) 0x80); [lia|].
    destruct (N.ltb_spec (Byte.to_N b0) 0xC2); [lia|].
    destruct (N.ltb_spec (Byte.to_N b0) 0xE0); [lia|].
    destruct (N.ltb_spec (Byte.to_N b0) 0xF5); [|lia]. rewrite C.
    destruct bs as [|b2 r2]; [destruct (_ <? _); easy|].
    specialize (H2 b2 r2 eq_refl). unfold startsb in H2.
    rewrite C, (proj2 (N.ltb_lt (Byte.to_N b0) 0xF5)), (proj2 (N.leb_le 0xE0 (Byte.to_N b0))) in H2 by lia.
    cbn [andb] in H2. rewrite H2. destruct (_ <? _); easy.
  - destruct H as [[H1 H2]|[H _]]; [|discriminate H]. cbn [app] in *. unfold startsb in H1.
    apply andb_true_iff in H1 as [H C2]. apply andb_true_iff in H as [H C]. apply andb_true_iff in H as [Ha Hb].
    apply N.leb_le in Ha; apply N.ltb_lt in Hb. cbn [decode_replace].
    destruct (N.ltb_spec (Byte.to_N b0) 0x80); [lia|].
    destruct (N.ltb_spec (Byte.to_N b0) 0xC2); [lia|].
    destruct (N.ltb_spec (Byte.to_N b0) 0xE0); [lia|].
    destruct (N.ltb_spec (Byte.to_N b0) 0xF0).
    { rewrite (K3 b0 b1 b2 bs eq_refl) in C2 by (easy || lia). discriminate C2. }
    destruct (N.ltb_spec (Byte.to_N b0) 0xF5); [|lia]. rewrite C, C2.
    destruct bs as [|b3 r3]; [easy|]. rewrite (K4 b0 b1 b2 b3 r3 eq_refl) by (easy || lia). easy.
  - destruct H as [[H1 _]|[H _]]; [|discriminate H]. cbn [app] in *. unfold startsb in H1.
    apply andb_true_iff in H1 as [H C3]. apply andb_true_iff in H as [H C2]. apply andb_true_iff in H as [H C].
    apply andb_true_iff in H as [Ha Hb]. apply N.leb_le in Ha; apply N.ltb_lt in Hb.
    rewrite (K4 b0 b1 b2 b3 bs eq_refl) in C3 by (easy || lia). discriminate C3.
  - destruct H as [[H _]|[H _]]; discriminate H.
Qed.

(* a subpart can be found wherever no character starts *)
Lemma seq_or_bad b0 r0 :
  (exists c b rest, seq_of c b /\ b0 :: r0 = b ++ rest)
  \/ (exists x rest, x <> [] /\ subpart x rest /\ b0 :: r0 = x ++ rest).
Proof.
  assert (D : forall bs, (exists c b rest, seq_of c b /\ bs = b ++ rest) \/ none_here bs).
  { intros bs.
    assert (P : forall n, (exists c rest, seq_of c (firstn n bs) /\ bs = firstn n bs ++ rest)
                          \/ forall c rest b, length b = n -> seq_of c b -> bs <> b ++ rest).
    { intros n. destruct (decode_strict (firstn n bs)) as [[|c [|c' s]]|] eqn:E.
      2:{ apply form_decodes, seq_iff in E. left. exists c, (skipn n bs). split; [easy|]. now rewrite firstn_skipn. }
      all: right; intros c0 rest b L H ->; apply seq_iff, form_decodes in H;
        rewrite <- L, firstn_app, Nat.sub_diag, firstn_all in E; cbn [firstn] in E;
        rewrite app_nil_r in E; congruence. }
    destruct (P 1%nat) as [(c & rest & H & E)|P1]; [left; eauto|].
    destruct (P 2%nat) as [(c & rest & H & E)|P2]; [left; eauto|].
    destruct (P 3%nat) as [(c & rest & H & E)|P3]; [left; eauto|].
    destruct (P 4%nat) as [(c & rest & H & E)|P4]; [left; eauto|].
    right. intros c b rest H. destruct H; [eapply P1|eapply P2|eapply P3|eapply P4]; try reflexivity; now constructor. }
  destruct (D (b0 :: r0)) as [H|NH]; [now left|right].
  destruct (startsb [b0]) eqn:S1.
  2:{ exists [b0], r0. split; [easy|]. split; [|easy]. apply subpart_iff. split; [easy|]. right. easy. }
  assert (W : forall x rest, b0 :: r0 = x ++ rest -> startsb x = true ->
    (forall y rest', rest = y :: rest' -> startsb (x ++ [y]) = false) ->
    exists x rest, x <> [] /\ subpart x rest /\ b0 :: r0 = x ++ rest).
  { intros x rest E Sx M. exists x, rest. split; [now destruct x|]. split; [|easy].
    apply subpart_iff. split; [now rewrite <- E|]. left. easy. }
  destruct r0 as [|b1 r1]; [apply (W [b0] []); easy|].
  destruct (startsb [b0; b1]) eqn:S2.
  2:{ apply (W [b0] (b1 :: r1)); [easy..|]. intros y r' E. injection E as <- <-. exact S2. }
  destruct r1 as [|b2 r2]; [apply (W [b0; b1] []); easy|].
  destruct (startsb [b0; b1; b2]) eqn:S3.
  2:{ apply (W [b0; b1] (b2 :: r2)); [easy..|]. intros y r' E. injection E as <- <-. exact S3. }
  destruct r2 as [|b3 r3]; [apply (W [b0; b1; b2] []); easy|].
  destruct (startsb [b0; b1; b2; b3]) eqn:S4.
  2:{ apply (W [b0; b1; b2] (b3 :: r3)); [easy..|]. intros y r' E. injection E as <- <-. exact S4. }
  apply (W [b0; b1; b2; b3] r3); [easy..|]. intros y r' E. easy.
Qed.

Lemma lossy_replace bs s : lossy_of bs s -> decode_replace bs = s.
Proof.
  induction 1 as [|c b bs s F _ IH|x bs s H _ IH]; [easy| |].
  - rewrite (replace_seq c b bs); [now rewrite IH|now apply seq_iff].
  - rewrite (replace_bad x bs H). now rewrite IH.
Qed.
Lemma replace_lossy bs : exists s, lossy_of bs s.
Proof.
  remember (length bs) as n eqn:L. revert bs L.
  induction n as [n IH] using (well_founded_induction Wf_nat.lt_wf). intros bs ->.
  destruct bs as [|b0 r0]; [exists []; constructor|].
  destruct (seq_or_bad b0 r0) as [(c & b & rest & H & E)|(x & rest & X & H & E)].
  - destruct (IH (length rest)) with (bs := rest) as [s Hs]; [|easy|].
    { rewrite E, app_length. destruct H; simpl; lia. }
    rewrite E. exists (c :: s). constructor; [now apply seq_iff|easy].
  - destruct (IH (length rest)) with (bs := rest) as [s Hs]; [|easy|].
    { rewrite E, app_length. destruct x; [easy|simpl; lia]. }
    rewrite E. exists (0xFFFD :: s). constructor; easy.
Qed.
Lemma lossy_iff bs s : decode_replace bs = s <-> lossy_of bs s.
Proof.
  split; [|apply lossy_replace]. intros <-. destruct (replace_lossy bs) as [s H].
  now rewrite (lossy_replace bs s H).
Qed.
