(* What the word2vec loader accepts, and what it returns. *)
From Coq Require Import Lia.
From Verif Require Import Py PyProofs Utf8 Utf8Proofs Utf8More SpecUtf8 IO IOProofs ReaderProofs Arr
  Subword Vocab VocabProofs Storage Chunks Embeddings Spec SpecVocab SpecLookup VocabFacts
  ArrProofs StorageGet LookupProofs PyText SpecCompat PyTextProofs Compat CompatProofs TextProofs
  SpecText TextLayout SpecFasttext FtLayout HeaderProofs.
Local Open Scope N_scope.
Local Open Scope list_scope.

Lemma stripped_iff s w : stripped s w <-> strip s = w.
Proof.
  split.
  - intros (g1 & g2 & -> & G & E). apply Forall_app in G as [G1 G2].
    unfold strip. rewrite lstrip_spaces by easy. destruct w as [|c w].
    + cbn [app]. rewrite <- (app_nil_r g2), lstrip_spaces by easy. reflexivity.
    + rewrite lstrip_id by (destruct E as [E _]; exact E). rewrite rstrip_spaces by easy. apply rstrip_id, E.
  - intros <-. destruct (lstrip_suffix s) as (g1 & E1 & G1). destruct (rstrip_prefix (lstrip s)) as (g2 & E2 & G2).
    exists g1, g2. split; [unfold strip; rewrite <- E2; exact E1|]. split; [now apply Forall_app|apply strip_edge].
Qed.
Lemma decode_word_iff lossy b s : decode_word lossy b = Ok s <-> file_text lossy b s.
Proof. unfold decode_word, file_text. destruct lossy; [|easy]. split; [now intros [= <-]|now intros ->]. Qed.

Section W2v.
  Context {F : Type} (o : fops F) (host : endian) (cd : codec F) (lossy : bool).

  Lemma w2v_word_read pre b s w rest : ~ In x20 b -> file_text lossy b s ->
    rest = b ++ [x20] ++ w -> w2v_read_word x20 lossy (pre ++ rest) (lenN pre) = Ok (s, lenN (pre ++ b ++ [x20])).
  Proof.
    intros NB T ->. unfold w2v_read_word, rbind, read_until. rewrite dropN_app_l.
    change (b ++ [x20] ++ w) with (b ++ x20 :: w). rewrite until_app by easy. unfold rlift.
    rewrite (proj2 (decode_word_iff _ _ _) T). f_equal. f_equal. rewrite !lenN_app. change (lenN [x20]) with 1. lia.
  Qed.
  Lemma w2v_word_only pre rest s q : w2v_read_word x20 lossy (pre ++ rest) (lenN pre) = Ok (s, q) ->
    exists b w, rest = b ++ [x20] ++ w /\ ~ In x20 b /\ file_text lossy b s /\ q = lenN (pre ++ b ++ [x20]).
  Proof.
    intros H. unfold w2v_read_word in H. apply rbind_ok in H as (b & p & H1 & H2).
    unfold read_until in H1. rewrite dropN_app_l in H1. destruct (until x20 rest) as [w|] eqn:U; [|discriminate].
    apply until_some in U as (w' & -> & NB). apply Ok_inj in H1. injection H1 as <- <-.
    unfold rlift in H2. destruct (decode_word lossy w) as [s'|] eqn:D; [|discriminate].
    apply Ok_inj in H2. injection H2 as <- <-. exists w, w'. split; [easy|]. split; [easy|].
    split; [now apply decode_word_iff|]. rewrite !lenN_app. change (lenN [x20]) with 1. lia.
  Qed.

  Lemma native_full pre l rest cols : lenN l = cols -> cols * 4 < ssize_limit ->
    fromfile_native host cd cols (pre ++ concat (map f32_le l) ++ rest) (lenN pre)
    = Ok (map (dec cd) l, lenN (pre ++ concat (map f32_le l))).
  Proof.
    intros L SZ. change (concat (map f32_le l)) with (floats_le l). rewrite fromfile_native_eq.
    destruct (N.leb_spec ssize_limit (cols * 4)); [lia|]. cbv zeta. rewrite dropN_app_l.
    replace (cols * 4) with (lenN (floats_le l)) by (rewrite floats_le_len; lia).
    rewrite takeN_app_l. f_equal. f_equal; [apply elems_floats|]. now rewrite lenN_app.
  Qed.
  Lemma elems_short x rest : lenN rest < 4 ->
    map (fun m => dec cd (f32_of_le m)) (split_elems (length (f32_le x ++ rest) / 4) 4 (f32_le x ++ rest)) = [dec cd x].
  Proof.
    intros L. destruct x as [a b c d]. destruct rest as [|r1 [|r2 [|r3 [|]]]]; try reflexivity.
    unfold lenN in L. simpl in L. lia.
  Qed.
  Lemma native_short pre x rest cols : 1 < cols -> lenN rest < 4 -> cols * 4 < ssize_limit ->
    fromfile_native host cd cols (pre ++ f32_le x ++ rest) (lenN pre)
    = Ok ([dec cd x], lenN (pre ++ f32_le x ++ rest)).
  Proof.
    intros C L SZ. rewrite fromfile_native_eq. destruct (N.leb_spec ssize_limit (cols * 4)); [lia|]. cbv zeta.
    rewrite dropN_app_l. assert (LX : lenN (f32_le x) = 4) by (now destruct x).
    rewrite takeN_all by (rewrite lenN_app; lia). rewrite elems_short by easy. rewrite !lenN_app; reflexivity.
  Qed.
  Lemma native_only pre rest cols xs q row : cols * 4 < ssize_limit ->
    fromfile_native host cd cols (pre ++ rest) (lenN pre) = Ok (xs, q) -> np_assign cols xs = Ok row ->
    (exists l r, rest = concat (map f32_le l) ++ r /\ lenN l = cols /\ row = map (dec cd) l
                 /\ q = lenN (pre ++ concat (map f32_le l)))
    \/ (exists x r, rest = f32_le x ++ r /\ 1 < cols /\ lenN r < 4 /\ row = repeat (dec cd x) (N.to_nat cols)
                    /\ q = lenN (pre ++ rest)).
  Proof.
    intros SZ H A. rewrite fromfile_native_eq in H. destruct (N.leb_spec ssize_limit (cols * 4)); [lia|].
    cbv zeta in H. rewrite dropN_app_l in H.
    destruct (N.le_gt_cases (cols * 4) (lenN rest)) as [LE|LT].
    - left. assert (LT : lenN (takeN (cols * 4) rest) = 4 * cols).
      { rewrite takeN_firstn. unfold lenN in *. rewrite firstn_length. lia. }
      destruct (f32s_split cols _ LT) as (l & LL & E).
      exists l, (dropN (cols * 4) rest). rewrite E in H. apply Ok_inj in H. pose proof (f_equal fst H) as EX. pose proof (f_equal snd H) as EQ. cbn [fst snd] in EX, EQ. clear H.
      pose proof (elems_floats cd l) as EL. unfold elems in EL. rewrite EL in EX. subst xs.
      split; [change (concat (map f32_le l)) with (floats_le l); rewrite <- E; now rewrite takeN_firstn, dropN_skipn, firstn_skipn|].
      split; [easy|]. split.
      + unfold np_assign in A. assert (lenN (map (dec cd) l) = cols) as <- by (unfold lenN in *; now rewrite map_length).
        rewrite N.eqb_refl in A. now injection A as <-.
      + rewrite lenN_app. change (concat (map f32_le l)) with (floats_le l). lia.
    - right. rewrite takeN_all in H by lia. apply Ok_inj in H. pose proof (f_equal fst H) as EX. pose proof (f_equal snd H) as EQ. cbn [fst snd] in EX, EQ. clear H.
      assert (LX : lenN xs = N.of_nat (length rest / 4)).
      { rewrite <- EX. unfold lenN. rewrite map_length, split_elems_length. reflexivity. }
      assert (LD : N.of_nat (length rest / 4) < cols).
      { rewrite Nat2N.inj_div. change (N.of_nat 4) with 4. apply N.div_lt_upper_bound; [easy|]. unfold lenN in LT. lia. }
      unfold np_assign in A. destruct (N.eqb_spec (lenN xs) cols); [lia|].
      destruct xs as [|x [|]]; try discriminate. apply Ok_inj in A. change (lenN [x]) with 1 in LX.
      assert (RL : 4 <= lenN rest < 8).
      { assert (D : (length rest / 4 = 1)%nat) by lia. pose proof (Nat.div_mod (length rest) 4 ltac:(lia)) as DM.
        pose proof (Nat.mod_upper_bound (length rest) 4 ltac:(lia)). unfold lenN. lia. }
      destruct rest as [|a [|b [|c [|d r]]]]; try (unfold lenN in RL; simpl in RL; lia).
      exists (F32 a b c d), r. split; [easy|]. split; [lia|].
      split; [unfold lenN in *; simpl in RL; lia|]. split; [|rewrite lenN_app; lia].
      change (a :: b :: c :: d :: r) with (f32_le (F32 a b c d) ++ r) in EX.
      rewrite elems_short in EX by (unfold lenN in *; simpl in RL; lia). injection EX as ->. now rewrite <- A.
  Qed.

  Lemma rows_read cols : cols * 4 < ssize_limit -> forall s ws ms, w2v_rows cd lossy cols s ws ms -> forall pre,
    exists q, rrepeat (length ws) (w2v_read_row host cd lossy cols) (pre ++ s) (lenN pre) = Ok (combine ws ms, q)
              /\ length ms = length ws.
  Proof.
    intros SZ. induction 1 as [rest|b s w l rest ws rows NB T ST L H IH|b s w x rest NB T ST C L]; intros pre.
    - eexists. split; reflexivity.
    - cbn [length rrepeat].
      assert (R1 : w2v_read_row host cd lossy cols (pre ++ b ++ [x20] ++ concat (map f32_le l) ++ rest) (lenN pre)
                   = Ok ((w, map (dec cd) l), lenN (pre ++ b ++ [x20] ++ concat (map f32_le l)))).
      { unfold w2v_read_row. unfold rbind at 1.
        rewrite (w2v_word_read pre b s (concat (map f32_le l) ++ rest)) by easy.
        unfold rbind at 1.
        replace (pre ++ b ++ [x20] ++ concat (map f32_le l) ++ rest)
          with ((pre ++ b ++ [x20]) ++ concat (map f32_le l) ++ rest) by (now rewrite <- !app_assoc).
        rewrite native_full by easy.
        unfold rbind, rlift, np_assign, rret.
        assert (lenN (map (dec cd) l) = cols) as -> by (unfold lenN in *; now rewrite map_length).
        rewrite N.eqb_refl. apply stripped_iff in ST. rewrite ST. f_equal. f_equal. now rewrite <- !app_assoc. }
      unfold rbind at 1. rewrite R1.
      destruct (IH (pre ++ b ++ [x20] ++ concat (map f32_le l))) as (q & R2 & LM).
      rewrite <- !app_assoc in R2.
      exists q. split; [|simpl; lia]. unfold rbind at 1. rewrite R2. reflexivity.
    - exists (lenN (pre ++ b ++ [x20] ++ f32_le x ++ rest)). split; [|easy]. cbn [length rrepeat combine].
      unfold rbind at 1, w2v_read_row. unfold rbind at 1.
      rewrite (w2v_word_read pre b s (f32_le x ++ rest)) by easy. unfold rbind at 1.
      replace (pre ++ b ++ [x20] ++ f32_le x ++ rest)
          with ((pre ++ b ++ [x20]) ++ f32_le x ++ rest) by (now rewrite <- !app_assoc).
      rewrite native_short by easy. unfold rbind, rlift, np_assign, rret.
      change (lenN [dec cd x]) with 1. destruct (N.eqb_spec 1 cols); [lia|]. apply stripped_iff in ST. rewrite ST.
      reflexivity.
  Qed.
  Lemma rows_only cols : cols * 4 < ssize_limit -> forall n pre s items q,
    rrepeat n (w2v_read_row host cd lossy cols) (pre ++ s) (lenN pre) = Ok (items, q) ->
    length items = n /\ w2v_rows cd lossy cols s (map fst items) (map snd items).
  Proof.
    intros SZ. induction n as [|n IH]; intros pre s items q H; cbn [rrepeat] in H.
    - apply Ok_inj in H. injection H as <- <-. split; [easy|constructor].
    - apply rbind_ok in H as ([w row] & p & R & H). apply rbind_ok in H as (l & p2 & R2 & H).
      apply Ok_inj in H. injection H as <- <-.
      unfold w2v_read_row in R. apply rbind_ok in R as (s0 & p3 & W & R).
      apply w2v_word_only in W as (b & r & -> & NB & T & ->).
      replace (pre ++ b ++ [x20] ++ r) with ((pre ++ b ++ [x20]) ++ r) in * by (now rewrite <- !app_assoc).
      apply rbind_ok in R as (xs & p4 & N & R). apply rbind_ok in R as (row' & p5 & A & R).
      apply Ok_inj in R. injection R as EW <- <-.
      unfold rlift in A. destruct (np_assign cols xs) as [row''|] eqn:AS; [|discriminate].
      apply Ok_inj in A. injection A as <- <-.
      apply stripped_iff in EW. cbn [map fst snd length].
      destruct (native_only _ _ _ _ _ _ SZ N AS) as [(l' & r' & -> & LL & -> & ->)|(x & r' & -> & C & LR & -> & ->)].
      + rewrite app_assoc in R2. apply IH in R2 as [L2 R2]. split; [lia|]. now apply (w2v_full cd lossy cols b s0 w).
      + rewrite <- (app_nil_r ((pre ++ b ++ [x20]) ++ f32_le x ++ r')) in R2 at 1. apply IH in R2 as [L2 R2].
        split; [lia|]. destruct l as [|[w2 row2] l]; [now apply (w2v_short cd lossy cols b s0 w)|].
        cbn [map fst snd] in R2. inversion R2 as [| b' ? ? ? ? ? ? ? ? ? ? ? E|b' ? ? ? ? ? ? ? ? ? E];
          destruct b'; discriminate.
  Qed.

  Lemma first_line_split d : exists h body, first_line d = h /\ d = h ++ body.
  Proof.
    exists (first_line d). induction d as [|b d (body & _ & IH)]; [now exists []|]. cbn [first_line].
    destruct (Byte.eqb b x0a); [now exists d|]. exists body. split; [easy|]. cbn [app]. now rewrite <- IH.
  Qed.
  Lemma first_line_form d : exists l body, ~ In x0a l /\
    (d = l ++ [x0a] ++ body /\ first_line d = l ++ [x0a] \/ d = l /\ body = [] /\ first_line d = l).
  Proof.
    induction d as [|b d (l & body & N & IH)].
    - exists [], []. split; [easy|]. now right.
    - cbn [first_line]. destruct (Byte.eqb b x0a) eqn:E.
      + apply byte_eqb_eq in E. subst b. exists [], d. split; [easy|]. now left.
      + assert (NE : b <> x0a). { intros ->. rewrite (proj2 (byte_eqb_eq x0a x0a) eq_refl) in E. discriminate. }
        exists (b :: l), body. split; [intros [H|H]; congruence|].
        destruct IH as [[-> ->]|(-> & -> & ->)]; [left|right]; easy.
  Qed.
  Lemma ascii_map l : Forall (fun b => Byte.to_N b < 128) l ->
    exists h, l = map byte_of_N h /\ h = map Byte.to_N l /\ Forall (fun c => c < 128) h.
  Proof.
    intros H. exists (map Byte.to_N l). split; [|split; [easy|now apply Forall_map]].
    rewrite map_map. rewrite <- (map_id l) at 1. apply map_ext. intros b. now rewrite byte_of_N_to_N.
  Qed.
  Lemma to_N_map h : Forall (fun c => c < 128) h -> map Byte.to_N (map byte_of_N h) = h.
  Proof.
    intros H. rewrite map_map. induction H as [|c h HC _ IH]; [easy|]. cbn [map]. rewrite IH, to_N_byte_of_N.
    rewrite N.mod_small; [easy|lia].
  Qed.
  Lemma shape_only d rows cols p : w2v_read_shape d 0 = Ok ((rows, cols), p) ->
    exists h body pre, w2v_file d h body /\ header_line h rows cols /\ d = pre ++ body /\ p = lenN pre.
  Proof.
    intros H. unfold w2v_read_shape in H. apply rbind_ok in H as (line & q & R & H).
    unfold readline in R. cbv zeta in R. apply Ok_inj in R. injection R as <- <-.
    assert (D0 : dropN 0 d = d) by (rewrite dropN_skipn; reflexivity). rewrite D0 in H.
    unfold rlift in H. destruct (bind _ _) as [[r k]|] eqn:B in H; [|discriminate].
    apply Ok_inj in H. injection H as -> -> <-.
    apply bind_ok in B as (s & A & B). unfold ascii_decode in A.
    destruct (forallb _ _) eqn:FA in A; [|discriminate]. apply Ok_inj in A.
    assert (FL : Forall (fun b => Byte.to_N b < 128) (first_line d)).
    { rewrite forallb_forall in FA. apply Forall_forall. intros b I. apply N.ltb_lt, FA, I. }
    destruct (first_line_form d) as (l & body & NL & C).
    assert (HL : header_line s rows cols).
    { destruct (py_split s) as [|r [|k [|]]] eqn:SP; try discriminate.
      apply bind_ok in B as (z1 & I1 & B). apply bind_ok in B as (z2 & I2 & B). apply Ok_inj in B. injection B as -> ->.
      apply header_split. exists r, k. easy. }
    assert (NH : forall h, l = map byte_of_N h -> Forall (fun c => c < 128) h -> ~ In 10 h).
    { intros h -> FH I. apply NL. apply in_map_iff. now exists 10. }
    destruct C as [[E C]|(E & -> & C)].
    - rewrite C in *. apply Forall_app in FL as [FL _]. destruct (ascii_map l FL) as (h & EH & EM & FH).
      exists h, body, (l ++ [x0a]). split; [split; [easy|]; split; [now apply NH|]; left; now rewrite <- EH|].
      split; [|split; [now rewrite E, <- app_assoc|easy]].
      rewrite map_app, <- EM in A. cbn [map] in A. subst s.
      apply header_split. apply header_split in HL.
      now rewrite (same_line_split h (h ++ [Byte.to_N x0a]) (or_intror eq_refl)) in HL.
    - rewrite C in *. destruct (ascii_map l FL) as (h & EH & EM & FH).
      exists h, [], l. split; [split; [easy|]; split; [now apply NH|]; right; now rewrite <- EH|].
      split; [now rewrite EM, A|]. split; [now rewrite app_nil_r|easy].
  Qed.
  Lemma shape_any d h body rows cols : w2v_file d h body -> header_line h rows cols ->
    exists pre, d = pre ++ body /\ w2v_read_shape d 0 = Ok ((rows, cols), lenN pre).
  Proof.
    intros (FH & NH & C) HL.
    assert (D0 : dropN 0 d = d) by (rewrite dropN_skipn; reflexivity).
    assert (NB : ~ In x0a (map byte_of_N h)).
    { intros I. apply in_map_iff in I as (c & E & I). apply NH. apply (f_equal Byte.to_N) in E.
      rewrite to_N_byte_of_N in E. rewrite Forall_forall in FH. specialize (FH c I).
      rewrite N.mod_small in E by lia. change (Byte.to_N x0a) with 10 in E. now subst. }
    assert (AS : forall l, Forall (fun c => c < 128) l -> forallb (fun b => Byte.to_N b <? 128) (map byte_of_N l) = true).
    { intros l FL. apply forallb_forall. intros b I. apply in_map_iff in I as (c & <- & I).
      rewrite to_N_byte_of_N. rewrite Forall_forall in FL. specialize (FL c I). apply N.ltb_lt.
      rewrite N.mod_small; lia. }
    assert (X : forall l, same_line h l -> Forall (fun c => c < 128) l -> first_line d = map byte_of_N l ->
              w2v_read_shape d 0 = Ok ((rows, cols), lenN (map byte_of_N l))).
    { intros l SL FL E. unfold w2v_read_shape, rbind, readline. cbv zeta. rewrite D0, E.
      unfold rlift, ascii_decode. rewrite AS by easy. rewrite to_N_map by easy. cbn [bind].
      apply header_split in HL as (r & k & SP & HR & HK). rewrite (same_line_split _ _ SL), SP, HR, HK. reflexivity. }
    destruct C as [-> |[-> ->]].
    - exists (map byte_of_N (h ++ [10])). split; [now rewrite map_app, <- app_assoc|].
      apply (X (h ++ [10])); [now right|apply Forall_app; split; [easy|]; constructor; [lia|constructor]|].
      change ([x0a] ++ body) with (x0a :: body). rewrite first_line_app by easy. now rewrite map_app.
    - exists (map byte_of_N h). split; [now rewrite app_nil_r|]. apply X; [now left|easy|].
      destruct (first_line_form (map byte_of_N h)) as (l & body & NL & [[E _]|(_ & _ & E)]).
      + exfalso. apply NB. rewrite E. apply in_or_app. right. now left.
      + destruct (first_line_form (map byte_of_N h)) as (l' & body' & NL' & [[E' _]|(E' & _ & E2)]); [|congruence].
        exfalso. apply NB. rewrite E'. apply in_or_app. right. now left.
  Qed.
  Lemma fits_ssize r c : array_fits r c -> c * 4 < ssize_limit.
  Proof.
    unfold array_fits. intros H. assert (1 * c <= N.max 1 r * N.max 1 c) by (apply N.mul_le_mono; lia).
    unfold ssize_limit. lia.
  Qed.

  Theorem load_word2vec_only d e : run_reader (load_word2vec o host cd lossy) d = Ok e ->
    exists h body r c ws ms,
      w2v_file d h body /\ header_line h (Z.of_N r) (Z.of_N c) /\ array_fits r c
      /\ lenN ws = r /\ w2v_rows cd lossy c body ws ms /\ NoDup ws /\ simple_embeddings o e ws c ms.
  Proof.
    intros H. unfold run_reader in H. destruct (load_word2vec _ _ _ _ _ _) as [[e' q]|] eqn:L; [|discriminate].
    apply Ok_inj in H. subst e'. unfold load_word2vec in L.
    apply rbind_ok in L as ([rows cols] & p & S1 & L). cbn [fst snd] in L.
    apply shape_only in S1 as (h & body & pre & WF & HL & -> & ->).
    apply rbind_ok in L as ([r c] & p2 & Z1 & L). unfold rlift in Z1.
    destruct (np_zeros_shape rows cols) as [[r' c']|] eqn:ZZ; [|discriminate]. apply Ok_inj in Z1. injection Z1 as -> -> <-.
    apply zeros_iff in ZZ as (-> & -> & A).
    apply rbind_ok in L as (items & p3 & R & L). apply (rows_only c (fits_ssize r c A)) in R as [LI R].
    rewrite normalize_rows in L. unfold rlift in L. destruct (bind _ _) as [e2|] eqn:B in L; [|discriminate].
    apply Ok_inj in L. injection L as -> <-.
    apply bind_ok in B as (v & HV & B). unfold simple_vocab_new in HV. apply bind_ok in HV as (idx & HX & HV).
    injection HV as <-. apply validate_ok in HX as [ND ->].
    exists h, body, r, c, (map fst items), (map snd items). split; [easy|]. split; [easy|]. split; [easy|].
    split; [unfold lenN; rewrite map_length; lia|]. split; [easy|]. split; [easy|].
    unfold embeddings_new in B. apply bind_ok in B as (u & _ & B). apply bind_ok in B as (u2 & _ & B).
    apply Ok_inj in B. subst e. split; [reflexivity|]. split; [reflexivity|].
    split; [now apply enumerate_indexed|]. split; reflexivity.
  Qed.
  Theorem load_word2vec_any d h body r c ws ms :
    w2v_file d h body -> header_line h (Z.of_N r) (Z.of_N c) -> array_fits r c ->
    lenN ws = r -> w2v_rows cd lossy c body ws ms -> NoDup ws ->
    exists e, run_reader (load_word2vec o host cd lossy) d = Ok e /\ simple_embeddings o e ws c ms.
  Proof.
    intros WF HL A L R ND. destruct (shape_any d h body _ _ WF HL) as (pre & E & S1).
    destruct (rows_read c (fits_ssize r c A) body ws ms R pre) as (q & R2 & LM). rewrite <- E in R2.
    destruct (simple_result o ws c ms ND LM) as (e & SR & SE). exists e. split; [|exact SE].
    unfold run_reader, load_word2vec. unfold rbind at 1. rewrite S1. cbn [fst snd]. unfold rbind at 1.
    unfold rlift at 1. rewrite (proj2 (zeros_iff _ _ r c)) by easy. unfold rbind at 1.
    replace (N.to_nat r) with (length ws) by (unfold lenN in L; lia). rewrite R2.
    rewrite combine_fst, combine_snd by lia.
    destruct (normalize_matrix o ms) as [m n]. unfold rlift. now rewrite SR.
  Qed.
End W2v.
