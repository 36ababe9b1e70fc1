(* The files from which single chunks can be loaded. *)
From Coq Require Import Lia.
From Verif Require Import Py PyProofs Utf8 Utf8Proofs Utf8More SpecUtf8 IO IOProofs ReaderProofs Arr
  Subword Vocab VocabProofs Storage StorageProofs Chunks Embeddings Spec StorageInv ExtendProofs
  FindProofs TruncProofs SpecFinalfusion FfParse FfVocab FfStorage FfLoad.
Local Open Scope N_scope.
Local Open Scope list_scope.

Definition cid (c : chunk_id) : N := Z.to_N (chunk_id_val c).
Lemma cid_inj a b : cid a = cid b -> a = b.
Proof. now destruct a, b. Qed.
Lemma cid_in c l : In (cid c) (map cid l) <-> In c l.
Proof.
  rewrite in_map_iff. split; [|eauto]. intros (x & E & H). apply cid_inj in E. now subst.
Qed.
Lemma cid_small n : n <= 8 <-> exists c, n = cid c.
Proof.
  split.
  - intros H. assert (X : n = 0 \/ n = 1 \/ n = 2 \/ n = 3 \/ n = 4 \/ n = 5 \/ n = 6 \/ n = 7 \/ n = 8) by lia.
    destruct X as [->|[->|[->|[->|[->|[->|[->|[->| ->]]]]]]]];
      [exists CHeader|exists CSimpleVocab|exists CNdArray|exists CBucketSubwordVocab|exists CQuantizedArray
      |exists CMetadata|exists CNdNorms|exists CFastTextSubwordVocab|exists CExplicitSubwordVocab]; easy.
  - intros [[] ->]; vm_compute; discriminate.
Qed.
Definition skipped (chunks : list (N * bytes)) : bytes :=
  concat (map (fun x => u32 (fst x) ++ u64 (lenN (snd x)) ++ snd x) chunks).

Lemma runs_inv wanted d p r : find_runs wanted d p r -> forall c q, r = Ok (Some c, q) ->
  exists chunks n s, dropN p d = skipped chunks ++ chunk_head c n ++ s
    /\ Forall (fun x => fst x <= 8 /\ ~ In (fst x) (map cid wanted)) chunks
    /\ In c wanted /\ n < 2 ^ 64 /\ q = p + lenN (skipped chunks) + 12.
Proof.
  induction 1 as [p e H|p q H|p c n q H HI|p c n q e H HI HS|p c n q u q' r H HI HS HR IH]; intros c0 q0 E; try discriminate E.
  - injection E as -> ->. apply chunk_header_iff in H as (s & D & -> & B). exists [], n, s. cbn. rewrite N.add_0_r. auto.
  - specialize (IH c0 q0 E) as (chunks & m & s & D & F & I & B & EQ).
    apply chunk_header_iff in H as (s0 & D0 & -> & B0).
    unfold seek_fwd in HS. destruct (_ || _); [discriminate HS|]. injection HS as _ <-.
    assert (D1 : dropN (p + 12) d = s0) by (rewrite <- (lenN_chunk_head c n); apply takes_here in D0; apply D0).
    assert (L : n <= lenN s0).
    { apply (f_equal lenN) in D. rewrite <- dropN_dropN, D1, lenN_dropN, !lenN_app, lenN_chunk_head in D. lia. }
    rewrite <- dropN_dropN, D1 in D.
    exists ((cid c, takeN n s0) :: chunks), m, s.
    assert (LT : lenN (takeN n s0) = n) by (rewrite lenN_takeN; lia).
    unfold skipped. cbn [map concat fst snd]. fold (skipped chunks). rewrite LT. split; [|split; [|split; [easy|split; [easy|]]]].
    + rewrite <- !app_assoc, <- D. change (u32 (cid c) ++ u64 n ++ takeN n s0 ++ dropN n s0)
        with (u32 (cid c) ++ u64 n ++ (takeN n s0 ++ dropN n s0)). rewrite takeN_dropN, D0. apply chunk_head_app.
    + constructor; [|exact F]. cbn [fst]. split; [apply cid_small; eauto|now rewrite cid_in].
    + rewrite EQ, !lenN_app, lenN_u32, lenN_u64, LT. lia.
Qed.
Lemma runs_take wanted d c n s : lenN d < ssize_limit -> In c wanted -> n < 2 ^ 64 ->
  forall chunks p r, find_runs wanted d p r -> dropN p d = skipped chunks ++ chunk_head c n ++ s ->
  Forall (fun x => fst x <= 8 /\ ~ In (fst x) (map cid wanted)) chunks ->
  r = Ok (Some c, p + lenN (skipped chunks) + 12).
Proof.
  intros L I B. induction chunks as [|[i body] chunks IH]; intros p r H D F.
  - cbn [skipped map concat app] in D. assert (R : read_chunk_header d p = Ok (Some (c, n), p + 12)) by (apply chunk_header_iff; eauto).
    change (lenN (skipped [])) with 0. rewrite N.add_0_r.
    destruct H as [p e H|p q H|p c' n' q H HI|p c' n' q e H HI HS|p c' n' q u q' r H HI HS HR]; rewrite R in H; try discriminate H.
    + injection H as <- <- <-. easy.
    + injection H as <- <- <-. easy.
    + injection H as <- <- <-. easy.
  - inversion F as [|? ? [F1 F2] F']; subst. cbn [fst snd] in *. apply cid_small in F1 as (c1 & ->). rewrite cid_in in F2.
    unfold skipped in D. cbn [map concat fst snd] in D. fold (skipped chunks) in D. rewrite <- !app_assoc in D.
    assert (SZ := dropN_app_size _ _ _ _ D ltac:(intros X; apply (f_equal lenN) in X; now rewrite lenN_u32 in X)).
    rewrite lenN_u32, !lenN_app, lenN_u64 in SZ.
    assert (B' : lenN body < 2 ^ 64) by (unfold ssize_limit in L; lia).
    assert (D0 : dropN p d = chunk_head c1 (lenN body) ++ body ++ skipped chunks ++ chunk_head c n ++ s) by (rewrite chunk_head_app; exact D).
    assert (R : read_chunk_header d p = Ok (Some (c1, lenN body), p + 12)) by (apply chunk_header_iff; eauto).
    assert (D1 := proj2 (takes_here _ _ _ _ D0)). rewrite lenN_chunk_head in D1.
    assert (D2 := proj2 (takes_here _ _ _ _ D1)).
    assert (RS : seek_fwd (lenN body) d (p + 12) = Ok (tt, p + 12 + lenN body)).
    { unfold seek_fwd. destruct (N.leb_spec ssize_limit (lenN body)); [lia|].
      destruct (N.leb_spec ssize_limit (p + 12 + lenN body)); [lia|]. easy. }
    replace (p + lenN (skipped ((cid c1, body) :: chunks)) + 12) with (p + 12 + lenN body + lenN (skipped chunks) + 12).
    2:{ unfold skipped. cbn [map concat fst snd]. rewrite !lenN_app, lenN_u32, lenN_u64. lia. }
    destruct H as [p e H|p q H|p c' n' q H HI|p c' n' q e H HI HS|p c' n' q u q' r H HI HS HR]; rewrite R in H; try discriminate H;
      injection H as <- <- <-; [easy| |].
    + rewrite RS in HS. discriminate HS.
    + rewrite RS in HS. injection HS as <- <-. now apply IH.
Qed.
Lemma found_iff wanted d p0 c q : lenN d < ssize_limit ->
  find_chunk wanted d p0 = Ok (Some c, q) <->
  exists before len after, ff_found (map cid wanted) d (cid c) len before after /\ q = lenN before + 12.
Proof.
  intros L. destruct (find_chunk_spec wanted d p0) as [(e & H & ->)|(ids0 & p & r & H & R & ->)].
  - split; [discriminate|]. intros (before & len & after & (ids & chunks & -> & E & BI & FI & _) & _).
    assert (X : header_read_chunk d 0 = Ok (map Z.of_N ids, 0 + lenN (header_of ids))).
    { apply header_iff. exists ids. eexists. rewrite dropN_0. split; [easy|]. split; [|easy].
      rewrite E. unfold header_of. rewrite <- !app_assoc. reflexivity. }
    rewrite H in X. discriminate X.
  - apply header_iff in H as (ids' & s & _ & D & -> & BI & FI). rewrite dropN_0 in D. rewrite N.add_0_l in R.
    assert (D' : dropN (lenN (header_of ids')) d = s) by (rewrite D; apply dropN_app_l).
    split.
    + intros E. destruct (runs_inv _ _ _ _ R _ _ E) as (chunks & n & s' & DD & F & I & B & EQ).
      rewrite D' in DD. exists (header_of ids' ++ skipped chunks), n, s'. split.
      * exists ids', chunks. split; [unfold header_of, skipped; now rewrite <- !app_assoc|].
        split; [rewrite D, DD, chunk_head_app, <- app_assoc; easy|]. rewrite cid_in. auto 8.
      * rewrite EQ, lenN_app. lia.
    + intros (before & len & after & (ids & chunks & EB & E & BI' & FI' & F & I & B) & ->).
      fold (skipped chunks) in EB. apply cid_in in I.
      assert (EH : header_of ids = header_of ids' /\ skipped chunks ++ chunk_head c len ++ after = s).
      { assert (X : header_read_chunk d 0 = Ok (map Z.of_N ids, 0 + lenN (header_of ids))).
        { apply header_iff. exists ids. eexists. rewrite dropN_0. split; [easy|]. split; [|easy].
          rewrite E, EB. unfold header_of. rewrite <- !app_assoc. reflexivity. }
        assert (X' : header_read_chunk d 0 = Ok (map Z.of_N ids', 0 + lenN (header_of ids'))).
        { apply header_iff. exists ids'. eexists. rewrite dropN_0. split; [easy|]. split; [exact D|easy]. }
        rewrite X in X'. injection X' as X1 _.
        assert (ids = ids').
        { clear - X1. revert ids' X1. induction ids as [|i l IH]; intros [|j l'] X; try discriminate X; [easy|].
          injection X as X0 X. apply N2Z.inj in X0. subst. f_equal. now apply IH. }
        subst ids'. split; [easy|]. rewrite <- D', E, EB. unfold header_of.
        replace (_ ++ _ ++ u64 len ++ after) with (header_of ids ++ skipped chunks ++ chunk_head c len ++ after).
        - symmetry. apply dropN_app_l.
        - unfold header_of. rewrite chunk_head_app, <- !app_assoc. reflexivity. }
      destruct EH as [EH <-].
      rewrite (runs_take wanted d c len after L I B chunks _ _ R D' F). do 2 f_equal. rewrite EB, <- EH.
      unfold header_of. rewrite !lenN_app. lia.
Qed.

(* a loader: find, then read *)
Lemma run_found {A} wanted (k : option chunk_id -> reader A) d a : lenN d < ssize_limit ->
  (forall q r, k None d q <> Ok r) ->
  run_reader (rbind (find_chunk wanted) k) d = Ok a <->
  exists c before len after q, ff_found (map cid wanted) d (cid c) len before after
    /\ k (Some c) d (lenN before + 12) = Ok (a, q).
Proof.
  intros L KN. unfold run_reader. split.
  - destruct (rbind _ _ d 0) as [[a' q]|] eqn:E; [|discriminate]. intros X. apply Ok_inj in X. cbn [fst] in X. subst a'.
    apply rbind_ok in E as ([c|] & p & H & E); [|now apply KN in E].
    apply (found_iff _ _ _ _ _ L) in H as (before & len & after & H & ->). exists c, before, len, after, q. auto.
  - intros (c & before & len & after & q & H & R).
    assert (X : find_chunk wanted d 0 = Ok (Some c, lenN before + 12)) by (apply found_iff; [easy|eauto]).
    rewrite (rbind_step _ _ _ _ _ _ X), R. easy.
Qed.
Lemma found_after wanted d c len before after : ff_found wanted d c len before after ->
  dropN (lenN before + 12) d = after.
Proof.
  intros (ids & chunks & _ & -> & _).
  replace (before ++ u32 c ++ u64 len ++ after) with ((before ++ u32 c ++ u64 len) ++ after) by now rewrite <- !app_assoc.
  replace (lenN before + 12) with (lenN (before ++ u32 c ++ u64 len)) by (rewrite !lenN_app, lenN_u32, lenN_u64; lia).
  apply dropN_app_l.
Qed.
Lemma found_known wanted d c len before after : (forall n, In n wanted -> n <= 8) ->
  ff_found wanted d c len before after -> exists k, c = cid k.
Proof. intros W (ids & chunks & _ & _ & _ & _ & _ & I & _). apply cid_small. now apply W. Qed.

Lemma vocab_found c x wanted d v before len after : ff_found wanted d (cid c) len before after ->
  (exists q, vocab_read_chunk c x d (lenN before + 12) = Ok (v, q)) <->
  exists body rest, after = body ++ rest /\ ff_vocab (ff_words_before rest) v (cid c) body.
Proof.
  intros F. apply found_after in F. split.
  - intros [q H]. apply vocab_at in H as (b & s & D & _ & V). rewrite F in D. eauto.
  - intros (body & rest & -> & V). eexists. apply vocab_at. exists body, rest. split; [exact F|]. split; [reflexivity|exact V].
Qed.
Lemma vocab_loads wanted wn k x d v : lenN d < ssize_limit -> map cid wanted = wn ->
  (forall q r, k None d q <> Ok r) ->
  (forall c, In c wanted -> k (Some c) = vocab_read_chunk c x) ->
  run_reader (rbind (find_chunk wanted) k) d = Ok v <-> ff_vocab_file wn d v.
Proof.
  intros L <- KN KS. rewrite (run_found _ _ _ _ L); [|exact KN].
  split.
  - intros (c & before & len & after & q & F & H).
    assert (I : In c wanted) by (destruct F as (? & ? & F); apply cid_in; apply F). rewrite (KS c I) in H.
    destruct (proj1 (vocab_found _ x _ _ v _ _ _ F) (ex_intro _ q H)) as (body & rest & -> & V).
    exists (cid c), len, before, body, rest. auto.
  - intros (i & len & before & body & rest & F & V).
    assert (KW : exists c, i = cid c).
    { apply found_known in F; [exact F|]. intros n I. apply in_map_iff in I as (c & <- & _). apply cid_small. eauto. }
    destruct KW as (c & ->).
    assert (I : In c wanted) by (destruct F as (? & ? & F'); apply cid_in; apply F').
    destruct (proj2 (vocab_found c x _ _ v _ _ _ F)) as [q H]; [eauto|].
    exists c, before, len, (body ++ rest), q. split; [exact F|]. now rewrite (KS c I).
Qed.
Lemma load_vocab_iff d v : lenN d < ssize_limit ->
  run_reader load_vocab d = Ok v <-> ff_vocab_file [1; 7; 8; 3] d v.
Proof. intros L. unfold load_vocab. apply (vocab_loads _ _ _ ValueError); try easy. Qed.
Lemma load_vocab_of_iff c d v : lenN d < ssize_limit ->
  run_reader (load_vocab_of c) d = Ok v <-> ff_vocab_file [cid c] d v.
Proof.
  intros L. unfold load_vocab_of. apply (vocab_loads _ _ _ ValueError); try easy.
  intros c' [<-|[]]. easy.
Qed.

Lemma storage_found h mm c x wanted d st before len after : load_mode h mm -> lenN d + 4 < ssize_limit ->
  ff_found wanted d (cid c) len before after ->
  (exists q, storage_read_chunk h mm c x d (lenN before + 12) = Ok (st, q)) <->
  exists head pad data rest, after = head ++ pad ++ data ++ rest /\ ff_storage st (cid c) head data
    /\ ff_pad (lenN before + 12 + lenN head) pad (data ++ rest)
    /\ (mm = true -> lenN pad = 4 - (lenN before + 12 + lenN head) mod 4).
Proof.
  intros M L F. apply found_after in F. split.
  - intros [q H]. apply (storage_both _ _ _ _ _ _ _ _ M L) in H as [(head & pad & data & s & D & D' & V & U & E) MM].
    assert (SZ := dropN_app_size _ _ _ _ D (head_not_nil _ _ _ _ V)). rewrite !lenN_app in SZ.
    rewrite F in D. exists head, pad, data, s.
    split; [exact D|]. split; [exact V|]. split; [exact U|]. intros EM. specialize (MM EM).
    destruct U as [U|[U EN]]; [exact U|exfalso]. apply app_eq_nil in EN as [-> ->].
    change (lenN (@nil byte)) with 0 in *. unfold pad_float32 in E. lia.
  - intros (head & pad & data & s & -> & V & U & MM).
    assert (SZ := dropN_app_size _ _ _ _ F (head_not_nil _ _ _ _ V)). rewrite !lenN_app in SZ.
    exists (lenN before + 12 + lenN head + pad_float32 (lenN before + 12 + lenN head) + lenN data).
    apply (storage_both _ _ _ _ _ _ _ _ M L). split.
    + exists head, pad, data, s. split; [exact F|]. split; [|auto].
      destruct U as [U|[U EN]].
      * unfold pad_float32. rewrite <- U.
        assert (F2 := proj2 (takes_here _ _ _ _ F)). assert (F3 := proj2 (takes_here _ _ _ _ F2)).
        exact (proj2 (takes_here _ _ _ _ F3)).
      * apply app_eq_nil in EN as [-> ->]. apply dropN_all. change (lenN (@nil byte)) with 0 in *. unfold pad_float32. lia.
    + intros EM. specialize (MM EM). unfold pad_float32. lia.
Qed.
Lemma storage_loads h mm wanted wn k x d st : load_mode h mm -> lenN d + 4 < ssize_limit -> map cid wanted = wn ->
  (forall q r, k None d q <> Ok r) ->
  (forall c, In c wanted -> k (Some c) = storage_read_chunk h mm c x) ->
  run_reader (rbind (find_chunk wanted) k) d = Ok st <-> ff_storage_file wn mm d st.
Proof.
  intros M L <- KN KS. assert (L' : lenN d < ssize_limit) by lia.
  rewrite (run_found _ _ _ _ L'); [|exact KN].
  split.
  - intros (c & before & len & after & q & F & H).
    assert (I : In c wanted) by (destruct F as (? & ? & F); apply cid_in; apply F). rewrite (KS c I) in H.
    destruct (proj1 (storage_found _ _ _ x _ _ st _ _ _ M L F) (ex_intro _ q H)) as (head & pad & data & rest & -> & V).
    exists (cid c), len, before, head, pad, data, rest. auto.
  - intros (i & len & before & head & pad & data & rest & F & V).
    assert (KW : exists c, i = cid c).
    { apply found_known in F; [exact F|]. intros n I. apply in_map_iff in I as (c & <- & _). apply cid_small. eauto. }
    destruct KW as (c & ->).
    assert (I : In c wanted) by (destruct F as (? & ? & F'); apply cid_in; apply F').
    destruct (proj2 (storage_found _ _ c x _ _ st _ _ _ M L F)) as [q H]; [eauto 8|].
    exists c, before, len, (head ++ pad ++ data ++ rest), q. split; [exact F|]. now rewrite (KS c I).
Qed.
Lemma load_storage_iff h mm d st : load_mode h mm -> lenN d + 4 < ssize_limit ->
  run_reader (load_storage h mm) d = Ok st <-> ff_storage_file [2; 4] mm d st.
Proof. intros M L. unfold load_storage. apply (storage_loads h mm _ _ _ NotImplementedError); easy. Qed.
Lemma load_storage_of_iff h mm c d st : load_mode h mm -> lenN d + 4 < ssize_limit ->
  run_reader (load_storage_of h mm c) d = Ok st <-> ff_storage_file [cid c] mm d st.
Proof. intros M L. unfold load_storage_of. apply (storage_loads h mm _ _ _ ValueError); easy. Qed.

Lemma load_norms_iff h d nm : lenN d + 4 < ssize_limit ->
  run_reader (load_norms h) d = Ok nm <-> ff_norms_file d nm.
Proof.
  intros L. assert (L' : lenN d < ssize_limit) by lia. unfold load_norms. rewrite (run_found _ _ _ _ L'); [|easy]. split.
  - intros (c & before & len & after & q & F & H).
    assert (E : c = CNdNorms).
    { destruct F as (? & ? & _ & _ & _ & _ & _ & [I|[]] & _). apply cid_inj. now symmetry. }
    subst c. exists len, before, after. split; [exact F|].
    apply norms_inv in H as (n & pad & vals & rest & D & B & U & C & ->).
    assert (BL : len < 2 ^ 64) by (destruct F as (? & ? & F); apply F).
    rewrite (found_after _ _ _ _ _ _ F) in D. subst after.
    replace (lenN before + 12 + 12) with (lenN before + 24) in U by lia. econstructor; eassumption.
  - intros (len & before & after & F & H). remember (u32 6 ++ u64 len ++ after) as bb eqn:E2.
    inversion H as [|len' n pad vals rest B1 B2 U C E1 E3]. clear H. rewrite <- E3 in E2. clear E3 bb. subst nm.
    apply (f_equal (dropN 12)) in E2.
    assert (X : forall a b s, dropN 12 (u32 a ++ u64 b ++ s) = s).
    { intros a b s. rewrite app_assoc. replace 12 with (lenN (u32 a ++ u64 b)) by (now rewrite lenN_app, lenN_u32, lenN_u64).
      apply dropN_app_l. }
    rewrite !X in E2. assert (D := found_after _ _ _ _ _ _ F). rewrite <- E2 in D.
    assert (L7 : lenN before + 12 + 16 < ssize_limit).
    { assert (SZ := dropN_app_size _ _ _ _ D ltac:(intros Y; apply (f_equal lenN) in Y; now rewrite lenN_u64 in Y)).
      rewrite lenN_u64, !lenN_app, lenN_u32 in SZ. lia. }
    replace (lenN before + 24) with (lenN before + 12 + 12) in U by lia.
    destruct (norms_take h _ _ _ _ _ _ L7 D B2 U C) as [q R].
    exists CNdNorms, before, len, after, q. auto.
Qed.
Lemma load_metadata_iff t d m : lenN d < ssize_limit ->
  run_reader (load_metadata t) d = Ok m <-> ff_metadata_file t d m.
Proof.
  intros L. unfold load_metadata. rewrite (run_found _ _ _ _ L); [|easy].
  assert (X : forall before len after, ff_found [5] d 5 len before after ->
    dropN (lenN before) d = chunk_head CMetadata len ++ after).
  { intros before len after (ids & chunks & _ & -> & _). rewrite dropN_app_l. symmetry. apply chunk_head_app. }
  split.
  - intros (c & before & len & after & q & F & H).
    assert (E : c = CMetadata).
    { destruct F as (? & ? & _ & _ & _ & _ & _ & [I|[]] & _). apply cid_inj. now symmetry. }
    subst c. assert (BL : len < 2 ^ 64) by (destruct F as (? & ? & F); apply F).
    apply (metadata_iff _ _ _ _ _ _ _ (X _ _ _ F) BL) in H as (x & s & w & -> & LX & B & _ & U & T).
    exists len, before, x, s. split; [exact F|]. split; [exact LX|]. rewrite <- LX. econstructor; eauto. now rewrite LX.
  - intros (len & before & x & rest & F & LX & H). remember (u32 5 ++ u64 len ++ x) as bb eqn:E2.
    inversion H as [|m' w x' U T B E1 E3]. clear H. rewrite <- E3 in E2. clear E3 bb. subst m' len.
    apply app_inv_head in E2. apply (f_equal (dropN 8)) in E2.
    assert (Y : forall b s, dropN 8 (u64 b ++ s) = s).
    { intros b s. rewrite <- (lenN_u64 b). apply dropN_app_l. }
    rewrite !Y in E2. subst x'.
    assert (BL : lenN x < 2 ^ 64) by lia.
    exists CMetadata, before, (lenN x), (x ++ rest), (lenN before + 12 + lenN x). split; [exact F|].
    apply (metadata_iff _ _ _ _ _ _ _ (X _ _ _ F) BL). exists x, rest, w. auto 8.
Qed.
