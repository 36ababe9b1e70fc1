(* Bulk subword indices against single n-grams; bounds. *)
From Coq Require Import Lia Sorted.
From Verif Require Import Py PyProofs Utf8 Utf8Proofs Subword Vocab VocabProofs Spec SpecVocab
  NgramProofs HashProofs.

Lemma lenN_substr {A} (w : list A) i j : i + j <= lenN w -> lenN (substr w i j) = j.
Proof. intros H. unfold substr. rewrite lenN_takeN, lenN_dropN. lia. Qed.

(* ---------------------------------------------------------------- *)
(* finalfusion buckets                                               *)

Lemma fifu_hash_sub w i j : i + j <= lenN w ->
  fifu_hash_ngram w i j = fifu_hash_ngram (substr w i j) 0 (lenN (substr w i j)).
Proof.
  intros H. unfold fifu_hash_ngram. rewrite lenN_substr by easy. f_equal.
  unfold substr at 2. rewrite dropN_0, takeN_all; [easy|]. rewrite lenN_substr by easy. lia.
Qed.

Lemma ff_positions x word off b wn :
  0 < ff_min_n x ->
  ff_subword_indices x word off b wn
  = map (fun g => sw_mk wn g (Z.of_N (wrap64 (ff_call x g + off))))
      (map (subs (bracketed b word)) (positions (bracketed b word) (ff_min_n x) (ff_max_n x))).
Proof.
  intros H. unfold ff_subword_indices. set (w := bracketed b word). rewrite map_map.
  destruct (N.ltb_spec (lenN w) (ff_min_n x)) as [L|L].
  - unfold positions. now rewrite grid_short.
  - rewrite (N.min_comm (lenN w)).
    rewrite (grid_map (lenN w) (ff_min_n x) (N.min (ff_max_n x) (lenN w)) (lenN w + 1 - ff_min_n x)
      (fun i j => sw_mk wn (substr w i j)
         (Z.of_N (wrap64 (N.land (fifu_hash_ngram w i j) (ff_mask x) + off))))).
    fold (positions w (ff_min_n x) (ff_max_n x)).
    apply map_ext_in. intros [i j] Hp. apply positions_le in Hp; [|easy]. simpl in Hp.
    unfold subs, ff_call. cbn [fst snd]. now rewrite fifu_hash_sub.
Qed.

Lemma pow_exp_le e : e < 64 -> 2 ^ e <= 2 ^ 63.
Proof. intros H. apply N.pow_le_mono_r; lia. Qed.

Lemma ff_subword_spec x word off b gs :
  ff_exp x < 64 -> off < 2 ^ 63 -> ngrams word (ff_min_n x) (ff_max_n x) b = Ok gs ->
  ff_subword_indices x word off b true
  = map (fun g => SwNgram g (Z.of_N (ff_call x g) + Z.of_N off)%Z) gs
  /\ ff_subword_indices x word off b false
     = map (fun g => SwIdx (Z.of_N (ff_call x g) + Z.of_N off)%Z) gs.
Proof.
  intros He Ho H. pose proof (proj1 (ngrams_spec _ _ _ _ _) H) as [R _].
  rewrite ngrams_eq in H by easy. injection H as <-.
  assert (E : forall g, Z.of_N (wrap64 (ff_call x g + off)) = (Z.of_N (ff_call x g) + Z.of_N off)%Z).
  { intros g. pose proof (ff_call_bound x g). pose proof (pow_exp_le _ He). unfold wrap64.
    rewrite N.mod_small; [lia|]. change (2 ^ 64) with (2 ^ 63 + 2 ^ 63). lia. }
  rewrite !ff_positions by easy. split; apply map_ext; intros g; now rewrite E.
Qed.

(* ---------------------------------------------------------------- *)
(* fastText buckets                                                  *)

Lemma cont_land b : (N.land (Byte.to_N b) 0xC0 =? 0x80) = is_cont b.
Proof. destruct b; reflexivity. Qed.

Lemma starts_cp c bs r pos : encode_cp c = Some bs ->
  utf8_starts pos (bs ++ r) = pos :: utf8_starts (pos + lenN bs) r.
Proof.
  unfold encode_cp. intros H.
  assert (Cont : forall n, n < 64 -> is_cont (byte_of_N (0x80 + n)) = true).
  { intros n Hn. unfold is_cont. rewrite to_N_byte_of_N, N.mod_small by lia.
    apply andb_true_iff. split; [apply N.leb_le|apply N.ltb_lt]; lia. }
  assert (Lead : forall n, n < 0x80 \/ 0xC0 <= n < 256 -> is_cont (byte_of_N n) = false).
  { intros n Hn. unfold is_cont. rewrite to_N_byte_of_N, N.mod_small by lia.
    apply andb_false_iff. destruct Hn; [left; apply N.leb_gt|right; apply N.ltb_ge]; lia. }
  assert (M : forall n, n mod 64 < 64) by (intros; apply N.mod_lt; easy).
  destruct (N.ltb_spec c 0x80).
  { injection H as <-. simpl. rewrite cont_land, Lead by lia. easy. }
  destruct (N.ltb_spec c 0x800).
  { injection H as <-. cbn [app utf8_starts]. rewrite !cont_land, Lead, Cont.
    - simpl. f_equal. f_equal. change (lenN [_; _]) with 2. lia.
    - apply M.
    - right. assert (c / 64 < 32) by (apply N.div_lt_upper_bound; lia). lia. }
  destruct ((0xD800 <=? c) && (c <? 0xE000)); [easy|].
  destruct (N.ltb_spec c 0x10000).
  { injection H as <-. cbn [app utf8_starts]. rewrite !cont_land, Lead, !Cont; try apply M.
    - simpl. f_equal. f_equal. change (lenN [_; _; _]) with 3. lia.
    - right. assert (c / 4096 < 16) by (apply N.div_lt_upper_bound; lia). lia. }
  destruct (N.ltb_spec c 0x110000); [|easy].
  injection H as <-. cbn [app utf8_starts]. rewrite !cont_land, Lead, !Cont; try apply M.
  - simpl. f_equal. f_equal. change (lenN [_; _; _; _]) with 4. lia.
  - right. assert (c / 262144 < 5) by (apply N.div_lt_upper_bound; lia). lia.
Qed.

(* the boundary of a prefix *)
Lemma boundary_nth w post : forall pos bw bp,
  utf8_encode w = Ok bw -> utf8_encode post = Ok bp ->
  nth (length w) (utf8_starts pos (bw ++ bp) ++ [pos + lenN (bw ++ bp)]) 0 = pos + lenN bw.
Proof.
  induction w as [|c w IH]; intros pos bw bp Hw Hp.
  - injection Hw as <-. simpl. destruct post as [|c post].
    + injection Hp as <-. simpl. unfold lenN. simpl. lia.
    + simpl in Hp. destruct (encode_cp c) as [bc|] eqn:E; [|easy].
      destruct (utf8_encode post) as [bp'|]; [|easy]. cbn [bind] in Hp. injection Hp as <-.
      rewrite (starts_cp _ _ _ _ E). simpl. unfold lenN. simpl. lia.
  - simpl in Hw. destruct (encode_cp c) as [bc|] eqn:E; [|easy].
    destruct (utf8_encode w) as [bw'|]; [|easy]. cbn [bind] in Hw. injection Hw as <-.
    rewrite <- app_assoc, (starts_cp _ _ _ _ E).
    replace (pos + lenN (bc ++ bw' ++ bp)) with (pos + lenN bc + lenN (bw' ++ bp))
      by (rewrite !lenN_app; lia).
    cbn [length app nth]. rewrite (IH (pos + lenN bc) bw' bp eq_refl Hp). rewrite lenN_app. lia.
Qed.

Lemma encode_split3 a b c bs : utf8_encode (a ++ b ++ c) = Ok bs ->
  exists x y z, utf8_encode a = Ok x /\ utf8_encode b = Ok y /\ utf8_encode c = Ok z
    /\ bs = x ++ y ++ z.
Proof.
  rewrite !utf8_encode_app. destruct (utf8_encode a) as [x|]; [|easy]. cbn [bind].
  destruct (utf8_encode b) as [y|]; [|easy]. cbn [bind].
  destruct (utf8_encode c) as [z|]; [|easy]. cbn [bind]. intros [= <-].
  exists x, y, z. easy.
Qed.

Lemma ft_hash_sub w bw i j : utf8_encode w = Ok bw -> i + j <= lenN w ->
  exists bg, utf8_encode (substr w i j) = Ok bg
  /\ ft_hash_ngram bw (nth (N.to_nat i) (find_utf8_boundaries bw) 0)
       (nth (N.to_nat (i + j)) (find_utf8_boundaries bw) 0)
     = ft_hash_ngram bg 0 (lenN bg).
Proof.
  intros H L. destruct (substr_occurs w i j L) as (pre & post & E & Hi & Hj).
  cbn [fst snd] in Hi, Hj. set (g := substr w i j) in *.
  pose proof H as H'. rewrite E in H'. apply encode_split3 in H' as (x & y & z & Hx & Hy & Hz & Hb).
  exists y. split; [easy|].
  assert (Hyz : utf8_encode (g ++ post) = Ok (y ++ z)).
  { rewrite utf8_encode_app. now rewrite Hy, Hz. }
  assert (Hxy : utf8_encode (pre ++ g) = Ok (x ++ y)).
  { rewrite utf8_encode_app. now rewrite Hx, Hy. }
  pose proof (boundary_nth _ _ 0 _ _ Hx Hyz) as B1.
  pose proof (boundary_nth _ _ 0 _ _ Hxy Hz) as B2.
  rewrite <- app_assoc in B2. rewrite <- Hb in B1, B2.
  rewrite !N.add_0_l in B1, B2.
  unfold find_utf8_boundaries.
  replace (N.to_nat i) with (length pre) by (unfold lenN in Hi; lia).
  replace (N.to_nat (i + j)) with (length (pre ++ g))
    by (rewrite app_length; unfold lenN in Hi, Hj; lia).
  rewrite B1, B2. unfold ft_hash_ngram. f_equal. rewrite lenN_app.
  replace (lenN x + lenN y - lenN x) with (lenN y) by lia. rewrite N.sub_0_r.
  unfold substr. rewrite Hb, dropN_app_l, takeN_app_l, dropN_0, takeN_all by lia. easy.
Qed.

Lemma mapM_map_in {A B} (f : A -> result B) (g : A -> B) l :
  (forall a, In a l -> f a = Ok (g a)) -> mapM f l = Ok (map g l).
Proof.
  induction l as [|a l IH]; intros H; [easy|]. cbn [mapM map].
  rewrite (H a) by (now left). cbn [bind]. rewrite IH; [easy|]. intros. apply H. now right.
Qed.

Lemma ft_subword_spec x word off b wn bw gs :
  0 < ft_buckets x < 2 ^ 32 -> off < 2 ^ 63 ->
  utf8_encode (in_brackets b word) = Ok bw ->
  ngrams word (ft_min_n x) (ft_max_n x) b = Ok gs ->
  exists hs, mapM (ft_call x) gs = Ok hs
  /\ ft_subword_indices x word off b wn
     = Ok (map (fun gh => sw_mk wn (fst gh) (Z.of_N (snd gh) + Z.of_N off)%Z) (combine gs hs)).
Proof.
  intros Hb Ho He H. pose proof (proj1 (ngrams_spec _ _ _ _ _) H) as [R _].
  rewrite ngrams_eq in H by easy. injection H as <-.
  rewrite <- bracketed_in in He. unfold ft_subword_indices.
  set (w := bracketed b word) in *. rewrite He. cbn [bind].
  set (call := fun p => ft_hash_ngram bw (nth (N.to_nat (fst p)) (find_utf8_boundaries bw) 0)
                          (nth (N.to_nat (fst p + snd p)) (find_utf8_boundaries bw) 0)
                        mod ft_buckets x).
  exists (map call (positions w (ft_min_n x) (ft_max_n x))).
  assert (C : forall p, In p (positions w (ft_min_n x) (ft_max_n x)) ->
              ft_call x (subs w p) = Ok (call p)).
  { intros [i j] Hp. apply positions_le in Hp; [|easy]. cbn [fst snd] in Hp.
    destruct (ft_hash_sub w bw i j He Hp) as (bg & Eg & Hh).
    unfold ft_call, subs, call. cbn [fst snd]. rewrite Eg. cbn [bind]. now rewrite <- Hh. }
  split.
  - set (ps := positions w (ft_min_n x) (ft_max_n x)) in *. clearbody ps.
    induction ps as [|p ps IH]; [easy|]. cbn [map mapM]. rewrite C by (now left). cbn [bind].
    rewrite IH; [easy|]. intros. apply C. now right.
  - f_equal.
    rewrite (grid_map (lenN w) (ft_min_n x) (N.min (ft_max_n x) (lenN w)) (lenN w + 1 - ft_min_n x)
      (fun i j => sw_mk wn (substr w i j)
         (Z.of_N (wrap64 (ft_hash_ngram bw (nth (N.to_nat i) (find_utf8_boundaries bw) 0)
            (nth (N.to_nat (i + j)) (find_utf8_boundaries bw) 0) mod ft_buckets x + off))))).
    fold (positions w (ft_min_n x) (ft_max_n x)).
    set (ps := positions w (ft_min_n x) (ft_max_n x)) in *. clearbody ps.
    clear C. induction ps as [|p ps IH]; [easy|]. cbn [map combine fst snd]. rewrite IH. f_equal.
    unfold subs, call. f_equal.
    assert (M : forall h, h mod ft_buckets x < 2 ^ 32).
    { intros h. eapply N.lt_trans; [apply N.mod_lt; lia|lia]. }
    specialize (M (ft_hash_ngram bw (nth (N.to_nat (fst p)) (find_utf8_boundaries bw) 0)
      (nth (N.to_nat (fst p + snd p)) (find_utf8_boundaries bw) 0))).
    unfold wrap64. rewrite N.mod_small; [lia|].
    change (2 ^ 64) with (2 ^ 63 + 2 ^ 63). assert (2 ^ 32 < 2 ^ 63) by reflexivity. lia.
Qed.
Lemma ft_subword_encode x word off b wn e :
  utf8_encode (in_brackets b word) = Err e -> ft_subword_indices x word off b wn = Err e.
Proof. intros H. rewrite <- bracketed_in in H. unfold ft_subword_indices. now rewrite H. Qed.

(* ---------------------------------------------------------------- *)
(* explicit n-grams                                                  *)

Lemma flat_map_map {A B C} (f : A -> B) (g : B -> list C) l :
  flat_map g (map f l) = flat_map (fun a => g (f a)) l.
Proof. induction l; simpl; congruence. Qed.

Lemma ex_subword_spec x word off b wn gs :
  ngrams word (ex_min_n x) (ex_max_n x) b = Ok gs ->
  ex_subword_indices x word off b wn
  = flat_map (fun g => match ex_call x g with
                       | Some i => [sw_mk wn g (i + Z.of_N off)%Z]
                       | None => []
                       end) gs.
Proof.
  intros H. pose proof (proj1 (ngrams_spec _ _ _ _ _) H) as [R _].
  rewrite ngrams_eq in H by easy. injection H as <-.
  unfold ex_subword_indices. set (w := bracketed b word). rewrite flat_map_map.
  destruct (N.ltb_spec (lenN w) (ex_min_n x)) as [L|L].
  - unfold positions. now rewrite grid_short.
  - rewrite (grid_flat_map (lenN w) (ex_min_n x) (N.min (ex_max_n x) (lenN w)) (lenN w + 1 - ex_min_n x)
      (fun i j => match sget (substr w i j) (ex_index x) with
                  | None => []
                  | Some idx => [sw_mk wn (substr w i j) (idx + Z.of_N off)%Z]
                  end)).
    fold (positions w (ex_min_n x) (ex_max_n x)). apply flat_map_ext. intros [i j].
    unfold subs, ex_call. cbn [fst snd]. now destruct (sget (substr w i j) (ex_index x)).
Qed.
