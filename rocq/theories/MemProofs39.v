(** Facts about the buffers of [Memory39]. *)
From Verif Require Import Base Sha2 Str Unicode BitAcc Language39 Mnemonic39 Memory39 Spec39 BitsProofs
  StrProofs EncProofs DecProofs Utf8Proofs Builtin39 LangSpec39 LangProofs UnicodeProofs MnemonicProofs.

Lemma utf8_app s t : utf8 (s ++ t) = utf8 s ++ utf8 t.
Proof. apply flat_map_app. Qed.

Lemma is_empty_utf8 s : is_empty (utf8 s) = is_empty s.
Proof.
  destruct s as [|c s]; [reflexivity|]. pose proof (utf8_length (c :: s)) as H. cbn [length] in H.
  destruct (utf8 (c :: s)); [cbn in H; lia|reflexivity].
Qed.

Section Push.
Variable Al : allocator.

Lemma push_bytes_data st bs : bf_data (snd (push_bytes Al st bs)) = bf_data (snd st) ++ bs.
Proof. destruct st as [f b]. cbn [push_bytes snd]. destruct (_ <=? _); reflexivity. Qed.

Lemma push_bytes_fits f b bs : N.of_nat (length (bf_data b ++ bs)) <= bf_cap b ->
  push_bytes Al (f, b) bs = (f, {| bf_cap := bf_cap b; bf_data := bf_data b ++ bs |}).
Proof.
  intros H. rewrite app_length in H. cbn [push_bytes].
  replace (_ <=? _) with true; [reflexivity|]. symmetry. apply N.leb_le. lia.
Qed.

Lemma push_bytes_grows f b bs : (forall c n, al_moves Al c n = true) -> bf_cap b <> 0 ->
  bf_cap b < N.of_nat (length (bf_data b ++ bs)) ->
  In (bf_data b) (fst (push_bytes Al (f, b) bs)).
Proof.
  intros HM H0 H. rewrite app_length in H. cbn [push_bytes].
  destruct (N.leb_spec (N.of_nat (length (bf_data b)) + N.of_nat (length bs)) (bf_cap b)); [lia|].
  rewrite HM. apply N.eqb_neq in H0. rewrite H0. cbn. apply in_or_app. right. left. reflexivity.
Qed.

(** Blocks released by pushing are prefixes of what the buffer finally holds. *)
Definition prefix_of (l x : list byte) : Prop := exists y, x ++ y = l.

Lemma prefix_app l x y : prefix_of l x -> prefix_of (l ++ y) x.
Proof. intros [z <-]. exists (z ++ y). apply app_assoc. Qed.

Lemma push_bytes_freed st bs : exists g, fst (push_bytes Al st bs) = fst st ++ g /\
  Forall (prefix_of (bf_data (snd st) ++ bs)) g.
Proof.
  destruct st as [f b]. cbn [push_bytes fst snd]. destruct (_ <=? _).
  - exists []. rewrite app_nil_r. split; [reflexivity|constructor].
  - eexists. split; [reflexivity|]. destruct (_ || _); repeat constructor. exists bs. reflexivity.
Qed.

Lemma push_word_m_data st p w : bf_data (snd st) = utf8 p ->
  bf_data (snd (push_word_m Al st w)) = utf8 (push_word p w).
Proof.
  intros H. unfold push_word_m, push_word. rewrite push_bytes_data, H, is_empty_utf8.
  destruct (is_empty p); [rewrite H|rewrite push_bytes_data, H]; rewrite !utf8_app; reflexivity.
Qed.

Lemma push_word_m_freed st w : exists g, fst (push_word_m Al st w) = fst st ++ g /\
  Forall (prefix_of (bf_data (snd (push_word_m Al st w)))) g.
Proof.
  unfold push_word_m.
  set (st1 := if is_empty (bf_data (snd st)) then st else push_bytes Al st (utf8 [32])).
  assert (H : exists g, fst st1 = fst st ++ g /\ Forall (prefix_of (bf_data (snd st1))) g).
  { unfold st1. destruct (is_empty _).
    - exists []. rewrite app_nil_r. split; [reflexivity|constructor].
    - destruct (push_bytes_freed st (utf8 [32])) as [g [E F]]. exists g. rewrite push_bytes_data. split; assumption. }
  destruct H as [g [E F]]. destruct (push_bytes_freed st1 (utf8 w)) as [h [E' F']].
  exists (g ++ h). rewrite E', E, app_assoc. split; [reflexivity|]. apply Forall_app. split.
  - eapply Forall_impl; [|exact F]. intros x. rewrite push_bytes_data. apply prefix_app.
  - rewrite push_bytes_data. exact F'.
Qed.

Lemma fold_data ws : forall st p, bf_data (snd st) = utf8 p ->
  bf_data (snd (fold_left (push_word_m Al) ws st)) = utf8 (fold_left push_word ws p).
Proof. induction ws as [|w ws IH]; intros st p H; [exact H|]. cbn [fold_left]. apply IH. apply push_word_m_data, H. Qed.

Lemma fold_prefix ws : forall p, exists t, fold_left push_word ws p = p ++ t.
Proof.
  induction ws as [|w ws IH]; intros p; [exists []; symmetry; apply app_nil_r|].
  cbn [fold_left]. destruct (IH (push_word p w)) as [t ->]. unfold push_word.
  destruct (is_empty p); [exists (w ++ t)|exists ([32] ++ w ++ t)]; rewrite <- !app_assoc; reflexivity.
Qed.

Lemma fold_freed ws : forall st p, bf_data (snd st) = utf8 p ->
  exists g, fst (fold_left (push_word_m Al) ws st) = fst st ++ g /\
  Forall (prefix_of (utf8 (fold_left push_word ws p))) g.
Proof.
  induction ws as [|w ws IH]; intros st p H.
  - exists []. rewrite app_nil_r. split; [reflexivity|constructor].
  - cbn [fold_left]. pose proof (push_word_m_data st p w H) as H1.
    destruct (IH _ _ H1) as [h [E F]]. destruct (push_word_m_freed st w) as [g [E' F']].
    exists (g ++ h). rewrite E, E', app_assoc. split; [reflexivity|]. apply Forall_app. split; [|exact F].
    eapply Forall_impl; [|exact F']. intros x. rewrite H1.
    destruct (fold_prefix ws (push_word p w)) as [t ->]. rewrite utf8_app. apply prefix_app.
Qed.

Lemma push_word_m_fits f b p w : bf_data b = utf8 p -> N.of_nat (length (utf8 (push_word p w))) <= bf_cap b ->
  push_word_m Al (f, b) w = (f, {| bf_cap := bf_cap b; bf_data := utf8 (push_word p w) |}).
Proof.
  intros H HC. unfold push_word_m, push_word in *. cbn [snd]. rewrite H, is_empty_utf8.
  destruct (is_empty p).
  - rewrite push_bytes_fits; rewrite H, <- utf8_app; [reflexivity|exact HC].
  - rewrite push_bytes_fits; rewrite H, <- utf8_app.
    + rewrite push_bytes_fits; cbn [bf_data bf_cap]; rewrite <- utf8_app; [reflexivity|exact HC].
    + rewrite utf8_app, app_length in HC. lia.
Qed.

Lemma fold_fits ws : forall f b p, bf_data b = utf8 p ->
  N.of_nat (length (utf8 (fold_left push_word ws p))) <= bf_cap b ->
  fold_left (push_word_m Al) ws (f, b)
  = (f, {| bf_cap := bf_cap b; bf_data := utf8 (fold_left push_word ws p) |}).
Proof.
  induction ws as [|w ws IH]; intros f b p H HC; cbn [fold_left] in *.
  - rewrite <- H. destruct b. reflexivity.
  - rewrite (push_word_m_fits f b p w H).
    + rewrite (IH f _ (push_word p w)); [reflexivity|reflexivity|exact HC].
    + destruct (fold_prefix ws (push_word p w)) as [t E]. rewrite E, utf8_app, app_length in HC. lia.
Qed.

(** The first time the buffer is too small. *)
Lemma push_word_m_overflow f b p w : (forall c n, al_moves Al c n = true) -> bf_cap b <> 0 ->
  bf_data b = utf8 p -> bf_cap b < N.of_nat (length (utf8 (push_word p w))) ->
  let f' := fst (push_word_m Al (f, b) w) in In (utf8 p) f' \/ In (utf8 (p ++ [32])) f'.
Proof.
  intros HM H0 H HC. cbv zeta. unfold push_word_m, push_word in *. cbn [snd]. rewrite H, is_empty_utf8.
  destruct (is_empty p).
  - left. rewrite <- H. apply push_bytes_grows; [exact HM|exact H0|]. rewrite H, <- utf8_app. exact HC.
  - destruct (N.le_gt_cases (N.of_nat (length (utf8 (p ++ [32])))) (bf_cap b)) as [Hs|Hs].
    + right. rewrite push_bytes_fits by (rewrite H, <- utf8_app; exact Hs).
      replace (utf8 (p ++ [32])) with (bf_data {| bf_cap := bf_cap b; bf_data := bf_data b ++ utf8 [32] |})
        by (cbn [bf_data]; rewrite H, <- utf8_app; reflexivity).
      apply push_bytes_grows; [exact HM|exact H0|]. cbn [bf_data bf_cap]. rewrite H, <- !utf8_app. exact HC.
    + left. destruct (push_bytes_freed (push_bytes Al (f, b) (utf8 [32])) (utf8 w)) as [g [E _]]. rewrite E.
      apply in_or_app. left. rewrite <- H. apply push_bytes_grows; [exact HM|exact H0|].
      rewrite H, <- utf8_app. exact Hs.
Qed.

Lemma fold_overflow ws : forall f b p, (forall c n, al_moves Al c n = true) -> bf_cap b <> 0 ->
  bf_data b = utf8 p -> N.of_nat (length (utf8 p)) <= bf_cap b ->
  bf_cap b < N.of_nat (length (utf8 (fold_left push_word ws p))) ->
  exists pre w post, ws = pre ++ w :: post /\
    N.of_nat (length (utf8 (fold_left push_word pre p))) <= bf_cap b /\
    bf_cap b < N.of_nat (length (utf8 (fold_left push_word (pre ++ [w]) p))) /\
    let f' := fst (fold_left (push_word_m Al) ws (f, b)) in
    In (utf8 (fold_left push_word pre p)) f' \/ In (utf8 (fold_left push_word pre p ++ [32])) f'.
Proof.
  induction ws as [|w ws IH]; intros f b p HM H0 H HL HC; cbn [fold_left] in *; [lia|].
  destruct (N.le_gt_cases (N.of_nat (length (utf8 (push_word p w)))) (bf_cap b)) as [Hs|Hs].
  - rewrite (push_word_m_fits f b p w H Hs).
    destruct (IH f {| bf_cap := bf_cap b; bf_data := utf8 (push_word p w) |} (push_word p w) HM H0 eq_refl Hs HC)
      as [pre [v [post [E [H1 [H2 H3]]]]]].
    exists (w :: pre), v, post. rewrite E. split; [reflexivity|]. cbn [app fold_left]. cbn [bf_cap] in *.
    split; [exact H1|]. split; [exact H2|]. rewrite <- E. exact H3.
  - exists [], w, ws. split; [reflexivity|]. cbn [app fold_left]. split; [exact HL|]. split; [exact Hs|].
    cbv zeta. destruct (fold_freed ws (push_word_m Al (f, b) w) (push_word p w)) as [g [E _]].
    { apply push_word_m_data. exact H. }
    rewrite E. destruct (push_word_m_overflow f b p w HM H0 H Hs) as [K|K]; [left|right];
      apply in_or_app; left; exact K.
Qed.

(** ** Encoding *)
Lemma take_word_small a i a' : @take_bits err39 a BITS_PER_WORD = Ok (i, a') -> i < 2048.
Proof.
  unfold take_bits. destruct (_ <? _); [discriminate|]. destruct (_ || _); [discriminate|].
  intros E. injection E as <- _. change 2047 with (N.ones 11).
  rewrite N.land_ones. apply N.mod_lt. discriminate.
Qed.

Definition indexed (L : AnyLanguage) (idxs : list N) (ws : list str) : Prop :=
  Forall (fun i => i < 2048) idxs /\ Forall2 (fun i w => any_word_of L i = Some w) idxs ws.

Lemma enc_drain_sim L fuel : forall a p a' p', enc_drain L fuel a p = Ok (a', p') ->
  exists idxs ws, indexed L idxs ws /\ p' = fold_left push_word ws p /\
  forall st, enc_drain_m Al L fuel a st = Ok (a', fold_left (push_word_m Al) ws st).
Proof.
  induction fuel as [|fuel IH]; intros a p a' p'; cbn [enc_drain enc_drain_m]; [discriminate|].
  destruct (can_take a BITS_PER_WORD).
  - destruct (take_bits a BITS_PER_WORD) as [[i a1]| |] eqn:ET; cbn [bind]; [|discriminate|discriminate].
    unfold enc_push_index, enc_push_index_m. destruct (any_word_of L i) as [w|] eqn:EW; cbn [bind]; [|discriminate].
    intros E. apply IH in E as [idxs [ws [[F1 F2] [E1 E2]]]]. exists (i :: idxs), (w :: ws).
    split; [split; constructor; try assumption; eapply take_word_small; exact ET|].
    split; [exact E1|]. intros st. apply E2.
  - intros E. injection E as <- <-. exists [], []. repeat split; constructor.
Qed.

Lemma indexed_app L i1 w1 i2 w2 : indexed L i1 w1 -> indexed L i2 w2 -> indexed L (i1 ++ i2) (w1 ++ w2).
Proof. intros [A B] [C D]. split; [apply Forall_app; split; assumption|apply Forall2_app; assumption]. Qed.

Lemma enc_bytes_sim L e : forall a p a' p', enc_bytes L e a p = Ok (a', p') ->
  exists idxs ws, indexed L idxs ws /\ p' = fold_left push_word ws p /\
  forall st, enc_bytes_m Al L e a st = Ok (a', fold_left (push_word_m Al) ws st).
Proof.
  induction e as [|b e IH]; intros a p a' p'; cbn [enc_bytes enc_bytes_m].
  - intros E. injection E as <- <-. exists [], []. repeat split; constructor.
  - destruct (push_bits a (b2n b) BITS_PER_BYTE) as [a1| |]; cbn [bind]; [|discriminate|discriminate].
    unfold enc_drain_all, enc_drain_all_m.
    destruct (enc_drain L _ a1 p) as [[a2 p2]| |] eqn:ED; cbn [bind]; [|discriminate|discriminate].
    apply enc_drain_sim in ED as [i1 [w1 [H1 [-> D1]]]].
    intros E. apply IH in E as [i2 [w2 [H2 [-> D2]]]]. exists (i1 ++ i2), (w1 ++ w2).
    split; [apply indexed_app; assumption|]. split; [symmetry; apply fold_left_app|].
    intros st. rewrite D1. cbn [bind]. rewrite D2, fold_left_app. reflexivity.
Qed.

Lemma encode_sim B L e p : encode_entropy_with B L e = Ok p ->
  exists c idxs ws, (let? size := mul_usize B (N.of_nat (length e)) BITS_PER_BYTE in from_key_size size) = Ok c /\
  indexed L idxs ws /\ p = fold_left push_word ws [] /\
  encode_entropy_m Al B L e =
    (let st := fold_left (push_word_m Al) ws ([], with_capacity (rough_phrase_cap c)) in (fst st, Ok (snd st))).
Proof.
  unfold encode_entropy_with, encode_entropy_m.
  destruct (mul_usize B _ _) as [size| |]; cbn [bind]; [|discriminate|discriminate].
  destruct (from_key_size size) as [c| |]; cbn [bind]; [|discriminate|discriminate].
  destruct (enc_bytes L e ba_new []) as [[a p1]| |] eqn:EB; cbn [bind]; [|discriminate|discriminate].
  apply enc_bytes_sim in EB as [i1 [w1 [H1 [-> D1]]]]. rewrite D1. cbn [bind].
  destruct (push_bits a _ _) as [a1| |]; cbn [bind]; [|discriminate|discriminate].
  unfold enc_drain_all, enc_drain_all_m.
  destruct (enc_drain L _ a1 _) as [[a2 p2]| |] eqn:ED; cbn [bind]; [|discriminate|discriminate].
  apply enc_drain_sim in ED as [i2 [w2 [H2 [-> D2]]]]. rewrite D2. cbn [bind].
  destruct (b_debug B && _); [discriminate|]. intros E. injection E as <-.
  exists c, (i1 ++ i2), (w1 ++ w2). rewrite !fold_left_app. split; [reflexivity|].
  split; [apply indexed_app; assumption|]. split; [reflexivity|]. cbv zeta.
  destruct (fold_left (push_word_m Al) w2 _) as [f b]. reflexivity.
Qed.

Lemma encode_illegal_m B L e : ~ legal_entropy_len (length e) -> 8 * N.of_nat (length e) < 2 ^ b_usize_bits B ->
  encode_entropy_m Al B L e = ([], Err (BadEntropyBitCount (8 * N.of_nat (length e)))).
Proof.
  intros HL HW. unfold encode_entropy_m, mul_usize. change BITS_PER_BYTE with 8.
  destruct (N.of_nat (length e) * 8 <? 2 ^ b_usize_bits B) eqn:EW; [|lia]. cbn [bind].
  rewrite from_key_size_illegal by exact HL. cbn [bind]. do 3 f_equal. lia.
Qed.

(** ** Decoding *)
Definition push_opt (st : freed * option buf) (w : str) : freed * option buf :=
  match snd st with
  | None => (fst st, None)
  | Some out => let '(f1, out') := push_word_m Al (fst st, out) w in (f1, Some out')
  end.

Lemma push_opt_none f ws : fold_left push_opt ws (f, None) = (f, None).
Proof. induction ws as [|w ws IH]; [reflexivity|exact IH]. Qed.

Lemma push_opt_some ws : forall f b, fold_left push_opt ws (f, Some b) =
  let st := fold_left (push_word_m Al) ws (f, b) in (fst st, Some (snd st)).
Proof.
  induction ws as [|w ws IH]; intros f b; [reflexivity|]. cbn [fold_left].
  unfold push_opt at 2. cbn [snd fst]. destruct (push_word_m Al (f, b) w) as [f1 b1]. apply IH.
Qed.

Lemma decode_words_m_spec L params n k :
  p_entropy_len params = N.of_nat n -> p_cs_len params = N.of_nat k -> (k <= 8)%nat ->
  forall ws f norm s P done cb q,
  Inv params n k s P done cb q -> Drained n k done cb q ->
  (length P + 11 * length ws <= 8 * n + k)%nat ->
  (exists pre w post idxs s' done' cb' q', ws = pre ++ w :: post /\
     Forall2 (fun w i => any_index_of L w = Some i) pre idxs /\ any_index_of L w = None /\
     decode_words_m Al L ws f norm s =
       (let st := fold_left push_opt (pre ++ [w]) (f, norm) in
        (fst st ++ drop_state s' ++ drop_opt (snd st), Err (UnknownWord w))) /\
     Inv params n k s' (P ++ index_bits idxs) done' cb' q' /\ Drained n k done' cb' q') \/
  (exists idxs s' done' cb' q', Forall2 (fun w i => any_index_of L w = Some i) ws idxs /\
     decode_words_m Al L ws f norm s =
       (let st := fold_left push_opt ws (f, norm) in (fst st, Ok (snd st, s'))) /\
     Inv params n k s' (P ++ index_bits idxs) done' cb' q' /\ Drained n k done' cb' q').
Proof.
  intros Hn Hk Hk8. induction ws as [|w ws IH]; intros f norm s P done cb q HI HD HP.
  - right. exists [], s, done, cb, q. cbn [decode_words_m index_bits flat_map]. rewrite app_nil_r.
    split; [constructor|]. split; [reflexivity|split; assumption].
  - cbn [decode_words_m].
    change (match norm with None => (f, None) | Some out => let '(f1, out') := push_word_m Al (f, out) w in (f1, Some out') end)
      with (push_opt (f, norm) w).
    destruct (push_opt (f, norm) w) as [f1 norm1] eqn:EP.
    destruct (any_index_of L w) as [i|] eqn:Ei.
    + destruct (push_index_spec params n k Hn Hk Hk8 s P done cb q i HI HD) as [s1 [d1 [c1 [q1 [E1 [I1 D1]]]]]];
        [lia|].
      rewrite E1.
      destruct (IH f1 norm1 s1 (P ++ bits_msb 11 i) d1 c1 q1 I1 D1) as [H|H].
      { rewrite app_length, bits_msb_length. cbn [length] in HP. lia. }
      * left. destruct H as [pre [v [post [idxs [s' [d' [c' [q' [H1 [H2 [H3 [H4 [H5 H6]]]]]]]]]]]]].
        exists (w :: pre), v, post, (i :: idxs), s', d', c', q'. subst ws. cbn [app fold_left]. rewrite EP.
        split; [reflexivity|]. split; [constructor; assumption|]. split; [exact H3|]. split; [exact H4|].
        split; [rewrite index_bits_cons, app_assoc; exact H5|exact H6].
      * right. destruct H as [idxs [s' [d' [c' [q' [H1 [H2 [H3 H4]]]]]]]].
        exists (i :: idxs), s', d', c', q'. cbn [fold_left]. rewrite EP. split; [constructor; assumption|].
        split; [exact H2|]. split; [|exact H4]. rewrite index_bits_cons, app_assoc. exact H3.
    + left. exists [], w, ws, [], s, done, cb, q. cbn [app fold_left index_bits flat_map]. rewrite EP, app_nil_r.
      split; [reflexivity|]. split; [constructor|]. split; [exact Ei|]. split; [reflexivity|]. split; assumption.
Qed.

Definition same_text (b : option buf) (p : option str) : Prop :=
  match b, p with
  | None, None => True
  | Some b, Some p => bf_data b = utf8 p
  | _, _ => False
  end.

Lemma decode_words_agree L ws : forall f b p s, same_text b p ->
  match decode_words L ws p s with
  | Ok (p', s') => exists f' b', decode_words_m Al L ws f b s = (f', Ok (b', s')) /\ same_text b' p'
  | Err e => exists f', decode_words_m Al L ws f b s = (f', Err e)
  | Panic => exists f', decode_words_m Al L ws f b s = (f', Panic)
  end.
Proof.
  induction ws as [|w ws IH]; intros f b p s H; cbn [decode_words decode_words_m]; [exists f, b; split; [reflexivity|exact H]|].
  change (match b with None => (f, None) | Some out => let '(f1, out') := push_word_m Al (f, out) w in (f1, Some out') end)
    with (push_opt (f, b) w).
  set (p1 := match p with None => None | Some out => Some ((if is_empty out then out else out ++ [32]) ++ w) end).
  destruct (push_opt (f, b) w) as [f1 b1] eqn:EP.
  assert (H1 : same_text b1 p1).
  { unfold push_opt in EP. cbn [fst snd] in EP. destruct b as [b|], p as [p|]; cbn in H; try contradiction.
    - destruct (push_word_m Al (f, b) w) as [f2 b2] eqn:E2. injection EP as _ <-.
      pose proof (push_word_m_data (f, b) p w H) as HD. rewrite E2 in HD. exact HD.
    - injection EP as _ <-. exact I. }
  destruct (any_index_of L w) as [i|]; [|eexists; reflexivity].
  destruct (dec_push_index s i) as [s1|e|]; cbn [bind]; [|eexists; reflexivity|eexists; reflexivity].
  apply IH. exact H1.
Qed.

Lemma decode_phrase_agree L s mode :
  match decode_phrase_with L s mode with
  | Ok d => exists f b, decode_phrase_m Al L s mode = (f, Ok (dp_entropy d, b)) /\ same_text b (dp_normalized d)
  | Err e => exists f, decode_phrase_m Al L s mode = (f, Err e)
  | Panic => exists f, decode_phrase_m Al L s mode = (f, Panic)
  end.
Proof.
  unfold decode_phrase_with, decode_phrase_m.
  destruct (parse_params_from_phrase s) as [params|e|]; cbn [bind]; [|eexists; reflexivity|eexists; reflexivity].
  set (b0 := match mode with ValidateOnly => None | BuildNormalizedPhrase => Some (with_capacity (rough_phrase_cap (p_count params))) end).
  set (p0 := match mode with ValidateOnly => None | BuildNormalizedPhrase => Some [] end).
  assert (H0 : same_text b0 p0) by (unfold b0, p0; destruct mode; [exact I|reflexivity]).
  pose proof (decode_words_agree L (split_whitespace s) [] b0 p0 (decode_state_new params) H0) as H.
  destruct (decode_words L _ p0 _) as [[p' s']|e|]; cbn [bind].
  - destruct H as [f' [b' [-> H]]]. destruct (dec_finish s') as [e|e|]; cbn [bind dp_entropy dp_normalized].
    + exists f', b'. split; [reflexivity|exact H].
    + eexists; reflexivity.
    + eexists; reflexivity.
  - destruct H as [f' ->]. exists f'. reflexivity.
  - destruct H as [f' ->]. exists f'. reflexivity.
Qed.

(** What decoding has released, by outcome. *)
Definition norm0 (mode : DecodeMode) (n : nat) : option buf :=
  match mode with ValidateOnly => None | BuildNormalizedPhrase => Some (with_capacity (N.of_nat (9 * n - 1))) end.

Lemma drop_full (l : list byte) : l <> [] ->
  drop_buf {| bf_cap := N.of_nat (length l); bf_data := l |} = [l].
Proof. intros H. unfold drop_buf. cbn [bf_cap bf_data]. destruct l; [contradiction|reflexivity]. Qed.

Inductive decoded (L : AnyLanguage) (ws : list str) (norm : option buf) : mem (list byte * option buf) -> Prop :=
| de_count : ~ legal_word_count (length ws) -> decoded L ws norm ([], Err (BadWordCount (N.of_nat (length ws))))
| de_unknown pre w post idxs d q n :
    ws = pre ++ w :: post -> Forall2 (fun w i => any_index_of L w = Some i) pre idxs ->
    any_index_of L w = None -> index_bits idxs = bytes_bits d ++ q -> (length q < 8)%nat ->
    let st := fold_left push_opt (pre ++ [w]) ([], norm) in
    decoded L ws norm (fst st ++ [d ++ repeat x00 n] ++ drop_opt (snd st), Err (UnknownWord w))
| de_checksum idxs e cs :
    Forall2 (fun w i => any_index_of L w = Some i) ws idxs -> index_bits idxs = bytes_bits e ++ cs ->
    (3 * length cs = length ws)%nat ->
    let st := fold_left push_opt ws ([], norm) in
    decoded L ws norm (fst st ++ [e] ++ drop_opt (snd st), Err InvalidChecksum)
| de_ok idxs e cs :
    Forall2 (fun w i => any_index_of L w = Some i) ws idxs -> index_bits idxs = bytes_bits e ++ cs ->
    (3 * length cs = length ws)%nat ->
    let st := fold_left push_opt ws ([], norm) in
    decoded L ws norm (fst st, Ok (e, snd st)).

Lemma decode_phrase_m_spec L s mode :
  decoded L (split_whitespace s) (norm0 mode (length (split_whitespace s))) (decode_phrase_m Al L s mode).
Proof.
  set (ws := split_whitespace s).
  unfold decode_phrase_m, parse_params_from_phrase, count_from_phrase. fold ws.
  destruct (from_word_count_cases (length ws)) as [[HL [c [Hc [Hk3 [Hk32 Hwc]]]]]|[HL Hc]].
  2:{ rewrite Hc. apply de_count. exact HL. }
  rewrite Hc. cbn [bind].
  set (params := {| p_entropy_len := entropy_bit_length c / BITS_PER_BYTE;
                    p_cs_len := checksum_bit_length c; p_count := c |}).
  set (k := N.to_nat (checksum_bit_length c)) in *.
  set (n := (4 * k)%nat).
  assert (Hn : p_entropy_len params = N.of_nat n) by (unfold n, k; destruct c; reflexivity).
  assert (Hk : p_cs_len params = N.of_nat k) by (unfold k; destruct c; reflexivity).
  assert (Hk8 : (4 <= k <= 8)%nat) by (unfold k; destruct c; cbn; lia).
  assert (I0 : Inv params n k (decode_state_new params) [] [] [] []).
  { unfold Inv, decode_state_new. cbn [d_params d_entropy d_out d_acc d_cs d_cs_filled length app bytes_bits flat_map].
    rewrite Hn, Nat2N.id, Nat.sub_0_r. repeat split; lia. }
  assert (D0 : Drained n k [] [] []).
  { split; [cbn; lia|]. left. reflexivity. }
  assert (HN : match mode with ValidateOnly => None
               | BuildNormalizedPhrase => Some (with_capacity (rough_phrase_cap (p_count params))) end
               = norm0 mode (length ws)).
  { unfold norm0. destruct mode; [reflexivity|]. rewrite <- Hwc. do 2 f_equal. unfold params, rough_phrase_cap.
    cbn [p_count]. destruct c; reflexivity. }
  rewrite HN. set (norm := norm0 mode (length ws)).
  destruct (decode_words_m_spec L params n k Hn Hk ltac:(lia) ws [] norm _ [] [] [] [] I0 D0) as [H|H].
  { cbn [length]. lia. }
  - destruct H as [pre [w [post [idxs [s' [d [cb [q [H1 [H2 [H3 [H4 [H5 H6]]]]]]]]]]]]]. cbn [app] in H5.
    rewrite H4. cbv zeta.
    pose proof H5 as [_ [HP [_ [He [Hle [_ [_ [_ [_ Hcb]]]]]]]]].
    assert (HX := f_equal (@length bool) HP). rewrite !app_length, bytes_bits_length, index_bits_length in HX.
    rewrite <- (Forall2_len _ _ _ H2) in HX.
    assert (Hw := f_equal (@length str) H1). rewrite app_length in Hw. cbn [length] in Hw.
    assert (Hd : (length d < n)%nat) by lia.
    rewrite (Hcb Hd) in HP. cbn [app] in HP. destruct H6 as [H6 _]. specialize (H6 Hd).
    unfold drop_state. rewrite drop_full.
    + rewrite He. eapply de_unknown; eassumption.
    + rewrite He. intros E. apply (f_equal (@length byte)) in E. rewrite app_length, repeat_length in E. cbn in E. lia.
  - destruct H as [idxs [s' [d [cb [q [H1 [H2 [H3 H4]]]]]]]]. cbn [app] in H3.
    rewrite H2. cbv zeta. cbn [fst snd].
    assert (Hlen : length idxs = length ws) by (symmetry; eapply Forall2_len; exact H1).
    pose proof H3 as [Hp [HP [Ho [He [Hle [HR [Hcs [Hcf [Hcl Hcb]]]]]]]]].
    assert (HPl : length (index_bits idxs) = (8 * n + k)%nat) by (rewrite index_bits_length; lia).
    assert (Hq8 : (length q < 8)%nat) by (eapply drained_short; try eassumption; lia).
    assert (HX := f_equal (@length bool) HP). rewrite !app_length, bytes_bits_length, HPl in HX.
    assert (Hd : length d = n).
    { destruct (Nat.eq_dec (length d) n) as [E|E]; [exact E|].
      rewrite (Hcb ltac:(lia)) in HX. cbn [length] in HX. lia. }
    assert (Hq' : q = [] /\ length cb = k).
    { destruct H4 as [_ H4]. destruct (H4 Hd) as [->|Hc']; cbn [length] in *; [split; [reflexivity|lia]|].
      destruct q; [split; [reflexivity|exact Hc']|]. cbn [length] in HX. lia. }
    destruct Hq' as [-> Hc']. rewrite app_nil_r in HP.
    assert (He' : d_entropy s' = d).
    { rewrite He, Hd, Nat.sub_diag. cbn [repeat]. apply app_nil_r. }
    unfold dec_finish. rewrite Hp, Ho, Hn, Hcf, Hk, Hd, Hc', !N.eqb_refl. cbn [negb].
    destruct HR as [_ HR]. rewrite HR. cbn [length N.of_nat N.eqb negb].
    destruct (d_cs s' =? _).
    + rewrite He'. eapply de_ok; try eassumption. lia.
    + unfold drop_state. rewrite He', drop_full by (intros ->; cbn in Hd; lia).
      eapply de_checksum; try eassumption. lia.
Qed.

End Push.
