From Verif Require Import Base Str Error32 Path32 PathSpec32.

(** ** Decimal numerals *)
Lemma digits_value_snoc l d : digits_value (l ++ [d]) = 10 * digits_value l + (d - 48).
Proof. unfold digits_value. rewrite fold_left_app. reflexivity. Qed.

Lemma digits_value_from a l :
  fold_left (fun a d => 10 * a + (d - 48)) l a = a * 10 ^ N.of_nat (length l) + digits_value l.
Proof.
  unfold digits_value. revert a. induction l as [|d l IH]; intros a.
  - cbn. lia.
  - cbn [fold_left length]. rewrite IH, (IH (10 * 0 + (d - 48))).
    replace (N.of_nat (S (length l))) with (N.succ (N.of_nat (length l))) by lia.
    rewrite N.pow_succ_r'. lia.
Qed.

Lemma digits_value_cons d l :
  digits_value (d :: l) = (d - 48) * 10 ^ N.of_nat (length l) + digits_value l.
Proof. unfold digits_value at 1. cbn [fold_left]. rewrite digits_value_from. lia. Qed.

Lemma digits_value_bound l : Forall is_digit l -> digits_value l < 10 ^ N.of_nat (length l).
Proof.
  induction 1 as [|d l Hd Hl IH]; [cbn; lia|].
  rewrite digits_value_cons. cbn [length].
  replace (N.of_nat (S (length l))) with (N.succ (N.of_nat (length l))) by lia.
  rewrite N.pow_succ_r'. unfold is_digit in Hd. nia.
Qed.

Lemma dec_fuel_spec f : forall n acc, n < 2 ^ N.of_nat f ->
  exists ds, dec_fuel (S f) n acc = ds ++ acc /\ ds <> [] /\ Forall is_digit ds /\ digits_value ds = n.
Proof.
  induction f as [|f IH]; intros n acc Hn.
  - exists [48]. cbn in Hn. assert (n = 0) as -> by lia. cbn.
    repeat split; try discriminate. constructor; [|constructor]. unfold is_digit. lia.
  - cbn [dec_fuel]. destruct (n <? 10) eqn:E.
    + exists [48 + n mod 10]. split; [reflexivity|]. split; [discriminate|].
      assert (n mod 10 = n) as -> by (apply N.mod_small; lia). split.
      * constructor; [|constructor]. unfold is_digit. lia.
      * unfold digits_value. cbn [fold_left]. lia.
    + assert (Hd : n / 10 < 2 ^ N.of_nat f).
      { apply N.div_lt_upper_bound; [lia|].
        replace (N.of_nat (S f)) with (N.succ (N.of_nat f)) in Hn by lia.
        rewrite N.pow_succ_r' in Hn. lia. }
      destruct (IH (n / 10) ((48 + n mod 10) :: acc) Hd) as (ds & E1 & E2 & E3 & E4).
      exists (ds ++ [48 + n mod 10]). cbn [dec_fuel] in E1. rewrite E1, <- app_assoc.
      pose proof (N.mod_lt n 10 ltac:(lia)) as Hm. pose proof (N.div_mod n 10 ltac:(lia)) as Hdm.
      split; [reflexivity|]. split; [destruct ds; discriminate|]. split.
      * apply Forall_app. split; [exact E3|]. constructor; [|constructor]. unfold is_digit. lia.
      * rewrite digits_value_snoc, E4. lia.
Qed.

Lemma dec_spec n : dec n <> [] /\ Forall is_digit (dec n) /\ digits_value (dec n) = n.
Proof.
  unfold dec. destruct (dec_fuel_spec (N.to_nat (N.size n)) n []) as (ds & E & H).
  - rewrite N2Nat.id. apply N.size_gt.
  - rewrite app_nil_r in E. rewrite E. exact H.
Qed.

Lemma dec_inj a b : dec a = dec b -> a = b.
Proof.
  intros H. destruct (dec_spec a) as (_ & _ & <-), (dec_spec b) as (_ & _ & <-).
  rewrite H. reflexivity.
Qed.

(** ** [u32::from_str] *)
Lemma digit_of_iff b d : digit_of b = Some d <-> exists c, is_digit c /\ b = n2b c /\ d = c - 48.
Proof.
  unfold digit_of, is_digit. split.
  - destruct ((48 <=? b2n b) && (b2n b <=? 57)) eqn:E; [|discriminate]. intros [= <-].
    exists (b2n b). rewrite n2b_b2n. split; [lia|]. split; reflexivity.
  - intros (c & Hc & -> & ->). rewrite b2n_n2b, N.mod_small by lia.
    destruct ((48 <=? c) && (c <=? 57)) eqn:E; [reflexivity|lia].
Qed.

Definition decimal_bytes (l : list byte) (ds : str) : Prop := l = map n2b ds /\ Forall is_digit ds.

Lemma parse_checked_iff l : forall acc v, acc < 2 ^ 32 ->
  parse_checked acc l = Some v <->
  exists ds, decimal_bytes l ds /\ v = acc * 10 ^ N.of_nat (length ds) + digits_value ds /\ v < 2 ^ 32.
Proof.
  induction l as [|b l IH]; intros acc v Hacc; cbn [parse_checked].
  - split.
    + intros [= <-]. exists []. cbn. repeat split; try constructor; lia.
    + intros (ds & (E & _) & -> & _). destruct ds; [|discriminate]. cbn. f_equal. lia.
  - assert (EQ : forall c ds, is_digit c ->
       acc * 10 ^ N.of_nat (length (c :: ds)) + digits_value (c :: ds) =
       (acc * 10 + (c - 48)) * 10 ^ N.of_nat (length ds) + digits_value ds).
    { intros c ds Hc. rewrite digits_value_cons. cbn [length].
      replace (N.of_nat (S (length ds))) with (N.succ (N.of_nat (length ds))) by lia.
      rewrite N.pow_succ_r'. lia. }
    split.
    + destruct (digit_of b) as [d|] eqn:Ed; [|discriminate].
      apply digit_of_iff in Ed as (c & Hc & -> & ->).
      destruct (acc * 10 <? 2 ^ 32); [|discriminate].
      destruct (acc * 10 + (c - 48) <? 2 ^ 32) eqn:E2; [|discriminate].
      intros H. apply IH in H; [|apply N.ltb_lt; exact E2].
      destruct H as (ds & (-> & Hds) & Ev & Hv). exists (c :: ds). split.
      { split; [reflexivity|constructor; assumption]. }
      rewrite EQ by exact Hc. auto.
    + intros (ds & (E & Hds) & Ev & Hv). destruct ds as [|c ds]; [discriminate|].
      cbn [map] in E. injection E as -> ->. inversion Hds as [|c' ds' Hc Hds']; subst c' ds'.
      rewrite EQ in Ev by assumption.
      assert (Ed : digit_of (n2b c) = Some (c - 48)) by (apply digit_of_iff; eauto).
      rewrite Ed.
      assert (Hp : 1 <= 10 ^ N.of_nat (length ds)).
      { pose proof (N.pow_nonzero 10 (N.of_nat (length ds))). lia. }
      assert (Hs : acc * 10 + (c - 48) < 2 ^ 32) by nia.
      destruct (acc * 10 <? 2 ^ 32) eqn:E1; [|lia].
      destruct (acc * 10 + (c - 48) <? 2 ^ 32) eqn:E2; [|lia].
      apply IH; [exact Hs|]. exists ds. split; [split; auto|]. auto.
Qed.

Lemma parse_unchecked_iff l : forall acc v k, acc < 10 ^ N.of_nat k -> (k + length l <= 8)%nat ->
  parse_unchecked acc l = Some v <->
  exists ds, decimal_bytes l ds /\ v = acc * 10 ^ N.of_nat (length ds) + digits_value ds.
Proof.
  induction l as [|b l IH]; intros acc v k Hacc Hk; cbn [parse_unchecked].
  - split.
    + intros [= <-]. exists []. cbn. repeat split; try constructor; lia.
    + intros (ds & (E & _) & ->). destruct ds; [|discriminate]. cbn. f_equal. lia.
  - cbn [length] in Hk.
    assert (EQ : forall c ds, is_digit c ->
       acc * 10 ^ N.of_nat (length (c :: ds)) + digits_value (c :: ds) =
       (acc * 10 + (c - 48)) * 10 ^ N.of_nat (length ds) + digits_value ds).
    { intros c ds Hc. rewrite digits_value_cons. cbn [length].
      replace (N.of_nat (S (length ds))) with (N.succ (N.of_nat (length ds))) by lia.
      rewrite N.pow_succ_r'. lia. }
    assert (Hpow : 10 ^ N.of_nat k * 10 <= 10 ^ 8).
    { replace (10 ^ N.of_nat k * 10) with (10 ^ N.of_nat (S k)).
      - apply N.pow_le_mono_r; lia.
      - replace (N.of_nat (S k)) with (N.succ (N.of_nat k)) by lia. rewrite N.pow_succ_r'. lia. }
    assert (NW : forall c, is_digit c ->
       (acc * 10 mod 2 ^ 32 + (c - 48)) mod 2 ^ 32 = acc * 10 + (c - 48) /\
       acc * 10 + (c - 48) < 10 ^ N.of_nat (S k)).
    { intros c Hc. unfold is_digit in Hc.
      replace (N.of_nat (S k)) with (N.succ (N.of_nat k)) by lia. rewrite N.pow_succ_r'.
      set (q := 10 ^ N.of_nat k) in *. change (10 ^ 8) with 100000000 in Hpow.
      change (2 ^ 32) with 4294967296.
      rewrite (N.mod_small (acc * 10)) by lia. rewrite N.mod_small by lia. lia. }
    split.
    + destruct (digit_of b) as [d|] eqn:Ed; [|discriminate].
      apply digit_of_iff in Ed as (c & Hc & -> & ->).
      destruct (NW c Hc) as [-> Hlt]. intros H. apply (IH _ _ (S k)) in H; [|exact Hlt|lia].
      destruct H as (ds & (-> & Hds) & Ev). exists (c :: ds). split.
      { split; [reflexivity|constructor; assumption]. }
      rewrite EQ by exact Hc. auto.
    + intros (ds & (E & Hds) & Ev). destruct ds as [|c ds]; [discriminate|].
      cbn [map] in E. injection E as -> ->. inversion Hds as [|c' ds' Hc Hds']; subst c' ds'.
      rewrite EQ in Ev by assumption.
      assert (Ed : digit_of (n2b c) = Some (c - 48)) by (apply digit_of_iff; eauto).
      rewrite Ed. destruct (NW c ltac:(assumption)) as [-> Hlt].
      apply (IH _ _ (S k)); [exact Hlt|lia|]. exists ds. split; [split; auto|]. auto.
Qed.

Lemma parse_digits_iff l v :
  parse_digits l = Some v <->
  exists ds, decimal_bytes l ds /\ v = digits_value ds /\ v < 2 ^ 32.
Proof.
  unfold parse_digits. destruct (length l <=? 8)%nat eqn:E.
  - rewrite (parse_unchecked_iff l 0 v 0) by (cbn; lia). split.
    + intros (ds & Hd & ->). exists ds. split; [exact Hd|]. split; [lia|].
      pose proof (digits_value_bound ds (proj2 Hd)) as Hb.
      destruct Hd as [-> _]. rewrite map_length in E.
      assert (10 ^ N.of_nat (length ds) <= 10 ^ 8) by (apply N.pow_le_mono_r; lia).
      change (10 ^ 8) with 100000000 in *. change (2 ^ 32) with 4294967296. lia.
    + intros (ds & Hd & -> & _). exists ds. split; [exact Hd|]. lia.
  - rewrite (parse_checked_iff l 0 v) by (cbn; lia). split.
    + intros (ds & Hd & -> & Hv). exists ds. split; [exact Hd|]. lia.
    + intros (ds & Hd & -> & Hv). exists ds. split; [exact Hd|]. lia.
Qed.

(** Characters that are decimal bytes in UTF-8 are the digit characters. *)
Lemma utf8_char_ascii c : c < 128 -> utf8_char c = [n2b c].
Proof. intros H. unfold utf8_char. destruct (c <? 0x80) eqn:E; [reflexivity|lia]. Qed.

Lemma utf8_ascii s : Forall (fun c => c < 128) s -> utf8 s = map n2b s.
Proof.
  induction 1 as [|c s Hc Hs IH]; [reflexivity|].
  cbn [utf8 flat_map map]. rewrite utf8_char_ascii by exact Hc.
  change (flat_map utf8_char s) with (utf8 s). rewrite IH. reflexivity.
Qed.

Lemma utf8_char_not_digits c : 128 <= c -> exists b l b', utf8_char c = b :: l ++ [b'] /\ 128 <= b2n b'.
Proof.
  intros H. unfold utf8_char.
  destruct (c <? 0x80) eqn:E0; [lia|].
  assert (Hb : 128 <= b2n (n2b (128 + c mod 64))).
  { rewrite b2n_n2b. pose proof (N.mod_lt c 64 ltac:(lia)). rewrite N.mod_small by lia. lia. }
  destruct (c <? 0x800).
  { eexists _, [], _. split; [reflexivity|exact Hb]. }
  destruct (c <? 0x10000).
  { eexists _, [_], _. split; [reflexivity|exact Hb]. }
  eexists _, [_; _], _. split; [reflexivity|exact Hb].
Qed.

Lemma n2b_small_inj a b : a < 256 -> b < 256 -> n2b a = n2b b -> a = b.
Proof.
  intros Ha Hb H. apply (f_equal b2n) in H. rewrite !b2n_n2b, !N.mod_small in H by assumption. exact H.
Qed.

Lemma digit_byte b ds : Forall is_digit ds -> In b (map n2b ds) -> b2n b < 58.
Proof.
  intros Hd H. apply in_map_iff in H as (c & <- & Hc). rewrite Forall_forall in Hd.
  apply Hd in Hc. unfold is_digit in Hc. rewrite b2n_n2b, N.mod_small by lia. lia.
Qed.

Lemma utf8_digits s : forall ds, Forall is_digit ds -> utf8 s = map n2b ds -> s = ds.
Proof.
  induction s as [|c s IH]; intros ds Hd E.
  - destruct ds; [reflexivity|discriminate].
  - destruct (N.lt_ge_cases c 128) as [Hc|Hc].
    + cbn [utf8 flat_map] in E. rewrite utf8_char_ascii in E by exact Hc.
      destruct ds as [|d ds]; [discriminate|]. cbn [app map] in E. injection E as E1 E2.
      inversion Hd; subst. unfold is_digit in *.
      apply n2b_small_inj in E1; [|lia..]. subst d. f_equal. apply IH; assumption.
    + exfalso. destruct (utf8_char_not_digits c Hc) as (b & l & b' & Eq & Hb).
      assert (H : In b' (map n2b ds)).
      { rewrite <- E. cbn [utf8 flat_map]. rewrite Eq. apply in_or_app. left. right.
        apply in_or_app. right. left. reflexivity. }
      apply (digit_byte _ _ Hd) in H. lia.
Qed.

Lemma digits_ascii ds : Forall is_digit ds -> Forall (fun c => c < 128) ds.
Proof. intros H. eapply Forall_impl; [|exact H]. cbn. unfold is_digit. lia. Qed.

(** A numeral accepted by [u32::from_str]. *)
Lemma parse_u32_iff s v :
  parse_u32 s = Some v <->
  exists plus ds, s = plus ++ ds /\ (plus = [] \/ plus = [43]) /\ ds <> [] /\ Forall is_digit ds /\
                  v = digits_value ds /\ v < 2 ^ 32.
Proof.
  split.
  - unfold parse_u32. destruct (utf8 s) as [|b l] eqn:Eu; [discriminate|].
    intros H.
    assert (C : (b2n b = 43 /\ l <> [] /\ parse_digits l = Some v) \/ parse_digits (b :: l) = Some v).
    { destruct ((b2n b =? 43) || (b2n b =? 45)) eqn:Eb; [|right; exact H].
      destruct l as [|b1 l]; [discriminate|]. destruct (b2n b =? 43) eqn:Ep.
      - left. split; [lia|]. split; [discriminate|exact H].
      - right. exact H. }
    destruct C as [(Hb & Hl & P)|P].
    + apply parse_digits_iff in P as (ds & (-> & Hd) & Hv & Hlt).
      exists [43], ds. assert (ds <> []) by (intros ->; apply Hl; reflexivity).
      assert (Eb : b = n2b 43) by (apply b2n_inj; rewrite Hb; reflexivity). subst b.
      split.
      { destruct s as [|c s]; [discriminate|]. destruct (N.lt_ge_cases c 128) as [Hc|Hc].
        - cbn [utf8 flat_map] in Eu. rewrite utf8_char_ascii in Eu by exact Hc.
          cbn [app] in Eu. injection Eu as E1 E2. apply n2b_small_inj in E1; [|lia..]. subst c.
          cbn [app]. f_equal. apply utf8_digits; assumption.
        - exfalso. destruct (utf8_char_not_digits c Hc) as (b & l & b' & Eq & Hb').
          cbn [utf8 flat_map] in Eu. rewrite Eq in Eu. cbn [app] in Eu. injection Eu as _ E2.
          assert (Hin : In b' (map n2b ds)).
          { rewrite <- E2. apply in_or_app. left. apply in_or_app. right. left. reflexivity. }
          apply (digit_byte _ _ Hd) in Hin. lia. }
      auto 6.
    + apply parse_digits_iff in P as (ds & (E & Hd) & Hv & Hlt).
      exists [], ds. rewrite E in Eu. apply utf8_digits in Eu; [|exact Hd]. subst s.
      split; [reflexivity|]. split; [auto|]. split; [destruct ds; discriminate|]. auto.
  - intros (plus & ds & -> & Hp & Hne & Hd & -> & Hlt).
    assert (P : parse_digits (map n2b ds) = Some (digits_value ds)).
    { apply parse_digits_iff. exists ds. split; [split; [reflexivity|exact Hd]|]. auto. }
    unfold parse_u32. destruct Hp as [-> | ->]; cbn [app].
    + rewrite (utf8_ascii ds) by (apply digits_ascii; exact Hd).
      destruct ds as [|d ds]; [congruence|]. cbn [map] in P |- *.
      assert (Hdb : b2n (n2b d) = d).
      { inversion Hd; subst. unfold is_digit in *. rewrite b2n_n2b, N.mod_small by lia. reflexivity. }
      rewrite Hdb. inversion Hd; subst. unfold is_digit in *.
      destruct ((d =? 43) || (d =? 45)) eqn:E; [lia|]. exact P.
    + cbn [utf8 flat_map]. rewrite utf8_char_ascii by lia. cbn [app].
      change (flat_map utf8_char ds) with (utf8 ds).
      rewrite (utf8_ascii ds) by (apply digits_ascii; exact Hd).
      change ((b2n (n2b 43) =? 43) || (b2n (n2b 43) =? 45)) with true. cbv iota.
      destruct ds as [|d ds]; [congruence|]. cbn [map] in P |- *.
      change (b2n (n2b 43) =? 43) with true. cbv iota. exact P.
Qed.

(** ** Suffixes and prefixes *)
Lemma strip_suffix_snoc c s d : strip_suffix c (s ++ [d]) = if d =? c then Some s else None.
Proof.
  induction s as [|a s IH]; [reflexivity|].
  cbn [app]. assert (E : strip_suffix c (a :: s ++ [d]) = option_map (cons a) (strip_suffix c (s ++ [d]))).
  { destruct (s ++ [d]) eqn:E; [destruct s; discriminate|reflexivity]. }
  rewrite E, IH. destruct (d =? c); reflexivity.
Qed.

Lemma strip_suffix_some c s t : strip_suffix c s = Some t <-> s = t ++ [c].
Proof.
  destruct s as [|d s _] using rev_ind.
  - cbn. split; [discriminate|]. destruct t; discriminate.
  - rewrite strip_suffix_snoc. destruct (d =? c) eqn:E.
    + apply N.eqb_eq in E. subst d. split; [intros [= <-]; reflexivity|].
      intros H. apply app_inj_tail in H as [-> _]. reflexivity.
    + split; [discriminate|]. intros H. apply app_inj_tail in H as [_ ->]. lia.
Qed.

Lemma strip_suffix_none c s : strip_suffix c s = None <-> forall t, s <> t ++ [c].
Proof.
  split.
  - intros H t E. apply strip_suffix_some in E. congruence.
  - intros H. destruct (strip_suffix c s) eqn:E; [|reflexivity].
    apply strip_suffix_some in E. elim (H _ E).
Qed.

Lemma strip_prefix_some p s t : strip_prefix p s = Some t <-> s = p ++ t.
Proof.
  revert s; induction p as [|a p IH]; intros s; cbn [strip_prefix app].
  - split; [intros [= <-]; reflexivity|intros ->; reflexivity].
  - destruct s as [|b s]; [split; discriminate|].
    destruct (a =? b) eqn:E.
    + apply N.eqb_eq in E. subst b. rewrite IH. split; [intros ->; reflexivity|congruence].
    + split; [discriminate|]. intros [= -> ->]. lia.
Qed.

Lemma strip_prefix_none p s : strip_prefix p s = None <-> forall t, s <> p ++ t.
Proof.
  split.
  - intros H t E. apply strip_prefix_some in E. congruence.
  - intros H. destruct (strip_prefix p s) eqn:E; [|reflexivity].
    apply strip_prefix_some in E. elim (H _ E).
Qed.

(** ** Child numbers *)
Lemma child_new_iff i h c :
  child_new i h = Ok c <-> i < 2 ^ 31 /\ c = i + (if h then 2 ^ 31 else 0).
Proof.
  unfold child_new, HARDENED_OFFSET. change (2 ^ 31) with 0x80000000.
  destruct (0x80000000 <=? i) eqn:E.
  - split; [discriminate|]. lia.
  - split; [intros [= <-]|intros [H ->]; f_equal]; destruct h; lia.
Qed.

Lemma child_new_err i h e : child_new i h = Err e -> e_kind e = InvalidPath.
Proof. unfold child_new. destruct (_ <=? _); [intros [= <-]; reflexivity|discriminate]. Qed.

Lemma child_new_no_panic i h : child_new i h <> Panic.
Proof. unfold child_new. destruct (_ <=? _); discriminate. Qed.

Lemma land_31 c : N.land c 0x7FFFFFFF = c mod 2 ^ 31.
Proof. change 0x7FFFFFFF with (N.ones 31). apply N.land_ones. Qed.

Lemma child_index_mod c : child_index c = c mod 2 ^ 31.
Proof. apply land_31. Qed.

Lemma child_parts c : c < 2 ^ 32 ->
  c = child_index c + (if child_is_hardened c then 2 ^ 31 else 0) /\ child_index c < 2 ^ 31.
Proof.
  intros H. rewrite child_index_mod. unfold child_is_hardened, HARDENED_OFFSET.
  split; [|apply N.mod_lt; discriminate].
  change (2 ^ 32) with 4294967296 in H. change (2 ^ 31) with 2147483648 in *.
  pose proof (N.div_mod c 2147483648 ltac:(lia)) as Hd.
  assert (c / 2147483648 < 2) by (apply N.div_lt_upper_bound; lia).
  pose proof (N.mod_lt c 2147483648 ltac:(lia)) as Hm.
  destruct (2147483648 <=? c) eqn:E; nia.
Qed.

Lemma child_of_parts (i : N) (h : bool) : i < 2 ^ 31 ->
  child_index (i + (if h then 2 ^ 31 else 0)) = i /\
  child_is_hardened (i + (if h then 2 ^ 31 else 0)) = h.
Proof.
  intros H. rewrite child_index_mod. unfold child_is_hardened, HARDENED_OFFSET.
  split.
  - destruct h.
    + replace (i + 2 ^ 31) with (i + 1 * 2 ^ 31) by lia. rewrite N.mod_add by discriminate.
      apply N.mod_small. exact H.
    + rewrite N.add_0_r. apply N.mod_small. exact H.
  - change (2 ^ 31) with 2147483648 in *. destruct h; lia.
Qed.

(** ** Components *)
Lemma digits_no_suffix plus ds c : Forall is_digit ds -> ds <> [] -> ~ is_digit c ->
  forall t, plus ++ ds <> t ++ [c].
Proof.
  intros Hd Hne Hc t E. destruct (exists_last Hne) as (ds' & d & ->).
  rewrite app_assoc in E. apply app_inj_tail in E as [_ ->].
  apply Forall_app in Hd as [_ Hd]. inversion Hd; subst. contradiction.
Qed.

Lemma suffix_cases component :
  exists number hardened,
    (match strip_suffix 39 component with
    | Some s => (s, true)
    | None =>
        match strip_suffix 104 component with
        | Some s => (s, true)
        | None =>
            match strip_suffix 72 component with
            | Some s => (s, true)
            | None => (component, false)
            end
        end
    end) = (number, hardened) /\
    (if hardened then exists suf, (suf = lit "'" \/ suf = lit "h" \/ suf = lit "H") /\ component = number ++ suf
     else component = number).
Proof.
  destruct (strip_suffix 39 component) as [s|] eqn:E1.
  { apply strip_suffix_some in E1. exists s, true. split; [reflexivity|]. exists (lit "'"). auto. }
  destruct (strip_suffix 104 component) as [s|] eqn:E2.
  { apply strip_suffix_some in E2. exists s, true. split; [reflexivity|]. exists (lit "h"). auto. }
  destruct (strip_suffix 72 component) as [s|] eqn:E3.
  { apply strip_suffix_some in E3. exists s, true. split; [reflexivity|]. exists (lit "H"). auto. }
  exists component, false. auto.
Qed.

Lemma component_iff s c : parse_child_component s = Ok c <-> spells_child s c.
Proof.
  unfold parse_child_component. split.
  - destruct (suffix_cases s) as (number & hardened & -> & Hs).
    destruct (is_empty number); [discriminate|].
    destruct (parse_u32 number) as [i|] eqn:Ep; [|discriminate].
    intros H. apply child_new_iff in H as [Hi ->].
    apply parse_u32_iff in Ep as (plus & ds & -> & Hp & Hne & Hd & Hv & _).
    exists i, hardened. split; [|reflexivity]. exists plus, ds.
    destruct hardened.
    + destruct Hs as (suf & Hsuf & ->). exists suf. rewrite <- app_assoc. auto 8.
    + subst s. exists []. rewrite app_nil_r. auto 8.
  - intros (i & h & (plus & ds & suf & -> & Hp & Hne & Hd & Hv & Hi & Hsuf) & ->).
    rewrite app_assoc. set (num := plus ++ ds).
    assert (Hnum : parse_u32 num = Some i).
    { apply parse_u32_iff. exists plus, ds. repeat split; try assumption; try congruence.
      change (2 ^ 31) with 2147483648 in Hi. change (2 ^ 32) with 4294967296. lia. }
    assert (Hnn : is_empty num = false).
    { unfold num. destruct plus; [destruct ds; [congruence|reflexivity]|reflexivity]. }
    assert (G : child_new i h = Ok (i + (if h then 2 ^ 31 else 0))).
    { apply child_new_iff. auto. }
    destruct h.
    + destruct Hsuf as [-> | [-> | ->]]; cbn [lit lit_aux].
      * change (N_of_ascii "'") with 39. rewrite strip_suffix_snoc. cbn [N.eqb Pos.eqb].
        rewrite Hnn, Hnum. exact G.
      * change (N_of_ascii "h") with 104. rewrite !strip_suffix_snoc. cbn [N.eqb Pos.eqb].
        rewrite Hnn, Hnum. exact G.
      * change (N_of_ascii "H") with 72. rewrite !strip_suffix_snoc. cbn [N.eqb Pos.eqb].
        rewrite Hnn, Hnum. exact G.
    + subst suf. rewrite app_nil_r.
      assert (N1 : forall c, ~ is_digit c -> strip_suffix c num = None).
      { intros c Hc. apply strip_suffix_none. apply digits_no_suffix; assumption. }
      rewrite !N1 by (unfold is_digit; lia). rewrite Hnn, Hnum. exact G.
Qed.

Lemma component_err s e : parse_child_component s = Err e -> e_kind e = InvalidPath.
Proof.
  unfold parse_child_component. destruct (suffix_cases s) as (number & hardened & -> & Hs).
  destruct (is_empty number); [intros [= <-]; reflexivity|].
  destruct (parse_u32 number); [apply child_new_err|intros [= <-]; reflexivity].
Qed.

Lemma component_no_panic s : parse_child_component s <> Panic.
Proof.
  unfold parse_child_component. destruct (suffix_cases s) as (number & hardened & -> & Hs).
  destruct (is_empty number); [discriminate|].
  destruct (parse_u32 number); [apply child_new_no_panic|discriminate].
Qed.

Lemma spells_not_empty s c : spells_child s c -> s <> [].
Proof.
  intros (i & h & (plus & ds & suf & -> & _ & Hne & _) & _).
  destruct plus; [destruct ds; [congruence|discriminate]|discriminate].
Qed.

Lemma spells_no_slash s c : spells_child s c -> Forall (fun x => (x =? 47) = false) s.
Proof.
  intros (i & h & (plus & ds & suf & -> & Hp & _ & Hd & _ & _ & Hs) & _).
  apply Forall_app. split; [destruct Hp as [-> | ->]; repeat constructor|].
  apply Forall_app. split.
  - eapply Forall_impl; [|exact Hd]. unfold is_digit. cbn. intros a Ha. lia.
  - destruct h; [destruct Hs as [-> | [-> | ->]]; repeat constructor|subst; constructor].
Qed.

(** The first character of a component is a digit or a plus sign. *)
Lemma spells_head s c : spells_child s c -> exists d t, s = d :: t /\ (d = 43 \/ is_digit d).
Proof.
  intros (i & h & (plus & ds & suf & -> & Hp & Hne & Hd & _) & _).
  destruct ds as [|d ds]; [congruence|]. inversion Hd; subst.
  destruct Hp as [-> | ->]; eexists _, _; (split; [reflexivity|]); auto.
Qed.

(** ** Splitting at '/' *)
Lemma split_acc_plain p cur w : Forall (fun c => p c = false) w -> split_acc p cur w = [rev cur ++ w].
Proof.
  revert cur; induction w as [|c w IH]; intros cur H; cbn [split_acc].
  - rewrite app_nil_r. reflexivity.
  - inversion H; subst. rewrite H2, IH by assumption. cbn [rev]. rewrite <- app_assoc. reflexivity.
Qed.

Lemma split_acc_sep p cur w c s : Forall (fun c => p c = false) w -> p c = true ->
  split_acc p cur (w ++ c :: s) = (rev cur ++ w) :: split_acc p [] s.
Proof.
  revert cur; induction w as [|d w IH]; intros cur H Hc; cbn [split_acc app].
  - rewrite Hc, app_nil_r. reflexivity.
  - inversion H; subst. rewrite H2, IH by assumption. cbn [rev]. rewrite <- app_assoc. reflexivity.
Qed.

Lemma split_slash_join ws : ws <> [] -> Forall (Forall (fun x => (x =? 47) = false)) ws ->
  split_on (fun c => c =? 47) (join (lit "/") ws) = ws.
Proof.
  intros Hne H. unfold split_on. induction H as [|w ws Hw Hws IH]; [congruence|].
  destruct ws as [|v ws].
  - cbn [join]. rewrite split_acc_plain by exact Hw. reflexivity.
  - change (join (lit "/") (w :: v :: ws)) with (w ++ 47 :: join (lit "/") (v :: ws)).
    rewrite split_acc_sep by (assumption || reflexivity).
    rewrite IH by discriminate. reflexivity.
Qed.

Lemma join_split_slash s : forall cur,
  join (lit "/") (split_acc (fun c => c =? 47) cur s) = rev cur ++ s /\
  split_acc (fun c => c =? 47) cur s <> [].
Proof.
  induction s as [|c s IH]; intros cur; cbn [split_acc].
  - cbn. rewrite app_nil_r. split; [reflexivity|discriminate].
  - destruct (c =? 47) eqn:E.
    + apply N.eqb_eq in E. subst c. split; [|discriminate]. destruct (IH []) as [IH1 IH2].
      destruct (split_acc _ [] s) as [|x xs] eqn:Es; [congruence|].
      change (join (lit "/") (rev cur :: x :: xs)) with (rev cur ++ lit "/" ++ join (lit "/") (x :: xs)).
      rewrite IH1. reflexivity.
    + destruct (IH (c :: cur)) as [IH1 IH2]. split; [|exact IH2].
      rewrite IH1. cbn [rev]. rewrite <- app_assoc. reflexivity.
Qed.

(** ** The component loop *)
Lemma parse_parts_ok path parts : forall acc cs,
  parse_parts path acc parts = Ok cs <->
  exists more, cs = acc ++ more /\ Forall2 spells_child parts more.
Proof.
  induction parts as [|w ws IH]; intros acc cs; cbn [parse_parts].
  - split.
    + intros [= <-]. exists []. rewrite app_nil_r. auto.
    + intros (more & -> & H). inversion H. rewrite app_nil_r. reflexivity.
  - destruct (is_empty w) eqn:Ew.
    + split; [discriminate|]. intros (more & _ & H). inversion H; subst.
      apply spells_not_empty in H2. destruct w; [congruence|discriminate].
    + destruct (parse_child_component w) as [c|e|] eqn:Ec; cbn [bind].
      * rewrite IH. split.
        -- intros (more & -> & H). exists (c :: more). rewrite <- app_assoc.
           split; [reflexivity|]. constructor; [apply component_iff; exact Ec|exact H].
        -- intros (more & -> & H). inversion H as [|? c' ? ms Hc Hms]; subst.
           apply component_iff in Hc. rewrite Ec in Hc. injection Hc as <-.
           exists ms. rewrite <- app_assoc. auto.
      * split; [discriminate|]. intros (more & _ & H). inversion H as [|? c' ? ms Hc Hms]; subst.
        apply component_iff in Hc. congruence.
      * split; [discriminate|]. intros (more & _ & H). inversion H as [|? c' ? ms Hc Hms]; subst.
        apply component_iff in Hc. congruence.
Qed.

Lemma parse_parts_err path parts : forall acc e,
  parse_parts path acc parts = Err e -> e_kind e = InvalidPath.
Proof.
  induction parts as [|w ws IH]; intros acc e; cbn [parse_parts]; [discriminate|].
  destruct (is_empty w); [intros [= <-]; reflexivity|].
  destruct (parse_child_component w) as [c|e'|] eqn:Ec; cbn [bind]; [apply IH| |discriminate].
  intros [= <-]. eapply component_err; exact Ec.
Qed.

Lemma parse_parts_no_panic path parts : forall acc, parse_parts path acc parts <> Panic.
Proof.
  induction parts as [|w ws IH]; intros acc; cbn [parse_parts]; [discriminate|].
  destruct (is_empty w); [discriminate|].
  destruct (parse_child_component w) as [c|e'|] eqn:Ec; cbn [bind]; [apply IH|discriminate|].
  elim (component_no_panic w Ec).
Qed.

Lemma split_spells rest cs : rest <> [] ->
  (Forall2 spells_child (split_on (fun c => c =? 47) rest) cs <->
   exists comps, comps <> [] /\ rest = join (lit "/") comps /\ Forall2 spells_child comps cs).
Proof.
  intros Hne. split.
  - intros H. exists (split_on (fun c => c =? 47) rest).
    destruct (join_split_slash rest []) as [J1 J2]. auto.
  - intros (comps & Hc & -> & H). rewrite split_slash_join; [exact H|exact Hc|].
    clear -H. induction H; constructor; [eapply spells_no_slash; eassumption|assumption].
Qed.

Lemma join_head comps cs : comps <> [] -> Forall2 spells_child comps cs ->
  exists d t, join (lit "/") comps = d :: t /\ (d = 43 \/ is_digit d).
Proof.
  intros Hne H. destruct H as [|w c ws cs Hw Hws]; [congruence|].
  destruct (spells_head _ _ Hw) as (d & t & -> & Hd).
  destruct ws; cbn [join]; eexists d, _; (split; [reflexivity|exact Hd]).
Qed.

Theorem path_parse_iff s cs : path_parse s = Ok cs <-> spells_path s cs.
Proof.
  unfold path_parse, spells_path.
  destruct (is_empty s) eqn:Es.
  { destruct s; [|discriminate]. split; [discriminate|].
    intros [[[H|H] _]|(pre & comps & Hp & Hne & E & H)]; try discriminate.
    destruct (join_head _ _ Hne H) as (d & t & J & _). rewrite J in E.
    destruct Hp as [-> | [-> | ->]]; discriminate. }
  destruct (str_eqb s (lit "m") || str_eqb s (lit "M")) eqn:Em.
  { assert (Hm : s = lit "m" \/ s = lit "M").
    { apply orb_true_iff in Em as [E|E]; apply str_eqb_eq in E; auto. }
    split.
    - intros [= <-]. left. auto.
    - intros [[_ ->]|(pre & comps & Hp & Hne & E & H)]; [reflexivity|]. exfalso.
      destruct (join_head _ _ Hne H) as (d & t & J & Hd). rewrite J in E.
      destruct Hp as [-> | [-> | ->]]; destruct Hm as [-> | ->]; cbn in E;
        try discriminate E; injection E as E; subst; unfold is_digit in Hd; try lia; discriminate. }
  assert (Hm : s <> lit "m" /\ s <> lit "M").
  { apply orb_false_iff in Em as [E1 E2]. split; intros ->; discriminate. }
  assert (R : exists pre rest,
    (match strip_prefix (lit "m/") s with
      | Some s => s
      | None => match strip_prefix (lit "M/") s with Some s => s | None => s end
      end) = rest /\ s = pre ++ rest /\ (pre = [] \/ pre = lit "m/" \/ pre = lit "M/") /\
    (pre = [] -> forall t, s <> lit "m/" ++ t /\ s <> lit "M/" ++ t)).
  { destruct (strip_prefix (lit "m/") s) as [t|] eqn:E1.
    { apply strip_prefix_some in E1. exists (lit "m/"), t. repeat split; auto; discriminate. }
    destruct (strip_prefix (lit "M/") s) as [t|] eqn:E2.
    { apply strip_prefix_some in E2. exists (lit "M/"), t. repeat split; auto; discriminate. }
    exists [], s. rewrite strip_prefix_none in E1, E2. split; [reflexivity|]. split; [reflexivity|].
    split; [auto|]. intros _ t. auto. }
  destruct R as (pre & rest & -> & Epre & Hpre & Hnone).
  destruct (is_empty rest) eqn:Er.
  { destruct rest; [|discriminate]. split; [discriminate|]. intros C. exfalso.
    rewrite app_nil_r in Epre. subst s. destruct C as [[[C|C] _]|(p & comps & Hp & Hne & E & H)].
    - elim (proj1 Hm C).
    - elim (proj2 Hm C).
    - destruct (join_head _ _ Hne H) as (d & t & J & Hd). rewrite J in E.
      destruct Hpre as [-> | [-> | ->]]; destruct Hp as [-> | [-> | ->]]; cbn in E;
        try discriminate E; injection E as E; subst; unfold is_digit in Hd; try lia; discriminate. }
  rewrite parse_parts_ok. cbn [app].
  assert (Hr : rest <> []) by (destruct rest; [discriminate|discriminate]).
  split.
  - intros (more & -> & H). right. exists pre. apply split_spells in H; [|exact Hr].
    destruct H as (comps & Hne & -> & H). exists comps. auto.
  - intros [[[C|C] _]|(p & comps & Hp & Hne & E & H)].
    + elim (proj1 Hm C).
    + elim (proj2 Hm C).
    + exists cs. split; [reflexivity|]. apply split_spells; [exact Hr|].
      exists comps. split; [exact Hne|]. split; [|exact H].
      destruct (join_head _ _ Hne H) as (d & t & J & Hd).
      (* both prefixes coincide *)
      rewrite Epre in E. rewrite J in E. rewrite J. clear J H.
      destruct Hpre as [-> | [-> | ->]]; destruct Hp as [-> | [-> | ->]]; cbn [app] in E; try exact E.
      * exfalso. apply (proj1 (Hnone eq_refl (d :: t))). rewrite Epre. exact E.
      * exfalso. apply (proj2 (Hnone eq_refl (d :: t))). rewrite Epre. exact E.
      * exfalso. cbn in E. injection E as <- _. unfold is_digit in Hd. lia.
      * cbn in E. injection E as E. exact E.
      * exfalso. discriminate.
      * exfalso. cbn in E. injection E as <- _. unfold is_digit in Hd. lia.
      * exfalso. discriminate.
      * cbn in E. injection E as E. exact E.
Qed.

Lemma path_parse_err s e : path_parse s = Err e -> e_kind e = InvalidPath.
Proof.
  unfold path_parse. destruct (is_empty s); [intros [= <-]; reflexivity|].
  destruct (_ || _); [discriminate|]. cbv zeta.
  destruct (is_empty _); [intros [= <-]; reflexivity|]. apply parse_parts_err.
Qed.

Lemma path_parse_no_panic s : path_parse s <> Panic.
Proof.
  unfold path_parse. destruct (is_empty s); [discriminate|].
  destruct (_ || _); [discriminate|]. cbv zeta.
  destruct (is_empty _); [discriminate|]. apply parse_parts_no_panic.
Qed.

(** ** Rendering *)
Lemma child_show_spells c : c < 2 ^ 32 -> spells_child (child_show c) c.
Proof.
  intros H. destruct (child_parts c H) as [E Hi].
  exists (child_index c), (child_is_hardened c). split; [|exact E].
  destruct (dec_spec (child_index c)) as (D1 & D2 & D3).
  exists [], (dec (child_index c)), (if child_is_hardened c then lit "'" else []).
  repeat split; auto. destruct (child_is_hardened c); auto.
Qed.

Lemma path_show_eq p :
  path_show p = match p with [] => lit "m" | _ => lit "m/" ++ join (lit "/") (map child_show p) end.
Proof.
  assert (G : forall p out, fold_left (fun out c => out ++ lit "/" ++ child_show c) p out =
     out ++ match p with [] => [] | _ => lit "/" ++ join (lit "/") (map child_show p) end).
  { clear p. induction p as [|c p IH]; intros out; cbn [fold_left].
    - rewrite app_nil_r. reflexivity.
    - rewrite IH. destruct p as [|d p].
      + cbn [map join]. rewrite app_nil_r. reflexivity.
      + cbn [map join]. rewrite <- !app_assoc. reflexivity. }
  unfold path_show. rewrite G. destruct p; reflexivity.
Qed.

Lemma path_show_spells p : Forall (fun c => c < 2 ^ 32) p -> spells_path (path_show p) p.
Proof.
  intros H. rewrite path_show_eq. destruct p as [|c p].
  - left. auto.
  - right. exists (lit "m/"), (map child_show (c :: p)).
    split; [auto|]. split; [discriminate|]. split; [reflexivity|].
    clear -H. induction H; cbn [map]; constructor; [apply child_show_spells; assumption|assumption].
Qed.

Lemma spells_child_bound s c : spells_child s c -> c < 2 ^ 32.
Proof.
  intros (i & h & (plus & ds & suf & _ & _ & _ & _ & _ & Hi & _) & ->).
  change (2 ^ 31) with 2147483648 in *. change (2 ^ 32) with 4294967296. destruct h; lia.
Qed.

Lemma spells_path_bound s p : spells_path s p -> Forall (fun c => c < 2 ^ 32) p.
Proof.
  intros [[_ ->]|(pre & comps & _ & _ & _ & H)]; [constructor|].
  induction H; constructor; [eapply spells_child_bound; eassumption|assumption].
Qed.

(** Rendering characters *)
Lemma child_show_chars c : Forall (fun x => is_digit x \/ x = 39) (child_show c).
Proof.
  unfold child_show. destruct (dec_spec (child_index c)) as (_ & D & _).
  apply Forall_app. split; [eapply Forall_impl; [|exact D]; auto|].
  destruct (child_is_hardened c); [|constructor]. constructor; [right; reflexivity|constructor].
Qed.

Lemma path_show_chars p : exists t, path_show p = 109 :: t /\ Forall (fun x => is_digit x \/ x = 39 \/ x = 47) t.
Proof.
  rewrite path_show_eq. destruct p as [|c p]; [exists []; split; [reflexivity|constructor]|].
  exists (47 :: join (lit "/") (map child_show (c :: p))). split; [reflexivity|].
  constructor; [auto|]. generalize (c :: p) as l. clear. induction l as [|c l IH]; [constructor|].
  assert (H1 : Forall (fun x => is_digit x \/ x = 39 \/ x = 47) (child_show c)).
  { eapply Forall_impl; [|apply child_show_chars]. cbn. intros a [H|H]; auto. }
  destruct l as [|d l]; [exact H1|]. cbn [map join] in IH |- *.
  apply Forall_app. split; [exact H1|]. constructor; [auto|exact IH].
Qed.

(** ** Hardened-only types *)
Lemma find_none_forall (p : list N) :
  find (fun c => negb (child_is_hardened c)) p = None <-> Forall (fun c => child_is_hardened c = true) p.
Proof.
  induction p as [|c p IH]; cbn [find].
  - split; auto.
  - destruct (child_is_hardened c) eqn:E; cbn [negb].
    + rewrite IH. split; [intros H; constructor; assumption|intros H; inversion H; assumption].
    + split; [discriminate|]. intros H. inversion H. congruence.
Qed.

Lemma find_some_first (p : list N) c :
  find (fun c => negb (child_is_hardened c)) p = Some c <->
  exists a b, p = a ++ c :: b /\ Forall (fun c => child_is_hardened c = true) a /\ child_is_hardened c = false.
Proof.
  induction p as [|d p IH]; cbn [find].
  - split; [discriminate|]. intros (a & b & E & _). destruct a; discriminate.
  - destruct (child_is_hardened d) eqn:E; cbn [negb].
    + rewrite IH. split.
      * intros (a & b & -> & Ha & Hc). exists (d :: a), b. auto.
      * intros (a & b & E' & Ha & Hc). destruct a as [|x a].
        { cbn in E'. injection E' as -> ->. congruence. }
        cbn in E'. injection E' as -> ->. inversion Ha. eauto.
    + split.
      * intros [= ->]. exists [], p. auto.
      * intros (a & b & E' & Ha & Hc). destruct a as [|x a].
        { cbn in E'. congruence. }
        cbn in E'. injection E' as -> ->. inversion Ha. congruence.
Qed.

Lemma hchildren_ok {E : Type} dbg l : Forall (fun c => child_is_hardened c = true) l ->
  hchildren (E := E) dbg l = Ok (map mkHC l).
Proof.
  induction 1 as [|c l Hc Hl IH]; [reflexivity|].
  cbn [hchildren map]. unfold from_child_unchecked. rewrite Hc, andb_false_r. cbn [bind].
  rewrite IH. reflexivity.
Qed.
