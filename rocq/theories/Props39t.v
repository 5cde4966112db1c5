(** C98: what branches and addresses reveal while a phrase is encoded or decoded. *)
From Verif Require Import Base Sha2 Str Unicode UnicodeTables UnicodeProofs StrProofs BitAcc Language39 Builtin39 Mnemonic39
  Spec39 LangSpec39 LangProofs EncProofs DecProofs MnemonicProofs Eqb39 Trace39 Props39.

(** ** Same results *)
Lemma snd_tbind {A C} (m : tres A) (f : A -> tres C) r (g : A -> res err39 C) :
  snd m = r -> (forall a, snd (f a) = g a) -> snd (tbind m f) = bind r g.
Proof.
  intros <- H. destruct m as [t [a|e|]]; cbn [tbind snd bind]; [|reflexivity..].
  rewrite <- (H a). destruct (f a). reflexivity.
Qed.
Lemma snd_emit {C} e (f : unit -> tres C) : snd (tbind (emit e) f) = snd (f tt).
Proof. cbn. destruct (f tt). reflexivity. Qed.
Lemma snd_lift {A C} (r : res err39 A) (f : A -> tres C) g : (forall a, snd (f a) = g a) -> snd (tbind (tlift r) f) = bind r g.
Proof. intros H. apply snd_tbind; [reflexivity|exact H]. Qed.

(** Events do not change the result, however many there are. *)
Ltac run := repeat rewrite snd_emit.
Lemma enc_push_index_same L i p : snd (enc_push_index_t L i p) = enc_push_index L i p.
Proof. unfold enc_push_index_t, enc_push_index. run. destruct (any_word_of L i); reflexivity. Qed.
Lemma enc_drain_same line L fuel : forall a p, snd (enc_drain_t line L fuel a p) = enc_drain L fuel a p.
Proof.
  induction fuel as [|fuel IH]; intros a p; [reflexivity|]. cbn [enc_drain_t enc_drain]. run.
  destruct (can_take a BITS_PER_WORD); [|reflexivity]. run; apply snd_lift. intros [i a'].
  run; apply snd_tbind; [apply enc_push_index_same|]. intros p'. run; apply IH.
Qed.
Lemma enc_bytes_same L e : forall a p, snd (enc_bytes_t L e a p) = enc_bytes L e a p.
Proof.
  induction e as [|b e IH]; intros a p; [reflexivity|]. cbn [enc_bytes_t enc_bytes]. run.
  run; apply snd_lift. intros a1. run; apply snd_tbind; [apply enc_drain_same|]. intros [a2 p2]. run; apply IH.
Qed.
Lemma drain_bytes_same fuel : forall s, snd (drain_bytes_t fuel s) = drain_bytes fuel s.
Proof.
  induction fuel as [|fuel IH]; intros s; [reflexivity|]. cbn [drain_bytes_t drain_bytes]. cbv zeta. run.
  destruct (_ && _); [|reflexivity]. run; apply snd_lift. intros [v a']. run; apply snd_lift. intros ent. run; apply IH.
Qed.
Lemma drain_checksum_same fuel : forall s, snd (drain_checksum_t fuel s) = drain_checksum fuel s.
Proof.
  induction fuel as [|fuel IH]; intros s; [reflexivity|]. cbn [drain_checksum_t drain_checksum]. cbv zeta. run.
  destruct (_ && _); [|reflexivity]. run; apply snd_lift. intros [v a']. run; apply IH.
Qed.
Lemma dec_push_index_same s i : snd (dec_push_index_t s i) = dec_push_index s i.
Proof.
  unfold dec_push_index_t, dec_push_index. run; apply snd_lift. intros a. cbv zeta. run; apply snd_tbind; [apply drain_bytes_same|]. intros s2. run; apply drain_checksum_same.
Qed.
Lemma dec_finish_same s : snd (dec_finish_t s) = dec_finish s.
Proof.
  unfold dec_finish_t, dec_finish. run.
  destruct (negb _); [reflexivity|]. destruct (negb _); [reflexivity|]. destruct (negb _); [reflexivity|].
  run. reflexivity.
Qed.
Lemma decode_words_same L ws : forall norm s, snd (decode_words_t L ws norm s) = decode_words L ws norm s.
Proof.
  induction ws as [|w ws IH]; intros norm s; [reflexivity|]. cbn [decode_words_t decode_words]. run.
  set (norm' := match norm with None => None | Some out => Some ((if is_empty out then out else out ++ [32]) ++ w) end).
  rewrite (snd_tbind _ _ (Ok norm') (fun norm' => match any_index_of L w with None => Err (UnknownWord w)
     | Some i => bind (dec_push_index s i) (fun s' => decode_words L ws norm' s') end)); [reflexivity|destruct norm; reflexivity|].
  intros n. run. destruct (any_index_of L w) as [i|]; [|reflexivity]. run.
  run; apply snd_tbind; [apply dec_push_index_same|]. intros s'. run; apply IH.
Qed.

Theorem C98_same_results B L e s mode :
  snd (encode_t B L e) = encode_entropy_with B L e /\
  snd (decode_t L s mode) = decode_phrase_with L s mode.
Proof.
  split.
  - unfold encode_t, encode_entropy_with. run; apply snd_lift. intros size. run. run; apply snd_lift. intros count.
    run. cbv zeta. run; apply snd_tbind; [apply enc_bytes_same|]. intros [a p]. run; apply snd_lift. intros a1.
    run; apply snd_tbind; [apply enc_drain_same|]. intros [a2 p2]. run. reflexivity.
  - unfold decode_t, decode_phrase_with. run. run; apply snd_lift. intros params. run. cbv zeta.
    run; apply snd_tbind; [apply decode_words_same|]. intros [n st]. run; apply snd_tbind; [run; apply dec_finish_same|]. intros ent. run. reflexivity.
Qed.
Print Assumptions C98_same_results.

(** ** Control flow *)
Definition sim {A} (R : A -> A -> Prop) (m1 m2 : tres A) : Prop :=
  control (fst m1) = control (fst m2) /\
  match snd m1, snd m2 with
  | Ok a, Ok b => R a b
  | Err _, Err _ => True
  | Panic, Panic => True
  | _, _ => False
  end.
Lemma sim_bind {A C} (R : A -> A -> Prop) (Q : C -> C -> Prop) m1 m2 f1 f2 :
  sim R m1 m2 -> (forall a b, R a b -> sim Q (f1 a) (f2 b)) -> sim Q (tbind m1 f1) (tbind m2 f2).
Proof.
  intros [H1 H2] F. destruct m1 as [t1 r1], m2 as [t2 r2]. cbn [fst snd] in *.
  destruct r1 as [a|e|], r2 as [b|e'|]; try contradiction; cbn [tbind]; [|split; [exact H1|exact H2]..].
  specialize (F a b H2) as [F1 F2]. destruct (f1 a) as [u1 q1], (f2 b) as [u2 q2]. cbn [fst snd] in *.
  split; [|exact F2]. cbn [fst]. unfold control in *. rewrite !map_app. congruence.
Qed.
Lemma sim_emit {C} (Q : C -> C -> Prop) e1 e2 f1 f2 : control_of e1 = control_of e2 -> sim Q (f1 tt) (f2 tt) ->
  sim Q (tbind (emit e1) f1) (tbind (emit e2) f2).
Proof.
  intros H F. apply (sim_bind eq); [split; [cbn; congruence|reflexivity]|]. intros [] [] _. exact F.
Qed.
Lemma sim_lift {A} (R : A -> A -> Prop) r1 r2 : sim R (tlift r1) (tlift r2) <->
  match r1, r2 with Ok a, Ok b => R a b | Err _, Err _ => True | Panic, Panic => True | _, _ => False end.
Proof. unfold sim. cbn. tauto. Qed.

Definition bsim (a b : bitacc) : Prop := ba_bits a = ba_bits b.
Definition psim (p q : str) : Prop := is_empty p = is_empty q.

Lemma push_sim a b v w n : bsim a b -> sim bsim (tlift (push_bits a v n)) (tlift (push_bits b w n)).
Proof.
  intros H. apply sim_lift. unfold push_bits, bsim in *. rewrite <- H.
  destruct (56 <? n); [exact I|]. destruct (2 ^ 32 <=? ba_bits a + n); [exact I|]. reflexivity.
Qed.
Lemma take_sim a b n : bsim a b ->
  sim (fun x y => bsim (snd x) (snd y) /\ fst x < 2 ^ n /\ fst y < 2 ^ n) (tlift (take_bits a n)) (tlift (take_bits b n)).
Proof.
  intros H. apply sim_lift. unfold take_bits, bsim in *. rewrite <- H.
  destruct (ba_bits a <? n); [exact I|]. destruct (_ || _); [exact I|]. cbn [fst snd ba_bits]. split; [reflexivity|].
  rewrite N.shiftl_1_l, <- N.pred_sub, <- N.ones_equiv, !N.land_ones. split; apply N.mod_lt; apply N.pow_nonzero; lia.
Qed.

Definition full (L : AnyLanguage) : Prop := forall i, i < 2048 -> exists w, any_word_of L i = Some w /\ w <> [].

Lemma app_nonempty {A} (p : list A) w : w <> [] -> is_empty (p ++ w) = false.
Proof. intros H. destruct p; [|reflexivity]. destruct w; [contradiction|reflexivity]. Qed.

Lemma enc_push_sim L i j p q : full L -> i < 2048 -> j < 2048 -> psim p q ->
  sim psim (enc_push_index_t L i p) (enc_push_index_t L j q).
Proof.
  intros HL Hi Hj H. unfold enc_push_index_t. apply sim_emit; [unfold psim in H; rewrite H; reflexivity|].
  apply sim_emit; [reflexivity|].
  destruct (HL i Hi) as [w [-> Hw]], (HL j Hj) as [v [-> Hv]].
  apply sim_emit; [reflexivity|]. apply sim_lift. unfold psim. rewrite !app_nonempty by assumption. reflexivity.
Qed.
Definition apsim (x y : bitacc * str) : Prop := bsim (fst x) (fst y) /\ psim (snd x) (snd y).
Lemma enc_drain_sim line L fuel : full L -> forall a b p q, bsim a b -> psim p q ->
  sim apsim (enc_drain_t line L fuel a p) (enc_drain_t line L fuel b q).
Proof.
  intros HL. induction fuel as [|fuel IH]; intros a b p q Ha Hp; [split; [reflexivity|exact I]|]. cbn [enc_drain_t].
  assert (HC : can_take a BITS_PER_WORD = can_take b BITS_PER_WORD) by (unfold can_take; rewrite Ha; reflexivity).
  rewrite HC. apply sim_emit; [reflexivity|]. destruct (can_take b BITS_PER_WORD).
  - eapply sim_bind; [apply take_sim; exact Ha|]. intros [i a'] [j b'] [Hb [Hi Hj]]. cbn [fst snd] in *.
    eapply sim_bind; [apply enc_push_sim; assumption|]. intros p' q' Hp'. apply IH; assumption.
  - apply sim_lift. split; assumption.
Qed.
Lemma enc_bytes_sim L : full L -> forall e1 e2 a b p q, length e1 = length e2 -> bsim a b -> psim p q ->
  sim apsim (enc_bytes_t L e1 a p) (enc_bytes_t L e2 b q).
Proof.
  intros HL. induction e1 as [|x e1 IH]; intros [|y e2] a b p q Hl Ha Hp; try discriminate; cbn [enc_bytes_t].
  - split; [reflexivity|]. split; assumption.
  - apply sim_emit; [reflexivity|]. eapply sim_bind; [apply push_sim; exact Ha|]. intros a1 b1 H1.
    unfold bsim in H1. rewrite H1. eapply sim_bind; [apply enc_drain_sim; assumption|].
    intros [a2 p2] [b2 q2] [H2 H3]. apply IH; [injection Hl; auto|assumption|assumption].
Qed.

(** The control flow of encoding depends on nothing but the length of the entropy. *)
Theorem C98_encode_control B L e1 e2 :
  (forall i, i < 2048 -> exists w, lang_word_of L i = Some w /\ w <> []) ->
  length e1 = length e2 ->
  control (fst (encode_t B (any_of L) e1)) = control (fst (encode_t B (any_of L) e2)).
Proof.
  intros HF HE. assert (HL : full (any_of L)) by exact HF.
  assert (G : sim (fun _ _ => True) (encode_t B (any_of L) e1) (encode_t B (any_of L) e2)); [|apply G].
  unfold encode_t. rewrite HE.
  eapply (sim_bind eq); [apply sim_lift; destruct (mul_usize _ _ _); auto|]. intros size ? <-.
  apply sim_emit; [reflexivity|].
  eapply (sim_bind eq); [apply sim_lift; destruct (from_key_size _); auto|]. intros count ? <-.
  apply sim_emit; [reflexivity|]. cbv zeta.
  eapply sim_bind; [apply enc_bytes_sim; try assumption; reflexivity|]. intros [a p] [b q] [Ha Hp].
  eapply sim_bind; [apply push_sim; exact Ha|]. intros a1 b1 H1. unfold bsim in H1. rewrite H1.
  eapply sim_bind; [apply enc_drain_sim; assumption|]. intros [a2 p2] [b2 q2] [H2 H3]. cbn [fst snd] in *.
  unfold bsim in H2. rewrite H2. apply sim_emit; [reflexivity|]. apply sim_lift. destruct (_ && _); exact I.
Qed.
Print Assumptions C98_encode_control.

(** ** Addresses *)
(** What the events of a successful part of encoding say about the phrase it extends. *)
Definition told (L : AnyLanguage) (t : trace) (p p' : str) : Prop :=
  exists ws, Forall2 (fun i w => any_word_of L i = Some w) (addresses t) ws /\ Forall (fun i => i < 2048) (addresses t) /\
    copies t = map (fun w => length (utf8 w)) ws /\ p' = fold_left push_word ws p.
Lemma told_app L t u p q r : told L t p q -> told L u q r -> told L (t ++ u) p r.
Proof.
  intros (ws & F & B & C & ->) (vs & F' & B' & C' & ->). exists (ws ++ vs). unfold addresses, copies in *.
  rewrite !flat_map_app. split; [apply Forall2_app; assumption|]. split; [apply Forall_app; split; assumption|].
  split; [rewrite map_app; congruence|]. rewrite fold_left_app. reflexivity.
Qed.
Lemma told_nil L p t : addresses t = [] -> copies t = [] -> told L t p p.
Proof. intros Ha Hc. exists []. rewrite Ha, Hc. split; [constructor|]. split; [constructor|]. split; reflexivity. Qed.

Lemma tbind_ok {A C} (m : tres A) (f : A -> tres C) c : snd (tbind m f) = Ok c ->
  exists a, snd m = Ok a /\ snd (f a) = Ok c /\ fst (tbind m f) = fst m ++ fst (f a).
Proof.
  destruct m as [t [a|e|]]; cbn [tbind snd]; [|discriminate..]. destruct (f a) as [u q] eqn:E. cbn [fst snd].
  intros H. exists a. rewrite E. auto.
Qed.
Lemma told_emit {C} L e (f : unit -> tres C) c p q :
  addresses [e] = [] -> copies [e] = [] -> snd (tbind (emit e) f) = Ok c ->
  (snd (f tt) = Ok c -> told L (fst (f tt)) p q) -> told L (fst (tbind (emit e) f)) p q.
Proof.
  intros Ha Hc H G. apply tbind_ok in H as [[] [_ [H ->]]]. eapply told_app; [apply told_nil; eassumption|]. auto.
Qed.

Lemma enc_push_told L i p p' : i < 2048 -> snd (enc_push_index_t L i p) = Ok p' -> told L (fst (enc_push_index_t L i p)) p p'.
Proof.
  intros Hi H. unfold enc_push_index_t in *. destruct (any_word_of L i) as [w|] eqn:E; cbn in H; [|discriminate].
  exists [w]. cbn. split; [constructor; [exact E|constructor]|]. split; [repeat constructor; exact Hi|].
  split; [reflexivity|]. unfold push_word. congruence.
Qed.
Lemma take_bound a n v a' : take_bits (E := err39) a n = Ok (v, a') -> v < 2 ^ n.
Proof.
  unfold take_bits. destruct (ba_bits a <? n); [discriminate|]. destruct (_ || _); [discriminate|].
  intros H. assert (v = N.land (N.shiftr (ba_acc a) (ba_bits a - n)) (N.shiftl 1 n - 1)) as -> by congruence.
  rewrite N.shiftl_1_l, <- N.pred_sub, <- N.ones_equiv, N.land_ones. apply N.mod_lt, N.pow_nonzero. lia.
Qed.
Lemma enc_drain_told line L fuel : forall a p a' p', snd (enc_drain_t line L fuel a p) = Ok (a', p') ->
  told L (fst (enc_drain_t line L fuel a p)) p p'.
Proof.
  induction fuel as [|fuel IH]; intros a p a' p' H; [discriminate|]. cbn [enc_drain_t] in *.
  eapply told_emit; [reflexivity|reflexivity|exact H|]. clear H. destruct (can_take a BITS_PER_WORD); intros H.
  - apply tbind_ok in H as [[i b] [H1 [H ->]]]. apply told_app with (q := p); [apply told_nil; reflexivity|].
    apply tbind_ok in H as [q [H2 [H ->]]]. apply told_app with (q := q).
    + apply enc_push_told; [|exact H2]. eapply take_bound in H1. exact H1.
    + eapply IH. exact H.
  - cbn in H. assert (p = p') as <- by congruence. apply told_nil; reflexivity.
Qed.
Lemma enc_bytes_told L e : forall a p a' p', snd (enc_bytes_t L e a p) = Ok (a', p') ->
  told L (fst (enc_bytes_t L e a p)) p p'.
Proof.
  induction e as [|b e IH]; intros a p a' p' H; cbn [enc_bytes_t] in *.
  - cbn in H. assert (p = p') as <- by congruence. apply told_nil; reflexivity.
  - eapply told_emit; [reflexivity|reflexivity|exact H|]. clear H. intros H.
    apply tbind_ok in H as [a1 [H1 [H ->]]]. apply told_app with (q := p); [apply told_nil; reflexivity|].
    apply tbind_ok in H as [[a2 p2] [H2 [H ->]]]. apply told_app with (q := p2).
    + eapply enc_drain_told. exact H2.
    + eapply IH. exact H.
Qed.
Lemma encode_told B L e p : snd (encode_t B L e) = Ok p -> told L (fst (encode_t B L e)) [] p.
Proof.
  unfold encode_t. intros H.
  apply tbind_ok in H as [size [_ [H ->]]]. apply told_app with (q := []); [apply told_nil; reflexivity|].
  eapply told_emit; [reflexivity|reflexivity|exact H|]. clear H. intros H.
  apply tbind_ok in H as [c [_ [H ->]]]. apply told_app with (q := []); [apply told_nil; reflexivity|].
  eapply told_emit; [reflexivity|reflexivity|exact H|]. clear H. cbv zeta. intros H.
  apply tbind_ok in H as [[a q] [H1 [H ->]]]. apply told_app with (q := q); [eapply enc_bytes_told; exact H1|].
  apply tbind_ok in H as [a1 [_ [H ->]]]. apply told_app with (q := q); [apply told_nil; reflexivity|].
  apply tbind_ok in H as [[a2 r] [H2 [H ->]]]. apply told_app with (q := r); [eapply enc_drain_told; exact H2|].
  eapply told_emit; [reflexivity|reflexivity|exact H|]. clear H. intros H. cbn in H.
  destruct (_ && _); [discriminate|]. assert (r = p) as <- by congruence. apply told_nil; reflexivity.
Qed.

(** The addresses of the words read while encoding are the BIP-0039 indices of the entropy, in order;
    the numbers of bytes copied are the lengths of the words. *)
Theorem C98_addresses U B L e :
  ucd_ok U -> lang_contract U L -> valid_build B -> legal_entropy_len (length e) ->
  let t := fst (encode_t B (any_of L) e) in
  bip39_indices e (addresses t) /\
  exists m, from_entropy B L e = Ok m /\ copies t = map (fun w => length (utf8 w)) (split_whitespace (phrase m)).
Proof.
  intros HU LC HB HL t. destruct (from_entropy_words U _ LC B e HB HL) as [idxs [ws [HI [F [Fin [_ E]]]]]].
  assert (EP : encode_entropy_with B (any_of L) e = Ok (join [32] ws)).
  { unfold from_entropy, encode_entropy in E. destruct (encode_entropy_with B (any_of L) e) as [p| |]; cbn [bind] in E; [|discriminate..].
    f_equal. apply (f_equal (fun r => match r with Ok x => phrase x | _ => [] end)) in E. exact E. }
  assert (ET : snd (encode_t B (any_of L) e) = Ok (join [32] ws)) by (rewrite (proj1 (C98_same_results B _ e [] ValidateOnly)); exact EP).
  destruct (encode_told B (any_of L) e _ ET) as (vs & Fv & Bv & Cv & Pv). fold t in Fv, Bv, Cv.
  change (Forall2 (fun i w => lang_word_of L i = Some w) (addresses t) vs) in Fv.
  pose proof (words_in_of_word_of U _ LC _ _ Bv Fv) as Vin.
  rewrite fold_push_word_nil in Pv by (apply (in_nonempty U _ LC); exact Vin).
  assert (vs = ws) as ->.
  { rewrite <- (split_join vs) by (apply (in_good U _ LC); exact Vin). rewrite <- Pv.
    apply split_join, (in_good U _ LC). exact Fin. }
  assert (EI : addresses t = idxs).
  { pose proof (index_of_words U _ LC _ _ Bv Fv) as F1. pose proof (index_of_words U _ LC _ _ (proj1 HI) F) as F2.
    clear - F1 F2. revert F2. generalize idxs as l. induction F1 as [|w i ws l' H F1 IH]; intros l F2; inversion F2; subst; [reflexivity|].
    f_equal; [congruence|]. apply IH. assumption. }
  rewrite EI. split; [exact HI|]. eexists. split; [exact E|]. cbn [phrase m_phrase].
  rewrite split_join by (apply (in_good U _ LC); exact Fin). exact Cv.
Qed.
Print Assumptions C98_addresses.

(** So encoding is not constant time for an observer of addresses: they determine the entropy. *)
Theorem C98_constant_addresses_refuted U B b :
  ucd_std U -> valid_build B ->
  (forall e1 e2, legal_entropy_len (length e1) -> legal_entropy_len (length e2) ->
     addresses (fst (encode_t B (any_of (language_of b)) e1)) = addresses (fst (encode_t B (any_of (language_of b)) e2)) ->
     e1 = e2) /\
  ~ (forall e1 e2, length e1 = length e2 ->
       addresses (fst (encode_t B (any_of (language_of b)) e1)) = addresses (fst (encode_t B (any_of (language_of b)) e2))).
Proof.
  intros HU HB. pose proof (builtin_contract U b HU) as LC.
  assert (INJ : forall e1 e2, legal_entropy_len (length e1) -> legal_entropy_len (length e2) ->
     addresses (fst (encode_t B (any_of (language_of b)) e1)) = addresses (fst (encode_t B (any_of (language_of b)) e2)) ->
     e1 = e2).
  { intros e1 e2 H1 H2 E.
    destruct (C98_addresses U B _ e1 (std_ok U HU) LC HB H1) as [I1 [m1 [E1 _]]].
    destruct (C98_addresses U B _ e2 (std_ok U HU) LC HB H2) as [I2 [m2 [E2 _]]].
    rewrite E in I1.
    destruct (from_entropy_words U _ LC B e1 HB H1) as [i1 [w1 [J1 [F1 [_ [_ P1]]]]]].
    destruct (from_entropy_words U _ LC B e2 HB H2) as [i2 [w2 [J2 [F2 [_ [_ P2]]]]]].
    assert (K1 : i1 = i2).
    { transitivity (addresses (fst (encode_t B (any_of (language_of b)) e2))); [|symmetry];
        eapply C03_indices_unique; eassumption. }
    subst i2. assert (w1 = w2) as <-.
    { clear - F1 F2. revert w2 F2. induction F1; intros w2 F2; inversion F2; subst; [reflexivity|]. f_equal; [congruence|auto]. }
    eapply (C12_injective U B b e1 e2); try eassumption. reflexivity. }
  split; [exact INJ|]. intros H.
  assert (E : repeat x00 16 = repeat xff 16); [|discriminate].
  apply INJ; [cbn; tauto|cbn; tauto|]. apply H. reflexivity.
Qed.
Print Assumptions C98_constant_addresses_refuted.

(** ** Decoding *)
Definition ssim (s t : DecodeState) : Prop :=
  d_params s = d_params t /\ d_out s = d_out t /\ d_cs_filled s = d_cs_filled t /\ bsim (d_acc s) (d_acc t) /\
  length (d_entropy s) = length (d_entropy t).

Lemma drain_bytes_sim fuel : forall s t, ssim s t -> sim ssim (drain_bytes_t fuel s) (drain_bytes_t fuel t).
Proof.
  induction fuel as [|fuel IH]; intros s t H; [split; [reflexivity|exact I]|]. cbn [drain_bytes_t]. cbv zeta.
  pose proof H as (Hp & Ho & Hc & Ha & He).
  assert (HC : (d_out s <? p_entropy_len (d_params s)) && can_take (d_acc s) BITS_PER_BYTE =
               (d_out t <? p_entropy_len (d_params t)) && can_take (d_acc t) BITS_PER_BYTE)
    by (unfold can_take; rewrite Hp, Ho, Ha; reflexivity).
  rewrite HC. clear HC. apply sim_emit; [reflexivity|]. cbv beta.
  lazymatch goal with |- context [if ?c then _ else _] => destruct c end; [|apply sim_lift; exact H].
  eapply sim_bind; [apply take_sim; exact Ha|]. intros [v a] [w b] [Hb _].
  apply (sim_bind (fun x y => length x = length y)).
  - apply sim_lift. unfold set_at. rewrite Ho, He. destruct (_ <? _)%nat; [|exact I]. rewrite !upd_length. exact He.
  - intros x y Hxy. apply IH. unfold ssim. cbn [d_params d_entropy d_out d_acc d_cs d_cs_filled]. rewrite Ho. auto.
Qed.
Lemma drain_checksum_sim fuel : forall s t, ssim s t -> sim ssim (drain_checksum_t fuel s) (drain_checksum_t fuel t).
Proof.
  induction fuel as [|fuel IH]; intros s t H; [split; [reflexivity|exact I]|]. cbn [drain_checksum_t]. cbv zeta.
  pose proof H as (Hp & Ho & Hc & Ha & He).
  assert (HC : (d_out s =? p_entropy_len (d_params s)) && (d_cs_filled s <? p_cs_len (d_params s)) && can_take (d_acc s) 1 =
               (d_out t =? p_entropy_len (d_params t)) && (d_cs_filled t <? p_cs_len (d_params t)) && can_take (d_acc t) 1)
    by (unfold can_take; rewrite Hp, Ho, Ha, Hc; reflexivity).
  rewrite HC. clear HC. apply sim_emit; [reflexivity|]. cbv beta.
  lazymatch goal with |- context [if ?c then _ else _] => destruct c end; [|apply sim_lift; exact H].
  eapply sim_bind; [apply take_sim; exact Ha|]. intros [v a] [w b] [Hb _].
  apply IH. unfold ssim. cbn [d_params d_entropy d_out d_acc d_cs d_cs_filled]. rewrite Hc. auto.
Qed.
Lemma dec_push_sim s t i j : ssim s t -> sim ssim (dec_push_index_t s i) (dec_push_index_t t j).
Proof.
  intros (Hp & Ho & Hc & Ha & He). unfold dec_push_index_t. cbv zeta.
  eapply sim_bind; [apply push_sim; exact Ha|]. intros a b H1. pose proof H1 as H1'. unfold bsim in H1'. rewrite H1'.
  eapply sim_bind; [apply drain_bytes_sim|intros s2 t2 H2; apply drain_checksum_sim; exact H2].
  unfold ssim. cbn [d_params d_entropy d_out d_acc d_cs d_cs_filled]. auto.
Qed.

(** [k] is the position of the first word that is not in the list. *)
Definition first_unknown (L : AnyLanguage) (ws : list str) (k : nat) : Prop :=
  exists p w q, ws = p ++ w :: q /\ length p = k /\ Forall (fun v => any_index_of L v <> None) p /\ any_index_of L w = None.

Definition nsim (x y : option str) : Prop :=
  match x, y with None, None => True | Some p, Some q => psim p q | _, _ => False end.

Lemma fu_head L w ws : first_unknown L (w :: ws) 0 <-> any_index_of L w = None.
Proof.
  split.
  - intros (p & v & q & H & Hp & _ & Hv). destruct p; [|discriminate]. cbn [app] in H. congruence.
  - intros H. exists [], w, ws. repeat split; [constructor|exact H].
Qed.
Lemma fu_tail L w ws k : any_index_of L w <> None -> first_unknown L (w :: ws) (S k) <-> first_unknown L ws k.
Proof.
  intros Hw. split.
  - intros (p & v & q & H & Hp & F & Hv). destruct p as [|u p]; [discriminate|]. cbn [app] in H. inversion F; subst.
    exists p, v, q. split; [congruence|]. split; [injection Hp; auto|]. split; assumption.
  - intros (p & v & q & -> & Hp & F & Hv). exists (w :: p), v, q. split; [reflexivity|].
    split; [cbn [length]; congruence|]. split; [constructor; assumption|exact Hv].
Qed.

Lemma decode_words_sim L : forall ws vs n m s t,
  length ws = length vs -> Forall (fun w => w <> []) ws -> Forall (fun w => w <> []) vs ->
  (forall k, first_unknown L ws k <-> first_unknown L vs k) -> nsim n m -> ssim s t ->
  sim (fun x y => ssim (snd x) (snd y)) (decode_words_t L ws n s) (decode_words_t L vs m t).
Proof.
  induction ws as [|w ws IH]; intros [|v vs] n m s t Hl Fw Fv FU Hn Hs; try discriminate; cbn [decode_words_t].
  { split; [reflexivity|exact Hs]. }
  inversion Fw as [|? ? Hw Fw']; inversion Fv as [|? ? Hv Fv']; subst.
  apply sim_emit; [reflexivity|]. apply (sim_bind nsim).
  - destruct n as [p|], m as [q|]; try contradiction; (apply sim_emit; [reflexivity|]).
    + cbn in Hn. apply sim_emit; [rewrite Hn; reflexivity|]. apply sim_emit; [reflexivity|]. apply sim_lift.
      cbn [nsim]. unfold psim. rewrite !app_nonempty by assumption. reflexivity.
    + apply sim_lift. exact I.
  - intros n' m' Hn'. apply sim_emit; [reflexivity|].
    pose proof (FU 0%nat) as F0. rewrite !fu_head in F0.
    destruct (any_index_of L w) as [i|] eqn:Ei, (any_index_of L v) as [j|] eqn:Ej.
    + apply sim_emit; [reflexivity|]. eapply sim_bind; [apply dec_push_sim; exact Hs|]. intros s' t' Hs'.
      apply IH; try assumption; [injection Hl; auto|]. intros k. specialize (FU (S k)).
      rewrite !fu_tail in FU by congruence. exact FU.
    + destruct F0 as [_ F0]. specialize (F0 eq_refl). discriminate.
    + destruct F0 as [F0 _]. specialize (F0 eq_refl). discriminate.
    + split; [reflexivity|exact I].
Qed.

Lemma finish_sim s t : ssim s t ->
  (dec_finish s = Err InvalidChecksum <-> dec_finish t = Err InvalidChecksum) ->
  control (fst (dec_finish_t s)) = control (fst (dec_finish_t t)).
Proof.
  intros (Hp & Ho & Hc & Ha & He) HE.
  assert (G : sim (fun _ _ => True) (dec_finish_t s) (dec_finish_t t)); [|apply G].
  unfold bsim in Ha. revert HE. unfold dec_finish_t, dec_finish. rewrite Hp, Ho, Hc, Ha, He. intros HE.
  apply sim_emit; [reflexivity|]. apply sim_emit; [reflexivity|]. apply sim_emit; [reflexivity|].
  destruct (negb _); [split; [reflexivity|exact I]|]. destruct (negb _); [split; [reflexivity|exact I]|].
  destruct (negb _); [split; [reflexivity|exact I]|]. apply sim_emit; [reflexivity|]. cbv zeta in HE.
  destruct (d_cs s =? _) eqn:E1, (d_cs t =? _) eqn:E2.
  - apply sim_emit; [reflexivity|]. apply sim_lift. exact I.
  - destruct HE as [_ HE]. specialize (HE eq_refl). discriminate.
  - destruct HE as [HE _]. specialize (HE eq_refl). discriminate.
  - apply sim_emit; [reflexivity|]. apply sim_lift. exact I.
Qed.

Lemma fst_ok {A C} t a (f : A -> tres C) : fst (tbind (t, Ok a) f) = t ++ fst (f a).
Proof. cbn. destruct (f a). reflexivity. Qed.
Lemma fst_lift {A C} a (f : A -> tres C) : fst (tbind (tlift (Ok a)) f) = fst (f a).
Proof. apply (fst_ok [] a f). Qed.
Lemma fst_emit {C} e (f : unit -> tres C) : fst (tbind (emit e) f) = e :: fst (f tt).
Proof. apply (fst_ok [e] tt f). Qed.
Lemma fst_last {A C} (m : tres A) (g : A -> C) : fst (tbind m (fun x => tlift (Ok (g x)))) = fst m.
Proof. destruct m as [t [a|e|]]; cbn; [rewrite app_nil_r|..]; reflexivity. Qed.
Lemma bind_ok_err {A C} (r : res err39 A) (g : A -> C) e : bind r (fun x => Ok (g x)) = Err e <-> r = Err e.
Proof. destruct r; cbn [bind]; split; intros H; discriminate || congruence. Qed.

(** The control flow of decoding depends on nothing but the mode, the number of words, the position
    of the first unknown word and whether the checksum is right. *)
Theorem C98_decode_control L s1 s2 mode :
  length (split_whitespace s1) = length (split_whitespace s2) ->
  (forall k, first_unknown L (split_whitespace s1) k <-> first_unknown L (split_whitespace s2) k) ->
  (decode_phrase_with L s1 mode = Err InvalidChecksum <-> decode_phrase_with L s2 mode = Err InvalidChecksum) ->
  control (fst (decode_t L s1 mode)) = control (fst (decode_t L s2 mode)).
Proof.
  intros HN HU HC. unfold decode_phrase_with, decode_t, parse_params_from_phrase, count_from_phrase in *. rewrite HN in *.
  destruct (from_word_count (N.of_nat (length (split_whitespace s2)))) as [c|e|]; [|reflexivity..].
  cbn [bind tlift] in *.
  set (par := {| p_entropy_len := _; p_cs_len := _; p_count := c |}) in *.
  set (norm := match mode with ValidateOnly => None | BuildNormalizedPhrase => Some [] end) in *.
  rewrite !fst_emit, !fst_lift, !fst_emit. fold norm.
  assert (SN : nsim norm norm) by (destruct mode; [exact I|reflexivity]).
  pose proof (decode_words_sim L (split_whitespace s1) (split_whitespace s2) norm norm (decode_state_new par) (decode_state_new par)
    HN (split_words_nonempty s1) (split_words_nonempty s2) HU SN
    (conj eq_refl (conj eq_refl (conj eq_refl (conj eq_refl eq_refl))))) as SW.
  pose proof (decode_words_same L (split_whitespace s1) norm (decode_state_new par)) as R1.
  pose proof (decode_words_same L (split_whitespace s2) norm (decode_state_new par)) as R2.
  destruct (decode_words_t L (split_whitespace s1) norm (decode_state_new par)) as [t1 r1].
  destruct (decode_words_t L (split_whitespace s2) norm (decode_state_new par)) as [t2 r2].
  destruct SW as [SC SR]. cbn [fst snd] in *. rewrite <- R1, <- R2 in HC. clear R1 R2.
  destruct r1 as [[n1 q1]|e1|], r2 as [[n2 q2]|e2|]; try contradiction.
  - cbn [bind snd] in HC, SR.
    assert (HF : dec_finish q1 = Err InvalidChecksum <-> dec_finish q2 = Err InvalidChecksum).
    { rewrite !bind_ok_err in HC. exact HC. }
    pose proof (finish_sim q1 q2 SR HF) as FS.
    rewrite !fst_ok. cbv beta iota.
    rewrite !fst_last. unfold control in *. cbn [map app]. rewrite !map_app. congruence.
  - cbn [tbind fst]. unfold control in *. cbn [map app]. congruence.
  - cbn [tbind fst]. unfold control in *. cbn [map app]. congruence.
Qed.
Print Assumptions C98_decode_control.

(** ** Work *)
Definition quiet (t : trace) : Prop := finds t = [] /\ hashes t = [].
Lemma quiet_app t u : quiet t -> quiet u -> quiet (t ++ u).
Proof. unfold quiet, finds, hashes. rewrite !flat_map_app. intros [-> ->] [-> ->]. split; reflexivity. Qed.
Lemma quiet_bind {A C} (m : tres A) (f : A -> tres C) : quiet (fst m) -> (forall a, quiet (fst (f a))) -> quiet (fst (tbind m f)).
Proof.
  intros H F. destruct m as [t [a|e|]]; cbn [tbind fst] in *; [|exact H..].
  specialize (F a). destruct (f a). cbn [fst] in *. apply quiet_app; assumption.
Qed.
Lemma quiet_lift {A} (r : res err39 A) : quiet (fst (tlift r)).
Proof. split; reflexivity. Qed.

(** What draining and pushing keep. *)
Definition kept (s : DecodeState) (r : res err39 DecodeState) : Prop :=
  match r with
  | Ok t => d_params t = d_params s /\ length (d_entropy t) = length (d_entropy s)
  | Err _ => False
  | Panic => True
  end.
Lemma drain_bytes_kept fuel : forall s, quiet (fst (drain_bytes_t fuel s)) /\ kept s (drain_bytes fuel s).
Proof.
  induction fuel as [|fuel IH]; intros s; [split; [split; reflexivity|exact I]|]. cbn [drain_bytes_t drain_bytes]. cbv zeta.
  split.
  - apply quiet_bind; [split; reflexivity|]. intros _.
    lazymatch goal with |- context [if ?c then _ else _] => destruct c end; [|apply quiet_lift].
    apply quiet_bind; [apply quiet_lift|]. intros [v a]. apply quiet_bind; [apply quiet_lift|]. intros ent. apply IH.
  - destruct (_ && _); [|split; reflexivity].
    destruct (take_bits (d_acc s) BITS_PER_BYTE) as [[v a]|e|] eqn:E; cbn [bind kept]; [| |exact I].
    + unfold set_at. destruct (_ <? _)%nat; cbn [bind kept]; [|exact I].
      match goal with |- kept s (drain_bytes fuel ?t) => pose proof (proj2 (IH t)) as K; destruct (drain_bytes fuel t) end;
        cbn [kept d_params d_entropy] in *; [|exact K..]. rewrite upd_length in K. exact K.
    + unfold take_bits in E. destruct (_ <? _); [discriminate|]. destruct (_ || _); discriminate.
Qed.
Lemma drain_checksum_kept fuel : forall s, quiet (fst (drain_checksum_t fuel s)) /\ kept s (drain_checksum fuel s).
Proof.
  induction fuel as [|fuel IH]; intros s; [split; [split; reflexivity|exact I]|]. cbn [drain_checksum_t drain_checksum]. cbv zeta.
  split.
  - apply quiet_bind; [split; reflexivity|]. intros _.
    lazymatch goal with |- context [if ?c then _ else _] => destruct c end; [|apply quiet_lift].
    apply quiet_bind; [apply quiet_lift|]. intros [v a]. apply IH.
  - destruct (_ && _); [|split; reflexivity].
    destruct (take_bits (d_acc s) 1) as [[v a]|e|] eqn:E; cbn [bind kept]; [| |exact I].
    + match goal with |- kept s (drain_checksum fuel ?t) => pose proof (proj2 (IH t)) as K; destruct (drain_checksum fuel t) end;
        cbn [kept d_params d_entropy] in *; exact K.
    + unfold take_bits in E. destruct (_ <? _); [discriminate|]. destruct (_ || _); discriminate.
Qed.
Lemma dec_push_kept s i : quiet (fst (dec_push_index_t s i)) /\ kept s (dec_push_index s i).
Proof.
  unfold dec_push_index_t, dec_push_index. cbv zeta. split.
  - apply quiet_bind; [apply quiet_lift|]. intros a. apply quiet_bind; [apply drain_bytes_kept|]. intros s2. apply drain_checksum_kept.
  - destruct (push_bits (d_acc s) i BITS_PER_WORD) as [a|e|] eqn:E; cbn [bind kept]; [| |exact I].
    + match goal with |- context [drain_bytes ?f ?t] => pose proof (proj2 (drain_bytes_kept f t)) as K; destruct (drain_bytes f t) as [s2|e|] end;
        cbn [bind kept d_params d_entropy] in *; [|exact K..].
      match goal with |- kept _ (drain_checksum ?f ?t) => pose proof (proj2 (drain_checksum_kept f t)) as K2; destruct (drain_checksum f t) end;
        cbn [kept] in *; [|exact K2..]. destruct K as [K K'], K2 as [K2 K2']. split; congruence.
    + unfold push_bits in E. destruct (_ <? _); [discriminate|]. destruct (_ <=? _); discriminate.
Qed.

Lemma fu_nil L k : ~ first_unknown L [] k.
Proof. intros (p & w & q & H & _). destruct p; discriminate. Qed.

Lemma words_work L : forall ws n s t r, decode_words_t L ws n s = (t, r) -> r <> Panic ->
  hashes t = [] /\
  (forall k, first_unknown L ws k -> finds t = firstn (S k) ws /\ exists e, r = Err e) /\
  (Forall (fun w => any_index_of L w <> None) ws -> finds t = ws /\
     exists n' s', r = Ok (n', s') /\ d_params s' = d_params s /\ length (d_entropy s') = length (d_entropy s)).
Proof.
  induction ws as [|w ws IH]; intros n s t r H HP.
  - cbn [decode_words_t] in H. assert (t = [Branch 71 0]) as -> by congruence. assert (r = Ok (n, s)) as -> by congruence.
    split; [reflexivity|]. split; [intros k F; apply fu_nil in F; contradiction|].
    intros _. split; [reflexivity|]. exists n, s. auto.
  - cbn [decode_words_t] in H.
    assert (HN : exists tn n', quiet tn /\ (match n with
        | None => let! _ := emit (Branch 72 0) in tlift (Ok None)
        | Some out =>
            let! _ := emit (Branch 72 1) in
            let! _ := emit (Branch 73 (b2v (is_empty out))) in
            let! _ := emit (Copy (length (utf8 w))) in
            tlift (Ok (Some ((if is_empty out then out else out ++ [32]) ++ w)))
        end) = (tn, Ok n')).
    { destruct n; eexists; eexists; (split; [|reflexivity]); split; reflexivity. }
    destruct HN as (tn & n' & QN & EN). rewrite EN in H. clear EN.
    destruct (any_index_of L w) as [i|] eqn:Ei.
    + destruct (dec_push_kept s i) as [QP KP]. pose proof (dec_push_index_same s i) as SP.
      destruct (dec_push_index_t s i) as [tp rp] eqn:EP. cbn [fst snd] in *. rewrite <- SP in KP.
      destruct rp as [s'|e|]; cbn [kept] in KP; [|contradiction|].
      2:{ cbn in H. destruct HP. congruence. }
      destruct (decode_words_t L ws n' s') as [tw rw] eqn:EW. cbn in H. rewrite EW in H.
      assert (rw = r) as -> by congruence.
      assert (ET : t = Branch 71 1 :: tn ++ Find w :: Branch 79 1 :: tp ++ tw).
      { inversion H. cbn [app]. reflexivity. }
      destruct (IH n' s' tw r EW HP) as (I1 & I2 & I3). destruct KP as [K1 K2].
      assert (EF : finds t = w :: finds tw).
      { rewrite ET. destruct QN as [QN _], QP as [QP _]. unfold finds in *. cbn [flat_map app]. rewrite flat_map_app. cbn [flat_map app].
        rewrite flat_map_app, QN, QP. reflexivity. }
      split; [|split].
      * rewrite ET. destruct QN as [_ QN], QP as [_ QP]. unfold hashes in *. cbn [flat_map app]. rewrite flat_map_app. cbn [flat_map app].
        rewrite flat_map_app, QN, QP, I1. reflexivity.
      * intros [|k] F; [apply fu_head in F; congruence|]. apply fu_tail in F; [|congruence].
        destruct (I2 k F) as [J1 J2]. split; [rewrite EF, J1; reflexivity|exact J2].
      * intros F. inversion F; subst. destruct (I3 ltac:(assumption)) as [J1 (n2 & s2 & J2 & J3 & J4)].
        split; [rewrite EF, J1; reflexivity|]. exists n2, s2. split; [exact J2|]. split; congruence.
    + cbn in H. assert (ET : t = Branch 71 1 :: tn ++ [Find w; Branch 79 0]) by (inversion H; reflexivity).
      assert (ER : r = Err (UnknownWord w)) by congruence.
      assert (EF : finds t = [w]).
      { rewrite ET. destruct QN as [QN _]. unfold finds in *. cbn [flat_map app]. rewrite flat_map_app, QN. reflexivity. }
      split; [|split].
      * rewrite ET. destruct QN as [_ QN]. unfold hashes in *. cbn [flat_map app]. rewrite flat_map_app, QN. reflexivity.
      * intros [|k] F; [split; [exact EF|exists (UnknownWord w); exact ER]|].
        destruct F as (p & v & q & Hv & Hp & F & _). destruct p as [|u p]; [discriminate|]. cbn [app] in Hv.
        assert (u = w) as -> by congruence. inversion F; subst. congruence.
      * intros F. inversion F; subst. congruence.
Qed.

(** Decoding looks up no word when there are too few or too many, no word after the first unknown
    one, and hashes only when all words are known, once, the entropy. *)
Theorem C98_decode_work L s mode :
  let t := fst (decode_t L s mode) in
  let ws := split_whitespace s in
  (~ legal_word_count (length ws) -> finds t = [] /\ hashes t = []) /\
  (legal_word_count (length ws) ->
     (forall k, first_unknown L ws k -> finds t = firstn (S k) ws /\ hashes t = []) /\
     (Forall (fun w => any_index_of L w <> None) ws ->
        finds t = ws /\ hashes t = [(length ws / 3 * 4)%nat])) /\
  (length (finds t) <= 24)%nat.
Proof.
  cbv zeta.
  assert (NP : decode_phrase_with L s mode <> Panic).
  { destruct (decode_phrase_outcome L s mode) as [r [_ E]]. rewrite E. destruct r; discriminate. }
  assert (G : (~ legal_word_count (length (split_whitespace s)) -> finds (fst (decode_t L s mode)) = [] /\ hashes (fst (decode_t L s mode)) = []) /\
    (legal_word_count (length (split_whitespace s)) ->
     (forall k, first_unknown L (split_whitespace s) k ->
        finds (fst (decode_t L s mode)) = firstn (S k) (split_whitespace s) /\ hashes (fst (decode_t L s mode)) = []) /\
     (Forall (fun w => any_index_of L w <> None) (split_whitespace s) ->
        finds (fst (decode_t L s mode)) = split_whitespace s /\
        hashes (fst (decode_t L s mode)) = [(length (split_whitespace s) / 3 * 4)%nat]))).
  { revert NP. unfold decode_phrase_with, decode_t, parse_params_from_phrase, count_from_phrase. intros NP.
    destruct (from_word_count_cases (length (split_whitespace s))) as [[HL [c [Hc [Hk3 [Hk32 Hwc]]]]]|[HL Hc]].
    2:{ rewrite Hc. split; [intros _; split; reflexivity|contradiction]. }
    split; [contradiction|]. intros _. rewrite Hc in *. cbn [bind] in *.
    set (par := {| p_entropy_len := _; p_cs_len := _; p_count := c |}) in *.
    set (norm := match mode with ValidateOnly => None | BuildNormalizedPhrase => Some [] end) in *.
    rewrite fst_emit, fst_lift, fst_emit. fold norm.
    pose proof (decode_words_same L (split_whitespace s) norm (decode_state_new par)) as SW.
    destruct (decode_words_t L (split_whitespace s) norm (decode_state_new par)) as [t r] eqn:EW. cbn [snd] in SW.
    rewrite <- SW in NP.
    assert (RP : r <> Panic) by (intros ->; apply NP; reflexivity).
    destruct (words_work L _ _ _ _ _ EW RP) as (W1 & W2 & W3). split.
    - intros k F. destruct (W2 k F) as [F1 [e ->]]. cbn [tbind fst]. split; [exact F1|exact W1].
    - intros F. destruct (W3 F) as [F1 (n' & s' & -> & P1 & P2)]. cbn [bind] in NP.
      rewrite fst_ok. cbv beta iota. rewrite fst_last.
      assert (FP : dec_finish s' <> Panic) by (intros X; rewrite X in NP; apply NP; reflexivity).
      assert (TF : finds (fst (dec_finish_t s')) = [] /\ hashes (fst (dec_finish_t s')) = [length (d_entropy s')]).
      { revert FP. unfold dec_finish_t, dec_finish. rewrite !fst_emit.
        destruct (negb _); [congruence|]. destruct (negb _); [congruence|]. destruct (negb _); [congruence|].
        rewrite !fst_emit. intros _. cbn. split; reflexivity. }
      destruct TF as [T1 T2]. unfold finds, hashes in *. cbn [flat_map app]. rewrite !flat_map_app, F1, W1, T1, T2.
      rewrite app_nil_r. split; [reflexivity|]. cbn [app]. f_equal. rewrite P2. unfold decode_state_new. cbn [d_entropy].
      rewrite repeat_length. subst par. cbn [p_entropy_len]. rewrite <- Hwc. destruct c; reflexivity. }
  destruct G as [G1 G2]. split; [exact G1|]. split; [exact G2|].
  destruct (in_dec Nat.eq_dec (length (split_whitespace s)) [12; 15; 18; 21; 24]%nat) as [HL|HL]; [|rewrite (proj1 (G1 HL)); cbn; lia].
  destruct (G2 HL) as [G3 G4].
  assert (LL : (length (split_whitespace s) <= 24)%nat) by (cbn in HL; lia).
  assert (D : (exists k, first_unknown L (split_whitespace s) k) \/ Forall (fun w => any_index_of L w <> None) (split_whitespace s)).
  { clear. induction (split_whitespace s) as [|w ws IH]; [right; constructor|].
    destruct (any_index_of L w) as [i|] eqn:E; [|left; exists 0%nat; apply fu_head; exact E].
    destruct IH as [[k IH]|IH]; [left; exists (S k); apply fu_tail; [congruence|exact IH]|right; constructor; [congruence|exact IH]]. }
  destruct D as [[k D]|D].
  - rewrite (proj1 (G3 k D)), firstn_length. lia.
  - rewrite (proj1 (G4 D)). exact LL.
Qed.
Print Assumptions C98_decode_work.

(** Encoding hashes once, the entropy, and nothing when the size is wrong. *)
Definition nohash {A} (m : tres A) : Prop := hashes (fst m) = [].
Lemma nohash_bind {A C} (m : tres A) (f : A -> tres C) : nohash m -> (forall a, nohash (f a)) -> nohash (tbind m f).
Proof.
  intros H F. destruct m as [t [a|e|]]; [|exact H..]. specialize (F a). unfold nohash in *.
  cbn [tbind fst] in *. destruct (f a). cbn [fst] in *. unfold hashes in *. rewrite flat_map_app, H, F. reflexivity.
Qed.
Lemma nohash_drain line L fuel : forall a p, nohash (enc_drain_t line L fuel a p).
Proof.
  induction fuel as [|fuel IH]; intros a p; [reflexivity|]. cbn [enc_drain_t].
  apply nohash_bind; [reflexivity|]. intros _. destruct (can_take a BITS_PER_WORD); [|reflexivity].
  apply nohash_bind; [reflexivity|]. intros [i a']. apply nohash_bind; [|intros p'; apply IH].
  unfold enc_push_index_t. apply nohash_bind; [reflexivity|]. intros _. apply nohash_bind; [reflexivity|]. intros _.
  destruct (any_word_of L i); reflexivity.
Qed.
Lemma nohash_bytes L e : forall a p, nohash (enc_bytes_t L e a p).
Proof.
  induction e as [|b e IH]; intros a p; [reflexivity|]. cbn [enc_bytes_t].
  apply nohash_bind; [reflexivity|]. intros _. apply nohash_bind; [reflexivity|]. intros a1.
  apply nohash_bind; [apply nohash_drain|]. intros [a2 p2]. apply IH.
Qed.

Theorem C98_encode_work U B L e :
  ucd_ok U -> lang_contract U L -> valid_build B -> 8 * N.of_nat (length e) < 2 ^ b_usize_bits B ->
  let t := fst (encode_t B (any_of L) e) in
  (~ legal_entropy_len (length e) -> addresses t = [] /\ hashes t = []) /\
  (legal_entropy_len (length e) -> length (addresses t) = (length e / 4 * 3)%nat /\ hashes t = [length e]).
Proof.
  intros HU LC HB HS t.
  assert (EM : mul_usize B (N.of_nat (length e)) BITS_PER_BYTE = Ok (N.of_nat (length e) * 8)).
  { unfold mul_usize. change BITS_PER_BYTE with 8. rewrite (proj2 (N.ltb_lt _ _)); [reflexivity|]. lia. }
  split; intros HL.
  - unfold t, encode_t. rewrite EM, fst_lift, fst_emit, (from_key_size_illegal _ HL). split; reflexivity.
  - split.
    + destruct (C98_addresses U B L e HU LC HB HL) as [[_ HI] _]. fold t in HI. pose proof (indices_length _ _ HL HI).
      cbn [In legal_entropy_len] in HL. decompose [or] HL; try contradiction;
        match goal with E : _ = length e |- _ => rewrite <- E in * end; cbn; lia.
    + destruct (from_key_size_ok e HL) as [c Hc].
      unfold t, encode_t. rewrite EM, fst_lift, fst_emit, Hc, fst_lift, fst_emit. cbv zeta.
      match goal with |- hashes (_ :: Hash _ :: fst ?m) = _ => assert (Z : nohash m) end.
      { apply nohash_bind; [apply nohash_bytes|]. intros [a p]. apply nohash_bind; [reflexivity|]. intros a1.
        apply nohash_bind; [apply nohash_drain|]. intros [a2 p2]. apply nohash_bind; reflexivity. }
      unfold nohash in Z. cbn [hashes flat_map app] in *. unfold hashes in Z. rewrite Z. reflexivity.
Qed.
Print Assumptions C98_encode_work.

(** ** A case *)
(** The addresses used for the entropy 7f .. 7f, what decoding its phrase looks up, and how far
    decoding goes when the third word is not in the list or when a word is missing. *)
Definition t_words : list str := split_whitespace ex_phrase.
Definition t_unknown : str := join [32] (firstn 2 t_words ++ [lit "xyzzy"] ++ skipn 3 t_words).
Example C98_case :
  addresses (fst (encode_t b64 (any_of (language_of BEnglish)) ex_entropy)) = [1019; 2015; 1790; 2039; 1983; 1533; 2031; 1919; 1019; 2015; 1790; 2040] /\
  finds (fst (decode_t (any_of (language_of BEnglish)) ex_phrase ValidateOnly)) = t_words /\
  hashes (fst (decode_t (any_of (language_of BEnglish)) ex_phrase ValidateOnly)) = [16%nat] /\
  finds (fst (decode_t (any_of (language_of BEnglish)) t_unknown ValidateOnly)) = firstn 2 t_words ++ [lit "xyzzy"] /\
  hashes (fst (decode_t (any_of (language_of BEnglish)) t_unknown ValidateOnly)) = [] /\
  finds (fst (decode_t (any_of (language_of BEnglish)) (join [32] (skipn 1 t_words)) ValidateOnly)) = [].
Proof. vm_compute. repeat split. Qed.
