(** C96: with a uniform random source, generate makes every valid mnemonic equally likely. *)
From Verif Require Import Base Sha2 Str Unicode UnicodeTables UnicodeProofs StrProofs BitAcc Language39 Builtin39 Mnemonic39 Spec39
  LangSpec39 LangProofs MnemonicProofs Eqb39 Props39.

(** ** The outcomes of drawing [n] bytes *)
Definition all_bytes : list byte := map n2b (map N.of_nat (seq 0 256)).
Fixpoint outcomes (n : nat) : list (list byte) :=
  match n with
  | O => [[]]
  | S n' => flat_map (fun b => map (cons b) (outcomes n')) all_bytes
  end.

Lemma all_bytes_in b : In b all_bytes.
Proof.
  unfold all_bytes. rewrite map_map. apply in_map_iff. exists (N.to_nat (b2n b)). split.
  - rewrite N2Nat.id. apply n2b_b2n.
  - apply in_seq. pose proof (b2n_bound b). lia.
Qed.
Lemma all_bytes_nodup : NoDup all_bytes.
Proof.
  unfold all_bytes. rewrite map_map. apply NoDup_nth with (d := x00). intros i j Hi Hj.
  rewrite map_length, seq_length in Hi, Hj.
  assert (G : forall k, (k < 256)%nat -> b2n (nth k (map (fun x => n2b (N.of_nat x)) (seq 0 256)) x00) = N.of_nat k).
  { intros k Hk. rewrite nth_indep with (d' := n2b (N.of_nat 0)) by (rewrite map_length, seq_length; exact Hk).
    rewrite (map_nth (fun x => n2b (N.of_nat x))), seq_nth by exact Hk. rewrite b2n_n2b. apply N.mod_small. lia. }
  intros E. apply (f_equal b2n) in E. rewrite !G in E by assumption. lia.
Qed.
Lemma nodup_flat {A B} (f : A -> list B) l :
  NoDup l -> (forall a, NoDup (f a)) -> (forall a a' x, In x (f a) -> In x (f a') -> a = a') -> NoDup (flat_map f l).
Proof.
  intros Hl Hf Hd. induction Hl as [|a l Ha Hl IH]; cbn [flat_map]; [constructor|].
  assert (G : forall m, NoDup m -> (forall x, In x m -> ~ In x (flat_map f l)) -> NoDup (m ++ flat_map f l)).
  { intros m Hm. induction Hm as [|x m Hx Hm IHm]; intros H; [exact IH|]. cbn [app]. constructor.
    - rewrite in_app_iff. intros [H1|H1]; [contradiction|]. apply (H x); [left; reflexivity|exact H1].
    - apply IHm. intros y Hy. apply H. right. exact Hy. }
  apply G; [apply Hf|]. intros x Hx H. apply in_flat_map in H as [a' [Ha' Hx']].
  assert (a = a') as -> by (eapply Hd; eassumption). contradiction.
Qed.
Lemma flat_length {A B} (f : A -> list B) k l : (forall a, length (f a) = k) -> length (flat_map f l) = (length l * k)%nat.
Proof. intros H. induction l as [|a l IH]; [reflexivity|]. cbn [flat_map length]. rewrite app_length, H, IH. lia. Qed.
Lemma nodup_cons_map {A} (b : A) l : NoDup l -> NoDup (map (cons b) l).
Proof.
  intros H. induction H as [|x l Hx H IH]; cbn [map]; constructor; [|exact IH].
  intros HI. apply in_map_iff in HI as [y [E Hy]]. assert (x = y) as -> by congruence. contradiction.
Qed.

(** The list has every string of [n] bytes exactly once. *)
Theorem C96_outcomes n :
  NoDup (outcomes n) /\ N.of_nat (length (outcomes n)) = 2 ^ (8 * N.of_nat n) /\
  forall r, In r (outcomes n) <-> length r = n.
Proof.
  induction n as [|n [IH1 [IH2 IH3]]]; cbn [outcomes].
  - split; [repeat constructor; intros []|]. split; [reflexivity|]. intros r. split.
    + intros [<-|[]]. reflexivity.
    + destruct r; [left; reflexivity|discriminate].
  - split; [|split].
    + apply nodup_flat; [exact all_bytes_nodup|intros a; apply nodup_cons_map; exact IH1|].
      intros a a' x H H'. apply in_map_iff in H as [y [<- _]]. apply in_map_iff in H' as [y' [E _]]. congruence.
    + rewrite flat_length with (k := length (outcomes n)) by (intros; apply map_length).
      change (length all_bytes) with 256%nat. rewrite Nat2N.inj_mul, IH2. change (N.of_nat 256) with (2 ^ 8).
      rewrite <- N.pow_add_r. f_equal. lia.
    + intros r. rewrite in_flat_map. split.
      * intros [b [_ H]]. apply in_map_iff in H as [y [<- Hy]]. cbn [length]. f_equal. apply IH3. exact Hy.
      * destruct r as [|b r]; [discriminate|]. cbn [length]. intros H. exists b. split; [apply all_bytes_in|].
        apply in_map. apply IH3. congruence.
Qed.
Print Assumptions C96_outcomes.

(** ** Every valid mnemonic is the result of exactly one outcome *)
Definition bytes_of_count (c : Count) : nat := N.to_nat (entropy_bit_length c / 8).

Lemma generate_value B L r c : length r = bytes_of_count c ->
  generate B L (fun n => firstn n r) c = expect_ok (from_entropy B L r).
Proof.
  intros H. unfold generate.
  destruct c; match goal with |- context [firstn ?k r] => replace (firstn k r) with r by
    (symmetry; apply firstn_all2; rewrite H; vm_compute; lia) end; reflexivity.
Qed.
Lemma bytes_legal c : legal_entropy_len (bytes_of_count c).
Proof. destruct c; vm_compute; tauto. Qed.

Lemma entropy_of_ok B L e m : from_entropy B L e = Ok m -> entropy m = e.
Proof.
  unfold from_entropy. destruct (encode_entropy B L e) as [p| |]; cbn [bind]; [|discriminate..].
  intros H. assert (m = {| m_phrase := p; m_entropy := e |}) as -> by congruence. reflexivity.
Qed.

Lemma accepted_bytes U B b s m c : ucd_std U -> valid_build B ->
  from_phrase U (language_of b) s = Ok m -> N.of_nat (length (split_whitespace (phrase m))) = word_count c ->
  length (entropy m) = bytes_of_count c.
Proof.
  intros HU HB HP HW. pose proof (builtin_contract U b HU) as LC.
  rewrite from_phrase_nfkd in HP by apply HU.
  destruct (accepted U _ LC B _ m HB HP) as [idxs [ws [_ [_ [_ [_ [_ [_ [HL HE]]]]]]]]].
  change (m_entropy m) with (entropy m) in HL, HE.
  destruct (from_entropy_words U _ LC B (entropy m) HB HL) as [idxs' [ws' [_ [_ [Fin [HN E]]]]]].
  rewrite E in HE. assert (HPh : phrase m = join [32] ws').
  { apply (f_equal (fun r => match r with Ok x => phrase x | _ => [] end)) in HE. symmetry. exact HE. }
  assert (HS : split_whitespace (phrase m) = ws').
  { rewrite HPh. apply split_join, (in_good U _ LC). exact Fin. }
  rewrite HS in HW. destruct c; cbn [word_count] in HW; unfold bytes_of_count;
    match goal with |- _ = ?k => let v := eval vm_compute in k in change k with v end; lia.
Qed.

(** [r] is what the random source has to write.  The mnemonic is any one the parser accepts with
    the asked number of words, from whatever text. *)
Theorem C96_uniform U B b c s m :
  ucd_std U -> valid_build B ->
  from_phrase U (language_of b) s = Ok m -> N.of_nat (length (split_whitespace (phrase m))) = word_count c ->
  In (entropy m) (outcomes (bytes_of_count c)) /\
  forall r, In r (outcomes (bytes_of_count c)) ->
    (generate B (language_of b) (fun n => firstn n r) c = Ok m <-> r = entropy m).
Proof.
  intros HU HB HP HW.
  pose proof (C04_canonical U B b _ m HU HB (or_introl HP)) as E.
  pose proof (accepted_bytes U B b s m c HU HB HP HW) as HL. split; [apply C96_outcomes; exact HL|].
  intros r Hr. apply C96_outcomes in Hr. rewrite generate_value by exact Hr. split.
  - destruct (from_entropy B (language_of b) r) as [m'| |] eqn:E'; cbn [expect_ok]; [|discriminate..].
    intros H. assert (m' = m) as -> by congruence. symmetry. eapply entropy_of_ok. exact E'.
  - intros ->. rewrite E. reflexivity.
Qed.
Print Assumptions C96_uniform.

(** The results of [generate] over all outcomes are all different, and are exactly the valid
    mnemonics with the asked number of words: so there are 2^ENT of them. *)
Theorem C96_support U B b c :
  ucd_std U -> valid_build B ->
  exists ms, map (fun r => generate B (language_of b) (fun n => firstn n r) c) (outcomes (bytes_of_count c)) = map Ok ms /\
    NoDup ms /\ N.of_nat (length ms) = 2 ^ entropy_bit_length c /\
    forall m, In m ms <->
      from_phrase U (language_of b) (phrase m) = Ok m /\
      N.of_nat (length (split_whitespace (phrase m))) = word_count c.
Proof.
  intros HU HB. destruct (C96_outcomes (bytes_of_count c)) as [ND [HL HI]].
  set (g := fun r => match from_entropy B (language_of b) r with Ok m => m | _ => {| m_phrase := []; m_entropy := r |} end).
  assert (Hg : forall r, In r (outcomes (bytes_of_count c)) ->
    generate B (language_of b) (fun n => firstn n r) c = Ok (g r) /\ entropy (g r) = r).
  { intros r Hr. apply HI in Hr. rewrite generate_value by exact Hr.
    assert (HLe : legal_entropy_len (length r)) by (rewrite Hr; apply bytes_legal).
    destruct (C01_entropy_roundtrip U B b r HU HB HLe) as [m [E [En _]]]. unfold g. rewrite E. split; [reflexivity|exact En]. }
  exists (map g (outcomes (bytes_of_count c))). split; [|split; [|split]].
  - rewrite map_map. apply map_ext_in. intros r Hr. apply Hg. exact Hr.
  - apply NoDup_map_inv with (f := entropy). rewrite map_map.
    rewrite (map_ext_in _ (fun r => r)) by (intros r Hr; apply Hg; exact Hr). rewrite map_id. exact ND.
  - rewrite map_length, HL. destruct c; reflexivity.
  - intros m. rewrite in_map_iff. split.
    + intros [r [<- Hr]]. destruct (Hg r Hr) as [E En].
      destruct (C17_generate U B b (fun n => firstn n (r ++ repeat x00 n)) c HU HB) as [m [E' [_ [HW HP]]]].
      { intros n. rewrite firstn_length, app_length, repeat_length. lia. }
      assert (HE : generate B (language_of b) (fun n => firstn n (r ++ repeat x00 n)) c =
                   generate B (language_of b) (fun n => firstn n r) c).
      { apply HI in Hr. unfold generate. destruct c;
        match goal with |- context [firstn ?k (r ++ ?q)] => replace (firstn k (r ++ q)) with (firstn k r); [reflexivity|] end;
        rewrite firstn_app, Hr; cbn [firstn]; rewrite app_nil_r; reflexivity. }
      rewrite HE, E in E'. assert (g r = m) as -> by congruence. split; assumption.
    + intros [HP HW]. destruct (C96_uniform U B b c _ m HU HB HP HW) as [Hin Huni].
      exists (entropy m). split; [|exact Hin]. destruct (Hg _ Hin) as [E _].
      rewrite (proj2 (Huni _ Hin) eq_refl) in E. congruence.
Qed.
Print Assumptions C96_support.

(** ** Guessing *)

(** However the texts [gs] to try are chosen, and however they are written (spacing, Unicode
    form), they open the mnemonics of at most [length gs] of the 2^ENT outcomes. *)
Theorem C96_guesses U B b c gs rs :
  ucd_std U -> valid_build B -> NoDup rs ->
  Forall (fun r => In r (outcomes (bytes_of_count c)) /\
    exists g, In g gs /\ from_phrase U (language_of b) g = generate B (language_of b) (fun n => firstn n r) c) rs ->
  (length rs <= length gs)%nat.
Proof.
  intros HU HB ND HF.
  set (f := fun g => match from_phrase U (language_of b) g with Ok m => entropy m | _ => [] end).
  rewrite <- (map_length f gs). apply NoDup_incl_length; [exact ND|].
  intros r Hr. rewrite Forall_forall in HF. destruct (HF r Hr) as [Hin [g [Hg E]]].
  apply in_map_iff. exists g. split; [|exact Hg]. unfold f. rewrite E.
  apply C96_outcomes in Hin. rewrite generate_value by exact Hin.
  assert (HLe : legal_entropy_len (length r)) by (rewrite Hin; apply bytes_legal).
  destruct (C01_entropy_roundtrip U B b r HU HB HLe) as [m [Em [En _]]]. rewrite Em. exact En.
Qed.
Print Assumptions C96_guesses.

(** A case of the hypotheses: the phrase of 12 words, the outcome that gives it, and a guess that
    hits exactly that outcome although it is spaced differently. *)
Example C96_case :
  from_phrase ucd15 (language_of BEnglish) (12288 :: ex_phrase) = Ok ex_mnemonic /\
  N.of_nat (length (split_whitespace (phrase ex_mnemonic))) = word_count Words12 /\
  In ex_entropy (outcomes (bytes_of_count Words12)) /\
  from_phrase ucd15 (language_of BEnglish) (12288 :: ex_phrase) =
    generate b64 (language_of BEnglish) (fun n => firstn n ex_entropy) Words12.
Proof.
  assert (E : from_phrase ucd15 (language_of BEnglish) (12288 :: ex_phrase) = Ok ex_mnemonic) by run_m.
  assert (W : N.of_nat (length (split_whitespace (phrase ex_mnemonic))) = word_count Words12)
    by (vm_compute; reflexivity).
  destruct (C96_uniform ucd15 b64 BEnglish Words12 _ _ ucd15_std b64_valid E W) as [I G].
  split; [exact E|]. split; [exact W|]. split; [exact I|].
  rewrite E. symmetry. apply G; [exact I|reflexivity].
Qed.
