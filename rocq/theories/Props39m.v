(** C77-C79: what bip0039 leaves in released heap memory. *)
From Verif Require Import Base Sha2 Str Unicode BitAcc Language39 Mnemonic39 Memory39 Spec39 BitsProofs
  StrProofs EncProofs DecProofs Utf8Proofs Builtin39 LangSpec39 LangProofs UnicodeProofs MnemonicProofs MemProofs39
  UnicodeTables Eqb39 Props39.

(** A block of zeros. *)
Definition blank (x : list byte) : Prop := Forall (eq x00) x.
(** A buffer with these contents. *)
Definition holds (b : buf) (l : list byte) : Prop := bf_data b = l /\ N.of_nat (length l) <= bf_cap b.
(** An allocator that never extends a block in place. *)
Definition moving (Al : allocator) : Prop := forall c n, al_moves Al c n = true.
(** Growing makes enough room. *)
Definition growing (Al : allocator) : Prop := forall c n, n <= al_grow Al c n.

(** ** C77 *)

(** Dropping a mnemonic, or what is left of it after taking a field out. *)
Theorem C77_drop m :
  Forall blank (drop_mnemonic m) /\
  (forall p e, holds (hm_phrase m) p -> holds (hm_entropy m) e -> p <> [] -> e <> [] ->
     exists x y, drop_mnemonic m = [x; y] /\ (length p <= length x)%nat /\ (length e <= length y)%nat) /\
  Forall blank (fst (into_phrase_m m)) /\ snd (into_phrase_m m) = hm_phrase m /\
  (forall e, holds (hm_entropy m) e -> e <> [] -> exists y, fst (into_phrase_m m) = [y] /\ (length e <= length y)%nat) /\
  Forall blank (fst (into_entropy_m m)) /\ snd (into_entropy_m m) = hm_entropy m /\
  (forall p, holds (hm_phrase m) p -> p <> [] -> exists x, fst (into_entropy_m m) = [x] /\ (length p <= length x)%nat) /\
  any_from_mnemonic_m m = ([], m).
Proof.
  assert (HB : forall b, Forall blank (drop_wiped b)).
  { intros b. unfold drop_wiped. destruct (_ =? _); repeat constructor.
    unfold blank. induction (N.to_nat (bf_cap b)); constructor; [reflexivity|assumption]. }
  assert (HW : forall b l, holds b l -> l <> [] -> exists x, drop_wiped b = [x] /\ (length l <= length x)%nat).
  { intros b l [_ H] HN. unfold drop_wiped. destruct l; [contradiction|]. cbn [length] in H.
    destruct (N.eqb_spec (bf_cap b) 0); [lia|]. eexists. split; [reflexivity|]. rewrite repeat_length. cbn [length]. lia. }
  unfold drop_mnemonic. split; [apply Forall_app; split; apply HB|]. split.
  { intros p e Hp He Np Ne. destruct (HW _ _ Hp Np) as [x [-> Lx]]. destruct (HW _ _ He Ne) as [y [-> Ly]].
    exists x, y. repeat split; assumption. }
  split; [apply HB|]. split; [reflexivity|]. split; [exact (HW _)|].
  split; [unfold into_entropy_m, drop_mnemonic; cbn [hm_phrase hm_entropy fst]; apply Forall_app; split; apply HB|].
  split; [reflexivity|]. split.
  - intros p H HN. destruct (HW _ _ H HN) as [x [E Lx]]. exists x. split; [|exact Lx].
    unfold into_entropy_m, drop_mnemonic. cbn [hm_phrase hm_entropy fst]. rewrite E. reflexivity.
  - destruct m. reflexivity.
Qed.
Print Assumptions C77_drop.

Example C77_drop_case :
  let m := {| hm_phrase := {| bf_cap := 5; bf_data := [x61; x62] |};
              hm_entropy := {| bf_cap := 1; bf_data := [x2a] |} |} in
  holds (hm_phrase m) [x61; x62] /\ drop_mnemonic m = [[x00; x00; x00; x00; x00]; [x00]].
Proof. repeat split; cbn; lia. Qed.

(** What writing the words [ws] into a phrase buffer releases: [f]; the buffer is
    [b].  Its initial room is eight bytes a word and the spaces. *)
Definition leaves (Al : allocator) (ws : list str) (f : freed) (b : buf) : Prop :=
  let room := N.of_nat (9 * length ws - 1) in
  let size v := N.of_nat (length (utf8 (join [32] v))) in
  bf_data b = utf8 (join [32] ws) /\
  Forall (fun x => exists y, x ++ y = utf8 (join [32] ws)) f /\
  (size ws <= room -> f = [] /\ size ws <= bf_cap b) /\
  (moving Al -> room < size ws ->
     exists k, (k < length ws)%nat /\ size (firstn k ws) <= room < size (firstn (S k) ws) /\
       (In (utf8 (join [32] (firstn k ws))) f \/ In (utf8 (join [32] (firstn k ws) ++ [32])) f)).

Lemma firstn_app_l {A : Type} (l m : list A) : firstn (length l) (l ++ m) = l.
Proof. rewrite firstn_app, Nat.sub_diag, firstn_all, app_nil_r. reflexivity. Qed.

Lemma fold_leaves Al ws : ws <> [] -> Forall (fun w => w <> []) ws ->
  let st := fold_left (push_word_m Al) ws ([], with_capacity (N.of_nat (9 * length ws - 1))) in
  leaves Al ws (fst st) (snd st).
Proof.
  intros HN F. cbv zeta. set (b0 := with_capacity _).
  change ([], b0) with (@pair freed buf [] b0).
  assert (E : fold_left push_word ws [] = join [32] ws) by (apply fold_push_word_nil; exact F).
  unfold leaves. cbv zeta. split; [rewrite (fold_data Al ws (@pair freed buf [] b0) []) by reflexivity; rewrite E; reflexivity|]. split.
  { destruct (fold_freed Al ws (@pair freed buf [] b0) [] eq_refl) as [g [E' G]]. rewrite E', <- E. exact G. }
  split.
  - intros H. pose proof (fold_fits Al ws [] b0 [] eq_refl) as E2. rewrite E in E2. specialize (E2 H).
    rewrite E2. split; [reflexivity|].
    cbn [snd bf_cap]. exact H.
  - intros HM H. destruct (fold_overflow Al ws [] b0 [] HM) as [pre [w [post [E1 [H1 [H2 H3]]]]]].
    + unfold b0. cbn [with_capacity bf_cap]. destruct ws; [contradiction|]. cbn [length]. lia.
    + reflexivity.
    + unfold b0. cbn. lia.
    + rewrite E. exact H.
    + assert (Fp : Forall (fun w => w <> []) (pre ++ [w])).
      { rewrite E1 in F. rewrite Forall_app in *. destruct F as [F1 F2]. inversion F2; subst. split; [exact F1|]. constructor; [assumption|constructor]. }
      rewrite !fold_push_word_nil in * by (assumption || (rewrite Forall_app in Fp; apply Fp)).
      exists (length pre).
      assert (G1 : firstn (length pre) ws = pre) by (rewrite E1; apply firstn_app_l).
      assert (G2 : firstn (S (length pre)) ws = pre ++ [w]).
      { rewrite E1. replace (pre ++ w :: post) with ((pre ++ [w]) ++ post) by (rewrite <- app_assoc; reflexivity).
        replace (S (length pre)) with (length (pre ++ [w])) by (rewrite app_length; cbn; lia). apply firstn_app_l. }
      unfold str in *. rewrite G1, G2. split; [rewrite E1, app_length; cbn; lia|]. split; [split; assumption|exact H3].
Qed.

Lemma key_size_count B (e : list byte) c : valid_build B -> legal_entropy_len (length e) ->
  (let? size := mul_usize B (N.of_nat (length e)) BITS_PER_BYTE in from_key_size size) = Ok c ->
  forall n, (4 * n = 3 * length e)%nat -> rough_phrase_cap c = N.of_nat (9 * n - 1).
Proof.
  intros HB HL E n Hn. unfold mul_usize in E. change BITS_PER_BYTE with 8 in E.
  pose proof (valid_build_bits B _ HB (legal_le _ HL)) as HW. apply N.ltb_lt in HW. rewrite HW in E. cbn [bind] in E.
  unfold legal_entropy_len in HL. cbn [In] in HL.
  destruct HL as [H|[H|[H|[H|[H|[]]]]]]; rewrite <- H in *; cbn in E; injection E as <-; cbn; lia.
Qed.

Theorem C77_from_entropy Al U L B eb :
  lang_contract U L -> valid_build B -> legal_entropy_len (length (bf_data eb)) ->
  exists m ws f hm, from_entropy B L (bf_data eb) = Ok m /\ phrase m = join [32] ws /\
    (4 * length ws = 3 * length (bf_data eb))%nat /\ Forall (fun w => In w (lang_words L)) ws /\
    from_entropy_m Al B (any_of L) eb = (f, Ok hm) /\ hm_entropy hm = eb /\ leaves Al ws f (hm_phrase hm).
Proof.
  intros LC HB HL.
  destruct (from_entropy_words U L LC B _ HB HL) as [idxs [ws [HI [F [Fin [HN E]]]]]].
  pose proof E as E'. unfold from_entropy, encode_entropy in E'.
  destruct (encode_entropy_with B (any_of L) (bf_data eb)) as [p| |] eqn:EE; cbn [bind] in E'; [|discriminate|discriminate].
  assert (Hp : p = join [32] ws) by (injection E' as ->; reflexivity). clear E'.
  destruct (encode_sim Al B _ _ _ EE) as [c [idxs' [ws' [EC [[Fb F'] [Ep EM]]]]]].
  assert (Fin' : Forall (fun w => In w (lang_words L)) ws') by (eapply words_in_of_word_of; eassumption).
  rewrite fold_push_word_nil in Ep by (eapply in_nonempty; eassumption).
  assert (ws' = ws).
  { rewrite <- (split_join ws'), <- (split_join ws) by (eapply in_good; eassumption). f_equal. congruence. }
  subst ws'. cbv zeta in EM. rewrite (key_size_count B _ c HB HL EC (length ws) HN) in EM.
  assert (HW : ws <> []).
  { intros ->. unfold legal_entropy_len in HL. cbn [In length] in *. lia. }
  pose proof (fold_leaves Al ws HW ltac:(eapply in_nonempty; eassumption)) as HV. cbv zeta in HV.
  exists {| m_phrase := join [32] ws; m_entropy := bf_data eb |}, ws.
  eexists _, {| hm_phrase := _; hm_entropy := eb |}.
  split; [exact E|]. split; [reflexivity|]. split; [exact HN|]. split; [exact Fin|].
  split; [unfold from_entropy_m; rewrite EM; reflexivity|]. split; [reflexivity|]. exact HV.
Qed.
Print Assumptions C77_from_entropy.

(** Entropy of a wrong length is released as it is. *)
Theorem C77_bad_entropy Al L B eb :
  ~ legal_entropy_len (length (bf_data eb)) -> 8 * N.of_nat (length (bf_data eb)) < 2 ^ b_usize_bits B ->
  bf_cap eb <> 0 ->
  from_entropy_m Al B (any_of L) eb
  = ([bf_data eb], Err (BadEntropyBitCount (8 * N.of_nat (length (bf_data eb))))).
Proof.
  intros HL HW HC. unfold from_entropy_m. rewrite encode_illegal_m by assumption.
  unfold drop_buf. apply N.eqb_neq in HC. rewrite HC. reflexivity.
Qed.
Print Assumptions C77_bad_entropy.

Lemma drop_borrowed f s : f ++ drop_cow (Borrowed s) = f.
Proof. apply app_nil_r. Qed.

Theorem C77_from_phrase Al U L B s m :
  lang_contract U L -> valid_build B -> is_nfkd_quick U s = true -> from_phrase U L s = Ok m ->
  exists ws f hm, words_of s ws /\ phrase m = join [32] ws /\ Forall (fun w => In w (lang_words L)) ws /\
    from_phrase_m Al U (any_of L) (Borrowed s) = (f, Ok hm) /\
    holds (hm_entropy hm) (entropy m) /\ leaves Al ws f (hm_phrase hm).
Proof.
  intros LC HB HQ E. unfold from_phrase, normalize_utf8 in E. rewrite HQ in E.
  destruct (accepted U L LC B s m HB E) as [idxs [ws [W [HLW [HI [F [Fin [EP [HL _]]]]]]]]].
  unfold from_normalized_phrase in E.
  pose proof (decode_phrase_agree Al (any_of L) s BuildNormalizedPhrase) as HA.
  change (decode_phrase L s BuildNormalizedPhrase) with (decode_phrase_with (any_of L) s BuildNormalizedPhrase) in E.
  destruct (decode_phrase_with (any_of L) s BuildNormalizedPhrase) as [d| |]; cbn [bind] in E; [|discriminate|discriminate].
  destruct HA as [f [b [EM HT]]]. destruct (dp_normalized d) as [p|]; [|discriminate].
  injection E as E. destruct b as [b|]; [|contradiction].
  pose proof (decode_phrase_m_spec Al (any_of L) s BuildNormalizedPhrase) as HS. rewrite EM in HS.
  rewrite (split_words_of _ _ W) in HS. cbn [norm0] in HS.
  inversion HS as [| | |idxs' e' cs' F' BI' LC' st EQ]. subst st.
  rewrite push_opt_some in *. cbv zeta in *. cbn [fst snd] in *.
  exists ws, f. eexists {| hm_phrase := b; hm_entropy := _ |}.
  split; [exact W|]. split; [exact EP|]. split; [exact Fin|]. split.
  { unfold from_phrase_m, normalize_m. cbn [cow_str]. rewrite HQ. unfold from_normalized_phrase_m. cbn [cow_str].
    rewrite EM. cbn [app]. rewrite drop_borrowed. reflexivity. }
  cbn [hm_entropy hm_phrase]. split; [split; cbn [bf_data bf_cap]; [subst m; reflexivity|subst m; cbn; lia]|].
  assert (HW : ws <> []).
  { intros ->. unfold legal_word_count in HLW. cbn [In length] in *. lia. }
  pose proof (fold_leaves Al ws HW ltac:(eapply in_nonempty; eassumption)) as HV. cbv zeta in HV.
  rewrite <- EQ. match goal with H : Some _ = Some b |- _ => injection H as <- end. exact HV.
Qed.
Print Assumptions C77_from_phrase.

(** Word lengths of the built-in lists, in bytes. *)
Definition lengths_within (lo hi : nat) (b : BuiltInLanguage) : bool :=
  forallb (fun w => (lo <=? length (utf8 w))%nat && (length (utf8 w) <=? hi)%nat) (wl_words (wordlist_of b)).
Lemma short_checked : forallb (lengths_within 0 8)
  [BEnglish; BChineseSimplified; BChineseTraditional; BCzech; BPortuguese] = true.
Proof. vm_cast_no_check (eq_refl true). Qed.
Lemma long_checked : forallb (lengths_within 9 33) [BJapanese; BKorean] = true.
Proof. vm_cast_no_check (eq_refl true). Qed.

Lemma within lo hi b w : lengths_within lo hi b = true -> In w (lang_words (language_of b)) ->
  (lo <= length (utf8 w) <= hi)%nat.
Proof.
  rewrite language_of_wordlist. cbn [wordlist_language lang_words]. unfold lengths_within.
  rewrite forallb_forall. intros H Hw. apply H in Hw. apply andb_true_iff in Hw as [H1 H2].
  apply Nat.leb_le in H1, H2. lia.
Qed.

Lemma join_size lo hi ws : ws <> [] -> Forall (fun w => (lo <= length (utf8 w) <= hi)%nat) ws ->
  (length ws * (lo + 1) <= length (utf8 (join [32%N] ws)) + 1 <= length ws * (hi + 1))%nat.
Proof.
  intros HN F. induction F as [|w ws Hw F IH]; [contradiction|]. destruct ws as [|v ws].
  - cbn [join length]. lia.
  - specialize (IH ltac:(discriminate)). rewrite join_cons, !utf8_app, !app_length.
    change (length (utf8 [32%N])) with 1%nat. cbn [length] in *. lia.
Qed.

(** Five of the languages never outgrow the first buffer: everything released by
    making a mnemonic and dropping it is blank. *)
Theorem C77_short Al U B b eb :
  ucd_std U -> valid_build B -> legal_entropy_len (length (bf_data eb)) ->
  In b [BEnglish; BChineseSimplified; BChineseTraditional; BCzech; BPortuguese] ->
  exists m hm, from_entropy B (language_of b) (bf_data eb) = Ok m /\
    from_entropy_m Al B (as_any_language b) eb = ([], Ok hm) /\
    holds (hm_phrase hm) (utf8 (phrase m)) /\ hm_entropy hm = eb /\
    (forall s, is_nfkd_quick U s = true -> from_phrase U (language_of b) s = Ok m ->
      exists hm', from_phrase_m Al U (as_any_language b) (Borrowed s) = ([], Ok hm') /\
        holds (hm_phrase hm') (utf8 (phrase m)) /\ holds (hm_entropy hm') (entropy m)).
Proof.
  intros HU HB HL Hb. pose proof (builtin_contract U b HU) as LC.
  rewrite (proj1 (C10_any_agrees U B b)).
  assert (HC : lengths_within 0 8 b = true) by (pose proof short_checked as H; rewrite forallb_forall in H; apply H, Hb).
  assert (HF : forall ws, Forall (fun w => In w (lang_words (language_of b))) ws ->
    N.of_nat (length (utf8 (join [32] ws))) <= N.of_nat (9 * length ws - 1)).
  { intros ws Fin. destruct ws as [|w ws]; [cbn; lia|].
    assert (F : Forall (fun w => (0 <= length (utf8 w) <= 8)%nat) (w :: ws))
      by (eapply Forall_impl; [|exact Fin]; intros v; apply within; exact HC).
    pose proof (join_size 0 8 (w :: ws) ltac:(discriminate) F). lia. }
  destruct (C77_from_entropy Al U _ B eb LC HB HL) as [m [ws [f [hm [E [EP [HN [Fin [EM [EH HV]]]]]]]]]].
  destruct HV as [V1 [_ [V3 _]]]. destruct (V3 (HF ws Fin)) as [-> V4].
  exists m, hm. split; [exact E|]. split; [exact EM|]. split; [rewrite EP; split; assumption|]. split; [exact EH|].
  intros s HQ ES. destruct (C77_from_phrase Al U _ B s m LC HB HQ ES) as [ws' [f [hm' [W [EP' [Fin' [EM' [EH' HV]]]]]]]].
  destruct HV as [W1 [_ [W3 _]]]. destruct (W3 (HF ws' Fin')) as [-> W4].
  exists hm'. split; [exact EM'|]. split; [rewrite EP'; split; assumption|exact EH'].
Qed.
Print Assumptions C77_short.

(** Japanese and Korean words have at least nine bytes: with an allocator that
    moves, making any mnemonic releases its first words in the clear. *)
Theorem C77_long Al U B b eb :
  ucd_std U -> valid_build B -> legal_entropy_len (length (bf_data eb)) -> In b [BJapanese; BKorean] -> moving Al ->
  exists m ws f hm k, from_entropy B (language_of b) (bf_data eb) = Ok m /\ words_of (phrase m) ws /\
    from_entropy_m Al B (as_any_language b) eb = (f, Ok hm) /\
    (k < length ws)%nat /\ (length ws <= 5 * k)%nat /\
    (In (utf8 (join [32] (firstn k ws))) f \/ In (utf8 (join [32] (firstn k ws) ++ [32])) f).
Proof.
  intros HU HB HL Hb HM. pose proof (builtin_contract U b HU) as LC.
  rewrite (proj1 (C10_any_agrees U B b)).
  assert (HC : lengths_within 9 33 b = true) by (pose proof long_checked as H; rewrite forallb_forall in H; apply H, Hb).
  destruct (C77_from_entropy Al U _ B eb LC HB HL) as [m [ws [f [hm [E [EP [HN [Fin [EM [EH HV]]]]]]]]]].
  assert (F : Forall (fun w => (9 <= length (utf8 w) <= 33)%nat) ws)
      by (eapply Forall_impl; [|exact Fin]; intros v; apply within; exact HC).
  assert (HW : ws <> []).
  { intros ->. unfold legal_entropy_len in HL. cbn [In length] in *. lia. }
  pose proof (join_size 9 33 ws HW F) as HS.
  destruct HV as [_ [_ [_ V4]]]. destruct (V4 HM) as [k [Hk [[H1 H2] H3]]].
  { destruct ws; [contradiction|]. cbn [length] in *. lia. }
  exists m, ws, f, hm, k. split; [exact E|]. split; [rewrite EP; apply words_of_join; eapply in_good; eassumption|].
  split; [exact EM|]. split; [exact Hk|]. split; [|exact H3].
  assert (F' : Forall (fun w => (9 <= length (utf8 w) <= 33)%nat) (firstn (S k) ws)).
  { apply Forall_forall. intros w Hw. rewrite Forall_forall in F. apply F.
    rewrite <- (firstn_skipn (S k) ws). apply in_or_app. left. exact Hw. }
  assert (HL' : length (firstn (S k) ws) = S k) by (rewrite firstn_length; lia).
  pose proof (join_size 9 33 _ ltac:(intros E0; rewrite E0 in HL'; discriminate) F') as HS'.
  rewrite HL' in HS'. unfold legal_entropy_len in HL. cbn [In] in HL. lia.
Qed.
Print Assumptions C77_long.

(** French, Italian and Spanish: for some entropies. *)
Definition long_entropy (b : BuiltInLanguage) : list byte :=
  match b with
  | BFrench => unhex "1b83706e0dc1b83706e0dc1b83706e0d"
  | BItalian => unhex "16a2d45a8b516a2d45a8b516a2d45a8b"
  | _ => unhex "b2564ac9592b2564ac9592b2564ac959"
  end.
Lemma medium_checked : forallb (fun b => lengths_within 0 12 b &&
    match from_entropy b64 (language_of b) (long_entropy b) with
    | Ok m => (107 <? length (utf8 (m_phrase m)))%nat
    | _ => false
    end) [BFrench; BItalian; BSpanish] = true.
Proof. vm_cast_no_check (eq_refl true). Qed.

Theorem C77_medium Al U b :
  ucd_std U -> In b [BFrench; BItalian; BSpanish] -> moving Al ->
  exists eb m ws f hm k, legal_entropy_len (length (bf_data eb)) /\
    from_entropy b64 (language_of b) (bf_data eb) = Ok m /\ words_of (phrase m) ws /\
    from_entropy_m Al b64 (as_any_language b) eb = (f, Ok hm) /\
    (8 <= k < length ws)%nat /\
    (In (utf8 (join [32] (firstn k ws))) f \/ In (utf8 (join [32] (firstn k ws) ++ [32])) f).
Proof.
  intros HU Hb HM. pose proof (builtin_contract U b HU) as LC.
  rewrite (proj1 (C10_any_agrees U b64 b)).
  pose proof medium_checked as HC. rewrite forallb_forall in HC. specialize (HC b Hb).
  apply andb_true_iff in HC as [HC HS].
  set (eb := {| bf_cap := 16; bf_data := long_entropy b |}).
  assert (HL : length (bf_data eb) = 16%nat).
  { unfold eb. cbn [bf_data In] in *. destruct Hb as [<-|[<-|[<-|[]]]]; reflexivity. }
  assert (HL' : legal_entropy_len (length (bf_data eb))) by (rewrite HL; left; reflexivity).
  destruct (C77_from_entropy Al U _ b64 eb LC ltac:(right; reflexivity) HL') as [m [ws [f [hm [E [EP [HN [Fin [EM [EH HV]]]]]]]]]].
  change (long_entropy b) with (bf_data eb) in HS. rewrite E in HS. apply Nat.ltb_lt in HS.
  change (m_phrase m) with (phrase m) in HS. rewrite EP in HS.
  assert (HW : length ws = 12%nat) by lia.
  destruct HV as [_ [_ [_ V4]]]. destruct (V4 HM) as [k [Hk [[H1 H2] H3]]].
  { rewrite HW. cbn [Nat.mul Nat.add Nat.sub]. lia. }
  exists eb, m, ws, f, hm, k. split; [exact HL'|]. split; [exact E|].
  split; [rewrite EP; apply words_of_join; eapply in_good; eassumption|].
  split; [exact EM|]. split; [|exact H3]. split; [|exact Hk].
  assert (F' : Forall (fun w => (0 <= length (utf8 w) <= 12)%nat) (firstn (S k) ws)).
  { apply Forall_forall. intros w Hw. rewrite Forall_forall in Fin. apply (within 0 12 b); [exact HC|]. apply Fin.
    rewrite <- (firstn_skipn (S k) ws). apply in_or_app. left. exact Hw. }
  assert (HL2 : length (firstn (S k) ws) = S k) by (rewrite firstn_length; lia).
  pose proof (join_size 0 12 _ ltac:(intros E0; rewrite E0 in HL2; discriminate) F') as HS'.
  rewrite HL2 in HS'. rewrite HW in H2. cbn [Nat.mul Nat.add Nat.sub] in H2. lia.
Qed.
Print Assumptions C77_medium.

(** An allocator that doubles and moves. *)
Definition doubling : allocator :=
  {| al_grow := fun cap need => N.max (N.max (2 * cap) need) 8; al_moves := fun _ _ => true |}.

Example C77_case :
  moving doubling /\ legal_entropy_len (length (bf_data {| bf_cap := 16; bf_data := repeat x7f 16 |})) /\
  match from_entropy_m doubling b64 (as_any_language BKorean) {| bf_cap := 16; bf_data := repeat x7f 16 |} with
  | (f, Ok hm) => map (@length byte) f = [92%nat; 206%nat] /\ bf_cap (hm_phrase hm) = 428
  | _ => False
  end.
Proof. split; [intros c n; reflexivity|]. split; [left; reflexivity|]. vm_compute. repeat split. Qed.

(** ** C78 *)
Section Typed.
Variable Al : allocator.
Hypothesis HG : growing Al.

Lemma push_bytes_cap st bs : bf_cap (snd st) <> 0 \/ bs <> [] -> bf_cap (snd (push_bytes Al st bs)) <> 0.
Proof.
  destruct st as [f b]. cbn [push_bytes snd].
  destruct (N.leb_spec (N.of_nat (length (bf_data b)) + N.of_nat (length bs)) (bf_cap b)) as [H|H]; cbn [snd bf_cap].
  - intros [H0|H0]; [exact H0|]. destruct bs; [contradiction|]. cbn [length] in H. lia.
  - pose proof (HG (bf_cap b) (N.of_nat (length (bf_data b)) + N.of_nat (length bs))). lia.
Qed.

Lemma push_word_cap st w : bf_cap (snd st) <> 0 -> bf_cap (snd (push_word_m Al st w)) <> 0.
Proof.
  intros H. unfold push_word_m. apply push_bytes_cap. left. destruct (is_empty _); [exact H|].
  apply push_bytes_cap. left. exact H.
Qed.

Lemma fold_cap ws : forall st, bf_cap (snd st) <> 0 -> bf_cap (snd (fold_left (push_word_m Al) ws st)) <> 0.
Proof. induction ws as [|w ws IH]; intros st H; [exact H|]. apply IH, push_word_cap, H. Qed.

(** The words pushed are in the buffer when it is dropped. *)
Lemma drop_opt_words ws n : (0 < n)%nat -> Forall (fun w => w <> []) ws ->
  drop_opt (snd (fold_left (push_opt Al) ws ([], norm0 BuildNormalizedPhrase n))) = [utf8 (join [32] ws)].
Proof.
  intros Hn F. cbn [norm0]. rewrite push_opt_some. cbv zeta. cbn [snd drop_opt]. unfold drop_buf.
  match goal with |- context[snd ?x] => set (st := x) end.
  assert (HC : bf_cap (snd st) <> 0) by (apply fold_cap; cbn [snd with_capacity bf_cap]; lia).
  assert (HD : bf_data (snd st) = utf8 (fold_left push_word ws [])) by (apply fold_data; reflexivity).
  apply N.eqb_neq in HC. rewrite HC, HD, fold_push_word_nil by exact F. reflexivity.
Qed.

Lemma to_string_data s : forall st p, bf_data (snd st) = utf8 p ->
  bf_data (snd (fold_left (fun st c => push_bytes Al st (utf8_char c)) s st)) = utf8 (p ++ s).
Proof.
  induction s as [|c s IH]; intros st p H; cbn [fold_left]; [rewrite app_nil_r; exact H|].
  rewrite (IH _ (p ++ [c])); [rewrite <- app_assoc; reflexivity|].
  rewrite push_bytes_data, H, utf8_app. cbn. rewrite app_nil_r. reflexivity.
Qed.

Lemma to_string_cap s : forall st, bf_cap (snd st) <> 0 \/ s <> [] ->
  bf_cap (snd (fold_left (fun st c => push_bytes Al st (utf8_char c)) s st)) <> 0.
Proof.
  induction s as [|c s IH]; intros st H; cbn [fold_left]; [destruct H as [H|H]; [exact H|contradiction]|].
  apply IH. left. apply push_bytes_cap. right. pose proof (utf8_char_nonempty c). destruct (utf8_char c); [cbn in *; lia|discriminate].
Qed.

(** What an argument leaves behind when it is normalised and dropped. *)
Definition argument_left (U : ucd) (c : cow) (f : freed) : Prop :=
  (forall s cap, c = Owned s cap -> cap <> 0 -> In (utf8 s) f) /\
  (is_nfkd_quick U (cow_str c) = false -> nfkd U (cow_str c) <> [] -> In (utf8 (nfkd U (cow_str c))) f).

Lemma drop_owned s cap : cap <> 0 -> In (utf8 s) (drop_cow (Owned s cap)).
Proof. intros H. unfold drop_cow, drop_buf. cbn [bf_cap bf_data]. apply N.eqb_neq in H. rewrite H. left. reflexivity. Qed.

Lemma normalize_left U c g : let '(f, c') := normalize_m Al U c in
  cow_str c' = normalize_utf8 U (cow_str c) /\ argument_left U c (f ++ g ++ drop_cow c').
Proof.
  unfold normalize_m, normalize_utf8. destruct (is_nfkd_quick U (cow_str c)) eqn:EQ.
  - split; [reflexivity|]. split; [|intros H; congruence].
    intros s cap -> H. cbn [app]. apply in_or_app. right. apply drop_owned, H.
  - destruct (to_string_m Al (nfkd U (cow_str c))) as [f b] eqn:ET. split; [reflexivity|]. split.
    + intros s cap -> H. apply in_or_app. left. apply in_or_app. right. apply drop_owned, H.
    + intros _ HN. apply in_or_app. right. apply in_or_app. right. apply drop_owned.
      pose proof (to_string_cap (nfkd U (cow_str c)) ([], with_capacity 0) (or_intror HN)) as HC.
      unfold to_string_m in ET. rewrite ET in HC. exact HC.
Qed.

(** Entropy bytes [e] and checksum bits [cs] of known words. *)
Definition decodes_to (L : Language) (ws : list str) (e : list byte) (cs : list bool) : Prop :=
  exists idxs, Forall2 (fun w i => lang_index_of L w = Some i) ws idxs /\ index_bits idxs = bytes_bits e ++ cs.

(** A phrase with an unknown word: the words up to it are released, and the whole
    bytes they decode to (followed by zeros). *)
Theorem C78_unknown_word U L c w :
  from_phrase U L (cow_str c) = Err (UnknownWord w) ->
  exists f pre post d q n, from_phrase_m Al U (any_of L) c = (f, Err (UnknownWord w)) /\
    words_of (normalize_utf8 U (cow_str c)) (pre ++ w :: post) /\ lang_index_of L w = None /\
    decodes_to L pre d q /\ (length q < 8)%nat /\
    In (utf8 (join [32] (pre ++ [w]))) f /\ In (d ++ repeat x00 n) f /\ argument_left U c f.
Proof.
  intros E. unfold from_phrase, from_normalized_phrase in E. set (s := normalize_utf8 U (cow_str c)) in *.
  change (decode_phrase L s BuildNormalizedPhrase) with (decode_phrase_with (any_of L) s BuildNormalizedPhrase) in E.
  pose proof (decode_phrase_agree Al (any_of L) s BuildNormalizedPhrase) as HA.
  destruct (decode_phrase_with (any_of L) s BuildNormalizedPhrase) as [d|e|]; cbn [bind] in E;
    [destruct (dp_normalized d); discriminate| |discriminate].
  injection E as ->. destruct HA as [f0 EM].
  pose proof (decode_phrase_m_spec Al (any_of L) s BuildNormalizedPhrase) as HS. rewrite EM in HS.
  inversion HS as [|pre w' post idxs d q n HWs HF HX HB Hq st EF| |]. subst w'.
  pose proof (split_words_nonempty s) as HNE. rewrite HWs in HNE.
  assert (HNE' : Forall (fun w => w <> []) (pre ++ [w])).
  { rewrite Forall_app in *. destruct HNE as [F1 F2]. inversion F2; subst. split; [exact F1|]. constructor; [assumption|constructor]. }
  assert (Hlen : (0 < length (split_whitespace s))%nat) by (rewrite HWs, app_length; cbn [length]; lia).
  pose proof (drop_opt_words (pre ++ [w]) _ Hlen HNE') as HD.
  destruct (normalize_m Al U c) as [f1 c'] eqn:EN.
  pose proof (normalize_left U c f0) as HNL. rewrite EN in HNL. destruct HNL as [ES HL]. fold s in ES.
  exists (f1 ++ f0 ++ drop_cow c'), pre, post, d, q, n.
  split; [unfold from_phrase_m; rewrite EN; unfold from_normalized_phrase_m; rewrite ES, EM; reflexivity|].
  split; [rewrite <- HWs; apply words_of_split|]. split; [exact HX|].
  split; [exists idxs; split; assumption|]. split; [exact Hq|].
  assert (I1 : In (utf8 (join [32] (pre ++ [w]))) f0 /\ In (d ++ repeat x00 n) f0).
  { rewrite <- EF. unfold st. split.
    - apply in_or_app. right. right. rewrite HD. left. reflexivity.
    - apply in_or_app. right. left. reflexivity. }
  split; [apply in_or_app; right; apply in_or_app; left; apply I1|].
  split; [apply in_or_app; right; apply in_or_app; left; apply I1|]. exact HL.
Qed.

(** A phrase with a wrong checksum: all its words and the entropy they encode. *)
Theorem C78_invalid_checksum U L c :
  from_phrase U L (cow_str c) = Err InvalidChecksum ->
  exists f ws e cs, from_phrase_m Al U (any_of L) c = (f, Err InvalidChecksum) /\
    words_of (normalize_utf8 U (cow_str c)) ws /\ decodes_to L ws e cs /\ (3 * length cs = length ws)%nat /\
    In (utf8 (join [32] ws)) f /\ In e f /\ argument_left U c f.
Proof.
  intros E. unfold from_phrase, from_normalized_phrase in E. set (s := normalize_utf8 U (cow_str c)) in *.
  change (decode_phrase L s BuildNormalizedPhrase) with (decode_phrase_with (any_of L) s BuildNormalizedPhrase) in E.
  pose proof (decode_phrase_agree Al (any_of L) s BuildNormalizedPhrase) as HA.
  destruct (decode_phrase_outcome (any_of L) s BuildNormalizedPhrase) as [r [HP HR]].
  destruct (decode_phrase_with (any_of L) s BuildNormalizedPhrase) as [d|e|] eqn:ED; cbn [bind] in E;
    [destruct (dp_normalized d); discriminate| |discriminate].
  injection E as ->. destruct HA as [f0 EM].
  assert (HLW : legal_word_count (length (split_whitespace s))).
  { destruct r; try discriminate HR. inversion HP as [| |ws idxs e cs W HL|]. rewrite (split_words_of _ _ W). exact HL. }
  pose proof (decode_phrase_m_spec Al (any_of L) s BuildNormalizedPhrase) as HS. rewrite EM in HS.
  inversion HS as [| |idxs e cs HF HB Hcs st EF|].
  assert (Hlen : (0 < length (split_whitespace s))%nat) by (unfold legal_word_count in HLW; cbn [In] in HLW; lia).
  pose proof (drop_opt_words (split_whitespace s) _ Hlen (split_words_nonempty s)) as HD.
  destruct (normalize_m Al U c) as [f1 c'] eqn:EN.
  pose proof (normalize_left U c f0) as HNL. rewrite EN in HNL. destruct HNL as [ES HL]. fold s in ES.
  exists (f1 ++ f0 ++ drop_cow c'), (split_whitespace s), e, cs.
  split; [unfold from_phrase_m; rewrite EN; unfold from_normalized_phrase_m; rewrite ES, EM; reflexivity|].
  split; [apply words_of_split|]. split; [exists idxs; split; assumption|]. split; [exact Hcs|].
  assert (I1 : In (utf8 (join [32] (split_whitespace s))) f0 /\ In e f0).
  { rewrite <- EF. unfold st. split.
    - apply in_or_app. right. right. rewrite HD. left. reflexivity.
    - apply in_or_app. right. left. reflexivity. }
  split; [apply in_or_app; right; apply in_or_app; left; apply I1|].
  split; [apply in_or_app; right; apply in_or_app; left; apply I1|]. exact HL.
Qed.

(** A phrase that [validate] accepts: the entropy. *)
Theorem C78_validate U L B c :
  lang_contract U L -> valid_build B -> validate U L (cow_str c) = Ok tt ->
  exists m f, from_phrase U L (cow_str c) = Ok m /\ validate_m Al U (any_of L) c = (f, Ok tt) /\
    In (entropy m) f /\ argument_left U c f.
Proof.
  intros LC HB E. rewrite validate_agrees in E.
  destruct (from_phrase U L (cow_str c)) as [m| |] eqn:EP; [|discriminate|discriminate]. clear E.
  unfold from_phrase in EP. set (s := normalize_utf8 U (cow_str c)) in *.
  destruct (accepted U L LC B s m HB EP) as [idxs [ws [W [HLW [HI [F [Fin [_ [HL _]]]]]]]]].
  destruct (decode_phrase_outcome (any_of L) s ValidateOnly) as [r1 [H1 E1]].
  destruct (decode_phrase_outcome (any_of L) s BuildNormalizedPhrase) as [r2 [H2 E2]].
  rewrite (parse_spec_fun _ _ _ _ H1 H2) in E1.
  unfold from_normalized_phrase in EP.
  change (decode_phrase L s BuildNormalizedPhrase) with (decode_phrase_with (any_of L) s BuildNormalizedPhrase) in EP.
  rewrite E2 in EP. destruct r2 as [n|w| |e p]; cbn [bind] in EP; try discriminate. injection EP as <-.
  pose proof (decode_phrase_agree Al (any_of L) s ValidateOnly) as HA. rewrite E1 in HA. cbn [dp_entropy dp_normalized] in HA.
  destruct HA as [f0 [b [EM _]]]. cbn [m_entropy] in HL.
  destruct (normalize_m Al U c) as [f1 c'] eqn:EN.
  pose proof (normalize_left U c (f0 ++ [e] ++ drop_opt b)) as HNL. rewrite EN in HNL. destruct HNL as [ES HAL]. fold s in ES.
  eexists _, _. split; [reflexivity|]. split.
  { unfold validate_m. rewrite EN, ES, EM. rewrite drop_full; [reflexivity|].
    intros ->. unfold legal_entropy_len in HL. cbn [In length] in HL. lia. }
  cbn [entropy m_entropy]. rewrite <- !app_assoc in HAL. split; [|exact HAL].
  apply in_or_app. right. apply in_or_app. right. left. reflexivity.
Qed.

(** A phrase that is accepted: the argument, and what growing the phrase buffer
    released (C77). *)
Theorem C78_accepted U L c m :
  from_phrase U L (cow_str c) = Ok m ->
  exists f hm, from_phrase_m Al U (any_of L) c = (f, Ok hm) /\
    bf_data (hm_phrase hm) = utf8 (phrase m) /\ bf_data (hm_entropy hm) = entropy m /\ argument_left U c f.
Proof.
  intros E. unfold from_phrase, from_normalized_phrase in E. set (s := normalize_utf8 U (cow_str c)) in *.
  change (decode_phrase L s BuildNormalizedPhrase) with (decode_phrase_with (any_of L) s BuildNormalizedPhrase) in E.
  pose proof (decode_phrase_agree Al (any_of L) s BuildNormalizedPhrase) as HA.
  destruct (decode_phrase_with (any_of L) s BuildNormalizedPhrase) as [d|e|]; cbn [bind] in E; [|discriminate|discriminate].
  destruct HA as [f0 [b [EM HT]]]. destruct (dp_normalized d) as [p|]; [|discriminate].
  injection E as <-. destruct b as [b|]; [|contradiction].
  destruct (normalize_m Al U c) as [f1 c'] eqn:EN.
  pose proof (normalize_left U c f0) as HNL. rewrite EN in HNL. destruct HNL as [ES HL]. fold s in ES.
  eexists _, _.
  split; [unfold from_phrase_m; rewrite EN; unfold from_normalized_phrase_m; rewrite ES, EM; reflexivity|].
  split; [exact HT|]. split; [reflexivity|exact HL].
Qed.

Theorem C78_validate_errors U L c :
  (forall w, validate U L (cow_str c) = Err (UnknownWord w) ->
     exists f pre post d q n, validate_m Al U (any_of L) c = (f, Err (UnknownWord w)) /\
       words_of (normalize_utf8 U (cow_str c)) (pre ++ w :: post) /\ lang_index_of L w = None /\
       decodes_to L pre d q /\ (length q < 8)%nat /\ In (d ++ repeat x00 n) f /\ argument_left U c f) /\
  (validate U L (cow_str c) = Err InvalidChecksum ->
     exists f ws e cs, validate_m Al U (any_of L) c = (f, Err InvalidChecksum) /\
       words_of (normalize_utf8 U (cow_str c)) ws /\ decodes_to L ws e cs /\ (3 * length cs = length ws)%nat /\
       In e f /\ argument_left U c f).
Proof.
  unfold validate. set (s := normalize_utf8 U (cow_str c)) in *.
  change (decode_phrase L s ValidateOnly) with (decode_phrase_with (any_of L) s ValidateOnly).
  pose proof (decode_phrase_agree Al (any_of L) s ValidateOnly) as HA.
  pose proof (decode_phrase_m_spec Al (any_of L) s ValidateOnly) as HS. cbn [norm0] in HS.
  destruct (normalize_m Al U c) as [f1 c'] eqn:EN.
  pose proof (normalize_left U c) as HNL. rewrite EN in HNL.
  assert (ES : cow_str c' = s) by (apply (HNL [])).
  split.
  - intros w E. destruct (decode_phrase_with (any_of L) s ValidateOnly) as [d|e|]; cbn [bind] in E; [discriminate| |discriminate].
    injection E as ->. destruct HA as [f0 EM]. rewrite EM in HS.
    inversion HS as [|pre w' post idxs d q n HWs HF HX HB Hq st EF| |]. subst w'.
    exists (f1 ++ f0 ++ drop_cow c'), pre, post, d, q, n.
    split; [unfold validate_m; rewrite EN, ES, EM; reflexivity|].
    split; [rewrite <- HWs; apply words_of_split|]. split; [exact HX|]. split; [exists idxs; split; assumption|].
    split; [exact Hq|]. split; [|apply HNL].
    apply in_or_app; right; apply in_or_app; left. rewrite <- EF. apply in_or_app. right. left. reflexivity.
  - intros E. destruct (decode_phrase_with (any_of L) s ValidateOnly) as [d|e|]; cbn [bind] in E; [discriminate| |discriminate].
    injection E as ->. destruct HA as [f0 EM]. rewrite EM in HS.
    inversion HS as [| |idxs e cs HF HB Hcs st EF|].
    exists (f1 ++ f0 ++ drop_cow c'), (split_whitespace s), e, cs.
    split; [unfold validate_m; rewrite EN, ES, EM; reflexivity|].
    split; [apply words_of_split|]. split; [exists idxs; split; assumption|]. split; [exact Hcs|].
    split; [|apply HNL].
    apply in_or_app; right; apply in_or_app; left. rewrite <- EF. apply in_or_app. right. left. reflexivity.
Qed.

(** ** C79 *)
Theorem C79_passphrase U cap p :
  In (utf8 (lit "mnemonic" ++ p)) (to_seed_m Al U cap p) /\
  (is_nfkd_quick U (lit "mnemonic" ++ p) = false -> nfkd U (lit "mnemonic" ++ p) <> [] ->
   In (utf8 (nfkd U (lit "mnemonic" ++ p))) (to_seed_m Al U cap p)).
Proof.
  unfold to_seed_m.
  assert (HC : bf_cap (snd (push_bytes Al (push_bytes Al ([], with_capacity cap) (utf8 (lit "mnemonic"))) (utf8 p))) <> 0).
  { apply push_bytes_cap. left. apply push_bytes_cap. right. discriminate. }
  destruct (push_bytes Al (push_bytes Al _ _) (utf8 p)) as [f b]. cbn [snd] in HC.
  pose proof (normalize_left U (Owned (lit "mnemonic" ++ p) (bf_cap b)) []) as HN.
  destruct (normalize_m Al U (Owned (lit "mnemonic" ++ p) (bf_cap b))) as [f1 c'].
  destruct HN as [_ [H1 H2]]. cbn [app cow_str] in *. split.
  - apply in_or_app. right. eapply H1; [reflexivity|exact HC].
  - intros HQ HX. apply in_or_app. right. apply H2; assumption.
Qed.
End Typed.
Print Assumptions C78_unknown_word.
Print Assumptions C78_invalid_checksum.
Print Assumptions C78_validate.
Print Assumptions C78_accepted.
Print Assumptions C78_validate_errors.
Print Assumptions C79_passphrase.

Definition zoos (last : str) : str := flat_map (fun w => w) (repeat (lit "zoo ") 11) ++ last.
Definition released (r : mem unit) (want : freed) : bool :=
  match r with
  | (f, Err InvalidChecksum) => list_eqb bytes_eqb f want
  | (f, Ok _) => list_eqb bytes_eqb f want
  | _ => false
  end.

(** Twelve times "zoo" has a wrong checksum; with "wrong" as last word the
    checksum is right and the entropy is sixteen bytes 0xff. *)
Example C78_case : growing doubling /\
  released (let '(f, r) := from_phrase_m doubling ucd15 (as_any_language BEnglish) (Borrowed (zoos (lit "zoo"))) in
            (f, res_map (fun _ => tt) r)) [repeat xff 16; utf8 (zoos (lit "zoo"))] = true /\
  released (validate_m doubling ucd15 (as_any_language BEnglish) (Borrowed (zoos (lit "wrong")))) [repeat xff 16] = true.
Proof.
  split; [intros c n; cbn; lia|]. split; vm_cast_no_check (eq_refl true).
Qed.

Example C79_case : to_seed_m doubling ucd15 16 (lit "hunter2hunter2") =
  [utf8 (lit "mnemonic"); utf8 (lit "mnemonichunter2hunter2")].
Proof. vm_compute. reflexivity. Qed.
