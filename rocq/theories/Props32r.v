(** Property theorems about which error each bip0032 operation returns (C80-C82). *)
From Verif Require Import Base Str StrProofs Sha2 Error32 Path32 PathSpec32 PathProofs32 Version32 Meta32
  Payload32 Base58 Base58Spec Base58Proofs PayloadSpec32 PayloadProofs32 Curve32 XKey32 XKeySpec32 XKeyProofs32
  Slip10 SlipProofs32 Cyclic32 Eqb32 Props32 Props32d Props32s.

(** ** C80: paths *)

(** [c] spells the number [n] as [spells] says, with any bound the caller adds. *)
Definition spells_number (c : str) (n : N) : Prop :=
  exists plus ds suffix,
    c = plus ++ ds ++ suffix /\ (plus = [] \/ plus = lit "+") /\
    ds <> [] /\ Forall is_digit ds /\ digits_value ds = n /\
    (suffix = [] \/ suffix = lit "'" \/ suffix = lit "h" \/ suffix = lit "H").

(** What is wrong with the component [c] of [path], and the error that says so. *)
Definition path_error (msg key value : str) : Error :=
  {| e_kind := InvalidPath; e_message := msg; e_context := [(key, value)]; e_source := None |}.
Inductive component_fault (path : str) : str -> Error -> Prop :=
| fault_empty : component_fault path [] (path_error (lit "empty path component") (lit "path") path)
| fault_marker c : c = lit "'" \/ c = lit "h" \/ c = lit "H" ->
    component_fault path c (path_error (lit "missing child index") (lit "component") c)
| fault_large c n : spells_number c n -> 2 ^ 31 <= n < 2 ^ 32 ->
    component_fault path c (path_error (lit "child index must be less than 2^31") (lit "child_index") (dec n))
| fault_other c : c <> [] -> c <> lit "'" -> c <> lit "h" -> c <> lit "H" ->
    (forall n, spells_number c n -> 2 ^ 32 <= n) ->
    component_fault path c (path_error (lit "invalid child index") (lit "component") c).

Lemma marker_no_digit c : is_digit c -> c <> 39 /\ c <> 104 /\ c <> 72.
Proof. unfold is_digit. lia. Qed.
(** The part before the marker is unique. *)
Lemma number_cut num num' suf suf' :
  num ++ suf = num' ++ suf' ->
  (suf = [] -> forall t x, num = t ++ [x] -> x <> 39 /\ x <> 104 /\ x <> 72) ->
  (suf' = [] -> forall t x, num' = t ++ [x] -> x <> 39 /\ x <> 104 /\ x <> 72) ->
  (suf = [] \/ suf = lit "'" \/ suf = lit "h" \/ suf = lit "H") ->
  (suf' = [] \/ suf' = lit "'" \/ suf' = lit "h" \/ suf' = lit "H") -> num = num' /\ suf = suf'.
Proof.
  assert (K : forall s, s = [] \/ s = lit "'" \/ s = lit "h" \/ s = lit "H" ->
    s = [] \/ exists x, s = [x] /\ (x = 39 \/ x = 104 \/ x = 72)).
  { intros s [->|[->|[->| ->]]]; [left; reflexivity|right; eexists; (split; [reflexivity|]); vm_compute; auto..]. }
  intros E H H' S S'. apply K in S, S'. clear K.
  destruct S as [->|(x & -> & Hx)]; destruct S' as [->|(y & -> & Hy)].
  - rewrite !app_nil_r in E. auto.
  - rewrite app_nil_r in E. exfalso. specialize (H eq_refl _ _ E). lia.
  - rewrite app_nil_r in E. exfalso. symmetry in E. specialize (H' eq_refl _ _ E). lia.
  - apply app_inj_tail in E as [-> ->]. auto.
Qed.

Lemma component_error path w e : w <> [] -> (parse_child_component w = Err e <-> component_fault path w e).
Proof.
  intros NE. unfold parse_child_component.
  destruct (suffix_cases w) as (number & hardened & E & Hs). rewrite E.
  assert (HW : exists suf, w = number ++ suf /\ (suf = [] \/ suf = lit "'" \/ suf = lit "h" \/ suf = lit "H") /\
    (suf = [] -> forall t x, number = t ++ [x] -> x <> 39 /\ x <> 104 /\ x <> 72) /\ (hardened = false -> suf = [])).
  { destruct hardened.
    - destruct Hs as (suf & Hsuf & Ew). exists suf. split; [exact Ew|]. split; [tauto|]. split; [|discriminate].
      intros ->. exfalso. destruct Hsuf as [X|[X|X]]; discriminate X.
    - exists []. rewrite app_nil_r. split; [exact Hs|]. split; [auto|]. split; [|auto].
      intros _ t x Ex. rewrite <- Hs in Ex. subst w. rewrite Ex in E. rewrite !strip_suffix_snoc in E.
      destruct (x =? 39) eqn:X1; [discriminate|]. destruct (x =? 104) eqn:X2; [discriminate|].
      destruct (x =? 72) eqn:X3; [discriminate|]. lia. }
  clear Hs E. destruct HW as (suf & Ew & Hsuf & Hend & _).
  assert (SP : forall n, spells_number w n <->
     exists plus ds, number = plus ++ ds /\ (plus = [] \/ plus = lit "+") /\ ds <> [] /\ Forall is_digit ds /\ digits_value ds = n).
  { intros n. split.
    - intros (plus & ds & suf' & E' & Hp & Hne & Hd & Hv & Hsuf'). exists plus, ds.
      rewrite Ew, app_assoc in E'. apply number_cut in E' as [-> _]; auto.
      intros _ t x Ex. apply marker_no_digit.
      destruct (exists_last Hne) as (ds' & d & ->). rewrite app_assoc in Ex. apply app_inj_tail in Ex as [_ <-].
      apply Forall_app in Hd as [_ Hd]. inversion Hd; assumption.
    - intros (plus & ds & -> & Hp & Hne & Hd & Hv). exists plus, ds, suf. rewrite <- app_assoc in Ew. auto 8. }
  destruct (is_empty number) eqn:En.
  - destruct number; [|discriminate]. cbn [app] in Ew. subst suf.
    assert (M : w = lit "'" \/ w = lit "h" \/ w = lit "H") by (destruct Hsuf as [->|Hsuf]; [contradiction|exact Hsuf]).
    split.
    + intros [= <-]. apply fault_marker. exact M.
    + intros F. inversion F as [E1 E2|c Hc E1 E2|c n Hn Hb E1 E2|c H1 H2 H3 H4 H5 E1 E2]; subst.
      * contradiction.
      * reflexivity.
      * exfalso. apply SP in Hn as (plus & ds & E' & _ & Hne & _). destruct plus, ds; try discriminate; congruence.
      * exfalso. tauto.
  - assert (NM : w <> lit "'" /\ w <> lit "h" /\ w <> lit "H").
    { destruct number as [|x number]; [discriminate|].
      repeat split; intros ->; (destruct number as [|y number]; [|destruct number; discriminate Ew]);
        cbn [app] in Ew; injection Ew as E1 E2; subst x; symmetry in E2;
        specialize (Hend E2 [] _ eq_refl); vm_compute in Hend; lia. }
    destruct (parse_u32 number) as [i|] eqn:Ep.
    + apply parse_u32_iff in Ep as (plus & ds & Enum & Hp & Hne & Hd & Hv & Hi).
      assert (SN : spells_number w i) by (apply SP; exists plus, ds; auto).
      assert (UN : forall n, spells_number w n -> n = i).
      { intros n Hn. apply SP in Hn as (plus' & ds' & E' & Hp' & Hne' & Hd' & Hv').
        assert (D : ds' = ds).
        { rewrite Enum in E'. clear -E' Hp Hp' Hd Hd' Hne Hne'.
          destruct Hp as [->| ->], Hp' as [->| ->]; cbn [app lit lit_aux] in E'.
          - auto.
          - exfalso. change (ds = 43 :: ds') in E'. subst ds. inversion Hd as [|? ? X]; subst. unfold is_digit in X. lia.
          - exfalso. change (43 :: ds = ds') in E'. subst ds'. inversion Hd' as [|? ? X]; subst. unfold is_digit in X. lia.
          - injection E' as E'. auto. }
        subst ds'. congruence. }
      unfold child_new, HARDENED_OFFSET. destruct (0x80000000 <=? i) eqn:B.
      * split.
        -- intros [= <-]. apply fault_large; [exact SN|]. lia.
        -- intros F. inversion F as [E1 E2|c Hc E1 E2|c n Hn Hb E1 E2|c H1 H2 H3 H4 H5 E1 E2]; subst.
           ++ congruence.
           ++ exfalso. tauto.
           ++ rewrite (UN _ Hn). reflexivity.
           ++ exfalso. specialize (H5 _ SN). lia.
      * split; [discriminate|]. intros F.
        inversion F as [E1 E2|c Hc E1 E2|c n Hn Hb E1 E2|c H1 H2 H3 H4 H5 E1 E2]; subst.
        -- congruence.
        -- exfalso. tauto.
        -- exfalso. specialize (UN _ Hn). lia.
        -- exfalso. specialize (H5 _ SN). lia.
    + assert (BIG : forall n, spells_number w n -> 2 ^ 32 <= n).
      { intros n Hn. apply SP in Hn as (plus & ds & E' & Hp & Hne & Hd & Hv).
        destruct (N.lt_ge_cases n (2 ^ 32)) as [L|L]; [|exact L]. exfalso.
        assert (Q : parse_u32 number = Some n) by (apply parse_u32_iff; exists plus, ds; auto 8). congruence. }
      split.
      * intros [= <-]. apply fault_other; tauto.
      * intros F. inversion F as [E1 E2|c Hc E1 E2|c n Hn Hb E1 E2|c H1 H2 H3 H4 H5 E1 E2]; subst.
        -- congruence.
        -- exfalso. tauto.
        -- exfalso. specialize (BIG _ Hn). lia.
        -- reflexivity.
Qed.

Lemma parts_error path parts : forall acc e,
  parse_parts path acc parts = Err e <->
  exists pre c post cs, parts = pre ++ c :: post /\ Forall2 spells_child pre cs /\ component_fault path c e.
Proof.
  induction parts as [|w ws IH]; intros acc e; cbn [parse_parts].
  - split; [discriminate|]. intros (pre & c & post & cs & E & _). destruct pre; discriminate.
  - destruct (is_empty w) eqn:Ew.
    + destruct w; [|discriminate]. split.
      * intros [= <-]. exists [], [], ws, []. repeat split; constructor.
      * intros (pre & c & post & cs & E & F & H). destruct pre as [|p pre].
        -- cbn [app] in E. injection E as <- <-.
           inversion H as [E1 E2|c0 Hc E1 E2|c0 n Hn Hb E1 E2|c0 H1 H2 H3 H4 H5 E1 E2]; subst.
           ++ reflexivity.
           ++ destruct Hc as [X|[X|X]]; discriminate X.
           ++ destruct Hn as (plus & ds & suf & E' & _ & Hne & _). destruct plus; [destruct ds; [congruence|discriminate]|discriminate].
           ++ congruence.
        -- exfalso. cbn [app] in E. injection E as <- _. inversion F; subst. apply spells_not_empty in H2. congruence.
    + assert (NE : w <> []) by (destruct w; [discriminate|discriminate]).
      destruct (parse_child_component w) as [c|e0|] eqn:Ec; cbn [bind].
      * rewrite IH. apply component_iff in Ec. split.
        -- intros (pre & c' & post & cs & -> & F & H). exists (w :: pre), c', post, (c :: cs).
           split; [reflexivity|]. split; [constructor; assumption|exact H].
        -- intros (pre & c' & post & cs & E & F & H). destruct pre as [|p pre].
           ++ exfalso. cbn [app] in E. injection E as <- <-. apply component_error in H; [|exact NE].
              apply component_iff in Ec. congruence.
           ++ cbn [app] in E. injection E as <- ->. inversion F; subst. eauto 8.
      * split.
        -- intros [= <-]. exists [], w, ws, []. split; [reflexivity|]. split; [constructor|]. apply component_error; assumption.
        -- intros (pre & c & post & cs & E & F & H). destruct pre as [|p pre].
           ++ cbn [app] in E. injection E as <- <-. apply component_error in H; [|exact NE]. congruence.
           ++ exfalso. cbn [app] in E. injection E as <- _. inversion F; subst. apply component_iff in H2. congruence.
      * elim (component_no_panic _ Ec).
Qed.

Lemma split_parts s : Forall (Forall (fun c => c <> 47)) (split_on (fun c => c =? 47) s).
Proof.
  unfold split_on. assert (G : forall cur, Forall (fun c => c <> 47) cur ->
    Forall (Forall (fun c => c <> 47)) (split_acc (fun c => c =? 47) cur s)); [|apply G; constructor].
  induction s as [|c s IH]; intros cur F; cbn [split_acc].
  - repeat constructor. apply Forall_rev. exact F.
  - destruct (c =? 47) eqn:E.
    + constructor; [apply Forall_rev; exact F|]. apply IH. constructor.
    + apply IH. constructor; [lia|exact F].
Qed.

(** C80: a rejected path names the first component that is not a child number, and what is wrong
    with it.  [prefix] is "m/" or "M/" when the path begins so; the components are the pieces
    between the slashes. *)
Theorem C80_path_error s e :
  path_parse s = Err e <->
  (s = [] /\ e = path_error (lit "derivation path is empty") (lit "path") []) \/
  (s <> [] /\ s <> lit "m" /\ s <> lit "M" /\
   exists prefix good c rest numbers,
     s = prefix ++ join (lit "/") (good ++ c :: rest) /\
     (prefix = lit "m/" \/ prefix = lit "M/" \/
      prefix = [] /\ forall t, s <> lit "m/" ++ t /\ s <> lit "M/" ++ t) /\
     Forall (Forall (fun x => x <> 47)) (good ++ c :: rest) /\
     Forall2 spells_child good numbers /\ component_fault s c e).
Proof.
  unfold path_parse. destruct (is_empty s) eqn:Es.
  { destruct s; [|discriminate]. split.
    - intros [= <-]. left. auto.
    - intros [[_ ->]|[H _]]; [reflexivity|congruence]. }
  assert (NE : s <> []) by (destruct s; [discriminate|discriminate]).
  destruct (str_eqb s (lit "m") || str_eqb s (lit "M")) eqn:Em.
  { split; [discriminate|]. intros [[H _]|(_ & H1 & H2 & _)]; [contradiction|].
    apply orb_true_iff in Em as [E|E]; apply str_eqb_eq in E; contradiction. }
  assert (Hm : s <> lit "m" /\ s <> lit "M").
  { apply orb_false_iff in Em as [E1 E2]. split; intros ->; discriminate. }
  set (rest := match strip_prefix (lit "m/") s with
      | Some s => s
      | None => match strip_prefix (lit "M/") s with Some s => s | None => s end
      end).
  assert (R : exists pre, s = pre ++ rest /\
    (pre = lit "m/" \/ pre = lit "M/" \/ pre = [] /\ forall t, s <> lit "m/" ++ t /\ s <> lit "M/" ++ t)).
  { unfold rest. destruct (strip_prefix (lit "m/") s) as [t|] eqn:E1.
    { apply strip_prefix_some in E1. exists (lit "m/"). auto. }
    destruct (strip_prefix (lit "M/") s) as [t|] eqn:E2.
    { apply strip_prefix_some in E2. exists (lit "M/"). auto. }
    exists []. rewrite strip_prefix_none in E1, E2. split; [reflexivity|]. right. right. split; [reflexivity|].
    intros t. auto. }
  assert (U : forall pre t, s = pre ++ t ->
    (pre = lit "m/" \/ pre = lit "M/" \/ pre = [] /\ forall t, s <> lit "m/" ++ t /\ s <> lit "M/" ++ t) -> t = rest).
  { destruct R as (p0 & E0 & H0). intros pre t E H. rewrite E0 in E.
    destruct H0 as [->|[->|[-> H0]]]; destruct H as [->|[->|[-> H]]]; cbn in E.
    - injection E as E. congruence.
    - discriminate E.
    - exfalso. apply (proj1 (H rest)). rewrite E0. reflexivity.
    - discriminate E.
    - injection E as E. congruence.
    - exfalso. apply (proj2 (H rest)). rewrite E0. reflexivity.
    - exfalso. apply (proj1 (H0 t)). rewrite E0. exact E.
    - exfalso. apply (proj2 (H0 t)). rewrite E0. exact E.
    - congruence. }
  assert (G : (if is_empty rest then
      Err (with_context (err_new InvalidPath (lit "empty path component")) (lit "path") s)
    else parse_parts s [] (split_on (fun c => c =? 47) rest)) = parse_parts s [] (split_on (fun c => c =? 47) rest)).
  { destruct (is_empty rest) eqn:Er; [|reflexivity]. destruct rest; [|discriminate]. reflexivity. }
  rewrite G, parts_error. split.
  - intros (pre & c & post & cs & E & F & H). right. split; [exact NE|]. split; [apply Hm|]. split; [apply Hm|].
    destruct R as (prefix & Ep & Hp). exists prefix, pre, c, post, cs.
    rewrite <- E. split.
    + rewrite Ep at 1. f_equal. unfold split_on. rewrite (proj1 (join_split_slash rest [])). reflexivity.
    + split; [exact Hp|]. split; [apply split_parts|]. auto.
  - intros [[H _]|(_ & _ & _ & prefix & good & c & post & cs & E & Hp & NS & F & H)]; [contradiction|].
    specialize (U _ _ E Hp). exists good, c, post, cs. split; [|auto]. rewrite <- U.
    apply split_slash_join; [destruct good; discriminate|].
    eapply Forall_impl; [|exact NS]. intros a Ha. eapply Forall_impl; [|exact Ha]. intros x Hx. apply N.eqb_neq. exact Hx.
Qed.
Print Assumptions C80_path_error.

Example C80_case :
  path_parse (lit "m/44'/x/h") = Err (path_error (lit "invalid child index") (lit "component") (lit "x")) /\
  path_parse (lit "m/44'/h/x") = Err (path_error (lit "missing child index") (lit "component") (lit "h")) /\
  path_parse (lit "0/4294967295'//") =
    Err (path_error (lit "child index must be less than 2^31") (lit "child_index") (lit "4294967295")) /\
  path_parse (lit "0/1//2") = Err (path_error (lit "empty path component") (lit "path") (lit "0/1//2")) /\
  option_map show_error (match path_parse (lit "M/") with Err e => Some e | _ => None end) =
    Some (lit "InvalidPath: empty path component { path=M/ }") /\
  (component_fault (lit "m/44'/x/h") (lit "x") (path_error (lit "invalid child index") (lit "component") (lit "x"))).
Proof.
  repeat (split; [vm_compute; reflexivity|]).
  apply (component_error (lit "m/44'/x/h")); [discriminate|vm_compute; reflexivity].
Qed.

(** Such an error prints on one line when the path has no line feed, so C73 applies to it. *)
Theorem C80_one_line shows s e : ~ In 10 s -> path_parse s = Err e -> one_line shows e.
Proof.
  intros NL H. assert (N1 : forall c t, existsb (N.eqb c) t = false -> ~ In c t).
  { intros c t H0 I0. assert (T : existsb (N.eqb c) t = true) by (apply existsb_exists; exists c; split; [exact I0|apply N.eqb_refl]). congruence. }
  assert (G : forall msg key value, existsb (N.eqb 10) msg = false -> existsb (N.eqb 10) key = false ->
    existsb (N.eqb 58) key = false -> ~ In 10 value -> one_line shows (path_error msg key value)).
  { intros msg key value A1 A2 A3 A4. split; [apply N1; exact A1|]. split; [|exact I].
    cbn [path_error e_context]. repeat constructor; cbn [fst snd]; auto. }
  apply C80_path_error in H as [[-> ->]|(_ & _ & _ & prefix & good & c & rest & ns & E & _ & _ & _ & F)].
  - apply G; try reflexivity. intros [].
  - assert (NC : ~ In 10 c).
    { intros I0. apply NL. rewrite E. apply in_or_app. right. clear -I0.
      induction good as [|g good IH]; cbn [app].
      - destruct rest; cbn [join]; [exact I0|apply in_or_app; auto].
      - destruct (good ++ c :: rest) as [|y ys] eqn:Ey; [destruct good; discriminate|].
        change (join (lit "/") (g :: y :: ys)) with (g ++ lit "/" ++ join (lit "/") (y :: ys)).
        apply in_or_app. right. apply in_or_app. right. exact IH. }
    inversion F as [E1 E2|c0 Hc E1 E2|c0 n Hn Hb E1 E2|c0 H1 H2 H3 H4 H5 E1 E2]; subst; apply G; try reflexivity; auto.
    intros I0. destruct (dec_spec n) as (_ & D & _). rewrite Forall_forall in D. specialize (D _ I0). unfold is_digit in D. lia.
Qed.
Print Assumptions C80_one_line.

(** ** C81: extended key strings *)

(** Why a text is not the Base58Check form of at most [cap - 4] bytes, as bs58 reports it.
    [u] are the UTF-8 bytes of the text. *)
Definition b58_prefix (u : list N) (vs : list N) : Prop := Forall2 digit_char vs u.
Inductive b58_fault (cap : nat) (u : list N) : Source -> Prop :=
| b58_non_ascii pre c post vs : u = pre ++ c :: post -> b58_prefix pre vs ->
    digits_val 58 vs < 256 ^ N.of_nat cap -> 128 <= c -> b58_fault cap u (SNonAscii (length pre))
| b58_character pre c post vs : u = pre ++ c :: post -> b58_prefix pre vs ->
    digits_val 58 vs < 256 ^ N.of_nat cap -> c < 128 -> ~ In c alphabet58 ->
    b58_fault cap u (SInvalidCharacter c (length pre))
| b58_too_large pre post vs : u = pre ++ post -> b58_prefix pre vs ->
    256 ^ N.of_nat cap <= digits_val 58 vs -> b58_fault cap u SBufferTooSmall
| b58_too_long out : is_base58 out u -> (cap < length out)%nat -> b58_fault cap u SBufferTooSmall
| b58_too_short out : is_base58 out u -> (length out < 4)%nat -> b58_fault cap u SNoChecksum
| b58_checksum data found : is_base58 (data ++ found) u -> length found = 4%nat -> (length data + 4 <= cap)%nat ->
    found <> firstn 4 (sha256 (sha256 data)) -> b58_fault cap u (SChecksum (firstn 4 (sha256 (sha256 data))) found).

Lemma decode_loop_digits cap pre : forall i ds vs rest, Forall2 digit_char vs (map b2n pre) ->
  decode_loop cap i ds (pre ++ rest) =
  match run 256 58 cap ds vs with
  | Some ds' => decode_loop cap (i + length pre) ds' rest
  | None => inl SBufferTooSmall
  end.
Proof.
  induction pre as [|b pre IH]; intros i ds vs rest F; cbn [map app length] in *.
  - inversion F; subst. cbn [run]. rewrite Nat.add_0_r. reflexivity.
  - inversion F as [|v c vs' cs Hv F']; subst. cbn [decode_loop run].
    pose proof (digit_char_ascii _ _ Hv) as A. replace (127 <? b2n b) with false by (symmetry; apply N.ltb_ge; lia).
    apply decode_char_iff in Hv. rewrite Hv. destruct (digit_step 256 58 cap ds v) as [ds'|]; [|reflexivity].
    rewrite (IH (S i) ds' vs' rest F'). replace (S i + length pre)%nat with (i + S (length pre))%nat by lia. reflexivity.
Qed.
Lemma run_fits cap vs :
  (digits_val 58 vs < 256 ^ N.of_nat cap /\ exists ds, run 256 58 cap [] vs = Some ds) \/
  (256 ^ N.of_nat cap <= digits_val 58 vs /\ run 256 58 cap [] vs = None).
Proof.
  destruct (run_nil_spec 256 58 cap vs ltac:(lia) ltac:(lia)) as (ds & C & V & ->).
  destruct (length ds <=? cap)%nat eqn:E.
  - left. split; [|eauto]. rewrite <- V. pose proof (le_val_bound 256 ds ltac:(lia) (proj1 C)) as B.
    eapply N.lt_le_trans; [exact B|]. apply N.pow_le_mono_r; lia.
  - right. split; [|reflexivity]. rewrite <- V.
    assert (NE : ds <> []) by (intros ->; cbn in E; lia).
    pose proof (canon_lower 256 ds ltac:(lia) C NE) as B. etransitivity; [|exact B]. apply N.pow_le_mono_r; lia.
Qed.
Lemma split_bad input : (exists vs, Forall2 digit_char vs (map b2n input)) \/
  exists pre b post vs, input = pre ++ b :: post /\ Forall2 digit_char vs (map b2n pre) /\ b58_decode_char (b2n b) = None.
Proof.
  induction input as [|b input IH]; [left; exists []; constructor|].
  destruct (b58_decode_char (b2n b)) as [v|] eqn:E.
  - apply decode_char_iff in E. destruct IH as [(vs & F)|(pre & c & post & vs & -> & F & N)].
    + left. exists (v :: vs). constructor; assumption.
    + right. exists (b :: pre), c, post, (v :: vs). split; [reflexivity|]. split; [constructor; assumption|exact N].
  - right. exists [], b, input, []. split; [reflexivity|]. split; [constructor|exact E].
Qed.
Lemma not_alphabet c : b58_decode_char c = None <-> ~ In c alphabet58.
Proof.
  rewrite decode_char_none. unfold digit_char. split.
  - intros H I. apply In_nth_error in I as (k & E). apply (H (N.of_nat k)). rewrite Nat2N.id. exact E.
  - intros H d E. apply H. eapply nth_error_In. exact E.
Qed.
Lemma decode_into_digits cap input vs : Forall2 digit_char vs (map b2n input) ->
  decode_into input cap = inl SBufferTooSmall \/ exists out, decode_into input cap = inr out.
Proof.
  intros F. unfold decode_into.
  assert (R : decode_loop cap 0 [] input = decode_loop cap 0 [] (input ++ [])) by (rewrite app_nil_r; reflexivity).
  rewrite R, (decode_loop_digits cap input 0 [] vs [] F).
  destruct (run 256 58 cap [] vs); [cbn [decode_loop]|auto].
  destruct (push_zeros _ _ _); eauto.
Qed.

Lemma base58_exists input vs : Forall2 digit_char vs (map b2n input) -> exists out, is_base58 out (map b2n input).
Proof.
  intros F. destruct (decode_into_digits (length input + N.to_nat (N.size (digits_val 58 vs))) input vs F) as [E|(out & E)].
  - exfalso. unfold decode_into in E.
    set (cap := (length input + N.to_nat (N.size (digits_val 58 vs)))%nat) in *.
    assert (R0 : decode_loop cap 0 [] input = decode_loop cap 0 [] (input ++ [])) by (rewrite app_nil_r; reflexivity).
    rewrite R0, (decode_loop_digits _ input 0 [] vs [] F) in E.
    destruct (run_nil_spec 256 58 cap vs ltac:(lia) ltac:(lia)) as (ds & C & V & R). rewrite R in E.
    assert (LD : (length ds <= N.to_nat (N.size (digits_val 58 vs)))%nat).
    { destruct (list_eq_dec N.eq_dec ds []) as [->|NE]; [cbn; lia|].
      pose proof (canon_lower 256 ds ltac:(lia) C NE) as B. rewrite V in B.
      pose proof (N.size_gt (digits_val 58 vs)) as G.
      assert (P : 2 ^ N.of_nat (length ds - 1) < 2 ^ N.size (digits_val 58 vs)).
      { eapply N.le_lt_trans; [|exact G]. eapply N.le_trans; [|exact B]. apply N.pow_le_mono_l. lia. }
      apply N.pow_lt_mono_r_iff in P; lia. }
    destruct (length ds <=? cap)%nat eqn:El; [|lia]. cbn [decode_loop] in E.
    rewrite push_zeros_spec in E by lia.
    assert (CW : Nat.le (count_while (fun b => b2n b =? 49) input) (length input)).
    { clear. induction input as [|b input IH]; cbn [count_while length]; [lia|]. destruct (_ =? _); lia. }
    destruct (length ds + _ <=? cap)%nat eqn:E2; [discriminate|]. lia.
  - exists out. apply decode_into_iff in E. apply E.
Qed.

Lemma decode_check_fault cap input src : (4 <= cap)%nat ->
  decode_check input cap = inl src <-> b58_fault cap (map b2n input) src.
Proof.
  intros H4. split.
  - intros H. destruct (split_bad input) as [(vs & F)|(pre & b & post & vs & E & F & N)].
    + destruct (base58_exists input vs F) as (out & IS).
      unfold decode_check in H. destruct (decode_into_digits cap input vs F) as [E|(out' & E)]; rewrite E in H.
      * injection H as <-. apply (b58_too_long _ _ out IS).
        destruct (Nat.le_gt_cases (length out) cap) as [Lc|Lc]; [|exact Lc].
        assert (X : decode_into input cap = inr out) by (apply decode_into_iff; auto). congruence.
      * apply decode_into_iff in E as [IS' LE].
        destruct (length out' <? 4)%nat eqn:E4.
        { injection H as <-. apply (b58_too_short _ _ out' IS'). lia. }
        destruct (bytes_eqb _ _) eqn:Ec; [discriminate|]. injection H as <-.
        apply (b58_checksum cap _ (firstn (length out' - 4) out') (skipn (length out' - 4) out')).
        -- rewrite firstn_skipn. exact IS'.
        -- rewrite skipn_length. lia.
        -- rewrite firstn_length. lia.
        -- intros X. assert (Y : bytes_eqb (checksum (firstn (length out' - 4) out')) (skipn (length out' - 4) out') = true)
             by (apply bytes_eqb_eq; rewrite X; reflexivity). congruence.
    + unfold decode_check, decode_into in H. rewrite E in H. rewrite (decode_loop_digits cap pre 0 [] vs _ F) in H.
      rewrite E, map_app. cbn [map].
      destruct (run_fits cap vs) as [[B (ds & R)]|[B R]]; rewrite R in H.
      * cbn [decode_loop Nat.add] in H. rewrite N in H. apply not_alphabet in N.
        rewrite <- (map_length b2n pre) in H.
        destruct (127 <? b2n b) eqn:E1; injection H as <-.
        -- eapply b58_non_ascii; [reflexivity|exact F|exact B|lia].
        -- eapply b58_character; [reflexivity|exact F|exact B|lia|exact N].
      * injection H as <-. eapply b58_too_large; [reflexivity|exact F|exact B].
  - assert (CUT : forall pre c post, map b2n input = pre ++ c :: post ->
      exists pre' b post', input = pre' ++ b :: post' /\ map b2n pre' = pre /\ b2n b = c).
    { intros pre c post E. apply map_eq_app in E as (p & q & -> & E1 & E2). apply map_eq_cons in E2 as (b & q' & -> & E3 & _).
      eauto 8. }
    intros H. destruct H as [pre c post vs E F B C|pre c post vs E F B C N|pre post vs E F B|out IS L|out IS L|data found IS L LD N].
    + apply CUT in E as (p & b & q & -> & <- & <-). unfold decode_check, decode_into.
      rewrite (decode_loop_digits cap p 0 [] vs _ F). destruct (run_fits cap vs) as [[_ (ds & ->)]|[B' _]]; [|lia].
      cbn [decode_loop Nat.add]. replace (127 <? b2n b) with true by (symmetry; apply N.ltb_lt; lia).
      rewrite map_length. reflexivity.
    + apply CUT in E as (p & b & q & -> & <- & <-). unfold decode_check, decode_into.
      rewrite (decode_loop_digits cap p 0 [] vs _ F). destruct (run_fits cap vs) as [[_ (ds & ->)]|[B' _]]; [|lia].
      cbn [decode_loop Nat.add]. replace (127 <? b2n b) with false by (symmetry; apply N.ltb_ge; lia).
      apply not_alphabet in N. rewrite N, map_length. reflexivity.
    + apply map_eq_app in E as (p & q & -> & <- & <-). unfold decode_check, decode_into.
      rewrite (decode_loop_digits cap p 0 [] vs _ F). destruct (run_fits cap vs) as [[B' _]|[_ ->]]; [lia|reflexivity].
    + pose proof IS as (vs & F & _). unfold decode_check.
      destruct (decode_into_digits cap input vs F) as [->|(out' & E)]; [reflexivity|].
      exfalso. apply decode_into_iff in E as [IS' L']. assert (out' = out) by (eapply base58_inj; eassumption). subst. lia.
    + assert (E : decode_into input cap = inr out) by (apply decode_into_iff; split; [exact IS|lia]).
      unfold decode_check. rewrite E. replace (length out <? 4)%nat with true by (symmetry; apply Nat.ltb_lt; lia). reflexivity.
    + assert (LL : length (data ++ found) = (length data + 4)%nat) by (rewrite app_length; lia).
      assert (E : decode_into input cap = inr (data ++ found)) by (apply decode_into_iff; split; [exact IS|lia]).
      unfold decode_check. rewrite E, LL. replace (length data + 4 <? 4)%nat with false by (symmetry; apply Nat.ltb_ge; lia).
      replace (length data + 4 - 4)%nat with (length data) by lia.
      rewrite firstn_app, Nat.sub_diag, firstn_all, skipn_app, Nat.sub_diag, skipn_all. cbn [firstn skipn app]. rewrite app_nil_r.
      destruct (bytes_eqb (checksum data) found) eqn:Ec; [|reflexivity]. apply bytes_eqb_eq in Ec. elim N. symmetry. exact Ec.
Qed.

(** Two upper-case hexadecimal digits. *)
Definition hex_text (b : byte) : str :=
  let digits := lit "0123456789ABCDEF" in
  [nth (N.to_nat (b2n b / 16)) digits 0; nth (N.to_nat (b2n b mod 16)) digits 0].
Lemma hex_text_eq b : hexw 2 (b2n b) = hex_text b.
Proof. destruct b; vm_compute; reflexivity. Qed.

(** What is wrong with the 78 bytes of an extended key, and the error that says so. *)
Definition key_data_error (msg : str) (prefix : byte) : Error :=
  {| e_kind := InvalidKeyData; e_message := msg;
     e_context := [(lit "key_prefix", lit "0x" ++ hex_text prefix)]; e_source := None |}.
Definition version_field (d : list byte) : N := be_val (slice 0 4 d).
Definition rootless (d : list byte) : Prop := nth 4 d x00 = x00 -> slice 5 13 d = repeat x00 8.
Inductive key_fault (d : list byte) : Error -> Prop :=
| fault_fingerprint : nth 4 d x00 = x00 -> slice 5 9 d <> [x00; x00; x00; x00] ->
    key_fault d {| e_kind := InvalidPayload; e_message := lit "zero depth with non-zero parent fingerprint";
      e_context := [(lit "depth", lit "0");
                    (lit "parent_fingerprint", lit "0x" ++ flat_map hex_text (slice 5 9 d))]; e_source := None |}
| fault_child : nth 4 d x00 = x00 -> slice 5 9 d = [x00; x00; x00; x00] -> be_val (slice 9 13 d) <> 0 ->
    key_fault d {| e_kind := InvalidPayload; e_message := lit "zero depth with non-zero child number";
      e_context := [(lit "depth", lit "0"); (lit "child_number", dec (be_val (slice 9 13 d)))]; e_source := None |}
| fault_public : rootless d -> In (version_field d) known_public -> nth 45 d x00 <> x02 -> nth 45 d x00 <> x03 ->
    key_fault d (key_data_error (lit "invalid public key prefix") (nth 45 d x00))
| fault_private : rootless d -> In (version_field d) known_private -> nth 45 d x00 <> x00 ->
    key_fault d (key_data_error (lit "invalid private key prefix") (nth 45 d x00))
| fault_unknown : rootless d -> ~ In (version_field d) known_public -> ~ In (version_field d) known_private ->
    nth 45 d x00 <> x00 -> nth 45 d x00 <> x02 -> nth 45 d x00 <> x03 ->
    key_fault d (key_data_error (lit "invalid private/public key data prefix") (nth 45 d x00)).

Lemma be4_zero l : length l = 4%nat -> (be_val l = 0 <-> l = [x00; x00; x00; x00]).
Proof.
  intros L. split; [|intros ->; reflexivity]. intros E.
  rewrite <- (be_bytes_be_val l), L, E. reflexivity.
Qed.
Lemma rootless_iff d : length d = 78%nat -> (rootless d <->
  depth_ok (nth 4 d x00) (slice 5 9 d) (be_val (slice 9 13 d))).
Proof.
  intros L. unfold rootless, depth_ok.
  assert (L1 : length (slice 5 9 d) = 4%nat) by (rewrite slice_len; lia).
  assert (L2 : length (slice 9 13 d) = 4%nat) by (rewrite slice_len; lia).
  rewrite be4_zero by exact L2. rewrite <- (slice_join 5 9 13) by lia.
  change (repeat x00 8) with (zeros 4 ++ [x00; x00; x00; x00]).
  split; intros H Z; specialize (H Z).
  - apply app_len_inj in H; [exact H|rewrite L1; reflexivity].
  - destruct H as [-> ->]. reflexivity.
Qed.

Lemma known_disjoint v : In v known_public -> ~ In v known_private.
Proof. intros H. cbn in H. repeat destruct H as [<-|H]; try (intros F; cbn in F; repeat destruct F as [F|F]; discriminate || exact F); destruct H. Qed.

Lemma parse_payload_fault d e : length d = 78%nat -> (parse_payload d = Err e <-> key_fault d e).
Proof.
  intros L. rewrite parse_payload_long by exact L.
  assert (L1 : length (slice 5 9 d) = 4%nat) by (rewrite slice_len; lia).
  assert (HX : forall f, hex_fingerprint f = lit "0x" ++ flat_map hex_text f).
  { intros f. unfold hex_fingerprint. f_equal. induction f as [|b f IH]; [reflexivity|].
    cbn [flat_map]. rewrite hex_text_eq, IH. reflexivity. }
  assert (K0 : nth 0 (slice 45 78 d) x00 = nth 45 d x00).
  { rewrite <- (slice_join 45 46 78) by lia. rewrite (slice_one 45 d x00) by lia. reflexivity. }
  destruct (check_depth_spec (nth 4 d x00) (slice 5 9 d) (be_val (slice 9 13 d))) as [[D E]|[D (e0 & E & _)]].
  - rewrite E. cbn [bind]. pose proof D as D'. apply rootless_iff in D; [|exact L].
    unfold payload_version. rewrite K0. set (k0 := nth 45 d x00) in *. fold (version_field d). set (v := version_field d) in *.
    assert (NF : forall e, key_fault d e ->
      (In v known_public /\ k0 <> x02 /\ k0 <> x03 /\ e = key_data_error (lit "invalid public key prefix") k0) \/
      (In v known_private /\ k0 <> x00 /\ e = key_data_error (lit "invalid private key prefix") k0) \/
      (~ In v known_public /\ ~ In v known_private /\ k0 <> x00 /\ k0 <> x02 /\ k0 <> x03 /\
       e = key_data_error (lit "invalid private/public key data prefix") k0)).
    { intros e1 F. inversion F; subst; auto 10.
      - exfalso. destruct (D' H) as [X _]. contradiction.
      - exfalso. destruct (D' H) as [_ X]. contradiction. }
    assert (B : forall msg, with_context (err_new InvalidKeyData msg) (lit "key_prefix") (hex_byte k0) = key_data_error msg k0).
    { intros msg. unfold key_data_error, hex_byte. rewrite hex_text_eq. reflexivity. }
    destruct (from_raw v) as [k|] eqn:Ek.
    + pose proof (from_raw_public v k Ek) as Sp. destruct (into_version k) as [v'|v'].
      * destruct Sp as (_ & I1 & I2). destruct ((b2n k0 =? 2) || (b2n k0 =? 3)) eqn:P; cbn [negb bind].
        -- split; [discriminate|]. intros F. apply byte_23 in P. apply NF in F. exfalso. tauto.
        -- assert (P' : k0 <> x02 /\ k0 <> x03).
           { split; intros X; assert (Y : (b2n k0 =? 2) || (b2n k0 =? 3) = true) by (apply byte_23; auto); congruence. }
           rewrite B. split.
           ++ intros [= <-]. apply fault_public; tauto.
           ++ intros F. apply NF in F as [(_ & _ & _ & ->)|[F|F]]; [reflexivity|exfalso; tauto|exfalso; tauto].
      * destruct Sp as (_ & I1 & I2). destruct (b2n k0 =? 0) eqn:P; cbn [negb bind].
        -- split; [discriminate|]. intros F. apply byte_zero in P. apply NF in F. exfalso. tauto.
        -- assert (P' : k0 <> x00).
           { intros X; assert (Y : (b2n k0 =? 0) = true) by (apply byte_zero; auto); congruence. }
           rewrite B. split.
           ++ intros [= <-]. apply fault_private; tauto.
           ++ intros F. apply NF in F as [F|[(_ & _ & ->)|F]]; [exfalso; tauto|reflexivity|exfalso; tauto].
    + apply from_raw_none in Ek as [I1 I2].
      destruct (b2n k0 =? 0) eqn:P0.
      { split; [discriminate|]. intros F. apply byte_zero in P0. apply NF in F. exfalso. tauto. }
      destruct ((b2n k0 =? 2) || (b2n k0 =? 3)) eqn:P; cbn [bind].
      { split; [discriminate|]. intros F. apply byte_23 in P. apply NF in F. exfalso. tauto. }
      assert (P' : k0 <> x00 /\ k0 <> x02 /\ k0 <> x03).
      { repeat split; intros X.
        - assert (Y : (b2n k0 =? 0) = true) by (apply byte_zero; auto); congruence.
        - assert (Y : (b2n k0 =? 2) || (b2n k0 =? 3) = true) by (apply byte_23; auto); congruence.
        - assert (Y : (b2n k0 =? 2) || (b2n k0 =? 3) = true) by (apply byte_23; auto); congruence. }
      rewrite B. split.
      * intros [= <-]. apply fault_unknown; tauto.
      * intros F. apply NF in F as [F|[F|F]]; [exfalso; tauto|exfalso; tauto|]. destruct F as (_ & _ & _ & _ & _ & ->). reflexivity.
  - assert (NR : ~ rootless d) by (rewrite rootless_iff by exact L; exact D).
    assert (R : (let? _ := check_depth_zero (nth 4 d x00) (slice 5 9 d) (be_val (slice 9 13 d)) in
      let? version := payload_version (be_val (slice 0 4 d)) (slice 45 78 d) in
      Ok {| p_version := version; p_meta := {| m_depth := nth 4 d x00; m_fingerprint := slice 5 9 d;
                     m_child := be_val (slice 9 13 d); m_chain := slice 13 45 d |};
        p_key := slice 45 78 d |}) = Err e0) by (rewrite E; reflexivity).
    rewrite R. clear R. unfold check_depth_zero in E.
    destruct (b2n (nth 4 d x00) =? 0) eqn:Z; [|discriminate]. apply byte_zero in Z. rewrite Z in E.
    destruct (bytes_eqb (slice 5 9 d) (zeros 4)) eqn:Fp; cbn [negb] in E.
    + apply bytes_eqb_eq in Fp. destruct (be_val (slice 9 13 d) =? 0) eqn:C; cbn [negb] in E; [discriminate|].
      apply N.eqb_neq in C. injection E as <-. split.
      * intros [= <-]. apply fault_child; assumption.
      * intros F. inversion F; subst; try contradiction; reflexivity.
    + assert (Fp' : slice 5 9 d <> [x00; x00; x00; x00]).
      { intros X. assert (Y : bytes_eqb (slice 5 9 d) (zeros 4) = true) by (apply bytes_eqb_eq; exact X). congruence. }
      injection E as <-. rewrite HX. split.
      * intros [= <-]. apply fault_fingerprint; assumption.
      * intros F. inversion F; subst; try contradiction; reflexivity.
Qed.

(** C81: the error of a rejected extended key string, in the order of the checks: the length of
    the text, its Base58Check encoding, the number of bytes, the fields. *)
Theorem C81_key_string_error dbg s e :
  let len := length (utf8 s) in
  payload_parse dbg s = Err e <->
  ((123 < len)%nat /\
   e = {| e_kind := InvalidPayload; e_message := lit "invalid base58check length";
          e_context := [(lit "encoded_len", dec (N.of_nat len)); (lit "max_len", lit "123")]; e_source := None |}) \/
  ((len <= 123)%nat /\ exists why, b58_fault 82 (map b2n (utf8 s)) why /\
   e = {| e_kind := InvalidPayload; e_message := lit "invalid base58check encoding";
          e_context := [(lit "encoded_len", dec (N.of_nat len))]; e_source := Some why |}) \/
  ((len <= 123)%nat /\ exists d, is_base58check d s /\ (length d < 78)%nat /\
   e = {| e_kind := InvalidPayload; e_message := lit "invalid extended key length";
          e_context := [(lit "decoded_len", dec (N.of_nat (length d))); (lit "expected_len", lit "78")];
          e_source := None |}) \/
  (exists d, is_base58check d s /\ length d = 78%nat /\ key_fault d e).
Proof.
  intros len. unfold payload_parse. change MAX_KEY_PAYLOAD_STRING_LENGTH with 123%nat.
  change KEY_PAYLOAD_WITH_CHECKSUM_LENGTH with 82%nat. unfold KEY_PAYLOAD_LENGTH. fold len.
  change (dec (N.of_nat 123)) with (lit "123").
  destruct (123 <? len)%nat eqn:E.
  - apply Nat.ltb_lt in E. split.
    + intros [= <-]. left. split; [exact E|reflexivity].
    + intros [[_ ->]|[[X _]|[[X _]|(d & B & Ld & _)]]]; [reflexivity|lia|lia|].
      exfalso. destruct (base58check_78_decode s d Ld B) as [X _].
      change MAX_KEY_PAYLOAD_STRING_LENGTH with 123%nat in X. fold len in X. apply Nat.ltb_ge in X. lia.
  - apply Nat.ltb_ge in E.
    assert (DS : forall d, decode_check (utf8 s) 82 = inr d <-> is_base58check d s /\ (length d <= 78)%nat)
      by (intros d; apply decode_check_string).
    destruct (decode_check (utf8 s) 82) as [why|d] eqn:Ed.
    + rewrite raise_fresh by reflexivity. cbn [with_context err_new e_kind e_message e_context e_source app].
      split.
      * intros [= <-]. right. left. split; [exact E|]. exists why. split; [|reflexivity].
        apply decode_check_fault; [lia|exact Ed].
      * intros [[X _]|[(_ & w & F & ->)|[(_ & d & B & Ld & _)|(d & B & Ld & _)]]]; [lia| |exfalso|exfalso].
        -- apply decode_check_fault in F; [|lia]. rewrite Ed in F. injection F as ->. reflexivity.
        -- assert (X : @inl Source (list byte) why = inr d) by (apply DS; split; [exact B|lia]). discriminate X.
        -- assert (X : @inl Source (list byte) why = inr d) by (apply DS; split; [exact B|lia]). discriminate X.
    + pose proof (proj1 (DS d) eq_refl) as [B Ld].
      assert (UN : forall d', is_base58check d' s -> (length d' <= 78)%nat -> d' = d).
      { intros d' B' Ld'. assert (X : @inr Source (list byte) d = inr d') by (apply DS; auto). injection X as ->. reflexivity. }
      destruct (length d =? 78)%nat eqn:L78; cbn [negb].
      * apply Nat.eqb_eq in L78. rewrite parse_payload_fault by exact L78. split.
        -- intros F. right. right. right. eauto.
        -- intros [[X _]|[(_ & w & F & _)|[(_ & d' & B' & Ld' & _)|(d' & B' & Ld' & F)]]].
           ++ lia.
           ++ apply decode_check_fault in F; [|lia]. congruence.
           ++ exfalso. assert (d' = d) by (apply UN; [exact B'|lia]). subst. lia.
           ++ assert (d' = d) by (apply UN; [exact B'|lia]). subst. exact F.
      * apply Nat.eqb_neq in L78. split.
        -- intros [= <-]. right. right. left. split; [exact E|]. exists d. split; [exact B|]. split; [lia|reflexivity].
        -- intros [[X _]|[(_ & w & F & _)|[(_ & d' & B' & Ld' & ->)|(d' & B' & Ld' & F)]]].
           ++ lia.
           ++ apply decode_check_fault in F; [|lia]. congruence.
           ++ assert (d' = d) by (apply UN; [exact B'|lia]). subst. reflexivity.
           ++ exfalso. assert (d' = d) by (apply UN; [exact B'|lia]). subst. lia.
Qed.
Print Assumptions C81_key_string_error.

(** Three rejected texts: the checksum of a key, a text that is too short, a foreign letter. *)
Example C81_case :
  payload_parse true (lit "3QJmnh") =
    Err {| e_kind := InvalidPayload; e_message := lit "invalid extended key length";
           e_context := [(lit "decoded_len", lit "0"); (lit "expected_len", lit "78")]; e_source := None |} /\
  payload_parse true (lit "xprv0") =
    Err {| e_kind := InvalidPayload; e_message := lit "invalid base58check encoding";
           e_context := [(lit "encoded_len", lit "5")]; e_source := Some (SInvalidCharacter 48 4) |} /\
  payload_parse true (lit "xprv" ++ [233]) =
    Err {| e_kind := InvalidPayload; e_message := lit "invalid base58check encoding";
           e_context := [(lit "encoded_len", lit "6")]; e_source := Some (SNonAscii 4) |} /\
  payload_parse true (lit "3QJmni") =
    Err {| e_kind := InvalidPayload; e_message := lit "invalid base58check encoding";
           e_context := [(lit "encoded_len", lit "6")];
           e_source := Some (SChecksum [x5d; xf6; xe0; xe2] [x5d; xf6; xe0; xe3]) |} /\
  payload_parse true [] =
    Err {| e_kind := InvalidPayload; e_message := lit "invalid base58check encoding";
           e_context := [(lit "encoded_len", lit "0")]; e_source := Some SNoChecksum |} /\
  payload_parse true (repeat 122 123) =
    Err {| e_kind := InvalidPayload; e_message := lit "invalid base58check encoding";
           e_context := [(lit "encoded_len", lit "123")]; e_source := Some SBufferTooSmall |} /\
  payload_parse true (repeat 122 124) =
    Err {| e_kind := InvalidPayload; e_message := lit "invalid base58check length";
           e_context := [(lit "encoded_len", lit "124"); (lit "max_len", lit "123")]; e_source := None |}.
Proof. repeat split; eval_by run_payload. Qed.

(** ** C82: operations on keys *)

(** [0x] and the eight upper-case digits of a version. *)
Definition version_text (v : N) : str := lit "0x" ++ flat_map hex_text (be_bytes 4 v).
Lemma version_text_eq v : v < 2 ^ 32 -> lit "0x" ++ hexw 8 v = version_text v.
Proof.
  intros B. unfold version_text. f_equal.
  assert (T : forall n, hexw 2 n = hex_text (n2b n)).
  { intros n. rewrite <- hex_text_eq, b2n_n2b. cbn [hexw app].
    replace (n mod 256 / 16 mod 16) with (n / 16 mod 16).
    - replace (n mod 256 mod 16) with (n mod 16); [reflexivity|].
      change 256 with (16 * 16). rewrite N.mod_mul_r, (N.mul_comm 16), N.mod_add, N.mod_mod by lia. reflexivity.
    - change 256 with (16 * 16). rewrite N.mod_mul_r, (N.mul_comm 16), N.div_add by lia.
      rewrite (N.div_small (n mod 16)) by (apply N.mod_lt; lia). rewrite N.add_0_l, N.mod_mod by lia. reflexivity. }
  cbn [be_bytes app flat_map]. rewrite app_nil_r, <- !T.
  assert (J : forall w n, hexw (S (S w)) n = hexw w (n / 256) ++ hexw 2 n).
  { intros w n. cbn [hexw app]. rewrite N.div_div by lia. rewrite <- app_assoc. reflexivity. }
  rewrite (J 6%nat), (J 4%nat), (J 2%nat), !N.div_div by lia. rewrite <- !app_assoc. reflexivity.
Qed.

Definition version_error (msg : str) (v : N) : Error :=
  {| e_kind := InvalidVersion; e_message := msg; e_context := [(lit "version", version_text v)]; e_source := None |}.

(** C82: encoding fails exactly for a version of the other kind. *)
Theorem C82_encode_error b L v e : as_u32 v < 2 ^ 32 ->
  (forall x : XPrv (backend b L), xprv_encode_with x v = Err e <->
     exists n, v = Public n /\ e = version_error (lit "expected private version bytes") n) /\
  (forall x : XPub (backend b L), xpub_encode_with x v = Err e <->
     exists n, v = Private n /\ e = version_error (lit "expected public version bytes") n).
Proof.
  intros B. unfold version_error. split; intros x.
  - destruct v as [v|v].
    + unfold xprv_encode_with, version_show. cbn [is_private negb as_u32] in *. rewrite version_text_eq by exact B. split.
      * intros [= <-]. exists v. auto.
      * intros (n & [= <-] & ->). reflexivity.
    + rewrite prv_encode_eq by reflexivity. split; [discriminate|]. intros (n & X & _). discriminate X.
  - destruct v as [v|v].
    + unfold xpub_encode_with. cbn [is_public negb]. split; [discriminate|]. intros (n & X & _). discriminate X.
    + unfold xpub_encode_with, version_show. cbn [is_public negb as_u32] in *. rewrite version_text_eq by exact B. split.
      * intros [= <-]. exists v. auto.
      * intros (n & [= <-] & ->). reflexivity.
Qed.
Print Assumptions C82_encode_error.

(** What the libraries say about bad keys. *)
Definition bad_secret (b : Library) : Source := match b with Secp256k1Ffi => SSecpSecretKey | _ => SEllipticCurve end.
Definition bad_point (b : Library) : Source := match b with Secp256k1Ffi => SSecpPublicKey | _ => SEllipticCurve end.
(** About a tweak [t] that gives no key. *)
Definition bad_tweak (b : Library) (n t : N) : Source :=
  match b with
  | Secp256k1Ffi => if n <=? t then SScalarRange else SSecpTweak
  | _ => if (t =? 0) || (n <=? t) then SText (lit "invalid tweak scalar") else SEllipticCurve
  end.

Lemma prv_from_error b L bytes src : length bytes = 32%nat ->
  prv_from_bytes (backend b L) bytes = inl src <-> ~ valid_private L (be_val bytes) /\ src = bad_secret b.
Proof.
  intros HB. unfold valid_private.
  destruct b; cbn [backend tw_curve prv_from_bytes bad_secret]; unfold rc_secret, ffi_secret; rewrite HB; cbn [Nat.eqb andb];
    destruct ((0 <? be_val bytes) && (be_val bytes <? order L)) eqn:E;
    (split; [intros X; first [discriminate X|injection X as <-; split; [lia|reflexivity]]|
             intros [H ->]; first [reflexivity|exfalso; apply H; lia]]).
Qed.
Lemma pub_from_error b L (HL : ec_laws L) bytes src : length bytes = 33%nat -> (hd x00 bytes = x02 \/ hd x00 bytes = x03) ->
  pub_from_bytes (backend b L) bytes = inl src <->
  (forall K, valid_public L K -> compress L K <> bytes) /\ src = bad_point b.
Proof.
  intros HB HT.
  assert (S1 : forall s, pub_from_bytes (backend b L) bytes = inl s -> s = bad_point b).
  { intros s. destruct b; cbn [backend tw_curve pub_from_bytes bad_point]; unfold rc_sec1, ffi_public, rc_public;
      repeat (match goal with |- context [match ?x with _ => _ end] => destruct x end); congruence. }
  destruct (pub_from_bytes (backend b L) bytes) as [s|K] eqn:E.
  - rewrite (S1 s eq_refl). split.
    + intros [= <-]. split; [|reflexivity]. intros K V C.
      assert (X : pub_from_bytes (backend b L) bytes = inr K) by (apply (pub_from_iff L HL); auto). congruence.
    + intros [_ ->]. reflexivity.
  - split; [discriminate|]. intros [H _]. apply (pub_from_iff L HL) in E as [V C]; auto. elim (H K V C).
Qed.

(** C82: parsing a key of the wrong kind, or bytes that are no key of the curve.  The errors of
    the text itself are those of C81. *)
Theorem C82_parse_private_error dbg b L s e :
  xprv_parse dbg (backend b L) s = Err e <->
  payload_parse dbg s = Err e \/
  exists p, payload_parse dbg s = Ok p /\
    match p_version p with
    | Public v => e = version_error (lit "extended key is not private") v
    | Private _ => ~ valid_private L (be_val (tl (p_key p))) /\
        e = {| e_kind := InvalidKeyData; e_message := lit "invalid private key data";
               e_context := [(lit "key_prefix", lit "0x00")]; e_source := Some (bad_secret b) |}
    end.
Proof.
  unfold xprv_parse. destruct (payload_parse dbg s) as [p|e0|] eqn:E; cbn [bind].
  - pose proof (proj1 (payload_parse_iff dbg s p) E) as ((W & _ & Lk) & _ & _ & R).
    rewrite prv_try_from_eq by exact Lk. unfold version_error.
    assert (G : forall P : Payload -> Prop, (exists p0, Ok p = @Ok Error _ p0 /\ P p0) <-> P p).
    { intros P. split; [intros (p0 & [= <-] & H); exact H|eauto]. }
    rewrite G. clear G. unfold prefix_rule, key_prefix in R. destruct (p_version p) as [v|v] eqn:V.
    + unfold version_show. cbn [as_u32] in *. rewrite version_text_eq by exact W. split.
      * intros [= <-]. right. reflexivity.
      * intros [X| ->]; [discriminate X|reflexivity].
    + assert (L32 : length (tl (p_key p)) = 32%nat) by (destruct (p_key p); [discriminate|cbn [tl length] in *; lia]).
      rewrite (proj1 R). change (hex_byte_lower x00) with (lit "0x00").
      destruct (prv_from_bytes (backend b L) (tl (p_key p))) as [src|k] eqn:K.
      * apply prv_from_error in K as [NV ->]; [|exact L32]. split.
        -- intros [= <-]. right. auto.
        -- intros [X|[_ ->]]; [discriminate X|reflexivity].
      * split; [discriminate|]. intros [X|[NV _]]; [discriminate X|].
        assert (X : prv_from_bytes (backend b L) (tl (p_key p)) = inl (bad_secret b)) by (apply prv_from_error; auto).
        congruence.
  - split.
    + intros [= <-]. left. reflexivity.
    + intros [[= <-]|(p & X & _)]; [reflexivity|discriminate X].
  - split; [discriminate|]. intros [X|(p & X & _)]; discriminate X.
Qed.
Print Assumptions C82_parse_private_error.

Theorem C82_parse_public_error dbg b L (HL : ec_laws L) s e :
  xpub_parse dbg (backend b L) s = Err e <->
  payload_parse dbg s = Err e \/
  exists p, payload_parse dbg s = Ok p /\
    match p_version p with
    | Private v => e = version_error (lit "extended key is not public") v
    | Public _ => (forall K, valid_public L K -> compress L K <> p_key p) /\
        e = {| e_kind := InvalidKeyData; e_message := lit "invalid public key data";
               e_context := [(lit "key_prefix", lit "0x" ++ hex_text (hd x00 (p_key p)))];
               e_source := Some (bad_point b) |}
    end.
Proof.
  unfold xpub_parse. destruct (payload_parse dbg s) as [p|e0|] eqn:E; cbn [bind].
  - pose proof (proj1 (payload_parse_iff dbg s p) E) as ((W & _ & Lk) & _ & _ & R).
    rewrite pub_try_from_eq. unfold version_error.
    assert (G : forall P : Payload -> Prop, (exists p0, Ok p = @Ok Error _ p0 /\ P p0) <-> P p).
    { intros P. split; [intros (p0 & [= <-] & H); exact H|eauto]. }
    rewrite G. clear G. unfold prefix_rule, key_prefix in R. destruct (p_version p) as [v|v] eqn:V.
    + assert (HX : hex_byte_lower (nth 0 (p_key p) x00) = lit "0x" ++ hex_text (hd x00 (p_key p))).
      { replace (nth 0 (p_key p) x00) with (hd x00 (p_key p)) by (destruct (p_key p); reflexivity).
        destruct (proj1 R) as [-> | ->]; reflexivity. }
      rewrite HX. destruct (pub_from_bytes (backend b L) (p_key p)) as [src|k] eqn:K.
      * apply (pub_from_error b L HL) in K as [NV ->]; [|exact Lk|apply R]. split.
        -- intros [= <-]. right. auto.
        -- intros [X|[_ ->]]; [discriminate X|reflexivity].
      * split; [discriminate|]. intros [X|[NV _]]; [discriminate X|].
        assert (X : pub_from_bytes (backend b L) (p_key p) = inl (bad_point b))
          by (apply (pub_from_error b L HL); [exact Lk|apply R|auto]).
        congruence.
    + unfold version_show. cbn [as_u32] in *. rewrite version_text_eq by exact W. split.
      * intros [= <-]. right. reflexivity.
      * intros [X| ->]; [discriminate X|reflexivity].
  - split.
    + intros [= <-]. left. reflexivity.
    + intros [[= <-]|(p & X & _)]; [reflexivity|discriminate X].
  - split; [discriminate|]. intros [X|(p & X & _)]; discriminate X.
Qed.
Print Assumptions C82_parse_public_error.

(** C82: converting a payload built by hand, whose key may start with any byte; this byte is shown in
    lower case. *)
Definition hex_text_lower (b : byte) : str :=
  let digits := lit "0123456789abcdef" in
  [nth (N.to_nat (b2n b / 16)) digits 0; nth (N.to_nat (b2n b mod 16)) digits 0].
Lemma hex_lower_eq b : hex_byte_lower b = lit "0x" ++ hex_text_lower b.
Proof. destruct b; reflexivity. Qed.
Theorem C82_payload_error dbg b L p e : payload_wf p ->
  (xprv_try_from dbg (backend b L) p = Err e <->
   match p_version p with
   | Public v => e = version_error (lit "extended key is not private") v
   | Private _ => ~ valid_private L (be_val (tl (p_key p))) /\
       e = {| e_kind := InvalidKeyData; e_message := lit "invalid private key data";
              e_context := [(lit "key_prefix", lit "0x" ++ hex_text_lower (hd x00 (p_key p)))];
              e_source := Some (bad_secret b) |}
   end) /\
  (xpub_try_from dbg (backend b L) p = Err e <->
   match p_version p with
   | Private v => e = version_error (lit "extended key is not public") v
   | Public _ => (forall K, pub_from_bytes (backend b L) (p_key p) <> inr K) /\
       e = {| e_kind := InvalidKeyData; e_message := lit "invalid public key data";
              e_context := [(lit "key_prefix", lit "0x" ++ hex_text_lower (hd x00 (p_key p)))];
              e_source := Some (bad_point b) |}
   end).
Proof.
  intros (W & _ & Lk). rewrite prv_try_from_eq by exact Lk. rewrite pub_try_from_eq.
  replace (nth 0 (p_key p) x00) with (hd x00 (p_key p)) by (destruct (p_key p); reflexivity).
  rewrite !hex_lower_eq. unfold version_error.
  assert (L32 : length (tl (p_key p)) = 32%nat) by (destruct (p_key p); [discriminate|cbn [tl length] in *; lia]).
  assert (S1 : forall s, pub_from_bytes (backend b L) (p_key p) = inl s -> s = bad_point b).
  { intros s. destruct b; cbn [backend tw_curve pub_from_bytes bad_point]; unfold rc_sec1, ffi_public, rc_public;
      repeat (match goal with |- context [match ?x with _ => _ end] => destruct x end); congruence. }
  destruct (p_version p) as [v|v] eqn:V.
  - split.
    + unfold version_show. cbn [as_u32] in *. rewrite version_text_eq by exact W. split; [intros [= <-]; reflexivity|intros ->; reflexivity].
    + destruct (pub_from_bytes (backend b L) (p_key p)) as [src|k].
      * rewrite (S1 src eq_refl). split; [intros [= <-]; split; [discriminate|reflexivity]|intros [_ ->]; reflexivity].
      * split; [discriminate|]. intros [X _]. elim (X k eq_refl).
  - split.
    + destruct (prv_from_bytes (backend b L) (tl (p_key p))) as [src|k] eqn:K.
      * apply prv_from_error in K as [NV ->]; [|exact L32]. split; [intros [= <-]; auto|intros [_ ->]; reflexivity].
      * split; [discriminate|]. intros [NV _].
        assert (X : prv_from_bytes (backend b L) (tl (p_key p)) = inl (bad_secret b)) by (apply prv_from_error; auto).
        congruence.
    + unfold version_show. cbn [as_u32] in *. rewrite version_text_eq by exact W. split; [intros [= <-]; reflexivity|intros ->; reflexivity].
Qed.
Print Assumptions C82_payload_error.

(** C82: the master key. *)
Theorem C82_master_error dbg b L seed e :
  xprv_new dbg (backend b L) seed = Err e <->
  ~ valid_private L (IL (hmac_sha512 (hmac_key (backend b L)) seed)) /\
  e = {| e_kind := InvalidKeyData; e_message := lit "invalid master key derived from seed";
         e_context := [(lit "seed_len", dec (N.of_nat (length seed)))]; e_source := Some (bad_secret b) |}.
Proof.
  rewrite xprv_new_eq. cbv zeta. unfold IL.
  pose proof (left_length (hmac_key (backend b L)) seed) as L32.
  set (il := firstn 32 (hmac_sha512 (hmac_key (backend b L)) seed)) in *.
  destruct (prv_from_bytes (backend b L) il) as [src|k] eqn:K.
  - apply prv_from_error in K as [NV ->]; [|exact L32]. split.
    + intros [= <-]. auto.
    + intros [_ ->]. reflexivity.
  - split; [discriminate|]. intros [NV _].
    assert (X : prv_from_bytes (backend b L) il = inl (bad_secret b)) by (apply prv_from_error; auto). congruence.
Qed.
Print Assumptions C82_master_error.

Lemma prv_tweak_error b L (HL : ec_laws L) k t src :
  prv_add_tweak (backend b L) k t = inl src <->
  (forall k', ~ (allowed b L (be_val t) /\ k' = (be_val t + k) mod order L /\ k' <> 0)) /\
  src = bad_tweak b (order L) (be_val t).
Proof.
  assert (S1 : forall s, prv_add_tweak (backend b L) k t = inl s -> s = bad_tweak b (order L) (be_val t)).
  { intros s. destruct b; cbn [backend prv_add_tweak bad_tweak].
    1, 2: unfold rc_prv_add_tweak, nonzero_scalar_from_bytes, rc_secret;
      destruct ((0 <? be_val t) && (be_val t <? order L)) eqn:E;
      [replace ((be_val t =? 0) || (order L <=? be_val t)) with false by lia;
       destruct (_ && _ && _); congruence|
       replace ((be_val t =? 0) || (order L <=? be_val t)) with true by lia; congruence].
    unfold ffi_prv_add_tweak, ffi_scalar. destruct (be_val t <? order L) eqn:E.
    - replace (order L <=? be_val t) with false by lia. destruct (_ =? 0); congruence.
    - replace (order L <=? be_val t) with true by lia. congruence. }
  destruct (prv_add_tweak (backend b L) k t) as [s|k'] eqn:E.
  - rewrite (S1 s eq_refl). split.
    + intros [= <-]. split; [|reflexivity]. intros k' H.
      assert (X : prv_add_tweak (backend b L) k t = inr k') by (apply (prv_tweak_iff L HL); exact H). congruence.
    + intros [_ ->]. reflexivity.
  - split; [discriminate|]. intros [H _]. apply (prv_tweak_iff L HL) in E. elim (H k' E).
Qed.
Lemma pub_tweak_error b L (HL : ec_laws L) K t src :
  pub_add_tweak (backend b L) K t = inl src <->
  (forall K', ~ (allowed b L (be_val t) /\ K' = padd L (pmul L (be_val t) (gen L)) K /\ K' <> infinity L)) /\
  src = bad_tweak b (order L) (be_val t).
Proof.
  assert (S1 : forall s, pub_add_tweak (backend b L) K t = inl s -> s = bad_tweak b (order L) (be_val t)).
  { intros s. destruct b; cbn [backend pub_add_tweak bad_tweak].
    1, 2: unfold rc_pub_add_tweak, nonzero_scalar_from_bytes, rc_public;
      destruct ((0 <? be_val t) && (be_val t <? order L)) eqn:E;
      [replace ((be_val t =? 0) || (order L <=? be_val t)) with false by lia;
       destruct (is_infinity _ _); congruence|
       replace ((be_val t =? 0) || (order L <=? be_val t)) with true by lia; congruence].
    unfold ffi_pub_add_tweak, ffi_scalar. destruct (be_val t <? order L) eqn:E.
    - replace (order L <=? be_val t) with false by lia. destruct (is_infinity _ _); congruence.
    - replace (order L <=? be_val t) with true by lia. congruence. }
  destruct (pub_add_tweak (backend b L) K t) as [s|K'] eqn:E.
  - rewrite (S1 s eq_refl). split.
    + intros [= <-]. split; [|reflexivity]. intros K' H.
      assert (X : pub_add_tweak (backend b L) K t = inr K') by (apply (pub_tweak_iff L HL); exact H). congruence.
    + intros [_ ->]. reflexivity.
  - split; [discriminate|]. intros [H _]. apply (pub_tweak_iff L HL) in E. elim (H K' E).
Qed.

Definition child_error (msg : str) (i : N) (src : option Source) : Error :=
  {| e_kind := InvalidDerivation; e_message := msg;
     e_context := [(lit "child_index", dec (i mod 2 ^ 31));
                   (lit "hardened", lit (if 2 ^ 31 <=? i then "true" else "false"))]; e_source := src |}.

(** C82: derivation fails exactly when there is no child, and says which child was asked for. *)
Theorem C82_child_error dbg b L (HL : ec_laws L) i e :
  (forall x : XPrv (backend b L),
     let I := hmac_sha512 (m_chain (xprv_meta x)) (ckd_priv_data L (xprv_key x) i) in
     xprv_derive_child dbg x i = Err e <->
     (forall k, ~ child_private b L (xprv_key x) I k) /\
     e = child_error (lit "invalid child private key") i (Some (bad_tweak b (order L) (IL I)))) /\
  (forall x : XPub (backend b L),
     let I := hmac_sha512 (m_chain (xpub_meta x)) (ckd_pub_data L (xpub_key x) i) in
     xpub_derive_child dbg x i = Err e <->
     (2 ^ 31 <= i /\ e = child_error (lit "cannot derive hardened child from public key") i None) \/
     (i < 2 ^ 31 /\ (forall K, ~ child_public b L (xpub_key x) I K) /\
      e = child_error (lit "invalid child public key") i (Some (bad_tweak b (order L) (IL I))))) /\
  (forall fuel (x : XPub (backend b L)),
     slip10_pub_child fuel x i = Some (Err e) <->
     2 ^ 31 <= i /\ e = child_error (lit "cannot derive hardened child from public key") i None).
Proof.
  assert (CI : child_index i = i mod 2 ^ 31) by apply child_index_mod.
  split; [|split].
  - intros x I. rewrite derive_child_eq by apply be_bytes_length. cbv zeta.
    change (gen_data (backend b L) (xprv_key x) i) with (ckd_priv_data L (xprv_key x) i). fold I.
    unfold child_private, IL in *.
    destruct (prv_add_tweak (backend b L) (xprv_key x) (firstn 32 I)) as [src|k] eqn:K.
    + apply (prv_tweak_error b L HL) in K as [N ->]. unfold child_prv_error, child_error. rewrite CI.
      change (show_bool (child_is_hardened i)) with (lit (if 2 ^ 31 <=? i then "true" else "false")). split.
      * intros [= <-]. auto.
      * intros [_ ->]. reflexivity.
    + split; [discriminate|]. intros [N _]. exfalso. apply (prv_tweak_iff L HL) in K. exact (N k K).
  - intros x I. rewrite derive_pub_eq. destruct (2 ^ 31 <=? i) eqn:B.
    + apply N.leb_le in B. unfold hardened_public_error, child_error, with_context, err_new.
      cbn [e_kind e_message e_context e_source app]. rewrite CI.
      assert (B' : (2 ^ 31 <=? i) = true) by (apply N.leb_le; exact B). rewrite B'. split.
      * intros [= <-]. left. auto.
      * intros [[_ ->]|[X _]]; [reflexivity|lia].
    + pose proof B as B'. apply N.leb_gt in B'. cbv zeta.
      change (pub_to_bytes (backend b L) (xpub_key x) ++ be_bytes 4 i) with (ckd_pub_data L (xpub_key x) i). fold I.
      unfold child_public, IL in *.
      destruct (pub_add_tweak (backend b L) (xpub_key x) (firstn 32 I)) as [src|k] eqn:K.
      * apply (pub_tweak_error b L HL) in K as [N ->]. unfold child_pub_error, child_error. rewrite CI, B. split.
        -- intros [= <-]. right. auto.
        -- intros [[X _]|(_ & _ & ->)]; [lia|reflexivity].
      * split; [discriminate|]. intros [[X _]|(_ & N & _)]; [lia|]. exfalso.
        apply (pub_tweak_iff L HL) in K. exact (N k K).
  - intros fuel x. rewrite pub_child_loop by apply (compress_length L HL). destruct (2 ^ 31 <=? i) eqn:B.
    + apply N.leb_le in B. unfold hardened_public_error, child_error, with_context, err_new.
      cbn [e_kind e_message e_context e_source app]. rewrite CI.
      assert (B' : (2 ^ 31 <=? i) = true) by (apply N.leb_le; exact B). rewrite B'. split.
      * intros [= <-]. auto.
      * intros [_ ->]. reflexivity.
    + apply N.leb_gt in B. split; [|lia]. intros H.
      match type of H with context [slip10_loop fuel ?c ?t ?cb ?d] =>
        destruct (loop_spec t c i fuel d) as [(j & k & _ & _ & El)|[_ El]]; rewrite El in H end; discriminate.
Qed.
Print Assumptions C82_child_error.

Example C82_case :
  let x := @mkXPrv (backend K256 Cyclic) (master_meta (zeros 32)) 5 in
  ec_laws Cyclic /\
  xprv_encode_with x XPUB = Err (version_error (lit "expected private version bytes") 0x0488B21E) /\
  show_error (version_error (lit "expected private version bytes") 0x0488B21E) =
    lit "InvalidVersion: expected private version bytes { version=0x0488B21E }" /\
  xpub_derive_child true (xprv_public x) (2 ^ 31 + 7) =
    Err (child_error (lit "cannot derive hardened child from public key") (2 ^ 31 + 7) None) /\
  show_error (child_error (lit "cannot derive hardened child from public key") (2 ^ 31 + 7) None) =
    lit "InvalidDerivation: cannot derive hardened child from public key { child_index=7, hardened=true }" /\
  match payload_show {| p_version := XPRV; p_meta := master_meta (zeros 32); p_key := zeros 33 |} with
  | Ok s =>
      match xprv_parse true (backend Secp256k1Ffi Cyclic) s with
      | Err e => error_eqb e {| e_kind := InvalidKeyData; e_message := lit "invalid private key data";
                                e_context := [(lit "key_prefix", lit "0x00")]; e_source := Some SSecpSecretKey |}
      | _ => false
      end
  | _ => false
  end = true.
Proof.
  cbv zeta. split; [exact cyclic_laws|].
  split; [reflexivity|]. split; [vm_compute; reflexivity|]. split; [reflexivity|]. split; [vm_compute; reflexivity|].
  vm_cast_no_check (eq_refl true).
Qed.
