(** C106: which errors the crates can report. *)
From Verif Require Import Base Str StrProofs Sha2 Unicode UnicodeTables UnicodeProofs Language39 Builtin39 Mnemonic39 Spec39
  LangSpec39 LangProofs MnemonicProofs Props39 Props39f Error32 Path32 PathSpec32 PathProofs32 Version32 Meta32
  Payload32 Base58 Base58Spec Base58Proofs PayloadSpec32 PayloadProofs32 Curve32 XKey32 XKeySpec32 XKeyProofs32
  Slip10 SlipProofs32 Cyclic32 Eqb32 Props32 Props32d Props32s Props32r.

(** ** bip0032 *)

(** What a caller can tell errors apart by, apart from the values: kind, message, the names of the
    context entries and whether there is a source. *)
Definition report_t : Type := (ErrorKind * str * list str * bool)%type.
Definition report (e : Error) : report_t :=
  (e_kind e, e_message e, map fst (e_context e), match e_source e with Some _ => true | None => false end).

(** Errors of inputs that are malformed by themselves. *)
Definition input_reports : list report_t :=
  [(InvalidPath, lit "child index must be less than 2^31", [lit "child_index"], false);
   (InvalidPath, lit "expected hardened child number", [lit "child_index"], false);
   (InvalidPath, lit "missing child index", [lit "component"], false);
   (InvalidPath, lit "invalid child index", [lit "component"], false);
   (InvalidPath, lit "derivation path is empty", [lit "path"], false);
   (InvalidPath, lit "empty path component", [lit "path"], false);
   (InvalidPath, lit "expected hardened derivation path", [lit "child_index"], false);
   (InvalidPayload, lit "invalid base58check length", [lit "encoded_len"; lit "max_len"], false);
   (InvalidPayload, lit "invalid base58check encoding", [lit "encoded_len"], true);
   (InvalidPayload, lit "invalid extended key length", [lit "decoded_len"; lit "expected_len"], false);
   (InvalidPayload, lit "zero depth with non-zero parent fingerprint", [lit "depth"; lit "parent_fingerprint"], false);
   (InvalidPayload, lit "zero depth with non-zero child number", [lit "depth"; lit "child_number"], false);
   (InvalidKeyData, lit "invalid public key prefix", [lit "key_prefix"], false);
   (InvalidKeyData, lit "invalid private key prefix", [lit "key_prefix"], false);
   (InvalidKeyData, lit "invalid private/public key data prefix", [lit "key_prefix"], false);
   (InvalidVersion, lit "expected private version bytes", [lit "version"], false);
   (InvalidVersion, lit "expected public version bytes", [lit "version"], false);
   (InvalidVersion, lit "extended key is not private", [lit "version"], false);
   (InvalidVersion, lit "extended key is not public", [lit "version"], false);
   (InvalidKeyData, lit "invalid private key data", [lit "key_prefix"], true);
   (InvalidKeyData, lit "invalid public key data", [lit "key_prefix"], true);
   (InvalidDerivation, lit "cannot derive hardened child from public key", [lit "child_index"; lit "hardened"], false)].
(** Errors that need an unlucky value of HMAC-SHA512. *)
Definition hash_reports : list report_t :=
  [(InvalidKeyData, lit "invalid master key derived from seed", [lit "seed_len"], true);
   (InvalidDerivation, lit "invalid child private key", [lit "child_index"; lit "hardened"], true);
   (InvalidDerivation, lit "invalid child public key", [lit "child_index"; lit "hardened"], true)].
Definition reports : list report_t := input_reports ++ hash_reports.

(** The public operations that can fail without a curve, with a curve and with a curve that has tweaks. *)
Inductive plain_error (dbg : profile) : Error -> Prop :=
| pe_child i h e : child_new i h = Err e -> plain_error dbg e
| pe_hchild i e : hchild_new i = Err e -> plain_error dbg e
| pe_hchild_of c e : hchild_try_from c = Err e -> plain_error dbg e
| pe_child_text s e : parse_child_component s = Err e -> plain_error dbg e
| pe_path s e : path_parse s = Err e -> plain_error dbg e
| pe_hpath s e : hpath_parse s = Err e -> plain_error dbg e
| pe_hpath_of p e : hpath_try_from p = Err e -> plain_error dbg e
| pe_payload s e : payload_parse dbg s = Err e -> plain_error dbg e.
Inductive curve_error (dbg : profile) (C : Curve) : Error -> Prop :=
| ce_new seed e : xprv_new dbg C seed = Err e -> curve_error dbg C e
| ce_parse_prv s e : xprv_parse dbg C s = Err e -> curve_error dbg C e
| ce_parse_pub s e : xpub_parse dbg C s = Err e -> curve_error dbg C e
| ce_from_prv p e : xprv_try_from dbg C p = Err e -> curve_error dbg C e
| ce_from_pub p e : xpub_try_from dbg C p = Err e -> curve_error dbg C e
| ce_encode_prv (x : XPrv C) v e : xprv_encode_with x v = Err e -> curve_error dbg C e
| ce_encode_pub (x : XPub C) v e : xpub_encode_with x v = Err e -> curve_error dbg C e
| ce_slip_new fuel seed e : new_slip10 dbg fuel C seed = Some (Err e) -> curve_error dbg C e
| ce_slip_child fuel (x : XPrv C) h e : slip10_hardened_child fuel x h = Some (Err e) -> curve_error dbg C e
| ce_slip_path fuel (x : XPrv C) p e : slip10_hardened_path dbg fuel x p = Some (Err e) -> curve_error dbg C e.
Inductive tweak_error (dbg : profile) (C : TweakCurve) : Error -> Prop :=
| te_child_prv (x : XPrv C) i e : xprv_derive_child dbg x i = Err e -> tweak_error dbg C e
| te_path_prv (x : XPrv C) p e : xprv_derive_path dbg x p = Err e -> tweak_error dbg C e
| te_child_pub (x : XPub C) i e : xpub_derive_child dbg x i = Err e -> tweak_error dbg C e
| te_path_pub (x : XPub C) p e : xpub_derive_path dbg x p = Err e -> tweak_error dbg C e
| te_slip_child_prv fuel (x : XPrv C) i e : slip10_prv_child fuel x i = Some (Err e) -> tweak_error dbg C e
| te_slip_path_prv fuel (x : XPrv C) p e : slip10_prv_path fuel x p = Some (Err e) -> tweak_error dbg C e
| te_slip_child_pub fuel (x : XPub C) i e : slip10_pub_child fuel x i = Some (Err e) -> tweak_error dbg C e
| te_slip_path_pub fuel (x : XPub C) p e : slip10_pub_path fuel x p = Some (Err e) -> tweak_error dbg C e.
(** Of any curve whatever, lawful or not. *)
Definition crate_error (dbg : profile) (e : Error) : Prop :=
  plain_error dbg e \/ (exists C, curve_error dbg C e) \/ exists C, tweak_error dbg C e.

(** *** Nothing else *)
Ltac listed := cbv [reports input_reports hash_reports app];
  first [left; reflexivity | right; listed].

Lemma put_not_err {E} a b src out (e : E) : put a b src out <> Err e.
Proof. unfold put. destruct (_ && _); discriminate. Qed.
(** [out[a..b].copy_from_slice(src)] panics exactly when the ranges do not fit. *)
Lemma put_exact {E} a b src out : @put E a b src out = Panic <-> ~ ((a <= b <= length out)%nat /\ length src = (b - a)%nat).
Proof.
  unfold put. destruct (a <=? b)%nat eqn:E1, (b <=? length out)%nat eqn:E2, (length src =? b - a)%nat eqn:E3; cbn [andb];
    rewrite ?Nat.leb_le, ?Nat.leb_gt, ?Nat.eqb_eq, ?Nat.eqb_neq in *; split; intros H; try discriminate; try reflexivity; try lia.
Qed.
Lemma split_not_err {E} key data (e : E) : hmac_sha512_split key data <> Err e.
Proof. unfold hmac_sha512_split. destruct (_ =? _)%nat; discriminate. Qed.
Lemma retry_not_err ir cb e : retry_data ir cb <> Err e.
Proof.
  unfold retry_data. destruct (put 0 1 _ _) as [a|e0|] eqn:E; cbn [bind]; [|elim (put_not_err _ _ _ _ _ E)|discriminate].
  destruct (put 1 33 _ _) as [c|e0|] eqn:E'; cbn [bind]; [apply put_not_err|elim (put_not_err _ _ _ _ _ E')|discriminate].
Qed.
Lemma loop_not_err {K} fuel chain (t : list byte -> Source + K) cb : forall data e, slip10_loop fuel chain t cb data <> Some (Err e).
Proof.
  induction fuel as [|fuel IH]; intros data e; cbn [slip10_loop]; [discriminate|].
  destruct (hmac_sha512_split chain data) as [[il ir]|e0|] eqn:E; [|elim (split_not_err _ _ _ E)|discriminate].
  destruct (t il); [|discriminate].
  destruct (retry_data ir cb) as [r|e0|] eqn:E'; [apply IH|elim (retry_not_err _ _ _ E')|discriminate].
Qed.
Lemma omap_not_err {A B} (f : A -> B) o e : (forall e', o <> Some (Err e')) -> omap f o <> Some (Err e).
Proof. intros H. destruct o as [[a|e'|]|]; cbn; [discriminate|elim (H e' eq_refl)|discriminate..]. Qed.
Lemma obind_put_not_err {B} a b src out (k : list byte -> option (res Error B)) e :
  (forall d, k d <> Some (Err e)) -> obind (put a b src out) k <> Some (Err e).
Proof. intros H. destruct (put a b src out) as [d|e'|] eqn:E; cbn [obind]; [apply H|elim (put_not_err _ _ _ _ _ E)|discriminate]. Qed.
Lemma path_loop_err {X M} (step : X -> M -> option (res Error X)) (P : Error -> Prop) :
  (forall x c e, step x c = Some (Err e) -> P e) -> forall p x e, path_loop step x p = Some (Err e) -> P e.
Proof.
  intros H. induction p as [|c p IH]; intros x e; cbn [path_loop]; [discriminate|].
  destruct (step x c) as [[y|e'|]|] eqn:E; try discriminate; [apply IH|].
  intros K. apply (H x c). rewrite E. exact K.
Qed.

(** SLIP-0010 key generation and private derivation retry instead of failing, on every curve.  So the
    message of slip10.rs 81-85 is never seen. *)
Theorem C106_slip10_never_fails :
  (forall dbg fuel C seed e, new_slip10 dbg fuel C seed <> Some (Err e)) /\
  (forall fuel C (x : XPrv C) h e, slip10_hardened_child fuel x h <> Some (Err e)) /\
  (forall dbg fuel C (x : XPrv C) p e, slip10_hardened_path dbg fuel x p <> Some (Err e)) /\
  (forall fuel (C : TweakCurve) (x : XPrv C) i e, slip10_prv_child fuel x i <> Some (Err e)) /\
  (forall fuel (C : TweakCurve) (x : XPrv C) p e, slip10_prv_path fuel x p <> Some (Err e)) /\
  (forall fuel (C : TweakCurve) (x : XPub C) i e, slip10_pub_child fuel x i = Some (Err e) ->
     2 ^ 31 <= i /\ e = hardened_public_error i) /\
  (forall fuel (C : TweakCurve) (x : XPub C) p e, slip10_pub_path fuel x p = Some (Err e) ->
     exists i, In i p /\ 2 ^ 31 <= i /\ e = hardened_public_error i).
Proof.
  assert (A1 : forall fuel C (x : XPrv C) h e, slip10_hardened_child fuel x h <> Some (Err e)).
  { intros fuel C x h e. unfold slip10_hardened_child. apply obind_put_not_err. intros d. apply obind_put_not_err. intros d'.
    apply omap_not_err. apply loop_not_err. }
  assert (A2 : forall fuel (C : TweakCurve) (x : XPrv C) i e, slip10_prv_child fuel x i <> Some (Err e)).
  { intros fuel C x i e. unfold slip10_prv_child. destruct (child_is_hardened i); apply obind_put_not_err; intros d;
      apply obind_put_not_err; intros d'; apply omap_not_err; apply loop_not_err. }
  assert (A3 : forall fuel (C : TweakCurve) (x : XPub C) i e, slip10_pub_child fuel x i = Some (Err e) ->
     2 ^ 31 <= i /\ e = hardened_public_error i).
  { intros fuel C x i e. unfold slip10_pub_child. destruct (child_is_hardened i) eqn:E.
    - intros H. assert (hardened_public_error i = e) as <- by congruence. split; [|reflexivity].
      unfold child_is_hardened, HARDENED_OFFSET in E. apply N.leb_le in E. exact E.
    - intros H. exfalso. revert H. apply obind_put_not_err; intros d;
      apply obind_put_not_err; intros d'; apply omap_not_err; apply loop_not_err. }
  repeat split.
  - intros dbg fuel C. unfold new_slip10. induction fuel as [|fuel IH]; intros seed e; cbn [slip10_master_loop]; [discriminate|].
    unfold derive_master_key_parts.
    destruct (hmac_sha512_split _ _) as [[il ir]|e0|] eqn:E; [|elim (split_not_err _ _ _ E)|discriminate].
    destruct (prv_from_bytes C il) as [err|k]; [|discriminate].
    destruct (put 0 32 il _) as [n1|e0|] eqn:E1; [|elim (put_not_err _ _ _ _ _ E1)|discriminate].
    destruct (put 32 64 ir n1) as [n2|e0|] eqn:E2; [|elim (put_not_err _ _ _ _ _ E2)|discriminate].
    cbn [app]. destruct (is_empty n2) eqn:E3; [|apply IH]. exfalso.
    assert (n2 = []) as -> by (destruct n2; [reflexivity|discriminate]).
    unfold put in E1, E2. destruct (_ && _) in E1; [|discriminate]. 
    destruct (_ && _) eqn:B2 in E2; [|discriminate].
    apply andb_prop in B2 as [_ B2]. apply Nat.eqb_eq in B2.
    assert (X : firstn 32 n1 ++ ir ++ skipn 64 n1 = []) by congruence.
    apply app_eq_nil in X as [_ X]. apply app_eq_nil in X as [-> _]. discriminate B2.
  - exact A1.
  - intros dbg fuel C x p e H. unfold slip10_hardened_path in H.
    destruct (hpath_children dbg p) as [l|e0|] eqn:E; cbn [obind] in H; [| |discriminate].
    + apply (path_loop_err (slip10_hardened_child fuel) (fun _ => False)) in H; [exact H|]. intros y c e' K. elim (A1 _ _ _ _ _ K).
    + unfold hpath_children in E. revert E. generalize (hp_inner p) as l. clear. intros l. revert e0.
      induction l as [|c l IH]; intros e0; cbn [hchildren]; [discriminate|].
      unfold from_child_unchecked. destruct (_ && _); cbn [bind]; [discriminate|].
      destruct (hchildren dbg l) as [hs|e1|]; cbn [bind]; [discriminate|exact (fun H => IH e1 eq_refl)|discriminate].
  - exact A2.
  - intros fuel C x p e H. unfold slip10_prv_path in H.
    apply (path_loop_err (slip10_prv_child fuel) (fun _ => False)) in H; [exact H|]. intros y c e' K. elim (A2 _ _ _ _ _ K).
  - apply (A3 _ _ _ _ _ H).
  - apply (A3 _ _ _ _ _ H).
  - intros fuel C x p. revert x. induction p as [|i p IH]; intros x e; unfold slip10_pub_path; cbn [path_loop]; [discriminate|].
    destruct (slip10_pub_child fuel x i) as [[y|e'|]|] eqn:E; try discriminate; intros H.
    + destruct (IH y e H) as (j & Hj & K). exists j. split; [right; exact Hj|exact K].
    + exists i. split; [left; reflexivity|]. apply (A3 _ _ _ _ _ E) || (assert (e' = e) as <- by congruence; apply (A3 _ _ _ _ _ E)).
Qed.
Print Assumptions C106_slip10_never_fails.

Lemma plain_listed dbg e : plain_error dbg e -> In (report e) reports.
Proof.
  assert (N0 : forall i h e, child_new i h = Err e -> In (report e) reports).
  { intros i h e0. unfold child_new. destruct (_ <=? _); [|discriminate]. intros H.
    assert (e0 = _) as -> by (injection H; intros <-; reflexivity). listed. }
  assert (NP : forall s e, path_parse s = Err e -> In (report e) reports).
  { intros s e0 H. apply C80_path_error in H. destruct H as [[_ ->]|[_ [_ [_ (pr & g & c & r & n & _ & _ & _ & _ & F)]]]]; [listed|].
    destruct F; listed. }
  assert (NT : forall p e, hpath_try_from p = Err e -> In (report e) reports).
  { intros p e0. unfold hpath_try_from. destruct (find _ p); [|discriminate]. intros H.
    assert (e0 = _) as -> by (injection H; intros <-; reflexivity). listed. }
  intros H. destruct H as [i h e H|i e H|c e H|s e H|s e H|s e H|p e H|s e H].
  - eauto.
  - unfold hchild_new in H. destruct (child_new i true) eqn:E; cbn [res_map] in H; try discriminate.
    apply (N0 i true). rewrite E. congruence.
  - unfold hchild_try_from in H. destruct (child_is_hardened c); [discriminate|].
    assert (e = _) as -> by (injection H; intros <-; reflexivity). listed.
  - unfold parse_child_component in H. destruct (match strip_suffix 39 s with Some _ => _ | None => _ end) as [number h].
    destruct (is_empty number); [assert (e = _) as -> by (injection H; intros <-; reflexivity); listed|].
    destruct (parse_u32 number); [eauto|]. assert (e = _) as -> by (injection H; intros <-; reflexivity). listed.
  - eauto.
  - unfold hpath_parse in H. destruct (path_parse s) as [p|e0|] eqn:E; cbn [bind] in H; [eauto| |discriminate].
    assert (e0 = e) as <- by congruence. eauto.
  - eauto.
  - apply C81_key_string_error in H.
    destruct H as [[_ ->]|[[_ [why [F ->]]]|[[_ [d [_ [_ ->]]]]|[d [_ [_ F]]]]]]; [listed..|]. destruct F; listed.
Qed.

Lemma raise_err {A} dbg e s e' : e_source e = None -> @raise A (set_source dbg e s) = Err e' ->
  e' = {| e_kind := e_kind e; e_message := e_message e; e_context := e_context e; e_source := Some s |}.
Proof. unfold set_source. intros ->. rewrite Bool.andb_false_r. cbn [raise]. congruence. Qed.

Lemma prv_from_listed dbg C p e : xprv_try_from dbg C p = Err e -> In (report e) reports.
Proof.
  unfold xprv_try_from. destruct (negb _); [intros H; assert (e = _) as -> by (injection H; intros <-; reflexivity); listed|].
  destruct (put _ _ _ _) as [raw|e0|] eqn:E; cbn [bind]; [|elim (put_not_err _ _ _ _ _ E)|discriminate].
  destruct (prv_from_bytes C raw); [|discriminate]. intros H. apply raise_err in H; [|reflexivity]. subst e. listed.
Qed.
Lemma pub_from_listed dbg C p e : xpub_try_from dbg C p = Err e -> In (report e) reports.
Proof.
  unfold xpub_try_from. destruct (negb _); [intros H; assert (e = _) as -> by (injection H; intros <-; reflexivity); listed|].
  destruct (pub_from_bytes C _); [|discriminate]. intros H. apply raise_err in H; [|reflexivity]. subst e. listed.
Qed.
Lemma curve_listed dbg C e : curve_error dbg C e -> In (report e) reports.
Proof.
  destruct C106_slip10_never_fails as (S1 & S2 & S3 & _).
  intros H. destruct H as [seed e H|s e H|s e H|p e H|p e H|x v e H|x v e H|fuel seed e H|fuel x h e H|fuel x p e H].
  - unfold xprv_new, derive_master_key_parts in H.
    destruct (hmac_sha512_split _ _) as [[il ir]|e0|] eqn:E; cbn [bind] in H; [|elim (split_not_err _ _ _ E)|discriminate].
    destruct (prv_from_bytes C il); [|discriminate]. apply raise_err in H; [|reflexivity]. subst e. listed.
  - unfold xprv_parse in H. destruct (payload_parse dbg s) as [p|e0|] eqn:E; cbn [bind] in H; [| |discriminate].
    + eapply prv_from_listed. exact H.
    + assert (e0 = e) as <- by congruence. apply (plain_listed dbg), (pe_payload dbg s), E.
  - unfold xpub_parse in H. destruct (payload_parse dbg s) as [p|e0|] eqn:E; cbn [bind] in H; [| |discriminate].
    + eapply pub_from_listed. exact H.
    + assert (e0 = e) as <- by congruence. apply (plain_listed dbg), (pe_payload dbg s), E.
  - eapply prv_from_listed. exact H.
  - eapply pub_from_listed. exact H.
  - unfold xprv_encode_with, xprv_encode_unchecked in H. destruct (negb _).
    + assert (e = _) as -> by (injection H; intros <-; reflexivity). listed.
    + destruct (put _ _ _ _) as [raw|e0|] eqn:E; cbn [bind] in H; [discriminate|elim (put_not_err _ _ _ _ _ E)|discriminate].
  - unfold xpub_encode_with in H. destruct (negb _); [|discriminate].
    assert (e = _) as -> by (injection H; intros <-; reflexivity). listed.
  - elim (S1 _ _ _ _ _ H).
  - elim (S2 _ _ _ _ _ H).
  - elim (S3 _ _ _ _ _ _ H).
Qed.
Lemma tweak_listed dbg C e : tweak_error dbg C e -> In (report e) reports.
Proof.
  destruct C106_slip10_never_fails as (_ & _ & _ & S4 & S5 & S6 & S7).
  assert (HR : forall i, In (report (hardened_public_error i)) reports) by (intros i; listed).
  assert (A : forall (x : XPrv C) i e, xprv_derive_child dbg x i = Err e -> In (report e) reports).
  { intros x i e0 H. unfold xprv_derive_child, child_data in H.
    match type of H with bind ?d _ = _ => destruct d as [d0|e1|] eqn:E end; cbn [bind] in H; try discriminate.
    2:{ exfalso. revert E. destruct (child_is_hardened i); try discriminate.
        match goal with |- bind ?d _ = _ -> _ => destruct d as [d1|e2|] eqn:E2 end; cbn [bind]; try discriminate;
          [apply put_not_err|elim (put_not_err _ _ _ _ _ E2)]. }
    destruct (hmac_sha512_split _ _) as [[il ir]|e1|] eqn:E2 in H; cbn [bind] in H; try discriminate; try elim (split_not_err _ _ _ E2).
    destruct (prv_add_tweak C _ il); [|discriminate]; apply raise_err in H; [|reflexivity]; subst e0; listed. }
  assert (B : forall (x : XPub C) i e, xpub_derive_child dbg x i = Err e -> In (report e) reports).
  { intros x i e0 H. unfold xpub_derive_child in H.
    destruct (child_is_hardened i); [assert (e0 = hardened_public_error i) as -> by congruence; apply HR|].
    destruct (hmac_sha512_split _ _) as [[il ir]|e1|] eqn:E2 in H; cbn [bind] in H; try discriminate; try elim (split_not_err _ _ _ E2).
    destruct (pub_add_tweak C _ il); [|discriminate]; apply raise_err in H; [|reflexivity]; subst e0; listed. }
  intros H. destruct H as [x i e H|x p e H|x i e H|x p e H|fuel x i e H|fuel x p e H|fuel x i e H|fuel x p e H].
  - eauto.
  - revert x H. induction p as [|c p IH]; intros x H; cbn [xprv_derive_path] in H; [discriminate|].
    destruct (xprv_derive_child dbg x c) as [y|e0|] eqn:E; cbn [bind] in H; [eauto| |discriminate].
    assert (e0 = e) as -> by congruence. eauto.
  - eauto.
  - revert x H. induction p as [|c p IH]; intros x H; cbn [xpub_derive_path] in H; [discriminate|].
    destruct (xpub_derive_child dbg x c) as [y|e0|] eqn:E; cbn [bind] in H; [eauto| |discriminate].
    assert (e0 = e) as -> by congruence. eauto.
  - elim (S4 _ _ _ _ _ H).
  - elim (S5 _ _ _ _ _ H).
  - destruct (S6 _ _ _ _ _ H) as [_ ->]. apply HR.
  - destruct (S7 _ _ _ _ _ H) as (i & _ & _ & ->). apply HR.
Qed.

(** No operation on any curve reports anything that is not in the table. *)
Theorem C106_only dbg e : crate_error dbg e -> In (report e) reports.
Proof.
  intros [H|[[C H]|[C H]]]; [eapply plain_listed|eapply curve_listed|eapply tweak_listed]; exact H.
Qed.
Print Assumptions C106_only.

(** Two reports of the table with the same message are the same: the message tells the check. *)
Theorem C106_messages dbg dbg' e e' : crate_error dbg e -> crate_error dbg' e' ->
  e_message e = e_message e' -> report e = report e'.
Proof.
  intros H H' M. apply C106_only in H. apply C106_only in H'.
  assert (ND : NoDup (map (fun r : report_t => snd (fst (fst r))) reports)).
  { assert (D : forall l : list str, (fix nd l := match l with [] => true | a :: m => negb (existsb (str_eqb a) m) && nd m end) l = true -> NoDup l).
    { induction l as [|a l IH]; intros K; [constructor|]. apply andb_prop in K as [K1 K2]. constructor; [|apply IH; exact K2].
      intros HI. apply Bool.negb_true_iff in K1. assert (existsb (str_eqb a) l = true); [|congruence].
      apply existsb_exists. exists a. split; [exact HI|]. apply str_refl. }
    apply D. vm_compute. reflexivity. }
  assert (M' : snd (fst (fst (report e))) = snd (fst (fst (report e')))) by exact M.
  revert H H' ND M'. generalize (report e) as r, (report e') as r'. generalize reports as l. clear. intros l r r' H H' ND M.
  induction l as [|a l IH]; [destruct H|]. cbn [map] in ND. apply NoDup_cons_iff in ND as [N1 N2].
  destruct H as [->|H], H' as [->|H']; try reflexivity.
  - elim N1. rewrite M. apply (in_map (fun r : report_t => snd (fst (fst r)))). exact H'.
  - elim N1. rewrite <- M. apply (in_map (fun r : report_t => snd (fst (fst r)))). exact H.
  - apply IH; assumption.
Qed.
Print Assumptions C106_messages.

(** *** All of them *)
Definition backend_error (dbg : profile) (b : Library) (L : ECLib) (e : Error) : Prop :=
  plain_error dbg e \/ curve_error dbg (backend b L) e \/ tweak_error dbg (backend b L) e.

(** A string of 78 bytes with the fields of an extended key. *)
Definition raw_key (version : N) (depth : byte) (fp : byte) (child : N) (tag : byte) : list byte :=
  be_bytes 4 version ++ depth :: [x00; x00; x00; fp] ++ be_bytes 4 child ++ repeat x07 32 ++ tag :: repeat x00 32.
Lemma fault_reported dbg version depth fp child tag e : key_fault (raw_key version depth fp child tag) e -> plain_error dbg e.
Proof.
  intros H. destruct (encode_check_spec (raw_key version depth fp child tag)) as (s & _ & Hs).
  apply (pe_payload dbg s). apply C81_key_string_error. right. right. right.
  exists (raw_key version depth fp child tag). split; [exact Hs|]. split; [|exact H].
  unfold raw_key. rewrite !app_length, !be_bytes_length. reflexivity.
Qed.

Definition ex_meta : Metadata := {| m_depth := x00; m_fingerprint := repeat x00 4; m_child := 0; m_chain := repeat x07 32 |}.
Lemma ex_meta_wf : meta_wf ex_meta.
Proof. split; [reflexivity|]. split; [cbn; lia|reflexivity]. Qed.

Theorem C106_reached dbg b L r : ec_laws L -> In r input_reports -> exists e, report e = r /\ backend_error dbg b L e.
Proof.
  intros HL H.
  assert (P : forall s e, path_parse s = Err e -> report e = r -> exists e, report e = r /\ backend_error dbg b L e).
  { intros s e E R. exists e. split; [exact R|]. left. apply (pe_path dbg s). exact E. }
  assert (Q : forall s e, (forall d, payload_parse d s = Err e) -> report e = r -> exists e, report e = r /\ backend_error dbg b L e).
  { intros s e E R. exists e. split; [exact R|]. left. apply (pe_payload dbg s). apply E. }
  assert (F : forall version depth fp child tag e, key_fault (raw_key version depth fp child tag) e -> report e = r ->
    exists e, report e = r /\ backend_error dbg b L e).
  { intros v d f c t e K R. exists e. split; [exact R|]. left. eapply fault_reported. exact K. }
  unfold input_reports in H. cbn [In] in H.
  repeat match type of H with _ \/ _ => destruct H as [H|H] end; [..|destruct H]; symmetry in H.
  - apply (P (lit "m/2147483648") (path_error (lit "child index must be less than 2^31") (lit "child_index") (lit "2147483648"))); [eval_by run_path|rewrite H; reflexivity].
  - exists (path_error (lit "expected hardened child number") (lit "child_index") (lit "5")). split; [rewrite H; reflexivity|]. left. apply (pe_hchild_of dbg 5). reflexivity.
  - apply (P (lit "m/'") (path_error (lit "missing child index") (lit "component") (lit "'"))); [eval_by run_path|rewrite H; reflexivity].
  - apply (P (lit "m/x") (path_error (lit "invalid child index") (lit "component") (lit "x"))); [eval_by run_path|rewrite H; reflexivity].
  - apply (P [] (path_error (lit "derivation path is empty") (lit "path") [])); [reflexivity|rewrite H; reflexivity].
  - apply (P (lit "m//1") (path_error (lit "empty path component") (lit "path") (lit "m//1"))); [eval_by run_path|rewrite H; reflexivity].
  - exists (path_error (lit "expected hardened derivation path") (lit "child_index") (lit "5")). split; [rewrite H; reflexivity|]. left. apply (pe_hpath_of dbg [2 ^ 31; 5]). reflexivity.
  - apply (Q (repeat 49 124) {| e_kind := InvalidPayload; e_message := lit "invalid base58check length";
          e_context := [(lit "encoded_len", lit "124"); (lit "max_len", lit "123")]; e_source := None |}); [|rewrite H; reflexivity].
    intros []; eval_by run_payload.
  - apply (Q (lit "0") {| e_kind := InvalidPayload; e_message := lit "invalid base58check encoding";
          e_context := [(lit "encoded_len", lit "1")]; e_source := Some (SInvalidCharacter 48 0) |}); [|rewrite H; reflexivity].
    intros []; eval_by run_payload.
  - apply (Q (lit "3QJmnh") {| e_kind := InvalidPayload; e_message := lit "invalid extended key length";
          e_context := [(lit "decoded_len", lit "0"); (lit "expected_len", lit "78")]; e_source := None |}); [|rewrite H; reflexivity].
    intros []; eval_by run_payload.
  - eapply (F 0 x00 x01 0 x00); [apply fault_fingerprint; [reflexivity|discriminate]|rewrite H; reflexivity].
  - eapply (F 0 x00 x00 1 x00); [apply fault_child; [reflexivity|reflexivity|discriminate]|rewrite H; reflexivity].
  - eapply (F 0x0488B21E x01 x00 1 x00); [apply fault_public; [discriminate|vm_compute; tauto|discriminate|discriminate]|rewrite H; reflexivity].
  - eapply (F 0x0488ADE4 x01 x00 1 x02); [apply fault_private; [discriminate|vm_compute; tauto|discriminate]|rewrite H; reflexivity].
  - eapply (F 5 x01 x00 1 x04); [apply fault_unknown; [discriminate|intros K; vm_compute in K; intuition discriminate|intros K; vm_compute in K; intuition discriminate|discriminate..]|rewrite H; reflexivity].
  - exists (version_error (lit "expected private version bytes") 5). split; [rewrite H; reflexivity|]. right. left.
    apply (ce_encode_prv dbg (backend b L) (@mkXPrv (backend b L) ex_meta 1) (Public 5)). reflexivity.
  - exists (version_error (lit "expected public version bytes") 5). split; [rewrite H; reflexivity|]. right. left.
    apply (ce_encode_pub dbg (backend b L) (@mkXPub (backend b L) ex_meta (gen L)) (Private 5)). reflexivity.
  - exists (version_error (lit "extended key is not private") 5). split; [rewrite H; reflexivity|]. right. left.
    apply (ce_from_prv dbg (backend b L) {| p_version := Public 5; p_meta := ex_meta; p_key := repeat x00 33 |}). reflexivity.
  - exists (version_error (lit "extended key is not public") 5). split; [rewrite H; reflexivity|]. right. left.
    apply (ce_from_pub dbg (backend b L) {| p_version := Private 5; p_meta := ex_meta; p_key := repeat x00 33 |}). reflexivity.
  - eexists. split; [|right; left; apply (ce_from_prv dbg (backend b L) {| p_version := Private 5; p_meta := ex_meta; p_key := repeat x00 33 |})].
    2:{ apply C82_payload_error; [split; [cbn; lia|]; split; [exact ex_meta_wf|reflexivity]|]. cbn [p_version]. split; [|reflexivity].
        intros [V _]. vm_compute in V. discriminate. }
    rewrite H. reflexivity.
  - eexists. split; [|right; left; apply (ce_from_pub dbg (backend b L) {| p_version := Public 5; p_meta := ex_meta; p_key := repeat x00 33 |})].
    2:{ apply (C82_payload_error dbg b L); [split; [cbn; lia|]; split; [exact ex_meta_wf|reflexivity]|]. cbn [p_version]. split; [|reflexivity].
        intros K. destruct b; discriminate. }
    rewrite H. reflexivity.
  - exists (hardened_public_error (2 ^ 31)). split; [rewrite H; reflexivity|]. right. right.
    apply (te_child_pub dbg (backend b L) (@mkXPub (backend b L) ex_meta (gen L)) (2 ^ 31)). reflexivity.
Qed.
Print Assumptions C106_reached.

(** The remaining three occur as soon as the library's group is small enough for the hash to miss
    it: here the group of order two. *)
Definition Two : ECLib := CyclicOf 2 eq_refl.
Lemma two_laws : ec_laws Two.
Proof. apply cyclic_of_laws. all: reflexivity || (cbn; lia). Qed.

Definition missed (key data : list byte) : bool := 2 <=? IL (hmac_sha512 key data).
Lemma missed_master b : missed (hmac_key (backend b Two)) [] = true.
Proof.
  assert (K : missed BITCOIN_SEED [] && missed NIST_SEED [] = true) by (vm_cast_no_check (eq_refl true)).
  apply andb_prop in K as [K1 K2].
  replace (hmac_key (backend b Two)) with (match b with P256 => NIST_SEED | _ => BITCOIN_SEED end) by (destruct b; reflexivity).
  destruct b; assumption.
Qed.
Lemma missed_child : missed (repeat x07 32) (ckd_pub_data Two (gen Two) 0) = true.
Proof. vm_cast_no_check (eq_refl true). Qed.
Lemma missed_not b key data : missed key data = true -> ~ allowed b Two (IL (hmac_sha512 key data)).
Proof. unfold missed. intros H [K _]. apply N.leb_le in H. change (order Two) with 2 in K. lia. Qed.

Theorem C106_hash_reached dbg b r : In r hash_reports -> exists e, report e = r /\ backend_error dbg b Two e.
Proof.
  intros H. unfold hash_reports in H. cbn [In] in H.
  repeat match type of H with _ \/ _ => destruct H as [H|H] end; [..|destruct H]; symmetry in H.
  - eexists. split; [|right; left; apply (ce_new dbg (backend b Two) []); apply C82_master_error; split; [|reflexivity]].
    + rewrite H. reflexivity.
    + pose proof (missed_master b) as K. unfold missed in K. apply N.leb_le in K. intros [_ V]. change (order Two) with 2 in V. lia.
  - eexists. split; [|right; right; apply (te_child_prv dbg (backend b Two) (@mkXPrv (backend b Two) ex_meta 1) 0);
      apply (C82_child_error dbg b Two two_laws 0); split; [|reflexivity]].
    + rewrite H. reflexivity.
    + intros k [A _]. revert A. apply (missed_not b). 
      change (ckd_priv_data Two _ 0) with (ckd_pub_data Two (pmul Two 1 (gen Two)) 0).
      replace (pmul Two 1 (gen Two)) with (gen Two) by (apply cy_eq; reflexivity). exact missed_child.
  - eexists. split; [|right; right; apply (te_child_pub dbg (backend b Two) (@mkXPub (backend b Two) ex_meta (gen Two)) 0);
      apply (C82_child_error dbg b Two two_laws 0); right; split; [reflexivity|]; split; [|reflexivity]].
    + rewrite H. reflexivity.
    + intros k [A _]. revert A. apply (missed_not b). exact missed_child.
Qed.
Print Assumptions C106_hash_reached.

(** ** bip0039 *)
Lemma quick_weaken U k k' s : k' <= k -> quick_spec U k s -> quick_spec U k' s.
Proof. intros H Q. inversion Q; subst; constructor; try assumption. destruct H1; [left; assumption|right; lia]. Qed.
Lemma quick_parts U a : forall k b, quick_spec U k (a ++ b) -> quick_spec U 0 a /\ quick_spec U 0 b.
Proof.
  assert (K : forall a k b, quick_spec U k (a ++ b) -> quick_spec U k a /\ quick_spec U 0 b).
  { induction a0 as [|c a0 IH]; intros k b Q; cbn [app] in Q.
    - split; [constructor|]. apply (quick_weaken U k); [lia|exact Q].
    - inversion Q; subst. destruct (IH _ _ H4) as [Q1 Q2]. split; [constructor; assumption|exact Q2]. }
  intros k b Q. destruct (K a k b Q) as [Q1 Q2]. split; [|exact Q2]. apply (quick_weaken U k); [lia|exact Q1].
Qed.
(** The words of a normalised text are normalised. *)
Lemma words_normal U s ws : ucd_ok U -> words_of s ws -> nfkd U s = s -> Forall (fun w => nfkd U w = w) ws.
Proof.
  intros OK W E. apply (quick_complete U OK) in E. apply (quick_iff U OK) in E.
  revert E. generalize 0 as k. induction W as [|c s ws Hc W IH|w s ws Hn Hw Hs W IH]; intros k Q; [constructor| |].
  - inversion Q; subst. eapply IH. eassumption.
  - apply quick_parts in Q as [Q1 Q2]. constructor; [|eapply IH; exact Q2].
    apply (quick_complete U OK). apply (quick_iff U OK). exact Q1.
Qed.

Definition word_form (w : str) : Prop := w <> [] /\ Forall (fun c => is_ws c = false) w.
(** What parsing can report.  [normal] is what is required of an unknown word. *)
Definition phrase_report (L : Language) (normal : str -> Prop) (e : err39) : Prop :=
  match e with
  | BadWordCount n => ~ In n [12; 15; 18; 21; 24]
  | BadEntropyBitCount _ => False
  | UnknownWord w => word_form w /\ normal w /\ ~ In w (lang_words L)
  | InvalidChecksum => True
  end.

Section Parsing.
Variables (U : ucd) (L : Language).
Hypothesis OK : ucd_ok U.
Hypothesis LC : lang_contract U L.

Lemma some_word : exists w, In w (lang_words L).
Proof.
  pose proof (lc_count U L LC) as H. destruct (lang_words L) as [|w ws]; [discriminate|]. exists w. left. reflexivity.
Qed.
Lemma word_props w : In w (lang_words L) -> word_form w /\ nfkd U w = w /\ lang_index_of L w <> None.
Proof.
  intros H. pose proof (proj1 (Forall_forall _ _) (lc_words U L LC) w H) as (A & B & C).
  split; [split; assumption|]. split; [exact C|].
  apply In_nth_error in H as [n E]. pose proof (proj2 (lc_index_of U L LC w (N.of_nat n))) as K. rewrite Nat2N.id in K.
  rewrite (K E). discriminate.
Qed.
Lemma legal_list n : legal_word_count n <-> In (N.of_nat n) [12; 15; 18; 21; 24].
Proof. unfold legal_word_count. cbn [In]. lia. Qed.

Lemma bad_count_example n : ~ In n [12; 15; 18; 21; 24] ->
  exists ws, Forall (fun w => word_form w /\ nfkd U w = w) ws /\ from_normalized_phrase L (join [32] ws) = Err (BadWordCount n).
Proof.
  intros H. destruct some_word as [w Hw]. destruct (word_props w Hw) as (A & B & _).
  exists (repeat w (N.to_nat n)). split; [apply Forall_forall; intros v Hv; apply repeat_spec in Hv; subst v; split; assumption|].
  assert (W : words_of (join [32] (repeat w (N.to_nat n))) (repeat w (N.to_nat n))).
  { apply words_of_join. apply Forall_forall. intros v Hv. apply repeat_spec in Hv. subst v. exact A. }
  rewrite (proj1 (C05_acceptance L _ _) (ps_count _ _ _ W ltac:(rewrite legal_list, repeat_length, N2Nat.id; exact H))).
  cbn [parsed]. rewrite repeat_length, N2Nat.id. reflexivity.
Qed.
Lemma unknown_example w : word_form w -> ~ In w (lang_words L) ->
  exists ws, Forall (fun v => v = w \/ word_form v /\ nfkd U v = v) ws /\ Forall word_form ws /\
    from_normalized_phrase L (join [32] ws) = Err (UnknownWord w).
Proof.
  intros A N. destruct some_word as [v Hv]. destruct (word_props v Hv) as (A' & B' & _).
  exists (w :: repeat v 11). split; [|split].
  - constructor; [left; reflexivity|]. apply Forall_forall. intros z Hz. apply repeat_spec in Hz. subst z. right. split; assumption.
  - constructor; [exact A|]. apply Forall_forall. intros z Hz. apply repeat_spec in Hz. subst z. exact A'.
  - assert (I : lang_index_of L w = None).
    { destruct (lang_index_of L w) as [i|] eqn:E; [|reflexivity]. elim N. apply (lc_index_of U L LC) in E. eapply nth_error_In. exact E. }
    apply (proj1 (C05_acceptance L _ (PUnknown w))). apply (ps_unknown _ _ [] w (repeat v 11)); [|vm_compute; tauto|constructor|exact I].
    cbn [app]. apply words_of_join. constructor; [exact A|]. apply Forall_forall. intros z Hz. apply repeat_spec in Hz. subst z. exact A'.
Qed.
Lemma checksum_example :
  exists ws, Forall (fun w => word_form w /\ nfkd U w = w) ws /\ from_normalized_phrase L (join [32] ws) = Err InvalidChecksum.
Proof.
  destruct some_word as [v Hv]. destruct (word_props v Hv) as (A & B & _).
  assert (F : Forall (fun w => In w (lang_words L)) (repeat v 11)).
  { apply Forall_forall. intros z Hz. apply repeat_spec in Hz. subst z. exact Hv. }
  pose proof (C13_last_word_count U L (repeat v 11) 12 LC F eq_refl ltac:(vm_compute; tauto)) as K.
  change (2 ^ N.of_nat (11 - 12 / 3)) with 128 in K.
  destruct (forallb (fun w => is_ok (from_normalized_phrase L (join [32] (repeat v 11 ++ [w])))) (lang_words L)) eqn:E.
  - exfalso. rewrite forallb_forall in E.
    assert (X : forall (f : str -> bool) l, (forall x, In x l -> f x = true) -> filter f l = l).
    { intros f l. induction l as [|a l IH]; intros H; [reflexivity|]. cbn [filter]. rewrite (H a) by (left; reflexivity). f_equal.
      apply IH. intros x Hx. apply H. right. exact Hx. }
    rewrite X in K by exact E. rewrite (lc_count U L LC) in K. discriminate.
  - assert (X : exists w, In w (lang_words L) /\ is_ok (from_normalized_phrase L (join [32] (repeat v 11 ++ [w]))) = false).
    { revert E. generalize (lang_words L) as l. induction l as [|a l IH]; cbn [forallb]; [discriminate|]. intros E.
      apply Bool.andb_false_iff in E as [E|E]; [exists a; split; [left; reflexivity|exact E]|].
      destruct (IH E) as (w & Hw & Ew). exists w. split; [right; exact Hw|exact Ew]. }
    destruct X as (w & Hw & Ew). destruct (word_props w Hw) as (A' & B' & _).
    set (ws := repeat v 11 ++ [w]) in *.
    assert (FW : Forall (fun z => In z (lang_words L)) ws) by (apply Forall_app; split; [exact F|constructor; [exact Hw|constructor]]).
    exists ws. split; [eapply Forall_impl; [|exact FW]; intros z Hz; destruct (word_props z Hz) as (P & Q & _); split; assumption|].
    assert (W : words_of (join [32] ws) ws).
    { apply words_of_join. eapply Forall_impl; [|exact FW]. intros z Hz. apply (word_props z Hz). }
    assert (LW : length ws = 12%nat) by reflexivity.
    destruct (C05_outcome_unique L (join [32] ws)) as (r & HR & _). pose proof (proj1 (C05_acceptance L _ r) HR) as E'.
    rewrite E' in Ew |- *. destruct HR as [ws' W' NL|pre z post W' _ _ NI|ws' idxs e0 cs _ _ _ _ _ _|ws' idxs e0 _ _ _ _ _].
    + rewrite (words_of_fun _ _ _ W' W), LW in NL. elim NL. vm_compute. tauto.
    + exfalso. apply (proj2 (proj2 (word_props z (proj1 (Forall_forall _ _) FW z ltac:(rewrite <- (words_of_fun _ _ _ W' W); apply in_or_app; right; left; reflexivity))))). exact NI.
    + reflexivity.
    + discriminate Ew.
Qed.

Lemma normalized_reports s e : from_normalized_phrase L s = Err e ->
  phrase_report L (fun w => exists ws, words_of s ws /\ In w ws) e.
Proof.
  intros H. destruct (C05_outcome_unique L s) as (r & HR & _). pose proof (proj1 (C05_acceptance L _ r) HR) as E'.
  rewrite E' in H. destruct HR as [ws W NL|pre z post W _ _ NI|ws idxs e0 cs _ _ _ _ _ _|ws idxs e0 _ _ _ _ _]; cbn [parsed] in H.
  - assert (e = BadWordCount (N.of_nat (length ws))) as -> by congruence. cbn [phrase_report]. rewrite <- legal_list. exact NL.
  - assert (e = UnknownWord z) as -> by congruence. cbn [phrase_report].
    assert (I : In z (pre ++ z :: post)) by (apply in_or_app; right; left; reflexivity).
    split; [exact (proj1 (Forall_forall _ _) (words_of_good _ _ W) z I)|]. split; [exists (pre ++ z :: post); split; assumption|].
    intros K. apply (proj2 (proj2 (word_props z K))). exact NI.
  - assert (e = InvalidChecksum) as -> by congruence. exact I.
  - discriminate.
Qed.

(** Exactly these errors come from [from_normalized_phrase] and from [from_phrase]. *)
Theorem C106_phrase_errors e :
  ((exists s, from_normalized_phrase L s = Err e) <-> phrase_report L (fun _ => True) e) /\
  ((exists s, from_phrase U L s = Err e) <-> phrase_report L (fun w => nfkd U w = w) e) /\
  ((exists s, validate U L s = Err e) <-> phrase_report L (fun w => nfkd U w = w) e).
Proof.
  assert (N : forall ws, Forall (fun w => word_form w /\ nfkd U w = w) ws -> nfkd U (join [32] ws) = join [32] ws).
  { intros ws F. apply nfkd_words; [exact OK|]. eapply Forall_impl; [|exact F]. intros w Hw. apply Hw. }
  assert (A2 : (exists s, from_phrase U L s = Err e) <-> phrase_report L (fun w => nfkd U w = w) e).
  { split.
    - intros [s H]. rewrite from_phrase_nfkd in H by exact OK. apply normalized_reports in H.
      destruct e as [n|n|w|]; cbn [phrase_report] in *; try assumption.
      destruct H as (A & (ws & W & I) & B). split; [exact A|]. split; [|exact B].
      exact (proj1 (Forall_forall _ _) (words_normal U _ _ OK W (nfkd_idem U OK s)) w I).
    - intros H. destruct e as [n|n|w|]; cbn [phrase_report] in H; [| destruct H | |].
      + destruct (bad_count_example n H) as (ws & F & E). exists (join [32] ws). rewrite from_phrase_nfkd, N by assumption. exact E.
      + destruct H as (A & B & C). destruct (unknown_example w A C) as (ws & F & _ & E). exists (join [32] ws).
        rewrite from_phrase_nfkd by exact OK. rewrite nfkd_words; [exact E|exact OK|]. eapply Forall_impl; [|exact F].
        intros z [-> | [_ Hz]]; [exact B|exact Hz].
      + destruct checksum_example as (ws & F & E). exists (join [32] ws). rewrite from_phrase_nfkd, N by assumption. exact E. }
  split; [|split; [exact A2|]].
  - split.
    + intros [s H]. apply normalized_reports in H.
      destruct e as [n|n|w|]; cbn [phrase_report] in *; try assumption. tauto.
    + intros H. destruct e as [n|n|w|]; cbn [phrase_report] in H; [| destruct H | |].
      * destruct (bad_count_example n H) as (ws & F & E). exists (join [32] ws). exact E.
      * destruct H as (A & B & C). destruct (unknown_example w A C) as (ws & _ & _ & E). exists (join [32] ws). exact E.
      * destruct checksum_example as (ws & F & E). exists (join [32] ws). exact E.
  - rewrite <- A2. split; intros [s H]; exists s.
    + rewrite C06_validate_agrees in H. destruct (from_phrase U L s); congruence.
    + rewrite C06_validate_agrees, H. reflexivity.
Qed.

Theorem C106_entropy_errors B e : valid_build B ->
  (exists bytes, 8 * N.of_nat (length bytes) < 2 ^ b_usize_bits B /\ from_entropy B L bytes = Err e) <->
  exists n, 8 * n < 2 ^ b_usize_bits B /\ ~ In n [16; 20; 24; 28; 32] /\ e = BadEntropyBitCount (8 * n).
Proof.
  intros HB.
  assert (T : forall i, i < 2048 -> lang_word_of L i <> None).
  { intros i Hi. rewrite (lc_word_of U L LC) by exact Hi. apply nth_error_Some. pose proof (lc_count U L LC). lia. }
  assert (LG : forall n, legal_entropy_len n <-> In (N.of_nat n) [16; 20; 24; 28; 32]) by (intros n; unfold legal_entropy_len; cbn [In]; lia).
  split.
  - intros (bytes & Hl & H). destruct (C02_legal_sizes B L bytes HB Hl T) as [C1 C2].
    assert (NL : ~ legal_entropy_len (length bytes)).
    { intros K. apply C1 in K as [m K]. congruence. }
    exists (N.of_nat (length bytes)). split; [exact Hl|]. split; [rewrite <- LG; exact NL|]. rewrite (C2 NL) in H. congruence.
  - intros (n & Hn & NL & ->). exists (repeat x00 (N.to_nat n)).
    assert (E : N.of_nat (length (repeat x00 (N.to_nat n))) = n) by (rewrite repeat_length; apply N2Nat.id).
    rewrite E. split; [exact Hn|].
    destruct (C02_legal_sizes B L (repeat x00 (N.to_nat n)) HB ltac:(rewrite E; exact Hn) T) as [_ C2].
    rewrite C2; [rewrite E; reflexivity|]. rewrite LG, E. exact NL.
Qed.
End Parsing.
Print Assumptions C106_phrase_errors.
Print Assumptions C106_entropy_errors.

(** Cases: two failing operations with different messages, an unknown word in a decomposed form and
    one that no text can be blamed for. *)
Example C106_case : crate_error true (hardened_public_error (2 ^ 31)) /\
  crate_error false (path_error (lit "derivation path is empty") (lit "path") []) /\
  e_message (hardened_public_error (2 ^ 31)) <> lit "derivation path is empty".
Proof.
  split; [|split; [|discriminate]].
  - right. right. exists (backend K256 Cyclic). apply (te_child_pub true (backend K256 Cyclic) (@mkXPub (backend K256 Cyclic) ex_meta (gen Cyclic)) (2 ^ 31)). reflexivity.
  - left. apply (pe_path false []). reflexivity.
Qed.
Example C106_case39 :
  phrase_report (language_of BEnglish) (fun w => nfkd ucd15 w = w) (UnknownWord [101; 0x301]) /\
  ~ phrase_report (language_of BEnglish) (fun w => nfkd ucd15 w = w) (UnknownWord [0xE9]) /\
  ~ phrase_report (language_of BEnglish) (fun w => nfkd ucd15 w = w) (BadWordCount 12) /\
  lang_contract ucd15 (language_of BEnglish).
Proof.
  split; [|split; [|split]].
  - split; [split; [discriminate|repeat constructor]|]. split; [reflexivity|].
    assert (K : existsb (str_eqb [101; 0x301]) (lang_words (language_of BEnglish)) = false) by (vm_compute; reflexivity).
    intros H. assert (X : existsb (str_eqb [101; 0x301]) (lang_words (language_of BEnglish)) = true); [|congruence].
    apply existsb_exists. exists [101; 0x301]. split; [exact H|apply str_refl].
  - intros (_ & H & _). vm_compute in H. discriminate.
  - intros H. apply H. left. reflexivity.
  - apply builtin_contract, ucd15_std.
Qed.
