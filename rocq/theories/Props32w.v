(** C99: the chain of causes of every bip0032 error, with and without the feature [std]. *)
From Verif Require Import Base Str StrProofs Sha2 Error32 Path32 PathSpec32 PathProofs32 Version32 Meta32
  Payload32 Base58 Base58Spec Base58Proofs PayloadSpec32 PayloadProofs32 Curve32 XKey32 XKeySpec32 XKeyProofs32
  Slip10 SlipProofs32 Cyclic32 Eqb32 Props32 Props32d Props32s Props32r ErrorChain32.

(** Errors of the base58 library. *)
Definition from_bs58 (s : Source) : Prop :=
  match s with SBufferTooSmall | SInvalidCharacter _ _ | SNonAscii _ | SChecksum _ _ | SNoChecksum => True | _ => False end.
(** Errors of the curve libraries and texts of the crate itself. *)
Definition from_curve (s : Source) : Prop :=
  match s with
  | SEllipticCurve | SSecpPublicKey | SSecpSecretKey | SSecpTweak | SScalarRange | SText _ => True
  | _ => False
  end.

Lemma bad_secret_curve b : from_curve (bad_secret b).
Proof. destruct b; exact I. Qed.
Lemma bad_point_curve b : from_curve (bad_point b).
Proof. destruct b; exact I. Qed.
Lemma bad_tweak_curve b n t : from_curve (bad_tweak b n t).
Proof. destruct b; cbn [bad_tweak]; destruct (_ || _) || destruct (n <=? t); exact I. Qed.

Definition kind_of_source (e : Error) : Prop :=
  match e_source e with
  | None => True
  | Some s => (e_kind e = InvalidPayload /\ from_bs58 s) \/
              ((e_kind e = InvalidKeyData \/ e_kind e = InvalidDerivation) /\ from_curve s)
  end.

Lemma payload_kind dbg s e : payload_parse dbg s = Err e -> kind_of_source e.
Proof.
  intros H. apply C81_key_string_error in H. unfold kind_of_source.
  destruct H as [[_ ->]|[[_ [why [F ->]]]|[[_ [d [_ [_ ->]]]]|[d [_ [_ F]]]]]]; cbn [e_source e_kind]; try exact I.
  - left. split; [reflexivity|]. destruct F; exact I.
  - destruct F; cbn; exact I.
Qed.
Lemma prv_child_kind dbg b L (HL : ec_laws L) (x : XPrv (backend b L)) i e : xprv_derive_child dbg x i = Err e -> kind_of_source e.
Proof.
  intros H. apply (proj1 (C82_child_error dbg b L HL i e)) in H. destruct H as [_ ->]. cbn. right. split; [auto|apply bad_tweak_curve].
Qed.
Lemma pub_child_kind dbg b L (HL : ec_laws L) (x : XPub (backend b L)) i e : xpub_derive_child dbg x i = Err e -> kind_of_source e.
Proof.
  intros H. apply (proj1 (proj2 (C82_child_error dbg b L HL i e))) in H. destruct H as [[_ ->]|[_ [_ ->]]]; cbn; [exact I|].
  right. split; [auto|apply bad_tweak_curve].
Qed.

Lemma operation_kind dbg b L (HL : ec_laws L) e : operation_error dbg b L e -> kind_of_source e.
Proof.
  assert (HP : forall s e, path_parse s = Err e -> kind_of_source e).
  { intros s e0 H. apply C80_path_error in H. destruct H as [[_ ->]|[_ [_ [_ (pr & g & c & r & n & _ & _ & _ & _ & F)]]]]; [exact I|].
    destruct F; exact I. }
  intros H. destruct H as [s e H|s e H|s e H|s e H|s e H|p e W H|p e W H|seed e H|x i e H|x p e H|x i e H|x p e H|x v e W H|x v e W H|fuel x i e H].
  - eauto.
  - unfold hpath_parse in H. destruct (path_parse s) as [p|e0|] eqn:E; cbn [bind] in H; [|inversion H; subst; eauto|discriminate].
    unfold hpath_try_from in H. destruct (find _ p); [|discriminate]. assert (e = _) as -> by (inversion H; reflexivity). exact I.
  - eapply payload_kind; eassumption.
  - apply C82_parse_private_error in H as [H|(p & _ & H)]; [eapply payload_kind; eassumption|].
    destruct (p_version p); [subst; exact I|]. destruct H as [_ ->]. right. split; [auto|apply bad_secret_curve].
  - apply (C82_parse_public_error dbg b L HL) in H as [H|(p & _ & H)]; [eapply payload_kind; eassumption|].
    destruct (p_version p); [|subst; exact I]. destruct H as [_ ->]. right. split; [auto|apply bad_point_curve].
  - apply (proj1 (C82_payload_error dbg b L p e W)) in H.
    destruct (p_version p); [subst; exact I|]. destruct H as [_ ->]. right. split; [auto|apply bad_secret_curve].
  - apply (proj2 (C82_payload_error dbg b L p e W)) in H.
    destruct (p_version p); [|subst; exact I]. destruct H as [_ ->]. right. split; [auto|apply bad_point_curve].
  - apply C82_master_error in H as [_ ->]. right. split; [auto|apply bad_secret_curve].
  - eapply prv_child_kind; eassumption.
  - revert x H. induction p as [|c p IH]; intros x H; cbn [xprv_derive_path] in H; [discriminate|].
    destruct (xprv_derive_child dbg x c) as [y|e0|] eqn:E; cbn [bind] in H; [eauto| |discriminate].
    assert (e0 = e) as -> by congruence. eapply prv_child_kind; eassumption.
  - eapply pub_child_kind; eassumption.
  - revert x H. induction p as [|c p IH]; intros x H; cbn [xpub_derive_path] in H; [discriminate|].
    destruct (xpub_derive_child dbg x c) as [y|e0|] eqn:E; cbn [bind] in H; [eauto| |discriminate].
    assert (e0 = e) as -> by congruence. eapply pub_child_kind; eassumption.
  - apply (proj1 (C82_encode_error b L v e W)) in H. destruct H as (n & _ & ->). exact I.
  - apply (proj2 (C82_encode_error b L v e W)) in H. destruct H as (n & _ & ->). exact I.
  - apply (proj2 (proj2 (C82_child_error false b L HL i e))) in H. destruct H as [_ ->]. exact I.
Qed.

(** The texts of the crate have no cause of their own. *)
Definition plain_texts (lib : Source -> dyn_error) : Prop := forall t, lib (SText t) = Dyn t None.

Lemma chain_hd e : exists t, chain e = text_of_error e :: t.
Proof. destruct e as [t [c|]]; eexists; reflexivity. Qed.

(** C99: what a reporter prints for the error of any operation.  Base58 errors are the library's chain,
    or its text without [std]; errors of a curve show the library's text twice. *)
Theorem C99_chain lib dbg b L e :
  ec_laws L -> plain_texts lib -> operation_error dbg b L e ->
  match e_source e with
  | None => forall std, chain (error_dyn std lib e) = [show_error e]
  | Some s =>
      (e_kind e = InvalidPayload /\ from_bs58 s /\
       chain (error_dyn true lib e) = show_error e :: chain (lib s) /\
       chain (error_dyn false lib e) = [show_error e; text_of_error (lib s)]) \/
      ((e_kind e = InvalidKeyData \/ e_kind e = InvalidDerivation) /\ from_curve s /\
       chain (error_dyn true lib e) = show_error e :: text_of_error (lib s) :: chain (lib s) /\
       chain (error_dyn false lib e) = [show_error e; text_of_error (lib s); text_of_error (lib s)])
  end.
Proof.
  intros HL HT H. pose proof (operation_kind dbg b L HL e H) as K. unfold kind_of_source in K.
  unfold error_dyn. destruct (e_source e) as [s|]; [|intros std; reflexivity].
  destruct K as [[K F]|[K F]]; [left|right]; (split; [exact K|split; [exact F|]]);
    destruct s; try contradiction; cbn [option_map attached into_error_source chain curve_error_dyn curve_error_new_from anyhow_msg text_of_error];
    rewrite ?HT; split; reflexivity.
Qed.
Print Assumptions C99_chain.

(** C99: turning the feature on changes no text that is printed, and only adds causes at the end. *)
Theorem C99_std_adds lib e :
  text_of_error (error_dyn true lib e) = text_of_error (error_dyn false lib e) /\
  error_debug true lib e = error_debug false lib e /\
  exists more, chain (error_dyn true lib e) = chain (error_dyn false lib e) ++ more.
Proof.
  assert (A : forall s, text_of_error (attached true lib s) = text_of_error (attached false lib s)) by (intros []; reflexivity).
  split; [reflexivity|]. split.
  - unfold error_debug, debug_error. destruct (e_source e) as [s|]; [rewrite A|]; reflexivity.
  - unfold error_dyn. destruct (e_source e) as [s|]; [|exists []; reflexivity].
    cbn [option_map chain].
    destruct s; cbn [attached into_error_source chain curve_error_dyn curve_error_new_from anyhow_msg text_of_error];
      try (exists []; reflexivity);
      unfold into_error_source; match goal with |- context [lib ?s] => destruct (chain_hd (lib s)) as [t ->]; exists t; reflexivity end.
Qed.
Print Assumptions C99_std_adds.

(** C99: with [std] the root cause is the library's. *)
Theorem C99_root lib e s :
  plain_texts lib -> e_source e = Some s -> last (chain (error_dyn true lib e)) [] = last (chain (lib s)) [].
Proof.
  intros HT H. unfold error_dyn. rewrite H. cbn [option_map].
  assert (Q : forall (t : str) l, l <> [] -> last (t :: l) [] = last l []) by (intros t [|u l] HN; [contradiction|reflexivity]).
  assert (N : forall d, chain d <> []) by (intros d; destruct (chain_hd d) as [t ->]; discriminate).
  cbn [chain]. rewrite Q by apply N.
  destruct s; cbn [attached into_error_source chain curve_error_dyn curve_error_new_from anyhow_msg]; try reflexivity;
    try (rewrite Q by apply N; reflexivity). rewrite HT. reflexivity.
Qed.
Print Assumptions C99_root.

(** So no text of the chain is repeated by the next one: refuted, whatever the libraries say. *)
Fixpoint no_repeat (l : list str) : Prop :=
  match l with
  | t :: ((u :: _) as r) => t <> u /\ no_repeat r
  | _ => True
  end.
Definition zero_key : Payload := {| p_version := XPRV; p_meta := master_meta (zeros 32); p_key := zeros 33 |}.
Theorem C99_no_repetition_refuted lib std dbg b L :
  ~ (forall e, operation_error dbg b L e -> no_repeat (chain (error_dyn std lib e))).
Proof.
  intros H.
  set (e := {| e_kind := InvalidKeyData; e_message := lit "invalid private key data";
               e_context := [(lit "key_prefix", lit "0x00")]; e_source := Some (bad_secret b) |}).
  assert (W : payload_wf zero_key) by (unfold payload_wf, zero_key, meta_wf; cbn; repeat split; lia).
  assert (O : operation_error dbg b L e).
  { eapply oe_from_prv; [exact W|]. apply (C82_payload_error dbg b L zero_key e W). cbn [zero_key p_version XPRV].
    split; [|reflexivity]. unfold valid_private. cbn. lia. }
  specialize (H e O). unfold error_dyn in H. cbn [e e_source option_map] in H.
  destruct b, std; cbn [bad_secret attached into_error_source chain curve_error_dyn curve_error_new_from anyhow_msg no_repeat text_of_error] in H; unfold into_error_source in H;
    repeat match type of H with context [chain (lib ?s)] => let t := fresh "t" in destruct (chain_hd (lib s)) as [t E]; rewrite E in H; clear E end;
    destruct H as [_ [H _]]; apply H; reflexivity.
Qed.
Print Assumptions C99_no_repetition_refuted.

(** The zero key with libsecp256k1: the chain with [std], when the library's error has a cause. *)
Definition ex_lib (s : Source) : dyn_error :=
  match s with
  | SText t => Dyn t None
  | SSecpSecretKey => Dyn (lit "malformed or out-of-range secret key") (Some (Dyn (lit "zero") None))
  | _ => Dyn (lit "other") None
  end.
Example C99_case :
  plain_texts ex_lib /\
  match xprv_try_from true (backend Secp256k1Ffi Cyclic) zero_key with
  | Err e =>
      chain (error_dyn true ex_lib e) =
        [lit "InvalidKeyData: invalid private key data { key_prefix=0x00 }";
         lit "malformed or out-of-range secret key"; lit "malformed or out-of-range secret key"; lit "zero"] /\
      chain (error_dyn false ex_lib e) =
        [lit "InvalidKeyData: invalid private key data { key_prefix=0x00 }";
         lit "malformed or out-of-range secret key"; lit "malformed or out-of-range secret key"]
  | _ => False
  end.
Proof. split; [intros t; reflexivity|]. vm_compute. split; reflexivity. Qed.
