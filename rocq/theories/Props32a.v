(** C101: the accessors of extended keys are the fields of their strings, and what they determine. *)
From Verif Require Import Base Str StrProofs Sha2 Ripemd Error32 Version32 Path32 PathProofs32 Meta32 Payload32 PayloadSpec32
  PayloadProofs32 Base58 Base58Spec Base58Proofs Curve32 XKey32 XKeySpec32 XKeyProofs32 Cyclic32 Props32 Props32k Access32.

(** C101: the text of a private key decodes to 78 bytes that hold what the accessors return. *)
Theorem C101_private_fields b L (HL : ec_laws L) (x : XPrv (backend b L)) v p t :
  xprv_wf x -> as_u32 v < 2 ^ 32 -> xprv_encode_with x v = Ok p -> payload_show p = Ok t ->
  exists d, decode_check (utf8 t) 82 = inr d /\ length d = 78%nat /\
    slice 0 4 d = be_bytes 4 (as_u32 v) /\
    slice 5 9 d = xprv_parent_fingerprint x /\ slice 13 45 d = xprv_chain_code x /\
    nth 45 d xff = x00 /\ slice 46 78 d = xprv_to_bytes x /\ length (xprv_to_bytes x) = 32%nat.
Proof.
  intros W V E S. destruct (is_private v) eqn:IP; [|unfold xprv_encode_with in E; rewrite IP in E; discriminate].
  rewrite (prv_encode_eq L b x v IP) in E. assert (p = prv_payload L x v) by congruence. subst p.
  pose proof (prv_payload_wf L b x v W V) as PW. destruct (payload_show_ok _ PW) as (t' & S' & B).
  assert (t' = t) by congruence. subst t'. exists (payload_bytes (prv_payload L x v)).
  pose proof (payload_bytes_length _ PW) as L78.
  split; [apply decode_check_iff; split; [apply base58_utf8; exact B|rewrite L78; reflexivity]|]. split; [exact L78|].
  destruct (split78_bytes _ _ PW eq_refl) as (_ & _ & F & _ & CC & K).
  set (d := payload_bytes (prv_payload L x v)) in *.
  split; [unfold d, payload_bytes; rewrite slice_app_left, slice_all by (rewrite be_bytes_length; reflexivity); reflexivity|].
  split; [symmetry; exact F|]. split; [symmetry; exact CC|].
  rewrite <- (slice_join 45 46 78) in K by lia. rewrite (slice_one 45 d xff) in K by lia.
  cbn [prv_payload p_key app] in K. assert (N : nth 45 d xff = x00) by congruence. split; [exact N|].
  split; [|apply be_bytes_length]. assert (K' : be_bytes 32 (xprv_key x) = slice 46 78 d) by congruence. symmetry. exact K'.
Qed.
Print Assumptions C101_private_fields.

Theorem C101_public_fields b L (HL : ec_laws L) (x : XPub (backend b L)) v p t :
  xpub_wf x -> as_u32 v < 2 ^ 32 -> xpub_encode_with x v = Ok p -> payload_show p = Ok t ->
  exists d, decode_check (utf8 t) 82 = inr d /\ length d = 78%nat /\
    slice 0 4 d = be_bytes 4 (as_u32 v) /\
    slice 5 9 d = xpub_parent_fingerprint x /\ slice 13 45 d = xpub_chain_code x /\
    slice 45 78 d = xpub_to_bytes x /\ length (xpub_to_bytes x) = 33%nat.
Proof.
  intros W V E S. destruct (is_public v) eqn:IP; [|unfold xpub_encode_with in E; rewrite IP in E; discriminate].
  rewrite (pub_encode_eq L b x v IP) in E. assert (p = pub_payload L x v) by congruence. subst p.
  pose proof (pub_payload_wf L HL b x v W V) as PW. destruct (payload_show_ok _ PW) as (t' & S' & B).
  assert (t' = t) by congruence. subst t'. exists (payload_bytes (pub_payload L x v)).
  pose proof (payload_bytes_length _ PW) as L78.
  split; [apply decode_check_iff; split; [apply base58_utf8; exact B|rewrite L78; reflexivity]|]. split; [exact L78|].
  destruct (split78_bytes _ _ PW eq_refl) as (_ & _ & F & _ & CC & K).
  set (d := payload_bytes (pub_payload L x v)) in *.
  split; [unfold d, payload_bytes; rewrite slice_app_left, slice_all by (rewrite be_bytes_length; reflexivity); reflexivity|].
  split; [symmetry; exact F|]. split; [symmetry; exact CC|]. split; [symmetry; exact K|apply (compress_length L HL)].
Qed.
Print Assumptions C101_public_fields.

(** C101: copies and public keys *)
Theorem C101_copies (C : Curve) (x : XPrv C) (y : XPub C) :
  xprv_clone x = x /\ xpub_clone y = y /\
  xpub_parent_fingerprint (xprv_public x) = xprv_parent_fingerprint x /\
  xpub_chain_code (xprv_public x) = xprv_chain_code x /\
  xpub_to_bytes (xprv_public x) = pub_to_bytes C (prv_to_public C (xprv_key x)).
Proof. destruct x as [[] k], y as [[] K]. repeat split. Qed.
Print Assumptions C101_copies.

(** Results that agree in everything but the depth *)
Definition same_but_depth (m m' : Metadata) : Prop :=
  m_fingerprint m = m_fingerprint m' /\ m_child m = m_child m' /\ m_chain m = m_chain m'.

Lemma prv_child_det dbg b L (x y : XPrv (backend b L)) i :
  xprv_key x = xprv_key y -> xprv_chain_code x = xprv_chain_code y ->
  match xprv_derive_child dbg x i, xprv_derive_child dbg y i with
  | Ok x', Ok y' => xprv_key x' = xprv_key y' /\ same_but_depth (xprv_meta x') (xprv_meta y')
  | Err e, Err e' => e = e'
  | _, _ => False
  end.
Proof.
  intros HK HC. unfold xprv_chain_code in HC. rewrite !(derive_child_eq dbg (backend b L)) by apply be_bytes_length.
  rewrite <- HK, <- HC. cbv zeta. destruct (prv_add_tweak _ _ _) as [s|k]; [reflexivity|]. repeat split.
Qed.
Lemma pub_child_det dbg b L (x y : XPub (backend b L)) i :
  xpub_key x = xpub_key y -> xpub_chain_code x = xpub_chain_code y ->
  match xpub_derive_child dbg x i, xpub_derive_child dbg y i with
  | Ok x', Ok y' => xpub_key x' = xpub_key y' /\ same_but_depth (xpub_meta x') (xpub_meta y')
  | Err e, Err e' => e = e'
  | _, _ => False
  end.
Proof.
  intros HK HC. unfold xpub_chain_code in HC. rewrite !derive_pub_eq. destruct (2 ^ 31 <=? i); [reflexivity|].
  rewrite <- HK, <- HC. cbv zeta. destruct (pub_add_tweak _ _ _) as [s|k]; [reflexivity|]. repeat split.
Qed.

(** C101: the key bytes and the chain code determine every descendant, up to its depth. *)
Theorem C101_private_determined dbg b L (HL : ec_laws L) p (x y : XPrv (backend b L)) :
  xprv_wf x -> xprv_wf y -> xprv_to_bytes x = xprv_to_bytes y -> xprv_chain_code x = xprv_chain_code y ->
  match xprv_derive_path dbg x p, xprv_derive_path dbg y p with
  | Ok x', Ok y' => xprv_to_bytes x' = xprv_to_bytes y' /\ xprv_chain_code x' = xprv_chain_code y' /\
      (p <> [] -> xprv_parent_fingerprint x' = xprv_parent_fingerprint y' /\
                  m_child (xprv_meta x') = m_child (xprv_meta y'))
  | Err e, Err e' => e = e'
  | _, _ => False
  end.
Proof.
  intros [_ [_ W1]] [_ [_ W2]] HB HC.
  assert (HK : xprv_key x = xprv_key y).
  { assert (B : be_bytes 32 (xprv_key x) = be_bytes 32 (xprv_key y)) by exact HB.
    apply (f_equal be_val) in B. rewrite !be_val_be_bytes in B.
    pose proof (order_range L HL) as R. change (256 ^ N.of_nat 32) with (2 ^ 256) in B.
    rewrite !N.mod_small in B by lia. exact B. }
  clear W1 W2 HB. revert x y HK HC. induction p as [|i p IH]; intros x y HK HC; cbn [xprv_derive_path].
  - split; [unfold xprv_to_bytes; rewrite HK; reflexivity|]. split; [exact HC|]. intros N. elim (N eq_refl).
  - pose proof (prv_child_det dbg b L x y i HK HC) as D.
    destruct (xprv_derive_child dbg x i) as [x'|e|], (xprv_derive_child dbg y i) as [y'|e'|]; try contradiction; [|exact D].
    cbn [bind]. destruct D as (K' & F' & I' & C'). specialize (IH x' y' K' C').
    destruct p as [|j p].
    + cbn [xprv_derive_path]. split; [unfold xprv_to_bytes; rewrite K'; reflexivity|]. split; [exact C'|]. intros _. split; [exact F'|exact I'].
    + destruct (xprv_derive_path dbg x' (j :: p)) as [x2|e|], (xprv_derive_path dbg y' (j :: p)) as [y2|e'|]; try exact IH.
      destruct IH as (A & B & D). split; [exact A|]. split; [exact B|]. intros _. apply D. discriminate.
Qed.
Print Assumptions C101_private_determined.

Lemma points_differ L (HL : ec_laws L) P Q : valid_public L P -> valid_public L Q -> compress L P = compress L Q -> P = Q.
Proof.
  intros VP VQ E. destruct (decompress_compress L HL P VP) as (tag & x & CP & _ & DP).
  destruct (decompress_compress L HL Q VQ) as (tag' & x' & CQ & _ & DQ). rewrite CP, CQ in E. injection E as -> ->. congruence.
Qed.
Theorem C101_public_determined dbg b L (HL : ec_laws L) p (x y : XPub (backend b L)) :
  xpub_wf x -> xpub_wf y -> xpub_to_bytes x = xpub_to_bytes y -> xpub_chain_code x = xpub_chain_code y ->
  match xpub_derive_path dbg x p, xpub_derive_path dbg y p with
  | Ok x', Ok y' => xpub_to_bytes x' = xpub_to_bytes y' /\ xpub_chain_code x' = xpub_chain_code y' /\
      (p <> [] -> xpub_parent_fingerprint x' = xpub_parent_fingerprint y' /\
                  m_child (xpub_meta x') = m_child (xpub_meta y'))
  | Err e, Err e' => e = e'
  | _, _ => False
  end.
Proof.
  intros [_ W1] [_ W2] HB HC.
  assert (HK : xpub_key x = xpub_key y) by (apply (points_differ L HL); assumption).
  clear W1 W2 HB. revert x y HK HC. induction p as [|i p IH]; intros x y HK HC; cbn [xpub_derive_path].
  - split; [unfold xpub_to_bytes; rewrite HK; reflexivity|]. split; [exact HC|]. intros N. elim (N eq_refl).
  - pose proof (pub_child_det dbg b L x y i HK HC) as D.
    destruct (xpub_derive_child dbg x i) as [x'|e|], (xpub_derive_child dbg y i) as [y'|e'|]; try contradiction; [|exact D].
    cbn [bind]. destruct D as (K' & F' & I' & C'). specialize (IH x' y' K' C').
    destruct p as [|j p].
    + cbn [xpub_derive_path]. split; [unfold xpub_to_bytes; rewrite K'; reflexivity|]. split; [exact C'|]. intros _. split; [exact F'|exact I'].
    + destruct (xpub_derive_path dbg x' (j :: p)) as [x2|e|], (xpub_derive_path dbg y' (j :: p)) as [y2|e'|]; try exact IH.
      destruct IH as (A & B & D). split; [exact A|]. split; [exact B|]. intros _. apply D. discriminate.
Qed.
Print Assumptions C101_public_determined.

(** C101: the accessors do not determine the key: the depth and the child number are in its string
    but cannot be asked for. *)
Theorem C101_complete_refuted b L (HL : ec_laws L) (x : XPrv (backend b L)) v :
  xprv_wf x -> is_private v = true -> as_u32 v < 2 ^ 32 ->
  exists y : XPrv (backend b L), xprv_wf y /\ depth_rule (xprv_meta y) /\
    xprv_parent_fingerprint y = xprv_parent_fingerprint x /\ xprv_chain_code y = xprv_chain_code x /\
    xprv_to_bytes y = xprv_to_bytes x /\
    exists p q s t, xprv_encode_with x v = Ok p /\ payload_show p = Ok s /\
      xprv_encode_with y v = Ok q /\ payload_show q = Ok t /\ s <> t.
Proof.
  intros W IP V.
  set (y := @mkXPrv (backend b L) {| m_depth := if b2n (m_depth (xprv_meta x)) =? 1 then x02 else x01;
              m_fingerprint := m_fingerprint (xprv_meta x); m_child := m_child (xprv_meta x);
              m_chain := m_chain (xprv_meta x) |} (xprv_key x)).
  assert (Wy : xprv_wf y) by (destruct W as [[A [B C]] D]; split; [split; [exact A|split; [exact B|exact C]]|exact D]).
  exists y. split; [exact Wy|]. split; [intros D; cbn in D; destruct (_ =? _); discriminate|].
  split; [reflexivity|]. split; [reflexivity|]. split; [reflexivity|].
  destruct (payload_show_ok _ (prv_payload_wf L b x v W V)) as (s & S1 & B1).
  destruct (payload_show_ok _ (prv_payload_wf L b y v Wy V)) as (t & S2 & B2).
  exists (prv_payload L x v), (prv_payload L y v), s, t. split; [apply prv_encode_eq; exact IP|]. split; [exact S1|].
  split; [apply prv_encode_eq; exact IP|]. split; [exact S2|]. intros <-.
  pose proof (base58check_inj _ _ _ B1 B2) as E.
  apply payload_bytes_inj in E as (_ & M & _); [|apply prv_payload_wf; assumption..].
  apply (f_equal m_depth) in M. cbn [prv_payload p_meta y xprv_meta m_depth] in M.
  destruct (b2n (m_depth (xprv_meta x)) =? 1) eqn:Q.
  - rewrite M in Q. discriminate.
  - rewrite M in Q. discriminate.
Qed.
Print Assumptions C101_complete_refuted.

Example C101_case :
  ec_laws Cyclic /\ xprv_wf (ex_prv K256) /\ is_private (Private 0x0488ADE4) = true /\
  xprv_to_bytes (ex_prv K256) = unhex "edb2e14f9ee77d26dd93b4ecede8d16ed408ce149b6cd80b0715a2d911a0afea" /\
  xprv_parent_fingerprint (ex_prv K256) = [x34; x42; x19; x3e].
Proof. split; [exact cyclic_laws|]. split; [apply ex_prv_wf|]. repeat split. Qed.
