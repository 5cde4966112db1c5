(** Property theorems for the bip0032 crate, second part: extended keys, their
    derivation and SLIP-0010 (C33-C51, C54).

    [backend b L] is the backend for library [b] over the elliptic curve [L]
    (XKeySpec32.v: definitionally K256Backend, P256Backend or
    Secp256k1FfiBackend).  [ec_laws L] are the group and encoding laws of [L]. *)
From Verif Require Import Base Str Sha2 Ripemd Error32 Version32 Path32 PathProofs32 Meta32 Payload32
  Base58Spec Base58Proofs PayloadSpec32 PayloadProofs32 Curve32 XKey32 Slip10 XKeySpec32 XKeyProofs32
  SlipProofs32 Cyclic32 Eqb32 Props32.

(** The key used by the examples: over the cyclic group of secp256k1's order. *)
Definition ex_meta : Metadata := {|
  m_depth := x01; m_fingerprint := [x34; x42; x19; x3e]; m_child := 2147483648;
  m_chain := unhex "47fdacbd0f1097043b78c63c20c34ef4ed9a111d980047ad16282c7ae6236141" |}.
Definition ex_prv (b : Library) : XPrv (backend b Cyclic) :=
  @mkXPrv (backend b Cyclic) ex_meta 0xedb2e14f9ee77d26dd93b4ecede8d16ed408ce149b6cd80b0715a2d911a0afea.
Lemma ex_prv_wf b : xprv_wf (ex_prv b).
Proof. split; [repeat split|split; reflexivity]. Qed.
Lemma ex_depth b : depth_rule (xprv_meta (ex_prv b)).
Proof. discriminate. Qed.

(** Outcomes of computations on the examples, as comparable values. *)
Definition view_prv {b : Library} (r : res Error (XPrv (backend b Cyclic))) : res Error Payload :=
  res_map (fun x : XPrv (backend b Cyclic) => {| p_version := Private 0; p_meta := xprv_meta x; p_key := be_bytes 32 (xprv_key x) |}) r.
Definition view_pub {b : Library} (r : res Error (XPub (backend b Cyclic))) : res Error Payload :=
  res_map (fun x : XPub (backend b Cyclic) => {| p_version := Public 0; p_meta := xpub_meta x; p_key := compress Cyclic (xpub_key x) |}) r.

(** ** C33 *)
Theorem C33_private_roundtrip dbg b L (HL : ec_laws L) (x : XPrv (backend b L)) n :
  xprv_wf x -> depth_rule (xprv_meta x) -> n < 2 ^ 32 -> ~ In n known_public ->
  exists p t, xprv_encode_with x (Private n) = Ok p /\ payload_show p = Ok t /\
    exists y, xprv_parse dbg (backend b L) t = Ok y /\
      m_depth (xprv_meta y) = m_depth (xprv_meta x) /\
      m_fingerprint (xprv_meta y) = m_fingerprint (xprv_meta x) /\
      m_child (xprv_meta y) = m_child (xprv_meta x) /\
      m_chain (xprv_meta y) = m_chain (xprv_meta x) /\
      xprv_key y = xprv_key x.
Proof.
  intros W D V N. exists (prv_payload L x (Private n)).
  destruct (prv_roundtrip L HL dbg b x (Private n) W D V eq_refl N) as (t & S & P).
  exists t. split; [apply prv_encode_eq; reflexivity|]. split; [exact S|]. exists x. auto 6.
Qed.
Print Assumptions C33_private_roundtrip.

Example C33_case : ec_laws Cyclic /\ xprv_wf (ex_prv K256) /\ depth_rule (xprv_meta (ex_prv K256)) /\
  ~ In 0x0488ADE4 known_public.
Proof.
  split; [exact cyclic_laws|]. split; [apply ex_prv_wf|]. split; [apply ex_depth|].
  intros H. cbn in H. repeat destruct H as [H|H]; discriminate || exact H.
Qed.

(** ** C34 *)
Theorem C34_public_roundtrip dbg b L (HL : ec_laws L) (x : XPub (backend b L)) n :
  xpub_wf x -> depth_rule (xpub_meta x) -> n < 2 ^ 32 -> ~ In n known_private ->
  exists p t, xpub_encode_with x (Public n) = Ok p /\ payload_show p = Ok t /\
    exists y, xpub_parse dbg (backend b L) t = Ok y /\
      m_depth (xpub_meta y) = m_depth (xpub_meta x) /\
      m_fingerprint (xpub_meta y) = m_fingerprint (xpub_meta x) /\
      m_child (xpub_meta y) = m_child (xpub_meta x) /\
      m_chain (xpub_meta y) = m_chain (xpub_meta x) /\
      xpub_key y = xpub_key x.
Proof.
  intros W D V N. exists (pub_payload L x (Public n)).
  destruct (pub_roundtrip L HL dbg b x (Public n) W D V eq_refl N) as (t & S & P).
  exists t. split; [apply pub_encode_eq; reflexivity|]. split; [exact S|]. exists x. auto 6.
Qed.
Print Assumptions C34_public_roundtrip.

Example C34_case : ec_laws Cyclic /\ xpub_wf (xprv_public (ex_prv Secp256k1Ffi)) /\
  depth_rule (xpub_meta (xprv_public (ex_prv Secp256k1Ffi))) /\ ~ In 0x0488B21E known_private.
Proof.
  split; [exact cyclic_laws|]. split; [apply (xprv_public_wf _ cyclic_laws), ex_prv_wf|].
  split; [discriminate|].
  intros H. cbn in H. repeat destruct H as [H|H]; discriminate || exact H.
Qed.

(** ** C35 *)
Theorem C35_kinds_not_confused dbg b L (HL : ec_laws L) :
  (forall (x : XPrv (backend b L)) n,
     exists e, xprv_encode_with x (Public n) = Err e /\ e_kind e = InvalidVersion) /\
  (forall (x : XPub (backend b L)) n,
     exists e, xpub_encode_with x (Private n) = Err e /\ e_kind e = InvalidVersion) /\
  (forall (x : XPrv (backend b L)) v p t, xprv_wf x -> as_u32 v < 2 ^ 32 ->
     xprv_encode_with x v = Ok p -> payload_show p = Ok t -> forall y, xpub_parse dbg (backend b L) t <> Ok y) /\
  (forall (x : XPub (backend b L)) v p t, xpub_wf x -> as_u32 v < 2 ^ 32 ->
     xpub_encode_with x v = Ok p -> payload_show p = Ok t -> forall y, xprv_parse dbg (backend b L) t <> Ok y) /\
  (forall s (y : XPrv (backend b L)), xprv_parse dbg (backend b L) s = Ok y <->
     exists p, payload_parse dbg s = Ok p /\ is_private (p_version p) = true /\
       xprv_meta y = p_meta p /\ xprv_key y = be_val (tl (p_key p)) /\ 0 < xprv_key y < order L) /\
  (forall s (y : XPub (backend b L)), xpub_parse dbg (backend b L) s = Ok y <->
     exists p, payload_parse dbg s = Ok p /\ is_public (p_version p) = true /\
       xpub_meta y = p_meta p /\ xpub_key y <> infinity L /\ compress L (xpub_key y) = p_key p).
Proof.
  assert (PRV : forall s (y : XPrv (backend b L)), xprv_parse dbg (backend b L) s = Ok y <->
     exists p, payload_parse dbg s = Ok p /\ is_private (p_version p) = true /\
       xprv_meta y = p_meta p /\ xprv_key y = be_val (tl (p_key p)) /\ 0 < xprv_key y < order L).
  { intros s y. unfold xprv_parse. destruct (payload_parse dbg s) as [p|e|] eqn:E; cbn [bind].
    - pose proof E as E'. apply payload_parse_iff in E' as (W & _).
      assert (Lk : length (p_key p) = 33%nat) by apply W.
      rewrite prv_try_from_eq by exact Lk.
      assert (Lt : length (tl (p_key p)) = 32%nat) by (destruct (p_key p); cbn [length tl] in *; lia).
      split.
      + destruct (p_version p) as [v|v] eqn:EV; [discriminate|].
        destruct (prv_from_bytes _ _) as [s0|k] eqn:F; [discriminate|]. intros [= <-].
        apply prv_from_iff in F as [-> V]; [|exact Lt].
        exists p. rewrite EV. repeat split; apply V.
      + intros (q & [= <-] & P & M & K & V). destruct (p_version p) as [v|v]; [discriminate|].
        rewrite (proj2 (prv_from_iff L b _ (xprv_key y) Lt) (conj K V)). rewrite <- M.
        destruct y; reflexivity.
    - split; [discriminate|]. intros (q & H & _). discriminate.
    - split; [discriminate|]. intros (q & H & _). discriminate. }
  assert (PUB : forall s (y : XPub (backend b L)), xpub_parse dbg (backend b L) s = Ok y <->
     exists p, payload_parse dbg s = Ok p /\ is_public (p_version p) = true /\
       xpub_meta y = p_meta p /\ xpub_key y <> infinity L /\ compress L (xpub_key y) = p_key p).
  { intros s y. unfold xpub_parse. destruct (payload_parse dbg s) as [p|e|] eqn:E; cbn [bind].
    - pose proof E as E'. apply payload_parse_iff in E' as (W & _ & _ & PR).
      assert (Lk : length (p_key p) = 33%nat) by apply W.
      rewrite pub_try_from_eq. unfold prefix_rule, key_prefix in PR. split.
      + destruct (p_version p) as [v|v] eqn:EV; [|discriminate]. destruct PR as [PR _].
        destruct (pub_from_bytes _ _) as [s0|k] eqn:F; [discriminate|]. intros [= <-].
        apply (pub_from_iff L HL) in F as [V K]; [|exact Lk|exact PR].
        exists p. rewrite EV. repeat split; assumption.
      + intros (q & [= <-] & P & M & V & K). destruct (p_version p) as [v|v]; [|discriminate].
        destruct PR as [PR _].
        rewrite (proj2 (pub_from_iff L HL b _ (xpub_key y) Lk PR) (conj V K)). rewrite <- M.
        destruct y; reflexivity.
    - split; [discriminate|]. intros (q & H & _). discriminate.
    - split; [discriminate|]. intros (q & H & _). discriminate. }
  assert (KEY : forall p t q, payload_wf p -> payload_show p = Ok t -> payload_parse dbg t = Ok q ->
            p_key q = p_key p /\ prefix_rule q).
  { intros p t q W S P. destruct (payload_show_ok p W) as (t' & S' & B). rewrite S in S'.
    injection S' as <-. apply payload_parse_iff in P as (Wq & Bq & _ & R). split; [|exact R].
    pose proof (base58check_inj _ _ _ B Bq) as E. apply payload_bytes_inj in E as (_ & _ & K); auto. }
  split; [|split; [|split; [|split; [|split]]]].
  - intros x n. eexists. split; reflexivity.
  - intros x n. eexists. split; reflexivity.
  - intros x v p t W V E S y Q. apply PUB in Q as (q & P & Pub & _).
    assert (is_private v = true) as Iv.
    { unfold xprv_encode_with in E. destruct v; [discriminate|reflexivity]. }
    rewrite prv_encode_eq in E by exact Iv. injection E as <-.
    destruct (KEY _ _ _ (prv_payload_wf L b x v W V) S P) as [K R].
    unfold prefix_rule, key_prefix in R. rewrite K in R. cbn [prv_payload p_key app hd] in R.
    destruct (p_version q); [|discriminate]. destruct R as [[R|R] _]; discriminate.
  - intros x v p t W V E S y Q. apply PRV in Q as (q & P & Prv & _).
    assert (is_public v = true) as Iv.
    { unfold xpub_encode_with in E. destruct v; [reflexivity|discriminate]. }
    rewrite pub_encode_eq in E by exact Iv. injection E as <-.
    destruct (KEY _ _ _ (pub_payload_wf L HL b x v W V) S P) as [K R].
    unfold prefix_rule, key_prefix in R. rewrite K in R. cbn [pub_payload p_key] in R.
    destruct (compress_prefix L HL (xpub_key x) (proj2 W)) as [_ T].
    destruct (p_version q); [discriminate|]. destruct R as [R _]. rewrite R in T.
    destruct T; discriminate.
  - exact PRV.
  - exact PUB.
Qed.
Print Assumptions C35_kinds_not_confused.

Example C35_case :
  xprv_encode_with (ex_prv K256) (Private 0x0488ADE4) =
    Ok {| p_version := Private 0x0488ADE4; p_meta := ex_meta;
          p_key := x00 :: be_bytes 32 (xprv_key (ex_prv K256)) |} /\
  view_prv (xprv_parse true (backend K256 Cyclic)
    (lit "xprv9uHRZZhk6KAJC1avXpDAp4MDc3sQKNxDiPvvkX8Br5ngLNv1TxvUxt4cV1rGL5hj6KCesnDYUhd7oWgT11eZG7XnxHrnYeSvkzY7d2bhkJ7"))
  = view_prv (Ok (ex_prv K256)).
Proof. split; [reflexivity|eval_by run_payload]. Qed.

(** ** C36 *)
Theorem C36_ckd_priv dbg b L (HL : ec_laws L) (x : XPrv (backend b L)) i :
  xprv_wf x -> i < 2 ^ 32 ->
  let k := xprv_key x in
  let n := order L in
  let I := hmac_sha512 (m_chain (xprv_meta x))
             (if 2 ^ 31 <=? i then [x00] ++ be_bytes 32 k ++ be_bytes 4 i
              else compress L (pmul L k (gen L)) ++ be_bytes 4 i) in
  let t := be_val (firstn 32 I) in
  (t < n -> (t + k) mod n <> 0 -> (t = 0 -> b = Secp256k1Ffi) ->
     exists m, xprv_derive_child dbg x i = Ok (@mkXPrv (backend b L) m ((t + k) mod n)) /\
       m_chain m = skipn 32 I) /\
  (n <= t \/ (t + k) mod n = 0 \/ (t = 0 /\ b <> Secp256k1Ffi) ->
     exists e, xprv_derive_child dbg x i = Err e /\ e_kind e = InvalidDerivation).
Proof.
  intros W Hi k n. rewrite derive_child_eq by apply be_bytes_length.
  change (gen_data (backend b L) (xprv_key x) i) with
    (if 2 ^ 31 <=? i then [x00] ++ be_bytes 32 k ++ be_bytes 4 i
     else compress L (pmul L k (gen L)) ++ be_bytes 4 i).
  intros I. fold I. intros t. cbv zeta. split.
  - intros Ht Hk Hz.
    rewrite (proj2 (prv_tweak_iff L HL b (xprv_key x) (firstn 32 I) ((t + k) mod n)));
      [|split; [split; assumption|split; [reflexivity|exact Hk]]].
    eexists. split; reflexivity.
  - intros Bad. destruct (prv_add_tweak _ _ _) as [s|k'] eqn:E; [eexists; split; reflexivity|].
    apply (prv_tweak_iff L HL) in E as ([A1 A2] & -> & NZ). fold t k n in A1, A2, NZ. exfalso.
    destruct Bad as [B|[B|[B B']]]; [lia|contradiction|]. apply B'. apply A2. exact B.
Qed.
Print Assumptions C36_ckd_priv.

Example C36_case :
  match view_prv (xprv_derive_child true (ex_prv K256) (2 ^ 31 + 7)),
        view_prv (xprv_derive_child true (ex_prv Secp256k1Ffi) 7) with
  | Ok _, Ok _ => true | _, _ => false end = true.
Proof. vm_cast_no_check (eq_refl true). Qed.

(** ** C37 *)
Theorem C37_ckd_pub dbg b L (HL : ec_laws L) (x : XPub (backend b L)) i :
  xpub_wf x -> i < 2 ^ 32 ->
  let K := xpub_key x in
  let n := order L in
  let I := hmac_sha512 (m_chain (xpub_meta x)) (compress L K ++ be_bytes 4 i) in
  let t := be_val (firstn 32 I) in
  let K' := padd L (pmul L t (gen L)) K in
  (2 ^ 31 <= i -> exists e, xpub_derive_child dbg x i = Err e /\ e_kind e = InvalidDerivation) /\
  (i < 2 ^ 31 -> t < n -> K' <> infinity L -> (t = 0 -> b = Secp256k1Ffi) ->
     exists m, xpub_derive_child dbg x i = Ok (@mkXPub (backend b L) m K') /\ m_chain m = skipn 32 I) /\
  (n <= t \/ K' = infinity L \/ (t = 0 /\ b <> Secp256k1Ffi) ->
     exists e, xpub_derive_child dbg x i = Err e /\ e_kind e = InvalidDerivation).
Proof.
  intros W Hi K n I t K'. rewrite derive_pub_eq.
  change (pub_to_bytes (backend b L) (xpub_key x)) with (compress L K).
  cbv zeta. fold I. split; [|split].
  - intros H. replace (2 ^ 31 <=? i) with true by lia. eexists. split; reflexivity.
  - intros H Ht Hk Hz. replace (2 ^ 31 <=? i) with false by lia.
    rewrite (proj2 (pub_tweak_iff L HL b (xpub_key x) (firstn 32 I) K'));
      [|split; [split; assumption|split; [reflexivity|exact Hk]]].
    eexists. split; reflexivity.
  - intros Bad. destruct (2 ^ 31 <=? i); [eexists; split; reflexivity|].
    destruct (pub_add_tweak _ _ _) as [s|k'] eqn:E; [eexists; split; reflexivity|].
    apply (pub_tweak_iff L HL) in E as ([A1 A2] & -> & NZ). fold t n in A1, A2. exfalso.
    destruct Bad as [B|[B|[B B']]]; [lia|contradiction|]. apply B'. apply A2. exact B.
Qed.
Print Assumptions C37_ckd_pub.

Example C37_case :
  match view_pub (xpub_derive_child true (xprv_public (ex_prv K256)) 7),
        view_pub (xpub_derive_child true (xprv_public (ex_prv K256)) (2 ^ 31)) with
  | Ok _, Err _ => true | _, _ => false end = true.
Proof. vm_cast_no_check (eq_refl true). Qed.

(** ** C38 *)
Theorem C38_neuter_commutes dbg b L (HL : ec_laws L) (x : XPrv (backend b L)) p :
  xprv_wf x -> Forall (fun i => i < 2 ^ 31) p ->
  ((exists y, xprv_derive_path dbg x p = Ok y) <->
   (exists z, xpub_derive_path dbg (xprv_public x) p = Ok z)) /\
  (forall y z, xprv_derive_path dbg x p = Ok y -> xpub_derive_path dbg (xprv_public x) p = Ok z ->
     xpub_key z = pmul L (xprv_key y) (gen L) /\ xpub_meta z = xprv_meta y) /\
  (forall e, xprv_derive_path dbg x p = Err e -> e_kind e = InvalidDerivation).
Proof.
  intros _ H. pose proof (path_commute L HL dbg b p x H) as C.
  destruct (xprv_derive_path dbg x p) as [y|e|]; destruct (xpub_derive_path dbg (xprv_public x) p) as [z|e'|];
    try contradiction.
  - subst z. split; [split; eauto|]. split; [|discriminate].
    intros y' z' [= <-] [= <-]. split; reflexivity.
  - destruct C as [C C']. split; [split; intros [? ?]; discriminate|].
    split; [discriminate|]. intros e0 [= <-]. exact C.
Qed.
Print Assumptions C38_neuter_commutes.

Example C38_case :
  match view_pub (res_map xprv_public (xprv_derive_path true (ex_prv K256) [3; 0; 2147483647])),
        view_pub (xpub_derive_path true (xprv_public (ex_prv K256)) [3; 0; 2147483647]) with
  | Ok a, Ok c => payload_eqb a c | _, _ => false end = true.
Proof. vm_cast_no_check (eq_refl true). Qed.

(** ** C39 *)
Theorem C39_path_composition dbg (C : TweakCurve) fuel :
  (forall (x : XPrv C) p q, xprv_derive_path dbg x (p ++ q) =
     match xprv_derive_path dbg x p with Ok y => xprv_derive_path dbg y q | Err e => Err e | Panic => Panic end) /\
  (forall x : XPrv C, xprv_derive_path dbg x [] = Ok x) /\
  (forall (x : XPrv C) i, xprv_derive_path dbg x [i] = xprv_derive_child dbg x i) /\
  (forall (x : XPub C) p q, xpub_derive_path dbg x (p ++ q) =
     match xpub_derive_path dbg x p with Ok y => xpub_derive_path dbg y q | Err e => Err e | Panic => Panic end) /\
  (forall x : XPub C, xpub_derive_path dbg x [] = Ok x) /\
  (forall (x : XPub C) i, xpub_derive_path dbg x [i] = xpub_derive_child dbg x i) /\
  (forall (x : XPrv C) p q, slip10_prv_path fuel x (p ++ q) =
     match slip10_prv_path fuel x p with Some (Ok y) => slip10_prv_path fuel y q | o => o end) /\
  (forall x : XPrv C, slip10_prv_path fuel x [] = Some (Ok x)) /\
  (forall (x : XPrv C) i, slip10_prv_path fuel x [i] = slip10_prv_child fuel x i) /\
  (forall (x : XPub C) p q, slip10_pub_path fuel x (p ++ q) =
     match slip10_pub_path fuel x p with Some (Ok y) => slip10_pub_path fuel y q | o => o end) /\
  (forall x : XPub C, slip10_pub_path fuel x [] = Some (Ok x)) /\
  (forall (x : XPub C) i, slip10_pub_path fuel x [i] = slip10_pub_child fuel x i).
Proof.
  assert (ONE : forall X A (step : X -> A -> option (res Error X)) x a,
            path_loop step x [a] = step x a).
  { intros X A step x a. cbn [path_loop]. destruct (step x a) as [[y|e|]|]; reflexivity. }
  repeat apply conj.
  - intros x p q. revert x. induction p as [|i p IH]; intros x; cbn [xprv_derive_path app]; [reflexivity|].
    destruct (xprv_derive_child dbg x i); cbn [bind]; [apply IH|reflexivity..].
  - reflexivity.
  - intros x i. cbn [xprv_derive_path]. destruct (xprv_derive_child dbg x i); reflexivity.
  - intros x p q. revert x. induction p as [|i p IH]; intros x; cbn [xpub_derive_path app]; [reflexivity|].
    destruct (xpub_derive_child dbg x i); cbn [bind]; [apply IH|reflexivity..].
  - reflexivity.
  - intros x i. cbn [xpub_derive_path]. destruct (xpub_derive_child dbg x i); reflexivity.
  - intros x p q. apply path_loop_app.
  - reflexivity.
  - intros x i. apply ONE.
  - intros x p q. apply path_loop_app.
  - reflexivity.
  - intros x i. apply ONE.
Qed.
Print Assumptions C39_path_composition.

(** The hardened-only derivation of ed25519. *)
Theorem C39_hardened_path_composition dbg (C : Curve) fuel (x : XPrv C) p q :
  Forall (fun i => 2 ^ 31 <= i) p -> Forall (fun i => 2 ^ 31 <= i) q ->
  slip10_hardened_path dbg fuel x (mkHP (p ++ q)) =
    match slip10_hardened_path dbg fuel x (mkHP p) with
    | Some (Ok y) => slip10_hardened_path dbg fuel y (mkHP q)
    | o => o
    end /\
  slip10_hardened_path dbg fuel x (mkHP []) = Some (Ok x) /\
  (forall i, 2 ^ 31 <= i -> slip10_hardened_path dbg fuel x (mkHP [i]) = slip10_hardened_child fuel x (mkHC i)).
Proof.
  assert (H : forall l, Forall (fun i => 2 ^ 31 <= i) l -> forall z : XPrv C, slip10_hardened_path dbg fuel z (mkHP l) =
            path_loop (slip10_hardened_child fuel) z (map mkHC l)).
  { intros l F z. unfold slip10_hardened_path, hpath_children. cbn [hp_inner].
    rewrite hchildren_ok; [reflexivity|]. eapply Forall_impl; [|exact F]. intros i Hi.
    rewrite hardened_eq. apply N.leb_le. exact Hi. }
  intros P Q. split; [|split].
  - rewrite (H (p ++ q)) by (apply Forall_app; auto). rewrite map_app, path_loop_app, (H p P).
    destruct (path_loop (slip10_hardened_child fuel) x (map mkHC p)) as [[y|e|]|]; try reflexivity.
    symmetry. apply H. exact Q.
  - reflexivity.
  - intros i Hi. rewrite H by (constructor; [exact Hi|constructor]). cbn [map path_loop].
    destruct (slip10_hardened_child fuel x (mkHC i)) as [[y|e|]|]; reflexivity.
Qed.
Print Assumptions C39_hardened_path_composition.

Example C39_case :
  match view_prv (xprv_derive_path true (ex_prv K256) ([3; 2 ^ 31] ++ [7])) with
  | Ok a => match xprv_derive_path true (ex_prv K256) [3; 2 ^ 31] with
            | Ok y => match view_prv (xprv_derive_path true y [7]) with
                      | Ok c => payload_eqb a c | _ => false end
            | _ => false end
  | _ => false end = true.
Proof. vm_cast_no_check (eq_refl true). Qed.

(** ** C40 *)
(** [y] describes a key derived from a parent with metadata [m] and public key
    bytes [pk] as child number [i]. *)
Definition describes (m : Metadata) (pk : list byte) (i : N) (y : Metadata) : Prop :=
  b2n (m_depth y) = N.min 255 (b2n (m_depth m) + 1) /\
  m_fingerprint y = firstn 4 (ripemd160 (sha256 pk)) /\
  m_child y = i.

Theorem C40_derived_metadata dbg b L (HL : ec_laws L) :
  (forall (x y : XPrv (backend b L)) i, xprv_derive_child dbg x i = Ok y ->
     describes (xprv_meta x) (compress L (pmul L (xprv_key x) (gen L))) i (xprv_meta y)) /\
  (forall (x y : XPub (backend b L)) i, xpub_derive_child dbg x i = Ok y ->
     describes (xpub_meta x) (compress L (xpub_key x)) i (xpub_meta y)) /\
  (forall fuel (x y : XPrv (backend b L)) i, slip10_prv_child fuel x i = Some (Ok y) ->
     describes (xprv_meta x) (compress L (pmul L (xprv_key x) (gen L))) i (xprv_meta y)) /\
  (forall fuel (x y : XPub (backend b L)) i, slip10_pub_child fuel x i = Some (Ok y) ->
     describes (xpub_meta x) (compress L (xpub_key x)) i (xpub_meta y)) /\
  (forall (x y : XPrv (backend b L)) p, xprv_derive_path dbg x p = Ok y ->
     b2n (m_depth (xprv_meta y)) = N.min 255 (b2n (m_depth (xprv_meta x)) + N.of_nat (length p)) /\
     (p <> [] -> m_depth (xprv_meta y) <> x00) /\
     forall q i, p = q ++ [i] -> exists z, xprv_derive_path dbg x q = Ok z /\
       describes (xprv_meta z) (compress L (pmul L (xprv_key z) (gen L))) i (xprv_meta y)) /\
  (forall (x y : XPub (backend b L)) p, xpub_derive_path dbg x p = Ok y ->
     b2n (m_depth (xpub_meta y)) = N.min 255 (b2n (m_depth (xpub_meta x)) + N.of_nat (length p)) /\
     (p <> [] -> m_depth (xpub_meta y) <> x00) /\
     forall q i, p = q ++ [i] -> exists z, xpub_derive_path dbg x q = Ok z /\
       describes (xpub_meta z) (compress L (xpub_key z)) i (xpub_meta y)).
Proof.
  assert (DES : forall m pk i c, describes m pk i (child_meta m pk i c)).
  { intros m pk i c. split; [apply sat_succ_val|]. split; reflexivity. }
  assert (A : forall (x y : XPrv (backend b L)) i, xprv_derive_child dbg x i = Ok y ->
     describes (xprv_meta x) (compress L (pmul L (xprv_key x) (gen L))) i (xprv_meta y)).
  { intros x y i. rewrite derive_child_eq by apply be_bytes_length. cbv zeta.
    destruct (prv_add_tweak _ _ _); [discriminate|]. intros [= <-]. apply DES. }
  assert (B : forall (x y : XPub (backend b L)) i, xpub_derive_child dbg x i = Ok y ->
     describes (xpub_meta x) (compress L (xpub_key x)) i (xpub_meta y)).
  { intros x y i. rewrite derive_pub_eq. cbv zeta. destruct (2 ^ 31 <=? i); [discriminate|].
    destruct (pub_add_tweak _ _ _); [discriminate|]. intros [= <-]. apply DES. }
  assert (NZ : forall d n, b2n d = N.min 255 n -> n <> 0 -> d <> x00).
  { intros d n H Hn ->. change (b2n x00) with 0 in H. lia. }
  destruct (C39_path_composition dbg (backend b L) 0) as (CP & _ & CP1 & CQ & _ & CQ1 & _).
  split; [exact A|]. split; [exact B|]. split; [|split; [|split]].
  - intros fuel x y i. rewrite prv_child_loop; [|apply be_bytes_length|apply (compress_length L HL)].
    unfold omap. destruct (slip10_loop _ _ _ _ _) as [[[k c]|e|]|]; try discriminate.
    intros [= <-]. apply DES.
  - intros fuel x y i. rewrite pub_child_loop by apply (compress_length L HL).
    destruct (2 ^ 31 <=? i); [discriminate|].
    unfold omap. destruct (slip10_loop _ _ _ _ _) as [[[k c]|e|]|]; try discriminate.
    intros [= <-]. apply DES.
  - intros x y p H.
    assert (D : b2n (m_depth (xprv_meta y)) = N.min 255 (b2n (m_depth (xprv_meta x)) + N.of_nat (length p))).
    { revert x H. induction p as [|i p IH]; intros x H; cbn [xprv_derive_path] in H.
      - injection H as <-. pose proof (b2n_bound (m_depth (xprv_meta x))). cbn [length]. lia.
      - destruct (xprv_derive_child dbg x i) as [z|e|] eqn:E; cbn [bind] in H; try discriminate.
        rewrite (IH _ H). destruct (A _ _ _ E) as (Dz & _). rewrite Dz. cbn [length]. lia. }
    split; [exact D|]. split.
    + intros Hp. eapply NZ; [exact D|]. destruct p; [congruence|cbn [length]; lia].
    + intros q i ->. rewrite CP in H. destruct (xprv_derive_path dbg x q) as [z|e|]; try discriminate.
      exists z. split; [reflexivity|]. rewrite CP1 in H. apply A. exact H.
  - intros x y p H.
    assert (D : b2n (m_depth (xpub_meta y)) = N.min 255 (b2n (m_depth (xpub_meta x)) + N.of_nat (length p))).
    { revert x H. induction p as [|i p IH]; intros x H; cbn [xpub_derive_path] in H.
      - injection H as <-. pose proof (b2n_bound (m_depth (xpub_meta x))). cbn [length]. lia.
      - destruct (xpub_derive_child dbg x i) as [z|e|] eqn:E; cbn [bind] in H; try discriminate.
        rewrite (IH _ H). destruct (B _ _ _ E) as (Dz & _). rewrite Dz. cbn [length]. lia. }
    split; [exact D|]. split.
    + intros Hp. eapply NZ; [exact D|]. destruct p; [congruence|cbn [length]; lia].
    + intros q i ->. rewrite CQ in H. destruct (xpub_derive_path dbg x q) as [z|e|]; try discriminate.
      exists z. split; [reflexivity|]. rewrite CQ1 in H. apply B. exact H.
Qed.
Print Assumptions C40_derived_metadata.

Example C40_case :
  match xprv_derive_path true (ex_prv K256) [1; 2147483650] with
  | Ok y => (b2n (m_depth (xprv_meta y)) =? 3) && (m_child (xprv_meta y) =? 2147483650)
  | _ => false end = true.
Proof. vm_cast_no_check (eq_refl true). Qed.

(** ** C41 *)
Theorem C41_no_hardened_public dbg b L (HL : ec_laws L) (x : XPub (backend b L)) p i :
  In i p -> 2 ^ 31 <= i ->
  (exists e, xpub_derive_path dbg x p = Err e /\ e_kind e = InvalidDerivation) /\
  (forall fuel, match slip10_pub_path fuel x p with
                | Some r => exists e, r = Err e /\ e_kind e = InvalidDerivation
                | None => exists q j s, p = q ++ j :: s /\ j < 2 ^ 31 /\
                    exists z, slip10_pub_path fuel x q = Some (Ok z) /\ slip10_pub_child fuel z j = None
                end).
Proof.
  intros Hin Hi. split.
  - revert x. induction p as [|j p IH]; intros x; [contradiction|]. cbn [xpub_derive_path].
    rewrite derive_pub_eq. destruct (2 ^ 31 <=? j) eqn:E.
    + eexists. split; reflexivity.
    + cbv zeta. destruct (pub_add_tweak _ _ _) as [s|k]; cbn [bind].
      * eexists. split; reflexivity.
      * apply IH. destruct Hin as [<-|Hin]; [lia|exact Hin].
  - intros fuel. unfold slip10_pub_path.
    assert (STEP : forall (z : XPub (backend b L)) j,
      (2 ^ 31 <= j /\ slip10_pub_child fuel z j = Some (Err (hardened_public_error j))) \/
      (j < 2 ^ 31 /\ slip10_pub_child fuel z j = None) \/
      (j < 2 ^ 31 /\ exists y, slip10_pub_child fuel z j = Some (Ok y))).
    { intros z j. rewrite pub_child_loop by apply (compress_length L HL).
      destruct (2 ^ 31 <=? j) eqn:E; [left; split; [lia|reflexivity]|right].
      set (d := pub_to_bytes _ _ ++ be_bytes 4 j).
      destruct (loop_spec (pub_add_tweak (backend b L) (xpub_key z)) (m_chain (xpub_meta z)) j fuel d)
        as [(r & k & _ & _ & ->)|[_ ->]]; [right|left]; (split; [lia|]).
      - eexists. reflexivity.
      - reflexivity. }
    revert x. induction p as [|j p IH]; intros x; [contradiction|]. cbn [path_loop].
    destruct (STEP x j) as [[H E]|[[H E]|[H [y E]]]]; rewrite E.
    + eexists. split; reflexivity.
    + exists [], j, p. split; [reflexivity|]. split; [exact H|]. exists x. split; [reflexivity|exact E].
    + assert (Hin' : In i p) by (destruct Hin as [<-|Hin]; [lia|exact Hin]).
      specialize (IH Hin' y). destruct (path_loop (slip10_pub_child fuel) y p) as [r|]; [exact IH|].
      destruct IH as (q & j' & s & -> & Hj & z & Q & N). exists (j :: q), j', s.
      split; [reflexivity|]. split; [exact Hj|]. exists z. split; [|exact N].
      cbn [path_loop]. rewrite E. exact Q.
Qed.
Print Assumptions C41_no_hardened_public.

Example C41_case :
  match view_pub (xpub_derive_path true (xprv_public (ex_prv K256)) [1; 2147483650; 4]) with
  | Err e => error_eqb e (hardened_public_error 2147483650)
  | _ => false end = true.
Proof. vm_cast_no_check (eq_refl true). Qed.

(** ** C42 *)
Definition curve_key (b : Library) : list byte :=
  match b with P256 => bytes_of "Nist256p1 seed" | _ => bytes_of "Bitcoin seed" end.

Theorem C42_master_key dbg :
  (forall b L seed, ec_laws L ->
     let I := hmac_sha512 (curve_key b) seed in
     let k := be_val (firstn 32 I) in
     (0 < k < order L ->
        exists x, xprv_new dbg (backend b L) seed = Ok x /\ xprv_key x = k /\
          m_chain (xprv_meta x) = skipn 32 I /\ m_depth (xprv_meta x) = x00 /\
          m_fingerprint (xprv_meta x) = [x00; x00; x00; x00] /\ m_child (xprv_meta x) = 0) /\
     (k = 0 \/ order L <= k ->
        exists e, xprv_new dbg (backend b L) seed = Err e /\ e_kind e = InvalidKeyData)) /\
  (forall D seed,
     let I := hmac_sha512 (bytes_of "ed25519 seed") seed in
     exists x, xprv_new dbg (Ed25519DalekBackend D) seed = Ok x /\ xprv_key x = firstn 32 I /\
       m_chain (xprv_meta x) = skipn 32 I /\ m_depth (xprv_meta x) = x00 /\
       m_fingerprint (xprv_meta x) = [x00; x00; x00; x00] /\ m_child (xprv_meta x) = 0).
Proof.
  split.
  - intros b L seed HL I k. rewrite xprv_new_eq.
    assert (HI : hmac_sha512 (hmac_key (backend b L)) seed = I) by (destruct b; reflexivity).
    cbv zeta. rewrite HI.
    assert (LI : length (firstn 32 I) = 32%nat) by apply left_length. split.
    + intros Hk. rewrite (proj2 (prv_from_iff L b (firstn 32 I) k LI)) by (split; [reflexivity|exact Hk]).
      eexists. split; [reflexivity|]. repeat split.
    + intros Hk. destruct (prv_from_bytes _ _) as [s|k'] eqn:E; [eexists; split; reflexivity|].
      apply prv_from_iff in E as [-> [V1 V2]]; [|exact LI]. fold k in V1, V2. lia.
  - intros D seed I. rewrite xprv_new_eq. eexists. split; [reflexivity|]. repeat split.
Qed.
Print Assumptions C42_master_key.

Example C42_case :
  match xprv_new true (backend K256 Cyclic) [], xprv_new true (backend P256 Cyclic) (repeat xff 200) with
  | Ok x, Ok y => negb (xprv_key x =? xprv_key y) | _, _ => false end = true.
Proof. vm_cast_no_check (eq_refl true). Qed.

(** ** C43 *)
Theorem C43_reachable_keys_export dbg b L (HL : ec_laws L) seed p (m x : XPrv (backend b L)) :
  Forall (fun i => i < 2 ^ 32) p ->
  xprv_new dbg (backend b L) seed = Ok m -> xprv_derive_path dbg m p = Ok x ->
  depth_rule (xprv_meta x) /\
  (forall n, In n known_private ->
     exists q t, xprv_encode_with x (Private n) = Ok q /\ payload_show q = Ok t /\
       xprv_parse dbg (backend b L) t = Ok x) /\
  (forall n, In n known_public ->
     exists q t, xpub_encode_with (xprv_public x) (Public n) = Ok q /\ payload_show q = Ok t /\
       xpub_parse dbg (backend b L) t = Ok (xprv_public x)).
Proof.
  intros F Hm Hp.
  destruct (reachable_wf L HL dbg b seed p m x F Hm Hp) as [W D]. split; [exact D|].
  assert (DIS : forall r, In r known_public -> In r known_private -> False).
  { intros r A B. cbn in A. repeat destruct A as [<-|A]; try contradiction;
      cbn in B; repeat destruct B as [B|B]; discriminate || contradiction. }
  assert (BND : forall r, In r known_public \/ In r known_private -> r < 2 ^ 32).
  { intros r [H|H]; cbn in H; repeat destruct H as [<-|H]; reflexivity || contradiction. }
  split.
  - intros n Hn. exists (prv_payload L x (Private n)).
    destruct (prv_roundtrip L HL dbg b x (Private n) W D) as (t & S & P);
      [apply BND; right; exact Hn|reflexivity|intros Q; exact (DIS n Q Hn)|].
    exists t. split; [apply prv_encode_eq; reflexivity|]. split; assumption.
  - intros n Hn. exists (pub_payload L (xprv_public x) (Public n)).
    destruct (pub_roundtrip L HL dbg b (xprv_public x) (Public n) (xprv_public_wf L HL b x W) D)
      as (t & S & P); [apply BND; left; exact Hn|reflexivity|intros Q; exact (DIS n Hn Q)|].
    exists t. split; [apply pub_encode_eq; reflexivity|]. split; assumption.
Qed.
Print Assumptions C43_reachable_keys_export.

Example C43_case :
  match xprv_new true (backend K256 Cyclic) (unhex "000102030405060708090a0b0c0d0e0f") with
  | Ok m => match xprv_derive_path true m [2147483648; 1; 2147483650] with Ok _ => true | _ => false end
  | _ => false end = true.
Proof. vm_cast_no_check (eq_refl true). Qed.

(** ** C44 *)
(** The two backends of secp256k1 work on the same key values, so keys and
    metadata can be compared directly. *)
Definition same {A : Type} (a b : Source + A) : Prop :=
  match a, b with inr x, inr y => x = y | inl _, inl _ => True | _, _ => False end.
Definition same_report (e e' : Error) : Prop :=
  e_kind e = e_kind e' /\ e_message e = e_message e' /\ e_context e = e_context e'.
Definition same_prv {L : ECLib} (a : res Error (XPrv (K256Backend L)))
    (b : res Error (XPrv (Secp256k1FfiBackend L))) : Prop :=
  match a, b with
  | Ok x, Ok y => xprv_meta x = xprv_meta y /\ (xprv_key x : N) = xprv_key y
  | Err e, Err e' => same_report e e'
  | _, _ => False
  end.
Definition same_pub {L : ECLib} (a : res Error (XPub (K256Backend L)))
    (b : res Error (XPub (Secp256k1FfiBackend L))) : Prop :=
  match a, b with
  | Ok x, Ok y => xpub_meta x = xpub_meta y /\ (xpub_key x : point L) = xpub_key y
  | Err e, Err e' => same_report e e'
  | _, _ => False
  end.
Definition kprv {L : ECLib} (m : Metadata) (k : N) : XPrv (K256Backend L) := @mkXPrv (K256Backend L) m k.
Definition fprv {L : ECLib} (m : Metadata) (k : N) : XPrv (Secp256k1FfiBackend L) :=
  @mkXPrv (Secp256k1FfiBackend L) m k.
Definition kpub {L : ECLib} (m : Metadata) (K : point L) : XPub (K256Backend L) := @mkXPub (K256Backend L) m K.
Definition fpub {L : ECLib} (m : Metadata) (K : point L) : XPub (Secp256k1FfiBackend L) :=
  @mkXPub (Secp256k1FfiBackend L) m K.

Theorem C44_backends_agree dbg L (HL : ec_laws L) :
  (forall bytes, length bytes = 32%nat ->
     same (prv_from_bytes (K256Backend L) bytes) (prv_from_bytes (Secp256k1FfiBackend L) bytes)) /\
  (forall bytes, length bytes = 33%nat -> hd x00 bytes <> x05 ->
     same (pub_from_bytes (K256Backend L) bytes) (pub_from_bytes (Secp256k1FfiBackend L) bytes)) /\
  (forall k : N, prv_to_bytes (K256Backend L) k = prv_to_bytes (Secp256k1FfiBackend L) k /\
     prv_to_public (K256Backend L) k = prv_to_public (Secp256k1FfiBackend L) k) /\
  (forall K : point L, pub_to_bytes (K256Backend L) K = pub_to_bytes (Secp256k1FfiBackend L) K) /\
  (forall seed, same_prv (xprv_new dbg (K256Backend L) seed) (xprv_new dbg (Secp256k1FfiBackend L) seed)) /\
  (forall s, same_prv (xprv_parse dbg (K256Backend L) s) (xprv_parse dbg (Secp256k1FfiBackend L) s)) /\
  (forall s, same_pub (xpub_parse dbg (K256Backend L) s) (xpub_parse dbg (Secp256k1FfiBackend L) s)) /\
  (forall m k i, IL (hmac_sha512 (m_chain m) (ckd_priv_data L k i)) <> 0 ->
     same_prv (xprv_derive_child dbg (@kprv L m k) i) (xprv_derive_child dbg (@fprv L m k) i)) /\
  (forall m K i, IL (hmac_sha512 (m_chain m) (ckd_pub_data L K i)) <> 0 ->
     same_pub (xpub_derive_child dbg (@kpub L m K) i) (xpub_derive_child dbg (@fpub L m K) i)).
Proof.
  assert (SAME : forall A (a b : Source + A), (forall x, a = inr x <-> b = inr x) -> same a b).
  { intros A [s|x] [s'|y] H; cbn; try exact I.
    - destruct (H y) as [_ H2]. discriminate (H2 eq_refl).
    - destruct (H x) as [H1 _]. discriminate (H1 eq_refl).
    - destruct (H x) as [H1 _]. specialize (H1 eq_refl). congruence. }
  assert (PRV : forall bytes, length bytes = 32%nat ->
     same (prv_from_bytes (K256Backend L) bytes) (prv_from_bytes (Secp256k1FfiBackend L) bytes)).
  { intros bytes Lb. apply SAME. intros k.
    rewrite (prv_from_iff L K256 bytes k Lb), (prv_from_iff L Secp256k1Ffi bytes k Lb). reflexivity. }
  assert (PUB : forall bytes, length bytes = 33%nat -> hd x00 bytes <> x05 ->
     same (pub_from_bytes (K256Backend L) bytes) (pub_from_bytes (Secp256k1FfiBackend L) bytes)).
  { intros bytes Lb H5. destruct bytes as [|tag x]; [discriminate|]. cbn [hd length] in *.
    destruct ((b2n tag =? 2) || (b2n tag =? 3)) eqn:E.
    - apply SAME. intros K. apply byte_23 in E.
      rewrite (pub_from_iff L HL K256 (tag :: x) K Lb E), (pub_from_iff L HL Secp256k1Ffi (tag :: x) K Lb E).
      reflexivity.
    - cbn [K256Backend rc_backend rc_curve tw_curve pub_from_bytes Secp256k1FfiBackend ffi_curve].
      unfold rc_sec1, ffi_public. rewrite E, andb_false_r.
      assert (N5 : (b2n tag =? 5) = false).
      { apply N.eqb_neq. intros H. apply H5. apply b2n_inj. exact H. }
      rewrite N5. destruct (length x =? 32)%nat; exact I. }
  split; [exact PRV|]. split; [exact PUB|]. split; [intros k; split; reflexivity|].
  split; [reflexivity|]. split; [|split; [|split; [|split]]].
  - intros seed. rewrite !xprv_new_eq. cbv zeta.
    change (hmac_key (K256Backend L)) with (hmac_key (Secp256k1FfiBackend L)).
    pose proof (PRV (firstn 32 (hmac_sha512 (hmac_key (Secp256k1FfiBackend L)) seed)) (left_length _ _)) as S.
    destruct (prv_from_bytes (K256Backend L) _) as [s|k]; destruct (prv_from_bytes (Secp256k1FfiBackend L) _) as [s'|k'];
      cbn [same] in S; try contradiction; [repeat split|]. subst k'. split; reflexivity.
  - intros s. unfold xprv_parse. destruct (payload_parse dbg s) as [p|e|] eqn:E; cbn [bind].
    + apply payload_parse_iff in E as (W & _). assert (Lk : length (p_key p) = 33%nat) by apply W.
      change (K256Backend L) with (backend K256 L). change (Secp256k1FfiBackend L) with (backend Secp256k1Ffi L).
      rewrite !prv_try_from_eq by exact Lk. destruct (p_version p); [repeat split|].
      assert (Lt : length (tl (p_key p)) = 32%nat) by (destruct (p_key p); cbn [length tl] in *; lia).
      specialize (PRV _ Lt). change (K256Backend L) with (backend K256 L) in PRV.
      change (Secp256k1FfiBackend L) with (backend Secp256k1Ffi L) in PRV.
      destruct (prv_from_bytes (backend K256 L) _) as [s0|k];
        destruct (prv_from_bytes (backend Secp256k1Ffi L) _) as [s'|k'];
        cbn [same] in PRV; try contradiction; [repeat split|]. subst k'. split; reflexivity.
    + repeat split.
    + apply C31_fits_and_total in E. exact E.
  - intros s. unfold xpub_parse. destruct (payload_parse dbg s) as [p|e|] eqn:E; cbn [bind].
    + apply payload_parse_iff in E as (W & _ & _ & PR). assert (Lk : length (p_key p) = 33%nat) by apply W.
      change (K256Backend L) with (backend K256 L). change (Secp256k1FfiBackend L) with (backend Secp256k1Ffi L).
      rewrite !pub_try_from_eq. unfold prefix_rule, key_prefix in PR.
      destruct (p_version p); [|repeat split]. destruct PR as [PR _].
      assert (N5 : hd x00 (p_key p) <> x05) by (destruct PR as [-> | ->]; discriminate).
      specialize (PUB _ Lk N5). change (K256Backend L) with (backend K256 L) in PUB.
      change (Secp256k1FfiBackend L) with (backend Secp256k1Ffi L) in PUB.
      destruct (pub_from_bytes (backend K256 L) _) as [s0|k];
        destruct (pub_from_bytes (backend Secp256k1Ffi L) _) as [s'|k'];
        cbn [same] in PUB; try contradiction; [repeat split|]. subst k'. split; reflexivity.
    + repeat split.
    + apply C31_fits_and_total in E. exact E.
  - intros m k i H. rewrite (derive_child_eq dbg (K256Backend L)) by apply be_bytes_length.
    rewrite (derive_child_eq dbg (Secp256k1FfiBackend L)) by apply be_bytes_length. cbv zeta.
    change (gen_data (K256Backend L) (xprv_key (@kprv L m k)) i) with (ckd_priv_data L k i).
    change (gen_data (Secp256k1FfiBackend L) (xprv_key (@fprv L m k)) i) with (ckd_priv_data L k i).
    cbn [kprv fprv xprv_meta xprv_key]. set (I0 := hmac_sha512 _ _) in *.
    assert (S : same (prv_add_tweak (K256Backend L) k (firstn 32 I0))
                     (prv_add_tweak (Secp256k1FfiBackend L) k (firstn 32 I0))).
    { apply SAME. intros k'. rewrite (prv_tweak_iff L HL K256), (prv_tweak_iff L HL Secp256k1Ffi).
      unfold allowed. fold (IL I0). tauto. }
    destruct (prv_add_tweak (K256Backend L) _ _) as [s|k1];
      destruct (prv_add_tweak (Secp256k1FfiBackend L) _ _) as [s'|k2]; cbn [same] in S; try contradiction.
    + repeat split.
    + subst k2. split; reflexivity.
  - intros m K i H. rewrite !derive_pub_eq. destruct (2 ^ 31 <=? i); [repeat split|]. cbv zeta.
    cbn [kpub fpub xpub_meta xpub_key].
    change (pub_to_bytes (K256Backend L) K ++ be_bytes 4 i) with (ckd_pub_data L K i).
    change (pub_to_bytes (Secp256k1FfiBackend L) K ++ be_bytes 4 i) with (ckd_pub_data L K i).
    set (I0 := hmac_sha512 _ _) in *.
    assert (S : same (pub_add_tweak (K256Backend L) K (firstn 32 I0))
                     (pub_add_tweak (Secp256k1FfiBackend L) K (firstn 32 I0))).
    { apply SAME. intros K'. rewrite (pub_tweak_iff L HL K256), (pub_tweak_iff L HL Secp256k1Ffi).
      unfold allowed. fold (IL I0). tauto. }
    destruct (pub_add_tweak (K256Backend L) _ _) as [s|k1];
      destruct (pub_add_tweak (Secp256k1FfiBackend L) _ _) as [s'|k2]; cbn [same] in S; try contradiction.
    + repeat split.
    + subst k2. split; reflexivity.
Qed.
Print Assumptions C44_backends_agree.

(** The exception is real: on the zero tweak, which BIP-0032 allows, the FFI backend
    returns the key itself and the RustCrypto backends fail. *)
Theorem C44_zero_tweak_refuted L (HL : ec_laws L) :
  (forall k, valid_private L k ->
     prv_add_tweak (Secp256k1FfiBackend L) k (repeat x00 32) = inr k /\
     exists s, prv_add_tweak (K256Backend L) k (repeat x00 32) = inl s) /\
  (forall K, valid_public L K ->
     pub_add_tweak (Secp256k1FfiBackend L) K (repeat x00 32) = inr K /\
     exists s, pub_add_tweak (K256Backend L) K (repeat x00 32) = inl s).
Proof.
  assert (Z : be_val (repeat x00 32) = 0) by reflexivity.
  pose proof (order_range L HL) as R. split.
  - intros k [V1 V2]. split.
    + apply (prv_tweak_iff L HL Secp256k1Ffi). rewrite Z, N.add_0_l, N.mod_small by exact V2.
      split; [split; [lia|reflexivity]|]. split; [reflexivity|lia].
    + eexists. reflexivity.
  - intros K V. split.
    + apply (pub_tweak_iff L HL Secp256k1Ffi). rewrite Z, (mul_zero L HL), (add_comm L HL), (add_inf L HL).
      split; [split; [lia|reflexivity]|]. split; [reflexivity|exact V].
    + eexists. reflexivity.
Qed.
Print Assumptions C44_zero_tweak_refuted.

Example C44_case : ec_laws Cyclic /\
  negb (IL (hmac_sha512 (m_chain ex_meta) (ckd_priv_data Cyclic (xprv_key (ex_prv K256)) 5)) =? 0) = true.
Proof. split; [exact cyclic_laws|]. vm_cast_no_check (eq_refl true). Qed.

(** ** C45 *)
Theorem C45_slip10_master dbg b L (HL : ec_laws L) seed :
  let cand := master_candidate (curve_key b) seed in
  let good j := 0 < be_val (firstn 32 (cand j)) < order L in
  (forall fuel r, new_slip10 dbg fuel (backend b L) seed = Some r <->
     exists j, (j < fuel)%nat /\ first_index good j /\
       r = Ok (@mkXPrv (backend b L)
                 {| m_depth := x00; m_fingerprint := [x00; x00; x00; x00]; m_child := 0;
                    m_chain := skipn 32 (cand j) |}
                 (be_val (firstn 32 (cand j))))) /\
  (forall fuel, new_slip10 dbg fuel (backend b L) seed = None <->
     forall j, (j < fuel)%nat -> ~ good j) /\
  (forall x fuel, xprv_new dbg (backend b L) seed = Ok x ->
     new_slip10 dbg (S fuel) (backend b L) seed = Some (Ok x)).
Proof.
  intros cand good.
  assert (HK : hmac_key (backend b L) = curve_key b) by (destruct b; reflexivity).
  assert (LC : forall j, length (firstn 32 (cand j)) = 32%nat).
  { intros j. unfold cand. destruct j; apply left_length. }
  assert (G : forall j, good j <-> exists k, prv_from_bytes (backend b L) (firstn 32 (cand j)) = inr k).
  { intros j. split.
    - intros H. eexists. apply prv_from_iff; [apply LC|]. split; [reflexivity|exact H].
    - intros [k H]. apply prv_from_iff in H as [-> V]; [exact V|apply LC]. }
  assert (NG : forall j, ~ good j <-> exists s, prv_from_bytes (backend b L) (firstn 32 (cand j)) = inl s).
  { intros j. rewrite G. destruct (prv_from_bytes _ _) as [s|k].
    - split; [eauto|]. intros _ [k H]. discriminate.
    - split; [intros H; elim H; eauto|]. intros [s H]. discriminate. }
  assert (FI : forall j k, found (prv_from_bytes (backend b L)) cand j k <->
            first_index good j /\ k = be_val (firstn 32 (cand j))).
  { intros j k. unfold found, first_index. split.
    - intros [A B]. split; [split|].
      + apply G. eauto.
      + intros i Hi. apply NG. apply B. exact Hi.
      + apply prv_from_iff in A as [-> _]; [reflexivity|apply LC].
    - intros [[A B] ->]. split.
      + apply prv_from_iff; [apply LC|]. split; [reflexivity|exact A].
      + intros i Hi. apply NG. apply B. exact Hi. }
  assert (SP : forall fuel,
    (exists j, (j < fuel)%nat /\ first_index good j /\ new_slip10 dbg fuel (backend b L) seed =
       Some (Ok (@mkXPrv (backend b L) (master_meta (skipn 32 (cand j))) (be_val (firstn 32 (cand j)))))) \/
    ((forall j, (j < fuel)%nat -> ~ good j) /\ new_slip10 dbg fuel (backend b L) seed = None)).
  { intros fuel. unfold new_slip10. destruct (master_spec dbg (backend b L) fuel seed) as [(j & k & Hj & F & E)|[F E]];
      rewrite ?HK in F; rewrite ?HK in E.
    - left. apply FI in F as [F ->]. exists j. split; [exact Hj|]. split; [exact F|exact E].
    - right. split; [|exact E]. intros j Hj. apply NG. apply F. exact Hj. }
  split; [|split].
  - intros fuel r. destruct (SP fuel) as [(j & Hj & F & E)|[F E]]; rewrite E.
    + split.
      * intros [= <-]. exists j. repeat split; auto; apply F.
      * intros (j' & Hj' & [F1 F2] & ->). assert (j' = j) as ->; [|reflexivity].
        destruct F as [F3 F4]. destruct (Nat.lt_trichotomy j j') as [H|[H|H]]; [|congruence|].
        -- elim (F2 j H F3).
        -- elim (F4 j' H F1).
    + split; [discriminate|]. intros (j & Hj & [A _] & _). elim (F j Hj A).
  - intros fuel. destruct (SP fuel) as [(j & Hj & F & E)|[F E]]; rewrite E.
    + split; [discriminate|]. intros H. elim (H j Hj). apply F.
    + split; [intros _; exact F|reflexivity].
  - intros x fuel H. rewrite xprv_new_eq in H. cbv zeta in H. rewrite HK in H.
    destruct (prv_from_bytes (backend b L) (firstn 32 (hmac_sha512 (curve_key b) seed))) as [s|k] eqn:E; [discriminate|].
    injection H as <-. unfold new_slip10. cbn [slip10_master_loop]. unfold derive_master_key_parts.
    rewrite HK, hmac_split_eq, E. reflexivity.
Qed.
Print Assumptions C45_slip10_master.

Example C45_case :
  match new_slip10 true 1 (backend P256 Cyclic) (unhex "000102030405060708090a0b0c0d0e0f") with
  | Some (Ok x) => be_val (unhex "612091aaa12e22dd2abef664f8a01a82cae99ad7441b7ef8110424915c268bc2") =? xprv_key x
  | _ => false end = true.
Proof. vm_cast_no_check (eq_refl true). Qed.

(** ** C46 *)
(** The metadata of a child: see C40. *)
Definition derived (m : Metadata) (pk : list byte) (i : N) (chain : list byte) : Metadata := {|
  m_depth := n2b (N.min 255 (b2n (m_depth m) + 1));
  m_fingerprint := firstn 4 (ripemd160 (sha256 pk));
  m_child := i;
  m_chain := chain |}.

Theorem C46_slip10_child b L (HL : ec_laws L) :
  (forall (x : XPrv (backend b L)) i, xprv_wf x -> i < 2 ^ 32 ->
     let cand := child_candidate (m_chain (xprv_meta x)) (ckd_priv_data L (xprv_key x) i) i in
     let good j := exists k, child_private b L (xprv_key x) (cand j) k in
     (forall fuel r, slip10_prv_child fuel x i = Some r <->
        exists j k, (j < fuel)%nat /\ first_index good j /\ child_private b L (xprv_key x) (cand j) k /\
          r = Ok (@mkXPrv (backend b L)
                (derived (xprv_meta x) (compress L (pmul L (xprv_key x) (gen L))) i (IR (cand j))) k)) /\
     (forall fuel, slip10_prv_child fuel x i = None <-> forall j, (j < fuel)%nat -> ~ good j)) /\
  (forall (x : XPub (backend b L)) i, xpub_wf x -> i < 2 ^ 31 ->
     let cand := child_candidate (m_chain (xpub_meta x)) (ckd_pub_data L (xpub_key x) i) i in
     let good j := exists K, child_public b L (xpub_key x) (cand j) K in
     (forall fuel r, slip10_pub_child fuel x i = Some r <->
        exists j K, (j < fuel)%nat /\ first_index good j /\ child_public b L (xpub_key x) (cand j) K /\
          r = Ok (@mkXPub (backend b L)
                (derived (xpub_meta x) (compress L (xpub_key x)) i (IR (cand j))) K)) /\
     (forall fuel, slip10_pub_child fuel x i = None <-> forall j, (j < fuel)%nat -> ~ good j)).
Proof.
  (* the search, for any acceptance test *)
  assert (SEARCH : forall K (t : list byte -> Source + K) (child : list byte -> K -> Prop) chain data i,
    (forall I k, t (firstn 32 I) = inr k <-> child I k) ->
    let cand := child_candidate chain data i in
    let good j := exists k, child (cand j) k in
    (forall fuel r, slip10_loop fuel chain t (child_to_bytes i) data = Some r <->
       exists j k, (j < fuel)%nat /\ first_index good j /\ child (cand j) k /\ r = Ok (k, IR (cand j))) /\
    (forall fuel, slip10_loop fuel chain t (child_to_bytes i) data = None <->
       forall j, (j < fuel)%nat -> ~ good j)).
  { intros K t child chain data i H cand good.
    assert (NG : forall j, ~ good j <-> exists s, t (firstn 32 (cand j)) = inl s).
    { intros j. unfold good. destruct (t (firstn 32 (cand j))) as [s|k] eqn:E.
      - split; [eauto|]. intros _ [k Hk]. apply H in Hk. congruence.
      - split; [|intros [s Hs]; discriminate]. intros N. elim N. exists k. apply H. exact E. }
    assert (FI : forall j k, found t cand j k <-> first_index good j /\ child (cand j) k).
    { intros j k. unfold found, first_index. split.
      - intros [A B]. apply H in A. split; [split; [exists k; exact A|]|exact A].
        intros i' Hi. apply NG. apply B. exact Hi.
      - intros [[_ B] A]. split; [apply H; exact A|]. intros i' Hi. apply NG. apply B. exact Hi. }
    split; intros fuel.
    - intros r. destruct (loop_spec t chain i fuel data) as [(j & k & Hj & F & E)|[F E]]; rewrite E; fold cand in F |- *.
      + split.
        * intros [= <-]. exists j, k. apply FI in F as [F1 F2]. auto.
        * intros (j' & k' & Hj' & F1 & F2 & ->).
          destruct (found_unique _ _ _ _ _ _ F (proj2 (FI j' k') (conj F1 F2))) as [<- <-]. reflexivity.
      + split; [discriminate|]. intros (j & k & Hj & [G _] & _). elim (proj2 (NG j) (F j Hj) G).
    - destruct (loop_spec t chain i fuel data) as [(j & k & Hj & F & E)|[F E]]; rewrite E; fold cand in F.
      + split; [discriminate|]. intros N. apply FI in F as [[G _] _]. elim (N j Hj G).
      + split; [|reflexivity]. intros _ j Hj. apply NG. apply F. exact Hj. }
  split.
  - intros x i _ _ cand good.
    destruct (SEARCH (prv_t (backend b L)) (prv_add_tweak (backend b L) (xprv_key x)) (child_private b L (xprv_key x))
                (m_chain (xprv_meta x)) (ckd_priv_data L (xprv_key x) i) i) as [S1 S2].
    { intros I k. apply (prv_tweak_iff L HL). }
    assert (E : forall fuel, slip10_prv_child fuel x i =
      omap (fun '(k, c) => @mkXPrv (backend b L)
              (derived (xprv_meta x) (compress L (pmul L (xprv_key x) (gen L))) i c) k)
        (slip10_loop fuel (m_chain (xprv_meta x)) (prv_add_tweak (backend b L) (xprv_key x)) (child_to_bytes i)
           (ckd_priv_data L (xprv_key x) i))).
    { intros fuel. rewrite prv_child_loop; [reflexivity|apply be_bytes_length|apply (compress_length L HL)]. }
    split; intros fuel; [intros r|]; rewrite E.
    + split.
      * intros H. destruct (slip10_loop _ _ _ _ _) as [r0|] eqn:El; [|discriminate].
        cbn [omap option_map] in H. apply S1 in El as (j & k & Hj & F & Ck & ->).
        exists j, k. cbn [res_map] in H. injection H as <-. auto.
      * intros (j & k & Hj & F & Ck & ->). rewrite (proj2 (S1 fuel (Ok (k, IR (cand j))))); [reflexivity|].
        exists j, k. auto.
    + etransitivity; [|apply S2]. unfold omap.
      destruct (slip10_loop _ _ _ _ _); split; intros H; discriminate || reflexivity.
  - intros x i _ Hi cand good.
    destruct (SEARCH (pub_t (backend b L)) (pub_add_tweak (backend b L) (xpub_key x)) (child_public b L (xpub_key x))
                (m_chain (xpub_meta x)) (ckd_pub_data L (xpub_key x) i) i) as [S1 S2].
    { intros I k. apply (pub_tweak_iff L HL). }
    assert (E : forall fuel, slip10_pub_child fuel x i =
      omap (fun '(k, c) => @mkXPub (backend b L) (derived (xpub_meta x) (compress L (xpub_key x)) i c) k)
        (slip10_loop fuel (m_chain (xpub_meta x)) (pub_add_tweak (backend b L) (xpub_key x)) (child_to_bytes i)
           (ckd_pub_data L (xpub_key x) i))).
    { intros fuel. rewrite pub_child_loop by apply (compress_length L HL).
      replace (2 ^ 31 <=? i) with false by lia. reflexivity. }
    split; intros fuel; [intros r|]; rewrite E.
    + split.
      * intros H. destruct (slip10_loop _ _ _ _ _) as [r0|] eqn:El; [|discriminate].
        cbn [omap option_map] in H. apply S1 in El as (j & k & Hj & F & Ck & ->).
        exists j, k. cbn [res_map] in H. injection H as <-. auto.
      * intros (j & k & Hj & F & Ck & ->). rewrite (proj2 (S1 fuel (Ok (k, IR (cand j))))); [reflexivity|].
        exists j, k. auto.
    + etransitivity; [|apply S2]. unfold omap.
      destruct (slip10_loop _ _ _ _ _); split; intros H; discriminate || reflexivity.
Qed.
Print Assumptions C46_slip10_child.

(** Hardened-only curves take the left half itself as the key. *)
Theorem C46_slip10_hardened_child (C : Curve) fuel (x : XPrv C) i :
  length (prv_to_bytes C (xprv_key x)) = 32%nat -> 2 ^ 31 <= i < 2 ^ 32 ->
  let cand := child_candidate (m_chain (xprv_meta x))
                ([x00] ++ prv_to_bytes C (xprv_key x) ++ be_bytes 4 i) i in
  match slip10_hardened_child fuel x (mkHC i) with
  | Some r => exists j k, (j < fuel)%nat /\ prv_from_bytes C (firstn 32 (cand j)) = inr k /\
      (forall j', (j' < j)%nat -> exists s, prv_from_bytes C (firstn 32 (cand j')) = inl s) /\
      r = Ok (mkXPrv (derived (xprv_meta x) (pub_to_bytes C (prv_to_public C (xprv_key x))) i (IR (cand j))) k)
  | None => forall j, (j < fuel)%nat -> exists s, prv_from_bytes C (firstn 32 (cand j)) = inl s
  end.
Proof.
  intros Lk _ cand. rewrite hardened_child_loop by exact Lk. cbn [hc_child].
  destruct (loop_spec (prv_from_bytes C) (m_chain (xprv_meta x)) i fuel
              ([x00] ++ prv_to_bytes C (xprv_key x) ++ be_bytes 4 i)) as [(j & k & Hj & [F G] & E)|[F E]]; rewrite E.
  - cbn [omap option_map res_map]. exists j, k. split; [exact Hj|]. split; [exact F|]. split; [exact G|reflexivity].
  - cbn [omap option_map]. exact F.
Qed.
Print Assumptions C46_slip10_hardened_child.

Example C46_case :
  match slip10_prv_child 1 (ex_prv P256) 7, xprv_derive_child true (ex_prv P256) 7 with
  | Some r, r' => res32_eqb payload_eqb (view_prv r) (view_prv r')
  | None, _ => false end = true.
Proof. vm_cast_no_check (eq_refl true). Qed.

(** ** C47 *)
Theorem C47_slip10_extends_bip32 dbg b L (HL : ec_laws L) fuel :
  (forall (x y : XPrv (backend b L)) i,
     xprv_derive_child dbg x i = Ok y -> slip10_prv_child (S fuel) x i = Some (Ok y)) /\
  (forall (x y : XPub (backend b L)) i,
     xpub_derive_child dbg x i = Ok y -> slip10_pub_child (S fuel) x i = Some (Ok y)) /\
  (forall p (x y : XPrv (backend b L)),
     xprv_derive_path dbg x p = Ok y -> slip10_prv_path (S fuel) x p = Some (Ok y)) /\
  (forall p (x y : XPub (backend b L)),
     xpub_derive_path dbg x p = Ok y -> slip10_pub_path (S fuel) x p = Some (Ok y)).
Proof.
  assert (A : forall (x y : XPrv (backend b L)) i,
     xprv_derive_child dbg x i = Ok y -> slip10_prv_child (S fuel) x i = Some (Ok y)).
  { intros x y i H. rewrite derive_child_eq in H by apply be_bytes_length.
    rewrite prv_child_loop; [|apply be_bytes_length|apply (compress_length L HL)].
    cbn [slip10_loop]. rewrite hmac_split_eq. cbv zeta in H.
    destruct (prv_add_tweak _ _ _) as [s|k]; [discriminate|]. injection H as <-. reflexivity. }
  assert (B : forall (x y : XPub (backend b L)) i,
     xpub_derive_child dbg x i = Ok y -> slip10_pub_child (S fuel) x i = Some (Ok y)).
  { intros x y i H. rewrite derive_pub_eq in H. rewrite pub_child_loop by apply (compress_length L HL).
    destruct (2 ^ 31 <=? i); [discriminate|].
    cbn [slip10_loop]. rewrite hmac_split_eq. cbv zeta in H.
    destruct (pub_add_tweak _ _ _) as [s|k]; [discriminate|]. injection H as <-. reflexivity. }
  split; [exact A|]. split; [exact B|]. split.
  - induction p as [|i p IH]; intros x y H; cbn [xprv_derive_path] in H.
    + injection H as <-. reflexivity.
    + destruct (xprv_derive_child dbg x i) as [z|e|] eqn:E; cbn [bind] in H; try discriminate.
      unfold slip10_prv_path. cbn [path_loop]. rewrite (A _ _ _ E). apply IH. exact H.
  - induction p as [|i p IH]; intros x y H; cbn [xpub_derive_path] in H.
    + injection H as <-. reflexivity.
    + destruct (xpub_derive_child dbg x i) as [z|e|] eqn:E; cbn [bind] in H; try discriminate.
      unfold slip10_pub_path. cbn [path_loop]. rewrite (B _ _ _ E). apply IH. exact H.
Qed.
Print Assumptions C47_slip10_extends_bip32.

Example C47_case : (forall b, xprv_wf (ex_prv b)) /\
  match slip10_prv_path 1 (ex_prv K256) [3; 2 ^ 31] with
  | Some r => res32_eqb payload_eqb (view_prv r) (view_prv (xprv_derive_path true (ex_prv K256) [3; 2 ^ 31]))
  | None => false end = true.
Proof. split; [apply ex_prv_wf|]. vm_cast_no_check (eq_refl true). Qed.

(** ** C48 *)
Theorem C48_slip10_neuter_commutes b L (HL : ec_laws L) fuel p : forall x : XPrv (backend b L),
  xprv_wf x -> Forall (fun i => i < 2 ^ 31) p ->
  match slip10_prv_path fuel x p with
  | Some (Ok y) => slip10_pub_path fuel (xprv_public x) p = Some (Ok (xprv_public y))
  | Some _ => False
  | None => slip10_pub_path fuel (xprv_public x) p = None
  end.
Proof.
  assert (ONE : forall (x : XPrv (backend b L)) i, i < 2 ^ 31 ->
    match slip10_prv_child fuel x i with
    | Some (Ok y) => slip10_pub_child fuel (xprv_public x) i = Some (Ok (xprv_public y))
    | Some _ => False
    | None => slip10_pub_child fuel (xprv_public x) i = None
    end).
  { intros x i Hi. rewrite prv_child_loop; [|apply be_bytes_length|apply (compress_length L HL)].
    rewrite pub_child_loop by apply (compress_length L HL).
    unfold gen_data. replace (2 ^ 31 <=? i) with false by lia. cbn [xprv_public xpub_meta xpub_key].
    set (chain := m_chain (xprv_meta x)).
    set (data := pub_to_bytes (backend b L) (prv_to_public (backend b L) (xprv_key x)) ++ be_bytes 4 i).
    rewrite (loop_map (fun k : prv_t (backend b L) => prv_to_public (backend b L) k)
               (prv_add_tweak (backend b L) (xprv_key x))
               (pub_add_tweak (backend b L) (prv_to_public (backend b L) (xprv_key x))))
      by (intros t; apply (tweak_agree L HL)).
    destruct (loop_spec (prv_add_tweak (backend b L) (xprv_key x)) chain i fuel data)
      as [(j & k & _ & _ & ->)|[_ ->]]; reflexivity. }
  unfold slip10_prv_path, slip10_pub_path.
  induction p as [|i p IH]; intros x W F; cbn [path_loop]; [reflexivity|].
  inversion F as [|? ? Fi Fp]; subst. specialize (ONE x i Fi).
  destruct (slip10_prv_child fuel x i) as [[y|e|]|] eqn:E; try contradiction; rewrite ONE; [|reflexivity].
  apply IH; [|exact Fp].
  rewrite prv_child_loop in E; [|apply be_bytes_length|apply (compress_length L HL)].
  match type of E with context [slip10_loop fuel ?c ?t ?cb ?d] =>
    destruct (loop_spec t c i fuel d) as [(j & k & _ & [Fk _] & El)|[_ El]]; rewrite El in E end;
    [|discriminate]. cbn [omap option_map res_map] in E. injection E as <-. split.
  - apply child_meta_wf; [lia|]. destruct j; apply right_length.
  - apply (prv_tweak_iff L HL) in Fk as (_ & -> & NZ). cbn [xprv_key]. split; [lia|].
    apply N.mod_lt. apply (order_nz L HL).
Qed.
Print Assumptions C48_slip10_neuter_commutes.

Example C48_case :
  match slip10_prv_path 1 (ex_prv P256) [3; 4], slip10_pub_path 1 (xprv_public (ex_prv P256)) [3; 4] with
  | Some (Ok y), Some r => res32_eqb payload_eqb (view_pub (Ok (xprv_public y))) (view_pub r)
  | _, _ => false end = true.
Proof. vm_cast_no_check (eq_refl true). Qed.
