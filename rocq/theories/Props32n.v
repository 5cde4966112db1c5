(** Property theorems for the bip0032 crate: what C40, C43 and C56 say of
    BIP-0032 derivation, for the paths of SLIP-0010. *)
From Verif Require Import Base Str Sha2 Ripemd Error32 Version32 Path32 PathProofs32 Meta32 Payload32
  Base58Spec Base58Proofs PayloadSpec32 PayloadProofs32 Curve32 XKey32 Slip10 XKeySpec32 XKeyProofs32
  SlipProofs32 Cyclic32 Eqb32 Props32 Props32k Props32s Secp256k1 Nist256p1 Props32c.
Local Open Scope N_scope.

(** ** C40 *)
(** A path adds one to the depth per step, up to 255, and the key at its end is
    described by the last step. *)
Section Paths.
Variables (X I : Type) (meta : X -> Metadata) (pk : X -> list byte) (num : I -> N) (ok : X -> Prop).
Variable step : X -> I -> option (res Error X).
Hypothesis step_describes : forall x y i, ok x -> step x i = Some (Ok y) ->
  describes (meta x) (pk x) (num i) (meta y) /\ ok y.

Lemma path_depth p : forall x y, ok x -> path_loop step x p = Some (Ok y) ->
  b2n (m_depth (meta y)) = N.min 255 (b2n (m_depth (meta x)) + N.of_nat (length p)) /\ ok y.
Proof.
  induction p as [|i p IH]; intros x y O H; cbn [path_loop] in H.
  - injection H as <-. split; [|exact O]. pose proof (b2n_bound (m_depth (meta x))). cbn [length]. lia.
  - destruct (step x i) as [[z|e|]|] eqn:E; try discriminate.
    destruct (step_describes _ _ _ O E) as [[D _] Oz]. destruct (IH _ _ Oz H) as [-> Oy].
    split; [|exact Oy]. rewrite D. cbn [length]. lia.
Qed.

Lemma path_last p x y q i : ok x -> path_loop step x p = Some (Ok y) -> p = q ++ [i] ->
  exists z, path_loop step x q = Some (Ok z) /\ describes (meta z) (pk z) (num i) (meta y).
Proof.
  intros O H ->. rewrite path_loop_app in H.
  destruct (path_loop step x q) as [[z|e|]|] eqn:Q; try discriminate.
  exists z. split; [reflexivity|]. destruct (path_depth _ _ _ O Q) as [_ Oz].
  cbn [path_loop] in H. destruct (step z i) as [[w|e|]|] eqn:E; try discriminate.
  injection H as <-. apply (step_describes _ _ _ Oz E).
Qed.
End Paths.

Lemma depth_nz d n : b2n d = N.min 255 n -> n <> 0 -> d <> x00.
Proof. intros H Hn ->. change (b2n x00) with 0 in H. lia. Qed.

Theorem C40_slip10_paths b L (HL : ec_laws L) fuel :
  (forall (x y : XPrv (backend b L)) p, slip10_prv_path fuel x p = Some (Ok y) ->
     b2n (m_depth (xprv_meta y)) = N.min 255 (b2n (m_depth (xprv_meta x)) + N.of_nat (length p)) /\
     (p <> [] -> m_depth (xprv_meta y) <> x00) /\
     forall q i, p = q ++ [i] -> exists z, slip10_prv_path fuel x q = Some (Ok z) /\
       describes (xprv_meta z) (compress L (pmul L (xprv_key z) (gen L))) i (xprv_meta y)) /\
  (forall (x y : XPub (backend b L)) p, slip10_pub_path fuel x p = Some (Ok y) ->
     b2n (m_depth (xpub_meta y)) = N.min 255 (b2n (m_depth (xpub_meta x)) + N.of_nat (length p)) /\
     (p <> [] -> m_depth (xpub_meta y) <> x00) /\
     forall q i, p = q ++ [i] -> exists z, slip10_pub_path fuel x q = Some (Ok z) /\
       describes (xpub_meta z) (compress L (xpub_key z)) i (xpub_meta y)).
Proof.
  destruct (C40_derived_metadata true b L HL) as (_ & _ & A & B & _).
  split; intros x y p H; unfold slip10_prv_path, slip10_pub_path in *.
  - pose proof (path_depth _ _ xprv_meta (fun z : XPrv (backend b L) => compress L (pmul L (xprv_key z) (gen L))) (fun i => i)
      (fun _ => True) (slip10_prv_child fuel) (fun u v i _ E => conj (A fuel u v i E) I) p x y I H) as [D _].
    split; [exact D|]. split.
    + intros Hp. eapply depth_nz; [exact D|]. destruct p; [congruence|cbn [length]; lia].
    + intros q i Q. exact (path_last _ _ xprv_meta (fun z : XPrv (backend b L) => compress L (pmul L (xprv_key z) (gen L))) (fun i => i)
        (fun _ => True) (slip10_prv_child fuel) (fun u v i _ E => conj (A fuel u v i E) I) p x y q i I H Q).
  - pose proof (path_depth _ _ xpub_meta (fun z : XPub (backend b L) => compress L (xpub_key z)) (fun i => i)
      (fun _ => True) (slip10_pub_child fuel) (fun u v i _ E => conj (B fuel u v i E) I) p x y I H) as [D _].
    split; [exact D|]. split.
    + intros Hp. eapply depth_nz; [exact D|]. destruct p; [congruence|cbn [length]; lia].
    + intros q i Q. exact (path_last _ _ xpub_meta (fun z : XPub (backend b L) => compress L (xpub_key z)) (fun i => i)
        (fun _ => True) (slip10_pub_child fuel) (fun u v i _ E => conj (B fuel u v i E) I) p x y q i I H Q).
Qed.
Print Assumptions C40_slip10_paths.

(** The parent's fingerprint is taken of the 33 bytes SLIP-0010 gives a public key
    of ed25519. *)
Theorem C40_ed25519_paths dbg D (HD : ed_laws D) fuel (x y : XPrv (Ed25519DalekBackend D)) p :
  length (xprv_key x) = 32%nat -> Forall (fun i => 2 ^ 31 <= i) p ->
  slip10_hardened_path dbg fuel x (mkHP p) = Some (Ok y) ->
  b2n (m_depth (xprv_meta y)) = N.min 255 (b2n (m_depth (xprv_meta x)) + N.of_nat (length p)) /\
  (p <> [] -> m_depth (xprv_meta y) <> x00) /\
  forall q i, p = q ++ [i] -> exists z, slip10_hardened_path dbg fuel x (mkHP q) = Some (Ok z) /\
    describes (xprv_meta z) (x00 :: ed_raw D (ed_verifying D (xprv_key z))) i (xprv_meta y).
Proof.
  intros K F H.
  assert (P : forall l, Forall (fun i => 2 ^ 31 <= i) l -> forall z : XPrv (Ed25519DalekBackend D),
     slip10_hardened_path dbg fuel z (mkHP l) = path_loop (slip10_hardened_child fuel) z (map mkHC l)).
  { intros l Fl z. unfold slip10_hardened_path, hpath_children. cbn [hp_inner].
    rewrite hchildren_ok; [reflexivity|]. eapply Forall_impl; [|exact Fl]. intros i Hi.
    rewrite hardened_eq. apply N.leb_le. exact Hi. }
  set (pk := fun z : XPrv (Ed25519DalekBackend D) => x00 :: ed_raw D (ed_verifying D (xprv_key z))).
  set (ok := fun z : XPrv (Ed25519DalekBackend D) => length (xprv_key z) = 32%nat).
  assert (A : forall (u v : XPrv (Ed25519DalekBackend D)) c, ok u -> slip10_hardened_child fuel u c = Some (Ok v) ->
     describes (xprv_meta u) (pk u) (hc_child c) (xprv_meta v) /\ ok v).
  { intros u v [c] Ou E. destruct fuel as [|f].
    - rewrite hardened_child_loop in E by exact Ou. discriminate.
    - destruct (proj1 (proj2 (C49_ed25519_total dbg D HD)) f u c Ou) as [S1 S2]. rewrite S1 in E.
      injection E as <-. split; [|exact S2]. cbn [xprv_meta hc_child]. split; [|split; reflexivity].
      apply sat_succ_val. }
  rewrite (P p F) in H.
  destruct (path_depth _ _ xprv_meta pk hc_child ok _ A _ _ _ K H) as [E _]. rewrite map_length in E.
  split; [exact E|]. split.
  - intros Hp. eapply depth_nz; [exact E|]. destruct p; [congruence|cbn [length]; lia].
  - intros q i ->. apply Forall_app in F as [Fq _]. rewrite (P q Fq).
    apply (path_last _ _ xprv_meta pk hc_child ok _ A _ _ _ _ (mkHC i) K H).
    rewrite map_app. reflexivity.
Qed.
Print Assumptions C40_ed25519_paths.

(** ** C43 *)
Lemma slip10_reachable_wf dbg b L (HL : ec_laws L) fuel seed p (m x : XPrv (backend b L)) :
  Forall (fun i => i < 2 ^ 32) p ->
  new_slip10 dbg fuel (backend b L) seed = Some (Ok m) -> slip10_prv_path fuel m p = Some (Ok x) ->
  xprv_wf x /\ depth_rule (xprv_meta x).
Proof.
  intros F Hm Hp. assert (IM : xprv_wf m /\ depth_rule (xprv_meta m)).
  { unfold new_slip10 in Hm. destruct (master_spec dbg (backend b L) fuel seed) as [(j & k & _ & [E _] & R)|[_ R]].
    - rewrite R in Hm. injection Hm as <-. apply (prv_from_iff L) in E as [_ V].
      + split; [|intros _; split; reflexivity]. split; [|exact V].
        split; [reflexivity|]. split; [reflexivity|]. destruct j; apply right_length.
      + destruct j; apply left_length.
    - rewrite R in Hm. discriminate. }
  clear Hm. revert m IM Hp. induction p as [|i p IH]; intros m IM Hp; unfold slip10_prv_path in Hp;
    cbn [path_loop] in Hp.
  - injection Hp as <-. exact IM.
  - inversion F as [|? ? Fi Fp]; subst.
    destruct (slip10_prv_child fuel m i) as [[y|e|]|] eqn:E; try discriminate.
    apply (IH Fp y); [|exact Hp].
    rewrite prv_child_loop in E; [|apply be_bytes_length|apply (compress_length L HL)].
    match type of E with omap _ (slip10_loop ?f ?c ?t (child_to_bytes i) ?d) = _ =>
      destruct (loop_spec t c i f d) as [(j & k & _ & [K _] & R)|[_ R]] end; rewrite R in E; [|discriminate].
    cbn [omap] in E. injection E as <-. split; [|apply child_depth_rule]. split.
    + apply child_meta_wf; [exact Fi|]. destruct j; apply right_length.
    + cbn [xprv_key]. apply (prv_tweak_iff L HL) in K as (_ & -> & NZ). split; [lia|].
      apply N.mod_lt. exact (order_nz L HL).
Qed.

Theorem C43_slip10_export dbg b L (HL : ec_laws L) fuel seed p (m x : XPrv (backend b L)) :
  Forall (fun i => i < 2 ^ 32) p ->
  new_slip10 dbg fuel (backend b L) seed = Some (Ok m) -> slip10_prv_path fuel m p = Some (Ok x) ->
  depth_rule (xprv_meta x) /\
  (forall n, In n known_private ->
     exists q t, xprv_encode_with x (Private n) = Ok q /\ payload_show q = Ok t /\
       xprv_parse dbg (backend b L) t = Ok x) /\
  (forall n, In n known_public ->
     exists q t, xpub_encode_with (xprv_public x) (Public n) = Ok q /\ payload_show q = Ok t /\
       xpub_parse dbg (backend b L) t = Ok (xprv_public x)).
Proof.
  intros F Hm Hp.
  destruct (slip10_reachable_wf dbg b L HL fuel seed p m x F Hm Hp) as [W D]. split; [exact D|].
  assert (DIS : forall r, In r known_public -> In r known_private -> False).
  { intros r A B. cbn in A. repeat destruct A as [<-|A]; try contradiction;
      cbn in B; repeat destruct B as [B|B]; discriminate || contradiction. }
  assert (BND : forall r, In r known_public \/ In r known_private -> r < 2 ^ 32).
  { intros r [H|H]; cbn in H; repeat destruct H as [<-|H]; reflexivity || contradiction. }
  split.
  - intros n Hn. exists (prv_payload L x (Private n)).
    destruct (prv_roundtrip L HL dbg b x (Private n) W D) as (t & T & P);
      [apply BND; right; exact Hn|reflexivity|intros Q; exact (DIS n Q Hn)|].
    exists t. split; [apply prv_encode_eq; reflexivity|]. split; assumption.
  - intros n Hn. exists (pub_payload L (xprv_public x) (Public n)).
    destruct (pub_roundtrip L HL dbg b (xprv_public x) (Public n) (xprv_public_wf L HL b x W) D)
      as (t & T & P); [apply BND; left; exact Hn|reflexivity|intros Q; exact (DIS n Hn Q)|].
    exists t. split; [apply pub_encode_eq; reflexivity|]. split; assumption.
Qed.
Print Assumptions C43_slip10_export.

(** ** C56 *)
Theorem C56_slip10_export dbg b L : implements b L ->
  forall fuel seed (p : list N) (m x : XPrv (backend b L)), Forall (fun i => i < 2 ^ 32) p ->
  new_slip10 dbg fuel (backend b L) seed = Some (Ok m) -> slip10_prv_path fuel m p = Some (Ok x) ->
  (forall n, In n known_private ->
     exists q t, xprv_encode_with x (Private n) = Ok q /\ payload_show q = Ok t /\
       xprv_parse dbg (backend b L) t = Ok x) /\
  (forall n, In n known_public ->
     exists q t, xpub_encode_with (xprv_public x) (Public n) = Ok q /\ payload_show q = Ok t /\
       xpub_parse dbg (backend b L) t = Ok (xprv_public x)).
Proof.
  intros IM fuel seed p m x F Hm Hp.
  assert (HL : ec_laws L) by (destruct IM; [apply C55_secp256k1|apply C55_secp256k1|apply C55_nist256p1]).
  exact (proj2 (C43_slip10_export dbg b L HL fuel seed p m x F Hm Hp)).
Qed.
Print Assumptions C56_slip10_export.

(** Keys the theorems speak of. *)
Example C40_slip10_case :
  match new_slip10 true 1 (backend K256 Cyclic) (unhex "000102030405060708090a0b0c0d0e0f") with
  | Some (Ok m) =>
      match slip10_prv_path 1 m [2147483648; 1] with
      | Some (Ok y) => (b2n (m_depth (xprv_meta y)) =? 2) && (m_child (xprv_meta y) =? 1) &&
          match slip10_pub_path 1 (xprv_public m) [1; 7] with
          | Some (Ok z) => (b2n (m_depth (xpub_meta z)) =? 2) && (m_child (xpub_meta z) =? 7)
          | _ => false end
      | _ => false end
  | _ => false end = true.
Proof. vm_cast_no_check (eq_refl true). Qed.
Print Assumptions C40_slip10_case.

Example C40_ed25519_case :
  match new_slip10 true 1 (Ed25519DalekBackend ToyEd) (unhex "000102030405060708090a0b0c0d0e0f") with
  | Some (Ok m) => (length (xprv_key m) =? 32)%nat &&
      match slip10_hardened_path true 1 m (mkHP [2147483648; 2147483655]) with
      | Some (Ok y) => (b2n (m_depth (xprv_meta y)) =? 2) && (m_child (xprv_meta y) =? 2147483655)
      | _ => false end
  | _ => false end = true.
Proof. vm_cast_no_check (eq_refl true). Qed.
Print Assumptions C40_ed25519_case.
