(** Property theorems for the bip0032 crate, third part: ed25519, errors, drop code
    and payload conversions (C49-C51, C54). *)
From Verif Require Import Base Str Sha2 Ripemd Error32 Version32 Path32 PathProofs32 Meta32 Payload32
  Base58Spec Base58Proofs PayloadSpec32 PayloadProofs32 Curve32 XKey32 Slip10 XKeySpec32 XKeyProofs32
  SlipProofs32 Cyclic32 Eqb32 Props32 Props32k.

(** ** C49 *)
(** One hardened step of SLIP-0010 on ed25519. *)
Definition ed_step (D : EdLib) (k chain : list byte) (i : N) : list byte :=
  hmac_sha512 chain ([x00] ++ k ++ be_bytes 4 i).

Theorem C49_ed25519_total dbg D (HD : ed_laws D) :
  (forall fuel seed, let I := hmac_sha512 (bytes_of "ed25519 seed") seed in
     new_slip10 dbg (S fuel) (Ed25519DalekBackend D) seed =
       Some (Ok (@mkXPrv (Ed25519DalekBackend D)
              {| m_depth := x00; m_fingerprint := [x00; x00; x00; x00]; m_child := 0; m_chain := skipn 32 I |}
              (firstn 32 I)))) /\
  (forall fuel (x : XPrv (Ed25519DalekBackend D)) i, length (xprv_key x) = 32%nat ->
     let I := ed_step D (xprv_key x) (m_chain (xprv_meta x)) i in
     slip10_hardened_child (S fuel) x (mkHC i) =
       Some (Ok (@mkXPrv (Ed25519DalekBackend D)
              (derived (xprv_meta x) (x00 :: ed_raw D (ed_verifying D (xprv_key x))) i (skipn 32 I))
              (firstn 32 I))) /\
     length (firstn 32 I) = 32%nat) /\
  (forall fuel p (x : XPrv (Ed25519DalekBackend D)), length (xprv_key x) = 32%nat ->
     Forall (fun i => 2 ^ 31 <= i) p ->
     exists y, slip10_hardened_path dbg (S fuel) x (mkHP p) = Some (Ok y) /\
       (forall fuel', slip10_hardened_path dbg (S fuel') x (mkHP p) = Some (Ok y)) /\
       (xprv_key y, m_chain (xprv_meta y)) =
         fold_left (fun '(k, c) i => (firstn 32 (ed_step D k c i), skipn 32 (ed_step D k c i))) p
           (xprv_key x, m_chain (xprv_meta x))) /\
  (forall k, length (pub_to_bytes (Ed25519DalekBackend D) k) = 33%nat /\
     pub_to_bytes (Ed25519DalekBackend D) k = x00 :: ed_raw D k).
Proof.
  assert (STEP : forall fuel (x : XPrv (Ed25519DalekBackend D)) i, length (xprv_key x) = 32%nat ->
     let I := ed_step D (xprv_key x) (m_chain (xprv_meta x)) i in
     slip10_hardened_child (S fuel) x (mkHC i) =
       Some (Ok (@mkXPrv (Ed25519DalekBackend D)
              (derived (xprv_meta x) (x00 :: ed_raw D (ed_verifying D (xprv_key x))) i (skipn 32 I))
              (firstn 32 I))) /\
     length (firstn 32 I) = 32%nat).
  { intros fuel x i Lk I. split; [|apply left_length]. rewrite hardened_child_loop by exact Lk.
    cbn [slip10_loop hc_child]. rewrite hmac_split_eq. reflexivity. }
  split; [|split; [exact STEP|split]].
  - intros fuel seed I. unfold new_slip10. cbn [slip10_master_loop]. unfold derive_master_key_parts.
    rewrite hmac_split_eq. reflexivity.
  - intros fuel p x Lk F.
    assert (HC : hpath_children dbg (mkHP p) = @Ok Error _ (map mkHC p)).
    { unfold hpath_children. cbn [hp_inner]. clear -F. induction F as [|i p Hi F IH]; [reflexivity|].
      cbn [hchildren map]. unfold from_child_unchecked. rewrite hardened_eq.
      replace (2 ^ 31 <=? i) with true by lia. cbn [negb]. rewrite andb_false_r. cbn [bind].
      rewrite IH. reflexivity. }
    unfold slip10_hardened_path. rewrite HC. cbn [obind].
    clear F HC. revert x Lk. induction p as [|i p IH]; intros x Lk; cbn [map path_loop fold_left].
    + exists x. auto.
    + destruct (STEP fuel x i Lk) as [E L2].
      match type of E with _ = Some (Ok ?z) => destruct (IH z L2) as (y & A & B & C) end.
      exists y. rewrite E. split; [exact A|]. split; [|exact C].
      intros fuel'. destruct (STEP fuel' x i Lk) as [-> _]. apply B.
  - intros k. cbn [Ed25519DalekBackend pub_to_bytes length]. rewrite (raw_length D HD). split; reflexivity.
Qed.
Print Assumptions C49_ed25519_total.

Theorem C49_slip10_bytes :
  (forall raw, length raw = 32%nat ->
     ed25519_pubkey_to_slip10_bytes raw = Ok (x00 :: raw) /\
     ed25519_pubkey_from_slip10_bytes (x00 :: raw) = Ok raw) /\
  (forall b, length b = 33%nat ->
     (forall raw, ed25519_pubkey_from_slip10_bytes b = Ok raw <-> b = x00 :: raw) /\
     (hd x00 b <> x00 -> exists s, ed25519_pubkey_from_slip10_bytes b = Err s)) /\
  (forall D (HD : ed_laws D) b k, length b = 33%nat ->
     pub_from_bytes (Ed25519DalekBackend D) b = inr k ->
     hd x01 b = x00 /\ pub_to_bytes (Ed25519DalekBackend D) k = b) /\
  (forall D (HD : ed_laws D) s, length s = 32%nat ->
     let k := prv_to_public (Ed25519DalekBackend D) s in
     pub_from_bytes (Ed25519DalekBackend D) (pub_to_bytes (Ed25519DalekBackend D) k) = inr k).
Proof.
  assert (TO : forall raw, length raw = 32%nat -> ed25519_pubkey_to_slip10_bytes raw = Ok (x00 :: raw)).
  { intros raw Lr. unfold ed25519_pubkey_to_slip10_bytes. change (zeros 33) with ([x00] ++ zeros (33 - 1)).
    rewrite put_next; [|reflexivity|lia|exact Lr]. change (zeros (33 - 33)) with (@nil byte).
    rewrite app_nil_r. reflexivity. }
  assert (FROM : forall raw, length raw = 32%nat -> ed25519_pubkey_from_slip10_bytes (x00 :: raw) = Ok raw).
  { intros raw Lr. unfold ed25519_pubkey_from_slip10_bytes. cbn [nth skipn]. change (b2n x00 =? 0) with true.
    cbn [negb]. apply put_whole. exact Lr. }
  split; [|split; [|split]].
  - intros raw Lr. auto.
  - intros [|h t] Lb; [discriminate|]. cbn [length] in Lb. assert (Lt : length t = 32%nat) by lia. cbn [hd].
    destruct (b2n h =? 0) eqn:E.
    + apply byte_zero in E. subst h. split; [|congruence]. intros raw. rewrite (FROM t Lt).
      split; intros H; injection H as <-; reflexivity.
    + assert (ER : ed25519_pubkey_from_slip10_bytes (h :: t) = Err (SText ED_PREFIX)).
      { unfold ed25519_pubkey_from_slip10_bytes. cbn [nth]. rewrite E. reflexivity. }
      rewrite ER. split; [|eauto]. intros raw. split; [discriminate|]. intros H. injection H as -> _. discriminate.
  - intros D HD [|h t] k Lb H; [discriminate|]. cbn [length] in Lb.
    cbn [Ed25519DalekBackend pub_from_bytes pub_to_bytes] in *. unfold dalek_public in H.
    cbn [nth] in H. destruct (b2n h =? 0) eqn:E; [|discriminate]. cbn [negb] in H.
    apply byte_zero in E. subst h. cbn [skipn] in H. rewrite ?skipn_O in H.
    destruct (ed_parse D t) as [q|] eqn:P; [|discriminate]. injection H as <-.
    split; [reflexivity|]. f_equal. apply (raw_parse D HD); [lia|exact P].
  - intros D HD s Ls k. cbn [Ed25519DalekBackend pub_from_bytes pub_to_bytes]. unfold dalek_public.
    cbn [nth skipn]. change (b2n x00 =? 0) with true. cbn [negb]. subst k.
    cbn [Ed25519DalekBackend prv_to_public]. rewrite (parse_verifying D HD s Ls). reflexivity.
Qed.
Print Assumptions C49_slip10_bytes.

Example C49_case : ed_laws ToyEd /\
  match new_slip10 true 1 (Ed25519DalekBackend ToyEd) (unhex "000102030405060708090a0b0c0d0e0f") with
  | Some (Ok x) =>
      bytes_eqb (xprv_key x) (unhex "2b4be7f19ee27bbf30c667b642d5f4aa69fd169872f8fc3059c08ebae2eb19e7") &&
      match slip10_hardened_path true 1 x (mkHP [2 ^ 31; 2 ^ 31 + 1]) with
      | Some (Ok y) => bytes_eqb (xprv_key y) (unhex "b1d0bad404bf35da785a64ca1ac54b2617211d2777696fbffaf208f746ae84f2")
      | _ => false end
  | _ => false end = true.
Proof. split; [exact toy_ed_laws|]. vm_cast_no_check (eq_refl true). Qed.

(** ** C50 *)
(** What an error shows, apart from the wrapped library error. *)
Definition report (e : Error) : ErrorKind * str * list (str * str) := (e_kind e, e_message e, e_context e).

(** The public part of a serialised key: everything but the chain code and the 32
    bytes after the key prefix. *)
Definition same_public (b b' : list byte) : Prop :=
  firstn 13 b = firstn 13 b' /\ nth 45 b x00 = nth 45 b' x00.

Lemma same_public_slice (b b' : list byte) i j : (j <= 13)%nat -> firstn 13 b = firstn 13 b' -> slice i j b = slice i j b'.
Proof.
  intros Hj E. unfold slice.
  assert (H : forall d : list byte, firstn (j - i) (skipn i d) = firstn (j - i) (skipn i (firstn 13 d))).
  { intros d. rewrite skipn_firstn_comm, firstn_firstn. f_equal. lia. }
  rewrite (H b), (H b'), E. reflexivity.
Qed.
Lemma same_public_nth (b b' : list byte) : firstn 13 b = firstn 13 b' -> nth 4 b x00 = nth 4 b' x00.
Proof.
  intros E. assert (H : forall d : list byte, nth 4 d x00 = nth 4 (firstn 13 d) x00).
  { intros d. do 5 (destruct d as [|? d]; [reflexivity|]). reflexivity. }
  rewrite (H b), (H b'), E. reflexivity.
Qed.
Lemma payload_version_ext raw k k' : nth 0 k x00 = nth 0 k' x00 -> payload_version raw k = payload_version raw k'.
Proof. intros E. unfold payload_version. rewrite E. reflexivity. Qed.
Lemma nth_slice45 b : length b = 78%nat -> nth 0 (slice 45 78 b) x00 = nth 45 b x00.
Proof.
  intros L. unfold slice. rewrite <- (firstn_skipn 45 b) at 2.
  assert (L1 : length (firstn 45 b) = 45%nat) by (rewrite firstn_length; lia).
  rewrite app_nth2 by lia. rewrite L1, Nat.sub_diag.
  assert (L2 : length (skipn 45 b) = 33%nat) by (rewrite skipn_length; lia).
  destruct (skipn 45 b); [discriminate|reflexivity].
Qed.

Theorem C50_errors_public dbg b L (HL : ec_laws L) :
  (forall (x x' : XPrv (backend b L)) i e e',
     xprv_derive_child dbg x i = Err e -> xprv_derive_child dbg x' i = Err e' -> report e = report e') /\
  (forall (x x' : XPub (backend b L)) i e e',
     xpub_derive_child dbg x i = Err e -> xpub_derive_child dbg x' i = Err e' -> report e = report e') /\
  (forall fuel fuel' (x x' : XPub (backend b L)) i e e',
     slip10_pub_child fuel x i = Some (Err e) -> slip10_pub_child fuel' x' i = Some (Err e') ->
     report e = report e') /\
  (forall fuel (x : XPrv (backend b L)) i e, slip10_prv_child fuel x i <> Some (Err e)) /\
  (forall seed seed' e e', length seed = length seed' ->
     xprv_new dbg (backend b L) seed = Err e -> xprv_new dbg (backend b L) seed' = Err e' ->
     report e = report e') /\
  (forall fuel seed e, new_slip10 dbg fuel (backend b L) seed <> Some (Err e)) /\
  (forall s s' d d' e e',
     length d = 78%nat -> length d' = 78%nat -> is_base58check d s -> is_base58check d' s' -> same_public d d' ->
     (payload_parse dbg s = Err e -> payload_parse dbg s' = Err e' -> report e = report e') /\
     (xprv_parse dbg (backend b L) s = Err e -> xprv_parse dbg (backend b L) s' = Err e' ->
        report e = report e') /\
     (xpub_parse dbg (backend b L) s = Err e -> xpub_parse dbg (backend b L) s' = Err e' ->
        report e = report e')).
Proof.
  split; [|split; [|split; [|split; [|split; [|split]]]]].
  - intros x x' i e e'. rewrite !derive_child_eq by apply be_bytes_length. cbv zeta.
    destruct (prv_add_tweak _ _ _); [|discriminate]. intros H. injection H as <-.
    destruct (prv_add_tweak _ _ _); [|discriminate]. intros H. injection H as <-. reflexivity.
  - intros x x' i e e'. rewrite !derive_pub_eq. destruct (2 ^ 31 <=? i).
    + intros H H'. injection H as <-. injection H' as <-. reflexivity.
    + cbv zeta. destruct (pub_add_tweak _ _ _); [|discriminate]. intros H. injection H as <-.
      destruct (pub_add_tweak _ _ _); [|discriminate]. intros H. injection H as <-. reflexivity.
  - intros fuel fuel' x x' i e e'. rewrite !pub_child_loop by apply (compress_length L HL).
    destruct (2 ^ 31 <=? i).
    + intros H H'. injection H as <-. injection H' as <-. reflexivity.
    + intros H _. match type of H with context [slip10_loop fuel ?c ?t ?cb ?d] =>
        destruct (loop_spec t c i fuel d) as [(j & k & _ & _ & El)|[_ El]]; rewrite El in H end; discriminate.
  - intros fuel x i e H. rewrite prv_child_loop in H; [|apply be_bytes_length|apply (compress_length L HL)].
    match type of H with context [slip10_loop fuel ?c ?t ?cb ?d] =>
      destruct (loop_spec t c i fuel d) as [(j & k & _ & _ & El)|[_ El]]; rewrite El in H end; discriminate.
  - intros seed seed' e e' E. rewrite !xprv_new_eq. cbv zeta.
    destruct (prv_from_bytes _ _); [|discriminate]. intros H. injection H as <-.
    destruct (prv_from_bytes _ _); [|discriminate]. intros H. injection H as <-.
    unfold report, master_error. cbn [e_kind e_message e_context]. rewrite E. reflexivity.
  - intros fuel seed e H. unfold new_slip10 in H.
    destruct (master_spec dbg (backend b L) fuel seed) as [(j & k & _ & _ & El)|[_ El]]; rewrite El in H; discriminate.
  - intros s s' d d' e e' Ld Ld' B B' [E1 E2].
    assert (PP : forall t z, length z = 78%nat -> is_base58check z t -> payload_parse dbg t = parse_payload z).
    { intros t z Lz Bz. apply payload_parse_bytes; assumption. }
    unfold xprv_parse, xpub_parse. rewrite (PP s d Ld B), (PP s' d' Ld' B').
    rewrite !parse_payload_long by assumption.
    assert (K0 : nth 0 (slice 45 78 d) x00 = nth 0 (slice 45 78 d') x00).
    { rewrite !nth_slice45 by assumption. exact E2. }
    rewrite (same_public_nth _ _ E1), !(same_public_slice d d') by (lia || exact E1).
    rewrite (payload_version_ext _ _ _ K0).
    destruct (check_depth_zero _ _ _) as [[]|e0|]; cbn [bind].
    2:{ repeat split; intros H H'; injection H as <-; injection H' as <-; reflexivity. }
    2:{ repeat split; discriminate. }
    destruct (payload_version _ _) as [v|e0|]; cbn [bind].
    2:{ repeat split; intros H H'; injection H as <-; injection H' as <-; reflexivity. }
    2:{ repeat split; discriminate. }
    split; [discriminate|]. split.
    + rewrite !prv_try_from_eq by (cbn [p_key]; rewrite slice_len; lia). cbn [p_version p_key].
      destruct v as [v|v].
      * intros H H'. injection H as <-. injection H' as <-. reflexivity.
      * destruct (prv_from_bytes _ _); [|discriminate]. intros H. injection H as <-.
        destruct (prv_from_bytes _ _); [|discriminate]. intros H. injection H as <-.
        unfold report. cbn [e_kind e_message e_context].
        assert (HN : forall z : list byte, hd x00 z = nth 0 z x00) by (intros []; reflexivity).
        rewrite !HN, K0. reflexivity.
    + rewrite !pub_try_from_eq. cbn [p_version p_key]. destruct v as [v|v].
      * destruct (pub_from_bytes _ _); [|discriminate]. intros H. injection H as <-.
        destruct (pub_from_bytes _ _); [|discriminate]. intros H. injection H as <-.
        unfold report. cbn [e_kind e_message e_context]. rewrite K0. reflexivity.
      * intros H H'. injection H as <-. injection H' as <-. reflexivity.
Qed.
Print Assumptions C50_errors_public.

(** A failing path derivation shows the child number of the failing step only. *)
Theorem C50_path_errors dbg b L (HL : ec_laws L) p e :
  (forall x : XPrv (backend b L), xprv_derive_path dbg x p = Err e -> exists i, In i p /\
     report e = (InvalidDerivation, lit "invalid child private key",
       [(lit "child_index", dec (N.land i (2 ^ 31 - 1)));
        (lit "hardened", lit (if 2 ^ 31 <=? i then "true" else "false"))])) /\
  (forall x : XPub (backend b L), xpub_derive_path dbg x p = Err e -> exists i, In i p /\
     report e = (InvalidDerivation,
       (if 2 ^ 31 <=? i then lit "cannot derive hardened child from public key"
        else lit "invalid child public key"),
       [(lit "child_index", dec (N.land i (2 ^ 31 - 1)));
        (lit "hardened", lit (if 2 ^ 31 <=? i then "true" else "false"))])).
Proof.
  split; induction p as [|i p IH]; intros x H; try discriminate.
  - cbn [xprv_derive_path] in H. rewrite derive_child_eq in H by apply be_bytes_length. cbv zeta in H.
    destruct (prv_add_tweak _ _ _) as [s|k]; cbn [bind] in H.
    + injection H as <-. exists i. split; [left; reflexivity|]. reflexivity.
    + destruct (IH _ H) as (j & Hj & R). exists j. split; [right; exact Hj|exact R].
  - cbn [xpub_derive_path] in H. rewrite derive_pub_eq in H. destruct (2 ^ 31 <=? i) eqn:E.
    + cbn [bind] in H. injection H as <-. exists i. rewrite E. split; [left; reflexivity|]. reflexivity.
    + cbv zeta in H. destruct (pub_add_tweak _ _ _) as [s|k]; cbn [bind] in H.
      * injection H as <-. exists i. rewrite E. split; [left; reflexivity|]. reflexivity.
      * destruct (IH _ H) as (j & Hj & R). exists j. split; [right; exact Hj|exact R].
Qed.
Print Assumptions C50_path_errors.

(** Two failing parses: private keys 0 and n, with different chain codes. *)
Example C50_case :
  let p k c := {| p_version := Private 0x0488ADE4;
                  p_meta := {| m_depth := x01; m_fingerprint := [x34; x42; x19; x3e];
                               m_child := 7; m_chain := repeat c 32 |};
                  p_key := x00 :: be_bytes 32 k |} in
  match payload_show (p 0 x01), payload_show (p (order Cyclic) x02) with
  | Ok s, Ok s' =>
      match xprv_parse true (backend K256 Cyclic) s, xprv_parse true (backend K256 Cyclic) s' with
      | Err e, Err e' => negb (str_eqb s s') && error_eqb e e' && kind_eqb (e_kind e) InvalidKeyData
      | _, _ => false end
  | _, _ => false end = true.
Proof. vm_cast_no_check (eq_refl true). Qed.

(** ** C51 *)
Theorem C51_drop_wipes :
  (forall m, meta_wf m -> meta_zeroize m =
     {| m_depth := x00; m_fingerprint := repeat x00 4; m_child := 0; m_chain := repeat x00 32 |}) /\
  (forall p, payload_wf p -> payload_drop p =
     {| p_version := p_version p;
        p_meta := {| m_depth := x00; m_fingerprint := repeat x00 4; m_child := 0; m_chain := repeat x00 32 |};
        p_key := repeat x00 33 |}) /\
  (forall L (x : XPrv (Secp256k1FfiBackend L)), meta_wf (xprv_meta x) ->
     xprv_meta (xprv_drop x) =
       {| m_depth := x00; m_fingerprint := repeat x00 4; m_child := 0; m_chain := repeat x00 32 |} /\
     be_bytes 32 (xprv_key (xprv_drop x)) = repeat x01 32) /\
  (forall C (x : XPrv C), meta_wf (xprv_meta x) ->
     xprv_meta (xprv_drop x) =
       {| m_depth := x00; m_fingerprint := repeat x00 4; m_child := 0; m_chain := repeat x00 32 |}).
Proof.
  assert (Z : forall n (l : list byte), length l = n -> map (fun _ => x00) l = repeat x00 n).
  { intros n l <-. induction l as [|a l IH]; [reflexivity|]. cbn [map length repeat]. rewrite IH. reflexivity. }
  assert (M : forall m, meta_wf m -> meta_zeroize m =
     {| m_depth := x00; m_fingerprint := repeat x00 4; m_child := 0; m_chain := repeat x00 32 |}).
  { intros m (_ & _ & H). unfold meta_zeroize. rewrite (Z 32%nat _ H). reflexivity. }
  split; [exact M|]. split; [|split].
  - intros p (_ & W & H). unfold payload_drop. rewrite (M _ W), (Z 33%nat _ H). reflexivity.
  - intros L x W. split; [apply M; exact W|]. vm_compute. reflexivity.
  - intros C x W. apply M. exact W.
Qed.
Print Assumptions C51_drop_wipes.

Example C51_case : payload_wf ex_payload /\ m_chain (p_meta ex_payload) <> repeat x00 32 /\
  p_key ex_payload <> repeat x00 33.
Proof. split; [repeat split|]. split; intros H; vm_compute in H; discriminate. Qed.

(** ** C54 *)
Theorem C54_payload_conversions dbg b L (HL : ec_laws L) s p : payload_parse dbg s = Ok p ->
  (is_private (p_version p) = true ->
     (exists e, xpub_try_from dbg (backend b L) p = Err e /\ e_kind e = InvalidVersion) /\
     let k := be_val (skipn 1 (p_key p)) in
     (0 < k < order L ->
        exists x, xprv_try_from dbg (backend b L) p = Ok x /\ xprv_meta x = p_meta p /\ xprv_key x = k) /\
     (k = 0 \/ order L <= k ->
        exists e, xprv_try_from dbg (backend b L) p = Err e /\ e_kind e = InvalidKeyData)) /\
  (is_public (p_version p) = true ->
     (exists e, xprv_try_from dbg (backend b L) p = Err e /\ e_kind e = InvalidVersion) /\
     (forall K, K <> infinity L -> compress L K = p_key p ->
        exists x, xpub_try_from dbg (backend b L) p = Ok x /\ xpub_meta x = p_meta p /\ xpub_key x = K) /\
     ((forall K, K <> infinity L -> compress L K <> p_key p) ->
        exists e, xpub_try_from dbg (backend b L) p = Err e /\ e_kind e = InvalidKeyData)) /\
  is_public (p_version p) = negb (is_private (p_version p)).
Proof.
  intros H. apply payload_parse_iff in H as ((_ & _ & Lk) & _ & _ & R). split; [|split].
  - intros V. destruct (p_version p) as [v|v] eqn:Ev; [discriminate|]. split.
    + rewrite pub_try_from_eq, Ev. eexists. split; reflexivity.
    + intros k. rewrite prv_try_from_eq, Ev by exact Lk.
      assert (Lt : length (tl (p_key p)) = 32%nat) by (destruct (p_key p); cbn in *; lia).
      assert (Et : skipn 1 (p_key p) = tl (p_key p)) by (destruct (p_key p); reflexivity).
      unfold k. rewrite Et. split.
      * intros Hk. rewrite (proj2 (prv_from_iff L b _ (be_val (tl (p_key p))) Lt)) by (split; [reflexivity|exact Hk]).
        eexists. split; [reflexivity|]. split; reflexivity.
      * intros Hk. destruct (prv_from_bytes _ _) as [e|k'] eqn:E.
        -- eexists. split; reflexivity.
        -- apply prv_from_iff in E as [-> [V1 V2]]; [lia|exact Lt].
  - intros V. destruct (p_version p) as [v|v] eqn:Ev; [|discriminate].
    assert (HT : hd x00 (p_key p) = x02 \/ hd x00 (p_key p) = x03).
    { unfold prefix_rule, key_prefix in R. rewrite Ev in R. apply R. }
    split; [|rewrite pub_try_from_eq, Ev; split].
    + rewrite prv_try_from_eq, Ev by exact Lk. eexists. split; reflexivity.
    + intros K HK EK. rewrite (proj2 (pub_from_iff L HL b (p_key p) K Lk HT)) by (split; assumption).
      eexists. split; [reflexivity|]. split; reflexivity.
    + intros N. destruct (pub_from_bytes _ _) as [e|K] eqn:E; [eexists; split; reflexivity|].
      apply (pub_from_iff L HL) in E as [V1 V2]; [|exact Lk|exact HT]. elim (N K V1 V2).
  - destruct (p_version p); reflexivity.
Qed.
Print Assumptions C54_payload_conversions.

Example C54_case : payload_parse true ex_xprv = Ok ex_payload /\ is_private (p_version ex_payload) = true.
Proof. split; [eval_by run_payload|reflexivity]. Qed.
