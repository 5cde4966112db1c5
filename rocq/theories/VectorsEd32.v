(** Public keys of the first three nodes of the first test vector of slip10/ed25519.rs, on the real curve.  These
    are tests of the model, not property theorems.  The digits are generated; they are
    checked here. *)
From Coq Require Import ZArith.
From Verif Require Import Base Str Sha2 Error32 Path32 Meta32 Curve32 XKey32 Slip10 Eqb32 Props32k Props32s
  PrimeCertsEd Fp EdCurve CurveCert EdCert Ed25519 Dalek25519.
Open Scope Z_scope.

Lemma dalek_encode strict seed start digits k x y bytes :
  le_val (clamp (firstn 32 (sha512 seed))) = k ->
  ext_is ed25519_p ed25519_mul (ed25519_run start digits) x y = true ->
  2 ^ Z.of_nat start + weigh (2 ^ Z.of_nat (S start)) digits = Z.of_N k ->
  bytes_eqb (le_bytes 32 (Z.to_N (y mod ed25519_p + signed (Z.odd (x mod ed25519_p))))) bytes = true ->
  ed_raw (Ed25519Dalek strict) (ed_verifying (Ed25519Dalek strict) seed) = bytes.
Proof.
  intros HK HR HD HB. apply bytes_eqb_eq in HB. rewrite <- HB.
  cbn [Ed25519Dalek ed_raw ed_verifying key_bytes]. unfold ed_compress, ecompress, dalek_point, dalek_scalar.
  rewrite HK, ed25519_times_mod, (ed25519_multiple start digits k x y HR HD), !val_of_Z. reflexivity.
Qed.

Definition ed25519_k0_digits : list Z := [0; 1; 0; -1; 0; 0; 0; -1; 0; 0; -1; 0; 1; 0; 0; -1; 0; -1; 0; -1; 0; 1; 0; 1; 0; 1; 0; 0; -1; 0; 0; 0; 0; 0; 0; 0; 0; 0; -1; 0; 1; 0; -1; 0; 0; 0; 0; 0; 0; 0; 1; 0; 1; 0; 0; -1; 0; 1; 0; 0; 1; 0; 0; 0; 0; 1; 0; 0; 0; -1; 0; 0; 0; -1; 0; 0; 1; 0; 0; -1; 0; 1; 0; 0; 1; 0; -1; 0; 0; 0; 1; 0; 1; 0; 0; -1; 0; 0; 0; -1; 0; 0; 1; 0; 0; -1; 0; 0; 0; -1; 0; 0; 0; 0; 1; 0; 1; 0; 0; 1; 0; -1; 0; 0; 1; 0; -1; 0; -1; 0; 1; 0; 0; 0; 1; 0; 0; 1; 0; -1; 0; -1; 0; 0; 0; 1; 0; 1; 0; -1; 0; 0; 0; 1; 0; -1; 0; -1; 0; -1; 0; 0; 0; -1; 0; -1; 0; -1; 0; 0; 0; 0; 0; -1; 0; 0; 1; 0; 0; 0; 0; 0; -1; 0; 0; 0; -1; 0; -1; 0; -1; 0; 0; 0; 0; 0; -1; 0; 0; 0; 1; 0; 0; 0; -1; 0; -1; 0; 0; 0; 1; 0; 0; 0; 0; 1; 0; 0; 1; 0; 1; 0; -1; 0; -1; 0; 0; 0; -1; 0; 0; 0; -1; 0; -1; 0; -1; 0; 1; 0; -1; 0; 1; 0; -1; 0; 0; 0; 1; 0; 1].
Lemma ed25519_k0 strict :
  ed_raw (Ed25519Dalek strict) (ed_verifying (Ed25519Dalek strict)
    (unhex "2b4be7f19ee27bbf30c667b642d5f4aa69fd169872f8fc3059c08ebae2eb19e7")) =
  unhex "a4b2856bfec510abab89753fac1ac0e1112364e7d250545963f135f2a33188ed".
Proof.
  apply (dalek_encode strict _ 3 ed25519_k0_digits 0x4f32aeed483b0efabc0df5759e9da42ce93de3793d18de21193fcbff2958b7a8
    0x641e7271bb048e65e739f848df9181da677a94eaef06619671d43882bf743e13
    0x6d8831a3f235f163595450d2e7642311e1c01aac3f7589abab10c5fe6b85b2a4).
  - apply N.eqb_eq. vm_cast_no_check (eq_refl true).
  - vm_cast_no_check (eq_refl true).
  - apply Z.eqb_eq. vm_cast_no_check (eq_refl true).
  - vm_cast_no_check (eq_refl true).
Qed.
Definition ed25519_k1_digits : list Z := [1; 0; 0; 0; 0; -1; 0; 0; 0; 1; 0; 1; 0; 1; 0; 1; 0; 0; 0; 0; 0; 0; 1; 0; -1; 0; 0; -1; 0; 0; 1; 0; 0; 0; 1; 0; -1; 0; 0; -1; 0; -1; 0; -1; 0; -1; 0; -1; 0; 1; 0; 1; 0; 1; 0; 1; 0; 1; 0; 1; 0; 0; 0; -1; 0; 0; 1; 0; 1; 0; 0; 0; 0; -1; 0; 1; 0; 0; 0; 0; 1; 0; 0; -1; 0; 0; -1; 0; 0; 1; 0; -1; 0; -1; 0; 1; 0; -1; 0; 0; 0; -1; 0; 1; 0; -1; 0; 1; 0; 0; -1; 0; 0; 0; 1; 0; 1; 0; 0; 1; 0; -1; 0; 0; -1; 0; 1; 0; 0; -1; 0; 0; 0; 0; 0; 0; -1; 0; 1; 0; 0; 1; 0; 0; 1; 0; -1; 0; 0; -1; 0; 0; -1; 0; -1; 0; -1; 0; 0; 0; 0; 0; 1; 0; 1; 0; 0; 0; 1; 0; 0; 0; 0; 1; 0; 0; 0; 0; -1; 0; 1; 0; 1; 0; -1; 0; 0; 0; 0; 0; 0; 0; 0; -1; 0; 0; 0; 0; 0; -1; 0; -1; 0; -1; 0; -1; 0; 0; 1; 0; 0; 0; 0; 1; 0; 0; 1; 0; -1; 0; 0; -1; 0; -1; 0; 0; 0; -1; 0; 1; 0; -1; 0; 1; 0; 0; 1; 0; 1; 0; 0; 0; 0; -1; 0; 0; 0; 0; 0; 0; 0; 1].
Lemma ed25519_k1 strict :
  ed_raw (Ed25519Dalek strict) (ed_verifying (Ed25519Dalek strict)
    (unhex "68e0fe46dfb67e368c75379acec591dad19df3cde26e63b93a8e704f1dade7a3")) =
  unhex "8c8a13df77a28f3445213a0f432fde644acaa215fc72dcdf300d5efaa85d350c".
Proof.
  apply (dalek_encode strict _ 3 ed25519_k1_digits 0x7f851975d20d57dff4c2113eadd22fe2e93c65e59b906138aa955743740a9e18
    0x7bcc9b6ce05cd8ef559975155ed40b0a50d4e6f93d1c328292003a12291a9a8a
    0xc355da8fa5e0d30dfdc72fc15a2ca4a64de2f430f3a2145348fa277df138a8c).
  - apply N.eqb_eq. vm_cast_no_check (eq_refl true).
  - vm_cast_no_check (eq_refl true).
  - apply Z.eqb_eq. vm_cast_no_check (eq_refl true).
  - vm_cast_no_check (eq_refl true).
Qed.
Definition ed25519_k2_digits : list Z := [-1; 0; -1; 0; 0; 0; 0; 0; 0; 1; 0; 0; 1; 0; 0; 1; 0; -1; 0; -1; 0; 0; -1; 0; -1; 0; -1; 0; -1; 0; 1; 0; 0; 0; -1; 0; 0; -1; 0; 0; 1; 0; 1; 0; 1; 0; 0; -1; 0; 0; 0; -1; 0; 0; 0; 1; 0; -1; 0; 0; -1; 0; 0; -1; 0; 0; -1; 0; -1; 0; -1; 0; 1; 0; 1; 0; 0; 1; 0; 0; 0; -1; 0; 1; 0; 0; 1; 0; 0; 0; 0; 1; 0; 1; 0; 0; 1; 0; 1; 0; -1; 0; -1; 0; 0; -1; 0; -1; 0; 1; 0; 0; 0; 0; -1; 0; 0; 0; 1; 0; 1; 0; 0; 0; 0; 0; 0; 0; -1; 0; -1; 0; 0; 0; 0; 0; -1; 0; 1; 0; 0; 0; 0; -1; 0; 0; 1; 0; 0; 1; 0; 1; 0; 1; 0; -1; 0; 0; -1; 0; 1; 0; -1; 0; 1; 0; 0; 0; 0; 0; 1; 0; -1; 0; 0; 0; 0; 0; 0; 0; 1; 0; 1; 0; 0; -1; 0; 0; 1; 0; 0; 0; 1; 0; 1; 0; 0; 0; 1; 0; 0; 1; 0; -1; 0; 1; 0; -1; 0; -1; 0; 1; 0; 0; 0; 1; 0; 1; 0; -1; 0; 1; 0; 0; 0; 1; 0; 0; -1; 0; 0; 0; 1; 0; 0; 1; 0; -1; 0; 1; 0; -1; 0; 0; 0; 0; 0; 1; 0; 1].
Lemma ed25519_k2 strict :
  ed_raw (Ed25519Dalek strict) (ed_verifying (Ed25519Dalek strict)
    (unhex "b1d0bad404bf35da785a64ca1ac54b2617211d2777696fbffaf208f746ae84f2")) =
  unhex "1932a5270f335bed617d5b935c80aedb1a35bd9fc1e31acafd5372c30f5c1187".
Proof.
  apply (dalek_encode strict _ 4 ed25519_k2_digits 0x4fcd1e4350b348a1c9fe819754705f602782b6a508c4956dcef29b8556d23f70
    0x320cbc408b0997bcb7d942ca08dd9cae5656aa707422b2c33554fd088614b7d5
    0x7115c0fc37253fdca1ae3c19fbd351adbae805c935b7d61ed5b330f27a53219).
  - apply N.eqb_eq. vm_cast_no_check (eq_refl true).
  - vm_cast_no_check (eq_refl true).
  - apply Z.eqb_eq. vm_cast_no_check (eq_refl true).
  - vm_cast_no_check (eq_refl true).
Qed.

Definition EdPrv (strict : bool) : Type := XPrv (Ed25519DalekBackend (Ed25519Dalek strict)).
Lemma ed_child strict (m m' : Metadata) k k' i pub :
  ed_raw (Ed25519Dalek strict) (ed_verifying (Ed25519Dalek strict) k) = pub ->
  (length k =? 32)%nat && meta_eqb (derived m (x00 :: pub) i (skipn 32 (ed_step (Ed25519Dalek strict) k (m_chain m) i))) m' &&
    bytes_eqb (firstn 32 (ed_step (Ed25519Dalek strict) k (m_chain m) i)) k' = true ->
  slip10_hardened_child 1 (@mkXPrv (Ed25519DalekBackend (Ed25519Dalek strict)) m k) (mkHC i) =
    Some (Ok (@mkXPrv (Ed25519DalekBackend (Ed25519Dalek strict)) m' k')).
Proof.
  intros HP H. rewrite !andb_true_iff in H. destruct H as [[HL HM] HK].
  apply Nat.eqb_eq in HL. apply meta_eqb_eq in HM. apply bytes_eqb_eq in HK.
  destruct (C49_ed25519_total true (Ed25519Dalek strict) (dalek_laws strict)) as (_ & STEP & _).
  destruct (STEP 0%nat (@mkXPrv (Ed25519DalekBackend (Ed25519Dalek strict)) m k) i HL) as [E _].
  rewrite E. cbn [xprv_key xprv_meta]. rewrite HP, HM, HK. reflexivity.
Qed.
Lemma show_ed strict m k pub :
  ed_raw (Ed25519Dalek strict) (ed_verifying (Ed25519Dalek strict) k) = pub ->
  let C := Ed25519DalekBackend (Ed25519Dalek strict) in
  let x := @mkXPrv C m k in
  Some (Ok (m_fingerprint (xprv_meta x), m_chain (xprv_meta x), prv_to_bytes C (xprv_key x),
    pub_to_bytes C (xpub_key (xprv_public x)))) = Some (@Ok Error _ (m_fingerprint m, m_chain m, k, x00 :: pub)).
Proof. intros <-. reflexivity. Qed.
(** slip10/common.rs 22-41 *)
Definition run_ed_case (strict : bool) (seed : list byte) (path : str)
    : option (res Error (list byte * list byte * list byte * list byte)) :=
  let C := Ed25519DalekBackend (Ed25519Dalek strict) in
  match new_slip10 true 1 C seed with
  | Some master =>
      obind master (fun master =>
      obind (hpath_parse path) (fun path =>
      omap (fun derived =>
              (m_fingerprint (xprv_meta derived), m_chain (xprv_meta derived),
               prv_to_bytes C (xprv_key derived), pub_to_bytes C (xpub_key (xprv_public derived))))
           (slip10_hardened_path true 1 master path)))
  | None => None
  end.

Definition ed_0 strict : EdPrv strict :=
  @mkXPrv (Ed25519DalekBackend (Ed25519Dalek strict))
    {| m_depth := n2b 0; m_fingerprint := unhex "00000000"; m_child := 0;
      m_chain := unhex "90046a93de5380a72b5e45010748567d5ea02bbf6522f979e05c0d8d8ca9fffb" |}
    (unhex "2b4be7f19ee27bbf30c667b642d5f4aa69fd169872f8fc3059c08ebae2eb19e7").
Lemma ed_step0 strict : new_slip10 true 1 (Ed25519DalekBackend (Ed25519Dalek strict)) (unhex "000102030405060708090a0b0c0d0e0f") = Some (Ok (ed_0 strict)).
Proof.
  destruct (C49_ed25519_total true (Ed25519Dalek strict) (dalek_laws strict)) as (M & _).
  assert (K : firstn 32 (hmac_sha512 (bytes_of "ed25519 seed") (unhex "000102030405060708090a0b0c0d0e0f")) = unhex "2b4be7f19ee27bbf30c667b642d5f4aa69fd169872f8fc3059c08ebae2eb19e7").
  { apply bytes_eqb_eq. vm_cast_no_check (eq_refl true). }
  assert (Ch : skipn 32 (hmac_sha512 (bytes_of "ed25519 seed") (unhex "000102030405060708090a0b0c0d0e0f")) = unhex "90046a93de5380a72b5e45010748567d5ea02bbf6522f979e05c0d8d8ca9fffb").
  { apply bytes_eqb_eq. vm_cast_no_check (eq_refl true). }
  rewrite (M 0%nat). cbv zeta. rewrite K, Ch. reflexivity.
Qed.
Example slip10_ed25519_vector_1_0 strict :
  run_ed_case strict (unhex "000102030405060708090a0b0c0d0e0f") (lit "m") =
  Some (Ok (unhex "00000000", unhex "90046a93de5380a72b5e45010748567d5ea02bbf6522f979e05c0d8d8ca9fffb",
    unhex "2b4be7f19ee27bbf30c667b642d5f4aa69fd169872f8fc3059c08ebae2eb19e7",
    x00 :: unhex "a4b2856bfec510abab89753fac1ac0e1112364e7d250545963f135f2a33188ed")).
Proof.
  unfold run_ed_case. cbv zeta. rewrite ed_step0. cbn [obind].
  replace (hpath_parse (lit "m")) with (@Ok Error _ (mkHP []%N)) by reflexivity.
  cbn [obind]. unfold slip10_hardened_path. replace (hpath_children true (mkHP []%N)) with
    (@Ok Error (list HardenedChildNumber) []) by reflexivity.
  cbn [obind]. cbn [path_loop]. unfold omap. cbn [obind].
  exact (show_ed strict (xprv_meta (ed_0 strict)) _ _ (ed25519_k0 strict)).
Qed.

Definition ed_1 strict : EdPrv strict :=
  @mkXPrv (Ed25519DalekBackend (Ed25519Dalek strict))
    {| m_depth := n2b 1; m_fingerprint := unhex "ddebc675"; m_child := 2147483648;
      m_chain := unhex "8b59aa11380b624e81507a27fedda59fea6d0b779a778918a2fd3590e16e9c69" |}
    (unhex "68e0fe46dfb67e368c75379acec591dad19df3cde26e63b93a8e704f1dade7a3").
Lemma ed_step1 strict : slip10_hardened_child 1 (ed_0 strict) (mkHC 2147483648) = Some (Ok (ed_1 strict)).
Proof. apply (ed_child strict _ _ _ _ _ _ (ed25519_k0 strict)). vm_cast_no_check (eq_refl true). Qed.
Example slip10_ed25519_vector_1_1 strict :
  run_ed_case strict (unhex "000102030405060708090a0b0c0d0e0f") (lit "m/0H") =
  Some (Ok (unhex "ddebc675", unhex "8b59aa11380b624e81507a27fedda59fea6d0b779a778918a2fd3590e16e9c69",
    unhex "68e0fe46dfb67e368c75379acec591dad19df3cde26e63b93a8e704f1dade7a3",
    x00 :: unhex "8c8a13df77a28f3445213a0f432fde644acaa215fc72dcdf300d5efaa85d350c")).
Proof.
  unfold run_ed_case. cbv zeta. rewrite ed_step0. cbn [obind].
  replace (hpath_parse (lit "m/0H")) with (@Ok Error _ (mkHP [2147483648]%N)) by reflexivity.
  cbn [obind]. unfold slip10_hardened_path. replace (hpath_children true (mkHP [2147483648]%N)) with
    (@Ok Error (list HardenedChildNumber) [mkHC 2147483648]) by reflexivity.
  cbn [obind]. cbn [path_loop]. rewrite ed_step1. cbn [path_loop]. unfold omap. cbn [obind].
  exact (show_ed strict (xprv_meta (ed_1 strict)) _ _ (ed25519_k1 strict)).
Qed.

Definition ed_2 strict : EdPrv strict :=
  @mkXPrv (Ed25519DalekBackend (Ed25519Dalek strict))
    {| m_depth := n2b 2; m_fingerprint := unhex "13dab143"; m_child := 2147483649;
      m_chain := unhex "a320425f77d1b5c2505a6b1b27382b37368ee640e3557c315416801243552f14" |}
    (unhex "b1d0bad404bf35da785a64ca1ac54b2617211d2777696fbffaf208f746ae84f2").
Lemma ed_step2 strict : slip10_hardened_child 1 (ed_1 strict) (mkHC 2147483649) = Some (Ok (ed_2 strict)).
Proof. apply (ed_child strict _ _ _ _ _ _ (ed25519_k1 strict)). vm_cast_no_check (eq_refl true). Qed.
Example slip10_ed25519_vector_1_2 strict :
  run_ed_case strict (unhex "000102030405060708090a0b0c0d0e0f") (lit "m/0H/1H") =
  Some (Ok (unhex "13dab143", unhex "a320425f77d1b5c2505a6b1b27382b37368ee640e3557c315416801243552f14",
    unhex "b1d0bad404bf35da785a64ca1ac54b2617211d2777696fbffaf208f746ae84f2",
    x00 :: unhex "1932a5270f335bed617d5b935c80aedb1a35bd9fc1e31acafd5372c30f5c1187")).
Proof.
  unfold run_ed_case. cbv zeta. rewrite ed_step0. cbn [obind].
  replace (hpath_parse (lit "m/0H/1H")) with (@Ok Error _ (mkHP [2147483648; 2147483649]%N)) by reflexivity.
  cbn [obind]. unfold slip10_hardened_path. replace (hpath_children true (mkHP [2147483648; 2147483649]%N)) with
    (@Ok Error (list HardenedChildNumber) [mkHC 2147483648; mkHC 2147483649]) by reflexivity.
  cbn [obind]. cbn [path_loop]. rewrite ed_step1. cbn [path_loop]. rewrite ed_step2. cbn [path_loop]. unfold omap. cbn [obind].
  exact (show_ed strict (xprv_meta (ed_2 strict)) _ _ (ed25519_k2 strict)).
Qed.
