(** The test vectors of bip0032/tests (bip32.rs vectors 1, 3 and 5, slip10/nist256p1.rs
    retry vectors) run through the model on the real curves.  These are tests of the
    model, not property theorems. *)
From Verif Require Import Base Sha2 Str Error32 Version32 Path32 Meta32 Payload32 Curve32 XKey32 Slip10 XKeySpec32
  Eqb32 Secp256k1 Nist256p1 PointCerts.

Definition Prv (b : Library) dc : Type := XPrv (backend b (Secp256k1 dc)).
(** For both libraries of secp256k1 *)
Definition both (P : Library -> (list byte -> option secp256k1_point) -> Prop) : Prop :=
  (forall dc, P K256 dc) /\ (forall dc, P Secp256k1Ffi dc).
Lemma on_both (P : Library -> _ -> Prop) : (forall b dc, b = K256 \/ b = Secp256k1Ffi -> P b dc) -> both P.
Proof. intros H. split; intros dc; apply H; auto. Qed.
Lemma pick (P : Library -> _ -> Prop) (H : both P) b dc : b = K256 \/ b = Secp256k1Ffi -> P b dc.
Proof. destruct H as [H1 H2]. intros [-> | ->]; auto. Qed.

Definition prv_eqb {b : Library} {L : ECLib} (x y : XPrv (backend b L)) : bool :=
  meta_eqb (xprv_meta x) (xprv_meta y) && ((xprv_key x : N) =? xprv_key y).
Lemma prv_eqb_eq {b L} (x y : XPrv (backend b L)) : prv_eqb x y = true -> x = y.
Proof.
  unfold prv_eqb. rewrite andb_true_iff. intros [H1 H2]. apply meta_eqb_eq in H1. apply N.eqb_eq in H2.
  destruct x as [m k], y as [m' k']; cbn [xprv_meta xprv_key] in *. rewrite H1, H2. reflexivity.
Qed.
Lemma prv_view {b L} (r : res Error (XPrv (backend b L))) x : res32_eqb prv_eqb r (Ok x) = true -> r = Ok x.
Proof. apply res32_eqb_eq. apply prv_eqb_eq. Qed.
Lemma slip_view {b L} (r : option (res Error (XPrv (backend b L)))) x :
  match r with Some r => res32_eqb prv_eqb r (Ok x) | None => false end = true -> r = Some (Ok x).
Proof. destruct r as [r|]; [|discriminate]. intros H. f_equal. apply prv_view. exact H. Qed.

(** A derivation step with the encoding of the parent's public key at hand. *)
Definition prv_child_with {b L} (dbg : profile) (x : XPrv (backend b L)) (bytes : list byte) (child : N)
    : res Error (XPrv (backend b L)) :=
  let? data := child_data x bytes child in
  let? (il, ir) := hmac_sha512_split (m_chain (xprv_meta x)) data in
  match prv_add_tweak (backend b L) (xprv_key x) il with
  | inl err => Panic
  | inr child_key => Ok (mkXPrv (child_meta (xprv_meta x) bytes child ir) child_key)
  end.
Lemma prv_child {b L} dbg (x : XPrv (backend b L)) i bytes y :
  compress L (pmul L (xprv_key x) (gen L)) = bytes ->
  res32_eqb prv_eqb (prv_child_with dbg x bytes i) (Ok y) = true -> xprv_derive_child dbg x i = Ok y.
Proof.
  intros HB HR. apply prv_view in HR. rewrite <- HR. unfold xprv_derive_child, prv_child_with.
  unfold prv_child_with in HR. change (pub_to_bytes (backend b L) (prv_to_public (backend b L) (xprv_key x))) with (compress L (pmul L (xprv_key x) (gen L))). rewrite HB.
  destruct (child_data x bytes i) as [data|e|]; cbn [bind] in *; try discriminate.
  destruct (hmac_sha512_split (m_chain (xprv_meta x)) data) as [[il ir]|e|]; cbn [bind] in *; try discriminate.
  destruct (prv_add_tweak (backend b L) (xprv_key x) il); [discriminate|reflexivity].
Qed.
Definition slip_child_with {b L} (fuel : nat) (x : XPrv (backend b L)) (bytes : list byte) (child : N)
    : option (res Error (XPrv (backend b L))) :=
  obind (if child_is_hardened child
         then put 1 33 (be_bytes 32 (xprv_key x)) (zeros 37)
         else put 0 33 bytes (zeros 37)) (fun data =>
  obind (put 33 37 (child_to_bytes child) data) (fun data =>
  omap (fun '(key, ir) => mkXPrv (child_meta (xprv_meta x) bytes child ir) key)
       (slip10_loop fuel (m_chain (xprv_meta x)) (prv_add_tweak (backend b L) (xprv_key x))
          (child_to_bytes child) data))).
Lemma slip_child {b L} fuel (x : XPrv (backend b L)) i bytes y :
  compress L (pmul L (xprv_key x) (gen L)) = bytes ->
  match slip_child_with fuel x bytes i with Some r => res32_eqb prv_eqb r (Ok y) | None => false end = true ->
  slip10_prv_child fuel x i = Some (Ok y).
Proof.
  intros HB HR. apply slip_view in HR. rewrite <- HR. unfold slip10_prv_child, slip_child_with.
  change (pub_to_bytes (backend b L) (prv_to_public (backend b L) (xprv_key x))) with (compress L (pmul L (xprv_key x) (gen L))). rewrite HB. reflexivity.
Qed.

(** bip32.rs 15-31 *)
Definition run_case (b : Library) dc (seed : list byte) (path : str) : res Error (str * str) :=
  let? master := xprv_new true (backend b (Secp256k1 dc)) seed in
  let? path := path_parse path in
  let? derived := xprv_derive_path true master path in
  let? xpub := xpub_encode_with (xprv_public derived) (into_version Xpub) in
  let? xpub := payload_show xpub in
  let? xprv := xprv_encode_with derived (into_version Xprv) in
  let? xprv := payload_show xprv in
  Ok (xpub, xprv).
Lemma show_case b dc (x : Prv b dc) bytes pub prv :
  compress (Secp256k1 dc) (pmul (Secp256k1 dc) (xprv_key x) (gen (Secp256k1 dc))) = bytes ->
  res32_eqb pair_eqb
    (let? xpub := payload_show {| p_version := XPUB; p_meta := xprv_meta x; p_key := bytes |} in
     let? xprv := xprv_encode_with x XPRV in
     let? xprv := payload_show xprv in Ok (xpub, xprv)) (Ok (pub, prv)) = true ->
  (let? xpub := xpub_encode_with (xprv_public x) (into_version Xpub) in
   let? xpub := payload_show xpub in
   let? xprv := xprv_encode_with x (into_version Xprv) in
   let? xprv := payload_show xprv in Ok (xpub, xprv)) = Ok (pub, prv).
Proof.
  intros HB HR. apply (res32_eqb_eq pair_eqb) in HR; [|intros; apply pair_eqb_eq; assumption].
  rewrite <- HR, <- HB. reflexivity.
Qed.

(** slip10/common.rs 43-62 *)
Definition run_slip_case dc (seed : list byte) (path : str)
    : option (res Error (list byte * list byte * list byte * list byte)) :=
  match new_slip10 true 4 (backend P256 (Nist256p1 dc)) seed with
  | Some master =>
      obind master (fun master =>
      obind (path_parse path) (fun path =>
      omap (fun derived =>
              (m_fingerprint (xprv_meta derived), m_chain (xprv_meta derived),
               prv_to_bytes (backend P256 (Nist256p1 dc)) (xprv_key derived),
               pub_to_bytes (backend P256 (Nist256p1 dc)) (xpub_key (xprv_public derived))))
           (slip10_prv_path 4 master path)))
  | None => None
  end.
Lemma show_slip dc (x : XPrv (backend P256 (Nist256p1 dc))) bytes f c k q :
  compress (Nist256p1 dc) (pmul (Nist256p1 dc) (xprv_key x) (gen (Nist256p1 dc))) = bytes ->
  bytes_eqb (m_fingerprint (xprv_meta x)) f && bytes_eqb (m_chain (xprv_meta x)) c
    && bytes_eqb (be_bytes 32 (xprv_key x)) k && bytes_eqb bytes q = true ->
  Some (Ok (m_fingerprint (xprv_meta x), m_chain (xprv_meta x),
     prv_to_bytes (backend P256 (Nist256p1 dc)) (xprv_key x),
     pub_to_bytes (backend P256 (Nist256p1 dc)) (xpub_key (xprv_public x))))
  = Some (@Ok Error _ (f, c, k, q)).
Proof.
  intros HB HR. rewrite !andb_true_iff in HR. destruct HR as [[[H1 H2] H3] H4].
  apply bytes_eqb_eq in H1, H2, H3, H4. rewrite <- H1, <- H2, <- H3, <- H4, <- HB. reflexivity.
Qed.

Definition seed_v1 : list byte := unhex "000102030405060708090a0b0c0d0e0f".

Definition v1_0 b dc : Prv b dc :=
  @mkXPrv (backend b (Secp256k1 dc)) {| m_depth := n2b 0; m_fingerprint := unhex "00000000"; m_child := 0;
    m_chain := unhex "873dff81c02f525623fd1fe5167eac3a55a049de3d314bb42ee227ffed37d508" |}
    0xe8f32e723decf4051aefac8e2c93c9c5b214313817cdb01a1494b917c8436b35.

Lemma v1_master : both (fun b dc => xprv_new true (backend b (Secp256k1 dc)) seed_v1 = Ok (v1_0 b dc)).
Proof. split; intros dc; apply prv_view; vm_cast_no_check (eq_refl true). Qed.

Definition v1_1 b dc : Prv b dc :=
  @mkXPrv (backend b (Secp256k1 dc)) {| m_depth := n2b 1; m_fingerprint := unhex "3442193e"; m_child := 2147483648;
    m_chain := unhex "47fdacbd0f1097043b78c63c20c34ef4ed9a111d980047ad16282c7ae6236141" |}
    0xedb2e14f9ee77d26dd93b4ecede8d16ed408ce149b6cd80b0715a2d911a0afea.

Lemma v1_step1 : both (fun b dc => xprv_derive_child true (v1_0 b dc) 2147483648 = Ok (v1_1 b dc)).
Proof. split; intros dc; (eapply prv_child; [exact (secp256k1_k0 dc)|vm_cast_no_check (eq_refl true)]). Qed.

Definition v1_2 b dc : Prv b dc :=
  @mkXPrv (backend b (Secp256k1 dc)) {| m_depth := n2b 2; m_fingerprint := unhex "5c1bd648"; m_child := 1;
    m_chain := unhex "2a7857631386ba23dacac34180dd1983734e444fdbf774041578e9b6adb37c19" |}
    0x3c6cb8d0f6a264c91ea8b5030fadaa8e538b020f0a387421a12de9319dc93368.

Lemma v1_step2 : both (fun b dc => xprv_derive_child true (v1_1 b dc) 1 = Ok (v1_2 b dc)).
Proof. split; intros dc; (eapply prv_child; [exact (secp256k1_k1 dc)|vm_cast_no_check (eq_refl true)]). Qed.

Definition v1_3 b dc : Prv b dc :=
  @mkXPrv (backend b (Secp256k1 dc)) {| m_depth := n2b 3; m_fingerprint := unhex "bef5a2f9"; m_child := 2147483650;
    m_chain := unhex "04466b9cc8e161e966409ca52986c584f07e9dc81f735db683c3ff6ec7b1503f" |}
    0xcbce0d719ecf7431d88e6a89fa1483e02e35092af60c042b1df2ff59fa424dca.

Lemma v1_step3 : both (fun b dc => xprv_derive_child true (v1_2 b dc) 2147483650 = Ok (v1_3 b dc)).
Proof. split; intros dc; (eapply prv_child; [exact (secp256k1_k2 dc)|vm_cast_no_check (eq_refl true)]). Qed.

Definition v1_4 b dc : Prv b dc :=
  @mkXPrv (backend b (Secp256k1 dc)) {| m_depth := n2b 4; m_fingerprint := unhex "ee7ab90c"; m_child := 2;
    m_chain := unhex "cfb71883f01676f587d023cc53a35bc7f88f724b1f8c2892ac1275ac822a3edd" |}
    0x0f479245fb19a38a1954c5c7c0ebab2f9bdfd96a17563ef28a6a4b1a2a764ef4.

Lemma v1_step4 : both (fun b dc => xprv_derive_child true (v1_3 b dc) 2 = Ok (v1_4 b dc)).
Proof. split; intros dc; (eapply prv_child; [exact (secp256k1_k3 dc)|vm_cast_no_check (eq_refl true)]). Qed.

Definition v1_5 b dc : Prv b dc :=
  @mkXPrv (backend b (Secp256k1 dc)) {| m_depth := n2b 5; m_fingerprint := unhex "d880d7d8"; m_child := 1000000000;
    m_chain := unhex "c783e67b921d2beb8f6b389cc646d7263b4145701dadd2161548a8b078e65e9e" |}
    0x471b76e389e528d6de6d816857e012c5455051cad6660850e58372a6c3e6e7c8.

Lemma v1_step5 : both (fun b dc => xprv_derive_child true (v1_4 b dc) 1000000000 = Ok (v1_5 b dc)).
Proof. split; intros dc; (eapply prv_child; [exact (secp256k1_k4 dc)|vm_cast_no_check (eq_refl true)]). Qed.

Example v1_path0 : both (fun b dc => run_case b dc seed_v1 (lit "m")
  = Ok (lit "xpub661MyMwAqRbcFtXgS5sYJABqqG9YLmC4Q1Rdap9gSE8NqtwybGhePY2gZ29ESFjqJoCu1Rupje8YtGqsefD265TMg7usUDFdp6W1EGMcet8",
        lit "xprv9s21ZrQH143K3QTDL4LXw2F7HEK3wJUD2nW2nRk4stbPy6cq3jPPqjiChkVvvNKmPGJxWUtg6LnF5kejMRNNU3TGtRBeJgk33yuGBxrMPHi")).
Proof.
  apply on_both. intros b dc H. unfold run_case. rewrite (pick _ v1_master b dc H). cbn [bind].
  assert (P : path_parse (lit "m") = Ok []) by (apply run_path; vm_cast_no_check (eq_refl true)).
  rewrite P. cbn [bind xprv_derive_path]. 
  apply show_case with (secp256k1_k0_bytes).
  - exact (secp256k1_k0 dc).
  - destruct H; subst b; vm_cast_no_check (eq_refl true).
Qed.

Example v1_path1 : both (fun b dc => run_case b dc seed_v1 (lit "m/0H")
  = Ok (lit "xpub68Gmy5EdvgibQVfPdqkBBCHxA5htiqg55crXYuXoQRKfDBFA1WEjWgP6LHhwBZeNK1VTsfTFUHCdrfp1bgwQ9xv5ski8PX9rL2dZXvgGDnw",
        lit "xprv9uHRZZhk6KAJC1avXpDAp4MDc3sQKNxDiPvvkX8Br5ngLNv1TxvUxt4cV1rGL5hj6KCesnDYUhd7oWgT11eZG7XnxHrnYeSvkzY7d2bhkJ7")).
Proof.
  apply on_both. intros b dc H. unfold run_case. rewrite (pick _ v1_master b dc H). cbn [bind].
  assert (P : path_parse (lit "m/0H") = Ok [2147483648]) by (apply run_path; vm_cast_no_check (eq_refl true)).
  rewrite P. cbn [bind xprv_derive_path]. rewrite (pick _ v1_step1 b dc H); cbn [bind].
  apply show_case with (secp256k1_k1_bytes).
  - exact (secp256k1_k1 dc).
  - destruct H; subst b; vm_cast_no_check (eq_refl true).
Qed.

Example v1_path2 : both (fun b dc => run_case b dc seed_v1 (lit "m/0H/1")
  = Ok (lit "xpub6ASuArnXKPbfEwhqN6e3mwBcDTgzisQN1wXN9BJcM47sSikHjJf3UFHKkNAWbWMiGj7Wf5uMash7SyYq527Hqck2AxYysAA7xmALppuCkwQ",
        lit "xprv9wTYmMFdV23N2TdNG573QoEsfRrWKQgWeibmLntzniatZvR9BmLnvSxqu53Kw1UmYPxLgboyZQaXwTCg8MSY3H2EU4pWcQDnRnrVA1xe8fs")).
Proof.
  apply on_both. intros b dc H. unfold run_case. rewrite (pick _ v1_master b dc H). cbn [bind].
  assert (P : path_parse (lit "m/0H/1") = Ok [2147483648; 1]) by (apply run_path; vm_cast_no_check (eq_refl true)).
  rewrite P. cbn [bind xprv_derive_path]. rewrite (pick _ v1_step1 b dc H); cbn [bind]. rewrite (pick _ v1_step2 b dc H); cbn [bind].
  apply show_case with (secp256k1_k2_bytes).
  - exact (secp256k1_k2 dc).
  - destruct H; subst b; vm_cast_no_check (eq_refl true).
Qed.

Example v1_path3 : both (fun b dc => run_case b dc seed_v1 (lit "m/0H/1/2H")
  = Ok (lit "xpub6D4BDPcP2GT577Vvch3R8wDkScZWzQzMMUm3PWbmWvVJrZwQY4VUNgqFJPMM3No2dFDFGTsxxpG5uJh7n7epu4trkrX7x7DogT5Uv6fcLW5",
        lit "xprv9z4pot5VBttmtdRTWfWQmoH1taj2axGVzFqSb8C9xaxKymcFzXBDptWmT7FwuEzG3ryjH4ktypQSAewRiNMjANTtpgP4mLTj34bhnZX7UiM")).
Proof.
  apply on_both. intros b dc H. unfold run_case. rewrite (pick _ v1_master b dc H). cbn [bind].
  assert (P : path_parse (lit "m/0H/1/2H") = Ok [2147483648; 1; 2147483650]) by (apply run_path; vm_cast_no_check (eq_refl true)).
  rewrite P. cbn [bind xprv_derive_path]. rewrite (pick _ v1_step1 b dc H); cbn [bind]. rewrite (pick _ v1_step2 b dc H); cbn [bind]. rewrite (pick _ v1_step3 b dc H); cbn [bind].
  apply show_case with (secp256k1_k3_bytes).
  - exact (secp256k1_k3 dc).
  - destruct H; subst b; vm_cast_no_check (eq_refl true).
Qed.

Example v1_path4 : both (fun b dc => run_case b dc seed_v1 (lit "m/0H/1/2H/2")
  = Ok (lit "xpub6FHa3pjLCk84BayeJxFW2SP4XRrFd1JYnxeLeU8EqN3vDfZmbqBqaGJAyiLjTAwm6ZLRQUMv1ZACTj37sR62cfN7fe5JnJ7dh8zL4fiyLHV",
        lit "xprvA2JDeKCSNNZky6uBCviVfJSKyQ1mDYahRjijr5idH2WwLsEd4Hsb2Tyh8RfQMuPh7f7RtyzTtdrbdqqsunu5Mm3wDvUAKRHSC34sJ7in334")).
Proof.
  apply on_both. intros b dc H. unfold run_case. rewrite (pick _ v1_master b dc H). cbn [bind].
  assert (P : path_parse (lit "m/0H/1/2H/2") = Ok [2147483648; 1; 2147483650; 2]) by (apply run_path; vm_cast_no_check (eq_refl true)).
  rewrite P. cbn [bind xprv_derive_path]. rewrite (pick _ v1_step1 b dc H); cbn [bind]. rewrite (pick _ v1_step2 b dc H); cbn [bind]. rewrite (pick _ v1_step3 b dc H); cbn [bind]. rewrite (pick _ v1_step4 b dc H); cbn [bind].
  apply show_case with (secp256k1_k4_bytes).
  - exact (secp256k1_k4 dc).
  - destruct H; subst b; vm_cast_no_check (eq_refl true).
Qed.

Example v1_path5 : both (fun b dc => run_case b dc seed_v1 (lit "m/0H/1/2H/2/1000000000")
  = Ok (lit "xpub6H1LXWLaKsWFhvm6RVpEL9P4KfRZSW7abD2ttkWP3SSQvnyA8FSVqNTEcYFgJS2UaFcxupHiYkro49S8yGasTvXEYBVPamhGW6cFJodrTHy",
        lit "xprvA41z7zogVVwxVSgdKUHDy1SKmdb533PjDz7J6N6mV6uS3ze1ai8FHa8kmHScGpWmj4WggLyQjgPie1rFSruoUihUZREPSL39UNdE3BBDu76")).
Proof.
  apply on_both. intros b dc H. unfold run_case. rewrite (pick _ v1_master b dc H). cbn [bind].
  assert (P : path_parse (lit "m/0H/1/2H/2/1000000000") = Ok [2147483648; 1; 2147483650; 2; 1000000000]) by (apply run_path; vm_cast_no_check (eq_refl true)).
  rewrite P. cbn [bind xprv_derive_path]. rewrite (pick _ v1_step1 b dc H); cbn [bind]. rewrite (pick _ v1_step2 b dc H); cbn [bind]. rewrite (pick _ v1_step3 b dc H); cbn [bind]. rewrite (pick _ v1_step4 b dc H); cbn [bind]. rewrite (pick _ v1_step5 b dc H); cbn [bind].
  apply show_case with (secp256k1_k5_bytes).
  - exact (secp256k1_k5 dc).
  - destruct H; subst b; vm_cast_no_check (eq_refl true).
Qed.

Definition seed_v3 : list byte := unhex "4b381541583be4423346c643850da4b320e46a87ae3d2a4e6da11eba819cd4acba45d239319ac14f863b8d5ab5a0d0c64d2e8a1e7d1457df2e5a3c51c73235be".

Definition v3_0 b dc : Prv b dc :=
  @mkXPrv (backend b (Secp256k1 dc)) {| m_depth := n2b 0; m_fingerprint := unhex "00000000"; m_child := 0;
    m_chain := unhex "01d28a3e53cffa419ec122c968b3259e16b65076495494d97cae10bbfec3c36f" |}
    0x00ddb80b067e0d4993197fe10f2657a844a384589847602d56f0c629c81aae32.

Lemma v3_master : both (fun b dc => xprv_new true (backend b (Secp256k1 dc)) seed_v3 = Ok (v3_0 b dc)).
Proof. split; intros dc; apply prv_view; vm_cast_no_check (eq_refl true). Qed.

Definition v3_1 b dc : Prv b dc :=
  @mkXPrv (backend b (Secp256k1 dc)) {| m_depth := n2b 1; m_fingerprint := unhex "41d63b50"; m_child := 2147483648;
    m_chain := unhex "e5fea12a97b927fc9dc3d2cb0d1ea1cf50aa5a1fdc1f933e8906bb38df3377bd" |}
    0x491f7a2eebc7b57028e0d3faa0acda02e75c33b03c48fb288c41e2ea44e1daef.

Lemma v3_step1 : both (fun b dc => xprv_derive_child true (v3_0 b dc) 2147483648 = Ok (v3_1 b dc)).
Proof. split; intros dc; (eapply prv_child; [exact (secp256k1_k6 dc)|vm_cast_no_check (eq_refl true)]). Qed.

Example v3_path0 : both (fun b dc => run_case b dc seed_v3 (lit "m")
  = Ok (lit "xpub661MyMwAqRbcEZVB4dScxMAdx6d4nFc9nvyvH3v4gJL378CSRZiYmhRoP7mBy6gSPSCYk6SzXPTf3ND1cZAceL7SfJ1Z3GC8vBgp2epUt13",
        lit "xprv9s21ZrQH143K25QhxbucbDDuQ4naNntJRi4KUfWT7xo4EKsHt2QJDu7KXp1A3u7Bi1j8ph3EGsZ9Xvz9dGuVrtHHs7pXeTzjuxBrCmmhgC6")).
Proof.
  apply on_both. intros b dc H. unfold run_case. rewrite (pick _ v3_master b dc H). cbn [bind].
  assert (P : path_parse (lit "m") = Ok []) by (apply run_path; vm_cast_no_check (eq_refl true)).
  rewrite P. cbn [bind xprv_derive_path]. 
  apply show_case with (secp256k1_k6_bytes).
  - exact (secp256k1_k6 dc).
  - destruct H; subst b; vm_cast_no_check (eq_refl true).
Qed.

Example v3_path1 : both (fun b dc => run_case b dc seed_v3 (lit "m/0H")
  = Ok (lit "xpub68NZiKmJWnxxS6aaHmn81bvJeTESw724CRDs6HbuccFQN9Ku14VQrADWgqbhhTHBaohPX4CjNLf9fq9MYo6oDaPPLPxSb7gwQN3ih19Zm4Y",
        lit "xprv9uPDJpEQgRQfDcW7BkF7eTya6RPxXeJCqCJGHuCJ4GiRVLzkTXBAJMu2qaMWPrS7AANYqdq6vcBcBUdJCVVFceUvJFjaPdGZ2y9WACViL4L")).
Proof.
  apply on_both. intros b dc H. unfold run_case. rewrite (pick _ v3_master b dc H). cbn [bind].
  assert (P : path_parse (lit "m/0H") = Ok [2147483648]) by (apply run_path; vm_cast_no_check (eq_refl true)).
  rewrite P. cbn [bind xprv_derive_path]. rewrite (pick _ v3_step1 b dc H); cbn [bind].
  apply show_case with (secp256k1_k7_bytes).
  - exact (secp256k1_k7 dc).
  - destruct H; subst b; vm_cast_no_check (eq_refl true).
Qed.

Definition seed_retry : list byte := unhex "000102030405060708090a0b0c0d0e0f".

Definition retry_0 dc : XPrv (backend P256 (Nist256p1 dc)) :=
  @mkXPrv (backend P256 (Nist256p1 dc)) {| m_depth := n2b 0; m_fingerprint := unhex "00000000"; m_child := 0;
    m_chain := unhex "beeb672fe4621673f722f38529c07392fecaa61015c80c34f29ce8b41b3cb6ea" |}
    0x612091aaa12e22dd2abef664f8a01a82cae99ad7441b7ef8110424915c268bc2.

Lemma retry_master dc : new_slip10 true 4 (backend P256 (Nist256p1 dc)) seed_retry = Some (Ok (retry_0 dc)).
Proof. apply slip_view. vm_cast_no_check (eq_refl true). Qed.

Definition retry_1 dc : XPrv (backend P256 (Nist256p1 dc)) :=
  @mkXPrv (backend P256 (Nist256p1 dc)) {| m_depth := n2b 1; m_fingerprint := unhex "be6105b5"; m_child := 2147512226;
    m_chain := unhex "e94c8ebe30c2250a14713212f6449b20f3329105ea15b652ca5bdfc68f6c65c2" |}
    0x06f0db126f023755d0b8d86d4591718a5210dd8d024e3e14b6159d63f53aa669.

Lemma retry_step1 dc : slip10_prv_child 4 (retry_0 dc) 2147512226 = Some (Ok (retry_1 dc)).
Proof. eapply slip_child; [exact (nist256p1_k8 dc)|vm_cast_no_check (eq_refl true)]. Qed.

Definition retry_2 dc : XPrv (backend P256 (Nist256p1 dc)) :=
  @mkXPrv (backend P256 (Nist256p1 dc)) {| m_depth := n2b 2; m_fingerprint := unhex "3e2b7bc6"; m_child := 33941;
    m_chain := unhex "9e87fe95031f14736774cd82f25fd885065cb7c358c1edf813c72af535e83071" |}
    0x092154eed4af83e078ff9b84322015aefe5769e31270f62c3f66c33888335f3a.

Lemma retry_step2 dc : slip10_prv_child 4 (retry_1 dc) 33941 = Some (Ok (retry_2 dc)).
Proof. eapply slip_child; [exact (nist256p1_k9 dc)|vm_cast_no_check (eq_refl true)]. Qed.

Example retry_path0 dc : run_slip_case dc seed_retry (lit "m")
  = Some (Ok (unhex "00000000",
    unhex "beeb672fe4621673f722f38529c07392fecaa61015c80c34f29ce8b41b3cb6ea",
    unhex "612091aaa12e22dd2abef664f8a01a82cae99ad7441b7ef8110424915c268bc2",
    unhex "0266874dc6ade47b3ecd096745ca09bcd29638dd52c2c12117b11ed3e458cfa9e8")).
Proof.
  unfold run_slip_case. rewrite retry_master. cbn [obind].
  assert (P : path_parse (lit "m") = Ok []) by (apply run_path; vm_cast_no_check (eq_refl true)).
  rewrite P. cbn [obind]. unfold slip10_prv_path. cbn [path_loop].  cbn [omap option_map res_map].
  apply show_slip with (nist256p1_k8_bytes).
  - exact (nist256p1_k8 dc).
  - vm_cast_no_check (eq_refl true).
Qed.

Example retry_path1 dc : run_slip_case dc seed_retry (lit "m/28578H")
  = Some (Ok (unhex "be6105b5",
    unhex "e94c8ebe30c2250a14713212f6449b20f3329105ea15b652ca5bdfc68f6c65c2",
    unhex "06f0db126f023755d0b8d86d4591718a5210dd8d024e3e14b6159d63f53aa669",
    unhex "02519b5554a4872e8c9c1c847115363051ec43e93400e030ba3c36b52a3e70a5b7")).
Proof.
  unfold run_slip_case. rewrite retry_master. cbn [obind].
  assert (P : path_parse (lit "m/28578H") = Ok [2147512226]) by (apply run_path; vm_cast_no_check (eq_refl true)).
  rewrite P. cbn [obind]. unfold slip10_prv_path. cbn [path_loop]. rewrite retry_step1. cbn [path_loop]. cbn [omap option_map res_map].
  apply show_slip with (nist256p1_k9_bytes).
  - exact (nist256p1_k9 dc).
  - vm_cast_no_check (eq_refl true).
Qed.

Example retry_path2 dc : run_slip_case dc seed_retry (lit "m/28578H/33941")
  = Some (Ok (unhex "3e2b7bc6",
    unhex "9e87fe95031f14736774cd82f25fd885065cb7c358c1edf813c72af535e83071",
    unhex "092154eed4af83e078ff9b84322015aefe5769e31270f62c3f66c33888335f3a",
    unhex "0235bfee614c0d5b2cae260000bb1d0d84b270099ad790022c1ae0b2e782efe120")).
Proof.
  unfold run_slip_case. rewrite retry_master. cbn [obind].
  assert (P : path_parse (lit "m/28578H/33941") = Ok [2147512226; 33941]) by (apply run_path; vm_cast_no_check (eq_refl true)).
  rewrite P. cbn [obind]. unfold slip10_prv_path. cbn [path_loop]. rewrite retry_step1. cbn [path_loop]. rewrite retry_step2. cbn [path_loop]. cbn [omap option_map res_map].
  apply show_slip with (nist256p1_k10_bytes).
  - exact (nist256p1_k10 dc).
  - vm_cast_no_check (eq_refl true).
Qed.

Definition seed_seed_retry : list byte := unhex "a7305bc8df8d0951f0cb224c0e95d7707cbdf2c6ce7e8d481fec69c7ff5e9446".

Definition seed_retry_0 dc : XPrv (backend P256 (Nist256p1 dc)) :=
  @mkXPrv (backend P256 (Nist256p1 dc)) {| m_depth := n2b 0; m_fingerprint := unhex "00000000"; m_child := 0;
    m_chain := unhex "7762f9729fed06121fd13f326884c82f59aa95c57ac492ce8c9654e60efd130c" |}
    0x3b8c18469a4634517d6d0b65448f8e6c62091b45540a1743c5846be55d47d88f.

Lemma seed_retry_master dc : new_slip10 true 4 (backend P256 (Nist256p1 dc)) seed_seed_retry = Some (Ok (seed_retry_0 dc)).
Proof. apply slip_view. vm_cast_no_check (eq_refl true). Qed.

Example seed_retry_path0 dc : run_slip_case dc seed_seed_retry (lit "m")
  = Some (Ok (unhex "00000000",
    unhex "7762f9729fed06121fd13f326884c82f59aa95c57ac492ce8c9654e60efd130c",
    unhex "3b8c18469a4634517d6d0b65448f8e6c62091b45540a1743c5846be55d47d88f",
    unhex "0383619fadcde31063d8c5cb00dbfe1713f3e6fa169d8541a798752a1c1ca0cb20")).
Proof.
  unfold run_slip_case. rewrite seed_retry_master. cbn [obind].
  assert (P : path_parse (lit "m") = Ok []) by (apply run_path; vm_cast_no_check (eq_refl true)).
  rewrite P. cbn [obind]. unfold slip10_prv_path. cbn [path_loop].  cbn [omap option_map res_map].
  apply show_slip with (nist256p1_k11_bytes).
  - exact (nist256p1_k11 dc).
  - vm_cast_no_check (eq_refl true).
Qed.

(** bip32.rs 214-262: the invalid extended keys *)
Definition invalid_xpub : list string := [
  "xpub661MyMwAqRbcEYS8w7XLSVeEsBXy79zSzH1J8vCdxAZningWLdN3zgtU6LBpB85b3D2yc8sfvZU521AAwdZafEz7mnzBBsz4wKY5fTtTQBm";
  "xpub661MyMwAqRbcEYS8w7XLSVeEsBXy79zSzH1J8vCdxAZningWLdN3zgtU6Txnt3siSujt9RCVYsx4qHZGc62TG4McvMGcAUjeuwZdduYEvFn";
  "xpub661MyMwAqRbcEYS8w7XLSVeEsBXy79zSzH1J8vCdxAZningWLdN3zgtU6N8ZMMXctdiCjxTNq964yKkwrkBJJwpzZS4HS2fxvyYUA4q2Xe4";
  "xpub661no6RGEX3uJkY4bNnPcw4URcQTrSibUZ4NqJEw5eBkv7ovTwgiT91XX27VbEXGENhYRCf7hyEbWrR3FewATdCEebj6znwMfQkhRYHRLpJ";
  "xpub661MyMwAuDcm6CRQ5N4qiHKrJ39Xe1R1NyfouMKTTWcguwVcfrZJaNvhpebzGerh7gucBvzEQWRugZDuDXjNDRmXzSZe4c7mnTK97pTvGS8";
  "DMwo58pR1QLEFihHiXPVykYB6fJmsTeHvyTp7hRThAtCX8CvYzgPcn8XnmdfHGMQzT7ayAmfo4z3gY5KfbrZWZ6St24UVf2Qgo6oujFktLHdHY4";
  "xpub661MyMwAqRbcEYS8w7XLSVeEsBXy79zSzH1J8vCdxAZningWLdN3zgtU6Q5JXayek4PRsn35jii4veMimro1xefsM58PgBMrvdYre8QyULY"]%string.
Definition invalid_xprv : list string := [
  "xprv9s21ZrQH143K24Mfq5zL5MhWK9hUhhGbd45hLXo2Pq2oqzMMo63oStZzFGTQQD3dC4H2D5GBj7vWvSQaaBv5cxi9gafk7NF3pnBju6dwKvH";
  "xprv9s21ZrQH143K24Mfq5zL5MhWK9hUhhGbd45hLXo2Pq2oqzMMo63oStZzFGpWnsj83BHtEy5Zt8CcDr1UiRXuWCmTQLxEK9vbz5gPstX92JQ";
  "xprv9s21ZrQH143K24Mfq5zL5MhWK9hUhhGbd45hLXo2Pq2oqzMMo63oStZzFAzHGBP2UuGCqWLTAPLcMtD9y5gkZ6Eq3Rjuahrv17fEQ3Qen6J";
  "xprv9s2SPatNQ9Vc6GTbVMFPFo7jsaZySyzk7L8n2uqKXJen3KUmvQNTuLh3fhZMBoG3G4ZW1N2kZuHEPY53qmbZzCHshoQnNf4GvELZfqTUrcv";
  "xprv9s21ZrQH4r4TsiLvyLXqM9P7k1K3EYhA1kkD6xuquB5i39AU8KF42acDyL3qsDbU9NmZn6MsGSUYZEsuoePmjzsB3eFKSUEh3Gu1N3cqVUN";
  "DMwo58pR1QLEFihHiXPVykYB6fJmsTeHvyTp7hRThAtCX8CvYzgPcn8XnmdfHPmHJiEDXkTiJTVV9rHEBUem2mwVbbNfvT2MTcAqj3nesx8uBf9";
  "xprv9s21ZrQH143K24Mfq5zL5MhWK9hUhhGbd45hLXo2Pq2oqzMMo63oStZzF93Y5wvzdUayhgkkFoicQZcP3y52uPPxFnfoLZB21Teqt1VvEHx";
  "xprv9s21ZrQH143K24Mfq5zL5MhWK9hUhhGbd45hLXo2Pq2oqzMMo63oStZzFAzHGBP2UuGCqWLTAPLcMtD5SDKr24z3aiUvKr9bJpdrcLg1y3G";
  "xprv9s21ZrQH143K3QTDL4LXw2F7HEK3wJUD2nW2nRk4stbPy6cq3jPPqjiChkVvvNKmPGJxWUtg6LnF5kejMRNNU3TGtRBeJgk33yuGBxrMPHL"]%string.
Definition fails {A : Type} (r : res Error A) : bool := match r with Err _ => true | _ => false end.
Example v5_xpub dc : forallb (fun s => fails (xpub_parse true (backend K256 (Secp256k1 dc)) (lit s))) invalid_xpub = true.
Proof. vm_cast_no_check (eq_refl true). Qed.
Example v5_xpub_ffi dc :
  forallb (fun s => fails (xpub_parse true (backend Secp256k1Ffi (Secp256k1 dc)) (lit s))) invalid_xpub = true.
Proof. vm_cast_no_check (eq_refl true). Qed.
Example v5_xprv dc : forallb (fun s => fails (xprv_parse true (backend K256 (Secp256k1 dc)) (lit s))) invalid_xprv = true.
Proof. vm_cast_no_check (eq_refl true). Qed.
Example v5_xprv_ffi dc :
  forallb (fun s => fails (xprv_parse true (backend Secp256k1Ffi (Secp256k1 dc)) (lit s))) invalid_xprv = true.
Proof. vm_cast_no_check (eq_refl true). Qed.
