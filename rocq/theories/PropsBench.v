(** C97: the benchmarks and the randomised test measure working code, for every draw. *)
From Verif Require Import Base Sha2 Str Unicode UnicodeTables UnicodeProofs StrProofs BitAcc Language39 Builtin39 Mnemonic39
  Spec39 LangSpec39 LangProofs MnemonicProofs Eqb39 Fuzz39 Bench39 Props39.
From Verif Require Import Error32 Version32 Path32 Meta32 Payload32 Base58Spec PayloadSpec32 Curve32 XKey32 XKeySpec32
  XKeyProofs32 Cyclic32 Eqb32 Props32 Bench32 Props32k.

(** ** bip0039 *)

(** The word count of the benchmark's name is that of what it measures, and the lengths agree. *)
Theorem C97_bench_sizes words :
  In words WORDS -> exists c, bench_count words = Ok c /\ word_count c = words /\
    bench_entropy_bytes words = Ok (N.to_nat (entropy_bit_length c / 8)).
Proof.
  intros H. cbn in H. repeat destruct H as [<-|H]; try contradiction; eexists; (split; [reflexivity|]); split; reflexivity.
Qed.
Print Assumptions C97_bench_sizes.

(** No benchmark panics, in the setup or in the measured closure, and each measures a success:
    the parsers return the mnemonic that was generated. *)
Theorem C97_bip0039 U B fill words :
  ucd_std U -> valid_build B -> (forall n, length (fill n) = n) -> In words WORDS ->
  exists m, N.of_nat (length (split_whitespace (phrase m))) = words /\
    (exists c, bench_generate_setup words = Ok c /\ bench_generate B fill c = Ok (phrase m)) /\
    (bench_from_entropy_setup fill words = Ok (entropy m) /\
     bench_from_entropy B (entropy m) = Ok (phrase m)) /\
    (bench_from_phrase_setup B fill words = Ok (phrase m) /\
     bench_from_phrase U (phrase m) = Ok m /\ bench_from_normalized_phrase (phrase m) = Ok m) /\
    (bench_to_seed_setup B fill words = Ok m /\
     exists s, bench_to_seed U m = Ok s /\ length s = 64%nat).
Proof.
  intros HU HB Hf Hw. destruct (C97_bench_sizes words Hw) as [c [Ec [Hc En]]].
  destruct (C17_generate U B BEnglish fill c HU HB Hf) as [m [E [Ee [Hn HP]]]].
  pose proof (C04_canonical U B BEnglish _ m HU HB (or_introl HP)) as EC.
  exists m. split; [rewrite Hn; exact Hc|].
  split; [exists c; split; [exact Ec|unfold bench_generate; rewrite E; reflexivity]|].
  split; [split|split; [split; [|split]|split]].
  - unfold bench_from_entropy_setup. rewrite En, Ee. reflexivity.
  - unfold bench_from_entropy. rewrite EC. reflexivity.
  - unfold bench_from_phrase_setup. rewrite Ec. cbn [bind]. rewrite E. reflexivity.
  - unfold bench_from_phrase. rewrite HP. reflexivity.
  - unfold bench_from_normalized_phrase.
    assert (EN : from_normalized_phrase (language_of BEnglish) (phrase m) = Ok m).
    { destruct (C08_phrase_normalised U B BEnglish m HU HB (made_phrase U B _ _ m HP)) as [Hk _].
      rewrite from_phrase_nfkd in HP by apply HU. rewrite Hk in HP. exact HP. }
    rewrite EN. reflexivity.
  - unfold bench_to_seed_setup. rewrite Ec. exact E.
  - eexists. split; [reflexivity|]. apply C14_seed_length.
Qed.
Print Assumptions C97_bip0039.

(** tests/generate.rs passes with every set of features and every draw. *)
Theorem C97_test_generate U B enabled draw :
  ucd_std U -> valid_build B -> (forall b c n, length (draw b c n) = n) ->
  test_generate U B enabled draw = Ok tt.
Proof.
  intros HU HB Hf. unfold test_generate.
  assert (One : forall b c, test_generate_one U B (language_of b) (draw b c) c = Ok tt).
  { intros b c. unfold test_generate_one.
    destruct (C17_generate U B b (draw b c) c HU HB (Hf b c)) as [m [E [_ [Hn _]]]]. rewrite E. cbn [bind].
    rewrite Hn, N.eqb_refl. cbn [assert bind]. rewrite C14_seed_length. reflexivity. }
  induction (filter _ test_languages) as [|b ls IH]; [reflexivity|]. cbn [test_generate_all].
  unfold test_generate_lang. rewrite !One. cbn [bind]. exact IH.
Qed.
Print Assumptions C97_test_generate.

(** ** bip0032 *)

(** The seeds are of a length that BIP-0032 allows. *)
Theorem C97_seed_length pick fill :
  (forall n, length (fill n) = n) ->
  In (length (random_seed pick fill)) [16; 32; 64]%nat.
Proof. intros H. unfold random_seed. rewrite H. destruct pick as [|[p|p|]]; cbn; tauto. Qed.
Print Assumptions C97_seed_length.

Definition measured : Library -> Prop := fun b => b = K256 \/ b = Secp256k1Ffi.

(** When the setup is done the measured closure of the serialisation benchmarks never panics, and
    what it decodes is the key that the setup encoded. *)
Theorem C97_serialize dbg b L (HL : ec_laws L) seed x :
  bench_keygen dbg (backend b L) seed = Ok x ->
  exists s t,
    bench_xprv_encode (backend b L) x = Ok s /\
    bench_xprv_decode_setup dbg (backend b L) seed = Ok s /\
    bench_xprv_decode dbg (backend b L) s = Ok x /\
    bench_xpub_encode_setup dbg (backend b L) seed = Ok (xprv_public x) /\
    bench_xpub_encode (backend b L) (xprv_public x) = Ok t /\
    bench_xpub_decode_setup dbg (backend b L) seed = Ok t /\
    bench_xpub_decode dbg (backend b L) t = Ok (xprv_public x).
Proof.
  intros HK. unfold bench_keygen in HK.
  destruct (xprv_new dbg (backend b L) seed) as [m| |] eqn:E; [|discriminate..]. cbn [unwrap] in HK.
  assert (m = x) as -> by congruence. clear HK.
  destruct (C43_reachable_keys_export dbg b L HL seed [] x x (Forall_nil _) E eq_refl) as [_ [Hprv Hpub]].
  destruct (Hprv 0x0488ADE4 ltac:(vm_compute; tauto)) as [q [s [Eq [Es Ep]]]].
  destruct (Hpub 0x0488B21E ltac:(vm_compute; tauto)) as [r [t [Er [Et Eu]]]].
  change (Private 0x0488ADE4) with XPRV in Eq. change (Public 0x0488B21E) with XPUB in Er.
  unfold xprv_encode_with in Eq. change (negb (is_private XPRV)) with false in Eq. cbv iota in Eq.
  unfold xpub_encode_with in Er. change (negb (is_public XPUB)) with false in Er. cbv iota in Er.
  assert (Er' : xpub_encode_unchecked (xprv_public x) XPUB = r) by congruence.
  unfold bench_xprv_encode, bench_xprv_decode_setup, bench_xprv_decode, bench_xpub_encode_setup,
    bench_xpub_encode, bench_xpub_decode_setup, bench_xpub_decode.
  rewrite E. cbn [unwrap bind]. rewrite Eq. cbn [bind]. rewrite Es. cbn [unwrap].
  rewrite Er', Et. cbn [unwrap].
  unfold xprv_parse in Ep. unfold xpub_parse in Eu.
  destruct (payload_parse dbg s) as [ps| |] eqn:Ps; [|discriminate..]. cbn [bind] in Ep.
  destruct (payload_parse dbg t) as [pt| |] eqn:Pt; [|discriminate..]. cbn [bind] in Eu.
  exists s, t. rewrite Ps, Pt. cbn [unwrap bind]. rewrite Ep, Eu. repeat split; reflexivity.
Qed.
Print Assumptions C97_serialize.

(** The setups panic for exactly the seeds whose HMAC has no valid key in its left half. *)
Theorem C97_setup_panics dbg b L (HL : ec_laws L) seed :
  measured b ->
  let k := be_val (firstn 32 (hmac_sha512 (bytes_of "Bitcoin seed") seed)) in
  let no_key := k = 0 \/ order L <= k in
  (bench_keygen dbg (backend b L) seed = Panic <-> no_key) /\
  (bench_xpub_encode_setup dbg (backend b L) seed = Panic <-> no_key) /\
  (bench_xprv_decode_setup dbg (backend b L) seed = Panic <-> no_key) /\
  (bench_xpub_decode_setup dbg (backend b L) seed = Panic <-> no_key).
Proof.
  intros Hb k no_key.
  assert (HC : curve_key b = bytes_of "Bitcoin seed") by (destruct Hb as [-> | ->]; reflexivity).
  destruct (proj1 (C42_master_key dbg) b L seed HL) as [G Bd]. cbv zeta in G, Bd. rewrite HC in G, Bd. fold k in G, Bd.
  destruct (N.lt_ge_cases 0 k) as [Hk|Hk]; [destruct (N.lt_ge_cases k (order L)) as [Hn|Hn]|].
  - destruct (G (conj Hk Hn)) as [x [E _]].
    assert (NK : ~ no_key) by (intros [H|H]; lia).
    assert (EK : bench_keygen dbg (backend b L) seed = Ok x) by (unfold bench_keygen; rewrite E; reflexivity).
    destruct (C97_serialize dbg b L HL seed x EK) as (s & t & _ & E1 & _ & E2 & _ & E3 & _).
    rewrite EK, E1, E2, E3. split; [|split; [|split]]; (split; [discriminate|contradiction]).
  - assert (NK : no_key) by (right; exact Hn). destruct (Bd NK) as [e [E _]].
    unfold bench_keygen, bench_xpub_encode_setup, bench_xprv_decode_setup, bench_xpub_decode_setup.
    rewrite E. split; [|split; [|split]]; (split; [intros _; exact NK|reflexivity]).
  - assert (NK : no_key) by (left; lia). destruct (Bd NK) as [e [E _]].
    unfold bench_keygen, bench_xpub_encode_setup, bench_xprv_decode_setup, bench_xpub_decode_setup.
    rewrite E. split; [|split; [|split]]; (split; [intros _; exact NK|reflexivity]).
Qed.
Print Assumptions C97_setup_panics.

(** The step [i] from key [x] has no valid child. *)
Definition no_child {b L} (x : XPrv (backend b L)) (i : N) : Prop :=
  let k := xprv_key x in
  let n := order L in
  let t := be_val (firstn 32 (hmac_sha512 (m_chain (xprv_meta x))
             (if 2 ^ 31 <=? i then [x00] ++ be_bytes 32 k ++ be_bytes 4 i
              else compress L (pmul L k (gen L)) ++ be_bytes 4 i))) in
  n <= t \/ (t + k) mod n = 0 \/ (t = 0 /\ b <> Secp256k1Ffi).

Lemma child_or dbg b L (HL : ec_laws L) (x : XPrv (backend b L)) i : xprv_wf x -> i < 2 ^ 32 ->
  (~ no_child x i /\ exists y, xprv_derive_child dbg x i = Ok y /\ xprv_wf y) \/
  (no_child x i /\ exists e, xprv_derive_child dbg x i = Err e).
Proof.
  intros W Hi. destruct (C36_ckd_priv dbg b L HL x i W Hi) as [G Bd].
  unfold no_child. cbv zeta in *.
  set (t := be_val _) in *. set (k := xprv_key x) in *. set (n := order L) in *.
  assert (D : (t < n /\ (t + k) mod n <> 0 /\ (t = 0 -> b = Secp256k1Ffi)) \/
              (n <= t \/ (t + k) mod n = 0 \/ (t = 0 /\ b <> Secp256k1Ffi))).
  { destruct (N.lt_ge_cases t n) as [H1|H1]; [|right; left; exact H1].
    destruct (N.eq_dec ((t + k) mod n) 0) as [H2|H2]; [right; right; left; exact H2|].
    destruct (N.eq_dec t 0) as [H3|H3]; [|left; split; [exact H1|split; [exact H2|intros; contradiction]]].
    destruct b; [right; right; right; split; [exact H3|discriminate]..|].
    left. split; [exact H1|]. split; [exact H2|reflexivity]. }
  destruct D as [[H1 [H2 H3]]|H].
  - left. split.
    + intros [H|[H|[H H']]]; [lia|contradiction|]. apply H', H3, H.
    + destruct (G H1 H2 H3) as [m [E _]]. eexists. split; [exact E|]. eapply prv_child_wf; eassumption.
  - right. split; [exact H|]. destruct (Bd H) as [e [E _]]. exists e. exact E.
Qed.

(** The derive benchmark: its path parses, and the measured closure panics exactly when a step of
    the path has no valid child. *)
Theorem C97_derive dbg b L (HL : ec_laws L) seed m :
  bench_keygen dbg (backend b L) seed = Ok m ->
  exists path, bench_path = Ok path /\ length path = 5%nat /\
    ((exists x, bench_derive dbg (backend b L) path m = Ok x) \/ bench_derive dbg (backend b L) path m = Panic) /\
    (bench_derive dbg (backend b L) path m = Panic <->
     exists p i q y, path = p ++ i :: q /\ xprv_derive_path dbg m p = Ok y /\ no_child y i).
Proof.
  intros HK. unfold bench_keygen in HK.
  destruct (xprv_new dbg (backend b L) seed) as [m'| |] eqn:E; [|discriminate..]. cbn [unwrap] in HK.
  assert (m' = m) as -> by congruence. clear HK.
  destruct (reachable_wf L HL dbg b seed [] m m (Forall_nil _) E eq_refl) as [W _].
  exists [2147483648; 1; 2147483650; 2; 1000000000]. split; [vm_compute; reflexivity|]. split; [reflexivity|].
  assert (F : Forall (fun i => i < 2 ^ 32) [2147483648; 1; 2147483650; 2; 1000000000]) by (repeat constructor).
  revert F. generalize [2147483648; 1; 2147483650; 2; 1000000000] as path. clear E. intros path F.
  unfold bench_derive. revert m W. induction F as [|i path Hi F IH]; intros m W.
  - cbn [xprv_derive_path unwrap]. split; [left; eexists; reflexivity|]. split; [discriminate|].
    intros (p & i & q & y & H & _). destruct p; discriminate.
  - cbn [xprv_derive_path]. destruct (child_or dbg b L HL m i W Hi) as [[Hc [y [Ey Wy]]]|[Hc [e Ee]]].
    + rewrite Ey. cbn [bind]. destruct (IH y Wy) as [I1 I2]. split; [exact I1|]. rewrite I2. split.
      * intros (p & j & q & z & -> & Hz & Hn). exists (i :: p), j, q, z. split; [reflexivity|].
        split; [|exact Hn]. cbn [xprv_derive_path]. rewrite Ey. exact Hz.
      * intros (p & j & q & z & Hp & Hz & Hn). destruct p as [|i' p].
        -- cbn [app] in Hp. assert (j = i) as -> by congruence. cbn [xprv_derive_path] in Hz.
           assert (z = m) as -> by congruence. contradiction.
        -- cbn [app] in Hp. assert (i' = i) as -> by congruence. assert (Hp' : path = p ++ j :: q) by congruence.
           cbn [xprv_derive_path] in Hz. rewrite Ey in Hz. exists p, j, q, z. split; [exact Hp'|]. split; assumption.
    + rewrite Ee. cbn [bind unwrap]. split; [right; reflexivity|]. split; [|reflexivity]. intros _.
      exists [], i, path, m. split; [reflexivity|]. split; [reflexivity|exact Hc].
Qed.
Print Assumptions C97_derive.

(** A case of the hypotheses: a draw of 16 bytes from which both benchmarked backends get a master
    key, over the cyclic group of secp256k1's order. *)
Example C97_case :
  In 18 WORDS /\ measured K256 /\ measured Secp256k1Ffi /\
  match bench_keygen true (backend K256 Cyclic) (random_seed 0 (repeat x42)),
        bench_keygen true (backend Secp256k1Ffi Cyclic) (random_seed 2 (repeat x42)) with
  | Ok x, Ok y => negb (xprv_key x =? xprv_key y) | _, _ => false end = true.
Proof.
  split; [vm_compute; tauto|]. split; [left; reflexivity|]. split; [right; reflexivity|].
  vm_cast_no_check (eq_refl true).
Qed.
