(** Property theorem about both crates together: the texts of C107 and C108 on the real
    curves, with public keys in terms of integers (C109). *)
From Coq Require Import ZArith Znumtheory.
From Verif Require Import Base Str Sha2 Ripemd Unicode UnicodeTables UnicodeProofs Language39 Mnemonic39
  Builtin39 BuildScript39 Spec39 QueueSpec39 LangSpec39 LangProofs MnemonicProofs ExtraProofs39 Props39
  Error32 Path32 PathSpec32 PathProofs32 Version32 Meta32 Base58Spec Base58Proofs Payload32 PayloadSpec32
  PayloadProofs32 Curve32 XKey32 Slip10 XKeySpec32 XKeyProofs32 PrimeCerts PrimeCertsEd CurveSpec EdSpec Secp256k1 Nist256p1
  EdCurve Ed25519 Dalek25519 Props32k Props32c Props32e Eqb32 Vectors32 PropsWallet PropsWallet10.
Local Open Scope N_scope.

(** ** The standards *)
(** SEC1 2.2.1: [r] is k times the point (gx, gy), by repeated addition; [None] is the point
    at infinity. *)
Inductive multiple (p a gx gy : Z) : N -> option (Z * Z) -> Prop :=
| mu_one : multiple p a gx gy 1 (Some (gx, gy))
| mu_next k x y r : multiple p a gx gy k (Some (x, y)) -> chord_tangent p a gx gy x y r ->
    multiple p a gx gy (N.succ k) r
| mu_wrap k : multiple p a gx gy k None -> multiple p a gx gy (N.succ k) (Some (gx, gy)).

(** SEC1 2.3.3: [K] is the compressed form of k times (gx, gy). *)
Definition sec1_key (p a gx gy : Z) (k : N) (K : list byte) : Prop :=
  exists x y, multiple p a gx gy k (Some (x, y)) /\
    K = (if Z.odd y then x03 else x02) :: be_bytes 32 (Z.to_N x).

(** SEC2 2.4.1 and 2.4.2 *)
Definition secp256k1_key : N -> list byte -> Prop :=
  sec1_key (2 ^ 256 - 2 ^ 32 - 977) 0
    0x79BE667EF9DCBBAC55A06295CE870B07029BFCDB2DCE28D959F2815B16F81798
    0x483ADA7726A3C4655DA4FBFC0E1108A8FD17B448A68554199C47D08FFB10D4B8.
Definition secp256k1_n : N := 0xFFFFFFFFFFFFFFFFFFFFFFFFFFFFFFFEBAAEDCE6AF48A03BBFD25E8CD0364141.
Definition nist256p1_key : N -> list byte -> Prop :=
  sec1_key (2 ^ 256 - 2 ^ 224 + 2 ^ 192 + 2 ^ 96 - 1) (-3)
    0x6B17D1F2E12C4247F8BCE6E563A440F277037D812DEB33A0F4A13945D898C296
    0x4FE342E2FE1A7F9B8EE7EB4A7C0F9E162BCE33576B315ECECBB6406837BF51F5.
Definition nist256p1_n : N := 0xFFFFFFFF00000000FFFFFFFFFFFFFFFFBCE6FAADA7179E84F3B9CAC2FC632551.

(** RFC 8032, 5.1.5: [K] is the public key of the 32 bytes [s]. *)
Definition ed25519_key (s K : list byte) : Prop :=
  exists p d bx by_ x y, edwards25519 p d bx by_ /\
    edwards_multiple p d bx by_ (2 ^ 254 + 8 * (le_val (firstn 32 (sha512 s)) mod 2 ^ 254 / 8)) x y /\
    K = le_bytes 32 (Z.to_N (y + 2 ^ 255 * (x mod 2))).

(** BIP-0032, "Child key derivation (CKD) functions" and "Master key generation": the node at
    a path below [seed]; [public] relates keys and their points, [n] is the order. *)
Inductive bip32_tree (public : N -> list byte -> Prop) (n : N) (secret : list byte) (zero : bool) (seed : list byte)
    : list N -> node -> Prop :=
| bt_master I : I = hmac_sha512 secret seed -> 0 < be_val (firstn 32 I) < n ->
    bip32_tree public n secret zero seed [] (Node 0 [x00; x00; x00; x00] 0 (skipn 32 I) (be_val (firstn 32 I)))
| bt_child p nd K i I t k :
    bip32_tree public n secret zero seed p nd -> public (n_key nd) K -> i < 2 ^ 32 ->
    I = hmac_sha512 (n_chain nd) ((if 2 ^ 31 <=? i then x00 :: be_bytes 32 (n_key nd) else K) ++ be_bytes 4 i) ->
    t = be_val (firstn 32 I) -> t < n -> (t = 0 -> zero = true) -> k = (t + n_key nd) mod n -> k <> 0 ->
    bip32_tree public n secret zero seed (p ++ [i])
      (Node (N.min 255 (n_depth nd + 1)) (firstn 4 (ripemd160 (sha256 K))) i (skipn 32 I) k).

(** SLIP-0010 for the two curves *)
Inductive slip10_tree (public : N -> list byte -> Prop) (n : N) (secret : list byte) (zero : bool) (seed : list byte)
    : list N -> node -> Prop :=
| st_master J :
    first_good (fun I => 0 < be_val (firstn 32 I) < n) (hmac_sha512 secret) (hmac_sha512 secret seed) J ->
    slip10_tree public n secret zero seed [] (Node 0 [x00; x00; x00; x00] 0 (skipn 32 J) (be_val (firstn 32 J)))
| st_child p nd K i J :
    slip10_tree public n secret zero seed p nd -> public (n_key nd) K -> i < 2 ^ 32 ->
    first_good
      (fun I => be_val (firstn 32 I) < n /\ (be_val (firstn 32 I) = 0 -> zero = true) /\
                (be_val (firstn 32 I) + n_key nd) mod n <> 0)
      (fun I => hmac_sha512 (n_chain nd) (x01 :: skipn 32 I ++ be_bytes 4 i))
      (hmac_sha512 (n_chain nd)
         ((if 2 ^ 31 <=? i then x00 :: be_bytes 32 (n_key nd) else K) ++ be_bytes 4 i)) J ->
    slip10_tree public n secret zero seed (p ++ [i])
      (Node (N.min 255 (n_depth nd + 1)) (firstn 4 (ripemd160 (sha256 K))) i (skipn 32 J)
         ((be_val (firstn 32 J) + n_key nd) mod n)).

(** SLIP-0010 for ed25519 *)
Inductive ed25519_tree (seed : list byte) : list N -> node -> Prop :=
| et_master I : I = hmac_sha512 (bytes_of "ed25519 seed") seed ->
    ed25519_tree seed [] (Node 0 [x00; x00; x00; x00] 0 (skipn 32 I) (be_val (firstn 32 I)))
| et_child p nd K i I :
    ed25519_tree seed p nd -> ed25519_key (be_bytes 32 (n_key nd)) K -> 2 ^ 31 <= i < 2 ^ 32 ->
    I = hmac_sha512 (n_chain nd) (x00 :: be_bytes 32 (n_key nd) ++ be_bytes 4 i) ->
    ed25519_tree seed (p ++ [i])
      (Node (N.min 255 (n_depth nd + 1)) (firstn 4 (ripemd160 (sha256 (x00 :: K)))) i (skipn 32 I)
         (be_val (firstn 32 I))).

(** ** Lemmas *)
Lemma mod_diff p x y : (p <> 0 -> x mod p = 0 -> y mod p = 0 -> (x - y) mod p = 0)%Z.
Proof. intros N X Y. rewrite Zminus_mod, X, Y. reflexivity. Qed.
Lemma close_eq p x y : (0 <= x < p -> 0 <= y < p -> (x - y) mod p = 0 -> x = y)%Z.
Proof.
  intros X Y E. apply Z.mod_divide in E as [c E]; [|lia].
  assert (c = 0)%Z by nia. subst c. lia.
Qed.

Lemma chord_tangent_fun p a b x1 y1 x2 y2 r r' : prime p ->
  affine_point p a b x1 y1 -> affine_point p a b x2 y2 ->
  chord_tangent p a x1 y1 x2 y2 r -> chord_tangent p a x1 y1 x2 y2 r' -> r = r'.
Proof.
  intros Pr (X1 & Y1 & C1) (X2 & Y2 & C2). pose proof (prime_ge_2 p Pr) as P2. assert (NZ : p <> 0%Z) by lia.
  unfold chord_tangent. destruct ((x1 =? x2)%Z && ((y1 + y2) mod p =? 0)%Z) eqn:E0; [congruence|].
  intros (l & x3 & y3 & -> & BX & BY & EL & EX & EY) (l' & x3' & y3' & -> & BX' & BY' & EL' & EX' & EY').
  assert (L : (p | l - l')%Z).
  { destruct (x1 =? x2)%Z eqn:Ex.
    - cbn [andb] in E0. apply Z.eqb_eq in Ex. subst x2. apply Z.eqb_neq in E0.
      pose proof (mod_diff p _ _ NZ C1 C2) as C.
      replace (y1 * y1 - (x1 * x1 * x1 + a * x1 + b) - (y2 * y2 - (x1 * x1 * x1 + a * x1 + b)))%Z
        with ((y1 + y2) * (y1 - y2))%Z in C by ring.
      apply Z.mod_divide in C; [|exact NZ]. destruct (prime_mult p Pr _ _ C) as [C'|C'].
      { exfalso. apply E0. apply Z.mod_divide; assumption. }
      assert (y1 = y2) by (apply (close_eq p); try assumption; apply Z.mod_divide; assumption). subst y2.
      pose proof (mod_diff p _ _ NZ EL EL') as D.
      replace (l * (2 * y1) - (3 * (x1 * x1) + a) - (l' * (2 * y1) - (3 * (x1 * x1) + a)))%Z
        with ((l - l') * (y1 + y1))%Z in D by ring.
      apply Z.mod_divide in D; [|exact NZ]. destruct (prime_mult p Pr _ _ D) as [D'|D']; [exact D'|].
      exfalso. apply E0. apply Z.mod_divide; assumption.
    - apply Z.eqb_neq in Ex. pose proof (mod_diff p _ _ NZ EL EL') as D.
      replace (l * (x2 - x1) - (y2 - y1) - (l' * (x2 - x1) - (y2 - y1)))%Z with ((l - l') * (x2 - x1))%Z in D by ring.
      apply Z.mod_divide in D; [|exact NZ]. destruct (prime_mult p Pr _ _ D) as [D'|D']; [exact D'|].
      exfalso. apply Ex. symmetry. apply (close_eq p); try assumption. apply Z.mod_divide; assumption. }
  destruct L as [c L]. assert (EQ : (l = l' + c * p)%Z) by lia. clear L. subst l.
  assert (x3 = x3').
  { apply (close_eq p); try assumption. pose proof (mod_diff p _ _ NZ EX EX') as D.
    apply Z.mod_divide in D as [d D]; [|exact NZ]. apply Z.mod_divide; [exact NZ|].
    exists (d + (2 * l' * c + c * c * p))%Z. lia. }
  subst x3'. f_equal. f_equal.
  apply (close_eq p); try assumption. pose proof (mod_diff p _ _ NZ EY EY') as D.
  apply Z.mod_divide in D as [d D]; [|exact NZ]. apply Z.mod_divide; [exact NZ|].
  exists (d + c * (x1 - x3))%Z. lia.
Qed.

Section Curve.
Context (L : ECLib) (HL : ec_laws L) (xy : point L -> option (Z * Z)) (p a b gx gy : Z) (n : N).
Context (Pr : prime p) (HC : is_curve L xy p a b gx gy n).

Lemma multiple_iff k r : multiple p a gx gy k r <-> k <> 0 /\ r = xy (pmul L k (gen L)).
Proof.
  destruct HC as (INJ & ON & INF & ADD & GEN & ORD & _).
  assert (G1 : pmul L 1 (gen L) = gen L).
  { change 1 with (N.succ 0). rewrite (Curve32.mul_succ L HL), (Curve32.mul_zero L HL), (Curve32.add_inf L HL). reflexivity. }
  split.
  - intros H. induction H as [|k x y r H [Hk IH] T|k H [Hk IH]].
    + split; [discriminate|]. rewrite G1. auto.
    + split; [lia|]. rewrite (Curve32.mul_succ L HL). symmetry in IH.
      eapply chord_tangent_fun; [exact Pr| | |exact T|exact (ADD _ _ _ _ _ _ GEN IH)].
      * apply ON. eauto.
      * apply ON. eauto.
    + split; [lia|]. rewrite (Curve32.mul_succ L HL). rewrite (INJ (pmul L k (gen L)) (infinity L)) by congruence.
      rewrite (Curve32.add_inf L HL). auto.
  - intros [Hk ->]. induction k as [|k IH] using N.peano_ind; [contradiction|].
    destruct (N.eq_dec k 0) as [->|Nk].
    { change (N.succ 0) with 1. rewrite G1, GEN. constructor. }
    specialize (IH Nk). rewrite (Curve32.mul_succ L HL). destruct (xy (pmul L k (gen L))) as [[x y]|] eqn:E.
    + eapply mu_next; [exact IH|]. exact (ADD _ _ _ _ _ _ GEN E).
    + rewrite (INJ (pmul L k (gen L)) (infinity L)) by congruence. rewrite (Curve32.add_inf L HL), GEN.
      apply mu_wrap. exact IH.
Qed.

Lemma sec1_key_iff k K : 0 < k < order L ->
  sec1_key p a gx gy k K <-> K = compress L (pmul L k (gen L)).
Proof.
  intros Hk. destruct HC as (INJ & ON & INF & ADD & GEN & ORD & COMP & _). unfold sec1_key. split.
  - intros (x & y & M & ->). apply multiple_iff in M as [_ M]. symmetry. apply COMP. auto.
  - intros ->. destruct (xy (pmul L k (gen L))) as [[x y]|] eqn:E.
    + exists x, y. split; [apply multiple_iff; split; [lia|auto]|]. apply COMP. exact E.
    + exfalso. assert (Z : pmul L k (gen L) = infinity L) by (apply INJ; congruence).
      apply (Curve32.gen_order L HL) in Z. rewrite N.mod_small in Z by apply Hk. lia.
Qed.
End Curve.

Section Trees.
Context (L : ECLib) (HL : ec_laws L).

Lemma mod_range t k : t mod order L <> 0 -> k = t mod order L -> 0 < k < order L.
Proof.
  intros H ->. pose proof (Curve32.order_range L HL). pose proof (N.mod_lt t (order L)). lia.
Qed.

Lemma bip32_node_range secret zero seed p nd : bip32_node L secret zero seed p nd -> 0 < n_key nd < order L.
Proof.
  intros H. destruct H as [I E V|p nd i I t k H Hi E Et Ht Hz Ek NZ]; cbn [n_key]; [exact V|].
  subst k. eapply mod_range; [exact NZ|reflexivity].
Qed.
Lemma first_good_good good next I J : first_good good next I J -> good J.
Proof. intros H. induction H; assumption. Qed.
Lemma slip10_node_range secret zero seed p nd : slip10_node L secret zero seed p nd -> 0 < n_key nd < order L.
Proof.
  intros H. destruct H as [J G|p nd i J H Hi G]; cbn [n_key]; apply first_good_good in G; [exact G|].
  destruct G as (_ & _ & NZ). eapply mod_range; [exact NZ|reflexivity].
Qed.

Context (public : N -> list byte -> Prop).
Context (HP : forall k K, 0 < k < order L -> public k K <-> K = compress L (pmul L k (gen L))).

Lemma bip32_tree_iff secret zero seed p nd :
  bip32_tree public (order L) secret zero seed p nd <-> bip32_node L secret zero seed p nd.
Proof.
  split.
  - intros H. induction H as [I E V|p nd K i I t k H IH PK Hi E Et Ht Hz Ek NZ]; [apply bn_master; assumption|].
    apply HP in PK; [|exact (bip32_node_range _ _ _ _ _ IH)]. subst K.
    eapply bn_child; eassumption.
  - intros H. induction H as [I E V|p nd i I t k H IH Hi E Et Ht Hz Ek NZ]; [apply bt_master; assumption|].
    eapply bt_child; try eassumption. apply HP; [exact (bip32_node_range _ _ _ _ _ H)|reflexivity].
Qed.

Lemma slip10_tree_iff secret zero seed p nd :
  slip10_tree public (order L) secret zero seed p nd <-> slip10_node L secret zero seed p nd.
Proof.
  split.
  - intros H. induction H as [J G|p nd K i J H IH PK Hi G]; [apply sn_master; assumption|].
    apply HP in PK; [|exact (slip10_node_range _ _ _ _ _ IH)]. subst K.
    eapply sn_child; eassumption.
  - intros H. induction H as [J G|p nd i J H IH Hi G]; [apply st_master; assumption|].
    eapply st_child; try eassumption. apply HP; [exact (slip10_node_range _ _ _ _ _ H)|reflexivity].
Qed.
Lemma key_text n nd t : 0 < n_key nd < order L ->
  (exists K, public (n_key nd) K /\ node_text n nd K t) <-> xpub_text L n nd t.
Proof.
  intros R. unfold xpub_text. split.
  - intros (K & PK & T). apply HP in PK; [|exact R]. subst K. exact T.
  - intros T. eexists. split; [apply HP; [exact R|reflexivity]|exact T].
Qed.
End Trees.

(** ** C109 *)
(** What the standards prescribe for the curve of a library: the text used as HMAC key, the
    order and the public keys. *)
Definition std_secret (b : Library) : list byte :=
  bytes_of (match b with P256 => "Nist256p1 seed" | _ => "Bitcoin seed" end).
Definition std_order (b : Library) : N := match b with P256 => nist256p1_n | _ => secp256k1_n end.
Definition std_public (b : Library) : N -> list byte -> Prop :=
  match b with P256 => nist256p1_key | _ => secp256k1_key end.
(** A tweak of zero, of which BIP-0032 does not speak, is used by libsecp256k1 only. *)
Definition std_zero (b : Library) : bool := match b with Secp256k1Ffi => true | _ => false end.

Lemma implements_facts b L : implements b L ->
  ec_laws L /\ order L = std_order b /\ curve_key b = std_secret b /\
  forall k K, 0 < k < order L -> std_public b k K <-> K = compress L (pmul L k (gen L)).
Proof.
  intros H. destruct H as [dc|dc|dc].
  - destruct (C55_secp256k1 dc) as [HL HC]. split; [exact HL|]. split; [reflexivity|]. split; [reflexivity|].
    exact (sec1_key_iff _ HL _ _ _ _ _ _ _ secp256k1_p_prime HC).
  - destruct (C55_secp256k1 dc) as [HL HC]. split; [exact HL|]. split; [reflexivity|]. split; [reflexivity|].
    exact (sec1_key_iff _ HL _ _ _ _ _ _ _ secp256k1_p_prime HC).
  - destruct (C55_nist256p1 dc) as [HL HC]. split; [exact HL|]. split; [reflexivity|]. split; [reflexivity|].
    exact (sec1_key_iff _ HL _ _ _ _ _ _ _ nist256p1_p_prime HC).
Qed.

Theorem C109_bip32 U dbg b L l text pass ptext n t : implements b L -> ucd_std U -> n < 2 ^ 32 ->
  let tree := bip32_tree (std_public b) (std_order b) (std_secret b) (std_zero b) in
  ((exists m p (r x : XPrv (backend b L)) q,
      from_phrase U (language_of l) text = Ok m /\ path_parse ptext = Ok p /\
      xprv_new dbg (backend b L) (to_seed U m pass) = Ok r /\ xprv_derive_path dbg r p = Ok x /\
      xprv_encode_with x (Private n) = Ok q /\ payload_show q = Ok t) <->
   exists seed p nd, bip39_seed U (file_of l) text pass seed /\ spells_path ptext p /\
     tree seed p nd /\ xprv_text n nd t) /\
  ((exists m p (r x : XPrv (backend b L)) q,
      from_phrase U (language_of l) text = Ok m /\ path_parse ptext = Ok p /\
      xprv_new dbg (backend b L) (to_seed U m pass) = Ok r /\ xprv_derive_path dbg r p = Ok x /\
      xpub_encode_with (xprv_public x) (Public n) = Ok q /\ payload_show q = Ok t) <->
   exists seed p nd K, bip39_seed U (file_of l) text pass seed /\ spells_path ptext p /\
     tree seed p nd /\ std_public b (n_key nd) K /\ node_text n nd K t).
Proof.
  intros H HU Hn tree. destruct (implements_facts b L H) as (HL & EO & EK & HP).
  assert (TI : forall seed p nd, tree seed p nd <-> bip32_node L (curve_key b) (std_zero b) seed p nd).
  { intros seed p nd. unfold tree. rewrite <- EO, <- EK. apply (bip32_tree_iff L HL _ HP). }
  split.
  - rewrite (C107_private U dbg b L HL l text pass ptext n t HU Hn).
    split; intros (seed & p & nd & A & B & C & D); exists seed, p, nd; (split; [exact A|]); (split; [exact B|]);
      (split; [apply TI; exact C|exact D]).
  - rewrite (C107_public U dbg b L HL l text pass ptext n t HU Hn). split.
    + intros (seed & p & nd & A & B & C & D).
      apply (key_text L _ HP) in D as (K & D1 & D2); [|exact (bip32_node_range L HL _ _ _ _ _ C)].
      exists seed, p, nd, K. split; [exact A|]. split; [exact B|]. split; [apply TI; exact C|auto].
    + intros (seed & p & nd & K & A & B & C & D1 & D2). apply TI in C.
      exists seed, p, nd. split; [exact A|]. split; [exact B|]. split; [exact C|].
      apply (key_text L _ HP); [exact (bip32_node_range L HL _ _ _ _ _ C)|eauto].
Qed.
Print Assumptions C109_bip32.

Theorem C109_slip10 U dbg b L l text pass ptext n t : implements b L -> ucd_std U -> n < 2 ^ 32 ->
  let tree := slip10_tree (std_public b) (std_order b) (std_secret b) (std_zero b) in
  ((exists fuel m p (r x : XPrv (backend b L)) q,
      from_phrase U (language_of l) text = Ok m /\ path_parse ptext = Ok p /\
      new_slip10 dbg fuel (backend b L) (to_seed U m pass) = Some (Ok r) /\ slip10_prv_path fuel r p = Some (Ok x) /\
      xprv_encode_with x (Private n) = Ok q /\ payload_show q = Ok t) <->
   exists seed p nd, bip39_seed U (file_of l) text pass seed /\ spells_path ptext p /\
     tree seed p nd /\ xprv_text n nd t) /\
  ((exists fuel m p (r x : XPrv (backend b L)) q,
      from_phrase U (language_of l) text = Ok m /\ path_parse ptext = Ok p /\
      new_slip10 dbg fuel (backend b L) (to_seed U m pass) = Some (Ok r) /\ slip10_prv_path fuel r p = Some (Ok x) /\
      xpub_encode_with (xprv_public x) (Public n) = Ok q /\ payload_show q = Ok t) <->
   exists seed p nd K, bip39_seed U (file_of l) text pass seed /\ spells_path ptext p /\
     tree seed p nd /\ std_public b (n_key nd) K /\ node_text n nd K t).
Proof.
  intros H HU Hn tree. destruct (implements_facts b L H) as (HL & EO & EK & HP).
  assert (TI : forall seed p nd, tree seed p nd <-> slip10_node L (curve_key b) (std_zero b) seed p nd).
  { intros seed p nd. unfold tree. rewrite <- EO, <- EK. apply (slip10_tree_iff L HL _ HP). }
  split.
  - rewrite (C108_private U dbg b L HL l text pass ptext n t HU Hn).
    split; intros (seed & p & nd & A & B & C & D); exists seed, p, nd; (split; [exact A|]); (split; [exact B|]);
      (split; [apply TI; exact C|exact D]).
  - rewrite (C108_public U dbg b L HL l text pass ptext n t HU Hn). split.
    + intros (seed & p & nd & A & B & C & D).
      apply (key_text L _ HP) in D as (K & D1 & D2); [|exact (slip10_node_range L HL _ _ _ _ _ C)].
      exists seed, p, nd, K. split; [exact A|]. split; [exact B|]. split; [apply TI; exact C|auto].
    + intros (seed & p & nd & K & A & B & C & D1 & D2). apply TI in C.
      exists seed, p, nd. split; [exact A|]. split; [exact B|]. split; [exact C|].
      apply (key_text L _ HP); [exact (slip10_node_range L HL _ _ _ _ _ C)|eauto].
Qed.
Print Assumptions C109_slip10.

(** On the real curve the keys of ed25519 are those of RFC 8032. *)
Lemma ed25519_key_iff strict s K :
  ed25519_key s K <-> K = ed_raw (Ed25519Dalek strict) (ed_verifying (Ed25519Dalek strict) s).
Proof.
  assert (E : forall p d bx by_, edwards25519 p d bx by_ -> exists x y,
    edwards_multiple p d bx by_ (2 ^ 254 + 8 * (le_val (firstn 32 (sha512 s)) mod 2 ^ 254 / 8)) x y /\
    (forall x' y', edwards_multiple p d bx by_ (2 ^ 254 + 8 * (le_val (firstn 32 (sha512 s)) mod 2 ^ 254 / 8)) x' y' ->
       x' = x /\ y' = y) /\
    ed_raw (Ed25519Dalek strict) (ed_verifying (Ed25519Dalek strict) s)
      = le_bytes 32 (Z.to_N (y + 2 ^ 255 * (x mod 2)))).
  { intros p d bx by_ P. destruct (C63_ed25519_public_key strict p d bx by_ P s) as (x & y & M & Un & _ & _ & B).
    exists x, y. split; [exact M|]. split; [exact Un|].
    cbv zeta in B. cbn [Ed25519DalekBackend pub_to_bytes prv_to_public] in B. injection B as B. exact B. }
  split.
  - intros (p & d & bx & by_ & x & y & P & M & ->). destruct (E p d bx by_ P) as (x' & y' & _ & Un & ->).
    destruct (Un x y M) as [-> ->]. reflexivity.
  - intros ->. destruct (E _ _ _ _ rfc_parameters) as (x & y & M & _ & ->).
    exists ed25519_p, ed25519_d, (fst ed25519_B), (snd ed25519_B), x, y. split; [exact rfc_parameters|].
    split; [exact M|reflexivity].
Qed.

Lemma ed25519_tree_iff strict seed p nd :
  ed25519_tree seed p nd <->
  ed25519_node (fun s => ed_raw (Ed25519Dalek strict) (ed_verifying (Ed25519Dalek strict) s)) seed p nd.
Proof.
  split.
  - intros H. induction H as [I E|p nd K i I H IH PK Hi E]; [apply en_master; exact E|].
    apply (ed25519_key_iff strict) in PK. subst K. apply en_child; assumption.
  - intros H. induction H as [I E|p nd i I H IH Hi E]; [apply et_master; exact E|].
    apply et_child; try assumption. apply (ed25519_key_iff strict). reflexivity.
Qed.

Theorem C109_ed25519 U dbg strict fuel l text pass ptext n t : ucd_std U -> n < 2 ^ 32 ->
  let D := Ed25519Dalek strict in
  ((exists m p (r x : XPrv (Ed25519DalekBackend D)) q,
      from_phrase U (language_of l) text = Ok m /\ hpath_parse ptext = Ok p /\
      new_slip10 dbg (S fuel) (Ed25519DalekBackend D) (to_seed U m pass) = Some (Ok r) /\
      slip10_hardened_path dbg (S fuel) r p = Some (Ok x) /\
      xprv_encode_with x (Private n) = Ok q /\ payload_show q = Ok t) <->
   exists seed p nd, bip39_seed U (file_of l) text pass seed /\ spells_path ptext p /\
     ed25519_tree seed p nd /\ xprv_text n nd t) /\
  ((exists m p (r x : XPrv (Ed25519DalekBackend D)) q,
      from_phrase U (language_of l) text = Ok m /\ hpath_parse ptext = Ok p /\
      new_slip10 dbg (S fuel) (Ed25519DalekBackend D) (to_seed U m pass) = Some (Ok r) /\
      slip10_hardened_path dbg (S fuel) r p = Some (Ok x) /\
      xpub_encode_with (xprv_public x) (Public n) = Ok q /\ payload_show q = Ok t) <->
   exists seed p nd K, bip39_seed U (file_of l) text pass seed /\ spells_path ptext p /\
     ed25519_tree seed p nd /\ ed25519_key (be_bytes 32 (n_key nd)) K /\ node_text n nd (x00 :: K) t) /\
  (forall seed p, Forall (fun i => 2 ^ 31 <= i < 2 ^ 32) p -> exists nd, ed25519_tree seed p nd).
Proof.
  intros HU Hn D. destruct (C108_ed25519 U dbg D (dalek_laws strict) fuel l text pass ptext n t HU Hn) as (A & B & C & _).
  split; [|split].
  - rewrite A. split; intros (seed & p & nd & S1 & S2 & S3 & S4); exists seed, p, nd; (split; [exact S1|]);
      (split; [exact S2|]); (split; [apply (ed25519_tree_iff strict); exact S3|exact S4]).
  - rewrite B. split.
    + intros (seed & p & nd & S1 & S2 & S3 & S4). eexists seed, p, nd, _. split; [exact S1|]. split; [exact S2|].
      split; [apply (ed25519_tree_iff strict); exact S3|]. split; [apply (ed25519_key_iff strict); reflexivity|exact S4].
    + intros (seed & p & nd & K & S1 & S2 & S3 & S4 & S5). apply (ed25519_key_iff strict) in S4. subst K.
      exists seed, p, nd. split; [exact S1|]. split; [exact S2|].
      split; [apply (ed25519_tree_iff strict); exact S3|exact S5].
  - intros seed p F. destruct (proj1 (C seed p) F) as (nd & N). exists nd. apply (ed25519_tree_iff strict). exact N.
Qed.
Print Assumptions C109_ed25519.

Lemma shown b dc (x : Prv b dc) pub prv :
  (let? xpub := xpub_encode_with (xprv_public x) (into_version Xpub) in
   let? xpub := payload_show xpub in
   let? xprv := xprv_encode_with x (into_version Xprv) in
   let? xprv := payload_show xprv in Ok (xpub, xprv)) = Ok (pub, prv) ->
  (exists q, xprv_encode_with x (Private 0x0488ADE4) = Ok q /\ payload_show q = Ok prv) /\
  (exists q, xpub_encode_with (xprv_public x) (Public 0x0488B21E) = Ok q /\ payload_show q = Ok pub).
Proof.
  change (into_version Xpub) with (Public 0x0488B21E). change (into_version Xprv) with (Private 0x0488ADE4).
  destruct (xpub_encode_with _ _) as [q|e|]; [|discriminate..]. cbn [bind].
  destruct (payload_show q) as [t|e|] eqn:E1; [|discriminate..]. cbn [bind].
  destruct (xprv_encode_with _ _) as [q'|e|]; [|discriminate..]. cbn [bind].
  destruct (payload_show q') as [t'|e|] eqn:E2; [|discriminate..]. cbn [bind].
  intros [= <- <-]. split; [exists q'|exists q]; auto.
Qed.

Lemma bounded_path p : forallb (fun i => i <? 2 ^ 32) p = true -> Forall (fun i => i < 2 ^ 32) p.
Proof. intros H. apply Forall_forall. intros i Hi. rewrite forallb_forall in H. specialize (H i Hi). lia. Qed.
Lemma standard_case b dc seed ptext p (r x : Prv b dc) pub prv : implements b (Secp256k1 dc) ->
  Forall (fun i => i < 2 ^ 32) p ->
  xprv_new true (backend b (Secp256k1 dc)) seed = Ok r -> xprv_derive_path true r p = Ok x ->
  path_parse ptext = Ok p -> run_case b dc seed ptext = Ok (pub, prv) ->
  exists nd K, bip32_tree (std_public b) (std_order b) (std_secret b) (std_zero b) seed p nd /\
    std_public b (n_key nd) K /\ xprv_text 0x0488ADE4 nd prv /\ node_text 0x0488B21E nd K pub.
Proof.
  intros H F R D P V. unfold run_case in V. rewrite R, P in V. cbn [bind] in V. rewrite D in V. cbn [bind] in V.
  apply shown in V as [Q Q']. destruct (implements_facts b _ H) as (HL & EO & EK & HP).
  assert (N : bip32_node (Secp256k1 dc) (curve_key b) (std_zero b) seed p (node_of x)).
  { apply (tree_iff _ HL true b). split; [exact F|]. exists r, x. auto. }
  destruct (reachable_wf _ HL true b _ p r x F R D) as [W _].
  apply (prv_text _ HL) in Q; [|exact W|reflexivity]. apply (pub_text _ HL) in Q'; [|exact W|reflexivity].
  apply (key_text _ _ HP) in Q' as (K & Q1 & Q2); [|exact (bip32_node_range _ HL _ _ _ _ _ N)].
  exists (node_of x), K. split; [|auto]. rewrite <- EO, <- EK. apply (bip32_tree_iff _ HL _ HP). exact N.
Qed.

(** The first test vector of BIP-0032, chain m/0'/1. *)
Example C109_case : exists nd K,
  bip32_tree secp256k1_key secp256k1_n (bytes_of "Bitcoin seed") false seed_v1 [2147483648; 1] nd /\
  secp256k1_key (n_key nd) K /\
  xprv_text 0x0488ADE4 nd (lit "xprv9wTYmMFdV23N2TdNG573QoEsfRrWKQgWeibmLntzniatZvR9BmLnvSxqu53Kw1UmYPxLgboyZQaXwTCg8MSY3H2EU4pWcQDnRnrVA1xe8fs") /\
  node_text 0x0488B21E nd K (lit "xpub6ASuArnXKPbfEwhqN6e3mwBcDTgzisQN1wXN9BJcM47sSikHjJf3UFHKkNAWbWMiGj7Wf5uMash7SyYq527Hqck2AxYysAA7xmALppuCkwQ").
Proof.
  pose (dc := fun _ : list byte => None : option secp256k1_point).
  assert (I : implements K256 (Secp256k1 dc)) by constructor.
  pose proof (proj1 v1_path2 dc) as V. pose proof (proj1 v1_master dc) as M.
  assert (D : xprv_derive_path true (v1_0 K256 dc) [2147483648; 1] = Ok (v1_2 K256 dc)).
  { cbn [xprv_derive_path]. rewrite (proj1 v1_step1 dc). cbn [bind]. rewrite (proj1 v1_step2 dc). reflexivity. }
  assert (P : path_parse (lit "m/0H/1") = Ok [2147483648; 1]) by (apply Eqb32.run_path; vm_cast_no_check (eq_refl true)).
  exact (standard_case K256 dc seed_v1 (lit "m/0H/1") [2147483648; 1] (v1_0 K256 dc) (v1_2 K256 dc) _ _ I
           (bounded_path [2147483648; 1] eq_refl) M D P V).
Qed.
