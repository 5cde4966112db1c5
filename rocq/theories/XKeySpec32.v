(** BIP-0032 and SLIP-0010 key derivation over an elliptic curve group, written
    from the two specifications and not from the crate. *)
From Verif Require Import Base Str Sha2 Ripemd Version32 Meta32 Payload32 Curve32 XKey32.

(** The three elliptic curve libraries the crate can be built with, and the
    backend of each, so that a theorem can speak about all of them. *)
Inductive Library : Type := K256 | P256 | Secp256k1Ffi.
Definition backend (b : Library) (L : ECLib) : TweakCurve := {|
  tw_curve := {|
    hmac_key := match b with P256 => NIST_SEED | _ => BITCOIN_SEED end;
    pub_t := point L;
    prv_t := N;
    pub_from_bytes := match b with Secp256k1Ffi => ffi_public L | _ => rc_sec1 L end;
    pub_to_bytes := compress L;
    prv_from_bytes := match b with Secp256k1Ffi => ffi_secret L | _ => rc_secret L end;
    prv_to_bytes := be_bytes 32;
    prv_to_public := fun k => pmul L k (gen L);
    prv_erase := match b with Secp256k1Ffi => fun _ => ffi_erased | _ => fun k => k end
  |};
  prv_add_tweak := match b with Secp256k1Ffi => ffi_prv_add_tweak L | _ => rc_prv_add_tweak L end;
  pub_add_tweak := match b with Secp256k1Ffi => ffi_pub_add_tweak L | _ => rc_pub_add_tweak L end
|}.
Fact backend_K256 L : K256Backend L = backend K256 L.
Proof. reflexivity. Qed.
Fact backend_P256 L : P256Backend L = backend P256 L.
Proof. reflexivity. Qed.
Fact backend_Ffi L : Secp256k1FfiBackend L = backend Secp256k1Ffi L.
Proof. reflexivity. Qed.

(** What the key types guarantee: a private key is in 1..n-1, a public key is a
    point of the curve other than the identity. *)
Definition valid_private (L : ECLib) (k : N) : Prop := 0 < k < order L.
Definition valid_public (L : ECLib) (p : point L) : Prop := p <> infinity L.
Definition xprv_wf {b : Library} {L : ECLib} (x : XPrv (backend b L)) : Prop :=
  meta_wf (xprv_meta x) /\ valid_private L (xprv_key x).
Definition xpub_wf {b : Library} {L : ECLib} (x : XPub (backend b L)) : Prop :=
  meta_wf (xpub_meta x) /\ valid_public L (xpub_key x).

(** The halves of a 64-byte HMAC output; IL is read as a number. *)
Definition IL (I : list byte) : N := be_val (firstn 32 I).
Definition IR (I : list byte) : list byte := skipn 32 I.

(** BIP-0032 "Child key derivation functions": the data given to the HMAC. *)
Definition ckd_priv_data (L : ECLib) (k i : N) : list byte :=
  if 2 ^ 31 <=? i then [x00] ++ be_bytes 32 k ++ be_bytes 4 i
  else compress L (pmul L k (gen L)) ++ be_bytes 4 i.
Definition ckd_pub_data (L : ECLib) (K : point L) (i : N) : list byte :=
  compress L K ++ be_bytes 4 i.

(** BIP-0032 and SLIP-0010 allow every IL below n.  RustCrypto's nonzero scalars
    exclude 0 as well. *)
Definition allowed (b : Library) (L : ECLib) (t : N) : Prop :=
  t < order L /\ (t = 0 -> b = Secp256k1Ffi).

(** "The returned child key k_i is parse256(IL) + k_par (mod n)", unless IL >= n
    or k_i = 0. *)
Definition child_private (b : Library) (L : ECLib) (k : N) (I : list byte) (k' : N) : Prop :=
  allowed b L (IL I) /\ k' = (IL I + k) mod order L /\ k' <> 0.
(** "The returned child key K_i is point(parse256(IL)) + K_par", unless IL >= n or
    K_i is the point at infinity. *)
Definition child_public (b : Library) (L : ECLib) (K : point L) (I : list byte) (K' : point L) : Prop :=
  allowed b L (IL I) /\ K' = padd L (pmul L (IL I) (gen L)) K /\ K' <> infinity L.

(** "Key identifiers": the first 32 bits of Hash160 of the serialised public key. *)
Definition fingerprint (public_bytes : list byte) : list byte :=
  firstn 4 (ripemd160 (sha256 public_bytes)).

(** SLIP-0010: the candidates of master key generation and of child derivation.
    A rejected candidate of the master key is the next seed; a rejected candidate
    of a child is followed by 0x01 || IR || ser32(i). *)
Fixpoint master_candidate (key seed : list byte) (j : nat) : list byte :=
  match j with
  | O => hmac_sha512 key seed
  | S j' => hmac_sha512 key (master_candidate key seed j')
  end.
Fixpoint child_candidate (chain data : list byte) (i : N) (j : nat) : list byte :=
  match j with
  | O => hmac_sha512 chain data
  | S j' => hmac_sha512 chain ([x01] ++ IR (child_candidate chain data i j') ++ be_bytes 4 i)
  end.

(** [j] is the first index with [P]. *)
Definition first_index (P : nat -> Prop) (j : nat) : Prop := P j /\ forall i, (i < j)%nat -> ~ P i.
