(** Model of bip0032/src/xkey/core/private.rs and public.rs. *)
From Verif Require Import Base Str Error32 Version32 Path32 Meta32 Payload32 Curve32.

(** private.rs 16-22, public.rs 16-22 *)
Record XPrv (C : Curve) : Type := mkXPrv { xprv_meta : Metadata; xprv_key : prv_t C }.
Record XPub (C : Curve) : Type := mkXPub { xpub_meta : Metadata; xpub_key : pub_t C }.
Arguments mkXPrv {C}. Arguments xprv_meta {C}. Arguments xprv_key {C}.
Arguments mkXPub {C}. Arguments xpub_meta {C}. Arguments xpub_key {C}.

Definition master_meta (chain : list byte) : Metadata :=
  {| m_depth := x00; m_fingerprint := zeros 4; m_child := 0; m_chain := chain |}.

(** private.rs 32-55 *)
Definition xprv_new (dbg : profile) (C : Curve) (seed : list byte) : res Error (XPrv C) :=
  let? (master_key, chain_code) := derive_master_key_parts seed (hmac_key C) in
  match prv_from_bytes C master_key with
  | inl err =>
      raise (set_source dbg
               (with_context (err_new InvalidKeyData (lit "invalid master key derived from seed"))
                  (lit "seed_len") (dec (N.of_nat (length seed))))
               err)
  | inr private_key => Ok (mkXPrv (master_meta chain_code) private_key)
  end.

(** private.rs 58-60 *)
Definition xprv_public {C : Curve} (x : XPrv C) : XPub C :=
  mkXPub (xprv_meta x) (prv_to_public C (xprv_key x)).

(** [u8::saturating_add(1)] *)
Definition sat_succ (d : byte) : byte := n2b (N.min 255 (b2n d + 1)).

(** private.rs 118-123 and public.rs 78-83: the child's metadata *)
Definition child_meta (parent : Metadata) (parent_public : list byte) (child : N)
    (chain : list byte) : Metadata :=
  {| m_depth := sat_succ (m_depth parent);
     m_fingerprint := key_fingerprint parent_public;
     m_child := child;
     m_chain := chain |}.

(** private.rs 97-107: what the MAC is fed *)
Definition child_data {C : Curve} (x : XPrv C) (parent_public_bytes : list byte) (child : N)
    : res Error (list byte) :=
  if child_is_hardened child then
    let? data := put 1 33 (prv_to_bytes C (xprv_key x)) (zeros 37) in
    put 33 37 (child_to_bytes child) data
  else Ok (parent_public_bytes ++ child_to_bytes child).

(** private.rs 93-126 *)
Definition xprv_derive_child (dbg : profile) {C : TweakCurve} (x : XPrv C) (child : N)
    : res Error (XPrv C) :=
  let parent_public_bytes := pub_to_bytes C (prv_to_public C (xprv_key x)) in
  let? data := child_data x parent_public_bytes child in
  let? (il, ir) := hmac_sha512_split (m_chain (xprv_meta x)) data in
  match prv_add_tweak C (xprv_key x) il with
  | inl err =>
      raise (set_source dbg
               (with_context
                  (with_context (err_new InvalidDerivation (lit "invalid child private key"))
                     (lit "child_index") (dec (child_index child)))
                  (lit "hardened") (show_bool (child_is_hardened child)))
               err)
  | inr child_key =>
      Ok (mkXPrv (child_meta (xprv_meta x) parent_public_bytes child ir) child_key)
  end.

(** private.rs 129-135 *)
Fixpoint xprv_derive_path (dbg : profile) {C : TweakCurve} (x : XPrv C) (path : list N)
    : res Error (XPrv C) :=
  match path with
  | [] => Ok x
  | child :: rest =>
      let? y := xprv_derive_child dbg x child in
      xprv_derive_path dbg y rest
  end.

(** private.rs 138-142, then the drop of the metadata *)
Definition xprv_drop {C : Curve} (x : XPrv C) : XPrv C :=
  mkXPrv (meta_zeroize (xprv_meta x)) (prv_erase C (xprv_key x)).

(** private.rs 161-172 *)
Definition xprv_encode_unchecked {C : Curve} (x : XPrv C) (version : Version)
    : res Error Payload :=
  let? key_data := put 1 33 (prv_to_bytes C (xprv_key x)) (zeros 33) in
  Ok {| p_version := version; p_meta := xprv_meta x; p_key := key_data |}.

(** private.rs 151-158 *)
Definition xprv_encode_with {C : Curve} (x : XPrv C) (version : Version) : res Error Payload :=
  if negb (is_private version) then
    Err (with_context (err_new InvalidVersion (lit "expected private version bytes"))
           (lit "version") (version_show version))
  else xprv_encode_unchecked x version.

(** [{:02x}]: lower-case hexadecimal *)
Definition hexdig_lower (n : N) : N := if n <? 10 then 48 + n else 87 + n.
Definition hex_byte_lower (b : byte) : str :=
  lit "0x" ++ [hexdig_lower (b2n b / 16); hexdig_lower (b2n b mod 16)].

(** private.rs 196-212 *)
Definition xprv_try_from (dbg : profile) (C : Curve) (payload : Payload) : res Error (XPrv C) :=
  if negb (is_private (p_version payload)) then
    Err (with_context (err_new InvalidVersion (lit "extended key is not private"))
           (lit "version") (version_show (p_version payload)))
  else
    let? raw := put 0 32 (skipn 1 (p_key payload)) (zeros 32) in
    match prv_from_bytes C raw with
    | inl err =>
        raise (set_source dbg
                 (with_context (err_new InvalidKeyData (lit "invalid private key data"))
                    (lit "key_prefix") (hex_byte_lower (nth 0 (p_key payload) x00)))
                 err)
    | inr private_key => Ok (mkXPrv (p_meta payload) private_key)
    end.

(** private.rs 183-186 *)
Definition xprv_parse (dbg : profile) (C : Curve) (encoded : str) : res Error (XPrv C) :=
  let? payload := payload_parse dbg encoded in xprv_try_from dbg C payload.

(** public.rs 54-61 *)
Definition hardened_public_error (child : N) : Error :=
  with_context
    (with_context (err_new InvalidDerivation (lit "cannot derive hardened child from public key"))
       (lit "child_index") (dec (child_index child)))
    (lit "hardened") (show_bool true).

(** public.rs 53-86 *)
Definition xpub_derive_child (dbg : profile) {C : TweakCurve} (x : XPub C) (child : N)
    : res Error (XPub C) :=
  if child_is_hardened child then Err (hardened_public_error child)
  else
    let public_key_bytes := pub_to_bytes C (xpub_key x) in
    let? (il, ir) := hmac_sha512_split (m_chain (xpub_meta x))
                             (public_key_bytes ++ child_to_bytes child) in
    match pub_add_tweak C (xpub_key x) il with
    | inl err =>
        raise (set_source dbg
                 (with_context
                    (with_context (err_new InvalidDerivation (lit "invalid child public key"))
                       (lit "child_index") (dec (child_index child)))
                    (lit "hardened") (show_bool false))
                 err)
    | inr child_public =>
        Ok (mkXPub (child_meta (xpub_meta x) public_key_bytes child ir) child_public)
    end.

(** public.rs 89-95 *)
Fixpoint xpub_derive_path (dbg : profile) {C : TweakCurve} (x : XPub C) (path : list N)
    : res Error (XPub C) :=
  match path with
  | [] => Ok x
  | child :: rest =>
      let? y := xpub_derive_child dbg x child in
      xpub_derive_path dbg y rest
  end.

(** public.rs 115-121, 105-112 *)
Definition xpub_encode_unchecked {C : Curve} (x : XPub C) (version : Version) : Payload :=
  {| p_version := version; p_meta := xpub_meta x; p_key := pub_to_bytes C (xpub_key x) |}.
Definition xpub_encode_with {C : Curve} (x : XPub C) (version : Version) : res Error Payload :=
  if negb (is_public version) then
    Err (with_context (err_new InvalidVersion (lit "expected public version bytes"))
           (lit "version") (version_show version))
  else Ok (xpub_encode_unchecked x version).

(** public.rs 145-159 *)
Definition xpub_try_from (dbg : profile) (C : Curve) (payload : Payload) : res Error (XPub C) :=
  if negb (is_public (p_version payload)) then
    Err (with_context (err_new InvalidVersion (lit "extended key is not public"))
           (lit "version") (version_show (p_version payload)))
  else
    match pub_from_bytes C (p_key payload) with
    | inl err =>
        raise (set_source dbg
                 (with_context (err_new InvalidKeyData (lit "invalid public key data"))
                    (lit "key_prefix") (hex_byte_lower (nth 0 (p_key payload) x00)))
                 err)
    | inr public_key => Ok (mkXPub (p_meta payload) public_key)
    end.

(** public.rs 132-135 *)
Definition xpub_parse (dbg : profile) (C : Curve) (encoded : str) : res Error (XPub C) :=
  let? payload := payload_parse dbg encoded in xpub_try_from dbg C payload.
