(** Model of the accessors of extended keys (bip0032/src/xkey/core/{private,public}.rs) and of errors
    (error.rs).  [Zeroizing] of [to_bytes] is transparent; what is wiped is in [Locals32]. *)
From Verif Require Import Base Str Error32 Meta32 Curve32 XKey32.

(** private.rs 24-28: field by field; the key types of the libraries clone as copies, metadata derives
    [Clone] (core/mod.rs 13) *)
Definition meta_clone (m : Metadata) : Metadata :=
  {| m_depth := m_depth m; m_fingerprint := m_fingerprint m; m_child := m_child m; m_chain := m_chain m |}.
Definition xprv_clone {C : Curve} (x : XPrv C) : XPrv C := mkXPrv (meta_clone (xprv_meta x)) (xprv_key x).
(** public.rs 24-28 *)
Definition xpub_clone {C : Curve} (x : XPub C) : XPub C := mkXPub (meta_clone (xpub_meta x)) (xpub_key x).

(** private.rs 65-67 *)
Definition xprv_parent_fingerprint {C : Curve} (x : XPrv C) : list byte := m_fingerprint (xprv_meta x).
(** private.rs 70-72 *)
Definition xprv_chain_code {C : Curve} (x : XPrv C) : list byte := m_chain (xprv_meta x).
(** private.rs 79-84 *)
Definition xprv_to_bytes {C : Curve} (x : XPrv C) : list byte := prv_to_bytes C (xprv_key x).

(** public.rs 32-34 *)
Definition xpub_parent_fingerprint {C : Curve} (x : XPub C) : list byte := m_fingerprint (xpub_meta x).
(** public.rs 37-39 *)
Definition xpub_chain_code {C : Curve} (x : XPub C) : list byte := m_chain (xpub_meta x).
(** public.rs 42-44 *)
Definition xpub_to_bytes {C : Curve} (x : XPub C) : list byte := pub_to_bytes C (xpub_key x).
