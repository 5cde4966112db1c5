(** Model of bip0032/src/xkey/payload/version.rs. *)
From Verif Require Import Base Str.

(** version.rs 5-12; the field is a [u32]. *)
Inductive Version : Type :=
| Public (v : N)
| Private (v : N).

(** version.rs 16-18, 21-23 *)
Definition version_public (v : N) : Version := Public v.
Definition version_private (v : N) : Version := Private v.
(** version.rs 26-28, 31-33 *)
Definition from_public_bytes (b : list byte) : Version := Public (u32_from_be b).
Definition from_private_bytes (b : list byte) : Version := Private (u32_from_be b).
(** version.rs 36-40 *)
Definition as_u32 (v : Version) : N := match v with Public n | Private n => n end.
(** version.rs 43-45 *)
Definition version_to_bytes (v : Version) : list byte := u32_to_be (as_u32 v).
(** version.rs 48-50, 53-55 *)
Definition is_public (v : Version) : bool := match v with Public _ => true | _ => false end.
Definition is_private (v : Version) : bool := match v with Private _ => true | _ => false end.
(** version.rs 58-62: [0x{:08X}] *)
Definition version_show (v : Version) : str := lit "0x" ++ hexw 8 (as_u32 v).

(** Derived [PartialEq] (version.rs 6), used by the constant patterns below. *)
Definition version_eqb (a b : Version) : bool :=
  match a, b with
  | Public x, Public y | Private x, Private y => x =? y
  | _, _ => false
  end.

(** version.rs 71-126 *)
Definition XPUB : Version := Public 0x0488B21E.
Definition XPRV : Version := Private 0x0488ADE4.
Definition TPUB : Version := Public 0x043587CF.
Definition TPRV : Version := Private 0x04358394.
Definition YPUB : Version := Public 0x049D7CB2.
Definition YPRV : Version := Private 0x049D7878.
Definition YPUB_SHWSH : Version := Public 0x0295B43F.
Definition YPRV_SHWSH : Version := Private 0x0295B005.
Definition UPUB : Version := Public 0x044A5262.
Definition UPRV : Version := Private 0x044A4E28.
Definition UPUB_SHWSH : Version := Public 0x024289EF.
Definition UPRV_SHWSH : Version := Private 0x024285B5.
Definition ZPUB : Version := Public 0x04B24746.
Definition ZPRV : Version := Private 0x04B2430C.
Definition ZPUB_WSH : Version := Public 0x02AA7ED3.
Definition ZPRV_WSH : Version := Private 0x02AA7A99.
Definition VPUB : Version := Public 0x045F1CF6.
Definition VPRV : Version := Private 0x045F18BC.
Definition VPUB_WSH : Version := Public 0x02575483.
Definition VPRV_WSH : Version := Private 0x02575048.

(** version.rs 165-215 *)
Inductive KnownVersion : Type :=
| Xpub | Xprv | Tpub | Tprv
| Ypub | Yprv | YpubShWsh | YprvShWsh
| Upub | Uprv | UpubShWsh | UprvShWsh
| Zpub | Zprv | ZpubWsh | ZprvWsh
| Vpub | Vprv | VpubWsh | VprvWsh.

(** version.rs 130-159: the arms in source order *)
Definition known_arms : list (Version * KnownVersion) :=
  [ (XPUB, Xpub); (XPRV, Xprv); (TPUB, Tpub); (TPRV, Tprv);
    (YPUB, Ypub); (YPRV, Yprv); (YPUB_SHWSH, YpubShWsh); (YPRV_SHWSH, YprvShWsh);
    (UPUB, Upub); (UPRV, Uprv); (UPRV_SHWSH, UprvShWsh); (UPUB_SHWSH, UpubShWsh);
    (ZPUB, Zpub); (ZPRV, Zprv); (ZPUB_WSH, ZpubWsh); (ZPRV_WSH, ZprvWsh);
    (VPUB, Vpub); (VPRV, Vprv); (VPUB_WSH, VpubWsh); (VPRV_WSH, VprvWsh) ].
Fixpoint first_arm (v : Version) (arms : list (Version * KnownVersion)) : option KnownVersion :=
  match arms with
  | [] => None
  | (p, k) :: arms' => if version_eqb v p then Some k else first_arm v arms'
  end.
Definition into_known_version (v : Version) : option KnownVersion := first_arm v known_arms.

(** version.rs 219-246 *)
Definition into_version (k : KnownVersion) : Version :=
  match k with
  | Xpub => XPUB | Xprv => XPRV | Tpub => TPUB | Tprv => TPRV
  | Ypub => YPUB | Yprv => YPRV | YpubShWsh => YPUB_SHWSH | YprvShWsh => YPRV_SHWSH
  | Upub => UPUB | Uprv => UPRV | UpubShWsh => UPUB_SHWSH | UprvShWsh => UPRV_SHWSH
  | Zpub => ZPUB | Zprv => ZPRV | ZpubWsh => ZPUB_WSH | ZprvWsh => ZPRV_WSH
  | Vpub => VPUB | Vprv => VPRV | VpubWsh => VPUB_WSH | VprvWsh => VPRV_WSH
  end.

(** version.rs 249-253 *)
Definition from_raw (raw : N) : option KnownVersion :=
  match into_known_version (Public raw) with
  | Some k => Some k
  | None => into_known_version (Private raw)
  end.
