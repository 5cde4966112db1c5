(** Model of bip0032/src/xkey/core/mod.rs. *)
From Verif Require Import Base Str Sha2 Ripemd.

(** [out[a..b].copy_from_slice(src)]: panics when the range is not inside [out] or
    its length differs from the source's. *)
Definition put {E : Type} (a b : nat) (src out : list byte) : res E (list byte) :=
  if (a <=? b)%nat && (b <=? length out)%nat && (length src =? b - a)%nat
  then Ok (firstn a out ++ src ++ skipn b out)
  else Panic.
Definition zeros (n : nat) : list byte := repeat x00 n.

(** mod.rs 12-19.  The Rust field types are [u8], [[u8; 4]], [u32], [[u8; 32]]. *)
Record Metadata : Type := mkMeta {
  m_depth : byte;
  m_fingerprint : list byte;
  m_child : N;
  m_chain : list byte
}.
(** What those field types guarantee. *)
Definition meta_wf (m : Metadata) : Prop :=
  length (m_fingerprint m) = 4%nat /\ m_child m < 2 ^ 32 /\ length (m_chain m) = 32%nat.

(** mod.rs 21-28, and [drop] (30-34) *)
Definition meta_zeroize (m : Metadata) : Metadata :=
  {| m_depth := x00; m_fingerprint := zeros 4; m_child := 0;
     m_chain := map (fun _ => x00) (m_chain m) |}.

(** mod.rs 36-48 *)
Definition key_fingerprint (public_key_bytes : list byte) : list byte :=
  slice 0 4 (ripemd160 (sha256 public_key_bytes)).

(** mod.rs 54-72; [data] is everything the closure feeds to the MAC, in order.
    [new_from_slice] accepts every key length.  The [debug_assert_eq!] of line 64
    and the two copies of 68-69 are the length test. *)
Definition hmac_sha512_split {E : Type} (key data : list byte) : res E (list byte * list byte) :=
  let output := hmac_sha512 key data in
  if (length output =? 64)%nat then Ok (slice 0 32 output, slice 32 64 output) else Panic.

(** mod.rs 50-52 *)
Definition derive_master_key_parts {E : Type} (seed domain : list byte)
    : res E (list byte * list byte) := hmac_sha512_split domain seed.
