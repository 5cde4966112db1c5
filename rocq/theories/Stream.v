(** The incremental interfaces of the hash crates, as the code calls them:
    [Digest::{new, update, finalize}], [Hmac::<Sha512>::{new_from_slice, update,
    finalize}] at bip0032/src/xkey/core/mod.rs:54-72 with the closures of
    core/private.rs:97-107 and core/public.rs:64-67, and [pbkdf2] at
    bip0039/src/mnemonic/seed.rs:37-43.

    The crates are not in the sandbox; this follows the published sources of
    block-buffer ([digest_blocks], [digest_pad]), sha2 ([update_blocks],
    [finalize_variable_core]), hmac ([HmacCore]) and pbkdf2 ([pbkdf2_body]).  Counters
    are unbounded here; in the crates they have 64 or 128 bits and count blocks. *)
From Verif Require Import Base Sha2 Str Error32 Version32 Path32 Meta32 Payload32 Curve32 XKey32.

Section Core.
Variable St : Type.                        (* chaining value *)
Variables bs lf : nat.                     (* bytes in a block and in the length field *)
Variable cf : St -> list byte -> St.       (* compression of one block *)

(** A hasher: chaining value, number of blocks compressed, bytes waiting. *)
Record hasher : Type := mkH { h_state : St; h_blocks : N; h_buf : list byte }.

Definition h_new (iv : St) : hasher := mkH iv 0 [].

(** [update_blocks] *)
Definition absorb (h : hasher) (blocks : list (list byte)) : hasher :=
  mkH (fold_left cf blocks (h_state h)) (h_blocks h + N.of_nat (length blocks)) (h_buf h).
Definition set_buf (h : hasher) (b : list byte) : hasher := mkH (h_state h) (h_blocks h) b.

(** [BlockBuffer::digest_blocks] with [update_blocks]: too little input waits; else a
    waiting part is completed first, whole blocks are taken from the input and the
    rest waits. *)
Definition h_update (h : hasher) (input : list byte) : hasher :=
  let pos := length (h_buf h) in
  let rem := (bs - pos)%nat in
  if (length input <? rem)%nat then set_buf h (h_buf h ++ input)
  else
    let '(h, input) :=
      if (pos =? 0)%nat then (h, input)
      else (absorb h [h_buf h ++ firstn rem input], skipn rem input) in
    let n := (length input / bs)%nat in
    set_buf (absorb h (chunks bs (firstn (n * bs) input))) (skipn (n * bs) input).

(** [finalize_variable_core] with [digest_pad]: the bit length goes to the end of the
    last block, which is a further one when there is no room. *)
Definition h_finalize (h : hasher) : St :=
  let pos := length (h_buf h) in
  let suffix := be_bytes lf (8 * (N.of_nat pos + N.of_nat bs * h_blocks h)) in
  let block := h_buf h ++ [x80] ++ repeat x00 (bs - pos - 1) in
  if (bs - pos - 1 <? lf)%nat then
    cf (cf (h_state h) block) (repeat x00 (bs - lf) ++ suffix)
  else cf (h_state h) (firstn (bs - lf) block ++ suffix).
End Core.
Arguments mkH {St}. Arguments h_state {St}. Arguments h_blocks {St}. Arguments h_buf {St}.
Arguments h_new {St}. Arguments h_update {St}. Arguments h_finalize {St}. Arguments absorb {St}. Arguments set_buf {St}.

(** SHA-256 and SHA-512 *)
Definition words_out (n : nat) (s : st8) : list byte :=
  let '(a, b, c, d, (e, f, g, h)) := s in concat (map (be_bytes n) [a; b; c; d; e; f; g; h]).
Definition cf256 (s : st8) (blk : list byte) : st8 :=
  Sha2.compress 32 0xffffffff 2 13 22 6 11 25 7 18 3 17 19 10 K256c s (map be_val (chunks 4 blk)).
Definition cf512 (s : st8) (blk : list byte) : st8 :=
  Sha2.compress 64 0xffffffffffffffff 28 34 39 14 18 41 1 8 7 19 61 6 K512c s (map be_val (chunks 8 blk)).

Definition Sha256_new : hasher st8 := h_new iv256.
Definition Sha256_update : hasher st8 -> list byte -> hasher st8 := h_update 64 cf256.
Definition Sha256_finalize (h : hasher st8) : list byte := words_out 4 (h_finalize 64 8 cf256 h).
Definition Sha512_new : hasher st8 := h_new iv512.
Definition Sha512_update : hasher st8 -> list byte -> hasher st8 := h_update 128 cf512.
Definition Sha512_finalize (h : hasher st8) : list byte := words_out 8 (h_finalize 128 16 cf512 h).

(** [HmacCore]: the inner hasher, and the chaining value after the outer pad. *)
Record Hmac : Type := mkHmac { hm_inner : hasher st8; hm_outer : st8 }.

Definition xor_pad (c : N) (k : list byte) : list byte := map (fun b => n2b (N.lxor (b2n b) c)) k.
(** [get_der_key] *)
Definition der_key (key : list byte) : list byte :=
  if (length key <=? 128)%nat then key ++ repeat x00 (128 - length key)
  else let hash := Sha512_finalize (Sha512_update Sha512_new key) in hash ++ repeat x00 (128 - length hash).
(** [new_from_slice]: the outer pad is made from the inner one. *)
Definition Hmac_new (key : list byte) : Hmac :=
  let buf := xor_pad 0x36 (der_key key) in
  mkHmac (absorb cf512 (h_new iv512) [buf]) (cf512 iv512 (xor_pad (N.lxor 0x36 0x5c) buf)).
Definition Hmac_update (m : Hmac) (data : list byte) : Hmac :=
  mkHmac (Sha512_update (hm_inner m) data) (hm_outer m).
Definition Hmac_finalize (m : Hmac) : list byte :=
  let hash := Sha512_finalize (hm_inner m) in
  Sha512_finalize (mkH (hm_outer m) 1 hash).

(** core/mod.rs 58-72: [f] calls [update] for each element of [updates]. *)
Definition hmac_split_stream (key : list byte) (updates : list (list byte))
    : res Error (list byte * list byte) :=
  let mac := fold_left Hmac_update updates (Hmac_new key) in
  let output := Hmac_finalize mac in
  if (length output =? 64)%nat then Ok (firstn 32 output, skipn 32 output) else Panic.

(** core/private.rs 97-107: the calls of [mac.update] *)
Definition prv_updates {C : Curve} (x : XPrv C) (parent_public_bytes : list byte) (child : N)
    : res Error (list (list byte)) :=
  if child_is_hardened child then
    let? data := put 1 33 (prv_to_bytes C (xprv_key x)) (zeros 37) in
    let? data := put 33 37 (child_to_bytes child) data in
    Ok [data]
  else Ok [parent_public_bytes; child_to_bytes child].
(** core/public.rs 64-67 *)
Definition pub_updates (public_key_bytes : list byte) (child : N) : list (list byte) :=
  [public_key_bytes; child_to_bytes child].

(** core/private.rs 97-123 and core/public.rs 64-83 with these calls: tweak
    and chain code *)
Definition prv_parts {C : Curve} (x : XPrv C) (child : N) : res Error (list byte * list byte) :=
  let? updates := prv_updates x (pub_to_bytes C (prv_to_public C (xprv_key x))) child in
  hmac_split_stream (m_chain (xprv_meta x)) updates.
Definition pub_parts {C : Curve} (x : XPub C) (child : N) : res Error (list byte * list byte) :=
  hmac_split_stream (m_chain (xpub_meta x)) (pub_updates (pub_to_bytes C (xpub_key x)) child).

(** [pbkdf2_body] for the one chunk of seed.rs: the keyed MAC is cloned for every use
    and the results are added into the zeroed output. *)
Fixpoint pbkdf2_rounds (prf : Hmac) (n : nat) (salt chunk : list byte) : list byte :=
  match n with
  | O => chunk
  | S n' =>
      let salt := Hmac_finalize (Hmac_update prf salt) in
      pbkdf2_rounds prf n' salt (xor_bytes chunk salt)
  end.
Definition pbkdf2_stream (password salt : list byte) (rounds : N) : list byte :=
  let prf := Hmac_new password in
  let u1 := Hmac_finalize (Hmac_update (Hmac_update prf salt) (be_bytes 4 1)) in
  pbkdf2_rounds prf (N.to_nat (rounds - 1)) u1 (xor_bytes (repeat x00 64) u1).
