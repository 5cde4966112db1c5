(** The heap buffers of bip0032/src/xkey/{slip10.rs,payload/mod.rs}: what they
    contain when they are handed back to the allocator.

    As in [Memory39] a function returns what its counterpart returns and the blocks
    released on the way, oldest first; [allocator] is that of [Memory39].  Arrays and
    [Zeroizing] arrays are on the stack and not followed; nor are the texts inside
    error values. *)
From Verif Require Import Base Str Memory39 Error32 Meta32 Base58 Payload32 Curve32 XKey32 Slip10.

(** A [Vec<u8>] or [String]: capacity, length, and every byte ever written to the
    block, of which the first [k_len] are the elements. *)
Record block : Type := { k_cap : N; k_len : nat; k_mem : list byte }.

(** [<[u8]>::to_vec] allocates exactly the length. *)
Definition to_vec (bs : list byte) : block :=
  {| k_cap := N.of_nat (length bs); k_len := length bs; k_mem := bs |}.
Definition new_block (cap : N) : block := {| k_cap := cap; k_len := 0; k_mem := [] |}.
Definition elements (v : block) : list byte := firstn (k_len v) (k_mem v).
(** [Vec::clear] and [Vec::truncate] only set the length. *)
Definition truncate (n : nat) (v : block) : block :=
  {| k_cap := k_cap v; k_len := Nat.min n (k_len v); k_mem := k_mem v |}.
(** Writing over the block from position [i]. *)
Definition write_at (i : nat) (bs : list byte) (v : block) : block :=
  {| k_cap := k_cap v; k_len := k_len v; k_mem := firstn i (k_mem v) ++ bs ++ skipn (i + length bs) (k_mem v) |}.
Definition drop_block (v : block) : freed := if k_cap v =? 0 then [] else [k_mem v].

Section WithAllocator.
Variable Al : allocator.

(** [Vec::extend_from_slice] and [Vec::resize]: reserve, then write behind the
    elements.  A block that moves is copied whole and released as it is. *)
Definition extend (st : freed * block) (bs : list byte) : freed * block :=
  let '(f, v) := st in
  let need := N.of_nat (k_len v) + N.of_nat (length bs) in
  let '(f, cap) :=
    if need <=? k_cap v then (f, k_cap v)
    else (f ++ (if (k_cap v =? 0) || negb (al_moves Al (k_cap v) need) then [] else [k_mem v]),
          al_grow Al (k_cap v) need) in
  (f, write_at (k_len v) bs {| k_cap := cap; k_len := k_len v + length bs; k_mem := k_mem v |}).

(** slip10.rs 58-89; [seed] is dropped at the [return]s. *)
Fixpoint slip10_master_loop_m (dbg : profile) (fuel : nat) (C : Curve) (f : freed) (seed : block)
    : freed * option (res Error (XPrv C)) :=
  match fuel with
  | O => (f, None)
  | S fuel' =>
      match derive_master_key_parts (elements seed) (hmac_key C) with
      | Ok (il, ir) =>
          match prv_from_bytes C il with
          | inr private_key => (f ++ drop_block seed, Some (Ok (mkXPrv (master_meta ir) private_key)))
          | inl err =>
              match put 0 32 il (zeros 64) with
              | Ok next =>
                  match put 32 64 ir next with
                  | Ok next =>
                      let '(f, seed) := extend (f, truncate 0 seed) next in
                      if is_empty (elements seed) then
                        (f ++ drop_block seed,
                         Some (raise (set_source dbg
                                 (err_new InvalidDerivation (lit "slip10 seed retry failed")) err)))
                      else slip10_master_loop_m dbg fuel' C f seed
                  | Err e => (f, Some (Err e))
                  | Panic => (f, Some Panic)
                  end
              | Err e => (f, Some (Err e))
              | Panic => (f, Some Panic)
              end
          end
      | Err e => (f, Some (Err e))
      | Panic => (f, Some Panic)
      end
  end.
(** slip10.rs 55-90; the copy of line 56 *)
Definition new_slip10_m (dbg : profile) (fuel : nat) (C : Curve) (seed : list byte)
    : freed * option (res Error (XPrv C)) :=
  slip10_master_loop_m dbg fuel C [] (to_vec seed).

(** payload/mod.rs 59-69, without what the formatter's sink does.  bs58's [String]
    target resizes the vector by its bound on the length, encodes into it and
    truncates. *)
Definition payload_show_m (p : Payload) : freed * res Error str :=
  match serialize p with
  | Ok serialized =>
      match encode_check serialized with
      | Some s =>
          let '(f, v) := extend ([], new_block (N.of_nat MAX_KEY_PAYLOAD_STRING_LENGTH))
                                (zeros (max_encoded_len (length serialized + 4))) in
          let encoded := truncate (length s) (write_at 0 (map n2b s) v) in
          (f ++ drop_block encoded, Ok s)
      | None => ([], Panic)
      end
  | Err e => ([], Err e)
  | Panic => ([], Panic)
  end.
End WithAllocator.
