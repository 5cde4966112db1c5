(** Model of bip0039/src/mnemonic/bit_accumulator.rs. *)
From Verif Require Import Base.

(** bit_accumulator.rs:18-21 [struct BitAccumulator]; [acc : u64], [bits : usize]. *)
Record bitacc : Type := { ba_acc : N; ba_bits : N }.

(** bit_accumulator.rs:26-28 [new]. *)
Definition ba_new : bitacc := {| ba_acc := 0; ba_bits := 0 |}.

(** bit_accumulator.rs:36-44 [push_bits].  [Panic]: the debug assertion of line
    37, or overflow of [self.bits += n] (taken at the smallest supported usize,
    32 bits).  [<<] on u64 drops the bits above 2^64. *)
Definition push_bits {E : Type} (a : bitacc) (v n : N) : res E bitacc :=
  if 56 <? n then Panic
  else
    let mask := N.shiftl 1 n - 1 in
    let acc := N.lor (N.shiftl (ba_acc a) n mod 2 ^ 64) (N.land v mask) in
    if 2 ^ 32 <=? ba_bits a + n then Panic
    else Ok {| ba_acc := acc; ba_bits := ba_bits a + n |}.

(** bit_accumulator.rs:48-61 [take_bits].  [Panic]: the debug assertion of line
    49, or a shift amount of 64 or more. *)
Definition take_bits {E : Type} (a : bitacc) (n : N) : res E (N * bitacc) :=
  if ba_bits a <? n then Panic
  else
    let shift := ba_bits a - n in
    if (64 <=? shift) || (64 <=? n) then Panic
    else
      let v := N.land (N.shiftr (ba_acc a) shift) (N.shiftl 1 n - 1) in
      Ok (v, {| ba_acc := N.land (ba_acc a) (N.shiftl 1 shift - 1); ba_bits := shift |}).

(** bit_accumulator.rs:65-67 [can_take]. *)
Definition can_take (a : bitacc) (n : N) : bool := n <=? ba_bits a.
