(** Base58 and Base58Check as relations between byte strings and texts, without
    reference to the algorithms. *)
From Verif Require Import Base Str Sha2.

Definition alphabet58 : str :=
  lit "123456789ABCDEFGHJKLMNPQRSTUVWXYZabcdefghijkmnopqrstuvwxyz".

(** [c] is the character for the digit [d]. *)
Definition digit_char (d : N) (c : N) : Prop := nth_error alphabet58 (N.to_nat d) = Some c.

(** The number a most-significant-first digit string denotes in base [B]. *)
Definition digits_val (B : N) (ds : list N) : N := fold_left (fun a d => B * a + d) ds 0.

(** The number of leading zeros. *)
Fixpoint lead_zeros (ds : list N) : nat :=
  match ds with
  | d :: ds' => if d =? 0 then S (lead_zeros ds') else 0%nat
  | [] => 0%nat
  end.

(** [s] is the Base58 text of the bytes [b]: its digits denote the same number
    and there are as many leading zero digits ('1') as leading zero bytes. *)
Definition is_base58 (b : list byte) (s : str) : Prop :=
  exists ds,
    Forall2 digit_char ds s /\
    digits_val 58 ds = digits_val 256 (map b2n b) /\
    lead_zeros ds = lead_zeros (map b2n b).

(** Base58Check appends four checksum bytes. *)
Definition is_base58check (b : list byte) (s : str) : Prop :=
  is_base58 (b ++ firstn 4 (sha256 (sha256 b))) s.
