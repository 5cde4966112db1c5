(** Model of the parts of the bs58 0.5 crate that bip0032/src/xkey/payload/mod.rs
    63-67 and 82 call: [bs58::encode(..).with_check().onto(String)] and
    [bs58::decode(..).with_check(None).onto(&mut [u8])].

    bs58 is not part of /repo; the functions follow its published sources
    (src/encode.rs [encode_into], [encode_check_into]; src/decode.rs
    [decode_into], [decode_check_into]).  The fixed output slice is modelled by
    its written prefix [output[..index]] (little-endian digits) and its length
    [cap]. *)
From Verif Require Import Base Str Sha2 Error32.

(** bs58::Alphabet::BITCOIN *)
Definition b58_alphabet : list N :=
  Eval compute in lit "123456789ABCDEFGHJKLMNPQRSTUVWXYZabcdefghijkmnopqrstuvwxyz".

(** One pass over the digits: [for byte in &mut output[..index] { carry += byte * M;
    byte = carry % B; carry /= B }]; the encoder has B = 58, M = 256 ([<< 8]), the
    decoder B = 256 ([& 0xFF], [>>= 8]), M = 58. *)
Fixpoint carry_pass (B M : N) (ds : list N) (carry : N) : list N * N :=
  match ds with
  | [] => ([], carry)
  | d :: ds' =>
      let c := carry + d * M in
      let '(ds'', c') := carry_pass B M ds' (c / B) in
      (c mod B :: ds'', c')
  end.

(** [while carry > 0 { if index == output.len() { return Err(BufferTooSmall) }
    output[index] = carry % B; index += 1; carry /= B }].  The fuel is the bit
    length of the carry, which bounds the number of rounds. *)
Fixpoint push_carry (fuel : nat) (B : N) (cap : nat) (ds : list N) (carry : N) : option (list N) :=
  match fuel with
  | O => Some ds
  | S fuel' =>
      if carry =? 0 then Some ds
      else if (length ds =? cap)%nat then None
      else push_carry fuel' B cap (ds ++ [carry mod B]) (carry / B)
  end.

(** One input digit. *)
Definition digit_step (B M : N) (cap : nat) (ds : list N) (v : N) : option (list N) :=
  let '(ds', carry) := carry_pass B M ds v in
  push_carry (N.size_nat carry) B cap ds' carry.

(** [for _ in input.take_while(zero) { if index == output.len() {Err} output[index] = 0; index += 1 }] *)
Fixpoint push_zeros (n : nat) (cap : nat) (ds : list N) : option (list N) :=
  match n with
  | O => Some ds
  | S n' => if (length ds =? cap)%nat then None else push_zeros n' cap (ds ++ [0])
  end.

Fixpoint count_while {A : Type} (p : A -> bool) (l : list A) : nat :=
  match l with
  | a :: l' => if p a then S (count_while p l') else O
  | [] => O
  end.

(** encode.rs [encode_into]: [None] is BufferTooSmall *)
Fixpoint encode_loop (cap : nat) (ds : list N) (input : list byte) : option (list N) :=
  match input with
  | [] => Some ds
  | b :: input' =>
      match digit_step 58 256 cap ds (b2n b) with
      | Some ds' => encode_loop cap ds' input'
      | None => None
      end
  end.
Definition encode_into (input : list byte) (cap : nat) : option (list N) :=
  match encode_loop cap [] input with
  | None => None
  | Some ds =>
      match push_zeros (count_while (fun b => b2n b =? 0) input) cap ds with
      | None => None
      | Some ds' => Some (rev (map (fun d => nth (N.to_nat d) b58_alphabet 0) ds'))
      end
  end.

(** The checksum: the first four bytes of the double SHA-256. *)
Definition checksum (data : list byte) : list byte := firstn 4 (sha256 (sha256 data)).

(** encode.rs [max_encoded_len], [encode_check_into] with no version byte, and the
    [String] target: the text is the ASCII output. *)
Definition max_encoded_len (len : nat) : nat := (len + (len + 1) / 2)%nat.
Definition encode_check (input : list byte) : option str :=
  encode_into (input ++ checksum input) (max_encoded_len (length input + 4)).

(** decode.rs: the 128-entry table, as a search in the alphabet; [None] is 0xFF. *)
Fixpoint find_index (c : N) (l : list N) (i : N) : option N :=
  match l with
  | [] => None
  | a :: l' => if a =? c then Some i else find_index c l' (i + 1)
  end.
Definition b58_decode_char (c : N) : option N := find_index c b58_alphabet 0.

(** decode.rs [decode_into] *)
Fixpoint decode_loop (cap : nat) (i : nat) (ds : list N) (input : list byte)
    : Source + list N :=
  match input with
  | [] => inr ds
  | b :: input' =>
      if 127 <? b2n b then inl (SNonAscii i)
      else
        match b58_decode_char (b2n b) with
        | None => inl (SInvalidCharacter (b2n b) i)
        | Some v =>
            match digit_step 256 58 cap ds v with
            | None => inl SBufferTooSmall
            | Some ds' => decode_loop cap (S i) ds' input'
            end
        end
  end.
Definition decode_into (input : list byte) (cap : nat) : Source + list byte :=
  match decode_loop cap 0 [] input with
  | inl e => inl e
  | inr ds =>
      match push_zeros (count_while (fun b => b2n b =? 49) input) cap ds with
      | None => inl SBufferTooSmall
      | Some ds' => inr (rev (map n2b ds'))
      end
  end.

(** decode.rs [decode_check_into] with no expected version: the payload, i.e. the
    first [Ok] bytes of the output slice. *)
Definition decode_check (input : list byte) (cap : nat) : Source + list byte :=
  match decode_into input cap with
  | inl e => inl e
  | inr out =>
      if (length out <? 4)%nat then inl SNoChecksum
      else
        let data := firstn (length out - 4) out in
        let expected := skipn (length out - 4) out in
        if bytes_eqb (checksum data) expected then inr data
        else inl (SChecksum (checksum data) expected)
  end.
