(** The local variables of bip0039/src/mnemonic/{mod,entropy,phrase}.rs: what is in them when their
    function returns.

    A function returns what its counterpart in [Mnemonic39] returns and the last value of each of its
    variables that holds something of the entropy or the phrase ([None]: never written).  A variable
    declared in a loop is one place, written anew by every round.  None of these types has a
    destructor, so a variable keeps its last value.  Left out are lengths, references, buffers on the
    heap ([Memory39]) and the variables inside the libraries and inside [BitAccumulator]. *)
From Verif Require Import Base Sha2 Str BitAcc Language39 Mnemonic39.

(** ** Encoding, entropy.rs *)

(** entropy.rs:60-65, 71-74, 83-86; [last] is [index] *)
Fixpoint enc_drain_v (L : AnyLanguage) (fuel : nat) (a : bitacc) (phrase : str) (last : option N)
  : res err39 (bitacc * str * option N) :=
  match fuel with
  | O => Panic
  | S fuel' =>
      if can_take a BITS_PER_WORD then
        let? (index, a') := take_bits a BITS_PER_WORD in
        let? phrase' := enc_push_index L index phrase in
        enc_drain_v L fuel' a' phrase' (Some index)
      else Ok (a, phrase, last)
  end.

(** Variables of [encode_entropy_with] *)
Record enc_vars : Type := {
  ev_checksum_byte : option byte;   (* line 47 *)
  ev_acc : bitacc;                  (* line 58 *)
  ev_byte : option byte;            (* line 68 *)
  ev_index : option N;              (* line 72 *)
  ev_checksum_bits : option N;      (* line 80 *)
  ev_index_last : option N          (* line 84 *)
}.
Definition no_enc_vars : enc_vars :=
  {| ev_checksum_byte := None; ev_acc := ba_new; ev_byte := None; ev_index := None;
     ev_checksum_bits := None; ev_index_last := None |}.

(** entropy.rs:68-75 *)
Fixpoint enc_bytes_v (L : AnyLanguage) (entropy : list byte) (a : bitacc) (phrase : str)
    (vb : option byte) (vi : option N) : res err39 (bitacc * str * option byte * option N) :=
  match entropy with
  | [] => Ok (a, phrase, vb, vi)
  | b :: rest =>
      let? a1 := push_bits a (b2n b) BITS_PER_BYTE in
      let? (a2, phrase2, vi2) := enc_drain_v L (S (N.to_nat (ba_bits a1))) a1 phrase vi in
      enc_bytes_v L rest a2 phrase2 (Some b) vi2
  end.

(** entropy.rs:41-96; the variables after a panic are not followed *)
Definition encode_v (B : build) (L : AnyLanguage) (entropy : list byte) : enc_vars * res err39 str :=
  match
    (let? size := mul_usize B (N.of_nat (length entropy)) BITS_PER_BYTE in
     let? count := from_key_size size in
     let checksum_byte := hd x00 (sha256 entropy) in
     let cs_len := checksum_bit_length count in
     let? (a, phrase, vb, vi) := enc_bytes_v L entropy ba_new [] None None in
     let checksum_bits := N.shiftr (b2n checksum_byte) (BITS_PER_BYTE - cs_len) in
     let? a1 := push_bits a checksum_bits cs_len in
     let? (a2, phrase2, vl) := enc_drain_v L (S (N.to_nat (ba_bits a1))) a1 phrase None in
     if b_debug B && negb (ba_bits a2 =? 0) then Panic
     else Ok ({| ev_checksum_byte := Some checksum_byte; ev_acc := a2; ev_byte := vb; ev_index := vi;
                 ev_checksum_bits := Some checksum_bits; ev_index_last := vl |}, phrase2))
  with
  | Ok (v, phrase) => (v, Ok phrase)
  | Err e => (no_enc_vars, Err e)
  | Panic => (no_enc_vars, Panic)
  end.

(** ** Decoding, phrase.rs *)

(** Variables of [decode_phrase_with], [push_index] (its last call) and [finish] *)
Record dec_vars : Type := {
  dv_acc : bitacc;                  (* line 110, in [state] *)
  dv_actual_checksum : N;           (* line 111, in [state] *)
  dv_index : option N;              (* line 79; line 128 *)
  dv_bit : option N;                (* line 145 *)
  dv_checksum_byte : option byte;   (* line 169 *)
  dv_expected_checksum : option N   (* line 170 *)
}.
Definition vars_of (s : DecodeState) (index bit : option N) : dec_vars :=
  {| dv_acc := d_acc s; dv_actual_checksum := d_cs s; dv_index := index; dv_bit := bit;
     dv_checksum_byte := None; dv_expected_checksum := None |}.

(** phrase.rs:141-148 *)
Fixpoint drain_checksum_v (fuel : nat) (s : DecodeState) (vbit : option N) : res err39 (DecodeState * option N) :=
  match fuel with
  | O => Panic
  | S fuel' =>
      if (d_out s =? p_entropy_len (d_params s))
         && (d_cs_filled s <? p_cs_len (d_params s)) && can_take (d_acc s) 1 then
        let? (bit, a') := take_bits (d_acc s) 1 in
        drain_checksum_v fuel'
          {| d_params := d_params s; d_entropy := d_entropy s; d_out := d_out s; d_acc := a';
             d_cs := N.lor (N.shiftl (d_cs s) 1 mod 256) (bit mod 256);
             d_cs_filled := d_cs_filled s + 1 |} (Some (bit mod 256))
      else Ok (s, vbit)
  end.

(** phrase.rs:128-149.  The frames of successive calls coincide, so [vbit] survives a call that does
    not write it. *)
Definition dec_push_index_v (s : DecodeState) (index : N) (vbit : option N) : res err39 (DecodeState * option N) :=
  let? a := push_bits (d_acc s) index BITS_PER_WORD in
  let s1 := {| d_params := d_params s; d_entropy := d_entropy s; d_out := d_out s;
               d_acc := a; d_cs := d_cs s; d_cs_filled := d_cs_filled s |} in
  let? s2 := drain_bytes (S (N.to_nat (ba_bits a))) s1 in
  drain_checksum_v (S (N.to_nat (ba_bits a))) s2 vbit.

(** phrase.rs:71-85 *)
Fixpoint decode_words_v (L : AnyLanguage) (ws : list str) (norm : option str) (s : DecodeState)
    (vi vbit : option N) : dec_vars * res err39 (option str * DecodeState) :=
  match ws with
  | [] => (vars_of s vi vbit, Ok (norm, s))
  | w :: ws' =>
      let norm' := match norm with
                   | None => None
                   | Some out => Some ((if is_empty out then out else out ++ [32]) ++ w)
                   end in
      match any_index_of L w with
      | None => (vars_of s vi vbit, Err (UnknownWord w))
      | Some i =>
          match dec_push_index_v s i vbit with
          | Ok (s', vbit') => decode_words_v L ws' norm' s' (Some i) vbit'
          | Err e => (vars_of s (Some i) vbit, Err e)
          | Panic => (vars_of s (Some i) vbit, Panic)
          end
      end
  end.

(** phrase.rs:151-176 *)
Definition dec_finish_v (s : DecodeState) (v : dec_vars) : dec_vars * res err39 (list byte) :=
  if negb (d_out s =? p_entropy_len (d_params s)) then (v, Panic)
  else if negb (d_cs_filled s =? p_cs_len (d_params s)) then (v, Panic)
  else if negb (ba_bits (d_acc s) =? 0) then (v, Panic)
  else
    let checksum_byte := hd x00 (sha256 (d_entropy s)) in
    let expected := N.shiftr (b2n checksum_byte) (BITS_PER_BYTE - p_cs_len (d_params s)) in
    ({| dv_acc := dv_acc v; dv_actual_checksum := dv_actual_checksum v; dv_index := dv_index v;
        dv_bit := dv_bit v; dv_checksum_byte := Some checksum_byte; dv_expected_checksum := Some expected |},
     if d_cs s =? expected then Ok (d_entropy s) else Err InvalidChecksum).

(** phrase.rs:52-90; with a bad word count none of the variables exists *)
Definition decode_v (L : AnyLanguage) (phrase : str) (mode : DecodeMode)
  : option dec_vars * res err39 DecodedPhrase :=
  match parse_params_from_phrase phrase with
  | Ok params =>
      let norm := match mode with ValidateOnly => None | BuildNormalizedPhrase => Some [] end in
      match decode_words_v L (split_whitespace phrase) norm (decode_state_new params) None None with
      | (v, Ok (norm', s)) =>
          match dec_finish_v s v with
          | (v', Ok entropy) => (Some v', Ok {| dp_entropy := entropy; dp_normalized := norm' |})
          | (v', Err e) => (Some v', Err e)
          | (v', Panic) => (Some v', Panic)
          end
      | (v, Err e) => (Some v, Err e)
      | (v, Panic) => (Some v, Panic)
      end
  | Err e => (None, Err e)
  | Panic => (None, Panic)
  end.

(** ** mod.rs *)

(** mod.rs:237-266 and :485-515: the array [entropy], which is [Copy], and the variables of the
    [encode_entropy] call. *)
Record gen_vars : Type := { gv_entropy : list byte; gv_encode : enc_vars }.
Definition gen_size (c : Count) : nat :=
  match c with Words12 => 16 | Words15 => 20 | Words18 => 24 | Words21 => 28 | Words24 => 32 end.
Definition generate_v (B : build) (L : Language) (fill : nat -> list byte) (c : Count)
  : gen_vars * res err39 Mnemonic :=
  let entropy := fill (gen_size c) in
  let '(v, r) := encode_v B (any_of L) entropy in
  ({| gv_entropy := entropy; gv_encode := v |},
   expect_ok (let? phrase := r in Ok {| m_phrase := phrase; m_entropy := entropy |})).
Definition any_generate_v (B : build) (L : AnyLanguage) (fill : nat -> list byte) (c : Count)
  : gen_vars * res err39 AnyMnemonic :=
  let entropy := fill (gen_size c) in
  let '(v, r) := encode_v B L entropy in
  ({| gv_entropy := entropy; gv_encode := v |},
   expect_ok (let? phrase := r in Ok {| am_language := L; am_phrase := phrase; am_entropy := entropy |})).
