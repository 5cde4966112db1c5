(** Model of bip0039/src/mnemonic/{mod,entropy,phrase,seed}.rs and
    bip0039/src/error.rs. *)
From Verif Require Import Base Sha2 Str Unicode BitAcc Language39.

(** error.rs:7-16 [enum Error]. *)
Inductive err39 : Type :=
| BadWordCount (n : N)
| BadEntropyBitCount (n : N)
| UnknownWord (w : str)
| InvalidChecksum.

(** error.rs:18-32 [Display for Error]. *)
Definition err39_display (e : err39) : str :=
  match e with
  | BadWordCount n => lit "BIP-0039 mnemonic only supports 12/15/18/21/24 words: " ++ dec n
  | BadEntropyBitCount n =>
      lit "entropy was not between 128-256 bits or not a multiple of 32 bits: " ++ dec n ++ lit " bits"
  | UnknownWord w => lit "mnemonic contains an unknown word: " ++ w
  | InvalidChecksum => lit "mnemonic has an invalid checksum"
  end.

(** The two build-dependent facts that matter: overflow checks / debug
    assertions on or off, and the width of [usize]. *)
Record build : Type := { b_debug : bool; b_usize_bits : N }.

(** mod.rs:30-31. *)
Definition BITS_PER_WORD : N := 11.
Definition BITS_PER_BYTE : N := 8.

(** ** Count, mod.rs:35-149 *)
Inductive Count : Type := Words12 | Words15 | Words18 | Words21 | Words24.

(** mod.rs:83-92 *)
Definition from_word_count (n : N) : res err39 Count :=
  match n with
  | 12 => Ok Words12
  | 15 => Ok Words15
  | 18 => Ok Words18
  | 21 => Ok Words21
  | 24 => Ok Words24
  | others => Err (BadWordCount others)
  end.

(** mod.rs:73-79 [TryFrom<usize> for Count] *)
Definition count_try_from (n : N) : res err39 Count := from_word_count n.

(** mod.rs:95-104 *)
Definition from_key_size (n : N) : res err39 Count :=
  match n with
  | 128 => Ok Words12
  | 160 => Ok Words15
  | 192 => Ok Words18
  | 224 => Ok Words21
  | 256 => Ok Words24
  | others => Err (BadEntropyBitCount others)
  end.

(** mod.rs:107-110 *)
Definition count_from_phrase (phrase : str) : res err39 Count :=
  from_word_count (N.of_nat (length (split_whitespace phrase))).

(** mod.rs:61-71 [From<Count> for usize] *)
Definition usize_from_count (c : Count) : N :=
  match c with Words12 => 12 | Words15 => 15 | Words18 => 18 | Words21 => 21 | Words24 => 24 end.

(** mod.rs:113-121 *)
Definition word_count (c : Count) : N :=
  match c with Words12 => 12 | Words15 => 15 | Words18 => 18 | Words21 => 21 | Words24 => 24 end.

(** mod.rs:129-137 *)
Definition entropy_bit_length (c : Count) : N :=
  match c with Words12 => 128 | Words15 => 160 | Words18 => 192 | Words21 => 224 | Words24 => 256 end.

(** mod.rs:140-148 *)
Definition checksum_bit_length (c : Count) : N :=
  match c with Words12 => 4 | Words15 => 5 | Words18 => 6 | Words21 => 7 | Words24 => 8 end.

(** mod.rs:124-126 *)
Definition total_bit_length (c : Count) : N := entropy_bit_length c + checksum_bit_length c.

(** mod.rs:49-59 [Display for Count] *)
Definition count_display (c : Count) : str :=
  dec (word_count c) ++ lit " words (entropy " ++ dec (entropy_bit_length c)
  ++ lit " bits + checksum " ++ dec (checksum_bit_length c) ++ lit " bits)".

(** ** Encoding, entropy.rs *)

(** entropy.rs:42, [entropy.len() * BITS_PER_BYTE]: panics on overflow with
    overflow checks, wraps without. *)
Definition mul_usize (B : build) (a b : N) : res err39 N :=
  if a * b <? 2 ^ b_usize_bits B then Ok (a * b)
  else if b_debug B then Panic else Ok ((a * b) mod 2 ^ b_usize_bits B).

(** entropy.rs:60-65, closure [push_index]. *)
Definition enc_push_index (L : AnyLanguage) (idx : N) (phrase : str) : res err39 str :=
  match any_word_of L idx with
  | None => Panic
  | Some w => Ok ((if is_empty phrase then phrase else phrase ++ [32]) ++ w)
  end.

(** entropy.rs:71-74 and :83-86, [while accumulator.can_take(11)].  Running out
    of fuel is a [Panic]; the fuel used by the callers always suffices (this is
    part of the no-panic theorem). *)
Fixpoint enc_drain (L : AnyLanguage) (fuel : nat) (a : bitacc) (phrase : str)
  : res err39 (bitacc * str) :=
  match fuel with
  | O => Panic
  | S fuel' =>
      if can_take a BITS_PER_WORD then
        let? (index, a') := take_bits a BITS_PER_WORD in
        let? phrase' := enc_push_index L index phrase in
        enc_drain L fuel' a' phrase'
      else Ok (a, phrase)
  end.
Definition enc_drain_all (L : AnyLanguage) (a : bitacc) (phrase : str) :=
  enc_drain L (S (N.to_nat (ba_bits a))) a phrase.

(** entropy.rs:68-75, the loop over entropy bytes. *)
Fixpoint enc_bytes (L : AnyLanguage) (entropy : list byte) (a : bitacc) (phrase : str)
  : res err39 (bitacc * str) :=
  match entropy with
  | [] => Ok (a, phrase)
  | b :: rest =>
      let? a1 := push_bits a (b2n b) BITS_PER_BYTE in
      let? (a2, phrase2) := enc_drain_all L a1 phrase in
      enc_bytes L rest a2 phrase2
  end.

(** entropy.rs:41-96 [encode_entropy_with].  The capacity estimate (51-55) only
    affects allocation and is left out. *)
Definition encode_entropy_with (B : build) (L : AnyLanguage) (entropy : list byte) : res err39 str :=
  let? size := mul_usize B (N.of_nat (length entropy)) BITS_PER_BYTE in
  let? count := from_key_size size in
  let checksum_byte := hd x00 (sha256 entropy) in
  let cs_len := checksum_bit_length count in
  let? (a, phrase) := enc_bytes L entropy ba_new [] in
  let checksum_bits := N.shiftr (b2n checksum_byte) (BITS_PER_BYTE - cs_len) in
  let? a1 := push_bits a checksum_bits cs_len in
  let? (a2, phrase2) := enc_drain_all L a1 phrase in
  if b_debug B && negb (ba_bits a2 =? 0) then Panic else Ok phrase2.

(** entropy.rs:32-34 *)
Definition encode_entropy (B : build) (L : Language) (entropy : list byte) : res err39 str :=
  encode_entropy_with B (any_of L) entropy.

(** ** Decoding, phrase.rs *)

(** phrase.rs:27-32 *)
Inductive DecodeMode : Type := ValidateOnly | BuildNormalizedPhrase.

(** phrase.rs:35-38 *)
Record DecodedPhrase : Type := { dp_entropy : list byte; dp_normalized : option str }.

(** phrase.rs:92-96 *)
Record DecodeParams : Type := { p_entropy_len : N; p_cs_len : N; p_count : Count }.

(** phrase.rs:98-104 *)
Definition parse_params_from_phrase (phrase : str) : res err39 DecodeParams :=
  let? count := count_from_phrase phrase in
  Ok {| p_entropy_len := entropy_bit_length count / BITS_PER_BYTE;
        p_cs_len := checksum_bit_length count;
        p_count := count |}.

(** phrase.rs:106-113 *)
Record DecodeState : Type := {
  d_params : DecodeParams;
  d_entropy : list byte;
  d_out : N;
  d_acc : bitacc;
  d_cs : N;          (* u8 *)
  d_cs_filled : N
}.

(** phrase.rs:116-126 *)
Definition decode_state_new (p : DecodeParams) : DecodeState := {|
  d_params := p;
  d_entropy := repeat x00 (N.to_nat (p_entropy_len p));
  d_out := 0;
  d_acc := ba_new;
  d_cs := 0;
  d_cs_filled := 0
|}.

(** phrase.rs:135-138 *)
Fixpoint drain_bytes (fuel : nat) (s : DecodeState) : res err39 DecodeState :=
  match fuel with
  | O => Panic
  | S fuel' =>
      if (d_out s <? p_entropy_len (d_params s)) && can_take (d_acc s) BITS_PER_BYTE then
        let? (v, a') := take_bits (d_acc s) BITS_PER_BYTE in
        let? ent := set_at (N.to_nat (d_out s)) (n2b v) (d_entropy s) in
        drain_bytes fuel' {| d_params := d_params s; d_entropy := ent; d_out := d_out s + 1;
                             d_acc := a'; d_cs := d_cs s; d_cs_filled := d_cs_filled s |}
      else Ok s
  end.

(** phrase.rs:141-148 *)
Fixpoint drain_checksum (fuel : nat) (s : DecodeState) : res err39 DecodeState :=
  match fuel with
  | O => Panic
  | S fuel' =>
      if (d_out s =? p_entropy_len (d_params s))
         && (d_cs_filled s <? p_cs_len (d_params s)) && can_take (d_acc s) 1 then
        let? (bit, a') := take_bits (d_acc s) 1 in
        drain_checksum fuel'
          {| d_params := d_params s; d_entropy := d_entropy s; d_out := d_out s; d_acc := a';
             d_cs := N.lor (N.shiftl (d_cs s) 1 mod 256) (bit mod 256);
             d_cs_filled := d_cs_filled s + 1 |}
      else Ok s
  end.

(** phrase.rs:128-149 [DecodeState::push_index] *)
Definition dec_push_index (s : DecodeState) (index : N) : res err39 DecodeState :=
  let? a := push_bits (d_acc s) index BITS_PER_WORD in
  let s1 := {| d_params := d_params s; d_entropy := d_entropy s; d_out := d_out s;
               d_acc := a; d_cs := d_cs s; d_cs_filled := d_cs_filled s |} in
  let? s2 := drain_bytes (S (N.to_nat (ba_bits a))) s1 in
  drain_checksum (S (N.to_nat (ba_bits a))) s2.

(** phrase.rs:151-176 [DecodeState::finish]; the three debug assertions are
    [Panic]s. *)
Definition dec_finish (s : DecodeState) : res err39 (list byte) :=
  if negb (d_out s =? p_entropy_len (d_params s)) then Panic
  else if negb (d_cs_filled s =? p_cs_len (d_params s)) then Panic
  else if negb (ba_bits (d_acc s) =? 0) then Panic
  else
    let checksum_byte := hd x00 (sha256 (d_entropy s)) in
    let expected := N.shiftr (b2n checksum_byte) (BITS_PER_BYTE - p_cs_len (d_params s)) in
    if d_cs s =? expected then Ok (d_entropy s) else Err InvalidChecksum.

(** phrase.rs:71-85, the loop over words; [norm] is [normalized_phrase]. *)
Fixpoint decode_words (L : AnyLanguage) (ws : list str) (norm : option str) (s : DecodeState)
  : res err39 (option str * DecodeState) :=
  match ws with
  | [] => Ok (norm, s)
  | w :: ws' =>
      let norm' := match norm with
                   | None => None
                   | Some out => Some ((if is_empty out then out else out ++ [32]) ++ w)
                   end in
      match any_index_of L w with
      | None => Err (UnknownWord w)
      | Some i =>
          let? s' := dec_push_index s i in
          decode_words L ws' norm' s'
      end
  end.

(** phrase.rs:52-90 [decode_phrase_with] *)
Definition decode_phrase_with (L : AnyLanguage) (phrase : str) (mode : DecodeMode)
  : res err39 DecodedPhrase :=
  let? params := parse_params_from_phrase phrase in
  let norm := match mode with ValidateOnly => None | BuildNormalizedPhrase => Some [] end in
  let? (norm', s) := decode_words L (split_whitespace phrase) norm (decode_state_new params) in
  let? entropy := dec_finish s in
  Ok {| dp_entropy := entropy; dp_normalized := norm' |}.

(** phrase.rs:44-46 *)
Definition decode_phrase (L : Language) (phrase : str) (mode : DecodeMode) :=
  decode_phrase_with (any_of L) phrase mode.

(** ** Mnemonic, mod.rs:181-438 *)

Section WithData.
Variable U : ucd.
Variable B : build.

(** mod.rs:181-185; the language is the type parameter. *)
Record Mnemonic : Type := { m_phrase : str; m_entropy : list byte }.

(** mod.rs:281-290 *)
Definition from_entropy (L : Language) (entropy : list byte) : res err39 Mnemonic :=
  let? phrase := encode_entropy B L entropy in
  Ok {| m_phrase := phrase; m_entropy := entropy |}.

(** mod.rs:337-351; the [expect] of line 344 is a [Panic]. *)
Definition from_normalized_phrase (L : Language) (phrase : str) : res err39 Mnemonic :=
  let? decoded := decode_phrase L phrase BuildNormalizedPhrase in
  match dp_normalized decoded with
  | None => Panic
  | Some p => Ok {| m_phrase := p; m_entropy := dp_entropy decoded |}
  end.

(** mod.rs:310-315 *)
Definition from_phrase (L : Language) (phrase : str) : res err39 Mnemonic :=
  from_normalized_phrase L (normalize_utf8 U phrase).

(** mod.rs:199-205 [FromStr] *)
Definition mnemonic_from_str (L : Language) (s : str) : res err39 Mnemonic := from_phrase L s.

(** mod.rs:386-392 *)
Definition validate (L : Language) (phrase : str) : res err39 unit :=
  let? _ := decode_phrase L (normalize_utf8 U phrase) ValidateOnly in
  Ok tt.

(** mod.rs:236-268 [generate]: [fill n] is what [rng.fill_bytes] writes into an
    [n]-byte buffer; the [expect] of line 267 turns an error into a panic. *)
Definition expect_ok {A : Type} (r : res err39 A) : res err39 A :=
  match r with Ok a => Ok a | _ => Panic end.
Definition generate (L : Language) (fill : nat -> list byte) (c : Count) : res err39 Mnemonic :=
  expect_ok
    match c with
    | Words12 => from_entropy L (fill 16%nat)
    | Words15 => from_entropy L (fill 20%nat)
    | Words18 => from_entropy L (fill 24%nat)
    | Words21 => from_entropy L (fill 28%nat)
    | Words24 => from_entropy L (fill 32%nat)
    end.

(** seed.rs:16-17 *)
Definition PBKDF2_ROUNDS : N := 2048.
Definition PBKDF2_BYTES : nat := 64.

(** seed.rs:24-45 [to_seed]; [Hmac::new_from_slice] accepts every key length, so
    the [expect] never fires. *)
Definition to_seed_raw (normalized_phrase passphrase : str) : list byte :=
  let salt := normalize_utf8 U (lit "mnemonic" ++ passphrase) in
  pbkdf2_hmac_sha512 (utf8 normalized_phrase) (utf8 salt) PBKDF2_ROUNDS PBKDF2_BYTES.

(** mod.rs:407-410 *)
Definition to_seed (m : Mnemonic) (passphrase : str) : list byte :=
  to_seed_raw (m_phrase m) passphrase.

(** mod.rs:416-418 [phrase], :427-430 [entropy]; :187-197 [Debug]/[Display] and
    :207-211 [AsRef<str>] write [self.phrase()]. *)
Definition phrase (m : Mnemonic) : str := m_phrase m.
Definition entropy (m : Mnemonic) : list byte := m_entropy m.
Definition mnemonic_display (m : Mnemonic) : str := phrase m.
Definition mnemonic_debug (m : Mnemonic) : str := phrase m.
Definition mnemonic_as_ref (m : Mnemonic) : str := phrase m.

(** mod.rs:421-425 and :433-437: [mem::take] returns the field and leaves the
    empty value; the second component is what is dropped. *)
Definition into_phrase (m : Mnemonic) : str * Mnemonic :=
  (m_phrase m, {| m_phrase := []; m_entropy := m_entropy m |}).
Definition into_entropy (m : Mnemonic) : list byte * Mnemonic :=
  (m_entropy m, {| m_phrase := m_phrase m; m_entropy := [] |}).

(** ** AnyMnemonic, mod.rs:446-724 *)
Record AnyMnemonic : Type := { am_language : AnyLanguage; am_phrase : str; am_entropy : list byte }.

(** mod.rs:530-539 *)
Definition any_from_entropy (L : AnyLanguage) (entropy : list byte) : res err39 AnyMnemonic :=
  let? phrase := encode_entropy_with B L entropy in
  Ok {| am_language := L; am_phrase := phrase; am_entropy := entropy |}.

(** mod.rs:586-605 *)
Definition any_from_normalized_phrase (L : AnyLanguage) (phrase : str) : res err39 AnyMnemonic :=
  let? decoded := decode_phrase_with L phrase BuildNormalizedPhrase in
  match dp_normalized decoded with
  | None => Panic
  | Some p => Ok {| am_language := L; am_phrase := p; am_entropy := dp_entropy decoded |}
  end.

(** mod.rs:559-567 *)
Definition any_from_phrase (L : AnyLanguage) (phrase : str) : res err39 AnyMnemonic :=
  any_from_normalized_phrase L (normalize_utf8 U phrase).

(** mod.rs:641-651 *)
Definition any_validate (L : AnyLanguage) (phrase : str) : res err39 unit :=
  let? _ := decode_phrase_with L (normalize_utf8 U phrase) ValidateOnly in
  Ok tt.

(** mod.rs:484-517 *)
Definition any_generate (L : AnyLanguage) (fill : nat -> list byte) (c : Count) : res err39 AnyMnemonic :=
  expect_ok
    match c with
    | Words12 => any_from_entropy L (fill 16%nat)
    | Words15 => any_from_entropy L (fill 20%nat)
    | Words18 => any_from_entropy L (fill 24%nat)
    | Words21 => any_from_entropy L (fill 28%nat)
    | Words24 => any_from_entropy L (fill 32%nat)
    end.

(** mod.rs:667-670 *)
Definition any_to_seed (m : AnyMnemonic) (passphrase : str) : list byte :=
  to_seed_raw (am_phrase m) passphrase.

(** mod.rs:683-685, :691-693, :703-705, :452-468 *)
Definition any_language (m : AnyMnemonic) : AnyLanguage := am_language m.
Definition any_phrase (m : AnyMnemonic) : str := am_phrase m.
Definition any_entropy (m : AnyMnemonic) : list byte := am_entropy m.
Definition any_display (m : AnyMnemonic) : str := any_phrase m.
Definition any_debug (m : AnyMnemonic) : str := any_phrase m.
Definition any_as_ref (m : AnyMnemonic) : str := any_phrase m.

(** mod.rs:696-700, :708-712 *)
Definition any_into_phrase (m : AnyMnemonic) : str * AnyMnemonic :=
  (am_phrase m, {| am_language := am_language m; am_phrase := []; am_entropy := am_entropy m |}).
Definition any_into_entropy (m : AnyMnemonic) : list byte * AnyMnemonic :=
  (am_entropy m, {| am_language := am_language m; am_phrase := am_phrase m; am_entropy := [] |}).

(** mod.rs:715-724 [From<Mnemonic<L>> for AnyMnemonic] *)
Definition any_from_mnemonic (L : Language) (m : Mnemonic) : AnyMnemonic :=
  {| am_language := any_of L; am_phrase := m_phrase m; am_entropy := m_entropy m |}.

End WithData.
