(** The heap buffers of bip0039/src/mnemonic/{mod,entropy,phrase,seed}.rs: what
    they contain when they are handed back to the allocator.

    A function of this file returns what its counterpart in [Mnemonic39] returns
    and the contents of every heap block released on the way, oldest first.  Only
    the heap is modelled, and in a block only the bytes written to it: the stack,
    registers and the buffers inside the hash and normalisation crates are not.
    Panics release nothing here; they do not occur (C11). *)
From Verif Require Import Base Sha2 Str Unicode BitAcc Language39 Mnemonic39.

(** Released blocks, by contents. *)
Definition freed : Type := list (list byte).

(** A [String] or [Vec<u8>]: capacity and bytes. *)
Record buf : Type := { bf_cap : N; bf_data : list byte }.

(** What the global allocator and [alloc::raw_vec] decide: the capacity after
    growing from [cap] to hold [need] bytes, and whether the block moves (the old
    one is then released as it is) or is extended in place. *)
Record allocator : Type := { al_grow : N -> N -> N; al_moves : N -> N -> bool }.

Section WithAllocator.
Variable Al : allocator.

(** [String::with_capacity], [String::new] (capacity 0: no block). *)
Definition with_capacity (n : N) : buf := {| bf_cap := n; bf_data := [] |}.

(** [String::push_str] and [String::push]: reserve, then append. *)
Definition push_bytes (st : freed * buf) (bs : list byte) : freed * buf :=
  let '(f, b) := st in
  let need := N.of_nat (length (bf_data b)) + N.of_nat (length bs) in
  if need <=? bf_cap b then (f, {| bf_cap := bf_cap b; bf_data := bf_data b ++ bs |})
  else (f ++ (if (bf_cap b =? 0) || negb (al_moves Al (bf_cap b) need) then [] else [bf_data b]),
        {| bf_cap := al_grow Al (bf_cap b) need; bf_data := bf_data b ++ bs |}).

(** Dropping a [String] or [Vec<u8>]: the block is released as it is. *)
Definition drop_buf (b : buf) : freed := if bf_cap b =? 0 then [] else [bf_data b].

(** Dropping a [Zeroizing<String>] or [Zeroizing<Vec<u8>>]: zeroize writes zeros
    over the elements and the spare capacity first. *)
Definition drop_wiped (b : buf) : freed :=
  if bf_cap b =? 0 then [] else [repeat x00 (N.to_nat (bf_cap b))].

(** A computation with the blocks released so far. *)
Definition mem (A : Type) : Type := freed * res err39 A.

(** entropy.rs:60-65 and phrase.rs:72-77: a space unless the buffer is empty, then
    the word. *)
Definition push_word_m (st : freed * buf) (w : str) : freed * buf :=
  push_bytes (if is_empty (bf_data (snd st)) then st else push_bytes st (utf8 [32])) (utf8 w).

(** entropy.rs:52-53 and phrase.rs:62-64 [rough_phrase_cap]. *)
Definition rough_phrase_cap (c : Count) : N := word_count c * 8 + (word_count c - 1).

(** ** Encoding, entropy.rs *)

(** entropy.rs:60-65 [push_index] *)
Definition enc_push_index_m (L : AnyLanguage) (idx : N) (st : freed * buf) : res err39 (freed * buf) :=
  match any_word_of L idx with
  | None => Panic
  | Some w => Ok (push_word_m st w)
  end.

(** entropy.rs:71-74 and :83-86 *)
Fixpoint enc_drain_m (L : AnyLanguage) (fuel : nat) (a : bitacc) (st : freed * buf)
  : res err39 (bitacc * (freed * buf)) :=
  match fuel with
  | O => Panic
  | S fuel' =>
      if can_take a BITS_PER_WORD then
        let? (index, a') := take_bits a BITS_PER_WORD in
        let? st' := enc_push_index_m L index st in
        enc_drain_m L fuel' a' st'
      else Ok (a, st)
  end.
Definition enc_drain_all_m (L : AnyLanguage) (a : bitacc) (st : freed * buf) :=
  enc_drain_m L (S (N.to_nat (ba_bits a))) a st.

(** entropy.rs:68-75 *)
Fixpoint enc_bytes_m (L : AnyLanguage) (entropy : list byte) (a : bitacc) (st : freed * buf)
  : res err39 (bitacc * (freed * buf)) :=
  match entropy with
  | [] => Ok (a, st)
  | b :: rest =>
      let? a1 := push_bits a (b2n b) BITS_PER_BYTE in
      let? (a2, st2) := enc_drain_all_m L a1 st in
      enc_bytes_m L rest a2 st2
  end.

(** entropy.rs:41-96 [encode_entropy_with], with the capacity of lines 51-55 *)
Definition encode_entropy_m (B : build) (L : AnyLanguage) (entropy : list byte) : mem buf :=
  match
    (let? size := mul_usize B (N.of_nat (length entropy)) BITS_PER_BYTE in
     let? count := from_key_size size in
     let checksum_byte := hd x00 (sha256 entropy) in
     let cs_len := checksum_bit_length count in
     let? (a, st) := enc_bytes_m L entropy ba_new ([], with_capacity (rough_phrase_cap count)) in
     let checksum_bits := N.shiftr (b2n checksum_byte) (BITS_PER_BYTE - cs_len) in
     let? a1 := push_bits a checksum_bits cs_len in
     let? (a2, st2) := enc_drain_all_m L a1 st in
     if b_debug B && negb (ba_bits a2 =? 0) then Panic else Ok st2)
  with
  | Ok (f, b) => (f, Ok b)
  | Err e => ([], Err e)
  | Panic => ([], Panic)
  end.

(** ** Decoding, phrase.rs *)

(** [Option<String>] dropped *)
Definition drop_opt (o : option buf) : freed := match o with None => [] | Some b => drop_buf b end.

(** The entropy vector of a [DecodeState] (phrase.rs:120, exactly filled) dropped *)
Definition drop_state (s : DecodeState) : freed :=
  drop_buf {| bf_cap := N.of_nat (length (d_entropy s)); bf_data := d_entropy s |}.

(** phrase.rs:71-85.  At the [return] of line 81 the locals [state] and
    [normalized_phrase] are dropped, last declared first. *)
Fixpoint decode_words_m (L : AnyLanguage) (ws : list str) (f : freed) (norm : option buf) (s : DecodeState)
  : mem (option buf * DecodeState) :=
  match ws with
  | [] => (f, Ok (norm, s))
  | w :: ws' =>
      let '(f', norm') := match norm with
                          | None => (f, None)
                          | Some out => let '(f1, out') := push_word_m (f, out) w in (f1, Some out')
                          end in
      match any_index_of L w with
      | None => (f' ++ drop_state s ++ drop_opt norm', Err (UnknownWord w))
      | Some i =>
          match dec_push_index s i with
          | Ok s' => decode_words_m L ws' f' norm' s'
          | Err e => (f', Err e)
          | Panic => (f', Panic)
          end
      end
  end.

(** phrase.rs:52-90 [decode_phrase_with].  [finish] (line 87) takes the state by
    value and drops its entropy on an error; the caller then drops
    [normalized_phrase]. *)
Definition decode_phrase_m (L : AnyLanguage) (phrase : str) (mode : DecodeMode) : mem (list byte * option buf) :=
  match parse_params_from_phrase phrase with
  | Err e => ([], Err e)
  | Panic => ([], Panic)
  | Ok params =>
      let norm := match mode with
                  | ValidateOnly => None
                  | BuildNormalizedPhrase => Some (with_capacity (rough_phrase_cap (p_count params)))
                  end in
      match decode_words_m L (split_whitespace phrase) [] norm (decode_state_new params) with
      | (f, Err e) => (f, Err e)
      | (f, Panic) => (f, Panic)
      | (f, Ok (norm', s)) =>
          match dec_finish s with
          | Ok entropy => (f, Ok (entropy, norm'))
          | Err e => (f ++ drop_state s ++ drop_opt norm', Err e)
          | Panic => (f, Panic)
          end
      end
  end.

(** ** Mnemonics, mod.rs *)

(** mod.rs:181-185 and :446-450: both fields are [Zeroizing]. *)
Record hmnemonic : Type := { hm_phrase : buf; hm_entropy : buf }.

(** The drop glue of [Mnemonic] and [AnyMnemonic]: fields in order. *)
Definition drop_mnemonic (m : hmnemonic) : freed := drop_wiped (hm_phrase m) ++ drop_wiped (hm_entropy m).

(** mod.rs:281-290 and :530-539 [from_entropy] on a [Vec<u8>]; on an error the
    vector is dropped as it is. *)
Definition from_entropy_m (B : build) (L : AnyLanguage) (entropy : buf) : mem hmnemonic :=
  match encode_entropy_m B L (bf_data entropy) with
  | (f, Ok phrase) => (f, Ok {| hm_phrase := phrase; hm_entropy := entropy |})
  | (f, Err e) => (f ++ drop_buf entropy, Err e)
  | (f, Panic) => (f, Panic)
  end.

(** [Cow<'_, str>]; an owned string has a capacity. *)
Inductive cow : Type := Borrowed (s : str) | Owned (s : str) (cap : N).
Definition cow_str (c : cow) : str := match c with Borrowed s => s | Owned s _ => s end.
Definition drop_cow (c : cow) : freed :=
  match c with Borrowed _ => [] | Owned s cap => drop_buf {| bf_cap := cap; bf_data := utf8 s |} end.

Section WithData.
Variable U : ucd.

(** mod.rs:731, [nfkd().to_string()]: the adapter's [Display] writes one [char]
    after the other to a new [String]. *)
Definition to_string_m (s : str) : freed * buf :=
  fold_left (fun st c => push_bytes st (utf8_char c)) s ([], with_capacity 0).

(** mod.rs:729-733 [normalize_utf8]; the assignment drops the old value. *)
Definition normalize_m (c : cow) : freed * cow :=
  if is_nfkd_quick U (cow_str c) then ([], c)
  else let '(f, b) := to_string_m (nfkd U (cow_str c)) in
       (f ++ drop_cow c, Owned (nfkd U (cow_str c)) (bf_cap b)).

(** mod.rs:337-351 and :586-605 [from_normalized_phrase]; the parameter is dropped
    on return. *)
Definition from_normalized_phrase_m (L : AnyLanguage) (phrase : cow) : mem hmnemonic :=
  match decode_phrase_m L (cow_str phrase) BuildNormalizedPhrase with
  | (f, Ok (entropy, Some p)) =>
      (f ++ drop_cow phrase,
       Ok {| hm_phrase := p; hm_entropy := {| bf_cap := N.of_nat (length entropy); bf_data := entropy |} |})
  | (f, Ok (_, None)) => (f, Panic)
  | (f, Err e) => (f ++ drop_cow phrase, Err e)
  | (f, Panic) => (f, Panic)
  end.

(** mod.rs:310-315 and :559-567 [from_phrase] *)
Definition from_phrase_m (L : AnyLanguage) (phrase : cow) : mem hmnemonic :=
  let '(f, c) := normalize_m phrase in
  let '(f', r) := from_normalized_phrase_m L c in (f ++ f', r).

(** mod.rs:386-392 and :641-651 [validate]: [_decoded], then [phrase] are dropped. *)
Definition validate_m (L : AnyLanguage) (phrase : cow) : mem unit :=
  let '(f, c) := normalize_m phrase in
  match decode_phrase_m L (cow_str c) ValidateOnly with
  | (f', Ok (entropy, norm)) =>
      (f ++ f' ++ drop_buf {| bf_cap := N.of_nat (length entropy); bf_data := entropy |}
         ++ drop_opt norm ++ drop_cow c, Ok tt)
  | (f', Err e) => (f ++ f' ++ drop_cow c, Err e)
  | (f', Panic) => (f ++ f', Panic)
  end.

(** seed.rs:31-35 and the drop of [normalized_salt] at :45; [cap] is the capacity
    [format!] starts with.  The seed itself is an array and is returned. *)
Definition to_seed_m (cap : N) (passphrase : str) : freed :=
  let '(f, b) := push_bytes (push_bytes ([], with_capacity cap) (utf8 (lit "mnemonic"))) (utf8 passphrase) in
  let '(f', c) := normalize_m (Owned (lit "mnemonic" ++ passphrase) (bf_cap b)) in
  f ++ f' ++ drop_cow c.

End WithData.
End WithAllocator.

(** mod.rs:421-425 and :696-700 [into_phrase], :433-437 and :708-712
    [into_entropy]: [mem::take] moves one buffer out and leaves an empty one
    behind; the rest of [self] is dropped.  mod.rs:715-724
    [From<Mnemonic<L>>]: both buffers move on. *)
Definition into_phrase_m (m : hmnemonic) : freed * buf :=
  (drop_mnemonic {| hm_phrase := with_capacity 0; hm_entropy := hm_entropy m |}, hm_phrase m).
Definition into_entropy_m (m : hmnemonic) : freed * buf :=
  (drop_mnemonic {| hm_phrase := hm_phrase m; hm_entropy := with_capacity 0 |}, hm_entropy m).
Definition any_from_mnemonic_m (m : hmnemonic) : freed * hmnemonic :=
  (drop_mnemonic {| hm_phrase := with_capacity 0; hm_entropy := with_capacity 0 |},
   {| hm_phrase := hm_phrase m; hm_entropy := hm_entropy m |}).
