(** What an observer of branches and memory addresses sees of bip0039/src/mnemonic/{entropy,phrase}.rs.

    The functions of [Mnemonic39] again, with a list of events beside the result.  Events are at
    source level: the value that an [if], [while], [match] or [?] of the crate decides on, the calls of
    [Sha256::digest], the index into the word list, the number of bytes copied into the phrase, the
    word looked up.  Left out: what happens inside the libraries (the hash, [phf], [split_whitespace],
    the allocator) and what the compiler makes of the source. *)
From Verif Require Import Base Sha2 Str BitAcc Language39 Mnemonic39.

Inductive event : Type :=
| Branch (line value : N)   (* a decision at this line of entropy.rs or phrase.rs, by this value *)
| Hash (len : nat)          (* [Sha256::digest] of this many bytes *)
| Lookup (index : N)        (* [word_list()[index]] *)
| Copy (len : nat)          (* [push_str] of this many bytes *)
| Find (word : str).        (* [index_of(word)] *)
Definition trace := list event.

Definition tres (A : Type) : Type := (trace * res err39 A)%type.
Definition tbind {A B : Type} (m : tres A) (f : A -> tres B) : tres B :=
  match m with
  | (t, Ok a) => let '(t', r) := f a in (t ++ t', r)
  | (t, Err e) => (t, Err e)
  | (t, Panic) => (t, Panic)
  end.
Definition tlift {A : Type} (r : res err39 A) : tres A := ([], r).
Definition emit (e : event) : tres unit := ([e], Ok tt).
Notation "'let!' x := m 'in' k" := (tbind m (fun x => k))
  (at level 200, x pattern, m at level 100, k at level 200).

Definition b2v (b : bool) : N := if b then 1 else 0.

(** ** entropy.rs *)

(** entropy.rs:60-65, language/mod.rs:36-38 *)
Definition enc_push_index_t (L : AnyLanguage) (idx : N) (phrase : str) : tres str :=
  let! _ := emit (Branch 61 (b2v (is_empty phrase))) in
  let! _ := emit (Lookup idx) in
  match any_word_of L idx with
  | None => ([], Panic)
  | Some w =>
      let! _ := emit (Copy (length (utf8 w))) in
      tlift (Ok ((if is_empty phrase then phrase else phrase ++ [32]) ++ w))
  end.

(** entropy.rs:71-74 and :83-86; [line] is 71 or 83 *)
Fixpoint enc_drain_t (line : N) (L : AnyLanguage) (fuel : nat) (a : bitacc) (phrase : str)
  : tres (bitacc * str) :=
  match fuel with
  | O => ([], Panic)
  | S fuel' =>
      let! _ := emit (Branch line (b2v (can_take a BITS_PER_WORD))) in
      if can_take a BITS_PER_WORD then
        let! (index, a') := tlift (take_bits a BITS_PER_WORD) in
        let! phrase' := enc_push_index_t L index phrase in
        enc_drain_t line L fuel' a' phrase'
      else tlift (Ok (a, phrase))
  end.

(** entropy.rs:68-75; the loop decides on whether a byte is left *)
Fixpoint enc_bytes_t (L : AnyLanguage) (entropy : list byte) (a : bitacc) (phrase : str)
  : tres (bitacc * str) :=
  match entropy with
  | [] => ([Branch 68 0], Ok (a, phrase))
  | b :: rest =>
      let! _ := emit (Branch 68 1) in
      let! a1 := tlift (push_bits a (b2n b) BITS_PER_BYTE) in
      let! (a2, phrase2) := enc_drain_t 71 L (S (N.to_nat (ba_bits a1))) a1 phrase in
      enc_bytes_t L rest a2 phrase2
  end.

(** entropy.rs:41-96; line 42 decides on the size, line 89 is the debug assertion *)
Definition encode_t (B : build) (L : AnyLanguage) (entropy : list byte) : tres str :=
  let! size := tlift (mul_usize B (N.of_nat (length entropy)) BITS_PER_BYTE) in
  let! _ := emit (Branch 42 size) in
  let! count := tlift (from_key_size size) in
  let! _ := emit (Hash (length entropy)) in
  let checksum_byte := hd x00 (sha256 entropy) in
  let cs_len := checksum_bit_length count in
  let! (a, phrase) := enc_bytes_t L entropy ba_new [] in
  let checksum_bits := N.shiftr (b2n checksum_byte) (BITS_PER_BYTE - cs_len) in
  let! a1 := tlift (push_bits a checksum_bits cs_len) in
  let! (a2, phrase2) := enc_drain_t 83 L (S (N.to_nat (ba_bits a1))) a1 phrase in
  let! _ := emit (Branch 89 (ba_bits a2)) in
  tlift (if b_debug B && negb (ba_bits a2 =? 0) then Panic else Ok phrase2).

(** ** phrase.rs *)

(** phrase.rs:135-138 *)
Fixpoint drain_bytes_t (fuel : nat) (s : DecodeState) : tres DecodeState :=
  match fuel with
  | O => ([], Panic)
  | S fuel' =>
      let go := (d_out s <? p_entropy_len (d_params s)) && can_take (d_acc s) BITS_PER_BYTE in
      let! _ := emit (Branch 135 (b2v go)) in
      if go then
        let! (v, a') := tlift (take_bits (d_acc s) BITS_PER_BYTE) in
        let! ent := tlift (set_at (N.to_nat (d_out s)) (n2b v) (d_entropy s)) in
        drain_bytes_t fuel' {| d_params := d_params s; d_entropy := ent; d_out := d_out s + 1;
                               d_acc := a'; d_cs := d_cs s; d_cs_filled := d_cs_filled s |}
      else tlift (Ok s)
  end.

(** phrase.rs:141-148 *)
Fixpoint drain_checksum_t (fuel : nat) (s : DecodeState) : tres DecodeState :=
  match fuel with
  | O => ([], Panic)
  | S fuel' =>
      let go := (d_out s =? p_entropy_len (d_params s))
                && (d_cs_filled s <? p_cs_len (d_params s)) && can_take (d_acc s) 1 in
      let! _ := emit (Branch 141 (b2v go)) in
      if go then
        let! (bit, a') := tlift (take_bits (d_acc s) 1) in
        drain_checksum_t fuel'
          {| d_params := d_params s; d_entropy := d_entropy s; d_out := d_out s; d_acc := a';
             d_cs := N.lor (N.shiftl (d_cs s) 1 mod 256) (bit mod 256);
             d_cs_filled := d_cs_filled s + 1 |}
      else tlift (Ok s)
  end.

(** phrase.rs:128-149 *)
Definition dec_push_index_t (s : DecodeState) (index : N) : tres DecodeState :=
  let! a := tlift (push_bits (d_acc s) index BITS_PER_WORD) in
  let s1 := {| d_params := d_params s; d_entropy := d_entropy s; d_out := d_out s;
               d_acc := a; d_cs := d_cs s; d_cs_filled := d_cs_filled s |} in
  let! s2 := drain_bytes_t (S (N.to_nat (ba_bits a))) s1 in
  drain_checksum_t (S (N.to_nat (ba_bits a))) s2.

(** phrase.rs:151-176; the three debug assertions decide on the numbers they compare *)
Definition dec_finish_t (s : DecodeState) : tres (list byte) :=
  let! _ := emit (Branch 154 (d_out s)) in
  let! _ := emit (Branch 158 (d_cs_filled s)) in
  let! _ := emit (Branch 162 (ba_bits (d_acc s))) in
  if negb (d_out s =? p_entropy_len (d_params s)) then ([], Panic)
  else if negb (d_cs_filled s =? p_cs_len (d_params s)) then ([], Panic)
  else if negb (ba_bits (d_acc s) =? 0) then ([], Panic)
  else
    let! _ := emit (Hash (length (d_entropy s))) in
    let checksum_byte := hd x00 (sha256 (d_entropy s)) in
    let expected := N.shiftr (b2n checksum_byte) (BITS_PER_BYTE - p_cs_len (d_params s)) in
    let! _ := emit (Branch 171 (b2v (d_cs s =? expected))) in
    tlift (if d_cs s =? expected then Ok (d_entropy s) else Err InvalidChecksum).

(** phrase.rs:71-85 *)
Fixpoint decode_words_t (L : AnyLanguage) (ws : list str) (norm : option str) (s : DecodeState)
  : tres (option str * DecodeState) :=
  match ws with
  | [] => ([Branch 71 0], Ok (norm, s))
  | w :: ws' =>
      let! _ := emit (Branch 71 1) in
      let! norm' :=
        match norm with
        | None => let! _ := emit (Branch 72 0) in tlift (Ok None)
        | Some out =>
            let! _ := emit (Branch 72 1) in
            let! _ := emit (Branch 73 (b2v (is_empty out))) in
            let! _ := emit (Copy (length (utf8 w))) in
            tlift (Ok (Some ((if is_empty out then out else out ++ [32]) ++ w)))
        end in
      let! _ := emit (Find w) in
      match any_index_of L w with
      | None => ([Branch 79 0], Err (UnknownWord w))
      | Some i =>
          let! _ := emit (Branch 79 1) in
          let! s' := dec_push_index_t s i in
          decode_words_t L ws' norm' s'
      end
  end.

(** phrase.rs:52-90; line 57 decides on the number of words, line 59 on the mode *)
Definition decode_t (L : AnyLanguage) (phrase : str) (mode : DecodeMode) : tres DecodedPhrase :=
  let! _ := emit (Branch 57 (N.of_nat (length (split_whitespace phrase)))) in
  let! params := tlift (parse_params_from_phrase phrase) in
  let! _ := emit (Branch 59 (match mode with ValidateOnly => 0 | BuildNormalizedPhrase => 1 end)) in
  let norm := match mode with ValidateOnly => None | BuildNormalizedPhrase => Some [] end in
  let! (norm', s) := decode_words_t L (split_whitespace phrase) norm (decode_state_new params) in
  let! entropy := dec_finish_t s in
  tlift (Ok {| dp_entropy := entropy; dp_normalized := norm' |}).

(** ** Observers *)

(** An observer of control flow sees which event happens, and of branches the outcome; of memory
    accesses and library calls it does not see the arguments. *)
Definition control_of (e : event) : event :=
  match e with
  | Lookup _ => Lookup 0
  | Copy _ => Copy 0
  | Find _ => Find []
  | e => e
  end.
Definition control (t : trace) : trace := map control_of t.
(** An observer of addresses sees the indices into the word list. *)
Definition addresses (t : trace) : list N :=
  flat_map (fun e => match e with Lookup i => [i] | _ => [] end) t.
(** An observer of copies sees how many bytes are appended to the phrase. *)
Definition copies (t : trace) : list nat :=
  flat_map (fun e => match e with Copy n => [n] | _ => [] end) t.
(** Work: words looked up, and bytes hashed. *)
Definition finds (t : trace) : list str :=
  flat_map (fun e => match e with Find w => [w] | _ => [] end) t.
Definition hashes (t : trace) : list nat :=
  flat_map (fun e => match e with Hash n => [n] | _ => [] end) t.
