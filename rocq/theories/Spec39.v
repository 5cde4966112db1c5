(** Specifications for bip0039, written from BIP-0039 and the documentation and
    independent of the model's loops and accumulators. *)
From Verif Require Import Base Sha2 Str.

(** ** Bit strings, most significant bit first *)

(** The low [k] bits of [n]. *)
Fixpoint bits_msb (k : nat) (n : N) : list bool :=
  match k with
  | O => []
  | S k' => bits_msb k' (n / 2) ++ [N.odd n]
  end.

(** All bits of a byte string. *)
Definition bytes_bits (l : list byte) : list bool := flat_map (fun b => bits_msb 8 (b2n b)) l.

(** The bits denoted by a sequence of 11-bit word indices. *)
Definition index_bits (idxs : list N) : list bool := flat_map (bits_msb 11) idxs.

(** Value of a bit string. *)
Definition bits_val (l : list bool) : N :=
  fold_left (fun acc (b : bool) => 2 * acc + (if b then 1 else 0)) l 0.

(** ** BIP-0039 *)

(** ENT/32 checksum bits: "A checksum is generated by taking the first ENT/32
    bits of its SHA256 hash". *)
Definition checksum_bits (e : list byte) : list bool :=
  firstn (length e * 8 / 32) (bytes_bits (sha256 e)).

(** "This checksum is appended to the end of the initial entropy." *)
Definition bip39_bits (e : list byte) : list bool := bytes_bits e ++ checksum_bits e.

Definition legal_entropy_len (n : nat) : Prop := In n [16; 20; 24; 28; 32]%nat.
Definition legal_word_count (n : nat) : Prop := In n [12; 15; 18; 21; 24]%nat.

(** "These concatenated bits are split into groups of 11 bits, each encoding a
    number from 0-2047": [idxs] is that list of numbers. *)
Definition bip39_indices (e : list byte) (idxs : list N) : Prop :=
  Forall (fun i => i < 2048) idxs /\ index_bits idxs = bip39_bits e.

(** ** Words of a string: maximal non-empty runs of non-whitespace. *)
Inductive words_of : str -> list str -> Prop :=
| wo_nil : words_of [] []
| wo_ws c s ws : is_ws c = true -> words_of s ws -> words_of (c :: s) ws
| wo_word w s ws :
    w <> [] -> Forall (fun c => is_ws c = false) w ->
    (s = [] \/ exists c s', s = c :: s' /\ is_ws c = true) ->
    words_of s ws -> words_of (w ++ s) (w :: ws).

(** ** Parsing a phrase *)
Inductive parse_result : Type :=
| PBadCount (n : nat)
| PUnknown (w : str)
| PBadChecksum
| POk (e : list byte) (normalized : str).

(** The documented outcome of parsing [s] with a word list given by [index_of];
    in this order of priority. *)
Inductive parse_spec (index_of : str -> option N) (s : str) : parse_result -> Prop :=
| ps_count ws :
    words_of s ws -> ~ legal_word_count (length ws) ->
    parse_spec index_of s (PBadCount (length ws))
| ps_unknown pre w post :
    words_of s (pre ++ w :: post) -> legal_word_count (length (pre ++ w :: post)) ->
    Forall (fun v => index_of v <> None) pre -> index_of w = None ->
    parse_spec index_of s (PUnknown w)
| ps_checksum ws idxs e cs :
    words_of s ws -> legal_word_count (length ws) ->
    Forall2 (fun w i => index_of w = Some i) ws idxs ->
    index_bits idxs = bytes_bits e ++ cs -> (3 * length cs = length ws)%nat ->
    cs <> checksum_bits e ->
    parse_spec index_of s PBadChecksum
| ps_ok ws idxs e :
    words_of s ws -> legal_word_count (length ws) ->
    Forall2 (fun w i => index_of w = Some i) ws idxs ->
    index_bits idxs = bip39_bits e -> (3 * length e = 4 * length ws)%nat ->
    parse_spec index_of s (POk e (join [32] ws)).
