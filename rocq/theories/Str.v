(** Rust strings as lists of Unicode code points, and the [core::str] functions
    the two crates call.  Every Rust [str] is such a list (of scalar values);
    the model functions are total on all lists of numbers. *)
From Verif Require Import Base.

Definition str : Type := list N.

Definition str_eqb : str -> str -> bool := list_eqb N.eqb.
Lemma str_eqb_eq a b : str_eqb a b = true <-> a = b.
Proof. apply list_eqb_eq. exact N.eqb_eq. Qed.

(** A Rust [char] is a Unicode scalar value. *)
Definition is_scalar (c : N) : bool :=
  (c <? 0xD800) || ((0xDFFF <? c) && (c <? 0x110000)).

(** String literals of the code (ASCII only). *)
Fixpoint lit_aux (s : string) : str :=
  match s with
  | EmptyString => []
  | String a s' => N_of_ascii a :: lit_aux s'
  end.
Definition lit (s : string) : str := lit_aux s.

(** ** UTF-8 ([str::as_bytes], [char::encode_utf8]). *)
Definition utf8_char (c : N) : list byte :=
  if c <? 0x80 then [n2b c]
  else if c <? 0x800 then [n2b (0xC0 + c / 64); n2b (0x80 + c mod 64)]
  else if c <? 0x10000 then
    [n2b (0xE0 + c / 4096); n2b (0x80 + (c / 64) mod 64); n2b (0x80 + c mod 64)]
  else
    [n2b (0xF0 + c / 262144); n2b (0x80 + (c / 4096) mod 64);
     n2b (0x80 + (c / 64) mod 64); n2b (0x80 + c mod 64)].
Definition utf8 (s : str) : list byte := flat_map utf8_char s.

(** [str::from_utf8]: strict decoder; [None] on ill-formed input.  Continuation
    bytes are checked, over-long forms, surrogates and values above 0x10FFFF are
    rejected. *)
Definition is_cont (b : byte) : bool := (0x80 <=? b2n b) && (b2n b <? 0xC0).
Definition guard {A : Type} (b : bool) (o : option A) : option A := if b then o else None.

Fixpoint utf8_decode_fuel (fuel : nat) (l : list byte) : option str :=
  match fuel with
  | O => match l with [] => Some [] | _ => None end
  | S fuel' =>
      match l with
      | [] => Some []
      | b0 :: l1 =>
          let n0 := b2n b0 in
          if n0 <? 0x80 then option_map (cons n0) (utf8_decode_fuel fuel' l1)
          else if n0 <? 0xC0 then None
          else if n0 <? 0xE0 then
            match l1 with
            | b1 :: l2 =>
                let c := (n0 - 0xC0) * 64 + (b2n b1 - 0x80) in
                guard (is_cont b1 && (0x80 <=? c))
                  (option_map (cons c) (utf8_decode_fuel fuel' l2))
            | _ => None
            end
          else if n0 <? 0xF0 then
            match l1 with
            | b1 :: b2 :: l3 =>
                let c := (n0 - 0xE0) * 4096 + (b2n b1 - 0x80) * 64 + (b2n b2 - 0x80) in
                guard (is_cont b1 && is_cont b2 && (0x800 <=? c) && is_scalar c)
                  (option_map (cons c) (utf8_decode_fuel fuel' l3))
            | _ => None
            end
          else if n0 <? 0xF8 then
            match l1 with
            | b1 :: b2 :: b3 :: l4 =>
                let c := (n0 - 0xF0) * 262144 + (b2n b1 - 0x80) * 4096
                         + (b2n b2 - 0x80) * 64 + (b2n b3 - 0x80) in
                guard (is_cont b1 && is_cont b2 && is_cont b3 && (0x10000 <=? c) && is_scalar c)
                  (option_map (cons c) (utf8_decode_fuel fuel' l4))
            | _ => None
            end
          else None
      end
  end.
Definition utf8_decode (l : list byte) : option str := utf8_decode_fuel (length l) l.

(** ** Whitespace: [char::is_whitespace] (Unicode White_Space). *)
Definition is_ws (c : N) : bool :=
  ((9 <=? c) && (c <=? 13)) || (c =? 0x20) || (c =? 0x85) || (c =? 0xA0) || (c =? 0x1680)
  || ((0x2000 <=? c) && (c <=? 0x200A)) || (c =? 0x2028) || (c =? 0x2029) || (c =? 0x202F)
  || (c =? 0x205F) || (c =? 0x3000).

(** [str::split(pred)]: the (possibly empty) pieces between separators.  The
    accumulator holds the current piece reversed. *)
Fixpoint split_acc (p : N -> bool) (cur : str) (s : str) : list str :=
  match s with
  | [] => [rev cur]
  | c :: s' => if p c then rev cur :: split_acc p [] s' else split_acc p (c :: cur) s'
  end.
Definition split_on (p : N -> bool) (s : str) : list str := split_acc p [] s.

Definition is_empty {A : Type} (l : list A) : bool := match l with [] => true | _ => false end.

(** [str::split_whitespace] = [split(char::is_whitespace).filter(|s| !s.is_empty())]. *)
Definition split_whitespace (s : str) : list str :=
  filter (fun w => negb (is_empty w)) (split_on is_ws s).

(** [str::trim]. *)
Fixpoint trim_start (s : str) : str :=
  match s with
  | c :: s' => if is_ws c then trim_start s' else s
  | [] => []
  end.
Definition trim_end (s : str) : str := rev (trim_start (rev s)).
Definition trim (s : str) : str := trim_end (trim_start s).

(** Words joined by a single separator. *)
Fixpoint join (sep : str) (ws : list str) : str :=
  match ws with
  | [] => []
  | [w] => w
  | w :: ws' => w ++ sep ++ join sep ws'
  end.

(** [write!("{}", n)] for unsigned integers: decimal digits. *)
Fixpoint dec_fuel (fuel : nat) (n : N) (acc : str) : str :=
  match fuel with
  | O => acc
  | S fuel' =>
      let acc' := (48 + n mod 10) :: acc in
      if n <? 10 then acc' else dec_fuel fuel' (n / 10) acc'
  end.
Definition dec (n : N) : str := dec_fuel (S (N.to_nat (N.size n))) n [].

(** Upper-case hexadecimal, zero-padded to [w] digits ([{:02X}], [{:08X}]). *)
Definition hexdig (n : N) : N := if n <? 10 then 48 + n else 55 + n.
Fixpoint hexw (w : nat) (n : N) : str :=
  match w with
  | O => []
  | S w' => hexw w' (n / 16) ++ [hexdig (n mod 16)]
  end.
