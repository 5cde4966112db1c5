(** Model of bip0032/src/error.rs and bip0032/src/curve/error.rs. *)
From Verif Require Import Base Str.

(** Which checks the build keeps: [debug_assert!] is active in debug builds. *)
Definition profile : Type := bool.

(** error.rs 16-30 *)
Inductive ErrorKind : Type :=
| InvalidPath | InvalidPayload | InvalidVersion | InvalidKeyData | InvalidDerivation.

(** Errors of the libraries underneath (bs58 0.5, elliptic-curve 0.14, secp256k1
    0.31, ed25519-dalek 3.0) and plain texts.  error.rs 35 wraps them in an
    [anyhow::Error]; the model keeps the wrapped value itself. *)
Inductive Source : Type :=
| SText (s : str)                              (* [anyhow::Error::msg] *)
| SEllipticCurve                               (* elliptic_curve::Error *)
| SSecpPublicKey | SSecpSecretKey | SSecpTweak (* secp256k1::Error *)
| SScalarRange                                 (* secp256k1::scalar::OutOfRangeError *)
| SDalek                                       (* ed25519_dalek::SignatureError *)
| SBufferTooSmall                              (* bs58::decode::Error *)
| SInvalidCharacter (c : N) (index : nat)
| SNonAscii (index : nat)
| SChecksum (calculated expected : list byte)
| SNoChecksum.

(** error.rs 89-94 *)
Record Error : Type := mkError {
  e_kind : ErrorKind;
  e_message : str;
  e_context : list (str * str);
  e_source : option Source
}.

(** error.rs 98-100 *)
Definition err_new (k : ErrorKind) (msg : str) : Error :=
  {| e_kind := k; e_message := msg; e_context := []; e_source := None |}.

(** error.rs 118-121 (the value is already rendered by [to_string]) *)
Definition with_context (e : Error) (key value : str) : Error :=
  {| e_kind := e_kind e; e_message := e_message e;
     e_context := e_context e ++ [(key, value)]; e_source := e_source e |}.

(** error.rs 124-128; [None] is the panic of the [debug_assert!]. *)
Definition set_source (dbg : profile) (e : Error) (s : Source) : option Error :=
  if dbg && match e_source e with Some _ => true | None => false end then None
  else Some {| e_kind := e_kind e; e_message := e_message e;
               e_context := e_context e; e_source := Some s |}.

(** [return Err(...)] of an error under construction. *)
Definition raise {A : Type} (e : option Error) : res Error A :=
  match e with Some e => Err e | None => Panic end.

(** error.rs 136-146 *)
Definition kind_name (k : ErrorKind) : str :=
  match k with
  | InvalidPath => lit "InvalidPath"
  | InvalidPayload => lit "InvalidPayload"
  | InvalidVersion => lit "InvalidVersion"
  | InvalidKeyData => lit "InvalidKeyData"
  | InvalidDerivation => lit "InvalidDerivation"
  end.

(** error.rs 154-159: the loop over the context entries, [first] = [index == 0]. *)
Fixpoint show_context (first : bool) (c : list (str * str)) : str :=
  match c with
  | [] => []
  | (k, v) :: c' =>
      (if first then [] else lit ", ") ++ k ++ lit "=" ++ v ++ show_context false c'
  end.

(** error.rs 148-165 *)
Definition show_error (e : Error) : str :=
  kind_name (e_kind e) ++ lit ": " ++ e_message e ++
  (if is_empty (e_context e) then []
   else lit " { " ++ show_context true (e_context e) ++ lit " }").

(** error.rs 167-182, [shows] being the [Display] of the wrapped library errors,
    which is not modelled. *)
Definition nl : str := [10].
Definition debug_error (shows : Source -> str) (e : Error) : str :=
  kind_name (e_kind e) ++ lit ": " ++ e_message e ++ nl ++
  (if is_empty (e_context e) then []
   else lit "Context:" ++ nl ++
        flat_map (fun kv => lit "    " ++ fst kv ++ lit ": " ++ snd kv ++ nl) (e_context e)) ++
  match e_source e with
  | Some s => lit "Source: " ++ shows s ++ nl
  | None => []
  end.

(** [bool::to_string] *)
Definition show_bool (b : bool) : str := lit (if b then "true" else "false").
