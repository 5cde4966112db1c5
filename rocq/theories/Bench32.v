(** Model of bip0032/benchmarks/src.

    Only the closures that run this crate are modelled.  Each benchmark has a setup, run before every
    measured call, and the measured work; an [unwrap] of an error is [Panic].  [pick] and [fill] are
    what the random source returns for the range 0..=2 and writes into the buffer. *)
From Verif Require Import Base Str Error32 Path32 Version32 Payload32 Curve32 XKey32 XKeySpec32 Fuzz39.

(** common.rs 5-16 *)
Definition random_seed (pick : N) (fill : nat -> list byte) : list byte :=
  let len := match pick with 0 => 16%nat | 1 => 32%nat | _ => 64%nat end in
  fill len.

Section Bench.
Variable dbg : profile.
Variable C : TweakCurve.
Variable seed : list byte.

(** keygen.rs 61-74: the setup is [random_seed]; derive.rs 89-92, xprv_encode.rs 74-77 *)
Definition bench_keygen : res Error (XPrv C) := unwrap (xprv_new dbg C seed).

(** derive.rs 86, outside both closures *)
Definition bench_path : res Error (list N) := unwrap (path_parse (lit "m/0'/1/2'/2/1000000000")).
(** derive.rs 93-96 *)
Definition bench_derive (path : list N) (master : XPrv C) : res Error (XPrv C) :=
  unwrap (xprv_derive_path dbg master path).

(** [encode_with_unchecked(version).to_string()]: [ToString] panics when [Display] fails *)
(** xprv_encode.rs 78-81 *)
Definition bench_xprv_encode (x : XPrv C) : res Error str :=
  let? p := xprv_encode_unchecked x XPRV in unwrap (payload_show p).

(** xpub_encode.rs 79-96 *)
Definition bench_xpub_encode_setup : res Error (XPub C) :=
  let? x := unwrap (xprv_new dbg C seed) in Ok (xprv_public x).
Definition bench_xpub_encode (x : XPub C) : res Error str :=
  unwrap (payload_show (xpub_encode_unchecked x XPUB)).

(** xprv_decode.rs 74-92 *)
Definition bench_xprv_decode_setup : res Error str :=
  let? x := unwrap (xprv_new dbg C seed) in
  let? p := xprv_encode_unchecked x XPRV in unwrap (payload_show p).
Definition bench_xprv_decode (encoded : str) : res Error (XPrv C) :=
  let? payload := unwrap (payload_parse dbg encoded) in unwrap (xprv_try_from dbg C payload).

(** xpub_decode.rs 87-105 *)
Definition bench_xpub_decode_setup : res Error str :=
  let? master := unwrap (xprv_new dbg C seed) in
  unwrap (payload_show (xpub_encode_unchecked (xprv_public master) XPUB)).
Definition bench_xpub_decode (encoded : str) : res Error (XPub C) :=
  let? payload := unwrap (payload_parse dbg encoded) in unwrap (xpub_try_from dbg C payload).
End Bench.
