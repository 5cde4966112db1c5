(** Model of bip0032/fuzz/fuzz_targets: derive_path.rs, parse_path.rs, parse_xkey.rs.

    A target is a function from the fuzzer's input; a failed assertion, [unwrap] or
    out-of-bounds access is [Panic].  [String::from_utf8_lossy] is a parameter [lossy],
    so the targets are run on every string it could return.  The curve is the
    [K256Backend] over an arbitrary library [L]. *)
From Verif Require Import Base Str Sha2 Error32 Path32 Version32 Meta32 Payload32 Base58 Curve32 XKey32.
From Verif Require Import Eqb32 XKeySpec32 Fuzz39.

(** [let _ = r;] *)
Definition ignore {E E' A : Type} (r : res E A) : res E' unit :=
  match r with Panic => Panic | _ => Ok tt end.
Definition index {E A : Type} (l : list A) (i : nat) : res E A :=
  match nth_error l i with Some x => Ok x | None => Panic end.

(** derive_path.rs 18-21, parse_xkey.rs 23-26 *)
Definition bounded_slice (bytes : list byte) (max_len : nat) : list byte :=
  firstn (Nat.min (length bytes) max_len) bytes.

(** [u32::from_le_bytes] *)
Definition u32_from_le (l : list byte) : N := be_val (rev l).

(** derive_path.rs 23-44, parse_path.rs 16-35, parse_xkey.rs 28-47; the flag is the
    [has_hardened] of derive_path.rs *)
Fixpoint build_loop (chunks : list (list byte)) (children : list N) (has_hardened : bool)
    : res Error (list N * bool) :=
  match chunks with
  | [] => Ok (children, has_hardened)
  | chunk :: rest =>
      if (length chunk <? 5)%nat then Ok (children, has_hardened)
      else
        let idx := N.land (u32_from_le (slice 0 4 chunk)) 0x7FFFFFFF in
        let? b := index chunk 4 in
        let hardened := N.land (b2n b) 1 =? 1 in
        match child_new idx hardened with
        | Ok child => build_loop rest (children ++ [child]) (has_hardened || hardened)
        | Err _ => build_loop rest children has_hardened
        | Panic => Panic
        end
  end.
Definition build_path (bytes : list byte) (max_children : nat) : res Error (list N * bool) :=
  build_loop (firstn max_children (chunks 5 bytes)) [] false.

(** [Vec::insert], [Vec::remove], [v[i] = x]: the standard library's bounds checks *)
Definition vec_insert {E A : Type} (v : list A) (i : nat) (x : A) : res E (list A) :=
  if (i <=? length v)%nat then Ok (firstn i v ++ x :: skipn i v) else Panic.
Definition vec_remove {E A : Type} (v : list A) (i : nat) : res E (list A) :=
  if (i <? length v)%nat then Ok (firstn i v ++ skipn (S i) v) else Panic.

(** parse_path.rs 37-71 and parse_xkey.rs 91-125, one step and the loop over
    [i..i+ops] *)
Definition mutate_step (alphabet bytes buf : list byte) (i : nat) : res Error (list byte) :=
  let len := length bytes in
  let? b := index bytes (i mod len) in
  let action := b2n b mod 3 in
  let? p := index bytes ((i + 1) mod len) in
  let pos := if is_empty buf then 0%nat else (N.to_nat (b2n p) mod length buf)%nat in
  let? c := index bytes ((i + 2) mod len) in
  let? ch := index alphabet (N.to_nat (b2n c) mod length alphabet) in
  if action =? 0 then
    vec_insert buf (if is_empty buf then 0%nat else Nat.min pos (length buf)) ch
  else if action =? 1 then
    if negb (is_empty buf) then set_at pos ch buf else Ok buf
  else if negb (is_empty buf) then vec_remove buf pos else Ok buf.
Fixpoint mutate_loop (alphabet bytes buf : list byte) (i ops : nat) : res Error (list byte) :=
  match ops with
  | O => Ok buf
  | S n =>
      let? buf' := mutate_step alphabet bytes buf i in
      mutate_loop alphabet bytes buf' (S i) n
  end.

Section Targets.
Variable dbg : profile.
Variable lossy : list byte -> str.

Definition mutate_string (alphabet : list byte) (s : str) (bytes : list byte) (ops : nat) : res Error str :=
  if is_empty bytes || (ops =? 0)%nat then Ok s
  else let? buf := mutate_loop alphabet bytes (utf8 s) 0 ops in Ok (lossy buf).
Definition mutate_path := mutate_string (bytes_of "m/0123456789'hH").
Definition mutate_base58 :=
  mutate_string (bytes_of "123456789ABCDEFGHJKLMNPQRSTUVWXYZabcdefghijkmnopqrstuvwxyz").

(** parse_path.rs 73-77 *)
Fixpoint assert_child_bounds (p : list N) : res Error unit :=
  match p with
  | [] => Ok tt
  | c :: p' => let? _ := assert (child_index c <? 0x80000000) in assert_child_bounds p'
  end.
(** parse_path.rs 88-93 *)
Fixpoint assert_children (p : list N) : res Error unit :=
  match p with
  | [] => Ok tt
  | c :: p' =>
      let? c' := unwrap (parse_child_component (child_show c)) in
      let? _ := assert (child_index c' =? child_index c) in
      let? _ := assert (Bool.eqb (child_is_hardened c') (child_is_hardened c)) in
      assert_children p'
  end.

(** parse_path.rs 79-105 *)
Definition fuzz_parse_path (path_bytes mutate_bytes : list byte) (max_children : byte)
    (mutate : bool) (mutate_ops : byte) : res Error unit :=
  let max := Nat.min (N.to_nat (b2n max_children)) 32 in
  let? ph := build_path path_bytes max in
  let canonical := path_show (fst ph) in
  let? parsed := unwrap (path_parse canonical) in
  let? _ := assert (str_eqb (path_show parsed) canonical) in
  let? _ := assert_child_bounds parsed in
  let? _ := assert_children parsed in
  if mutate then
    let ops := Nat.min (N.to_nat (b2n mutate_ops)) 8 in
    let? mutated := mutate_path canonical mutate_bytes ops in
    match path_parse mutated with
    | Ok parsed_mut =>
        let? _ := assert_child_bounds parsed_mut in
        let normalized := path_show parsed_mut in
        let? parsed_again := unwrap (path_parse normalized) in
        assert (str_eqb (path_show parsed_again) normalized)
    | Err _ => Ok tt
    | Panic => Panic
    end
  else Ok tt.

Variable L : ECLib.
Local Notation C := (backend K256 L).

(** derive_path.rs 48-55 *)
Definition roundtrip_xprv (key : XPrv C) : res Error str :=
  let? p := unwrap (xprv_encode_with key (into_version Xprv)) in
  let? encoded := unwrap (payload_show p) in
  let? payload := unwrap (payload_parse dbg encoded) in
  let? decoded := unwrap (xprv_try_from dbg C payload) in
  let? p2 := unwrap (xprv_encode_with decoded (into_version Xprv)) in
  let? encoded2 := unwrap (payload_show p2) in
  let? _ := assert (str_eqb encoded2 encoded) in
  Ok encoded.
(** derive_path.rs 57-64 *)
Definition roundtrip_xpub (key : XPub C) : res Error str :=
  let? p := unwrap (xpub_encode_with key (into_version Xpub)) in
  let? encoded := unwrap (payload_show p) in
  let? payload := unwrap (payload_parse dbg encoded) in
  let? decoded := unwrap (xpub_try_from dbg C payload) in
  let? p2 := unwrap (xpub_encode_with decoded (into_version Xpub)) in
  let? encoded2 := unwrap (payload_show p2) in
  let? _ := assert (str_eqb encoded2 encoded) in
  Ok encoded.

(** derive_path.rs 66-107 *)
Definition fuzz_derive_path (seed path_bytes : list byte) (max_seed_len max_path_len : byte) : res Error unit :=
  let seed' := bounded_slice seed (Nat.min (N.to_nat (b2n max_seed_len)) 64) in
  let? ph := build_path path_bytes (Nat.min (N.to_nat (b2n max_path_len)) 32) in
  let path := fst ph in
  let has_hardened := snd ph in
  match xprv_new dbg C seed' with
  | Panic => Panic
  | Err _ => Ok tt
  | Ok master =>
      match xprv_derive_path dbg master path with
      | Panic => Panic
      | Err _ =>
          if negb has_hardened then ignore (xpub_derive_path dbg (xprv_public master) path)
          else Ok tt
      | Ok derived =>
          let? xprv := roundtrip_xprv derived in
          let? xpub := roundtrip_xpub (xprv_public derived) in
          let path_str := path_show path in
          let? parsed_path := unwrap (path_parse path_str) in
          let? _ := assert (str_eqb (path_show parsed_path) path_str) in
          let? _ :=
            if negb has_hardened then
              let? derived_pub := unwrap (xpub_derive_path dbg (xprv_public master) path) in
              let? xpub_from_pub := roundtrip_xpub derived_pub in
              assert (str_eqb xpub_from_pub xpub)
            else
              match xpub_derive_path dbg (xprv_public master) path with
              | Err _ => Ok tt
              | _ => Panic
              end in
          let? xprv_payload := unwrap (payload_parse dbg xprv) in
          let? _ := assert (is_private (p_version xprv_payload)) in
          let? xpub_payload := unwrap (payload_parse dbg xpub) in
          assert (is_public (p_version xpub_payload))
      end
  end.

(** parse_xkey.rs 49-77 *)
Definition PUB : list KnownVersion :=
  [Xpub; Tpub; Ypub; Zpub; Upub; Vpub; YpubShWsh; ZpubWsh; UpubShWsh; VpubWsh].
Definition PRV : list KnownVersion :=
  [Xprv; Tprv; Yprv; Zprv; Uprv; Vprv; YprvShWsh; ZprvWsh; UprvShWsh; VprvWsh].
Definition pick_version (selector : byte) (want_private : bool) : res Error Version :=
  let idx := (N.to_nat (b2n selector) mod length PUB)%nat in
  let? k := index (if want_private then PRV else PUB) idx in
  Ok (into_version k).

(** parse_xkey.rs 79-89 *)
Fixpoint mutate_payload_loop (bytes payload : list byte) (i ops : nat) : res Error (list byte) :=
  match ops with
  | O => Ok payload
  | S n =>
      let len := length bytes in
      let? p := index bytes (i mod len) in
      let pos := (N.to_nat (b2n p) mod length payload)%nat in
      let? delta := index bytes ((i + 1) mod len) in
      let? old := index payload pos in
      let? payload' := set_at pos (n2b (N.lxor (b2n old) (b2n delta))) payload in
      mutate_payload_loop bytes payload' (S i) n
  end.
Definition mutate_payload_bytes (payload bytes : list byte) (ops : nat) : res Error (list byte) :=
  if is_empty payload || is_empty bytes || (ops =? 0)%nat then Ok payload
  else mutate_payload_loop bytes payload 0 ops.

(** parse_xkey.rs 127-135 *)
Definition decode_payload (encoded : str) : option (list byte) :=
  match decode_check (utf8 encoded) 82 with
  | inr data => if negb (length data =? 78)%nat then None else Some data
  | inl _ => None
  end.
(** parse_xkey.rs 137-141 *)
Definition encode_payload (data : list byte) : option str := encode_check data.

(** parse_xkey.rs 145-206 *)
Definition fuzz_parse_xkey (seed path_bytes mutate_bytes : list byte)
    (max_seed_len max_children version_selector : byte) (mutate_payload mutate_encoded : bool)
    (mutate_ops : byte) : res Error unit :=
  let seed' := bounded_slice seed (Nat.min (N.to_nat (b2n max_seed_len)) 64) in
  let? ph := build_path path_bytes (Nat.min (N.to_nat (b2n max_children)) 32) in
  match xprv_new dbg C seed' with
  | Panic => Panic
  | Err _ => Ok tt
  | Ok master =>
      match xprv_derive_path dbg master (fst ph) with
      | Panic => Panic
      | Err _ => Ok tt
      | Ok derived =>
          let want_private := N.land (b2n version_selector) 1 =? 0 in
          let? version := pick_version version_selector want_private in
          let? q :=
            if want_private then unwrap (xprv_encode_with derived version)
            else unwrap (xpub_encode_with (xprv_public derived) version) in
          let? encoded := unwrap (payload_show q) in
          let? payload := unwrap (payload_parse dbg encoded) in
          let payload_version := p_version payload in
          let? encoded2 := unwrap (payload_show payload) in
          let? payload2 := unwrap (payload_parse dbg encoded2) in
          let? _ := assert (version_eqb (p_version payload2) payload_version) in
          let? _ :=
            if is_private (p_version payload2) then
              match xprv_try_from dbg C payload2 with
              | Ok key =>
                  let? q3 := unwrap (xprv_encode_with key version) in
                  let? encoded_key := unwrap (payload_show q3) in
                  let? payload3 := unwrap (payload_parse dbg encoded_key) in
                  assert (is_private (p_version payload3))
              | Err _ => Ok tt
              | Panic => Panic
              end
            else if is_public (p_version payload2) then
              match xpub_try_from dbg C payload2 with
              | Ok key =>
                  let? q3 := unwrap (xpub_encode_with key version) in
                  let? encoded_key := unwrap (payload_show q3) in
                  let? payload3 := unwrap (payload_parse dbg encoded_key) in
                  assert (is_public (p_version payload3))
              | Err _ => Ok tt
              | Panic => Panic
              end
            else Ok tt in
          let ops := Nat.min (N.to_nat (b2n mutate_ops)) 8 in
          let? _ :=
            if mutate_payload then
              match decode_payload encoded with
              | Some payload_bytes =>
                  let? payload_bytes' := mutate_payload_bytes payload_bytes mutate_bytes ops in
                  match encode_payload payload_bytes' with
                  | Some mutated => ignore (payload_parse dbg mutated)
                  | None => Ok tt
                  end
              | None => Ok tt
              end
            else Ok tt in
          if mutate_encoded then
            let? mutated := mutate_base58 encoded mutate_bytes ops in
            ignore (payload_parse dbg mutated)
          else Ok tt
      end
  end.
End Targets.
