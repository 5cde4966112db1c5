(** The fuzz targets of both crates over an arbitrary implementation of what they
    call.  Fuzz32.v and Fuzz39.v have the same code with this crate's functions in
    place; [PropsFuzz] proves the instances equal.  An implementation is any choice of
    the functions below, right or wrong, so that one can say which implementations a
    target accepts. *)
From Verif Require Import Base Str Sha2 Unicode Language39 Mnemonic39 Eqb39 Words_english Builtin39 Fuzz39.
From Verif Require Import Error32 Path32 Version32 Meta32 Payload32 Base58 Curve32 XKey32 Eqb32 XKeySpec32 Fuzz32.

(** What the bip0032 targets call. *)
Record Api32 : Type := {
  (* ChildNumber *)
  a_child_new : N -> bool -> res Error N;
  a_index : N -> N;
  a_hardened : N -> bool;
  a_child_show : N -> str;
  a_child_parse : str -> res Error N;
  (* DerivationPath *)
  a_path_show : list N -> str;
  a_path_parse : str -> res Error (list N);
  (* ExtendedPrivateKey<Secp256k1>, ExtendedPublicKey<Secp256k1> *)
  a_prv : Type;
  a_pub : Type;
  a_new : list byte -> res Error a_prv;
  a_derive : a_prv -> list N -> res Error a_prv;
  a_public : a_prv -> a_pub;
  a_derive_pub : a_pub -> list N -> res Error a_pub;
  a_encode : a_prv -> Version -> res Error Payload;
  a_encode_pub : a_pub -> Version -> res Error Payload;
  (* ExtendedKeyPayload *)
  a_show : Payload -> res Error str;
  a_parse : str -> res Error Payload;
  a_try : Payload -> res Error a_prv;
  a_try_pub : Payload -> res Error a_pub
}.

Definition real_api (dbg : profile) (L : ECLib) : Api32 := {|
  a_child_new := child_new; a_index := child_index; a_hardened := child_is_hardened;
  a_child_show := child_show; a_child_parse := parse_child_component;
  a_path_show := path_show; a_path_parse := path_parse;
  a_prv := XPrv (backend K256 L); a_pub := XPub (backend K256 L);
  a_new := xprv_new dbg (backend K256 L);
  a_derive := fun x p => xprv_derive_path dbg x p;
  a_public := fun x => xprv_public x;
  a_derive_pub := fun x p => xpub_derive_path dbg x p;
  a_encode := fun x v => xprv_encode_with x v;
  a_encode_pub := fun x v => xpub_encode_with x v;
  a_show := payload_show; a_parse := payload_parse dbg;
  a_try := xprv_try_from dbg (backend K256 L);
  a_try_pub := xpub_try_from dbg (backend K256 L)
|}.

Section Targets32.
Variable A : Api32.
Variable lossy : list byte -> str.

(** derive_path.rs 23-44, parse_path.rs 16-35, parse_xkey.rs 28-47 *)
Fixpoint build_loop_a (chunks : list (list byte)) (children : list N) (has_hardened : bool)
    : res Error (list N * bool) :=
  match chunks with
  | [] => Ok (children, has_hardened)
  | chunk :: rest =>
      if (length chunk <? 5)%nat then Ok (children, has_hardened)
      else
        let idx := N.land (u32_from_le (slice 0 4 chunk)) 0x7FFFFFFF in
        let? b := index chunk 4 in
        let hardened := N.land (b2n b) 1 =? 1 in
        match a_child_new A idx hardened with
        | Ok child => build_loop_a rest (children ++ [child]) (has_hardened || hardened)
        | Err _ => build_loop_a rest children has_hardened
        | Panic => Panic
        end
  end.
Definition build_path_a (bytes : list byte) (max_children : nat) : res Error (list N * bool) :=
  build_loop_a (firstn max_children (chunks 5 bytes)) [] false.

(** parse_path.rs 73-77 *)
Fixpoint assert_child_bounds_a (p : list N) : res Error unit :=
  match p with
  | [] => Ok tt
  | c :: p' => let? _ := assert (a_index A c <? 0x80000000) in assert_child_bounds_a p'
  end.
(** parse_path.rs 88-93 *)
Fixpoint assert_children_a (p : list N) : res Error unit :=
  match p with
  | [] => Ok tt
  | c :: p' =>
      let? c' := unwrap (a_child_parse A (a_child_show A c)) in
      let? _ := assert (a_index A c' =? a_index A c) in
      let? _ := assert (Bool.eqb (a_hardened A c') (a_hardened A c)) in
      assert_children_a p'
  end.
(** parse_path.rs 79-105 *)
Definition fuzz_parse_path_a (path_bytes mutate_bytes : list byte) (max_children : byte)
    (mutate : bool) (mutate_ops : byte) : res Error unit :=
  let max := Nat.min (N.to_nat (b2n max_children)) 32 in
  let? ph := build_path_a path_bytes max in
  let canonical := a_path_show A (fst ph) in
  let? parsed := unwrap (a_path_parse A canonical) in
  let? _ := assert (str_eqb (a_path_show A parsed) canonical) in
  let? _ := assert_child_bounds_a parsed in
  let? _ := assert_children_a parsed in
  if mutate then
    let ops := Nat.min (N.to_nat (b2n mutate_ops)) 8 in
    let? mutated := mutate_path lossy canonical mutate_bytes ops in
    match a_path_parse A mutated with
    | Ok parsed_mut =>
        let? _ := assert_child_bounds_a parsed_mut in
        let normalized := a_path_show A parsed_mut in
        let? parsed_again := unwrap (a_path_parse A normalized) in
        assert (str_eqb (a_path_show A parsed_again) normalized)
    | Err _ => Ok tt
    | Panic => Panic
    end
  else Ok tt.

(** derive_path.rs 48-55, 57-64 *)
Definition roundtrip_xprv_a (key : a_prv A) : res Error str :=
  let? p := unwrap (a_encode A key (into_version Xprv)) in
  let? encoded := unwrap (a_show A p) in
  let? payload := unwrap (a_parse A encoded) in
  let? decoded := unwrap (a_try A payload) in
  let? p2 := unwrap (a_encode A decoded (into_version Xprv)) in
  let? encoded2 := unwrap (a_show A p2) in
  let? _ := assert (str_eqb encoded2 encoded) in
  Ok encoded.
Definition roundtrip_xpub_a (key : a_pub A) : res Error str :=
  let? p := unwrap (a_encode_pub A key (into_version Xpub)) in
  let? encoded := unwrap (a_show A p) in
  let? payload := unwrap (a_parse A encoded) in
  let? decoded := unwrap (a_try_pub A payload) in
  let? p2 := unwrap (a_encode_pub A decoded (into_version Xpub)) in
  let? encoded2 := unwrap (a_show A p2) in
  let? _ := assert (str_eqb encoded2 encoded) in
  Ok encoded.

(** derive_path.rs 66-107 *)
Definition fuzz_derive_path_a (seed path_bytes : list byte) (max_seed_len max_path_len : byte) : res Error unit :=
  let seed' := bounded_slice seed (Nat.min (N.to_nat (b2n max_seed_len)) 64) in
  let? ph := build_path_a path_bytes (Nat.min (N.to_nat (b2n max_path_len)) 32) in
  let path := fst ph in
  let has_hardened := snd ph in
  match a_new A seed' with
  | Panic => Panic
  | Err _ => Ok tt
  | Ok master =>
      match a_derive A master path with
      | Panic => Panic
      | Err _ =>
          if negb has_hardened then ignore (a_derive_pub A (a_public A master) path)
          else Ok tt
      | Ok derived =>
          let? xprv := roundtrip_xprv_a derived in
          let? xpub := roundtrip_xpub_a (a_public A derived) in
          let path_str := a_path_show A path in
          let? parsed_path := unwrap (a_path_parse A path_str) in
          let? _ := assert (str_eqb (a_path_show A parsed_path) path_str) in
          let? _ :=
            if negb has_hardened then
              let? derived_pub := unwrap (a_derive_pub A (a_public A master) path) in
              let? xpub_from_pub := roundtrip_xpub_a derived_pub in
              assert (str_eqb xpub_from_pub xpub)
            else
              match a_derive_pub A (a_public A master) path with
              | Err _ => Ok tt
              | _ => Panic
              end in
          let? xprv_payload := unwrap (a_parse A xprv) in
          let? _ := assert (is_private (p_version xprv_payload)) in
          let? xpub_payload := unwrap (a_parse A xpub) in
          assert (is_public (p_version xpub_payload))
      end
  end.

(** parse_xkey.rs 145-206 *)
Definition fuzz_parse_xkey_a (seed path_bytes mutate_bytes : list byte)
    (max_seed_len max_children version_selector : byte) (mutate_payload mutate_encoded : bool)
    (mutate_ops : byte) : res Error unit :=
  let seed' := bounded_slice seed (Nat.min (N.to_nat (b2n max_seed_len)) 64) in
  let? ph := build_path_a path_bytes (Nat.min (N.to_nat (b2n max_children)) 32) in
  match a_new A seed' with
  | Panic => Panic
  | Err _ => Ok tt
  | Ok master =>
      match a_derive A master (fst ph) with
      | Panic => Panic
      | Err _ => Ok tt
      | Ok derived =>
          let want_private := N.land (b2n version_selector) 1 =? 0 in
          let? version := pick_version version_selector want_private in
          let? q :=
            if want_private then unwrap (a_encode A derived version)
            else unwrap (a_encode_pub A (a_public A derived) version) in
          let? encoded := unwrap (a_show A q) in
          let? payload := unwrap (a_parse A encoded) in
          let payload_version := p_version payload in
          let? encoded2 := unwrap (a_show A payload) in
          let? payload2 := unwrap (a_parse A encoded2) in
          let? _ := assert (version_eqb (p_version payload2) payload_version) in
          let? _ :=
            if is_private (p_version payload2) then
              match a_try A payload2 with
              | Ok key =>
                  let? q3 := unwrap (a_encode A key version) in
                  let? encoded_key := unwrap (a_show A q3) in
                  let? payload3 := unwrap (a_parse A encoded_key) in
                  assert (is_private (p_version payload3))
              | Err _ => Ok tt
              | Panic => Panic
              end
            else if is_public (p_version payload2) then
              match a_try_pub A payload2 with
              | Ok key =>
                  let? q3 := unwrap (a_encode_pub A key version) in
                  let? encoded_key := unwrap (a_show A q3) in
                  let? payload3 := unwrap (a_parse A encoded_key) in
                  assert (is_public (p_version payload3))
              | Err _ => Ok tt
              | Panic => Panic
              end
            else Ok tt in
          let ops := Nat.min (N.to_nat (b2n mutate_ops)) 8 in
          let? _ :=
            if mutate_payload then
              match decode_payload encoded with
              | Some payload_bytes =>
                  let? payload_bytes' := mutate_payload_bytes payload_bytes mutate_bytes ops in
                  match encode_payload payload_bytes' with
                  | Some mutated => ignore (a_parse A mutated)
                  | None => Ok tt
                  end
              | None => Ok tt
              end
            else Ok tt in
          if mutate_encoded then
            let? mutated := mutate_base58 lossy encoded mutate_bytes ops in
            ignore (a_parse A mutated)
          else Ok tt
      end
  end.
End Targets32.

(** What the bip0039 targets call: [Mnemonic<English>].  The words of
    [flip_checksum_like] stay those of the crate. *)
Record Api39 : Type := {
  a_mnemonic : Type;
  a_from_entropy : list byte -> res err39 a_mnemonic;
  a_from_phrase : str -> res err39 a_mnemonic;
  a_validate : str -> res err39 unit;
  a_phrase : a_mnemonic -> str;
  a_entropy : a_mnemonic -> list byte;
  a_to_seed : a_mnemonic -> str -> list byte
}.
Definition real_api39 (U : ucd) (B : build) : Api39 := {|
  a_mnemonic := Mnemonic;
  a_from_entropy := from_entropy B (language_of BEnglish);
  a_from_phrase := from_phrase U (language_of BEnglish);
  a_validate := validate U (language_of BEnglish);
  a_phrase := phrase; a_entropy := entropy; a_to_seed := to_seed U
|}.

Section Targets39.
Variable A : Api39.
Variable lossy : list byte -> str.

(** from_entropy.rs 33-52 *)
Definition fuzz_from_entropy_a (input : EntropyInput) : res err39 unit :=
  let e := as_slice input in
  let? m1 := unwrap (a_from_entropy A e) in
  let? _ := assert (bytes_eqb (a_entropy A m1) e) in
  let p := a_phrase A m1 in
  let? m2 := unwrap (a_from_phrase A p) in
  let? _ := assert (bytes_eqb (a_entropy A m2) e) in
  let? _ := assert (str_eqb (a_phrase A m2) p) in
  let? m3 := unwrap (a_from_entropy A e) in
  let? _ := assert (str_eqb (a_phrase A m3) p) in
  assert (bytes_eqb (a_entropy A m3) e).

(** to_seed.rs 53-65 *)
Definition fuzz_to_seed_a (input : EntropyInput) (passphrase_bytes : list byte) : res err39 unit :=
  let? mnemonic := unwrap (a_from_entropy A (as_slice input)) in
  let p := a_phrase A mnemonic in
  let passphrase := lossy passphrase_bytes in
  let seed1 := a_to_seed A mnemonic passphrase in
  let? mnemonic2 := unwrap (a_from_phrase A p) in
  let seed2 := a_to_seed A mnemonic2 passphrase in
  assert (bytes_eqb seed1 seed2).

(** from_phrase.rs 127-149 *)
Definition fuzz_negative_a (normalized : str) : res err39 unit :=
  let? bad_unknown := flip_some_words_to_unknown normalized in
  let? err := unwrap_err (a_from_phrase A bad_unknown) in
  let? _ := match err with
            | UnknownWord word => assert (str_eqb word (lit "not_in_wordlist"))
            | _ => Panic
            end in
  let? bad_checksum := flip_checksum_like normalized in
  match a_validate A bad_checksum with
  | Ok _ =>
      let? mm := unwrap (a_from_phrase A bad_checksum) in
      unwrap (a_validate A (a_phrase A mm))
  | Err err => match err with InvalidChecksum => Ok tt | _ => Panic end
  | Panic => Panic
  end.

(** from_phrase.rs 94-152 *)
Definition fuzz_from_phrase_a (phrase_bytes : list byte) (do_negative messy_whitespace : bool)
    (max_phrase_len : N) : res err39 unit :=
  let max_phrase_len := N.to_nat (N.min (N.max max_phrase_len 1) (16 * 1024)) in
  let s := lossy_string lossy phrase_bytes max_phrase_len in
  let s := if messy_whitespace then make_whitespace_mess s else s in
  match a_validate A s with
  | Panic => Panic
  | _ =>
      match a_from_phrase A s with
      | Ok m =>
          let normalized := a_phrase A m in
          let? _ := assert (negb (is_empty normalized)) in
          let? _ := assert (match a_validate A normalized with Ok _ => true | _ => false end) in
          let? m2 := unwrap (a_from_phrase A normalized) in
          let? _ := assert (str_eqb (a_phrase A m2) normalized) in
          let? _ := assert (bytes_eqb (a_entropy A m2) (a_entropy A m)) in
          if do_negative then fuzz_negative_a normalized else Ok tt
      | Err _ => match a_validate A s with Panic => Panic | _ => Ok tt end
      | Panic => Panic
      end
  end.
End Targets39.
