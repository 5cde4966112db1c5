(** Model of bip0032/src/xkey/payload/mod.rs. *)
From Verif Require Import Base Str Sha2 Error32 Version32 Meta32 Base58.

(** mod.rs 16-24 *)
Record Payload : Type := mkPayload {
  p_version : Version;
  p_meta : Metadata;
  p_key : list byte          (* [[u8; 33]] *)
}.
(** What the field types guarantee. *)
Definition payload_wf (p : Payload) : Prop :=
  as_u32 (p_version p) < 2 ^ 32 /\ meta_wf (p_meta p) /\ length (p_key p) = 33%nat.

(** mod.rs 26-30, followed by the drop of the fields (core/mod.rs 30-34); the
    version has no drop code. *)
Definition payload_drop (p : Payload) : Payload :=
  {| p_version := p_version p; p_meta := meta_zeroize (p_meta p);
     p_key := map (fun _ => x00) (p_key p) |}.

(** mod.rs 38-44 *)
Definition KEY_PAYLOAD_LENGTH : nat := 78.
Definition KEY_PAYLOAD_WITH_CHECKSUM_LENGTH : nat := (KEY_PAYLOAD_LENGTH + 4)%nat.
Definition MAX_KEY_PAYLOAD_STRING_LENGTH : nat :=
  (KEY_PAYLOAD_WITH_CHECKSUM_LENGTH + (KEY_PAYLOAD_WITH_CHECKSUM_LENGTH + 1) / 2)%nat.

(** mod.rs 47-56 *)
Definition serialize (p : Payload) : res Error (list byte) :=
  let out := zeros KEY_PAYLOAD_LENGTH in
  let? out := put 0 4 (version_to_bytes (p_version p)) out in
  let? out := put 4 5 [m_depth (p_meta p)] out in
  let? out := put 5 9 (m_fingerprint (p_meta p)) out in
  let? out := put 9 13 (u32_to_be (m_child (p_meta p))) out in
  let? out := put 13 45 (m_chain (p_meta p)) out in
  put 45 78 (p_key p) out.

(** mod.rs 59-69; the [expect] of line 66 is the last [Panic]. *)
Definition payload_show (p : Payload) : res Error str :=
  let? serialized := serialize p in
  match encode_check serialized with
  | Some s => Ok s
  | None => Panic
  end.

(** [format!("0x{:02X}", b)] and the four-byte form of 142-148 *)
Definition hex_byte (b : byte) : str := lit "0x" ++ hexw 2 (b2n b).
Definition hex_fingerprint (f : list byte) : str :=
  lit "0x" ++ flat_map (fun b => hexw 2 (b2n b)) f.

(** mod.rs 161-196: the version and the key prefix *)
Definition payload_version (raw_version : N) (key_data : list byte) : res Error Version :=
  let k0 := nth 0 key_data x00 in
  let bad (msg : str) :=
    Err (with_context (err_new InvalidKeyData msg) (lit "key_prefix") (hex_byte k0)) in
  match from_raw raw_version with
  | Some known =>
      let version := into_version known in
      match version with
      | Public _ =>
          if negb ((b2n k0 =? 2) || (b2n k0 =? 3)) then bad (lit "invalid public key prefix")
          else Ok version
      | Private _ =>
          if negb (b2n k0 =? 0) then bad (lit "invalid private key prefix") else Ok version
      end
  | None =>
      if b2n k0 =? 0 then Ok (version_private raw_version)
      else if (b2n k0 =? 2) || (b2n k0 =? 3) then Ok (version_public raw_version)
      else bad (lit "invalid private/public key data prefix")
  end.

(** mod.rs 133-159 *)
Definition check_depth_zero (depth : byte) (fingerprint : list byte) (child : N)
    : res Error unit :=
  if b2n depth =? 0 then
    if negb (bytes_eqb fingerprint (zeros 4)) then
      Err (with_context
             (with_context
                (err_new InvalidPayload (lit "zero depth with non-zero parent fingerprint"))
                (lit "depth") (dec (b2n depth)))
             (lit "parent_fingerprint") (hex_fingerprint fingerprint))
    else if negb (child =? 0) then
      Err (with_context
             (with_context (err_new InvalidPayload (lit "zero depth with non-zero child number"))
                (lit "depth") (dec (b2n depth)))
             (lit "child_number") (dec child))
    else Ok tt
  else Ok tt.

Definition bad_length (len : nat) : Error :=
  with_context
    (with_context (err_new InvalidPayload (lit "invalid extended key length"))
       (lit "decoded_len") (dec (N.of_nat len)))
    (lit "expected_len") (dec (N.of_nat KEY_PAYLOAD_LENGTH)).

(** mod.rs 107-208 *)
Definition parse_payload (data : list byte) : res Error Payload :=
  if negb (length data =? KEY_PAYLOAD_LENGTH)%nat then Err (bad_length (length data))
  else
    let? raw_version_bytes := put 0 4 (slice 0 4 data) (zeros 4) in
    let raw_version := u32_from_be raw_version_bytes in
    let depth := nth 4 data x00 in
    let? raw_parent_fingerprint := put 0 4 (slice 5 9 data) (zeros 4) in
    let? child_number_bytes := put 0 4 (slice 9 13 data) (zeros 4) in
    let child_number := u32_from_be child_number_bytes in
    let? chain_code := put 0 32 (slice 13 45 data) (zeros 32) in
    let? key_data := put 0 33 (slice 45 78 data) (zeros 33) in
    let? _ := check_depth_zero depth raw_parent_fingerprint child_number in
    let? version := payload_version raw_version key_data in
    Ok {| p_version := version;
          p_meta := {| m_depth := depth; m_fingerprint := raw_parent_fingerprint;
                       m_child := child_number; m_chain := chain_code |};
          p_key := key_data |}.

(** mod.rs 74-104; [encoded.len()] counts UTF-8 bytes. *)
Definition payload_parse (dbg : profile) (encoded : str) : res Error Payload :=
  let len := length (utf8 encoded) in
  if (MAX_KEY_PAYLOAD_STRING_LENGTH <? len)%nat then
    Err (with_context
           (with_context (err_new InvalidPayload (lit "invalid base58check length"))
              (lit "encoded_len") (dec (N.of_nat len)))
           (lit "max_len") (dec (N.of_nat MAX_KEY_PAYLOAD_STRING_LENGTH)))
  else
    match decode_check (utf8 encoded) KEY_PAYLOAD_WITH_CHECKSUM_LENGTH with
    | inl err =>
        raise (set_source dbg
                 (with_context (err_new InvalidPayload (lit "invalid base58check encoding"))
                    (lit "encoded_len") (dec (N.of_nat len)))
                 err)
    | inr data =>
        if negb (length data =? KEY_PAYLOAD_LENGTH)%nat then Err (bad_length (length data))
        else parse_payload data
    end.
