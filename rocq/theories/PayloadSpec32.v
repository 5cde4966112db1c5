(** The extended key format, independently of the (de)serialisation code. *)
From Verif Require Import Base Str Version32 Meta32 Payload32 Base58Spec.

(** BIP-0032 "Serialization format": 4 bytes version, 1 depth, 4 fingerprint,
    4 child number, 32 chain code, 33 key. *)
Definition payload_bytes (p : Payload) : list byte :=
  be_bytes 4 (as_u32 (p_version p)) ++ [m_depth (p_meta p)] ++ m_fingerprint (p_meta p) ++
  be_bytes 4 (m_child (p_meta p)) ++ m_chain (p_meta p) ++ p_key p.

(** The registered version numbers (BIP-0032 and SLIP-0132). *)
Definition known_public : list N :=
  [0x0488B21E; 0x043587CF; 0x049D7CB2; 0x0295B43F; 0x044A5262; 0x024289EF;
   0x04B24746; 0x02AA7ED3; 0x045F1CF6; 0x02575483].
Definition known_private : list N :=
  [0x0488ADE4; 0x04358394; 0x049D7878; 0x0295B005; 0x044A4E28; 0x024285B5;
   0x04B2430C; 0x02AA7A99; 0x045F18BC; 0x02575048].

(** A master key has no parent. *)
Definition depth_rule (m : Metadata) : Prop :=
  m_depth m = x00 -> m_fingerprint m = [x00; x00; x00; x00] /\ m_child m = 0.

(** A private key is stored as 00 followed by 32 bytes, a public one as a
    compressed point. *)
Definition key_prefix (p : Payload) : byte := hd x00 (p_key p).
Definition prefix_rule (p : Payload) : Prop :=
  match p_version p with
  | Private v => key_prefix p = x00 /\ ~ In v known_public
  | Public v => (key_prefix p = x02 \/ key_prefix p = x03) /\ ~ In v known_private
  end.
