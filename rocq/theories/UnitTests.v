(** The unit tests and documentation examples of both crates, run in the model.  They test the model
    against what the authors expect of the code; they are no part of the proofs. *)
From Verif Require Import Base Sha2 Str Error32 Version32 Path32 BitAcc Language39 Mnemonic39 Unicode UnicodeTables Builtin39
  Words_english Words_japanese Eqb39 Props39.

Definition fails_with {A} (r : res Error A) (k : ErrorKind) (msg : str) : Prop :=
  match r with Err e => e_kind e = k /\ e_message e = msg | _ => False end.

(** ** bip0032/src/path/child.rs 145-200 *)
Example parse_child_number_hardened : exists child, parse_child_component (lit "7'") = Ok child /\
  child_is_hardened child = true /\ child_index child = 7 /\ child_show child = lit "7'".
Proof. eexists. split; [vm_compute; reflexivity|]. repeat split. Qed.
Example parse_child_number_non_hardened : exists child, parse_child_component (lit "42") = Ok child /\
  child_is_hardened child = false /\ child_index child = 42 /\ child_show child = lit "42".
Proof. eexists. split; [vm_compute; reflexivity|]. repeat split. Qed.
Example child_number_bytes_roundtrip : exists child, child_new 1 true = Ok child /\
  child_from_bytes (child_to_bytes child) = child /\ child_is_hardened (child_from_bytes (child_to_bytes child)) = true.
Proof. eexists. split; [vm_compute; reflexivity|]. split; vm_compute; reflexivity. Qed.
Example hardened_child_number_new_and_try_from : exists child other,
  hchild_new 5 = Ok child /\ hchild_index child = 5 /\ hchild_show child = lit "5'" /\
  child_new 5 false = Ok other /\ fails_with (hchild_try_from other) InvalidPath (lit "expected hardened child number").
Proof. do 2 eexists. split; [vm_compute; reflexivity|]. split; [reflexivity|]. split; [reflexivity|]. split; [vm_compute; reflexivity|]. vm_compute. split; reflexivity. Qed.
Example child_error_missing_child_index : fails_with (parse_child_component (lit "h")) InvalidPath (lit "missing child index").
Proof. vm_compute. split; reflexivity. Qed.
Example child_error_child_index_too_large :
  fails_with (child_new (2 ^ 32 - 1) false) InvalidPath (lit "child index must be less than 2^31").
Proof. vm_compute. split; reflexivity. Qed.

(** ** bip0032/src/path/mod.rs 178-278 *)
Example parse_root : path_parse (lit "m") = Ok [] /\ path_show [] = lit "m".
Proof. split; vm_compute; reflexivity. Qed.
Example parse_uppercase_prefix : exists p, path_parse (lit "M/0") = Ok p /\ path_show p = lit "m/0".
Proof. eexists. split; vm_compute; reflexivity. Qed.
Example parse_without_prefix : exists p, path_parse (lit "0/1") = Ok p /\ path_show p = lit "m/0/1".
Proof. eexists. split; vm_compute; reflexivity. Qed.
Example parse_hardened_suffixes : exists p, path_parse (lit "m/0'/1h/2H") = Ok p /\
  map child_is_hardened p = [true; true; true] /\ map child_index p = [0; 1; 2] /\ path_show p = lit "m/0'/1'/2'".
Proof. eexists. split; [vm_compute; reflexivity|]. repeat split; vm_compute; reflexivity. Qed.
Example parse_hardened_path : exists p l, hpath_parse (lit "m/0'/1H/2h") = Ok p /\
  @hpath_children Error true p = Ok l /\ map hchild_index l = [0; 1; 2].
Proof. do 2 eexists. split; [vm_compute; reflexivity|]. split; vm_compute; reflexivity. Qed.
Example reject_non_hardened_path : exists e, hpath_parse (lit "m/0/1'") = Err e /\ e_kind e = InvalidPath.
Proof. eexists. split; vm_compute; reflexivity. Qed.
Example error_empty_path : fails_with (path_parse (lit "")) InvalidPath (lit "derivation path is empty").
Proof. vm_compute. split; reflexivity. Qed.
Example error_empty_component : fails_with (path_parse (lit "m//1")) InvalidPath (lit "empty path component").
Proof. vm_compute. split; reflexivity. Qed.
Example error_trailing_slash : fails_with (path_parse (lit "m/")) InvalidPath (lit "empty path component").
Proof. vm_compute. split; reflexivity. Qed.
Example error_missing_child_index : fails_with (path_parse (lit "m/'")) InvalidPath (lit "missing child index").
Proof. vm_compute. split; reflexivity. Qed.
Example error_child_index_too_large :
  fails_with (path_parse (lit "m/2147483648")) InvalidPath (lit "child index must be less than 2^31").
Proof. vm_compute. split; reflexivity. Qed.
Example display_hardened_path : exists p, hpath_parse (lit "m/0'/1'") = Ok p /\ hpath_show p = lit "m/0'/1'".
Proof. eexists. split; vm_compute; reflexivity. Qed.
Example derive_hardened_path_from_derivation_path : exists p h, path_parse (lit "m/1'/2'") = Ok p /\
  hpath_try_from p = Ok h /\ hpath_show h = lit "m/1'/2'".
Proof. do 2 eexists. split; [vm_compute; reflexivity|]. split; vm_compute; reflexivity. Qed.

(** ** bip0032/src/xkey/payload/version.rs 256-312 *)
Definition CASES : list (KnownVersion * Version) :=
  [(Xpub, XPUB); (Xprv, XPRV); (Tpub, TPUB); (Tprv, TPRV);
   (Ypub, YPUB); (Yprv, YPRV); (YpubShWsh, YPUB_SHWSH); (YprvShWsh, YPRV_SHWSH);
   (Upub, UPUB); (Uprv, UPRV); (UpubShWsh, UPUB_SHWSH); (UprvShWsh, UPRV_SHWSH);
   (Zpub, ZPUB); (Zprv, ZPRV); (ZpubWsh, ZPUB_WSH); (ZprvWsh, ZPRV_WSH);
   (Vpub, VPUB); (Vprv, VPRV); (VpubWsh, VPUB_WSH); (VprvWsh, VPRV_WSH)].
Example known_version_roundtrip : Forall (fun '(known, version) =>
  into_version known = version /\ into_known_version version = Some known /\ from_raw (as_u32 version) = Some known) CASES.
Proof. repeat constructor. Qed.
Example from_raw_unknown_returns_none : from_raw 0xDEADBEEF = None.
Proof. reflexivity. Qed.

(** ** bip0039/src/mnemonic/bit_accumulator.rs 82-93 *)
Example test_bitacc_msb_first_roundtrip_bytes :
  (let? a := @push_bits err39 ba_new 0xf7 8 in
   let? (v1, a) := take_bits a 1 in let? (v2, a) := take_bits a 1 in let? (v3, a) := take_bits a 1 in
   let? (v4, a) := take_bits a 1 in let? (v5, a) := take_bits a 1 in let? (v6, a) := take_bits a 3 in
   Ok [v1; v2; v3; v4; v5; v6; ba_bits a]) = Ok [1; 1; 1; 1; 0; 7; 0].
Proof. vm_compute. reflexivity. Qed.

(** ** bip0039/src/mnemonic/mod.rs, documentation of [Mnemonic] and [AnyMnemonic]: lines 274-280, 299-308, 326-335,
    358-367, 372-382, 523-528, 575-584 *)
Definition doc_phrase : str := lit "bottom drive obey lake curtain smoke basket hold race lonely fit walk".
Definition doc_wrong : str := lit "bottom drive obey lake curtain smoke basket hold race lonely fit shit".
Definition doc_mnemonic : Mnemonic := {| m_phrase := doc_phrase; m_entropy := unhex "1a486a5fbe53639984cb64b070755f7b" |}.
Example doc_from_entropy : from_entropy b64 English (unhex "1a486a5fbe53639984cb64b070755f7b") = Ok doc_mnemonic.
Proof. run_m. Qed.
Example doc_from_phrase : from_phrase ucd15 English doc_phrase = Ok doc_mnemonic /\
  from_phrase ucd15 English doc_wrong = Err (UnknownWord (lit "shit")).
Proof. split; run_m. Qed.
Example doc_from_normalized_phrase : from_normalized_phrase English doc_phrase = Ok doc_mnemonic /\
  from_normalized_phrase English doc_wrong = Err (UnknownWord (lit "shit")).
Proof. split; run_m. Qed.
Example doc_validate : validate ucd15 English doc_phrase = Ok tt /\
  validate ucd15 English doc_wrong = Err (UnknownWord (lit "shit")).
Proof. split; run_u. Qed.
Definition doc_phrase_jp : str :=
  [0x305d; 0x3064; 0x3046; 0x20; 0x308c; 0x304d; 0x3060; 0x3044; 0x20; 0x307b; 0x3093; 0x3084; 0x304f;
   0x20; 0x308f; 0x304b; 0x3059; 0x20; 0x308a; 0x304f; 0x3064; 0x20; 0x3070; 0x3044; 0x304b; 0x20;
   0x308d; 0x305b; 0x3093; 0x20; 0x3084; 0x3061; 0x3093; 0x20; 0x305d; 0x3064; 0x3046; 0x20; 0x308c;
   0x304d; 0x3060; 0x3044; 0x20; 0x307b; 0x3093; 0x3084; 0x304f; 0x20; 0x308f; 0x304b; 0x3081].
Definition doc_wrong_jp : str :=
  [0x305d; 0x3064; 0x3046; 0x20; 0x308c; 0x304d; 0x3060; 0x3044; 0x20; 0x307b; 0x3093; 0x3084; 0x304f;
   0x20; 0x308f; 0x304b; 0x3059; 0x20; 0x308a; 0x304f; 0x3064; 0x20; 0x3070; 0x3044; 0x304b; 0x20;
   0x308d; 0x305b; 0x3093; 0x20; 0x3084; 0x3061; 0x3093; 0x20; 0x305d; 0x3064; 0x3046; 0x20; 0x308c;
   0x304d; 0x3060; 0x3044; 0x20; 0x307b; 0x3093; 0x3084; 0x304f; 0x20; 0x3070; 0x304b].
Example doc_validate_jp : validate ucd15 Japanese doc_phrase_jp = Ok tt /\
  validate ucd15 Japanese doc_wrong_jp = Err (UnknownWord (nfkd ucd15 [0x3070; 0x304b])).
Proof. split; run_u. Qed.

