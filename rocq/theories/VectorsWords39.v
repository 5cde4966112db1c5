(** The checksums of the ten word lists pinned by the tests of the repository
    (bip0039/src/language/mod.rs:326-463).  A test of the model and of its data. *)
From Verif Require Import Base Sha2 Str Language39 Builtin39 LangProofs.

(** mod.rs:326-341 [calculate_checksum] *)
Definition calculate_checksum (words : list str) : list byte :=
  sha256 (flat_map (fun w => utf8 w ++ [x0a]) words).
(** mod.rs:368-446 *)
Definition expected_checksum (b : BuiltInLanguage) : list byte :=
  match b with
  | BEnglish => unhex "2f5eed53a4727b4bf8880d8f3f199efc90e58503646d9ff8eff3a2ed3b24dbda"
  | BChineseSimplified => unhex "5c5942792bd8340cb8b27cd592f1015edf56a8c5b26276ee18a482428e7c5726"
  | BChineseTraditional => unhex "417b26b3d8500a4ae3d59717d7011952db6fc2fb84b807f3f94ac734e89c1b5f"
  | BCzech => unhex "7e80e161c3e93d9554c2efb78d4e3cebf8fc727e9c52e03b83b94406bdcc95fc"
  | BFrench => unhex "ebc3959ab7801a1df6bac4fa7d970652f1df76b683cd2f4003c941c63d517e59"
  | BItalian => unhex "d392c49fdb700a24cd1fceb237c1f65dcc128f6b34a8aacb58b59384b5c648c2"
  | BJapanese => unhex "2eed0aef492291e061633d7ad8117f1a2b03eb80a29d0e4e3117ac2528d05ffd"
  | BKorean => unhex "9e95f86c167de88f450f0aaf89e87f6624a57f973c67b516e338e8e8b8897f60"
  | BPortuguese => unhex "2685e9c194c82ae67e10ba59d9ea5345a23dc093e92276fc5361f6667d79cd3f"
  | BSpanish => unhex "46846a5a0139d1e3cb77293e521c2865f7bcdb82c44e8d0a06a2cd0ecba48c0b"
  end.

(** Evaluated when this file is compiled; only the outcome is stored. *)
Definition checksums_hold : bool := Eval vm_compute in
  forallb (fun b => bytes_eqb (calculate_checksum (wl_words (wordlist_of b))) (expected_checksum b))
    [BEnglish; BChineseSimplified; BChineseTraditional; BCzech; BFrench; BItalian; BJapanese; BKorean; BPortuguese; BSpanish].
Example checksums_ok : checksums_hold = true.
Proof. reflexivity. Qed.
