(** One complete seed vector of test_JP_BIP39.json: Unicode passphrase, NFKD, UTF-8,
    2048 rounds of PBKDF2-HMAC-SHA512.  A test of the model. *)
From Verif Require Import Base Sha2 Str Unicode UnicodeTables Mnemonic39 Vectors39.

(** Evaluated when this file is compiled; only the outcome is stored. *)
Definition seed_jp_0 : bool := Eval vm_compute in
  bytes_eqb (to_seed_raw ucd15
    (normalize_utf8 ucd15 (text "e38182e38184e38193e3818fe38197e38293e38080e38182e38184e38193e3818fe38197e38293e38080e38182e38184e38193e3818fe38197e38293e38080e38182e38184e38193e3818fe38197e38293e38080e38182e38184e38193e3818fe38197e38293e38080e38182e38184e38193e3818fe38197e38293e38080e38182e38184e38193e3818fe38197e38293e38080e38182e38184e38193e3818fe38197e38293e38080e38182e38184e38193e3818fe38197e38293e38080e38182e38184e38193e3818fe38197e38293e38080e38182e38184e38193e3818fe38197e38293e38080e38182e3818ae3819ee38289"))
    (text "e38d8de382ace38390e383b4e382a1e381b1e381b0e38190e3829ee381a1e381a2e58d81e4babae58d81e889b2"))
  (unhex "a262d6fb6122ecf45be09c50492b31f92e9beb7d9a845987a02cefda57a15f9c467a17872029a9e92299b5cbdf306e3a0ee620245cbd508959b6cb7ca637bd55").
Example seed_jp_0_ok : seed_jp_0 = true.
Proof. reflexivity. Qed.
