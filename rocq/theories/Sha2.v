(** SHA-256, SHA-512 (FIPS 180-4), HMAC (RFC 2104), PBKDF2 (RFC 8018) as
    executable functions.  They stand for the crates [sha2], [hmac] and [pbkdf2]
    called at
      bip0039/src/mnemonic/entropy.rs:47, phrase.rs:169, seed.rs:37-43,
      bip0032/src/xkey/core/mod.rs:36-72.
    The proofs of the code's properties use only the output lengths proved at
    the end of this file. *)
From Verif Require Import Base.

Section Sha.
(** Word size in bits (32 or 64), number of rounds, constants. *)
Variable w : N.
Variable msk : N.                 (* 2^w - 1 *)
Variables (R1 R2 R3 : N) (S1 S2 S3 : N) (s01 s02 s03 : N) (s11 s12 s13 : N).
Variable K : list N.

Definition wadd (a b : N) : N := N.land (a + b) msk.
Definition rotr (n x : N) : N := N.lor (N.shiftr x n) (N.land (N.shiftl x (w - n)) msk).
Definition bsig0 x := N.lxor (rotr R1 x) (N.lxor (rotr R2 x) (rotr R3 x)).
Definition bsig1 x := N.lxor (rotr S1 x) (N.lxor (rotr S2 x) (rotr S3 x)).
Definition ssig0 x := N.lxor (rotr s01 x) (N.lxor (rotr s02 x) (N.shiftr x s03)).
Definition ssig1 x := N.lxor (rotr s11 x) (N.lxor (rotr s12 x) (N.shiftr x s13)).
Definition ch x y z := N.lxor (N.land x y) (N.land (N.lxor x msk) z).
Definition maj x y z := N.lxor (N.land x y) (N.lxor (N.land x z) (N.land y z)).

(** Sliding-window message schedule: the window holds W[t..t+15]. *)
Definition next_w (win : list N) : N :=
  wadd (wadd (ssig1 (nth 14 win 0)) (nth 9 win 0)) (wadd (ssig0 (nth 1 win 0)) (nth 0 win 0)).

Definition st8 : Type := N * N * N * N * (N * N * N * N).

Fixpoint rounds (ks : list N) (win : list N) (s : st8) : st8 :=
  match ks with
  | [] => s
  | k :: ks' =>
      let '(a, b, c, d, (e, f, g, h)) := s in
      let wt := hd 0 win in
      let t1 := wadd (wadd (wadd h (bsig1 e)) (wadd (ch e f g) k)) wt in
      let t2 := wadd (bsig0 a) (maj a b c) in
      rounds ks' (tl win ++ [next_w win]) (wadd t1 t2, a, b, c, (wadd d t1, e, f, g))
  end.

Definition compress (s : st8) (blk : list N) : st8 :=
  let '(a, b, c, d, (e, f, g, h)) := s in
  let '(a', b', c', d', (e', f', g', h')) := rounds K blk s in
  (wadd a a', wadd b b', wadd c c', wadd d d', (wadd e e', wadd f f', wadd g g', wadd h h')).

(** Split into [k]-element chunks. *)
Fixpoint chunks_fuel {A : Type} (fuel k : nat) (l : list A) : list (list A) :=
  match fuel, l with
  | O, _ => []
  | _, [] => []
  | S fuel', _ => firstn k l :: chunks_fuel fuel' k (skipn k l)
  end.
Definition chunks {A : Type} (k : nat) (l : list A) : list (list A) := chunks_fuel (length l) k l.

Definition wbytes : nat := N.to_nat (w / 8).
Definition blockbytes : nat := (16 * wbytes)%nat.

(** Padding: 0x80, zeros, then the bit length in 2w bits. *)
Definition pad (m : list byte) : list byte :=
  let len := length m in
  let lenbytes := (2 * wbytes)%nat in
  let used := ((len + 1 + lenbytes) mod blockbytes)%nat in
  let zeros := ((blockbytes - used) mod blockbytes)%nat in
  m ++ [x80] ++ repeat x00 zeros ++ be_bytes lenbytes (8 * N.of_nat len).

Definition sha_core (iv : st8) (m : list byte) : list byte :=
  let blocks := chunks blockbytes (pad m) in
  let s := fold_left (fun s blk => compress s (map be_val (chunks wbytes blk))) blocks iv in
  let '(a, b, c, d, (e, f, g, h)) := s in
  concat (map (be_bytes wbytes) [a; b; c; d; e; f; g; h]).

Lemma sha_core_length iv m : length (sha_core iv m) = (8 * wbytes)%nat.
Proof.
  unfold sha_core.
  destruct (fold_left _ _ iv) as [[[[a b] c] d] [[[e f] g] h]].
  cbn [map concat]. rewrite !app_length, !be_bytes_length. cbn [length]. lia.
Qed.
End Sha.

Definition K256c : list N :=
 [0x428a2f98; 0x71374491; 0xb5c0fbcf; 0xe9b5dba5; 0x3956c25b; 0x59f111f1; 0x923f82a4; 0xab1c5ed5;
  0xd807aa98; 0x12835b01; 0x243185be; 0x550c7dc3; 0x72be5d74; 0x80deb1fe; 0x9bdc06a7; 0xc19bf174;
  0xe49b69c1; 0xefbe4786; 0x0fc19dc6; 0x240ca1cc; 0x2de92c6f; 0x4a7484aa; 0x5cb0a9dc; 0x76f988da;
  0x983e5152; 0xa831c66d; 0xb00327c8; 0xbf597fc7; 0xc6e00bf3; 0xd5a79147; 0x06ca6351; 0x14292967;
  0x27b70a85; 0x2e1b2138; 0x4d2c6dfc; 0x53380d13; 0x650a7354; 0x766a0abb; 0x81c2c92e; 0x92722c85;
  0xa2bfe8a1; 0xa81a664b; 0xc24b8b70; 0xc76c51a3; 0xd192e819; 0xd6990624; 0xf40e3585; 0x106aa070;
  0x19a4c116; 0x1e376c08; 0x2748774c; 0x34b0bcb5; 0x391c0cb3; 0x4ed8aa4a; 0x5b9cca4f; 0x682e6ff3;
  0x748f82ee; 0x78a5636f; 0x84c87814; 0x8cc70208; 0x90befffa; 0xa4506ceb; 0xbef9a3f7; 0xc67178f2].

Definition K512c : list N :=
 [0x428a2f98d728ae22; 0x7137449123ef65cd; 0xb5c0fbcfec4d3b2f; 0xe9b5dba58189dbbc; 0x3956c25bf348b538;
  0x59f111f1b605d019; 0x923f82a4af194f9b; 0xab1c5ed5da6d8118; 0xd807aa98a3030242; 0x12835b0145706fbe;
  0x243185be4ee4b28c; 0x550c7dc3d5ffb4e2; 0x72be5d74f27b896f; 0x80deb1fe3b1696b1; 0x9bdc06a725c71235;
  0xc19bf174cf692694; 0xe49b69c19ef14ad2; 0xefbe4786384f25e3; 0x0fc19dc68b8cd5b5; 0x240ca1cc77ac9c65;
  0x2de92c6f592b0275; 0x4a7484aa6ea6e483; 0x5cb0a9dcbd41fbd4; 0x76f988da831153b5; 0x983e5152ee66dfab;
  0xa831c66d2db43210; 0xb00327c898fb213f; 0xbf597fc7beef0ee4; 0xc6e00bf33da88fc2; 0xd5a79147930aa725;
  0x06ca6351e003826f; 0x142929670a0e6e70; 0x27b70a8546d22ffc; 0x2e1b21385c26c926; 0x4d2c6dfc5ac42aed;
  0x53380d139d95b3df; 0x650a73548baf63de; 0x766a0abb3c77b2a8; 0x81c2c92e47edaee6; 0x92722c851482353b;
  0xa2bfe8a14cf10364; 0xa81a664bbc423001; 0xc24b8b70d0f89791; 0xc76c51a30654be30; 0xd192e819d6ef5218;
  0xd69906245565a910; 0xf40e35855771202a; 0x106aa07032bbd1b8; 0x19a4c116b8d2d0c8; 0x1e376c085141ab53;
  0x2748774cdf8eeb99; 0x34b0bcb5e19b48a8; 0x391c0cb3c5c95a63; 0x4ed8aa4ae3418acb; 0x5b9cca4f7763e373;
  0x682e6ff3d6b2b8a3; 0x748f82ee5defb2fc; 0x78a5636f43172f60; 0x84c87814a1f0ab72; 0x8cc702081a6439ec;
  0x90befffa23631e28; 0xa4506cebde82bde9; 0xbef9a3f7b2c67915; 0xc67178f2e372532b; 0xca273eceea26619c;
  0xd186b8c721c0c207; 0xeada7dd6cde0eb1e; 0xf57d4f7fee6ed178; 0x06f067aa72176fba; 0x0a637dc5a2c898a6;
  0x113f9804bef90dae; 0x1b710b35131c471b; 0x28db77f523047d84; 0x32caab7b40c72493; 0x3c9ebe0a15c9bebc;
  0x431d67c49c100d4c; 0x4cc5d4becb3e42b6; 0x597f299cfc657e2a; 0x5fcb6fab3ad6faec; 0x6c44198c4a475817].

Definition iv256 : st8 :=
  (0x6a09e667, 0xbb67ae85, 0x3c6ef372, 0xa54ff53a,
   (0x510e527f, 0x9b05688c, 0x1f83d9ab, 0x5be0cd19)).
Definition iv512 : st8 :=
  (0x6a09e667f3bcc908, 0xbb67ae8584caa73b, 0x3c6ef372fe94f82b, 0xa54ff53a5f1d36f1,
   (0x510e527fade682d1, 0x9b05688c2b3e6c1f, 0x1f83d9abfb41bd6b, 0x5be0cd19137e2179)).

(** [Sha256::digest]. *)
Definition sha256 (m : list byte) : list byte :=
  sha_core 32 0xffffffff 2 13 22 6 11 25 7 18 3 17 19 10 K256c iv256 m.
(** [Sha512::digest]. *)
Definition sha512 (m : list byte) : list byte :=
  sha_core 64 0xffffffffffffffff 28 34 39 14 18 41 1 8 7 19 61 6 K512c iv512 m.

Lemma sha256_length m : length (sha256 m) = 32%nat.
Proof. unfold sha256. rewrite sha_core_length. reflexivity. Qed.
Lemma sha512_length m : length (sha512 m) = 64%nat.
Proof. unfold sha512. rewrite sha_core_length. reflexivity. Qed.

(** ** HMAC-SHA512: [Hmac::<Sha512>::new_from_slice(key)], [update], [finalize].
    Successive [update]s concatenate their arguments. *)
Definition xor_bytes (a b : list byte) : list byte :=
  map (fun p => n2b (N.lxor (b2n (fst p)) (b2n (snd p)))) (combine a b).

Definition hmac_sha512 (key msg : list byte) : list byte :=
  let k0 := if (128 <? length key)%nat then sha512 key else key in
  let k := k0 ++ repeat x00 (128 - length k0) in
  let ipad := map (fun b => n2b (N.lxor (b2n b) 0x36)) k in
  let opad := map (fun b => n2b (N.lxor (b2n b) 0x5c)) k in
  sha512 (opad ++ sha512 (ipad ++ msg)).

Lemma hmac_sha512_length key msg : length (hmac_sha512 key msg) = 64%nat.
Proof. unfold hmac_sha512. apply sha512_length. Qed.

(** ** PBKDF2 with a 64-byte PRF: [pbkdf2::pbkdf2::<Hmac<Sha512>>]. *)
Fixpoint pbkdf2_loop (prf : list byte -> list byte) (n : nat) (u acc : list byte) : list byte :=
  match n with
  | O => acc
  | S n' => let u' := prf u in pbkdf2_loop prf n' u' (xor_bytes acc u')
  end.

(** T_i = U_1 xor ... xor U_c. *)
Definition pbkdf2_block (password salt : list byte) (rounds : N) (i : N) : list byte :=
  let u1 := hmac_sha512 password (salt ++ be_bytes 4 i) in
  pbkdf2_loop (hmac_sha512 password) (N.to_nat (rounds - 1)) u1 u1.

Definition pbkdf2_hmac_sha512 (password salt : list byte) (rounds : N) (dklen : nat) : list byte :=
  let nblocks := ((dklen + 63) / 64)%nat in
  firstn dklen (concat (map (fun i => pbkdf2_block password salt rounds (N.of_nat i)) (seq 1 nblocks))).

Lemma xor_bytes_length a b : length (xor_bytes a b) = Nat.min (length a) (length b).
Proof. unfold xor_bytes. rewrite map_length, combine_length. reflexivity. Qed.

Lemma pbkdf2_loop_length prf n u acc :
  (forall m, length (prf m) = 64%nat) -> length acc = 64%nat ->
  length (pbkdf2_loop prf n u acc) = 64%nat.
Proof.
  intros Hprf. revert u acc. induction n as [|n IH]; intros u acc H; cbn [pbkdf2_loop]; [exact H|].
  apply IH. rewrite xor_bytes_length, H, Hprf. reflexivity.
Qed.

Lemma pbkdf2_block_length p s r i : length (pbkdf2_block p s r i) = 64%nat.
Proof.
  unfold pbkdf2_block. apply pbkdf2_loop_length; intros; apply hmac_sha512_length.
Qed.

Lemma pbkdf2_length64 p s r : length (pbkdf2_hmac_sha512 p s r 64) = 64%nat.
Proof.
  unfold pbkdf2_hmac_sha512. change ((64 + 63) / 64)%nat with 1%nat. cbn [seq map concat].
  rewrite app_nil_r, firstn_length, pbkdf2_block_length. reflexivity.
Qed.

(** Hex helper for test vectors. *)
Definition hexdigit (c : byte) : N :=
  let n := b2n c in
  if (48 <=? n) && (n <=? 57) then n - 48
  else if (97 <=? n) && (n <=? 102) then n - 87 else n - 55.
Fixpoint unhex_list (l : list byte) : list byte :=
  match l with
  | a :: b :: l' => n2b (hexdigit a * 16 + hexdigit b) :: unhex_list l'
  | _ => []
  end.
Definition unhex (s : string) : list byte := unhex_list (bytes_of s).
