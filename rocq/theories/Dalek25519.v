(** The keys of ed25519-dalek over edwards25519 as an [EdLib]. *)
From Coq Require Import ZArith Eqdep_dec.
From Verif Require Import Base Sha2 Curve32 PrimeCertsEd Fp EdCurve Ed25519.
Local Open Scope N_scope.

Local Notation p := ed25519_p.
Local Notation Hp := ed25519_p_prime.
Local Notation mul := ed25519_mul.
Local Notation Hmul := ed25519_mul_ok.
Local Notation fd := (of_Z p Hp ed25519_d).
Local Notation fi := (of_Z p Hp ed25519_i).
Definition ed_compress : ed25519_point -> list byte := ecompress p Hp mul fd.
Definition ed_decompress : list byte -> option ed25519_point := edecompress p Hp mul fd fi.

(** curve25519-dalek, [clamp_integer] *)
Definition clamp (b : list byte) : list byte :=
  n2b (N.land (b2n (nth 0 b x00)) 248) :: firstn 30 (skipn 1 b) ++
  [n2b (N.lor (N.land (b2n (nth 31 b x00)) 127) 64)].
(** ed25519-dalek, [ExpandedSecretKey::from]: the scalar is reduced modulo the order *)
Definition dalek_scalar (seed : list byte) : N := le_val (clamp (firstn 32 (sha512 seed))) mod Z.to_N ed25519_l.
Definition dalek_point (seed : list byte) : ed25519_point := ed25519_times (dalek_scalar seed) ed25519_base.

(** A [VerifyingKey] keeps the bytes it was made from; the point is a function of them.
    [strict]: whether other encodings than the one [compress] gives are refused. *)
Definition dalek_valid (strict : bool) (b : list byte) : bool :=
  (length b =? 32)%nat &&
  match ed_decompress b with
  | None => false
  | Some P => if strict then bytes_eqb (ed_compress P) b else true
  end.
Record dalek_key (strict : bool) : Type := mkdalek { key_bytes : list byte; key_ok : dalek_valid strict key_bytes = true }.
Arguments mkdalek {strict}. Arguments key_bytes {strict}. Arguments key_ok {strict}.
Lemma dalek_key_ext strict (k k' : dalek_key strict) : key_bytes k = key_bytes k' -> k = k'.
Proof. destruct k as [b H], k' as [b' H']. cbn [key_bytes]. intros ->. f_equal. apply UIP_dec. apply bool_dec. Qed.
Lemma compress_valid strict P : dalek_valid strict (ed_compress P) = true.
Proof.
  unfold dalek_valid, ed_compress, ed_decompress. rewrite ecompress_length, decompress_compress.
  - destruct strict; [|reflexivity]. apply bytes_eqb_eq. reflexivity.
  - exact Hmul.
  - reflexivity.
  - reflexivity.
  - exact ed25519_two_nz.
  - exact ed25519_i_sq.
  - exact ed25519_d_nonsq.
Qed.
Definition dalek_parse (strict : bool) (b : list byte) : option (dalek_key strict) :=
  match bool_dec (dalek_valid strict b) true with left e => Some (mkdalek b e) | right _ => None end.
Definition Ed25519Dalek (strict : bool) : EdLib := {|
  ed_pub := dalek_key strict;
  ed_verifying := fun seed => mkdalek (ed_compress (dalek_point seed)) (compress_valid strict (dalek_point seed));
  ed_raw := key_bytes;
  ed_parse := dalek_parse strict
|}.
Theorem dalek_laws strict : ed_laws (Ed25519Dalek strict).
Proof.
  constructor; cbn [Ed25519Dalek ed_pub ed_verifying ed_raw ed_parse].
  - intros [b H]. cbn [key_bytes]. apply andb_prop in H as [H _]. apply Nat.eqb_eq. exact H.
  - intros b k _. unfold dalek_parse. destruct (bool_dec (dalek_valid strict b) true); [|discriminate].
    intros E. injection E as <-. reflexivity.
  - intros s _. cbn [key_bytes]. unfold dalek_parse.
    destruct (bool_dec (dalek_valid strict (ed_compress (dalek_point s))) true) as [e|n].
    + f_equal. apply dalek_key_ext. reflexivity.
    + elim n. apply compress_valid.
Qed.

(** ** The scalar *)
Lemma le_val_cons b l : le_val (b :: l) = b2n b + 256 * le_val l.
Proof. unfold le_val. cbn [rev]. rewrite be_val_snoc. lia. Qed.
Lemma le_val_app l m : le_val (l ++ m) = le_val l + 256 ^ N.of_nat (length l) * le_val m.
Proof.
  induction l as [|b l IH]; cbn [app length]; [change (le_val []) with 0; change (256 ^ N.of_nat 0) with 1; lia|].
  rewrite !le_val_cons, IH, Nat2N.inj_succ, N.pow_succ_r'. lia.
Qed.
Lemma le_val_bound l : le_val l < 256 ^ N.of_nat (length l).
Proof. unfold le_val. rewrite <- rev_length. apply be_val_bound. Qed.
Lemma le_val_one b : le_val [b] = b2n b.
Proof. rewrite le_val_cons. change (le_val []) with 0. lia. Qed.
Lemma low_bits b : b2n (n2b (N.land (b2n b) 248)) = 8 * (b2n b / 8).
Proof. destruct b; reflexivity. Qed.
Lemma high_bits b : b2n (n2b (N.lor (N.land (b2n b) 127) 64)) = 64 + b2n b mod 64.
Proof. destruct b; reflexivity. Qed.
(** RFC 8032, 5.1.5, step 2: the three lowest bits and the highest bit are cleared and the
    second highest is set. *)
Definition rfc_scalar (h : N) : N := 2 ^ 254 + 8 * (h mod 2 ^ 254 / 8).
Lemma clamp_val b : length b = 32%nat -> le_val (clamp b) = rfc_scalar (le_val b).
Proof.
  intros H. destruct b as [|b0 l]; [discriminate|]. injection H as H.
  assert (S : l = firstn 30 l ++ [nth 30 l x00]).
  { rewrite <- (firstn_skipn 30 l) at 1. f_equal. apply (nth_ext _ _ x00 x00).
    - rewrite skipn_length, H. reflexivity.
    - intros j Hj. rewrite skipn_length, H in Hj. assert (j = 0%nat) by lia. subst j.
      cbn [nth]. rewrite <- (firstn_skipn 30 l) at 2. rewrite app_nth2; rewrite firstn_length_le; try lia.
      replace (30 - 30)%nat with 0%nat by lia. reflexivity. }
  unfold clamp. cbn [nth skipn]. rewrite le_val_cons, low_bits, le_val_app, le_val_one, high_bits.
  rewrite le_val_cons.
  assert (L : length (firstn 30 l) = 30%nat) by (rewrite firstn_length_le; lia).
  assert (V : le_val l = le_val (firstn 30 l) + 256 ^ N.of_nat (length (firstn 30 l)) * b2n (nth 30 l x00)).
  { rewrite S at 1. rewrite le_val_app, le_val_one. reflexivity. }
  rewrite V. clear V.
  pose proof (le_val_bound (firstn 30 l)) as M. rewrite L in *.
  set (m := le_val (firstn 30 l)) in *. pose proof (b2n_bound b0) as B0.
  set (x := b2n b0) in *. set (y := b2n (nth 30 l x00)) in *. clearbody m x y.
  change (256 ^ N.of_nat 30) with (2 ^ 240) in *. clear S L H l b0.
  unfold rfc_scalar. set (K := 2 ^ 240) in *. change (2 ^ 254) with (64 * 256 * K). clearbody K.
  rewrite (N.div_mod' x 8) at 2. rewrite (N.div_mod' y 64) at 2.
  pose proof (N.mod_lt x 8 ltac:(discriminate)) as Hx. pose proof (N.mod_lt y 64 ltac:(discriminate)) as Hy.
  assert (X : x / 8 < 32) by (apply N.div_lt_upper_bound; lia).
  set (xh := x / 8) in *. set (xl := x mod 8) in *. set (yh := y / 64). set (yl := y mod 64) in *.
  clearbody xh xl yh yl.
  assert (E : (8 * xh + xl + 256 * (m + K * (64 * yh + yl))) mod (64 * 256 * K) = 8 * xh + xl + 256 * (m + K * yl)).
  { symmetry. apply (N.mod_unique _ _ yh); [|lia].
    assert (m + K * yl < K * 64). { assert (K * yl <= K * 63) by (apply N.mul_le_mono_l; lia). lia. } lia. }
  rewrite E. replace ((8 * xh + xl + 256 * (m + K * yl)) / 8) with (xh + 32 * (m + K * yl)); [lia|].
  apply (N.div_unique _ _ _ xl); lia.
Qed.
