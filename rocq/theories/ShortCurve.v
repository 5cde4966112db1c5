(** A short Weierstrass curve over a prime field with p = 3 mod 4 as an [ECLib], with
    the SEC1 compressed encoding (SEC1 2.3.3, 2.3.4), and the proof of its laws. *)
From Coq Require Import ZArith Znumtheory Eqdep_dec.
From Verif Require Import Base Curve32 Primes Weierstrass Fp.
Open Scope Z_scope.

Section ShortCurve.
Context (p : Z) (Hp : prime p) (mul : Z -> Z -> Z) (Hmul : mul_ok p mul).
Context (p_4 : p mod 4 = 3) (p_256 : p < 2 ^ 256).
Local Notation F := (fp p).
Local Notation f0 := (fzero p Hp).
Local Notation f1 := (fone p Hp).
Local Notation fadd := (Fp.fadd p Hp).
Local Notation fmul := (Fp.fmul p Hp mul).
Local Notation fsub := (Fp.fsub p Hp).
Local Notation fopp := (Fp.fopp p Hp).
Local Notation fdiv := (Fp.fdiv p Hp mul).
Local Notation finv := (Fp.finv p Hp mul).
Context (a b : F).
Context (two_nz : fadd f1 f1 <> f0).
Context (disc_nz : fadd (fmul (fmul (fadd f1 f1) (fadd f1 f1)) (fmul (fmul a a) a))
  (fmul (fmul (fadd f1 (fadd f1 f1)) (fmul (fadd f1 (fadd f1 f1)) (fadd f1 (fadd f1 f1)))) (fmul b b)) <> f0).
Local Notation raw := (pt F).
Local Notation radd := (add F f1 fadd fmul fsub fopp fdiv fp_eq a).
Local Notation rneg := (neg F fopp).
Local Notation ron := (on F fadd fmul a b).

(** x^3 + ax + b *)
Definition rhs (x : F) : F := fadd (fadd (fmul (fmul x x) x) (fmul a x)) b.
Definition onb (P : raw) : bool :=
  match P with
  | Inf _ => true
  | Aff _ x y => if fp_eq (fmul y y) (rhs x) then true else false
  end.
Lemma onb_on P : onb P = true <-> ron P.
Proof.
  destruct P as [|x y]; cbn [onb on]; [tauto|]. unfold rhs.
  destruct (fp_eq (fmul y y) (fadd (fadd (fmul (fmul x x) x) (fmul a x)) b)); split; congruence.
Qed.
Record cpoint : Type := mkpt { raw_of : raw; raw_ok : onb raw_of = true }.
Lemma cpoint_ext P Q : raw_of P = raw_of Q -> P = Q.
Proof.
  destruct P as [P HP], Q as [Q HQ]. cbn [raw_of]. intros ->. f_equal. apply UIP_dec. apply bool_dec.
Qed.
Lemma raw_on P : ron (raw_of P).
Proof. apply onb_on. apply raw_ok. Qed.

Local Notation FT := (field_laws p Hp mul Hmul).
Lemma radd_ok P Q : onb P = true -> onb Q = true -> onb (radd P Q) = true.
Proof.
  rewrite !onb_on. intros HP HQ.
  exact (on_add F f0 f1 fadd fmul fsub fopp fdiv finv FT fp_eq a b two_nz P Q HP HQ).
Qed.
Definition cinf : cpoint := mkpt (Inf F) eq_refl.
Definition cadd (P Q : cpoint) : cpoint :=
  mkpt (radd (raw_of P) (raw_of Q)) (radd_ok _ _ (raw_ok P) (raw_ok Q)).
Fixpoint cmul_pos (k : positive) (P : cpoint) : cpoint :=
  match k with
  | xH => P
  | xO k => let t := cmul_pos k P in cadd t t
  | xI k => let t := cmul_pos k P in cadd P (cadd t t)
  end.
Definition cmul (k : N) (P : cpoint) : cpoint :=
  match k with N0 => cinf | Npos k => cmul_pos k P end.
Definition cis_inf (P : cpoint) : bool := match raw_of P with Inf _ => true | Aff _ _ _ => false end.

(** ** The group *)
Lemma cadd_assoc P Q R : cadd (cadd P Q) R = cadd P (cadd Q R).
Proof.
  apply cpoint_ext. cbn [cadd raw_of].
  exact (Weierstrass.add_assoc F f0 f1 fadd fmul fsub fopp fdiv finv FT fp_eq a b two_nz disc_nz
    _ _ _ (raw_on P) (raw_on Q) (raw_on R)).
Qed.
Lemma cadd_comm P Q : cadd P Q = cadd Q P.
Proof.
  apply cpoint_ext. cbn [cadd raw_of].
  exact (Weierstrass.add_comm F f0 f1 fadd fmul fsub fopp fdiv finv FT fp_eq a b two_nz
    _ _ (raw_on P) (raw_on Q)).
Qed.
Lemma cadd_inf P : cadd P cinf = P.
Proof.
  apply cpoint_ext. cbn [cadd raw_of cinf].
  exact (add_inf_r F f1 fadd fmul fsub fopp fdiv fp_eq a (raw_of P)).
Qed.
Lemma cis_inf_spec P : cis_inf P = true <-> P = cinf.
Proof.
  unfold cis_inf. split.
  - destruct (raw_of P) eqn:E; [|discriminate]. intros _. apply cpoint_ext. exact E.
  - intros ->. reflexivity.
Qed.
Lemma cmul_pos_succ k P : cmul_pos (Pos.succ k) P = cadd P (cmul_pos k P).
Proof.
  induction k as [k IH|k IH|]; cbn [cmul_pos Pos.succ]; [|reflexivity|reflexivity].
  rewrite IH. set (t := cmul_pos k P).
  rewrite cadd_assoc. f_equal. rewrite <- cadd_assoc, (cadd_comm t P), cadd_assoc. reflexivity.
Qed.
Lemma cmul_succ k P : cmul (N.succ k) P = cadd P (cmul k P).
Proof. destruct k as [|k]; cbn [cmul N.succ cmul_pos]; [symmetry; apply cadd_inf|apply cmul_pos_succ]. Qed.
Lemma cmul_add j k P : cmul (j + k) P = cadd (cmul j P) (cmul k P).
Proof.
  induction j as [|j IH] using N.peano_ind.
  - cbn [cmul]. rewrite N.add_0_l, cadd_comm, cadd_inf. reflexivity.
  - rewrite N.add_succ_l, !cmul_succ, IH, cadd_assoc. reflexivity.
Qed.
Lemma cmul_inf k : cmul k cinf = cinf.
Proof. induction k as [|k IH] using N.peano_ind; [reflexivity|]. rewrite cmul_succ, IH, cadd_inf. reflexivity. Qed.
Lemma cmul_mul j k P : cmul (j * k) P = cmul j (cmul k P).
Proof.
  induction j as [|j IH] using N.peano_ind; [reflexivity|].
  rewrite N.mul_succ_l, N.add_comm, cmul_add, cmul_succ, IH. reflexivity.
Qed.
Lemma order_spec n G : prime n -> cmul (Z.to_N n) G = cinf -> G <> cinf ->
  forall k, cmul k G = cinf <-> (k mod Z.to_N n = 0)%N.
Proof.
  intros Hn E NG k. assert (N1 : 1 < n) by (destruct Hn; assumption). set (m := Z.to_N n) in *.
  assert (M : (m <> 0)%N) by lia.
  assert (R : cmul k G = cmul (k mod m) G).
  { rewrite (N.div_mod k m M) at 1. rewrite N.mul_comm, cmul_add, cmul_mul, E, cmul_inf, cadd_comm.
    apply cadd_inf. }
  rewrite R. pose proof (N.mod_lt k m M) as L. set (r := (k mod m)%N) in *. clearbody r. clear R k.
  split; [|intros ->; reflexivity]. intros Er. destruct (N.eq_dec r 0) as [->|Nr]; [reflexivity|exfalso].
  apply NG. assert (RP : rel_prime (Z.of_N r) n) by (apply rel_prime_le_prime; [exact Hn|lia]).
  apply rel_prime_bezout in RP. destruct RP as [u v B].
  set (j := Z.to_N (u mod n)). assert (J : Z.of_N j = u mod n).
  { unfold j. rewrite Z2N.id; [reflexivity|]. apply Z.mod_pos_bound. lia. }
  assert (K : exists q, (j * r = 1 + q * m)%N).
  { pose proof (Z.div_mod u n ltac:(lia)) as D. rewrite <- J in D.
    assert (X : Z.of_N j * Z.of_N r = 1 + (- v - u / n * Z.of_N r) * n).
    { replace (Z.of_N j) with (u - n * (u / n)) by lia.
      replace ((u - n * (u / n)) * Z.of_N r) with (u * Z.of_N r - n * (u / n) * Z.of_N r) by ring.
      replace (u * Z.of_N r) with (1 - v * n) by lia. ring. }
    set (w := - v - u / n * Z.of_N r) in *. clearbody w. clear - X N1.
    assert (0 <= Z.of_N j * Z.of_N r) by (apply Z.mul_nonneg_nonneg; apply N2Z.is_nonneg).
    assert (W : 0 <= w) by nia.
    exists (Z.to_N w). apply N2Z.inj. rewrite N2Z.inj_mul, N2Z.inj_add, N2Z.inj_mul. unfold m.
    rewrite !Z2N.id by lia. exact X. }
  destruct K as [q K]. transitivity (cmul (1 + q * m) G).
  - rewrite cmul_add, cmul_mul, E, cmul_inf, cadd_inf. reflexivity.
  - rewrite <- K, cmul_mul, Er. apply cmul_inf.
Qed.

(** ** SEC1 compressed points *)
Definition coord (x : F) : list byte := be_bytes 32 (Z.to_N (val x)).
(** The identity has no 33-byte form; the crate never encodes it. *)
Definition ccompress (P : cpoint) : list byte :=
  match raw_of P with
  | Inf _ => repeat x00 33
  | Aff _ x y => (if Z.odd (val y) then x03 else x02) :: coord x
  end.
Definition make (x y : F) : option cpoint :=
  match bool_dec (onb (Aff F x y)) true with
  | left e => Some (mkpt (Aff F x y) e)
  | right _ => None
  end.
(** The point with abscissa [x] and the given parity. *)
Definition lift_x (odd : bool) (x : F) : option cpoint :=
  let y := root_candidate p Hp mul (rhs x) in
  let y := if Bool.eqb (Z.odd (val y)) odd then y else fopp y in
  if Bool.eqb (Z.odd (val y)) odd then make x y else None.
Definition parse_x (bytes : list byte) : option F :=
  match bool_dec (in_range p (Z.of_N (be_val bytes))) true with
  | left e => Some (mkfp (Z.of_N (be_val bytes)) e)
  | right _ => None
  end.
Definition cdecompress (tag : byte) (bytes : list byte) : option cpoint :=
  match parse_x bytes with
  | None => None
  | Some x => lift_x (Byte.eqb tag x03) x
  end.
Lemma ccompress_length P : length (ccompress P) = 33%nat.
Proof.
  unfold ccompress, coord. destruct (raw_of P); [reflexivity|]. cbn [length]. rewrite be_bytes_length. reflexivity.
Qed.
Lemma parse_coord x : parse_x (coord x) = Some x.
Proof.
  unfold parse_x, coord. pose proof (val_range p x) as R.
  assert (E : Z.of_N (be_val (be_bytes 32 (Z.to_N (val x)))) = val x).
  { rewrite be_val_be_bytes. rewrite N.mod_small; [apply Z2N.id; lia|].
    change (256 ^ N.of_nat 32)%N with (Z.to_N (2 ^ 256)). apply Z2N.inj_lt; lia. }
  destruct (bool_dec (in_range p (Z.of_N (be_val (be_bytes 32 (Z.to_N (val x)))))) true) as [e|n].
  - f_equal. apply fp_ext. exact E.
  - elim n. rewrite E. apply val_ok.
Qed.
Lemma coord_parse bytes x : length bytes = 32%nat -> parse_x bytes = Some x -> coord x = bytes.
Proof.
  intros Hl. unfold parse_x. destruct (bool_dec (in_range p (Z.of_N (be_val bytes))) true) as [e|n]; [|discriminate].
  intros E. injection E as <-. unfold coord. cbn [val]. rewrite N2Z.id, <- Hl. apply be_bytes_be_val.
Qed.
Lemma make_some x y P : make x y = Some P -> raw_of P = Aff F x y.
Proof. unfold make. destruct (bool_dec (onb (Aff F x y)) true); [|discriminate]. intros E. injection E as <-. reflexivity. Qed.
Lemma make_on x y : onb (Aff F x y) = true -> exists P, make x y = Some P /\ raw_of P = Aff F x y.
Proof.
  intros H. unfold make. destruct (bool_dec (onb (Aff F x y)) true) as [e|n]; [|contradiction].
  eexists. split; reflexivity.
Qed.
Lemma p_odd : Z.odd p = true.
Proof.
  rewrite (Z.div_mod p 4) by lia. rewrite p_4, Z.odd_add, Z.odd_mul. reflexivity.
Qed.
Lemma lift_found x y : onb (Aff F x y) = true ->
  exists P, lift_x (Z.odd (val y)) x = Some P /\ raw_of P = Aff F x y.
Proof.
  intros H. assert (E : fmul y y = rhs x).
  { cbn [onb] in H. destruct (fp_eq (fmul y y) (rhs x)); congruence. }
  unfold lift_x. cbv zeta. rewrite <- E. set (r := root_candidate p Hp mul (fmul y y)).
  pose proof (root_candidate_ok p Hp mul Hmul y p_4) as Er. fold r in Er. clearbody r.
  assert (Y : (if Bool.eqb (Z.odd (val r)) (Z.odd (val y)) then r else fopp r) = y).
  { assert (On : ron (Aff F x r)) by (cbn [on]; rewrite Er; exact E).
    assert (On' : ron (Aff F x y)) by exact E.
    destruct (fp_eq r f0) as [Z0|NZ].
    - assert (y = f0).
      { destruct (Weierstrass.mul_zero F f0 f1 fadd fmul fsub fopp fdiv finv FT fp_eq y y) as [H0|H0]; try exact H0.
        rewrite <- Er, Z0. unfold fzero. rewrite of_Z_mul by exact Hmul. reflexivity. }
      subst y. rewrite Z0. rewrite Bool.eqb_reflx. reflexivity.
    - destruct (same_x F f0 f1 fadd fmul fsub fopp fdiv finv FT fp_eq a b x y r On' On) as [->| ->].
      + rewrite Bool.eqb_reflx. reflexivity.
      + rewrite (odd_opp p Hp r NZ p_odd). destruct (Z.odd (val r)); reflexivity. }
  rewrite Y, Bool.eqb_reflx. apply make_on. exact H.
Qed.
Lemma lift_sound odd x P : lift_x odd x = Some P -> exists y, raw_of P = Aff F x y /\ Z.odd (val y) = odd.
Proof.
  unfold lift_x. cbv zeta. set (y := if Bool.eqb _ odd then root_candidate p Hp mul (rhs x) else _).
  destruct (Bool.eqb (Z.odd (val y)) odd) eqn:E; [|discriminate].
  intros M. apply make_some in M. exists y. split; [exact M|]. apply Bool.eqb_prop. exact E.
Qed.

Context (G : cpoint) (n : Z) (Hn : prime n) (n_256 : n < 2 ^ 256) (nG : cmul (Z.to_N n) G = cinf) (G_nz : G <> cinf).
(** The "compact" form with tag 05 is decoded differently by different versions of the
    libraries; any function may be given for it. *)
Context (decode_compact : list byte -> option cpoint).
Definition short_curve : ECLib := {|
  point := cpoint; infinity := cinf; is_infinity := cis_inf; padd := cadd; gen := G; pmul := cmul;
  order := Z.to_N n; compress := ccompress; decompress := cdecompress; decompact := decode_compact
|}.
Theorem short_curve_laws : ec_laws short_curve.
Proof.
  constructor; cbn [short_curve point infinity is_infinity padd gen pmul order compress decompress].
  - exact cadd_assoc.
  - exact cadd_comm.
  - exact cadd_inf.
  - reflexivity.
  - exact cmul_succ.
  - exact cis_inf_spec.
  - exact (order_spec n G Hn nG G_nz).
  - assert (1 < n) by (destruct Hn; assumption). change (2 ^ 256)%N with (Z.to_N (2 ^ 256)). lia.
  - exact ccompress_length.
  - intros P NP. pose proof (raw_ok P) as HP. unfold ccompress. destruct (raw_of P) as [|x y] eqn:E.
    { elim NP. apply cis_inf_spec. unfold cis_inf. rewrite E. reflexivity. }
    destruct (lift_found x y HP) as (Q & L & EQ).
    exists (if Z.odd (val y) then x03 else x02), (coord x). split; [reflexivity|]. split.
    + destruct (Z.odd (val y)); auto.
    + unfold cdecompress. rewrite parse_coord. replace (Byte.eqb _ x03) with (Z.odd (val y)) by (destruct (Z.odd (val y)); reflexivity).
      rewrite L. f_equal. apply cpoint_ext. congruence.
  - intros tag bytes P Ht Hl D. unfold cdecompress in D. destruct (parse_x bytes) as [x|] eqn:Ex; [|discriminate].
    apply lift_sound in D as (y & EP & Ey). split.
    + intros ->. discriminate EP.
    + unfold ccompress. rewrite EP, Ey, (coord_parse bytes x Hl Ex). destruct Ht as [-> | ->]; reflexivity.
Qed.
End ShortCurve.
