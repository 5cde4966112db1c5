(** The group of a complete twisted Edwards curve over a prime field with p = 5 mod 8,
    and its 32-byte encoding (RFC 8032, 5.1.2 and 5.1.3). *)
From Coq Require Import ZArith Znumtheory Eqdep_dec Ring Field.
From Verif Require Import Base Primes Fp Edwards.
Open Scope Z_scope.

Definition le_val (l : list byte) : N := be_val (rev l).
Definition le_bytes (k : nat) (n : N) : list byte := rev (be_bytes k n).
Lemma le_bytes_length k n : length (le_bytes k n) = k.
Proof. unfold le_bytes. rewrite rev_length. apply be_bytes_length. Qed.
Lemma le_val_le_bytes k n : le_val (le_bytes k n) = (n mod 256 ^ N.of_nat k)%N.
Proof. unfold le_val, le_bytes. rewrite rev_involutive. apply be_val_be_bytes. Qed.
Lemma le_bytes_le_val l : le_bytes (length l) (le_val l) = l.
Proof. unfold le_val, le_bytes. rewrite <- rev_length, be_bytes_be_val. apply rev_involutive. Qed.

Section EdCurve.
Context (p : Z) (Hp : prime p) (mul : Z -> Z -> Z) (Hmul : mul_ok p mul).
Context (p_8 : p mod 8 = 5) (p_255 : p < 2 ^ 255).
Local Notation F := (fp p).
Local Notation f0 := (fzero p Hp).
Local Notation f1 := (fone p Hp).
Local Notation fadd := (Fp.fadd p Hp).
Local Notation fmul := (Fp.fmul p Hp mul).
Local Notation fsub := (Fp.fsub p Hp).
Local Notation fopp := (Fp.fopp p Hp).
Local Notation fdiv := (Fp.fdiv p Hp mul).
Local Notation finv := (Fp.finv p Hp mul).
Local Notation fpow := (Fp.fpow p Hp mul).
Local Notation FT := (field_laws p Hp mul Hmul).
Add Field FF : FT.
Declare Scope f_scope.
Delimit Scope f_scope with f.
Local Notation "0" := f0 : f_scope.
Local Notation "1" := f1 : f_scope.
Local Notation "x + y" := (fadd x y) : f_scope.
Local Notation "x - y" := (fsub x y) : f_scope.
Local Notation "x * y" := (fmul x y) : f_scope.
Local Notation "- x" := (fopp x) : f_scope.

Context (d i : F).
Context (two_nz : (1 + 1 <> 0)%f) (i_sq : (i * i = - (1))%f) (d_nonsq : forall r, (r * r <> d)%f).
Local Notation ron := (on F f1 fadd fmul fsub d).
Local Notation radd := (add F f1 fadd fmul fsub fdiv d).
Local Notation rneg := (neg F fopp).
Local Notation rzero := (zero F f0 f1).

(** ** The group *)
Definition onb (P : F * F) : bool :=
  let '(x, y) := P in if fp_eq (y * y - x * x)%f (1 + d * (x * x) * (y * y))%f then true else false.
Lemma onb_on P : onb P = true <-> ron P.
Proof. destruct P as [x y]. unfold onb, on. destruct (fp_eq _ _); split; congruence. Qed.
Record epoint : Type := mkept { coords : F * F; coords_ok : onb coords = true }.
Lemma epoint_ext P Q : coords P = coords Q -> P = Q.
Proof.
  destruct P as [P HP], Q as [Q HQ]. cbn [coords]. intros ->. f_equal. apply UIP_dec. apply bool_dec.
Qed.
Lemma coords_on P : ron (coords P).
Proof. apply onb_on. apply coords_ok. Qed.
Lemma radd_ok P Q : onb P = true -> onb Q = true -> onb (radd P Q) = true.
Proof.
  rewrite !onb_on. intros HP HQ.
  exact (add_on F f0 f1 fadd fmul fsub fopp fdiv finv FT fp_eq d i two_nz i_sq d_nonsq P Q HP HQ).
Qed.
Lemma rzero_ok : onb rzero = true.
Proof. apply onb_on. exact (zero_on F f0 f1 fadd fmul fsub fopp fdiv finv FT d). Qed.
Lemma rneg_ok P : onb P = true -> onb (rneg P) = true.
Proof. rewrite !onb_on. exact (neg_on F f0 f1 fadd fmul fsub fopp fdiv finv FT d P). Qed.
Definition ezero : epoint := mkept rzero rzero_ok.
Definition eneg (P : epoint) : epoint := mkept (rneg (coords P)) (rneg_ok _ (coords_ok P)).
Definition eadd (P Q : epoint) : epoint :=
  mkept (radd (coords P) (coords Q)) (radd_ok _ _ (coords_ok P) (coords_ok Q)).
Fixpoint emul_pos (k : positive) (P : epoint) : epoint :=
  match k with
  | xH => P
  | xO k => let t := emul_pos k P in eadd t t
  | xI k => let t := emul_pos k P in eadd P (eadd t t)
  end.
Definition emul (k : N) (P : epoint) : epoint :=
  match k with N0 => ezero | Npos k => emul_pos k P end.

Lemma eadd_assoc P Q R : eadd (eadd P Q) R = eadd P (eadd Q R).
Proof.
  apply epoint_ext. cbn [eadd coords].
  exact (Edwards.add_assoc F f0 f1 fadd fmul fsub fopp fdiv finv FT fp_eq d i two_nz i_sq d_nonsq
    _ _ _ (coords_on P) (coords_on Q) (coords_on R)).
Qed.
Lemma eadd_comm P Q : eadd P Q = eadd Q P.
Proof.
  apply epoint_ext. cbn [eadd coords].
  exact (Edwards.add_comm F f0 f1 fadd fmul fsub fopp fdiv finv FT d _ _).
Qed.
Lemma eadd_zero P : eadd P ezero = P.
Proof.
  apply epoint_ext. cbn [eadd coords ezero].
  exact (Edwards.add_zero F f0 f1 fadd fmul fsub fopp fdiv finv FT d _).
Qed.
Lemma eadd_neg P : eadd P (eneg P) = ezero.
Proof.
  apply epoint_ext. cbn [eadd coords ezero eneg].
  exact (Edwards.add_neg F f0 f1 fadd fmul fsub fopp fdiv finv FT fp_eq d i two_nz i_sq d_nonsq _ (coords_on P)).
Qed.
Lemma eadd_cancel P Q R : eadd P R = eadd Q R -> P = Q.
Proof.
  intros E. rewrite <- (eadd_zero P), <- (eadd_zero Q), <- (eadd_neg R), <- !eadd_assoc, E. reflexivity.
Qed.
Lemma emul_pos_succ k P : emul_pos (Pos.succ k) P = eadd P (emul_pos k P).
Proof.
  induction k as [k IH|k IH|]; cbn [emul_pos Pos.succ]; [|reflexivity|reflexivity].
  rewrite IH. set (t := emul_pos k P).
  rewrite eadd_assoc. f_equal. rewrite <- eadd_assoc, (eadd_comm t P), eadd_assoc. reflexivity.
Qed.
Lemma emul_succ k P : emul (N.succ k) P = eadd P (emul k P).
Proof. destruct k as [|k]; cbn [emul N.succ emul_pos]; [symmetry; apply eadd_zero|apply emul_pos_succ]. Qed.
Lemma emul_add j k P : emul (j + k) P = eadd (emul j P) (emul k P).
Proof.
  induction j as [|j IH] using N.peano_ind.
  - cbn [emul]. rewrite N.add_0_l, eadd_comm, eadd_zero. reflexivity.
  - rewrite N.add_succ_l, !emul_succ, IH, eadd_assoc. reflexivity.
Qed.
Lemma emul_zero k : emul k ezero = ezero.
Proof. induction k as [|k IH] using N.peano_ind; [reflexivity|]. rewrite emul_succ, IH, eadd_zero. reflexivity. Qed.
Lemma emul_mul j k P : emul (j * k) P = emul j (emul k P).
Proof.
  induction j as [|j IH] using N.peano_ind; [reflexivity|].
  rewrite N.mul_succ_l, N.add_comm, emul_add, emul_succ, IH. reflexivity.
Qed.
Lemma emul_mod n P : (n <> 0)%N -> emul n P = ezero -> forall k, emul (k mod n) P = emul k P.
Proof.
  intros N0 E k. rewrite (N.div_mod k n N0) at 2. rewrite N.mul_comm, emul_add, emul_mul, E, emul_zero, eadd_comm.
  symmetry. apply eadd_zero.
Qed.
Lemma order_spec n B : prime n -> emul (Z.to_N n) B = ezero -> B <> ezero ->
  forall k, emul k B = ezero <-> (k mod Z.to_N n = 0)%N.
Proof.
  intros Hn E NB k. assert (N1 : 1 < n) by (destruct Hn; assumption). set (m := Z.to_N n) in *.
  assert (M : (m <> 0)%N) by lia. rewrite <- (emul_mod m B M E k).
  pose proof (N.mod_lt k m M) as L. set (r := (k mod m)%N) in *. clearbody r. clear k.
  split; [|intros ->; reflexivity]. intros Er. destruct (N.eq_dec r 0) as [->|Nr]; [reflexivity|exfalso].
  apply NB. assert (RP : rel_prime (Z.of_N r) n) by (apply rel_prime_le_prime; [exact Hn|lia]).
  apply rel_prime_bezout in RP. destruct RP as [u v Bz].
  (* j r = 1 + q m *)
  set (j := Z.to_N (u mod n)). assert (J : Z.of_N j = u mod n).
  { unfold j. rewrite Z2N.id; [reflexivity|]. apply Z.mod_pos_bound. lia. }
  assert (K : (j * r mod m = 1 mod m)%N).
  { apply N2Z.inj. rewrite !N2Z.inj_mod, N2Z.inj_mul, J. unfold m. rewrite Z2N.id by lia.
    rewrite Z.mul_mod_idemp_l by lia. change (Z.of_N 1) with 1. rewrite <- Bz.
    rewrite Z.mod_add by lia. reflexivity. }
  transitivity (emul 1 B); [reflexivity|]. rewrite <- (emul_mod m B M E 1), <- K, (emul_mod m B M E), emul_mul, Er.
  apply emul_zero.
Qed.

(** ** Square roots *)
Lemma fpow_mul x y e : 0 <= e -> fpow (x * y)%f e = (fpow x e * fpow y e)%f.
Proof.
  intros He. pattern x. apply (ind_of_Z p Hp). intros z. pattern y. apply (ind_of_Z p Hp). intros z'.
  rewrite of_Z_mul, !of_Z_pow, of_Z_mul, Z.pow_mul_l by assumption. reflexivity.
Qed.
Lemma fpow_pow x e e' : 0 <= e -> 0 <= e' -> fpow (fpow x e) e' = fpow x (e * e').
Proof.
  intros He He'. pattern x. apply (ind_of_Z p Hp). intros z.
  rewrite !of_Z_pow, Z.pow_mul_r by (assumption || apply Z.mul_nonneg_nonneg; assumption). reflexivity.
Qed.
Lemma mul_zero (x y : F) : (x * y = 0)%f -> x = f0 \/ y = f0.
Proof. exact (Edwards.mul_zero F f0 f1 fadd fmul fsub fopp fdiv finv FT fp_eq x y). Qed.
Lemma sub_zero (x y : F) : (x - y = 0)%f -> x = y.
Proof. exact (Edwards.sub_z F f0 f1 fadd fmul fsub fopp fdiv finv FT x y). Qed.
Lemma square_eq (x y : F) : (x * x = y * y)%f -> x = y \/ x = (- y)%f.
Proof.
  intros E. destruct (mul_zero (x - y)%f (x + y)%f) as [H|H].
  - transitivity (x * x - y * y)%f; [ring|]. rewrite E. ring.
  - left. apply sub_zero. exact H.
  - right. apply sub_zero. rewrite <- H. ring.
Qed.
Definition e8 : Z := (p - 5) / 8.
Lemma e8_spec : 0 <= e8 /\ p = 8 * e8 + 5.
Proof.
  unfold e8. pose proof (Z.div_mod p 8 ltac:(lia)) as E. rewrite p_8 in E.
  replace (p - 5) with (p / 8 * 8) by lia. rewrite Z.div_mul by lia.
  split; [|lia]. apply Z.div_pos; [|lia]. pose proof (p_pos p Hp). lia.
Qed.
Lemma half_power x : x <> f0 -> fpow x (4 * e8 + 2) = f1 \/ fpow x (4 * e8 + 2) = (- (1))%f.
Proof.
  intros N. destruct e8_spec as [E0 E]. apply square_eq.
  rewrite <- fpow_add by (exact Hmul || lia). replace (4 * e8 + 2 + (4 * e8 + 2)) with (p - 1) by lia.
  rewrite fermat_fp by (exact Hmul || exact N). ring.
Qed.
(** A square root of u/v, the even one; curve25519-dalek, [FieldElement::sqrt_ratio_i]. *)
Definition is (x y : F) : bool := if fp_eq x y then true else false.
Definition sqrt_ratio (u v : F) : bool * F :=
  let v3 := (v * v * v)%f in
  let v7 := (v3 * v3 * v)%f in
  let r := (u * v3 * fpow (u * v7)%f e8)%f in
  let check := (v * (r * r))%f in
  let correct := is check u in
  let flipped := is check (- u)%f in
  let flipped_i := is check (- u * i)%f in
  let r := if flipped || flipped_i then (i * r)%f else r in
  let r := if Z.odd (val r) then (- r)%f else r in
  (correct || flipped, r).
Lemma is_eq x y : is x y = true <-> x = y.
Proof. unfold is. destruct (fp_eq x y); split; congruence. Qed.
Lemma is_neq x y : is x y = false -> x <> y.
Proof. unfold is. destruct (fp_eq x y); congruence. Qed.
Lemma p_odd : Z.odd p = true.
Proof. destruct e8_spec as [_ ->]. rewrite Z.odd_add, Z.odd_mul. reflexivity. Qed.
Lemma val_zero x : val x = 0 -> x = f0.
Proof. intros E. rewrite <- (of_Z_val p Hp x), E. reflexivity. Qed.
Lemma odd_zero : Z.odd (val f0) = false.
Proof. unfold fzero. rewrite val_of_Z, Z.mod_0_l by (apply p_nz; exact Hp). reflexivity. Qed.
Lemma opp_zero : (- 0 = 0)%f.
Proof. ring. Qed.
Lemma make_even r : Z.odd (val (if Z.odd (val r) then - r else r)%f) = false.
Proof.
  destruct (Z.odd (val r)) eqn:E; [|exact E]. rewrite odd_opp, E; [reflexivity| |exact p_odd].
  intros ->. rewrite odd_zero in E. discriminate.
Qed.
Lemma sqrt_sound u v r : sqrt_ratio u v = (true, r) -> (v * (r * r) = u)%f /\ Z.odd (val r) = false.
Proof.
  unfold sqrt_ratio. cbv zeta. set (q := (_ * fpow _ e8)%f). clearbody q. intros E.
  injection E as E1 E2. split; [|rewrite <- E2; apply make_even].
  set (r0 := if (is (v * (q * q)) (- u) || is (v * (q * q)) (- u * i))%bool%f then (i * q)%f else q) in E2.
  assert (S : (v * (r0 * r0) = u)%f).
  { unfold r0. clear E2 r0. destruct (is (v * (q * q))%f (- u)%f) eqn:Fl.
    - cbn [orb]. apply is_eq in Fl. transitivity (i * i * (v * (q * q)))%f; [ring|]. rewrite i_sq, Fl. ring.
    - rewrite orb_false_r in E1. apply is_eq in E1. cbn [orb].
      destruct (is (v * (q * q))%f (- u * i)%f) eqn:Fi; [|exact E1].
      (* u = - u i gives u = 0 *)
      apply is_eq in Fi. apply is_neq in Fl. exfalso. apply Fl. rewrite E1 in *.
      assert (U : u = f0).
      { destruct (mul_zero (1 + i)%f u) as [H|H]; [| |exact H].
        - transitivity (u - - u * i)%f; [ring|]. rewrite <- Fi. ring.
        - exfalso. assert (I : i = (- (1))%f) by (apply sub_zero; rewrite <- H; ring).
          apply two_nz. rewrite I in i_sq. transitivity (1 - - (1))%f; [ring|]. rewrite <- i_sq. ring. }
      rewrite U. ring. }
  rewrite <- E2. destruct (Z.odd (val r0)); [|exact S]. rewrite <- S. ring.
Qed.
Lemma sqrt_found u v x : v <> f0 -> (v * (x * x) = u)%f -> fst (sqrt_ratio u v) = true.
Proof.
  intros Nv E. unfold sqrt_ratio. cbv zeta. cbn [fst]. apply orb_true_iff. rewrite !is_eq.
  destruct e8_spec as [E0 Ep].
  set (r := (u * (v * v * v) * fpow (u * (v * v * v * (v * v * v) * v)) e8)%f).
  assert (R : (r * r = x * x * fpow x (4 * e8 + 2))%f).
  { assert (P2 : forall a, fpow a 2 = (a * a)%f).
    { intros a. change 2 with (1 + 1). rewrite fpow_add, fpow_1 by (exact Hmul || lia). reflexivity. }
    assert (P4 : forall a, fpow a 4 = (a * a * (a * a))%f).
    { intros a. change 4 with (2 + 2). rewrite fpow_add, P2 by (exact Hmul || lia). reflexivity. }
    assert (P8 : forall a, fpow a 8 = (a * a * (a * a) * (a * a * (a * a)))%f).
    { intros a. change 8 with (4 + 4). rewrite fpow_add, P4 by (exact Hmul || lia). reflexivity. }
    assert (V : (fpow v 4 * fpow (fpow v 8) e8 = 1)%f).
    { rewrite fpow_pow, <- fpow_add by (exact Hmul || lia). replace (4 + 8 * e8) with (p - 1) by lia.
      apply fermat_fp; [exact Hmul|exact Nv]. }
    assert (S : r = (x * x * fpow (x * x) e8)%f).
    { unfold r. rewrite <- E. replace (v * (x * x) * (v * v * v * (v * v * v) * v))%f with (fpow v 8 * (x * x))%f.
      2:{ rewrite P8. ring. }
      rewrite fpow_mul by exact E0.
      transitivity (fpow v 4 * fpow (fpow v 8) e8 * (x * x * fpow (x * x) e8))%f; [rewrite P4; ring|].
      rewrite V. ring. }
    rewrite S. transitivity (x * x * (fpow (x * x) e8 * fpow (x * x) e8 * (x * x)))%f; [ring|].
    rewrite <- (P2 x) at 2 3 4. rewrite fpow_pow by lia. rewrite <- !fpow_add by (exact Hmul || lia).
    f_equal. f_equal. lia. }
  clearbody r. rewrite <- E, R. destruct (fp_eq x f0) as [->|N].
  - left. ring.
  - destruct (half_power x N) as [-> | ->]; [left|right]; ring.
Qed.

(** ** Encoding *)
Definition signed (b : bool) : Z := if b then 2 ^ 255 else 0.
Definition ecompress (P : epoint) : list byte :=
  let '(x, y) := coords P in le_bytes 32 (Z.to_N (val y + signed (Z.odd (val x)))).
Definition parse_y (bytes : list byte) : F := of_Z p Hp (Z.of_N (le_val bytes) mod 2 ^ 255).
Definition parse_sign (bytes : list byte) : bool := 2 ^ 255 <=? Z.of_N (le_val bytes).
Definition emake (x y : F) : option epoint :=
  match bool_dec (onb (x, y)) true with
  | left e => Some (mkept (x, y) e)
  | right _ => None
  end.
(** curve25519-dalek, [CompressedEdwardsY::decompress]: y is taken modulo p, and the
    sign of x = 0 is ignored. *)
Definition edecompress (bytes : list byte) : option epoint :=
  let y := parse_y bytes in
  let u := (y * y - 1)%f in
  let v := (d * (y * y) + 1)%f in
  let '(ok, x) := sqrt_ratio u v in
  if ok then emake (if parse_sign bytes then (- x)%f else x) y else None.

Lemma on_ratio x y : onb (x, y) = true <-> ((d * (y * y) + 1) * (x * x) = y * y - 1)%f.
Proof.
  rewrite onb_on. unfold on. split; intros E.
  - symmetry. apply sub_zero. transitivity ((y * y - x * x) - (1 + d * (x * x) * (y * y)))%f; [ring|]. rewrite E. ring.
  - apply sub_zero. transitivity ((y * y - 1) - ((d * (y * y) + 1) * (x * x)))%f; [ring|]. rewrite E. ring.
Qed.
Lemma ratio_nz y : (d * (y * y) + 1 <> 0)%f.
Proof.
  intros E. assert (N : y <> f0).
  { intros ->. apply (F_1_neq_0 FT). rewrite <- E. ring. }
  apply (not_sq F f0 f1 fadd fmul fsub fopp fdiv finv FT fp_eq d d_nonsq i y N).
  rewrite i_sq. apply sub_zero. rewrite <- E. ring.
Qed.
Lemma sqrt_on x y : onb (x, y) = true -> exists r, sqrt_ratio (y * y - 1)%f (d * (y * y) + 1)%f = (true, r) /\
  Z.odd (val r) = false /\ (x = r \/ x = - r)%f.
Proof.
  intros H. apply on_ratio in H. pose proof (sqrt_found _ _ _ (ratio_nz y) H) as Fo.
  destruct (sqrt_ratio (y * y - 1)%f (d * (y * y) + 1)%f) as [ok r] eqn:E. cbn [fst] in Fo. subst ok.
  exists r. split; [reflexivity|]. apply sqrt_sound in E as [S O]. split; [exact O|].
  apply square_eq. apply (Edwards.cancel F f0 f1 fadd fmul fsub fopp fdiv finv FT fp_eq _ _ _ (ratio_nz y)).
  rewrite H, S. reflexivity.
Qed.
Lemma emake_some x y P : emake x y = Some P -> coords P = (x, y).
Proof. unfold emake. destruct (bool_dec _ true); [|discriminate]. intros E. injection E as <-. reflexivity. Qed.
Lemma emake_on x y : onb (x, y) = true -> exists P, emake x y = Some P /\ coords P = (x, y).
Proof.
  intros H. unfold emake. destruct (bool_dec (onb (x, y)) true) as [e|n]; [|contradiction].
  eexists. split; reflexivity.
Qed.
Lemma on_opp x y : onb (x, y) = true -> onb ((- x)%f, y) = true.
Proof. exact (rneg_ok (x, y)). Qed.
(** Decoding succeeds exactly when some x goes with the y. *)
Lemma decompress_some bytes x : onb (x, parse_y bytes) = true -> exists P, edecompress bytes = Some P.
Proof.
  intros H. unfold edecompress. destruct (sqrt_on _ _ H) as (r & E & _ & X). rewrite E.
  assert (On : onb (r, parse_y bytes) = true).
  { apply sqrt_sound in E as [E _]. apply on_ratio. exact E. }
  destruct (emake_on (if parse_sign bytes then (- r)%f else r) (parse_y bytes)) as (P & EP & _).
  - destruct (parse_sign bytes); [apply on_opp|]; exact On.
  - exists P. exact EP.
Qed.
Lemma decompress_sound bytes P : edecompress bytes = Some P ->
  exists x, coords P = (x, parse_y bytes) /\ onb (x, parse_y bytes) = true /\ (x = f0 \/ Z.odd (val x) = parse_sign bytes).
Proof.
  unfold edecompress. destruct (sqrt_ratio _ _) as [ok r] eqn:E. destruct ok; [|discriminate].
  intros M. pose proof (coords_ok P) as On. apply emake_some in M. rewrite M in On.
  exists (if parse_sign bytes then (- r)%f else r). split; [exact M|]. split; [exact On|].
  apply sqrt_sound in E as [_ O]. destruct (parse_sign bytes); [|right; exact O].
  destruct (fp_eq r f0) as [-> | N]; [left; ring|right]. rewrite odd_opp, O; [reflexivity|exact N|exact p_odd].
Qed.
Lemma ecompress_length P : length (ecompress P) = 32%nat.
Proof. unfold ecompress. destruct (coords P). apply le_bytes_length. Qed.
Lemma compress_val P x y : coords P = (x, y) -> Z.of_N (le_val (ecompress P)) = val y + signed (Z.odd (val x)).
Proof.
  intros E. unfold ecompress. rewrite E. rewrite le_val_le_bytes, N.mod_small.
  - pose proof (val_range p y). apply Z2N.id. unfold signed. destruct (Z.odd (val x)); lia.
  - change (256 ^ N.of_nat 32)%N with (Z.to_N (2 ^ 256)). pose proof (val_range p y).
    apply Z2N.inj_lt; unfold signed; destruct (Z.odd (val x)); lia.
Qed.
Lemma parse_compress P x y : coords P = (x, y) ->
  parse_y (ecompress P) = y /\ parse_sign (ecompress P) = Z.odd (val x).
Proof.
  intros E. unfold parse_y, parse_sign. rewrite (compress_val P x y E). pose proof (val_range p y) as R. split.
  - rewrite <- (of_Z_val p Hp y) at 2. f_equal. unfold signed. destruct (Z.odd (val x)).
    + rewrite <- (Z.mul_1_l (2 ^ 255)) at 1. rewrite Z.mod_add by lia. apply Z.mod_small. lia.
    + rewrite Z.add_0_r. apply Z.mod_small. lia.
  - unfold signed. destruct (Z.odd (val x)); [apply Z.leb_le|apply Z.leb_gt]; lia.
Qed.
Theorem decompress_compress P : edecompress (ecompress P) = Some P.
Proof.
  destruct (coords P) as [x y] eqn:EP. destruct (parse_compress P x y EP) as [Ey Es].
  unfold edecompress. rewrite Ey, Es. pose proof (coords_ok P) as On. rewrite EP in On.
  destruct (sqrt_on x y On) as (r & E & O & X). rewrite E.
  assert (S : (if Z.odd (val x) then (- r)%f else r) = x).
  { destruct X as [-> | ->]; [rewrite O; reflexivity|]. destruct (fp_eq r f0) as [-> | N].
    - rewrite opp_zero, odd_zero. reflexivity.
    - rewrite odd_opp, O; [reflexivity|exact N|exact p_odd]. }
  rewrite S. destruct (emake_on x y On) as (Q & EQ & CQ). rewrite EQ. f_equal. apply epoint_ext. congruence.
Qed.
End EdCurve.
