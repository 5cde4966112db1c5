(** The field of integers modulo a prime p, with square roots for p = 3 mod 4. *)
From Coq Require Import ZArith Znumtheory Zpow_facts Lia Bool Eqdep_dec Field_theory Ring_theory.
From Verif Require Import Primes.
Open Scope Z_scope.

Definition in_range (p z : Z) : bool := (0 <=? z) && (z <? p).
Record fp (p : Z) : Type := mkfp { val : Z; val_ok : in_range p val = true }.
Arguments mkfp {p}. Arguments val {p}. Arguments val_ok {p}.

Lemma fp_ext p (x y : fp p) : val x = val y -> x = y.
Proof.
  destruct x as [x Hx], y as [y Hy]. cbn [val]. intros ->. f_equal. apply UIP_dec. apply bool_dec.
Qed.
Definition fp_eq {p} (x y : fp p) : {x = y} + {x <> y} :=
  match Z.eq_dec (val x) (val y) with
  | left e => left (fp_ext p x y e)
  | right n => right (fun e => n (f_equal val e))
  end.
Lemma in_range_spec p z : in_range p z = true <-> 0 <= z < p.
Proof. unfold in_range. rewrite andb_true_iff, Z.leb_le, Z.ltb_lt. reflexivity. Qed.
Lemma val_range p (x : fp p) : 0 <= val x < p.
Proof. apply in_range_spec. apply val_ok. Qed.

(** The residue of an integer. *)
Definition residue (p z : Z) : Z := if in_range p z then z else z mod p.
Lemma residue_mod p z : 0 < p -> residue p z = z mod p.
Proof.
  intros Hp. unfold residue. destruct (in_range p z) eqn:E; [|reflexivity].
  apply in_range_spec in E. symmetry. apply Z.mod_small. exact E.
Qed.
Lemma residue_ok p z : 0 < p -> in_range p (residue p z) = true.
Proof. intros Hp. rewrite residue_mod by exact Hp. apply in_range_spec. apply Z.mod_pos_bound. exact Hp. Qed.

Section Field.
Context (p : Z) (Hp : prime p) (mul : Z -> Z -> Z) (Hmul : mul_ok p mul).
Lemma p_pos : 0 < p.
Proof. destruct Hp; lia. Qed.
Definition of_Z (z : Z) : fp p := mkfp (residue p z) (residue_ok p z p_pos).
Definition fzero : fp p := of_Z 0.
Definition fone : fp p := of_Z 1.
Definition fadd (x y : fp p) : fp p := of_Z (val x + val y).
Definition fmul (x y : fp p) : fp p := of_Z (mul (val x) (val y)).
Definition fopp (x : fp p) : fp p := of_Z (- val x).
Definition fsub (x y : fp p) : fp p := of_Z (val x - val y).
Definition fpow (x : fp p) (e : Z) : fp p := of_Z (pow_with mul (val x) e).

(** Inversion: binary extended gcd, checked, with x^(p-2) as the fallback.  The
    invariant is u = x a and v = x c modulo p. *)
Definition half (a : Z) : Z := if Z.even a then Z.div2 a else Z.div2 (a + p).
Fixpoint inv_loop (fuel : nat) (u v a c : Z) : Z :=
  match fuel with
  | O => a
  | S fuel =>
      if u =? 1 then a
      else if v =? 1 then c
      else if Z.even u then inv_loop fuel (Z.div2 u) v (half a) c
      else if Z.even v then inv_loop fuel u (Z.div2 v) a (half c)
      else if v <? u then inv_loop fuel (u - v) v (let d := a - c in if d <? 0 then d + p else d) c
      else inv_loop fuel u (v - u) a (let d := c - a in if d <? 0 then d + p else d)
  end.
Definition finv (x : fp p) : fp p :=
  let i := of_Z (inv_loop 1100 (val x) p 1 0) in
  if Z.eqb (val (fmul x i)) 1 then i else fpow x (p - 2).
Definition fdiv (x y : fp p) : fp p := fmul x (finv y).

Lemma val_of_Z z : val (of_Z z) = z mod p.
Proof. apply residue_mod. apply p_pos. Qed.
Lemma p_gt1 : 1 < p.
Proof. destruct Hp; assumption. Qed.
Lemma p_nz : p <> 0.
Proof. pose proof p_pos. lia. Qed.
Lemma of_Z_val (x : fp p) : of_Z (val x) = x.
Proof. apply fp_ext. rewrite val_of_Z. apply Z.mod_small, val_range. Qed.
Lemma of_Z_eq z z' : z mod p = z' mod p -> of_Z z = of_Z z'.
Proof. intros E. apply fp_ext. rewrite !val_of_Z. exact E. Qed.
Lemma of_Z_inj z z' : of_Z z = of_Z z' -> z mod p = z' mod p.
Proof. intros E. rewrite <- !val_of_Z, E. reflexivity. Qed.
Lemma of_Z_add z z' : fadd (of_Z z) (of_Z z') = of_Z (z + z').
Proof. apply of_Z_eq. rewrite !val_of_Z, <- Z.add_mod by exact p_nz. reflexivity. Qed.
Lemma of_Z_sub z z' : fsub (of_Z z) (of_Z z') = of_Z (z - z').
Proof. apply of_Z_eq. rewrite !val_of_Z, <- Zminus_mod. reflexivity. Qed.
Lemma of_Z_opp z : fopp (of_Z z) = of_Z (- z).
Proof.
  apply of_Z_eq. rewrite !val_of_Z. rewrite <- !Z.sub_0_l. rewrite Zminus_mod_idemp_r. reflexivity.
Qed.
Lemma of_Z_mul z z' : fmul (of_Z z) (of_Z z') = of_Z (z * z').
Proof. apply of_Z_eq. rewrite Hmul, !val_of_Z, <- Z.mul_mod by exact p_nz. reflexivity. Qed.
Lemma mul_of_Z z z' : of_Z (mul z z') = of_Z (z * z').
Proof. apply of_Z_eq. apply Hmul. Qed.
Lemma of_Z_pow z e : 0 <= e -> fpow (of_Z z) e = of_Z (z ^ e).
Proof.
  intros He. apply of_Z_eq. rewrite pow_with_ok by (auto using p_nz). rewrite val_of_Z, <- Zpower_mod by apply p_pos.
  reflexivity.
Qed.
Lemma ind_of_Z (P : fp p -> Prop) : (forall z, P (of_Z z)) -> forall x, P x.
Proof. intros H x. rewrite <- of_Z_val. apply H. Qed.

Lemma ring_laws : ring_theory fzero fone fadd fmul fsub fopp (@eq (fp p)).
Proof.
  constructor; unfold fzero, fone;
    repeat (let x := fresh in intros x; pattern x; apply ind_of_Z; clear x; let z := fresh in intros z);
    rewrite ?of_Z_opp, ?of_Z_add, ?of_Z_sub, ?of_Z_mul, ?of_Z_add, ?of_Z_mul, ?of_Z_add; f_equal; lia.
Qed.
Lemma one_nz : fone <> fzero.
Proof.
  intros E. apply of_Z_inj in E. rewrite Z.mod_1_l, Z.mod_0_l in E by (apply p_gt1 || apply p_nz). lia.
Qed.
Lemma fermat_fp (x : fp p) : x <> fzero -> fpow x (p - 1) = fone.
Proof.
  pattern x. apply ind_of_Z. clear x. intros z N. rewrite of_Z_pow by (pose proof p_pos; lia).
  apply of_Z_eq. rewrite Z.mod_1_l by apply p_gt1. apply fermat; [exact Hp|].
  intros D. apply N. apply of_Z_eq. rewrite Z.mod_0_l by apply p_nz. apply Z.mod_divide; [apply p_nz|exact D].
Qed.
Lemma fpow_add x e e' : 0 <= e -> 0 <= e' -> fpow x (e + e') = fmul (fpow x e) (fpow x e').
Proof.
  intros He He'. pattern x. apply ind_of_Z. intros z. rewrite !of_Z_pow, of_Z_mul, Z.pow_add_r by lia. reflexivity.
Qed.
Lemma fpow_1 x : fpow x 1 = x.
Proof. pattern x. apply ind_of_Z. intros z. rewrite of_Z_pow, Z.pow_1_r by lia. reflexivity. Qed.
Lemma inv_laws x : x <> fzero -> fmul (finv x) x = fone.
Proof.
  intros N. unfold finv. cbv zeta. destruct (Z.eqb_spec (val (fmul x (of_Z (inv_loop 1100 (val x) p 1 0)))) 1) as [E|E].
  - rewrite (Rmul_comm ring_laws). apply fp_ext. rewrite E. unfold fone. rewrite val_of_Z. symmetry.
    apply Z.mod_1_l. apply p_gt1.
  - rewrite <- (fpow_1 x) at 2. pose proof p_gt1. rewrite <- fpow_add by lia.
    replace (p - 2 + 1) with (p - 1) by lia. apply fermat_fp. exact N.
Qed.
Theorem field_laws : field_theory fzero fone fadd fmul fsub fopp fdiv finv (@eq (fp p)).
Proof.
  constructor; [exact ring_laws|exact one_nz|reflexivity|exact inv_laws].
Qed.

(** ** Square roots, p = 3 mod 4 *)
Definition root_candidate (c : fp p) : fp p := fpow c ((p + 1) / 4).
Lemma root_candidate_ok y : p mod 4 = 3 ->
  fmul (root_candidate (fmul y y)) (root_candidate (fmul y y)) = fmul y y.
Proof.
  intros H4. unfold root_candidate. pose proof p_gt1. assert (Q : 0 <= (p + 1) / 4) by (apply Z.div_pos; lia).
  rewrite <- fpow_add by lia.
  replace ((p + 1) / 4 + (p + 1) / 4) with ((p - 1) / 2 + 1).
  2:{ pose proof (Z.div_mod p 4 ltac:(lia)) as E. rewrite H4 in E.
      replace (p + 1) with ((p / 4 + 1) * 4) by lia. rewrite Z.div_mul by lia.
      replace (p - 1) with ((2 * (p / 4) + 1) * 2) by lia. rewrite Z.div_mul by lia. lia. }
  destruct (fp_eq y fzero) as [->|N].
  - unfold fzero. rewrite of_Z_mul, of_Z_pow. 2:{ assert (0 <= (p - 1) / 2) by (apply Z.div_pos; lia). lia. }
    apply of_Z_eq. rewrite Z.pow_0_l; [reflexivity|]. assert (0 <= (p - 1) / 2) by (apply Z.div_pos; lia). lia.
  - assert (0 <= (p - 1) / 2) by (apply Z.div_pos; lia). rewrite fpow_add, fpow_1 by lia.
    assert (E : fpow (fmul y y) ((p - 1) / 2) = fpow y (p - 1)).
    { pattern y. apply ind_of_Z. intros z. rewrite of_Z_mul, !of_Z_pow by lia. f_equal.
      replace (z * z) with (z ^ 2) by lia. rewrite <- Z.pow_mul_r by lia. f_equal.
      pose proof (Z.div_mod p 4 ltac:(lia)) as E. rewrite H4 in E.
      replace (p - 1) with ((2 * (p / 4) + 1) * 2) by lia. rewrite Z.div_mul by lia. lia. }
    rewrite E, fermat_fp by exact N. apply (Rmul_1_l ring_laws).
Qed.
Lemma odd_opp x : x <> fzero -> Z.odd p = true -> Z.odd (val (fopp x)) = negb (Z.odd (val x)).
Proof.
  intros N Ho. unfold fopp. rewrite val_of_Z. pose proof (val_range p x) as R.
  assert (val x <> 0).
  { intros E. apply N. apply fp_ext. unfold fzero. rewrite E, val_of_Z. symmetry. apply Z.mod_0_l, p_nz. }
  replace (- val x) with (p - val x + (-1) * p) by lia. rewrite Z.mod_add, Z.mod_small by (lia || apply p_nz).
  rewrite Z.odd_sub, Ho. destruct (Z.odd (val x)); reflexivity.
Qed.
End Field.
