(** The coordinates of [short_curve] satisfy the specification of CurveSpec. *)
From Coq Require Import ZArith Znumtheory.
From Verif Require Import Base Curve32 Primes Weierstrass Fp ShortCurve CurveSpec.
Open Scope Z_scope.

Section CurveProofs.
Context (p : Z) (Hp : prime p) (mul : Z -> Z -> Z) (Hmul : mul_ok p mul).
Context (p_4 : p mod 4 = 3) (p_256 : p < 2 ^ 256).
Context (a b : Z).
Local Notation F := (fp p).
Local Notation f0 := (fzero p Hp).
Local Notation f1 := (fone p Hp).
Local Notation fadd := (Fp.fadd p Hp).
Local Notation fmul := (Fp.fmul p Hp mul).
Local Notation fsub := (Fp.fsub p Hp).
Local Notation fopp := (Fp.fopp p Hp).
Local Notation fdiv := (Fp.fdiv p Hp mul).
Local Notation finv := (Fp.finv p Hp mul).
Local Notation oZ := (of_Z p Hp).
Local Notation fa := (oZ a).
Local Notation fb := (oZ b).
Context (two_nz : fadd f1 f1 <> f0).
Local Notation cpoint := (cpoint p Hp mul fa fb).
Local Notation cadd := (cadd p Hp mul Hmul fa fb two_nz).
Local Notation raw_of := (raw_of p Hp mul fa fb).
Local Notation FT := (field_laws p Hp mul Hmul).

Definition coords (P : cpoint) : option (Z * Z) :=
  match raw_of P with Inf _ => None | Aff _ x y => Some (val x, val y) end.

Lemma coords_inj P Q : coords P = coords Q -> P = Q.
Proof.
  unfold coords. intros E. apply cpoint_ext. destruct (raw_of P) as [|x y], (raw_of Q) as [|x' y'];
    try discriminate; [reflexivity|]. injection E as E1 E2. f_equal; apply fp_ext; assumption.
Qed.
Lemma oZ_zero z : oZ z = f0 <-> z mod p = 0.
Proof.
  pose proof (p_nz p Hp). split.
  - intros E. apply of_Z_inj in E. rewrite Z.mod_0_l in E by assumption. exact E.
  - intros E. apply of_Z_eq. rewrite Z.mod_0_l by assumption. exact E.
Qed.
Lemma sub_iff (x y : F) : x = y <-> fsub x y = f0.
Proof.
  split.
  - intros ->. rewrite <- (of_Z_val p Hp y), of_Z_sub. apply of_Z_eq. rewrite Z.sub_diag. reflexivity.
  - exact (sub_z F f0 f1 fadd fmul fsub fopp fdiv finv FT x y).
Qed.
Lemma oZ_val (x : F) : oZ (val x) = x.
Proof. apply of_Z_val. Qed.
Ltac push := rewrite ?(of_Z_mul p Hp mul Hmul), ?(of_Z_add p Hp), ?(of_Z_sub p Hp), ?(of_Z_opp p Hp).
(** An equation between field elements as a congruence. *)
Lemma on_iff x y : onb p Hp mul fa fb (Aff F x y) = true <-> affine_point p a b (val x) (val y).
Proof.
  cbn [onb]. unfold affine_point.
  assert (E : fmul y y = rhs p Hp mul fa fb x <->
    (val y * val y - (val x * val x * val x + a * val x + b)) mod p = 0).
  { rewrite sub_iff. rewrite <- oZ_zero. unfold rhs. rewrite <- (oZ_val x), <- (oZ_val y). repeat push.
    rewrite !oZ_val. reflexivity. }
  pose proof (val_range p x). pose proof (val_range p y).
  destruct (fp_eq (fmul y y) (rhs p Hp mul fa fb x)) as [e|n]; split; try tauto; discriminate.
Qed.
Lemma coords_on x y : (exists P, coords P = Some (x, y)) <-> affine_point p a b x y.
Proof.
  split.
  - intros [P E]. unfold coords in E. pose proof (raw_ok p Hp mul fa fb P) as H.
    destruct (raw_of P) as [|x' y']; [discriminate|]. injection E as <- <-. apply on_iff. exact H.
  - intros H. destruct H as (Hx & Hy & H).
    assert (Vx : val (oZ x) = x) by (rewrite val_of_Z; apply Z.mod_small; exact Hx).
    assert (Vy : val (oZ y) = y) by (rewrite val_of_Z; apply Z.mod_small; exact Hy).
    assert (O : onb p Hp mul fa fb (Aff F (oZ x) (oZ y)) = true).
    { apply on_iff. rewrite Vx, Vy. split; [exact Hx|]. split; [exact Hy|exact H]. }
    exists (mkpt p Hp mul fa fb (Aff F (oZ x) (oZ y)) O). unfold coords. cbn [ShortCurve.raw_of]. rewrite Vx, Vy. reflexivity.
Qed.
Lemma third_spec l x1 y1 x2 x3 y3 : third F fmul fsub l x1 y1 x2 = Aff F x3 y3 ->
  (val x3 - (val l * val l - val x1 - val x2)) mod p = 0 /\
  (val y3 - (val l * (val x1 - val x3) - val y1)) mod p = 0.
Proof.
  unfold third. intros E. injection E as E3 E4. rewrite E3 in E4. symmetry in E3, E4. apply sub_iff in E3, E4.
  split; apply oZ_zero.
  - rewrite <- E3. rewrite <- (oZ_val l), <- (oZ_val x1), <- (oZ_val x2), <- (oZ_val x3). repeat push.
    rewrite !oZ_val. reflexivity.
  - rewrite <- E4. rewrite <- (oZ_val l), <- (oZ_val x1), <- (oZ_val y1), <- (oZ_val x3), <- (oZ_val y3). repeat push.
    rewrite !oZ_val. reflexivity.
Qed.
Theorem coords_add P Q x1 y1 x2 y2 : coords P = Some (x1, y1) -> coords Q = Some (x2, y2) ->
  chord_tangent p a x1 y1 x2 y2 (coords (cadd P Q)).
Proof.
  unfold coords. cbn [ShortCurve.cadd ShortCurve.raw_of].
  pose proof (raw_on p Hp mul fa fb P) as HP. pose proof (raw_on p Hp mul fa fb Q) as HQ.
  destruct (raw_of P) as [|X1 Y1]; [discriminate|]. destruct (raw_of Q) as [|X2 Y2]; [discriminate|].
  intros E1 E2. injection E1 as <- <-. injection E2 as <- <-. unfold chord_tangent.
  assert (S0 : (val Y1 + val Y2) mod p = 0 <-> Y1 = fopp Y2).
  { rewrite <- oZ_zero. rewrite (sub_iff Y1). rewrite <- (oZ_val Y1), <- (oZ_val Y2). repeat push. rewrite !oZ_val.
    rewrite Z.sub_opp_r. reflexivity. }
  cbn [add]. destruct (fp_eq X1 X2) as [<-|NX].
  - rewrite Z.eqb_refl. cbn [andb]. destruct (fp_eq Y1 (fopp Y2)) as [e|NY].
    + rewrite (proj2 (Z.eqb_eq _ _) (proj2 S0 e)). reflexivity.
    + rewrite (proj2 (Z.eqb_neq _ _)) by (intros H; apply NY, S0; exact H).
      assert (EY : Y1 = Y2).
      { destruct (same_x F f0 f1 fadd fmul fsub fopp fdiv finv FT fp_eq fa fb X1 Y1 Y2 HP HQ); [assumption|contradiction]. }
      subst Y2. set (l := fdiv _ _).
      assert (El : fmul l (fmul (fadd f1 f1) Y1) = fadd (fmul (fadd f1 (fadd f1 f1)) (fmul X1 X1)) fa).
      { unfold l. generalize (fadd (fmul (fadd f1 (fadd f1 f1)) (fmul X1 X1)) fa). intros t.
        assert (NZ : fmul (fadd f1 f1) Y1 <> f0).
        { intros E. destruct (Weierstrass.mul_zero F f0 f1 fadd fmul fsub fopp fdiv finv FT fp_eq _ _ E) as [Z0|Z0]; [contradiction|].
          apply NY. rewrite Z0. unfold fzero. rewrite of_Z_opp. reflexivity. }
        unfold Fp.fdiv. rewrite <- (Ring_theory.Rmul_assoc (ring_laws p Hp mul Hmul)), (inv_laws p Hp mul Hmul) by exact NZ.
        rewrite (Ring_theory.Rmul_comm (ring_laws p Hp mul Hmul)). apply (Ring_theory.Rmul_1_l (ring_laws p Hp mul Hmul)). }
      clearbody l. destruct (third F fmul fsub l X1 Y1 X1) as [|x3 y3] eqn:E3; [discriminate|].
      exists (val l), (val x3), (val y3). split; [reflexivity|]. split; [apply val_range|]. split; [apply val_range|].
      split; [|apply third_spec; exact E3].
      apply oZ_zero. apply sub_iff in El. rewrite <- El. unfold fone.
      rewrite <- (oZ_val l), <- (oZ_val X1), <- (oZ_val Y1). repeat push. rewrite !oZ_val. reflexivity.
  - assert (NV : val X1 <> val X2) by (intros E; apply NX, fp_ext; exact E).
    rewrite (proj2 (Z.eqb_neq _ _) NV). cbn [andb]. set (l := fdiv _ _).
    assert (El : fmul l (fsub X2 X1) = fsub Y2 Y1).
    { unfold l. assert (NZ : fsub X2 X1 <> f0) by (intros E; apply sub_iff in E; congruence).
      unfold Fp.fdiv. rewrite <- (Ring_theory.Rmul_assoc (ring_laws p Hp mul Hmul)), (inv_laws p Hp mul Hmul) by exact NZ.
      rewrite (Ring_theory.Rmul_comm (ring_laws p Hp mul Hmul)). apply (Ring_theory.Rmul_1_l (ring_laws p Hp mul Hmul)). }
    clearbody l. destruct (third F fmul fsub l X1 Y1 X2) as [|x3 y3] eqn:E3; [discriminate|].
    exists (val l), (val x3), (val y3). split; [reflexivity|]. split; [apply val_range|]. split; [apply val_range|].
    split; [|apply third_spec; exact E3].
    apply oZ_zero. apply sub_iff in El. rewrite <- El.
    rewrite <- (oZ_val l), <- (oZ_val X1), <- (oZ_val X2), <- (oZ_val Y1), <- (oZ_val Y2). repeat push.
    rewrite !oZ_val. reflexivity.
Qed.
Theorem coords_compress P x y : coords P = Some (x, y) ->
  ccompress p Hp mul fa fb P = (if Z.odd y then x03 else x02) :: be_bytes 32 (Z.to_N x).
Proof.
  unfold coords, ccompress. destruct (raw_of P); [discriminate|]. intros E. injection E as <- <-. reflexivity.
Qed.
Theorem coords_decompress tag bytes P : tag = x02 \/ tag = x03 -> 
  cdecompress p Hp mul fa fb tag bytes = Some P <->
  exists y, coords P = Some (Z.of_N (be_val bytes), y) /\ (Z.odd y = true <-> tag = x03).
Proof.
  intros Ht. unfold cdecompress, parse_x.
  destruct (bool_dec (in_range p (Z.of_N (be_val bytes))) true) as [e|n].
  - split.
    + intros L. apply lift_sound in L as (y & EP & Ey). exists (val y). unfold coords. rewrite EP. split; [reflexivity|].
      rewrite Ey. destruct Ht as [-> | ->]; split; (reflexivity || discriminate).
    + intros (y & C & T). unfold coords in C. destruct (raw_of P) as [|x' y'] eqn:EP; [discriminate|].
      injection C as Ex Ey. pose proof (raw_ok p Hp mul fa fb P) as H. rewrite EP in H.
      destruct (lift_found p Hp mul Hmul p_4 fa fb x' y' H) as (Q & L & EQ).
      assert (x' = mkfp (Z.of_N (be_val bytes)) e) by (apply fp_ext; exact Ex). subst x' y.
      assert (Et : Z.odd (val y') = Byte.eqb tag x03).
      { destruct Ht as [-> | ->]; destruct (Z.odd (val y')); try reflexivity.
        - discriminate (proj1 T eq_refl).
        - discriminate (proj2 T eq_refl). }
      rewrite <- Et, L. f_equal. apply cpoint_ext. congruence.
  - split; [discriminate|]. intros (y & C & _). exfalso. apply n. unfold coords in C.
    destruct (raw_of P) as [|x' y']; [discriminate|]. injection C as <- _. apply val_ok.
Qed.
End CurveProofs.
