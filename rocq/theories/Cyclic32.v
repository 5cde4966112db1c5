(** An elliptic curve library whose laws hold by construction, for the examples:
    the integers modulo a number below 2^256, written additively, with generator 1 and
    an artificial 33-byte encoding. *)
From Verif Require Import Base Str Error32 Meta32 Curve32.

Section Modulus.
Context (cy_m : N) (cy_range : (1 <? cy_m) && (cy_m <? 2 ^ 256) = true).

Lemma cy_bounds : 1 < cy_m < 2 ^ 256.
Proof. apply andb_prop in cy_range as [A B]. split; apply N.ltb_lt; assumption. Qed.
Lemma cy_nz : cy_m <> 0.
Proof. pose proof cy_bounds. lia. Qed.
Definition cy_point : Type := { p : N | (p <? cy_m) = true }.
Definition cy_compress (p : cy_point) : list byte :=
  (if proj1_sig p =? 0 then x00 else x02) :: be_bytes 32 (proj1_sig p).
Definition cy_of (n : N) : option cy_point :=
  match (n <? cy_m) as b return (n <? cy_m) = b -> option cy_point with
  | true => fun H => Some (exist _ n H)
  | false => fun _ => None
  end eq_refl.
Definition cy_decompress (tag : byte) (x : list byte) : option cy_point :=
  if byte_eqb tag x02 && negb (be_val x =? 0) then cy_of (be_val x) else None.
Lemma cy_mod n : (n mod cy_m <? cy_m) = true.
Proof. apply N.ltb_lt. apply N.mod_lt. exact cy_nz. Qed.
Definition cy_make (n : N) : cy_point := exist _ (n mod cy_m) (cy_mod n).
Definition CyclicOf : ECLib := {|
  point := cy_point;
  infinity := cy_make 0;
  is_infinity := fun p => proj1_sig p =? 0;
  padd := fun p q => cy_make (proj1_sig p + proj1_sig q);
  gen := cy_make 1;
  pmul := fun k p => cy_make (k * proj1_sig p);
  order := cy_m;
  compress := cy_compress;
  decompress := cy_decompress;
  decompact := fun _ => None
|}.

Lemma cy_eq (p q : cy_point) : proj1_sig p = proj1_sig q -> p = q.
Proof.
  destruct p as [p Hp], q as [q Hq]. cbn. intros E. subst q. f_equal.
  apply Eqdep_dec.UIP_dec. exact Bool.bool_dec.
Qed.
Lemma cy_small (p : cy_point) : proj1_sig p < cy_m.
Proof. destruct p as [p H]. apply N.ltb_lt. exact H. Qed.
Lemma cy_of_some n p : cy_of n = Some p -> proj1_sig p = n.
Proof.
  unfold cy_of. generalize (eq_refl (n <? cy_m)). destruct (n <? cy_m) at 2 3; [|discriminate].
  intros H [= <-]. reflexivity.
Qed.
Lemma cy_of_ok (p : cy_point) : cy_of (proj1_sig p) = Some p.
Proof.
  unfold cy_of. generalize (eq_refl (proj1_sig p <? cy_m)).
  pose proof (proj2 (N.ltb_lt _ _) (cy_small p)) as H.
  destruct (proj1_sig p <? cy_m) at 2 3; [|congruence].
  intros H'. apply (f_equal Some). apply cy_eq. reflexivity.
Qed.

Lemma cyclic_of_laws : ec_laws CyclicOf.
Proof.
  pose proof cy_nz as nz.
  assert (small : forall p : cy_point, proj1_sig p mod cy_m = proj1_sig p)
    by (intros p; apply N.mod_small; apply cy_small).
  assert (lt : forall p : cy_point, proj1_sig p < 256 ^ N.of_nat 32).
  { intros p. eapply N.lt_trans; [apply cy_small|apply cy_bounds]. }
  constructor; cbn [CyclicOf point infinity is_infinity padd gen pmul order compress decompress];
    unfold cy_make in *.
  - intros p q r. apply cy_eq. cbn [proj1_sig].
    rewrite N.add_mod_idemp_l, N.add_mod_idemp_r, N.add_assoc by exact nz. reflexivity.
  - intros p q. apply cy_eq. cbn [proj1_sig]. rewrite N.add_comm. reflexivity.
  - intros p. apply cy_eq. cbn [proj1_sig]. rewrite N.mod_0_l, N.add_0_r by exact nz. apply small.
  - intros p. apply cy_eq. cbn [proj1_sig]. rewrite N.mul_0_l. reflexivity.
  - intros k p. apply cy_eq. cbn [proj1_sig].
    rewrite N.add_mod_idemp_r, N.mul_succ_l, N.add_comm by exact nz. reflexivity.
  - intros p. rewrite N.eqb_eq. split; intros H; [apply cy_eq; cbn [proj1_sig]; rewrite N.mod_0_l by exact nz; exact H|].
    rewrite H. cbn [proj1_sig]. apply N.mod_0_l. exact nz.
  - intros k. cbn [proj1_sig]. rewrite (N.mod_small 1) by apply cy_bounds. rewrite N.mul_1_r. split; intros H.
    + apply (f_equal (@proj1_sig _ _)) in H. cbn [proj1_sig] in H. rewrite N.mod_0_l in H by exact nz. exact H.
    + apply cy_eq. cbn [proj1_sig]. rewrite N.mod_0_l by exact nz. exact H.
  - exact cy_bounds.
  - intros p. unfold cy_compress. cbn [length]. rewrite be_bytes_length. reflexivity.
  - intros p H. exists x02, (be_bytes 32 (proj1_sig p)).
    assert (Hp : (proj1_sig p =? 0) = false).
    { apply N.eqb_neq. intros E. apply H. apply cy_eq. cbn [proj1_sig]. rewrite N.mod_0_l by exact nz. exact E. }
    unfold cy_compress. rewrite Hp. split; [reflexivity|]. split; [left; reflexivity|].
    unfold cy_decompress. rewrite be_val_be_bytes, N.mod_small by apply lt. rewrite Hp.
    change (byte_eqb x02 x02) with true. cbn [andb negb]. apply cy_of_ok.
  - intros tag x p _ L H. unfold cy_decompress in H.
    destruct (byte_eqb tag x02) eqn:Et; [|discriminate]. apply byte_eqb_eq in Et. subst tag.
    destruct (be_val x =? 0) eqn:Ez; [discriminate|]. cbn [andb negb] in H.
    apply cy_of_some in H. split.
    + intros E. rewrite E in H. cbn [proj1_sig] in H. rewrite N.mod_0_l in H by exact nz.
      apply N.eqb_neq in Ez. congruence.
    + unfold cy_compress. rewrite H, Ez, <- L, be_bytes_be_val. reflexivity.
Qed.
End Modulus.

(** With the order of secp256k1. *)
Definition cy_n : N := 0xFFFFFFFFFFFFFFFFFFFFFFFFFFFFFFFEBAAEDCE6AF48A03BBFD25E8CD0364141.
Definition Cyclic : ECLib := CyclicOf cy_n eq_refl.
Lemma cyclic_laws : ec_laws Cyclic.
Proof. apply cyclic_of_laws. Qed.
(** With an order that half of the 32-byte strings exceed, so that the searches of SLIP-0010
    have something to reject. *)
Definition HalfCyclic : ECLib := CyclicOf (2 ^ 255) eq_refl.
Lemma half_cyclic_laws : ec_laws HalfCyclic.
Proof. apply cyclic_of_laws. Qed.

(** Likewise for ed25519: public keys are 32 arbitrary bytes and the public key of
    a seed is the seed itself. *)
Definition toy_pub : Type := { b : list byte | (length b =? 32)%nat = true }.
Lemma fit_length s : (length (firstn 32 (s ++ zeros 32)) =? 32)%nat = true.
Proof. rewrite firstn_length, app_length. unfold zeros. rewrite repeat_length. apply Nat.eqb_eq. lia. Qed.
Definition toy_fit (s : list byte) : toy_pub := exist _ (firstn 32 (s ++ zeros 32)) (fit_length s).
Definition ToyEd : EdLib := {|
  ed_pub := toy_pub;
  ed_verifying := toy_fit;
  ed_raw := fun p => proj1_sig p;
  ed_parse := fun b => if (length b =? 32)%nat then Some (toy_fit b) else None
|}.
Lemma fit_same s : length s = 32%nat -> firstn 32 (s ++ zeros 32) = s.
Proof. intros H. rewrite <- H at 1. rewrite firstn_app, Nat.sub_diag, firstn_all. apply app_nil_r. Qed.
Lemma toy_ed_laws : ed_laws ToyEd.
Proof.
  constructor; cbn [ToyEd ed_pub ed_verifying ed_raw ed_parse].
  - intros [b H]. apply Nat.eqb_eq. exact H.
  - intros b p L H. rewrite L in H. cbn [Nat.eqb] in H. injection H as <-. apply fit_same. exact L.
  - intros s L. cbn [toy_fit proj1_sig]. rewrite fit_same by exact L. rewrite L. reflexivity.
Qed.
