(** ed25519 public keys on the real curve. *)
From Coq Require Import ZArith Znumtheory.
From Verif Require Import Base Sha2 Str Error32 Curve32 Primes PrimeCertsEd Fp Edwards EdCurve EdSpec Ed25519 Dalek25519.
Local Open Scope Z_scope.

Local Notation p := ed25519_p.
Local Notation Hp := ed25519_p_prime.
Local Notation mul := ed25519_mul.
Local Notation Hmul := ed25519_mul_ok.
Local Notation fd := (of_Z p Hp ed25519_d).
Local Notation fi := (of_Z p Hp ed25519_i).
Local Notation f0 := (fzero p Hp).
Local Notation f1 := (fone p Hp).
Local Notation fadd := (Fp.fadd p Hp).
Local Notation fmul := (Fp.fmul p Hp mul).
Local Notation fsub := (Fp.fsub p Hp).
Local Notation fopp := (Fp.fopp p Hp).
Local Notation fdiv := (Fp.fdiv p Hp mul).
Local Notation finv := (Fp.finv p Hp mul).
Local Notation FT := (field_laws p Hp mul Hmul).
Local Notation oZ := (of_Z p Hp).
Local Notation coords := (coords p Hp mul fd).
Local Notation onb := (onb p Hp mul fd).
Local Notation two_nz := ed25519_two_nz.
Local Notation i_sq := ed25519_i_sq.
Local Notation d_nonsq := ed25519_d_nonsq.

(** ** From integers to the field *)
Lemma oZ_val (x : fp p) : oZ (val x) = x.
Proof. apply of_Z_val. Qed.
Lemma val_oZ x : 0 <= x < p -> val (oZ x) = x.
Proof. intros H. rewrite val_of_Z. apply Z.mod_small. exact H. Qed.
Lemma oZ_small x y : 0 <= x < p -> 0 <= y < p -> oZ x = oZ y -> x = y.
Proof. intros Hx Hy E. rewrite <- (val_oZ x Hx), <- (val_oZ y Hy), E. reflexivity. Qed.
Lemma oZ_zero z : oZ z = f0 <-> z mod p = 0.
Proof.
  split; intros E.
  - apply of_Z_inj in E. rewrite E. reflexivity.
  - apply of_Z_eq. rewrite E. reflexivity.
Qed.
Lemma sub_zero (x y : fp p) : fsub x y = f0 <-> x = y.
Proof.
  split.
  - exact (Edwards.sub_z _ f0 f1 fadd fmul fsub fopp fdiv finv FT x y).
  - intros ->. destruct (FT) as [[] _ _ _]. rewrite Rsub_def. apply Ropp_def.
Qed.
Lemma on_oZ x y : onb (oZ x, oZ y) = true <-> (y * y - x * x - (1 + ed25519_d * (x * x) * (y * y))) mod p = 0.
Proof.
  rewrite onb_on. unfold on. rewrite <- sub_zero. unfold fone.
  repeat rewrite ?of_Z_mul, ?of_Z_add, ?of_Z_sub by exact Hmul. apply oZ_zero.
Qed.
Lemma on_val P x y : coords P = (x, y) -> on_edwards p ed25519_d (val x) (val y).
Proof.
  intros E. pose proof (coords_ok p Hp mul fd P) as O. rewrite E in O.
  split; [apply val_range|]. split; [apply val_range|]. apply on_oZ. rewrite !oZ_val. exact O.
Qed.
Lemma quotient_mod (n : fp p) t q : oZ t <> f0 ->
  (fdiv n (oZ t) = oZ q <-> fmul (oZ q) (oZ t) = n).
Proof.
  intros N. destruct FT as [R _ D I]. destruct R. rewrite D. split; intros E.
  - rewrite <- E. rewrite <- Rmul_assoc, (I _ N), Rmul_comm. apply Rmul_1_l.
  - rewrite <- E. rewrite <- Rmul_assoc, (Rmul_comm (oZ t)), (I _ N), Rmul_comm. apply Rmul_1_l.
Qed.
Lemma sum_val P Q x1 y1 x2 y2 x3 y3 : coords P = (x1, y1) -> coords Q = (x2, y2) ->
  (edwards_sum p ed25519_d (val x1) (val y1) (val x2) (val y2) x3 y3 <->
   0 <= x3 < p /\ 0 <= y3 < p /\ coords (ed25519_add P Q) = (oZ x3, oZ y3)).
Proof.
  intros EP EQ. pose proof (coords_on p Hp mul fd P) as OP. pose proof (coords_on p Hp mul fd Q) as OQ.
  rewrite EP in OP. rewrite EQ in OQ.
  pose proof (den_plus _ f0 f1 fadd fmul fsub fopp fdiv finv FT fp_eq fd fi two_nz i_sq d_nonsq _ _ _ _ OP OQ) as DP.
  pose proof (den_minus _ f0 f1 fadd fmul fsub fopp fdiv finv FT fp_eq fd fi two_nz i_sq d_nonsq _ _ _ _ OP OQ) as DM.
  unfold edwards_sum. cbn [eadd EdCurve.coords]. rewrite EP, EQ. cbn [add].
  rewrite <- (oZ_val x1), <- (oZ_val x2), <- (oZ_val y1), <- (oZ_val y2) in DP, DM |- *.
  rewrite !val_oZ by apply val_range.
  set (a1 := val x1) in *. set (a2 := val x2) in *. set (b1 := val y1) in *. set (b2 := val y2) in *.
  clearbody a1 a2 b1 b2. clear EP EQ OP OQ P Q x1 x2 y1 y2.
  unfold fone in *. repeat rewrite ?of_Z_mul, ?of_Z_add, ?of_Z_sub in DP by exact Hmul.
  repeat rewrite ?of_Z_mul, ?of_Z_add, ?of_Z_sub in DM by exact Hmul.
  repeat rewrite ?of_Z_mul, ?of_Z_add, ?of_Z_sub by exact Hmul.
  rewrite <- !oZ_zero, <- !of_Z_sub, !sub_zero, <- !(of_Z_mul p Hp mul Hmul x3), <- !(of_Z_mul p Hp mul Hmul y3).
  rewrite <- (quotient_mod _ _ x3 DP), <- (quotient_mod _ _ y3 DM), ?of_Z_sub.
  split.
  - intros (H1 & H2 & E1 & E2). rewrite E1, E2. auto.
  - intros (H1 & H2 & E). apply pair_equal_spec in E as [E1 E2]. auto.
Qed.

Lemma multiple_val k x y :
  edwards_multiple p ed25519_d (fst ed25519_B) (snd ed25519_B) k x y <->
  0 <= x < p /\ 0 <= y < p /\ coords (ed25519_times k ed25519_base) = (oZ x, oZ y).
Proof.
  assert (B : coords ed25519_base = (oZ (fst ed25519_B), oZ (snd ed25519_B))) by reflexivity.
  assert (VB : val (oZ (fst ed25519_B)) = fst ed25519_B /\ val (oZ (snd ed25519_B)) = snd ed25519_B) by (split; reflexivity).
  split.
  - intros M. induction M as [|k x y x' y' M (Hx & Hy & E) S].
    + split; [split; reflexivity || discriminate|]. split; [split; reflexivity || discriminate|reflexivity].
    + destruct VB as [V1 V2]. rewrite <- V1, <- V2, <- (val_oZ x Hx), <- (val_oZ y Hy) in S.
      apply (sum_val _ _ _ _ _ _ _ _ B E) in S. rewrite emul_succ. exact S.
  - revert x y. induction k as [|k IH] using N.peano_ind; intros x y (Hx & Hy & E).
    + assert (x = 0 /\ y = 1) as [-> ->]; [|constructor].
      change (coords ed25519_zero = (oZ x, oZ y)) in E. cbn [ezero EdCurve.coords] in E.
      unfold zero in E. apply pair_equal_spec in E as [E1 E2].
      change f0 with (oZ 0) in E1. change f1 with (oZ 1) in E2.
      split; symmetry; apply oZ_small; assumption || (split; reflexivity || discriminate).
    + destruct (coords (ed25519_times k ed25519_base)) as [xk yk] eqn:Ek.
      apply (multiple_succ _ _ _ _ k (val xk) (val yk)).
      * apply IH. rewrite !oZ_val. split; [apply val_range|]. split; [apply val_range|reflexivity].
      * rewrite emul_succ in E. destruct VB as [V1 V2]. rewrite <- V1, <- V2.
        apply (sum_val _ _ _ _ _ _ _ _ B Ek). auto.
Qed.

(** The parameters are the only ones. *)
Lemma divides_small a b : 0 <= a < p -> 0 <= b < p -> (p | a - b) -> a = b.
Proof.
  intros Ha Hb D. rewrite <- (Z.mod_small a p Ha), <- (Z.mod_small b p Hb).
  apply Z.mod_divide in D; [|discriminate]. rewrite <- (Z.sub_add b a) at 1.
  rewrite Z.add_mod, D, Z.add_0_l, Z.mod_mod by discriminate. reflexivity.
Qed.
Lemma scaled_unique c e a b : 0 < c < p -> 0 <= a < p -> 0 <= b < p ->
  (c * a + e) mod p = 0 -> (c * b + e) mod p = 0 -> a = b.
Proof.
  intros Hc Ha Hb Ea Eb. apply divides_small; [exact Ha|exact Hb|].
  assert (D : (p | c * (a - b))).
  { apply Z.mod_divide; [discriminate|]. replace (c * (a - b)) with ((c * a + e) - (c * b + e)) by ring.
    rewrite Zminus_mod, Ea, Eb. reflexivity. }
  destruct (prime_mult p Hp _ _ D) as [D'|D']; [|exact D'].
  apply Zdivide_le in D'; lia.
Qed.
Lemma parameters q d bx by_ : edwards25519 q d bx by_ ->
  q = p /\ d = ed25519_d /\ bx = fst ed25519_B /\ by_ = snd ed25519_B.
Proof.
  intros (Hq & Hd & Ed & (Hx & Hy & On) & Ey & Ev). assert (q = p) by (rewrite Hq; reflexivity). clear Hq. subst q.
  assert (RB : (0 <= ed25519_d < p) /\ (0 <= fst ed25519_B < p) /\ (0 <= snd ed25519_B < p)).
  { repeat split; reflexivity || discriminate. }
  destruct RB as (RD & RX & RY).
  assert (d = ed25519_d).
  { apply (scaled_unique 121666 121665); try assumption; try (split; reflexivity); reflexivity. }
  assert (by_ = snd ed25519_B).
  { apply (scaled_unique 5 (-4)); try assumption; try (split; reflexivity); try reflexivity. }
  subst d by_. repeat split. clear Ed Ey Hy Hd.
  assert (On0 : onb (oZ (fst ed25519_B), oZ (snd ed25519_B)) = true) by exact (coords_ok p Hp mul fd ed25519_base).
  apply on_oZ in On.
  apply (on_ratio p Hp mul Hmul) in On, On0.
  assert (S : fmul (oZ bx) (oZ bx) = fmul (oZ (fst ed25519_B)) (oZ (fst ed25519_B))).
  { apply (Edwards.cancel _ f0 f1 fadd fmul fsub fopp fdiv finv FT fp_eq _ _ _ (ratio_nz p Hp mul Hmul fd fi i_sq d_nonsq (oZ (snd ed25519_B)))).
    rewrite On, On0. reflexivity. }
  apply (square_eq p Hp mul Hmul) in S as [S|S].
  - apply oZ_small; assumption.
  - exfalso. apply (f_equal (fun z => Z.odd (val z))) in S. rewrite odd_opp in S.
    + rewrite !val_oZ in S by assumption. rewrite <- Z.negb_even, Ev in S. vm_compute in S. discriminate S.
    + intros E. apply (f_equal val) in E. vm_compute in E. discriminate E.
    + reflexivity.
Qed.

(** C63: the public key of every 32-byte seed is the encoding of s B, for the generator B
    of edwards25519 and the scalar s of RFC 8032; it is a point of the curve, and never
    the identity. *)
Theorem C63_ed25519_public_key strict q d bx by_ (HP : edwards25519 q d bx by_) seed :
  let h := le_val (firstn 32 (sha512 seed)) in
  let s := (2 ^ 254 + 8 * (h mod 2 ^ 254 / 8))%N in
  exists x y, edwards_multiple q d bx by_ s x y /\
    (forall x' y', edwards_multiple q d bx by_ s x' y' -> x' = x /\ y' = y) /\
    on_edwards q d x y /\ (x, y) <> (0, 1) /\
    let C := Ed25519DalekBackend (Ed25519Dalek strict) in
    pub_to_bytes C (prv_to_public C seed) = x00 :: le_bytes 32 (Z.to_N (y + 2 ^ 255 * (x mod 2))).
Proof.
  intros h s. destruct (parameters q d bx by_ HP) as (-> & -> & -> & ->). clear HP.
  assert (HS : le_val (clamp (firstn 32 (sha512 seed))) = s).
  { apply clamp_val. rewrite firstn_length_le; [reflexivity|]. rewrite sha512_length. repeat constructor. }
  destruct (coords (ed25519_times s ed25519_base)) as [x y] eqn:E.
  assert (M : edwards_multiple p ed25519_d (fst ed25519_B) (snd ed25519_B) s (val x) (val y)).
  { apply multiple_val. rewrite !oZ_val. split; [apply val_range|]. split; [apply val_range|exact E]. }
  exists (val x), (val y). split; [exact M|]. split; [|split; [|split]].
  - intros x' y' M'. apply multiple_val in M' as (Hx & Hy & E'). rewrite E in E'. apply pair_equal_spec in E' as [-> ->].
    rewrite !val_oZ by assumption. auto.
  - exact (on_val _ _ _ E).
  - intros EZ. apply pair_equal_spec in EZ as [E0 E1].
    assert (Z0 : ed25519_times s ed25519_base = ed25519_zero).
    { apply epoint_ext. rewrite E. cbn [ezero EdCurve.coords]. unfold zero.
      rewrite <- (oZ_val x), <- (oZ_val y), E0, E1. reflexivity. }
    apply ed25519_order_spec in Z0. revert Z0. unfold s. set (w := (h mod 2 ^ 254 / 8)%N).
    assert (W : (w < 2 ^ 251)%N).
    { apply N.div_lt_upper_bound; [discriminate|]. change (8 * 2 ^ 251)%N with (2 ^ 254)%N. apply N.mod_lt. discriminate. }
    clearbody w. clear - W. intros Z0. apply N.mod_divide in Z0; [|discriminate].
    assert (D0 : (ed25519_l | Z.of_N (2 ^ 254 + 8 * w))).
    { destruct Z0 as [c ->]. exists (Z.of_N c). rewrite N2Z.inj_mul, Z2N.id by discriminate. reflexivity. }
    clear Z0. rename D0 into Z0.
    replace (Z.of_N (2 ^ 254 + 8 * w)) with (8 * Z.of_N (2 ^ 251 + w)) in Z0.
    2:{ rewrite !N2Z.inj_add, N2Z.inj_mul, Z.mul_add_distr_l. reflexivity. }
    destruct (prime_mult _ ed25519_l_prime _ _ Z0) as [D|D].
    + apply Zdivide_le in D; [|discriminate|reflexivity]. apply D. reflexivity.
    + apply Zdivide_le in D; [|discriminate|].
      * assert (L : Z.of_N (2 ^ 251 + w) < 2 ^ 252) by (change (2 ^ 252) with (Z.of_N (2 ^ 251 + 2 ^ 251)); lia).
        assert (K : 2 ^ 252 < ed25519_l) by reflexivity. unfold ed25519_l in *. lia.
      * change 0 with (Z.of_N 0). apply N2Z.inj_lt. apply N.lt_le_trans with (2 ^ 251)%N; [reflexivity|]. lia.
  - intros C. unfold C. cbn [Ed25519DalekBackend pub_to_bytes prv_to_public Ed25519Dalek ed_raw ed_verifying key_bytes].
    f_equal. unfold ed_compress, ecompress, dalek_point, dalek_scalar. rewrite HS, ed25519_times_mod, E.
    f_equal. f_equal. f_equal. rewrite Zmod_odd. unfold signed. destruct (Z.odd (val x)); reflexivity.
Qed.

(** C64: which 33-byte strings are public keys, and what becomes of them. *)
Lemma compress_bytes P x y b : coords P = (x, y) -> length b = 32%nat ->
  ed_compress P = b <-> Z.of_N (le_val b) = val y + 2 ^ 255 * (val x mod 2).
Proof.
  intros E L. pose proof (compress_val p Hp mul ltac:(reflexivity) ltac:(reflexivity) fd d_nonsq P x y E) as V.
  assert (S : signed (Z.odd (val x)) = 2 ^ 255 * (val x mod 2)).
  { rewrite Zmod_odd. unfold signed. destruct (Z.odd (val x)); reflexivity. }
  rewrite S in V. rewrite <- V. unfold ed_compress. split.
  - intros ->. reflexivity.
  - intros H. apply N2Z.inj in H. rewrite <- (le_bytes_le_val b), H, L.
    rewrite <- (ecompress_length p Hp mul fd P). symmetry. apply le_bytes_le_val.
Qed.
Theorem C64_ed25519_parse strict q d bx by_ (HP : edwards25519 q d bx by_) b : length b = 33%nat ->
  let C := Ed25519DalekBackend (Ed25519Dalek strict) in
  let n := Z.of_N (le_val (skipn 1 b)) in
  let y := n mod 2 ^ 255 in
  ((exists k, pub_from_bytes C b = inr k) <->
   hd x01 b = x00 /\ exists x, on_edwards q d x (y mod q) /\ (strict = true -> y < q /\ (2 ^ 255 <= n -> x <> 0))) /\
  (forall k, pub_from_bytes C b = inr k -> pub_to_bytes C k = b) /\
  (forall e, pub_from_bytes C b = inl e -> e = if Byte.eqb (hd x01 b) x00 then SDalek else SText (lit "SLIP-0010 ed25519 public key needs a 0x00 prefix")).
Proof.
  intros L C n y. destruct (parameters q d bx by_ HP) as (-> & -> & _ & _). clear HP.
  destruct b as [|b0 b]; [discriminate|]. injection L as L. cbn [skipn] in n. cbn [hd].
  unfold C. cbn [Ed25519DalekBackend pub_from_bytes pub_to_bytes Ed25519Dalek ed_raw].
  unfold dalek_public. cbn [nth skipn Ed25519Dalek ed_parse].
  assert (HN : 0 <= n < 2 ^ 256).
  { unfold n. pose proof (le_val_bound b) as Bd. rewrite L in Bd. change (2 ^ 256) with (Z.of_N (256 ^ N.of_nat 32)). lia. }
  destruct (N.eqb_spec (b2n b0) 0) as [Z0|N0]; cbn [negb].
  2:{ split; [|split; [discriminate|]].
      - split; [intros [k K]; discriminate K|]. intros [-> _]. elim N0. reflexivity.
      - intros e E. injection E as <-. destruct (Byte.eqb b0 x00) eqn:E0; [|reflexivity].
        apply Byte.byte_dec_bl in E0. subst b0. elim N0. reflexivity. }
  assert (b0 = x00) by (destruct b0; reflexivity || discriminate Z0). subst b0. clear Z0.
  assert (Y : parse_y p Hp b = oZ (y mod p)).
  { unfold parse_y. fold n. fold y. apply of_Z_eq. symmetry. apply Z.mod_mod. discriminate. }
  assert (YR : 0 <= y mod p < p) by (apply Z.mod_pos_bound; reflexivity).
  assert (V : dalek_valid strict b = true <->
    exists x, on_edwards p ed25519_d x (y mod p) /\ (strict = true -> y < p /\ (2 ^ 255 <= n -> x <> 0))).
  { unfold dalek_valid. rewrite L. cbn [Nat.eqb andb]. split.
    - unfold ed_decompress. destruct (edecompress p Hp mul fd fi b) as [P|] eqn:E; [|discriminate]. intros S.
      pose proof (decompress_sound p Hp mul Hmul ltac:(reflexivity) fd fi two_nz i_sq d_nonsq b P E) as (x & EP & On & X).
      rewrite Y in EP, On. exists (val x). split.
      + split; [apply val_range|]. split; [exact YR|]. apply on_oZ. rewrite oZ_val. exact On.
      + intros ->. apply bytes_eqb_eq in S. apply (compress_bytes P _ _ b EP L) in S. fold n in S.
        rewrite val_oZ in S by exact YR.
        assert (M : val x mod 2 = 0 \/ val x mod 2 = 1) by (pose proof (Z.mod_pos_bound (val x) 2 ltac:(reflexivity)); lia).
        assert (K : p < 2 ^ 255) by reflexivity.
        split.
        * assert (Ey : y = y mod p); [|rewrite Ey; apply YR]. unfold y at 1. rewrite S.
          destruct M as [-> | ->].
          -- rewrite Z.mul_0_r, Z.add_0_r. apply Z.mod_small. lia.
          -- rewrite Z.mul_1_r. rewrite <- (Z.mul_1_l (2 ^ 255)) at 1. rewrite Z.mod_add by discriminate.
             apply Z.mod_small. lia.
        * intros Hn X0. rewrite X0 in S. change (0 mod 2) with 0 in S. lia.
    - intros (x & (Hx & _ & On) & S). apply on_oZ in On. rewrite <- Y in On.
      destruct (decompress_some p Hp mul Hmul ltac:(reflexivity) fd fi two_nz i_sq d_nonsq b (oZ x) On) as [P E].
      unfold ed_decompress. rewrite E. destruct strict; [|reflexivity]. destruct (S eq_refl) as [S1 S2].
      pose proof (decompress_sound p Hp mul Hmul ltac:(reflexivity) fd fi two_nz i_sq d_nonsq b P E) as (x' & EP & On' & X).
      apply bytes_eqb_eq. apply (compress_bytes P _ _ b EP L). fold n. rewrite Y, val_oZ by exact YR.
      rewrite Z.mod_small by (pose proof (Z.mod_pos_bound n (2 ^ 255) ltac:(reflexivity)); unfold y in *; lia).
      assert (Sg : val x' mod 2 = if 2 ^ 255 <=? n then 1 else 0).
      { rewrite Zmod_odd. destruct X as [X|X].
        - destruct (Z.leb_spec (2 ^ 255) n) as [G|G].
          2:{ rewrite X. reflexivity. }
          exfalso. apply (S2 G).
          (* x and x' have the same square *)
          apply (on_ratio p Hp mul Hmul) in On, On'.
          assert (Sq : fmul (oZ x) (oZ x) = fmul x' x').
          { apply (Edwards.cancel _ f0 f1 fadd fmul fsub fopp fdiv finv FT fp_eq _ _ _ (ratio_nz p Hp mul Hmul fd fi i_sq d_nonsq (parse_y p Hp b))).
            rewrite On, On'. reflexivity. }
          apply (square_eq p Hp mul Hmul) in Sq. rewrite X in Sq.
          assert (oZ x = f0).
          { destruct Sq as [Sq|Sq]; [exact Sq|]. rewrite Sq. apply fp_ext. reflexivity. }
          rewrite <- (val_oZ x Hx), H. reflexivity.
        - rewrite X. unfold parse_sign. fold n. destruct (2 ^ 255 <=? n); reflexivity. }
      rewrite Sg. unfold y. destruct (Z.leb_spec (2 ^ 255) n) as [G|G].
      + assert (H : n / 2 ^ 255 = 1) by (symmetry; apply Z.div_unique with (n - 2 ^ 255); [left; lia|lia]).
        pose proof (Z.div_mod n (2 ^ 255) ltac:(discriminate)) as D. rewrite H in D. lia.
      + rewrite Z.mod_small by lia. lia. }
  unfold dalek_parse. destruct (bool_dec (dalek_valid strict b) true) as [e|ne].
  - split; [|split; [|discriminate]].
    + split; [|intros _; eexists; reflexivity]. intros _. split; [reflexivity|]. apply V. exact e.
    + intros k E. injection E as <-. reflexivity.
  - split; [|split; [discriminate|]].
    + split; [intros [k K]; discriminate K|]. intros [_ H]. apply V in H. contradiction.
    + intros e E. injection E as <-. reflexivity.
Qed.

Print Assumptions C63_ed25519_public_key.
Print Assumptions C64_ed25519_parse.

Lemma rfc_parameters : edwards25519 ed25519_p ed25519_d (fst ed25519_B) (snd ed25519_B).
Proof. repeat split; reflexivity || discriminate. Qed.
(** The constants of RFC 8032, 5.1; seeds with their keys are in VectorsEd32. *)
Example C63_case :
  edwards25519 (2 ^ 255 - 19) ed25519_d
    15112221349535400772501151409588531511454012693041857206046113283949847762202
    46316835694926478169428394003475163141307993866256225615783033603165251855960.
Proof. exact rfc_parameters. Qed.
(** A key of the test vectors; y = 2, for which there is no x; y = p + 1, an encoding of
    the identity other than its own. *)
Example C64_case :
  let C strict := Ed25519DalekBackend (Ed25519Dalek strict) in
  let accepted strict b := match pub_from_bytes (C strict) b with inr _ => true | inl _ => false end in
  [accepted true (x00 :: unhex "a4b2856bfec510abab89753fac1ac0e1112364e7d250545963f135f2a33188ed");
   accepted false (x00 :: le_bytes 32 2);
   accepted false (x00 :: le_bytes 32 (Z.to_N (ed25519_p + 1)));
   accepted true (x00 :: le_bytes 32 (Z.to_N (ed25519_p + 1)));
   accepted false (x01 :: le_bytes 32 1)] =
  [true; false; true; false; false].
Proof. vm_cast_no_check (eq_refl [true; false; true; false; false]). Qed.
