(** Bit strings, and the bit accumulator as a bit queue. *)
From Verif Require Import Base Str BitAcc Spec39.

Lemma bits_msb_length k n : length (bits_msb k n) = k.
Proof.
  revert n; induction k as [|k IH]; intros n; cbn [bits_msb]; [reflexivity|].
  rewrite app_length, IH. cbn. lia.
Qed.

Lemma bits_val_snoc l b : bits_val (l ++ [b]) = 2 * bits_val l + (if b then 1 else 0).
Proof. unfold bits_val. rewrite fold_left_app. reflexivity. Qed.

Lemma bits_val_app l m : bits_val (l ++ m) = bits_val l * 2 ^ N.of_nat (length m) + bits_val m.
Proof.
  induction m as [|b m IH] using rev_ind.
  - rewrite app_nil_r. cbn. lia.
  - rewrite app_assoc, !bits_val_snoc, IH, app_length. cbn [length].
    replace (N.of_nat (length m + 1)) with (N.succ (N.of_nat (length m))) by lia.
    rewrite N.pow_succ_r'. lia.
Qed.

Lemma bits_val_bound l : bits_val l < 2 ^ N.of_nat (length l).
Proof.
  induction l as [|b l IH] using rev_ind; [cbn; lia|].
  rewrite bits_val_snoc, app_length. cbn [length].
  replace (N.of_nat (length l + 1)) with (N.succ (N.of_nat (length l))) by lia.
  rewrite N.pow_succ_r'. destruct b; lia.
Qed.

Lemma bits_val_msb k n : bits_val (bits_msb k n) = n mod 2 ^ N.of_nat k.
Proof.
  revert n; induction k as [|k IH]; intros n.
  - cbn. rewrite N.mod_1_r. reflexivity.
  - cbn [bits_msb]. rewrite bits_val_snoc, IH.
    replace (N.of_nat (S k)) with (N.succ (N.of_nat k)) by lia.
    rewrite N.pow_succ_r'.
    assert (2 ^ N.of_nat k <> 0) by (apply N.pow_nonzero; lia).
    rewrite N.mod_mul_r by lia.
    rewrite <- N.bit0_mod, N.bit0_odd. destruct (N.odd n); cbn [N.b2n]; lia.
Qed.

Lemma bits_msb_val l : bits_msb (length l) (bits_val l) = l.
Proof.
  induction l as [|b l IH] using rev_ind; [reflexivity|].
  rewrite app_length. cbn [length]. replace (length l + 1)%nat with (S (length l)) by lia.
  cbn [bits_msb]. rewrite bits_val_snoc.
  assert (E : (2 * bits_val l + (if b then 1 else 0)) / 2 = bits_val l).
  { rewrite N.mul_comm, N.div_add_l by lia. destruct b; cbn; lia. }
  rewrite E, IH. f_equal. f_equal.
  rewrite N.odd_add, N.odd_mul. cbn. destruct b; reflexivity.
Qed.

Lemma bits_val_inj l m : length l = length m -> bits_val l = bits_val m -> l = m.
Proof. intros HL HV. rewrite <- (bits_msb_val l), <- (bits_msb_val m), HL, HV. reflexivity. Qed.

Lemma bits_msb_small_inj k a b : a < 2 ^ N.of_nat k -> b < 2 ^ N.of_nat k ->
  bits_msb k a = bits_msb k b -> a = b.
Proof.
  intros Ha Hb E. apply (f_equal bits_val) in E. rewrite !bits_val_msb in E.
  rewrite !N.mod_small in E by assumption. exact E.
Qed.

Lemma bytes_bits_length l : length (bytes_bits l) = (8 * length l)%nat.
Proof.
  induction l as [|b l IH]; [reflexivity|]. unfold bytes_bits in *. cbn [flat_map length].
  rewrite app_length, IH, bits_msb_length. lia.
Qed.

Lemma bytes_bits_app l m : bytes_bits (l ++ m) = bytes_bits l ++ bytes_bits m.
Proof. apply flat_map_app. Qed.

Lemma bytes_bits_cons b l : bytes_bits (b :: l) = bits_msb 8 (b2n b) ++ bytes_bits l.
Proof. reflexivity. Qed.

Lemma app_inv_length {A : Type} (a b c d : list A) :
  length a = length c -> a ++ b = c ++ d -> a = c /\ b = d.
Proof.
  revert c; induction a as [|x a IH]; intros [|y c] HL E; try discriminate HL; cbn in *.
  - split; [reflexivity|exact E].
  - injection E as -> E. apply IH in E; [|lia]. destruct E as [-> ->]. split; reflexivity.
Qed.

Lemma bytes_bits_inj l m : bytes_bits l = bytes_bits m -> l = m.
Proof.
  revert m; induction l as [|a l IH]; intros [|b m] E.
  - reflexivity.
  - apply (f_equal (@length bool)) in E. rewrite !bytes_bits_length in E. cbn in E. lia.
  - apply (f_equal (@length bool)) in E. rewrite !bytes_bits_length in E. cbn in E. lia.
  - rewrite !bytes_bits_cons in E. apply app_inv_length in E; [|rewrite !bits_msb_length; reflexivity].
    destruct E as [E1 E2]. apply IH in E2. subst. f_equal. apply b2n_inj.
    apply (bits_msb_small_inj 8); [apply b2n_bound|apply b2n_bound|exact E1].
Qed.

(** Any multiple-of-8 bit string is the bits of some bytes. *)
Lemma bytes_of_bits n : forall l, length l = (8 * n)%nat ->
  exists e, length e = n /\ bytes_bits e = l.
Proof.
  induction n as [|n IH]; intros l Hl.
  - exists []. destruct l; [split; reflexivity|discriminate].
  - destruct (IH (skipn 8 l)) as [e [He1 He2]]; [rewrite skipn_length; lia|].
    exists (n2b (bits_val (firstn 8 l)) :: e). split; [cbn; lia|].
    rewrite bytes_bits_cons, He2, b2n_n2b.
    assert (HL : length (firstn 8 l) = 8%nat) by (rewrite firstn_length; lia).
    pose proof (bits_val_bound (firstn 8 l)) as HB. rewrite HL in HB.
    rewrite N.mod_small by exact HB.
    rewrite <- HL at 1. rewrite bits_msb_val. apply firstn_skipn.
Qed.

Lemma index_bits_length l : length (index_bits l) = (11 * length l)%nat.
Proof.
  induction l as [|b l IH]; [reflexivity|]. unfold index_bits in *. cbn [flat_map length].
  rewrite app_length, IH, bits_msb_length. lia.
Qed.

Lemma index_bits_app l m : index_bits (l ++ m) = index_bits l ++ index_bits m.
Proof. apply flat_map_app. Qed.

Lemma index_bits_cons b l : index_bits (b :: l) = bits_msb 11 b ++ index_bits l.
Proof. reflexivity. Qed.

Lemma index_bits_inj l m :
  Forall (fun i => i < 2048) l -> Forall (fun i => i < 2048) m ->
  index_bits l = index_bits m -> l = m.
Proof.
  intros Fl. revert m; induction Fl as [|a l Ha Fl IH]; intros [|b m] Fm E.
  - reflexivity.
  - apply (f_equal (@length bool)) in E. rewrite !index_bits_length in E. cbn in E. lia.
  - apply (f_equal (@length bool)) in E. rewrite !index_bits_length in E. cbn in E. lia.
  - rewrite !index_bits_cons in E. apply app_inv_length in E; [|rewrite !bits_msb_length; reflexivity].
    inversion Fm; subst. destruct E as [E1 E2]. apply IH in E2; [|assumption]. subst. f_equal.
    apply (bits_msb_small_inj 11); assumption.
Qed.

Lemma indices_of_bits n : forall l, length l = (11 * n)%nat ->
  exists idxs, length idxs = n /\ Forall (fun i => i < 2048) idxs /\ index_bits idxs = l.
Proof.
  induction n as [|n IH]; intros l Hl.
  - exists []. destruct l; [repeat split; constructor|discriminate].
  - destruct (IH (skipn 11 l)) as [e [He1 [He3 He2]]]; [rewrite skipn_length; lia|].
    assert (HL : length (firstn 11 l) = 11%nat) by (rewrite firstn_length; lia).
    pose proof (bits_val_bound (firstn 11 l)) as HB. rewrite HL in HB. change (2 ^ N.of_nat 11) with 2048 in HB.
    exists (bits_val (firstn 11 l) :: e). split; [cbn; lia|]. split; [constructor; assumption|].
    rewrite index_bits_cons, He2.
    rewrite <- HL at 1. rewrite bits_msb_val. apply firstn_skipn.
Qed.

(** ** The accumulator represents a bit queue (oldest bit first). *)
Definition acc_rep (a : bitacc) (q : list bool) : Prop :=
  ba_acc a = bits_val q /\ ba_bits a = N.of_nat (length q).

Lemma acc_rep_new : acc_rep ba_new [].
Proof. split; reflexivity. Qed.

Lemma land_mask v n : N.land v (N.shiftl 1 n - 1) = v mod 2 ^ n.
Proof.
  rewrite N.shiftl_1_l. replace (2 ^ n - 1) with (N.ones n).
  - apply N.land_ones.
  - rewrite N.ones_equiv. lia.
Qed.

Lemma lor_add a b n : b < 2 ^ n -> N.lor (a * 2 ^ n) b = a * 2 ^ n + b.
Proof.
  intros Hb. symmetry. rewrite <- N.shiftl_mul_pow2.
  assert (H : N.land (N.shiftl a n) b = 0).
  { apply N.bits_inj. intros i. rewrite N.land_spec, N.bits_0.
    destruct (N.lt_ge_cases i n) as [Hi|Hi].
    - rewrite N.shiftl_spec_low by exact Hi. reflexivity.
    - replace (N.testbit b i) with false; [apply andb_false_r|].
      symmetry. destruct (N.eq_dec b 0) as [->|Hb0]; [apply N.bits_0|].
      apply N.bits_above_log2. apply N.log2_lt_pow2; [lia|].
      eapply N.lt_le_trans; [exact Hb|]. apply N.pow_le_mono_r; lia. }
  rewrite N.add_nocarry_lxor by exact H. apply N.lxor_lor. exact H.
Qed.

Lemma push_rep {E : Type} a q v n :
  acc_rep a q -> (n <= 56)%nat -> (length q + n <= 64)%nat ->
  exists a', @push_bits E a v (N.of_nat n) = Ok a' /\ acc_rep a' (q ++ bits_msb n v).
Proof.
  intros [HA HB] Hn Hl. unfold push_bits.
  destruct (56 <? N.of_nat n) eqn:E1; [lia|].
  destruct (2 ^ 32 <=? ba_bits a + N.of_nat n) eqn:E2; [rewrite HB in E2; lia|].
  eexists. split; [reflexivity|]. unfold acc_rep. cbn [ba_acc ba_bits].
  rewrite bits_val_app, app_length, bits_msb_length, bits_val_msb, land_mask, HA, HB.
  split; [|lia].
  rewrite N.shiftl_mul_pow2. rewrite N.mod_small.
  - apply lor_add. apply N.mod_lt. apply N.pow_nonzero. lia.
  - pose proof (bits_val_bound q) as Hq.
    eapply N.lt_le_trans.
    + apply N.mul_lt_mono_pos_r; [|exact Hq]. apply N.neq_0_lt_0. apply N.pow_nonzero. lia.
    + rewrite <- N.pow_add_r. apply N.pow_le_mono_r; lia.
Qed.

Lemma take_rep {E : Type} a q n :
  acc_rep a q -> (n <= length q)%nat -> (n < 64)%nat -> (length q - n < 64)%nat ->
  exists a', @take_bits E a (N.of_nat n) = Ok (bits_val (firstn n q), a') /\ acc_rep a' (skipn n q).
Proof.
  intros [HA HB] Hn H64 Hs. unfold take_bits.
  destruct (ba_bits a <? N.of_nat n) eqn:E1; [lia|].
  destruct ((64 <=? ba_bits a - N.of_nat n) || (64 <=? N.of_nat n)) eqn:E2; [lia|].
  set (f := firstn n q). set (s := skipn n q).
  assert (Hf : length f = n) by (unfold f; rewrite firstn_length; lia).
  assert (Hsl : length s = (length q - n)%nat) by (unfold s; rewrite skipn_length; lia).
  assert (HV : bits_val q = bits_val f * 2 ^ N.of_nat (length s) + bits_val s).
  { rewrite <- bits_val_app. unfold f, s. rewrite firstn_skipn. reflexivity. }
  assert (HSh : ba_bits a - N.of_nat n = N.of_nat (length s)) by lia.
  rewrite HSh, !land_mask, N.shiftr_div_pow2, HA, HV.
  assert (HP : 2 ^ N.of_nat (length s) <> 0) by (apply N.pow_nonzero; lia).
  pose proof (bits_val_bound s) as Bs. pose proof (bits_val_bound f) as Bf. rewrite Hf in Bf.
  eexists. split.
  - rewrite N.div_add_l by exact HP. rewrite (N.div_small (bits_val s)) by exact Bs.
    rewrite N.add_0_r, N.mod_small by exact Bf. reflexivity.
  - split; cbn [ba_acc ba_bits]; [|reflexivity].
    rewrite N.add_comm, N.mod_add by exact HP. apply N.mod_small. exact Bs.
Qed.

Lemma can_take_rep a q n : acc_rep a q -> can_take a (N.of_nat n) = (n <=? length q)%nat.
Proof.
  intros [_ HB]. unfold can_take. rewrite HB.
  destruct (Nat.leb_spec n (length q)); lia.
Qed.

(** High bits of a byte. *)
Lemma shiftr_bits k b : (k <= 8)%nat ->
  bits_msb k (N.shiftr (b2n b) (8 - N.of_nat k)) = firstn k (bits_msb 8 (b2n b)).
Proof.
  intros Hk. pose proof (b2n_bound b) as Hb.
  set (l := bits_msb 8 (b2n b)).
  assert (HL : length l = 8%nat) by apply bits_msb_length.
  assert (HV : b2n b = bits_val l).
  { unfold l. rewrite bits_val_msb. symmetry. apply N.mod_small. exact Hb. }
  rewrite HV. rewrite <- (firstn_skipn k l) at 1. rewrite bits_val_app, skipn_length, HL.
  rewrite N.shiftr_div_pow2. replace (8 - N.of_nat k) with (N.of_nat (8 - k)) by lia.
  rewrite N.div_add_l by (apply N.pow_nonzero; lia).
  rewrite N.div_small.
  - rewrite N.add_0_r. replace k with (length (firstn k l)) at 1 by (rewrite firstn_length; lia).
    apply bits_msb_val.
  - pose proof (bits_val_bound (skipn k l)) as H. rewrite skipn_length, HL in H. exact H.
Qed.
