(** The UTF-8 decoder is the exact inverse of the encoder. *)
From Verif Require Import Base Str.
From Coq Require Import Psatz.

Lemma b2n_n2b_small n : n < 256 -> b2n (n2b n) = n.
Proof. intros H. rewrite b2n_n2b. apply N.mod_small. exact H. Qed.

Lemma guard_true {A : Type} b (o : option A) : b = true -> guard b o = o.
Proof. intros ->. reflexivity. Qed.

Lemma guard_some {A : Type} b (o : option A) x : guard b o = Some x -> b = true /\ o = Some x.
Proof. destruct b; cbn; [auto|discriminate]. Qed.

Ltac dm :=
  repeat match goal with
  | |- context[?a / ?b] =>
      let q := fresh "q" in let H1 := fresh in let H2 := fresh in
      pose proof (N.div_mod' a b) as H1; pose proof (N.mod_lt a b ltac:(lia)) as H2;
      set (q := a / b) in *; clearbody q
  end.

Lemma split64 c : exists q r, c = 64 * q + r /\ r < 64 /\ c / 64 = q /\ c mod 64 = r.
Proof.
  exists (c / 64), (c mod 64). repeat split.
  - apply N.div_mod'.
  - apply N.mod_lt. lia.
Qed.

Lemma dec_step fuel c rest : is_scalar c = true ->
  utf8_decode_fuel (S fuel) (utf8_char c ++ rest) = option_map (cons c) (utf8_decode_fuel fuel rest).
Proof.
  intros Hs. unfold utf8_char.
  destruct (c <? 0x80) eqn:E1.
  - cbn [app utf8_decode_fuel]. rewrite b2n_n2b_small by lia. rewrite E1. reflexivity.
  - destruct (split64 c) as [q [r [Ec [Hr [-> ->]]]]].
    destruct (c <? 0x800) eqn:E2.
    + cbn [app utf8_decode_fuel]. rewrite !b2n_n2b_small by lia.
      destruct (0xC0 + q <? 0x80) eqn:?; [lia|]. destruct (0xC0 + q <? 0xC0) eqn:?; [lia|].
      destruct (0xC0 + q <? 0xE0) eqn:?; [|lia].
      replace ((0xC0 + q - 0xC0) * 64 + (0x80 + r - 0x80)) with c by lia.
      apply guard_true. unfold is_cont. rewrite !b2n_n2b_small by lia. lia.
    + destruct (split64 q) as [q2 [r2 [Eq [Hr2 [Hq2 Hr2']]]]].
      assert (H4096 : c / 4096 = q2).
      { change 4096 with (64 * 64). rewrite <- N.div_div by lia.
        replace (c / 64) with q; [exact Hq2|]. rewrite Ec.
        rewrite N.mul_comm, N.div_add_l, N.div_small by lia. lia. }
      destruct (c <? 0x10000) eqn:E3.
      * rewrite H4096, Hr2'. cbn [app utf8_decode_fuel]. rewrite !b2n_n2b_small by lia.
        destruct (0xE0 + q2 <? 0x80) eqn:?; [lia|]. destruct (0xE0 + q2 <? 0xC0) eqn:?; [lia|].
        destruct (0xE0 + q2 <? 0xE0) eqn:?; [lia|]. destruct (0xE0 + q2 <? 0xF0) eqn:?; [|lia].
        replace ((0xE0 + q2 - 0xE0) * 4096 + (0x80 + r2 - 0x80) * 64 + (0x80 + r - 0x80)) with c by lia.
        apply guard_true. rewrite Hs. unfold is_cont. rewrite !b2n_n2b_small by lia. lia.
      * destruct (split64 q2) as [q3 [r3 [Eq2 [Hr3 [Hq3 Hr3']]]]].
        assert (Hmod : c / 262144 = q3).
        { change 262144 with (4096 * 64). rewrite <- N.div_div by lia. rewrite H4096. exact Hq3. }
        rewrite Hmod, H4096, Hr2', Hr3'.
        assert (Hmax : c < 0x110000) by (unfold is_scalar in Hs; lia).
        cbn [app utf8_decode_fuel]. rewrite !b2n_n2b_small by lia.
        destruct (0xF0 + q3 <? 0x80) eqn:?; [lia|]. destruct (0xF0 + q3 <? 0xC0) eqn:?; [lia|].
        destruct (0xF0 + q3 <? 0xE0) eqn:?; [lia|]. destruct (0xF0 + q3 <? 0xF0) eqn:?; [lia|].
        destruct (0xF0 + q3 <? 0xF8) eqn:?; [|lia].
        replace ((0xF0 + q3 - 0xF0) * 262144 + (0x80 + r3 - 0x80) * 4096 + (0x80 + r2 - 0x80) * 64
                 + (0x80 + r - 0x80)) with c by lia.
        apply guard_true. rewrite Hs. unfold is_cont. rewrite !b2n_n2b_small by lia. lia.
Qed.

Lemma utf8_char_nonempty c : (1 <= length (utf8_char c))%nat.
Proof.
  unfold utf8_char. destruct (c <? 0x80); [cbn; lia|]. destruct (c <? 0x800); [cbn; lia|].
  destruct (c <? 0x10000); cbn; lia.
Qed.

Lemma decode_encode_fuel s : forall fuel, Forall (fun c => is_scalar c = true) s ->
  (length s <= fuel)%nat -> utf8_decode_fuel fuel (utf8 s) = Some s.
Proof.
  induction s as [|c s IH]; intros fuel F Hf.
  - destruct fuel; reflexivity.
  - destruct fuel as [|fuel]; [cbn in Hf; lia|]. inversion F; subst.
    unfold utf8. cbn [flat_map]. rewrite dec_step by assumption.
    fold (utf8 s). rewrite IH; [reflexivity|assumption|cbn in Hf; lia].
Qed.

Lemma utf8_length s : (length s <= length (utf8 s))%nat.
Proof.
  induction s as [|c s IH]; [cbn; lia|]. unfold utf8 in *. cbn [flat_map length].
  rewrite app_length. pose proof (utf8_char_nonempty c). lia.
Qed.

Theorem utf8_decode_encode s : Forall (fun c => is_scalar c = true) s -> utf8_decode (utf8 s) = Some s.
Proof. intros F. apply decode_encode_fuel; [exact F|apply utf8_length]. Qed.

Lemma opt_cons_some (c : N) (o : option (list N)) s :
  option_map (cons c) o = Some s -> exists t, o = Some t /\ s = c :: t.
Proof. destruct o as [t|]; cbn; [|discriminate]. intros [= <-]. eauto. Qed.

Lemma n2b_eq n b : n = b2n b -> n2b n = b.
Proof. intros ->. apply n2b_b2n. Qed.

Lemma cont_range b : is_cont b = true -> 0x80 <= b2n b < 0xC0.
Proof. unfold is_cont. lia. Qed.

Lemma encode_decode_fuel fuel : forall l s, utf8_decode_fuel fuel l = Some s ->
  utf8 s = l /\ Forall (fun c => is_scalar c = true) s.
Proof.
  induction fuel as [|fuel IH]; intros l s E.
  - cbn in E. destruct l; [|discriminate]. injection E as <-. split; [reflexivity|constructor].
  - cbn [utf8_decode_fuel] in E. destruct l as [|b0 l1].
    + injection E as <-. split; [reflexivity|constructor].
    + cbv zeta in E. destruct (b2n b0 <? 0x80) eqn:E0.
      { apply opt_cons_some in E as [t [Et ->]]. apply IH in Et as [<- F]. split.
        - unfold utf8. cbn [flat_map]. unfold utf8_char at 1. rewrite E0, n2b_b2n. reflexivity.
        - constructor; [unfold is_scalar; lia|exact F]. }
      destruct (b2n b0 <? 0xC0) eqn:E1; [discriminate|].
      destruct (b2n b0 <? 0xE0) eqn:E2.
      { destruct l1 as [|b1 l2]; [discriminate|].
        apply guard_some in E as [HG E]. apply opt_cons_some in E as [t [Et ->]].
        apply IH in Et as [<- F].
        apply andb_true_iff in HG as [HC HG]. apply cont_range in HC.
        set (x := b2n b0 - 0xC0) in *. set (y := b2n b1 - 0x80) in *.
        assert (Hx : b2n b0 = 0xC0 + x) by lia. assert (Hy : b2n b1 = 0x80 + y) by lia.
        assert (x < 32 /\ y < 64) as [Hx' Hy'] by lia.
        assert (D : (x * 64 + y) / 64 = x) by (rewrite N.div_add_l, N.div_small by lia; lia).
        assert (M : (x * 64 + y) mod 64 = y) by (rewrite N.add_comm, N.mod_add by lia; apply N.mod_small; lia).
        split.
        - unfold utf8. cbn [flat_map]. unfold utf8_char at 1.
          destruct (x * 64 + y <? 0x80) eqn:?; [lia|]. destruct (x * 64 + y <? 0x800) eqn:?; [|lia].
          rewrite D, M. rewrite (n2b_eq _ b0), (n2b_eq _ b1) by lia. reflexivity.
        - constructor; [unfold is_scalar; lia|exact F]. }
      destruct (b2n b0 <? 0xF0) eqn:E3.
      { destruct l1 as [|b1 [|b2 l3]]; [discriminate|discriminate|].
        apply guard_some in E as [HG E]. apply opt_cons_some in E as [t [Et ->]].
        apply IH in Et as [<- F].
        apply andb_true_iff in HG as [HG HS]. apply andb_true_iff in HG as [HG HM].
        apply andb_true_iff in HG as [HC1 HC2]. apply cont_range in HC1, HC2.
        set (x := b2n b0 - 0xE0) in *. set (y := b2n b1 - 0x80) in *. set (z := b2n b2 - 0x80) in *.
        assert (Hx : b2n b0 = 0xE0 + x) by lia. assert (Hy : b2n b1 = 0x80 + y) by lia.
        assert (Hz : b2n b2 = 0x80 + z) by lia.
        assert (x < 16 /\ y < 64 /\ z < 64) as [Hx' [Hy' Hz']] by lia.
        set (c := x * 4096 + y * 64 + z) in *.
        assert (D : c / 64 = x * 64 + y).
        { unfold c. replace (x * 4096 + y * 64 + z) with ((x * 64 + y) * 64 + z) by lia.
          rewrite N.div_add_l, N.div_small by lia. lia. }
        assert (M : c mod 64 = z).
        { unfold c. replace (x * 4096 + y * 64 + z) with (z + (x * 64 + y) * 64) by lia.
          rewrite N.mod_add by lia. apply N.mod_small. lia. }
        assert (M1 : (x * 64 + y) mod 64 = y) by (rewrite N.add_comm, N.mod_add by lia; apply N.mod_small; lia).
        assert (D2 : c / 4096 = x).
        { unfold c. replace (x * 4096 + y * 64 + z) with (x * 4096 + (y * 64 + z)) by lia.
          rewrite N.div_add_l, N.div_small by lia. lia. }
        split.
        - unfold utf8. cbn [flat_map]. unfold utf8_char at 1.
          destruct (c <? 0x80) eqn:?; [lia|]. destruct (c <? 0x800) eqn:?; [lia|].
          destruct (c <? 0x10000) eqn:?; [|lia].
          rewrite D2, D, M, M1. rewrite (n2b_eq _ b0), (n2b_eq _ b1), (n2b_eq _ b2) by lia. reflexivity.
        - constructor; [exact HS|exact F]. }
      destruct (b2n b0 <? 0xF8) eqn:E4; [|discriminate].
      destruct l1 as [|b1 [|b2 [|b3 l4]]]; [discriminate|discriminate|discriminate|].
      apply guard_some in E as [HG E]. apply opt_cons_some in E as [t [Et ->]].
      apply IH in Et as [<- F].
      apply andb_true_iff in HG as [HG HS]. apply andb_true_iff in HG as [HG HM].
      apply andb_true_iff in HG as [HG HC3]. apply andb_true_iff in HG as [HC1 HC2].
      apply cont_range in HC1, HC2, HC3.
      set (x := b2n b0 - 0xF0) in *. set (y := b2n b1 - 0x80) in *. set (z := b2n b2 - 0x80) in *.
      set (u := b2n b3 - 0x80) in *.
      assert (Hx : b2n b0 = 0xF0 + x) by lia. assert (Hy : b2n b1 = 0x80 + y) by lia.
      assert (Hz : b2n b2 = 0x80 + z) by lia. assert (Hu : b2n b3 = 0x80 + u) by lia.
      assert (x < 8 /\ y < 64 /\ z < 64 /\ u < 64) as [Hx' [Hy' [Hz' Hu']]] by lia.
      set (c := x * 262144 + y * 4096 + z * 64 + u) in *.
      assert (D : c / 64 = (x * 64 + y) * 64 + z).
      { unfold c. replace (x * 262144 + y * 4096 + z * 64 + u) with (((x * 64 + y) * 64 + z) * 64 + u) by lia.
        rewrite N.div_add_l, N.div_small by lia. lia. }
      assert (M : c mod 64 = u).
      { unfold c. replace (x * 262144 + y * 4096 + z * 64 + u) with (u + ((x * 64 + y) * 64 + z) * 64) by lia.
        rewrite N.mod_add by lia. apply N.mod_small. lia. }
      assert (M1 : ((x * 64 + y) * 64 + z) mod 64 = z) by (rewrite N.add_comm, N.mod_add by lia; apply N.mod_small; lia).
      assert (D2 : c / 4096 = x * 64 + y).
      { unfold c. replace (x * 262144 + y * 4096 + z * 64 + u) with ((x * 64 + y) * 4096 + (z * 64 + u)) by lia.
        rewrite N.div_add_l, N.div_small by lia. lia. }
      assert (M2 : (x * 64 + y) mod 64 = y) by (rewrite N.add_comm, N.mod_add by lia; apply N.mod_small; lia).
      assert (D3 : c / 262144 = x).
      { unfold c. replace (x * 262144 + y * 4096 + z * 64 + u) with (x * 262144 + (y * 4096 + z * 64 + u)) by lia.
        rewrite N.div_add_l, N.div_small by lia. lia. }
      split.
      * unfold utf8. cbn [flat_map]. unfold utf8_char at 1.
        destruct (c <? 0x80) eqn:?; [lia|]. destruct (c <? 0x800) eqn:?; [lia|].
        destruct (c <? 0x10000) eqn:?; [lia|].
        rewrite D3, D2, D, M, M1, M2.
        rewrite (n2b_eq _ b0), (n2b_eq _ b1), (n2b_eq _ b2), (n2b_eq _ b3) by lia. reflexivity.
      * constructor; [exact HS|exact F].
Qed.

Theorem utf8_decode_iff l s :
  utf8_decode l = Some s <-> utf8 s = l /\ Forall (fun c => is_scalar c = true) s.
Proof.
  split.
  - apply encode_decode_fuel.
  - intros [<- F]. apply utf8_decode_encode. exact F.
Qed.

Theorem utf8_inj s t : Forall (fun c => is_scalar c = true) s -> Forall (fun c => is_scalar c = true) t ->
  utf8 s = utf8 t -> s = t.
Proof.
  intros Hs Ht E. apply utf8_decode_encode in Hs. apply utf8_decode_encode in Ht. congruence.
Qed.
