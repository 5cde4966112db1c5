From Verif Require Import Base Str Sha2 Error32 Base58 Base58Spec PathProofs32.

(** ** Little-endian digit strings without a zero at the top *)
Fixpoint le_val (B : N) (ds : list N) : N :=
  match ds with [] => 0 | d :: ds' => d + B * le_val B ds' end.

Definition digits_ok (B : N) (ds : list N) : Prop := Forall (fun d => d < B) ds.
Definition canon (B : N) (ds : list N) : Prop := digits_ok B ds /\ (ds = [] \/ last ds 0 <> 0).

Lemma le_val_app B a b : le_val B (a ++ b) = le_val B a + B ^ N.of_nat (length a) * le_val B b.
Proof.
  induction a as [|d a IH]; cbn [le_val app length].
  - change (N.of_nat 0) with 0. rewrite N.pow_0_r. lia.
  - rewrite IH. replace (N.of_nat (S (length a))) with (N.succ (N.of_nat (length a))) by lia.
    rewrite N.pow_succ_r'. lia.
Qed.

Lemma le_val_bound B ds : 0 < B -> digits_ok B ds -> le_val B ds < B ^ N.of_nat (length ds).
Proof.
  intros HB. induction 1 as [|d ds Hd Hds IH]; cbn [le_val length].
  - change (N.of_nat 0) with 0. rewrite N.pow_0_r. lia.
  - replace (N.of_nat (S (length ds))) with (N.succ (N.of_nat (length ds))) by lia.
    rewrite N.pow_succ_r'. nia.
Qed.

Lemma canon_lower B ds : 0 < B -> canon B ds -> ds <> [] ->
  B ^ N.of_nat (length ds - 1) <= le_val B ds.
Proof.
  intros HB [Hd [->|Hl]] Hne; [congruence|].
  destruct (exists_last Hne) as (a & d & ->).
  rewrite last_last in Hl. rewrite app_length. cbn [length].
  replace (length a + 1 - 1)%nat with (length a) by lia.
  rewrite le_val_app. cbn [le_val]. nia.
Qed.

(** Larger numbers have at least as many digits. *)
Lemma canon_length_mono B a b : 1 < B -> canon B a -> canon B b ->
  le_val B a <= le_val B b -> (length a <= length b)%nat.
Proof.
  intros HB Ha Hb H. destruct a as [|x a]; [cbn; lia|].
  pose proof (canon_lower B (x :: a) ltac:(lia) Ha ltac:(discriminate)) as L.
  pose proof (le_val_bound B b ltac:(lia) (proj1 Hb)) as U.
  destruct (Nat.le_gt_cases (length (x :: a)) (length b)) as [C|C]; [exact C|exfalso].
  assert (P : B ^ N.of_nat (length b) <= B ^ N.of_nat (length (x :: a) - 1)).
  { apply N.pow_le_mono_r; lia. }
  lia.
Qed.

Lemma le_val_inj B a : forall b, 0 < B -> digits_ok B a -> digits_ok B b -> length a = length b ->
  le_val B a = le_val B b -> a = b.
Proof.
  induction a as [|x a IH]; intros [|y b] HB Ha Hb HL HV; cbn in HL; try discriminate; [reflexivity|].
  inversion Ha; inversion Hb; subst. cbn [le_val] in HV.
  assert (E : x = y).
  { apply (f_equal (fun n => n mod B)) in HV.
    rewrite (N.mul_comm B), (N.mul_comm B), !N.mod_add in HV by lia.
    rewrite !N.mod_small in HV by assumption. exact HV. }
  subst y. f_equal. apply IH; try assumption; [lia|nia].
Qed.

Lemma canon_unique B a b : 1 < B -> canon B a -> canon B b -> le_val B a = le_val B b -> a = b.
Proof.
  intros HB Ha Hb H.
  assert (length a = length b).
  { apply Nat.le_antisymm; apply (canon_length_mono B); try assumption; lia. }
  apply (le_val_inj B); try assumption; [lia|apply Ha|apply Hb].
Qed.

(** ** The carry loops *)
Lemma carry_pass_spec B M ds : forall c, 0 < B ->
  let '(ds', c') := carry_pass B M ds c in
  le_val B ds' + B ^ N.of_nat (length ds) * c' = M * le_val B ds + c /\
  length ds' = length ds /\ digits_ok B ds'.
Proof.
  induction ds as [|d ds IH]; intros c HB; cbn [carry_pass].
  - cbn [le_val length]. change (N.of_nat 0) with 0. rewrite N.pow_0_r.
    repeat split; try constructor; lia.
  - specialize (IH ((c + d * M) / B) HB). destruct (carry_pass B M ds ((c + d * M) / B)) as [ds' c'].
    destruct IH as (V & L & D). cbn [le_val length].
    replace (N.of_nat (S (length ds))) with (N.succ (N.of_nat (length ds))) by lia.
    rewrite N.pow_succ_r'. pose proof (N.div_mod (c + d * M) B ltac:(lia)) as E.
    pose proof (N.mod_lt (c + d * M) B ltac:(lia)) as Hm.
    set (q := (c + d * M) / B) in *. set (r := (c + d * M) mod B) in *.
    split; [|split; [congruence|constructor; assumption]].
    rewrite <- N.add_assoc, <- N.mul_assoc, <- N.mul_add_distr_l, V. lia.
Qed.

(** If nothing is carried out the top digit stays nonzero. *)
Lemma carry_pass_top B M ds : forall c, 0 < M -> 1 < B ->
  ds <> [] -> last ds 0 <> 0 ->
  let '(ds', c') := carry_pass B M ds c in c' = 0 -> last ds' 0 <> 0.
Proof.
  induction ds as [|d ds IH]; intros c HM HB Hne Hl; [congruence|].
  cbn [carry_pass]. destruct ds as [|e ds].
  - cbn [carry_pass last] in *. intros H. apply N.div_small_iff in H; [|lia].
    rewrite N.mod_small by exact H. nia.
  - specialize (IH ((c + d * M) / B) HM HB ltac:(discriminate) Hl).
    pose proof (carry_pass_spec B M (e :: ds) ((c + d * M) / B) ltac:(lia)) as S.
    destruct (carry_pass B M (e :: ds) ((c + d * M) / B)) as [ds' c'].
    destruct S as (_ & L & _). intros H. specialize (IH H).
    destruct ds' as [|x ds']; [discriminate|]. exact IH.
Qed.

Lemma push_carry_spec B cap fuel : forall ds carry, 1 < B ->
  carry < 2 ^ N.of_nat fuel -> digits_ok B ds -> (carry = 0 -> ds = [] \/ last ds 0 <> 0) ->
  exists full, canon B full /\
    le_val B full = le_val B ds + B ^ N.of_nat (length ds) * carry /\
    (length ds <= length full)%nat /\
    push_carry fuel B cap ds carry =
      (if (length full <=? cap)%nat || (carry =? 0) || (cap <? length ds)%nat then Some full else None).
Proof.
  induction fuel as [|fuel IH]; intros ds carry HB Hc Hd Ht; cbn [push_carry].
  - change (N.of_nat 0) with 0 in Hc. rewrite N.pow_0_r in Hc. assert (carry = 0) as -> by lia.
    exists ds. rewrite orb_true_r. cbn [orb]. split; [split; [exact Hd|auto]|].
    split; [lia|]. split; [lia|reflexivity].
  - destruct (carry =? 0) eqn:E0.
    + apply N.eqb_eq in E0. subst carry. exists ds. rewrite orb_true_r. cbn [orb].
      split; [split; [exact Hd|auto]|]. split; [lia|]. split; [lia|reflexivity].
    + apply N.eqb_neq in E0.
      assert (Hq : carry / B < 2 ^ N.of_nat fuel).
      { apply N.div_lt_upper_bound; [lia|].
        replace (N.of_nat (S fuel)) with (N.succ (N.of_nat fuel)) in Hc by lia.
        rewrite N.pow_succ_r' in Hc. nia. }
      destruct (IH (ds ++ [carry mod B]) (carry / B) HB Hq) as (full & C & V & L & P).
      { apply Forall_app. split; [exact Hd|]. constructor; [apply N.mod_lt; lia|constructor]. }
      { intros Z. right. rewrite last_last. apply N.div_small_iff in Z; [|lia].
        rewrite N.mod_small by exact Z. exact E0. }
      exists full. split; [exact C|]. rewrite app_length in *. cbn [length] in *.
      split.
      { rewrite V, le_val_app. cbn [le_val].
        replace (N.of_nat (length ds + 1)) with (N.succ (N.of_nat (length ds))) by lia.
        rewrite N.pow_succ_r'. pose proof (N.div_mod carry B ltac:(lia)) as E.
        set (q := carry / B) in *. set (r := carry mod B) in *. rewrite E. lia. }
      split; [lia|]. rewrite P. cbn [orb]. rewrite orb_false_r.
      destruct (length ds =? cap)%nat eqn:Ec.
      { destruct (length full <=? cap)%nat eqn:E1; [lia|].
        destruct (cap <? length ds)%nat eqn:E2; [lia|]. reflexivity. }
      destruct (length full <=? cap)%nat eqn:E1; [reflexivity|]. cbn [orb].
      destruct (cap <? length ds)%nat eqn:E2.
      { destruct (carry / B =? 0); cbn [orb]; [reflexivity|].
        destruct (cap <? length ds + 1)%nat eqn:E3; [reflexivity|lia]. }
      destruct (carry / B =? 0) eqn:E3; cbn [orb].
      { apply N.eqb_eq in E3. rewrite E3 in V.
        assert (full = ds ++ [carry mod B]).
        { apply (canon_unique B); try assumption.
          - split; [apply Forall_app; split; [exact Hd|constructor; [apply N.mod_lt; lia|constructor]]|].
            right. rewrite last_last. apply N.div_small_iff in E3; [|lia].
            rewrite N.mod_small by exact E3. exact E0.
          - rewrite V. lia. }
        subst full. rewrite app_length in E1. cbn [length] in E1. lia. }
      destruct (cap <? length ds + 1)%nat eqn:E4; [lia|reflexivity].
Qed.

Lemma digit_step_spec B M cap ds v : 1 < B -> 0 < M -> canon B ds -> (length ds <= cap)%nat ->
  exists full, canon B full /\ le_val B full = M * le_val B ds + v /\
    digit_step B M cap ds v = if (length full <=? cap)%nat then Some full else None.
Proof.
  intros HB HM [Hd Ht] Hcap. unfold digit_step.
  pose proof (carry_pass_spec B M ds v ltac:(lia)) as S.
  pose proof (carry_pass_top B M ds v HM HB) as T.
  destruct (carry_pass B M ds v) as [ds' c']. destruct S as (V & L & D).
  destruct (push_carry_spec B cap (N.size_nat c') ds' c' HB) as (full & C & FV & FL & P).
  - destruct c' as [|p]; [cbn; lia|]. replace (N.of_nat (N.size_nat (N.pos p))) with (N.size (N.pos p)).
    + apply N.size_gt.
    + cbn [N.size N.size_nat]. clear. induction p; cbn [Pos.size Pos.size_nat]; lia.
  - exact D.
  - intros Hz. destruct ds as [|d ds]; [left; destruct ds'; [reflexivity|discriminate]|].
    right. destruct Ht as [Ht|Ht]; [discriminate|]. apply T; [discriminate|exact Ht|exact Hz].
  - exists full. split; [exact C|]. split; [rewrite FV, L; exact V|]. rewrite P.
    destruct (length full <=? cap)%nat eqn:E1; [reflexivity|]. cbn [orb].
    destruct (c' =? 0) eqn:E2.
    + exfalso. apply N.eqb_eq in E2. subst c'.
      assert (full = ds').
      { apply (canon_unique B); try assumption.
        - split; [exact D|]. destruct ds as [|d ds]; [left; destruct ds'; [reflexivity|discriminate]|].
          right. destruct Ht as [Ht|Ht]; [discriminate|]. apply T; [discriminate|exact Ht|reflexivity].
        - rewrite FV. lia. }
      subst full. lia.
    + cbn [orb]. destruct (cap <? length ds')%nat eqn:E3; [lia|reflexivity].
Qed.

(** The loop over the input digits, with the buffer bound. *)
Fixpoint run (B M : N) (cap : nat) (ds : list N) (vs : list N) : option (list N) :=
  match vs with
  | [] => Some ds
  | v :: vs' => match digit_step B M cap ds v with Some ds' => run B M cap ds' vs' | None => None end
  end.

Lemma digits_val_from B vs : forall a,
  fold_left (fun a d => B * a + d) vs a = B ^ N.of_nat (length vs) * a + digits_val B vs.
Proof.
  unfold digits_val. induction vs as [|v vs IH]; intros a; cbn [fold_left length].
  - change (N.of_nat 0) with 0. rewrite N.pow_0_r. lia.
  - rewrite (IH (B * a + v)), (IH (B * 0 + v)).
    replace (N.of_nat (S (length vs))) with (N.succ (N.of_nat (length vs))) by lia.
    rewrite N.pow_succ_r'. lia.
Qed.

Lemma digits_val_cons B v vs : digits_val B (v :: vs) = B ^ N.of_nat (length vs) * v + digits_val B vs.
Proof. unfold digits_val at 1. cbn [fold_left]. rewrite digits_val_from. lia. Qed.

Lemma run_spec B M cap vs : forall ds, 1 < B -> 0 < M -> canon B ds -> (length ds <= cap)%nat ->
  exists full, canon B full /\
    le_val B full = M ^ N.of_nat (length vs) * le_val B ds + digits_val M vs /\
    run B M cap ds vs = if (length full <=? cap)%nat then Some full else None.
Proof.
  induction vs as [|v vs IH]; intros ds HB HM C L; cbn [run].
  - exists ds. split; [exact C|]. cbn [length]. change (N.of_nat 0) with 0. rewrite N.pow_0_r.
    split; [unfold digits_val; cbn [fold_left]; lia|].
    destruct (length ds <=? cap)%nat eqn:E; [reflexivity|lia].
  - destruct (digit_step_spec B M cap ds v HB HM C L) as (d1 & C1 & V1 & ->).
    assert (EQ : M ^ N.of_nat (length (v :: vs)) * le_val B ds + digits_val M (v :: vs) =
                 M ^ N.of_nat (length vs) * (M * le_val B ds + v) + digits_val M vs).
    { rewrite digits_val_cons. cbn [length].
      replace (N.of_nat (S (length vs))) with (N.succ (N.of_nat (length vs))) by lia.
      rewrite N.pow_succ_r'. lia. }
    rewrite EQ, <- V1.
    destruct (length d1 <=? cap)%nat eqn:E1.
    + destruct (IH d1 HB HM C1 ltac:(lia)) as (full & Cf & Vf & Rf). exists full. auto.
    + destruct (IH d1 HB HM C1 ltac:(lia)) as (full & Cf & Vf & _) || idtac.
      (* the full value still has a canonical form, at least as long *)
      assert (X : forall n, exists full, canon B full /\ le_val B full = n).
      { intros n. induction n as [|n IHn] using N.peano_ind.
        - exists []. split; [split; [constructor|auto]|reflexivity].
        - destruct IHn as (f & Cf & Vf).
          destruct (digit_step_spec B 1 (length f) f 1 HB ltac:(lia) Cf ltac:(lia)) as (g & Cg & Vg & _).
          exists g. split; [exact Cg|]. lia. }
      destruct (X (M ^ N.of_nat (length vs) * le_val B d1 + digits_val M vs)) as (full & Cf & Vf).
      exists full. split; [exact Cf|]. split; [exact Vf|].
      assert (length d1 <= length full)%nat.
      { apply (canon_length_mono B); try assumption. rewrite Vf.
        assert (1 <= M ^ N.of_nat (length vs)).
        { pose proof (N.pow_nonzero M (N.of_nat (length vs)) ltac:(lia)). lia. }
        nia. }
      destruct (length full <=? cap)%nat eqn:E2; [lia|reflexivity].
Qed.

Lemma run_nil_spec B M cap vs : 1 < B -> 0 < M ->
  exists full, canon B full /\ le_val B full = digits_val M vs /\
    run B M cap [] vs = if (length full <=? cap)%nat then Some full else None.
Proof.
  intros HB HM. destruct (run_spec B M cap vs [] HB HM) as (full & C & V & R).
  - split; [constructor|auto].
  - cbn. lia.
  - exists full. split; [exact C|]. split; [|exact R]. rewrite V. cbn [le_val]. lia.
Qed.

Lemma encode_loop_run cap input : forall ds,
  encode_loop cap ds input = run 58 256 cap ds (map b2n input).
Proof.
  induction input as [|b input IH]; intros ds; cbn [encode_loop run map]; [reflexivity|].
  destruct (digit_step 58 256 cap ds (b2n b)); [apply IH|reflexivity].
Qed.

Lemma push_zeros_spec n cap : forall ds,  (length ds <= cap)%nat ->
  push_zeros n cap ds = if (length ds + n <=? cap)%nat then Some (ds ++ repeat 0 n) else None.
Proof.
  induction n as [|n IH]; intros ds H; cbn [push_zeros].
  - destruct (length ds + 0 <=? cap)%nat eqn:E; [|lia]. cbn. rewrite app_nil_r. reflexivity.
  - destruct (length ds =? cap)%nat eqn:E.
    + destruct (length ds + S n <=? cap)%nat eqn:E2; [lia|reflexivity].
    + rewrite IH by (rewrite app_length; cbn [length]; lia). rewrite app_length. cbn [length].
      rewrite <- app_assoc. cbn [app repeat].
      destruct (length ds + S n <=? cap)%nat eqn:E2.
      * destruct (length ds + 1 + n <=? cap)%nat eqn:E3; [reflexivity|lia].
      * destruct (length ds + 1 + n <=? cap)%nat eqn:E3; [lia|reflexivity].
Qed.

(** ** From little-endian canonical digits to the specification's digit strings *)
Lemma digits_val_rev B ds : digits_val B (rev ds) = le_val B ds.
Proof.
  unfold digits_val. rewrite <- fold_left_rev_right, rev_involutive.
  induction ds as [|d ds IH]; cbn [fold_right le_val]; [reflexivity|]. rewrite IH. lia.
Qed.

Lemma lead_zeros_repeat n ds : lead_zeros (repeat 0 n ++ ds) = (n + lead_zeros ds)%nat.
Proof. induction n as [|n IH]; cbn [repeat app lead_zeros]; [reflexivity|]. cbn. rewrite IH. reflexivity. Qed.

Lemma lead_zeros_canon B ds : canon B ds -> lead_zeros (rev ds) = 0%nat.
Proof.
  intros [_ [-> |H]]; [reflexivity|]. destruct ds as [|d ds] using rev_ind; [reflexivity|].
  rewrite last_last in H. rewrite rev_app_distr. cbn [rev app lead_zeros].
  destruct (d =? 0) eqn:E; [lia|reflexivity].
Qed.

Lemma rev_zeros ds n : rev (ds ++ repeat 0 n) = repeat 0 n ++ rev ds.
Proof.
  rewrite rev_app_distr. f_equal. clear. induction n as [|n IH]; [reflexivity|].
  cbn [repeat rev]. rewrite IH. clear. induction n as [|n IH]; [reflexivity|].
  cbn [repeat app]. rewrite IH. reflexivity.
Qed.

Lemma digits_val_zeros B n ds : digits_val B (repeat 0 n ++ ds) = digits_val B ds.
Proof.
  unfold digits_val. rewrite fold_left_app. f_equal. induction n as [|n IH]; [reflexivity|].
  cbn [repeat fold_left]. rewrite N.mul_0_r. exact IH.
Qed.

(** Two digit strings with the same value and the same number of leading zeros
    are equal. *)
Lemma lead_zeros_split ds : exists t, ds = repeat 0 (lead_zeros ds) ++ t /\
  (t = [] \/ hd 0 t <> 0).
Proof.
  induction ds as [|d ds IH]; cbn [lead_zeros].
  - exists []. auto.
  - destruct (d =? 0) eqn:E.
    + apply N.eqb_eq in E. subst d. destruct IH as (t & E2 & H). exists t.
      cbn [repeat app]. rewrite <- E2. auto.
    + exists (d :: ds). split; [reflexivity|]. right. cbn. lia.
Qed.

Lemma canon_rev B t : Forall (fun d => d < B) t -> (t = [] \/ hd 0 t <> 0) -> canon B (rev t).
Proof.
  intros H Hh. split; [apply Forall_rev; exact H|].
  destruct Hh as [-> |Hh]; [auto|]. destruct t as [|d t]; [auto|].
  right. cbn [rev]. rewrite last_last. exact Hh.
Qed.

Lemma digits_inj B a b : 1 < B -> Forall (fun d => d < B) a -> Forall (fun d => d < B) b ->
  digits_val B a = digits_val B b -> lead_zeros a = lead_zeros b -> a = b.
Proof.
  intros HB Ha Hb HV HZ.
  destruct (lead_zeros_split a) as (ta & Ea & Ta), (lead_zeros_split b) as (tb & Eb & Tb).
  rewrite Ea in HV. rewrite Eb in HV. rewrite !digits_val_zeros in HV.
  rewrite Ea in Ha. rewrite Eb in Hb.
  apply Forall_app in Ha as [_ Ha]. apply Forall_app in Hb as [_ Hb].
  assert (E : ta = tb).
  { rewrite <- (rev_involutive ta), <- (rev_involutive tb). f_equal.
    apply (canon_unique B); [exact HB|apply canon_rev; assumption|apply canon_rev; assumption|].
    rewrite <- !digits_val_rev, !rev_involutive. exact HV. }
  rewrite Ea, Eb, HZ, E. reflexivity.
Qed.

(** ** The alphabet *)
Lemma alphabet_same : b58_alphabet = alphabet58.
Proof. reflexivity. Qed.
Lemma alphabet_nodup : NoDup alphabet58.
Proof.
  assert (H : (fix nd (l : list N) : bool :=
     match l with [] => true | a :: l' => negb (existsb (N.eqb a) l') && nd l' end) alphabet58 = true)
    by reflexivity.
  revert H. generalize alphabet58. intros l. induction l as [|a l IH]; intros H; [constructor|].
  apply andb_true_iff in H as [H1 H2]. constructor; [|apply IH; exact H2].
  intros Hin. apply negb_true_iff in H1. rewrite <- not_true_iff_false in H1. apply H1.
  apply existsb_exists. exists a. split; [exact Hin|apply N.eqb_refl].
Qed.
Lemma alphabet_ascii : Forall (fun c => 48 < c < 128) alphabet58.
Proof.
  apply Forall_forall. intros c H.
  assert (A : forallb (fun c => (48 <? c) && (c <? 128)) alphabet58 = true) by reflexivity.
  rewrite forallb_forall in A. specialize (A c H). lia.
Qed.

Lemma digit_char_lt d c : digit_char d c -> d < 58.
Proof.
  unfold digit_char. intros H.
  assert (nth_error alphabet58 (N.to_nat d) <> None) by congruence.
  apply nth_error_Some in H0. change (length alphabet58) with 58%nat in H0. lia.
Qed.
Lemma digit_char_ascii d c : digit_char d c -> 48 < c < 128.
Proof.
  unfold digit_char. intros H. apply nth_error_In in H.
  pose proof alphabet_ascii as A. rewrite Forall_forall in A. apply A. exact H.
Qed.
Lemma digit_char_fun d c c' : digit_char d c -> digit_char d c' -> c = c'.
Proof. unfold digit_char. congruence. Qed.
Lemma digit_char_inj d d' c : digit_char d c -> digit_char d' c -> d = d'.
Proof.
  unfold digit_char. intros H H'.
  pose proof (proj1 (NoDup_nth_error alphabet58) alphabet_nodup (N.to_nat d) (N.to_nat d')) as I.
  assert (N.to_nat d = N.to_nat d'); [|lia]. apply I.
  - apply nth_error_Some. congruence.
  - congruence.
Qed.
Lemma digit_char_nth d : d < 58 -> digit_char d (nth (N.to_nat d) b58_alphabet 0).
Proof.
  intros H. unfold digit_char. rewrite alphabet_same. apply nth_error_nth'.
  change (length alphabet58) with 58%nat. lia.
Qed.

Lemma find_index_spec c l : forall i d,
  find_index c l i = Some d -> exists k, d = i + N.of_nat k /\ nth_error l k = Some c.
Proof.
  induction l as [|a l IH]; intros i d; cbn [find_index]; [discriminate|].
  destruct (a =? c) eqn:E.
  - intros [= <-]. exists 0%nat. apply N.eqb_eq in E. subst. split; [lia|reflexivity].
  - intros H. apply IH in H as (k & -> & H). exists (S k). split; [lia|exact H].
Qed.
Lemma find_index_none c l : forall i, find_index c l i = None -> ~ In c l.
Proof.
  induction l as [|a l IH]; intros i; cbn [find_index]; [auto|].
  destruct (a =? c) eqn:E; [discriminate|].
  intros H [->|H']; [rewrite N.eqb_refl in E; discriminate|]. eapply IH; eassumption.
Qed.

Lemma decode_char_iff c d : b58_decode_char c = Some d <-> digit_char d c.
Proof.
  unfold b58_decode_char. split.
  - intros H. apply find_index_spec in H as (k & -> & H). unfold digit_char.
    rewrite <- alphabet_same. replace (N.to_nat (0 + N.of_nat k)) with k by lia. exact H.
  - intros H. destruct (find_index c b58_alphabet 0) as [d'|] eqn:E.
    + f_equal. apply find_index_spec in E as (k & -> & E).
      eapply digit_char_inj; [|exact H]. unfold digit_char. rewrite <- alphabet_same.
      replace (N.to_nat (0 + N.of_nat k)) with k by lia. exact E.
    + exfalso. apply find_index_none in E. apply E. unfold digit_char in H.
      rewrite <- alphabet_same in H. eapply nth_error_In; exact H.
Qed.
Lemma decode_char_none c : b58_decode_char c = None <-> forall d, ~ digit_char d c.
Proof.
  split.
  - intros H d Hd. apply decode_char_iff in Hd. congruence.
  - intros H. destruct (b58_decode_char c) as [d|] eqn:E; [|reflexivity].
    apply decode_char_iff in E. elim (H d E).
Qed.

(** ** Encoding *)
Lemma count_lead b : count_while (fun b => b2n b =? 0) b = lead_zeros (map b2n b).
Proof. induction b as [|x b IH]; cbn; [reflexivity|]. destruct (b2n x =? 0); [rewrite IH|]; reflexivity. Qed.

Lemma bytes_lt b : Forall (fun d => d < 256) (map b2n b).
Proof. apply Forall_forall. intros d H. apply in_map_iff in H as (x & <- & _). apply b2n_bound. Qed.

(** The encoder's output, when it fits, is the Base58 text; and it fits exactly
    when that text does. *)
Lemma encode_into_spec b cap :
  exists s, is_base58 b s /\ encode_into b cap = if (length s <=? cap)%nat then Some s else None.
Proof.
  unfold encode_into. rewrite encode_loop_run.
  destruct (run_nil_spec 58 256 cap (map b2n b) ltac:(lia) ltac:(lia)) as (ds & C & V & ->).
  rewrite count_lead. set (z := lead_zeros (map b2n b)).
  exists (rev (map (fun d => nth (N.to_nat d) b58_alphabet 0) (ds ++ repeat 0 z))).
  assert (D : digits_ok 58 (ds ++ repeat 0 z)).
  { apply Forall_app. split; [apply C|]. apply Forall_forall. intros x H. apply repeat_spec in H. lia. }
  split.
  - exists (rev (ds ++ repeat 0 z)). split; [|split].
    + rewrite <- map_rev. apply Forall_rev in D. revert D. generalize (rev (ds ++ repeat 0 z)).
      induction 1; cbn [map]; constructor; [apply digit_char_nth; assumption|assumption].
    + rewrite digits_val_rev, le_val_app. rewrite V.
      assert (E : le_val 58 (repeat 0 z) = 0).
      { clear. induction z as [|z IH]; [reflexivity|]. cbn [repeat le_val]. lia. }
      rewrite E. lia.
    + rewrite rev_zeros, lead_zeros_repeat, (lead_zeros_canon 58) by exact C. lia.
  - rewrite rev_length, map_length, app_length, repeat_length.
    destruct (length ds <=? cap)%nat eqn:E1.
    + rewrite push_zeros_spec by lia. destruct (length ds + z <=? cap)%nat; reflexivity.
    + destruct (length ds + z <=? cap)%nat eqn:E2; [lia|reflexivity].
Qed.

(** ** The relation determines both sides *)
Lemma Forall2_digit_lt ds s : Forall2 digit_char ds s -> Forall (fun d => d < 58) ds.
Proof. induction 1; constructor; [eapply digit_char_lt; eassumption|assumption]. Qed.

Lemma base58_fun b s s' : is_base58 b s -> is_base58 b s' -> s = s'.
Proof.
  intros (ds & F & V & Z) (ds' & F' & V' & Z').
  assert (ds = ds').
  { apply (digits_inj 58); [lia|eapply Forall2_digit_lt; eassumption..|congruence|congruence]. }
  subst ds'. clear -F F'. revert s' F'. induction F as [|d c ds s H F IH]; intros s' F'.
  - inversion F'. reflexivity.
  - inversion F'; subst. f_equal; [eapply digit_char_fun; eassumption|apply IH; assumption].
Qed.

Lemma base58_inj b b' s : is_base58 b s -> is_base58 b' s -> b = b'.
Proof.
  intros (ds & F & V & Z) (ds' & F' & V' & Z').
  assert (ds = ds').
  { clear -F F'. revert ds' F'. induction F as [|d c ds s H F IH]; intros ds' F'.
    - inversion F'. reflexivity.
    - inversion F'; subst. f_equal; [eapply digit_char_inj; eassumption|apply IH; assumption]. }
  subst ds'.
  assert (E : map b2n b = map b2n b').
  { apply (digits_inj 256); [lia|apply bytes_lt..|congruence|congruence]. }
  clear -E. revert b' E. induction b as [|x b IH]; intros [|y b'] E; try discriminate; [reflexivity|].
  cbn in E. injection E as E1 E2. f_equal; [apply b2n_inj; exact E1|apply IH; exact E2].
Qed.

Lemma base58_exists b : exists s, is_base58 b s.
Proof. destruct (encode_into_spec b 0) as (s & H & _). eauto. Qed.

(** ** Decoding *)
Lemma decode_loop_spec cap input : forall i ds,
  (exists vs, Forall2 digit_char vs (map b2n input) /\
     decode_loop cap i ds input =
       match run 256 58 cap ds vs with Some d => inr d | None => inl SBufferTooSmall end) \/
  ((exists k, nth_error (map b2n input) k <> None /\
      (forall d c, nth_error (map b2n input) k = Some c -> ~ digit_char d c)) /\
   exists e, decode_loop cap i ds input = inl e).
Proof.
  induction input as [|b input IH]; intros i ds; cbn [decode_loop map].
  - left. exists []. split; [constructor|reflexivity].
  - destruct (127 <? b2n b) eqn:E1.
    { right. split; [|eauto]. exists 0%nat. split; [discriminate|].
      intros d c [= <-] H. apply digit_char_ascii in H. lia. }
    destruct (b58_decode_char (b2n b)) as [v|] eqn:E2.
    + apply decode_char_iff in E2. destruct (digit_step 256 58 cap ds v) as [ds'|] eqn:E3.
      * destruct (IH (S i) ds') as [(vs & F & R)|((k & K1 & K2) & (e & R))].
        -- left. exists (v :: vs). split; [constructor; assumption|]. cbn [run]. rewrite E3. exact R.
        -- right. split; [|eauto]. exists (S k). auto.
      * (* buffer overrun: either the rest is valid or not *)
        assert (X : (exists vs, Forall2 digit_char vs (map b2n input)) \/
                    (exists k, nth_error (map b2n input) k <> None /\
                      (forall d c, nth_error (map b2n input) k = Some c -> ~ digit_char d c))).
        { clear. induction input as [|b input IH]; [left; exists []; constructor|].
          destruct (b58_decode_char (b2n b)) as [v|] eqn:E.
          - apply decode_char_iff in E. destruct IH as [(vs & F)|(k & K)].
            + left. exists (v :: vs). constructor; assumption.
            + right. exists (S k). exact K.
          - right. exists 0%nat. split; [discriminate|]. intros d c [= <-].
            rewrite decode_char_none in E. apply E. }
        destruct X as [(vs & F)|(k & K1 & K2)].
        -- left. exists (v :: vs). split; [constructor; assumption|]. cbn [run]. rewrite E3. reflexivity.
        -- right. split; [|eauto]. exists (S k). auto.
    + right. split; [|eauto]. exists 0%nat. split; [discriminate|]. intros d c [= <-].
      rewrite decode_char_none in E2. apply E2.
Qed.

Lemma lead_ones vs cs : Forall2 digit_char vs cs -> forall input, cs = map b2n input ->
  count_while (fun b => b2n b =? 49) input = lead_zeros vs.
Proof.
  induction 1 as [|d c vs cs H F IH]; intros input E; destruct input as [|b input]; try discriminate; [reflexivity|].
  cbn [map] in E. injection E as -> ->. cbn [count_while lead_zeros].
  assert (K : (b2n b =? 49) = (d =? 0)).
  { destruct (d =? 0) eqn:E0.
    - apply N.eqb_eq in E0. subst d. unfold digit_char in H. cbn in H. injection H as <-. reflexivity.
    - destruct (b2n b =? 49) eqn:E1; [|reflexivity]. apply N.eqb_eq in E1. rewrite E1 in H.
      assert (d = 0) by (eapply digit_char_inj; [exact H|reflexivity]). lia. }
  rewrite K. destruct (d =? 0); [f_equal; apply IH; reflexivity|reflexivity].
Qed.

Lemma map_b2n_n2b ds : Forall (fun d => d < 256) ds -> map b2n (map n2b ds) = ds.
Proof.
  induction 1 as [|d ds H _ IH]; [reflexivity|]. cbn [map].
  rewrite b2n_n2b, N.mod_small, IH by exact H. reflexivity.
Qed.

(** Decoding inverts the relation, exactly within the buffer. *)
Lemma decode_into_iff input cap b :
  decode_into input cap = inr b <-> is_base58 b (map b2n input) /\ (length b <= cap)%nat.
Proof.
  unfold decode_into.
  destruct (decode_loop_spec cap input 0 []) as [(vs & F & ->)|((k & K1 & K2) & (e & ->))].
  - destruct (run_nil_spec 256 58 cap vs ltac:(lia) ltac:(lia)) as (ds & C & V & ->).
    rewrite (lead_ones _ _ F input eq_refl). set (z := lead_zeros vs).
    set (out := rev (map n2b (ds ++ repeat 0 z))).
    assert (D : digits_ok 256 (ds ++ repeat 0 z)).
    { apply Forall_app. split; [apply C|]. apply Forall_forall. intros x H. apply repeat_spec in H. lia. }
    assert (O : map b2n out = rev (ds ++ repeat 0 z)).
    { unfold out. rewrite map_rev, map_b2n_n2b by exact D. reflexivity. }
    assert (IS : is_base58 out (map b2n input)).
    { exists vs. split; [exact F|]. rewrite O. split.
      - rewrite digits_val_rev, le_val_app.
        assert (E : le_val 256 (repeat 0 z) = 0).
        { clear. induction z as [|z IH]; [reflexivity|]. cbn [repeat le_val]. lia. }
        rewrite E, V. lia.
      - rewrite rev_zeros, lead_zeros_repeat, (lead_zeros_canon 256) by exact C. lia. }
    assert (LO : length out = (length ds + z)%nat).
    { unfold out. rewrite rev_length, map_length, app_length, repeat_length. reflexivity. }
    destruct (length ds <=? cap)%nat eqn:E1.
    + rewrite push_zeros_spec by lia. destruct (length ds + z <=? cap)%nat eqn:E2.
      * split.
        -- intros [= <-]. split; [exact IS|]. fold out. lia.
        -- intros [H _]. f_equal. fold out. eapply base58_inj; eassumption.
      * split; [discriminate|]. intros [H L]. assert (b = out) by (eapply base58_inj; eassumption). subst b. lia.
    + split; [discriminate|]. intros [H L]. assert (b = out) by (eapply base58_inj; eassumption). subst b. lia.
  - split; [discriminate|]. intros [(ds & F & _) _]. exfalso.
    destruct (nth_error (map b2n input) k) as [c|] eqn:Ec; [|congruence].
    clear -F Ec K2. revert k Ec K2. induction F as [|d c' ds s H F IH]; intros k Ec K2.
    + destruct k; discriminate.
    + destruct k as [|k]; cbn in Ec.
      * injection Ec as ->. eapply K2; [reflexivity|exact H].
      * eapply IH; [exact Ec|]. exact K2.
Qed.

(** ** With checksum *)
Lemma checksum_length d : length (checksum d) = 4%nat.
Proof. unfold checksum. rewrite firstn_length, sha256_length. reflexivity. Qed.

Lemma decode_check_iff input cap b :
  decode_check input cap = inr b <->
  is_base58check b (map b2n input) /\ (length b + 4 <= cap)%nat.
Proof.
  unfold decode_check, is_base58check.
  change (firstn 4 (sha256 (sha256 b))) with (checksum b).
  split.
  - destruct (decode_into input cap) as [e|out] eqn:Ed; [discriminate|].
    destruct (length out <? 4)%nat eqn:E4; [discriminate|].
    destruct (bytes_eqb _ _) eqn:Ec; [|discriminate]. intros [= <-].
    apply bytes_eqb_eq in Ec. rewrite Ec, firstn_skipn.
    apply decode_into_iff in Ed as [I L]. split; [exact I|]. rewrite firstn_length. lia.
  - intros [I L].
    assert (Ed : decode_into input cap = inr (b ++ checksum b)).
    { apply decode_into_iff. split; [exact I|]. rewrite app_length, checksum_length. lia. }
    rewrite Ed. rewrite app_length, checksum_length.
    destruct (length b + 4 <? 4)%nat eqn:E4; [lia|].
    replace (length b + 4 - 4)%nat with (length b) by lia.
    rewrite firstn_app, firstn_all, Nat.sub_diag, skipn_app, skipn_all, Nat.sub_diag.
    cbn [firstn skipn app]. rewrite app_nil_r.
    assert (Eb : bytes_eqb (checksum b) (checksum b) = true) by (apply bytes_eqb_eq; reflexivity).
    rewrite Eb. reflexivity.
Qed.

(** Base58 texts are not longer than 1.5 times the bytes, so the encoder's buffer
    always suffices. *)
Lemma lead_zeros_le ds : (lead_zeros ds <= length ds)%nat.
Proof. induction ds as [|d ds IH]; cbn; [lia|]. destruct (d =? 0); lia. Qed.

Lemma base58_length b s : is_base58 b s -> (2 * length s <= 3 * length b + 1)%nat.
Proof.
  intros (ds & F & V & Z). pose proof (Forall2_len _ _ _ F) as L. rewrite <- L.
  destruct (lead_zeros_split ds) as (t & Et & Ht).
  destruct (lead_zeros_split (map b2n b)) as (u & Eu & Hu). rewrite Z in Et.
  set (z := lead_zeros (map b2n b)) in *.
  assert (Lt : length ds = (z + length t)%nat).
  { rewrite Et, app_length, repeat_length. reflexivity. }
  assert (Lu : length b = (z + length u)%nat).
  { rewrite <- (map_length b2n b), Eu, app_length, repeat_length. reflexivity. }
  rewrite Et, Eu, !digits_val_zeros in V.
  assert (Ft : Forall (fun d => d < 58) t).
  { apply Forall2_digit_lt in F. rewrite Et in F. apply Forall_app in F. apply F. }
  assert (Fu : Forall (fun d => d < 256) u).
  { pose proof (bytes_lt b) as G. rewrite Eu in G. apply Forall_app in G. apply G. }
  pose proof (canon_rev 58 t Ft Ht) as Ct. pose proof (canon_rev 256 u Fu Hu) as Cu.
  destruct t as [|t0 t]; [cbn [length] in *; lia|].
  assert (NE : rev (t0 :: t) <> []).
  { intros E. apply (f_equal (@length N)) in E. rewrite rev_length in E. discriminate. }
  pose proof (canon_lower 58 (rev (t0 :: t)) ltac:(lia) Ct NE) as Lo.
  pose proof (le_val_bound 256 (rev u) ltac:(lia) (proj1 Cu)) as Up.
  rewrite <- !digits_val_rev, !rev_involutive, !rev_length in *.
  rewrite V in Lo.
  set (m := length (t0 :: t)) in *. set (k := length u) in *.
  assert (P : 58 ^ N.of_nat (m - 1) < 256 ^ N.of_nat k) by lia.
  (* 40^3 < 58^... : compare through squares *)
  assert (2 * (m - 1) < 3 * k)%nat; [|lia].
  destruct (Nat.lt_ge_cases (2 * (m - 1)) (3 * k)) as [C|C]; [exact C|exfalso].
  assert (Q : (58 ^ N.of_nat (m - 1)) ^ 2 < (256 ^ N.of_nat k) ^ 2).
  { apply N.pow_lt_mono_l; [lia|exact P]. }
  rewrite <- !N.pow_mul_r in Q.
  assert (R : 58 ^ (3 * N.of_nat k) <= 58 ^ (N.of_nat (m - 1) * 2)).
  { apply N.pow_le_mono_r; lia. }
  assert (S : 256 ^ (N.of_nat k * 2) <= 58 ^ (3 * N.of_nat k)).
  { rewrite (N.mul_comm (N.of_nat k) 2), !N.pow_mul_r. apply N.pow_le_mono_l. discriminate. }
  lia.
Qed.

Lemma encode_check_spec b : exists s, encode_check b = Some s /\ is_base58check b s.
Proof.
  unfold encode_check, is_base58check. change (firstn 4 (sha256 (sha256 b))) with (checksum b).
  destruct (encode_into_spec (b ++ checksum b) (max_encoded_len (length b + 4))) as (s & H & ->).
  exists s. split; [|exact H].
  pose proof (base58_length _ _ H) as L. rewrite app_length, checksum_length in L.
  unfold max_encoded_len.
  assert ((length b + 4 + 1) / 2 * 2 >= length b + 4)%nat.
  { pose proof (Nat.div_mod (length b + 4 + 1) 2 ltac:(lia)) as E.
    pose proof (Nat.mod_upper_bound (length b + 4 + 1) 2 ltac:(lia)). lia. }
  destruct (length s <=? _)%nat eqn:E; [reflexivity|]. lia.
Qed.

Lemma app_len_inj {A : Type} (a b c d : list A) : length a = length c -> a ++ b = c ++ d -> a = c /\ b = d.
Proof.
  revert c. induction a as [|x a IH]; intros [|y c] L E; cbn in *; try discriminate; [auto|].
  injection E as -> E. destruct (IH c ltac:(lia) E) as [-> ->]. auto.
Qed.

Lemma base58check_inj b b' s : is_base58check b s -> is_base58check b' s -> b = b'.
Proof.
  intros H H'. pose proof (base58_inj _ _ _ H H') as E.
  change (b ++ checksum b = b' ++ checksum b') in E.
  pose proof (f_equal (@length byte) E) as L. rewrite !app_length, !checksum_length in L.
  apply (app_len_inj b _ b' _) in E; [tauto|lia].
Qed.
