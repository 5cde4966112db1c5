(** Fermat's little theorem and Pocklington's primality criterion, with a checker
    that runs inside the kernel. *)
From Coq Require Import ZArith Znumtheory Zpow_facts List Lia Permutation.
Import ListNotations.
Open Scope bool_scope.
Open Scope Z_scope.

(** ** Fermat's little theorem *)
Definition prod (l : list Z) : Z := fold_right Z.mul 1 l.

Lemma prod_perm l l' : Permutation l l' -> prod l = prod l'.
Proof. induction 1; cbn [prod fold_right] in *; unfold prod in *; lia || congruence || idtac. Qed.
Lemma prod_rel_prime p l : (forall x, In x l -> rel_prime x p) -> rel_prime (prod l) p.
Proof.
  intros H. induction l as [|x l IH]; cbn [prod fold_right].
  - apply rel_prime_1.
  - apply rel_prime_sym, rel_prime_mult; apply rel_prime_sym; [apply H; left; reflexivity|].
    apply IH. intros y Hy. apply H. right. exact Hy.
Qed.
Lemma prod_scale p a l : p <> 0 ->
  prod (map (fun x => (a * x) mod p) l) mod p = (a ^ Z.of_nat (length l) * prod l) mod p.
Proof.
  intros Hp. induction l as [|x l IH]; [reflexivity|].
  cbn [map prod fold_right length]. rewrite Nat2Z.inj_succ, Z.pow_succ_r by lia.
  fold (prod l). fold (prod (map (fun x => (a * x) mod p) l)).
  rewrite Z.mul_mod, IH, Z.mod_mod by exact Hp. rewrite <- Z.mul_mod by exact Hp. f_equal. lia.
Qed.

Theorem fermat p a : prime p -> ~ (p | a) -> a ^ (p - 1) mod p = 1.
Proof.
  intros Hp Ha. assert (P1 : 1 < p) by (destruct Hp; assumption).
  set (l := map Z.of_nat (seq 1 (Z.to_nat (p - 1)))).
  assert (Hl : forall x, In x l <-> 1 <= x < p).
  { intros x. unfold l. rewrite in_map_iff. split.
    - intros (n & <- & Hn). apply in_seq in Hn. lia.
    - intros Hx. exists (Z.to_nat x). split; [lia|]. apply in_seq. lia. }
  assert (Nl : NoDup l).
  { apply FinFun.Injective_map_NoDup; [intros n m E; lia|apply seq_NoDup]. }
  set (f := fun x => (a * x) mod p).
  assert (Hf : forall x, In x l -> In (f x) l).
  { intros x Hx. apply Hl. apply Hl in Hx. unfold f.
    assert (0 <= (a * x) mod p < p) by (apply Z.mod_pos_bound; lia).
    assert ((a * x) mod p <> 0); [|lia]. intros E. apply Z.mod_divide in E; [|lia].
    destruct (prime_mult p Hp a x E) as [D|D]; [contradiction|].
    apply Z.divide_pos_le in D; lia. }
  assert (If : forall x y, In x l -> In y l -> f x = f y -> x = y).
  { intros x y Hx Hy E. apply Hl in Hx. apply Hl in Hy. unfold f in E.
    assert (D : (p | a * (x - y))).
    { apply Z.mod_divide; [lia|]. replace (a * (x - y)) with (a * x - a * y) by lia.
      rewrite Zminus_mod, E, Z.sub_diag. apply Z.mod_0_l. lia. }
    destruct (prime_mult p Hp _ _ D) as [D'|D']; [contradiction|].
    destruct D' as [k Ek]. assert (k = 0) by nia. lia. }
  assert (Nf : NoDup (map f l)).
  { clear -If Nl. induction Nl as [|x l N Nl IH]; [constructor|]. cbn [map]. constructor.
    - intros HI. apply in_map_iff in HI as (y & E & Hy). apply N.
      rewrite (If x y); [exact Hy|left; reflexivity|right; exact Hy|congruence].
    - apply IH. intros u v Hu Hv. apply If; right; assumption. }
  assert (Pf : Permutation (map f l) l).
  { apply NoDup_Permutation_bis; [exact Nf|rewrite map_length; lia|].
    intros y Hy. apply in_map_iff in Hy as (x & <- & Hx). apply Hf. exact Hx. }
  apply prod_perm in Pf. pose proof (prod_scale p a l ltac:(lia)) as S. fold f in S. rewrite Pf in S.
  replace (Z.of_nat (length l)) with (p - 1) in S by (unfold l; rewrite map_length, seq_length; lia).
  assert (R : rel_prime p (prod l)).
  { apply rel_prime_sym, prod_rel_prime. intros x Hx. apply Hl in Hx.
    apply rel_prime_le_prime; [exact Hp|lia]. }
  assert (D : (p | prod l * (a ^ (p - 1) - 1))).
  { apply Z.mod_divide; [lia|]. replace (prod l * (a ^ (p - 1) - 1)) with (a ^ (p - 1) * prod l - prod l) by lia.
    rewrite Zminus_mod, S, Z.sub_diag. apply Z.mod_0_l. lia. }
  apply Gauss in D; [|exact R]. destruct D as [k Ek].
  replace (a ^ (p - 1)) with (1 + k * p) by lia. rewrite Z.mod_add by lia. apply Z.mod_1_l. lia.
Qed.

(** ** Prime divisors *)
Lemma prime_divisor n : 1 < n -> exists q, prime q /\ (q | n).
Proof.
  intros H. assert (H0 : 0 <= n) by lia. revert H. pattern n. apply Z_lt_induction; [|exact H0].
  clear n H0. intros n IH H. destruct (prime_dec n) as [P|P].
  - exists n. split; [exact P|apply Z.divide_refl].
  - apply not_prime_divide in P as (d & Hd & D); [|exact H].
    destruct (IH d ltac:(lia) ltac:(lia)) as (q & Q & D'). exists q. split; [exact Q|].
    etransitivity; eassumption.
Qed.
Lemma prime_by_divisors n : 1 < n -> (forall q, prime q -> (q | n) -> n < q * q) -> prime n.
Proof.
  intros H A. destruct (prime_dec n) as [P|P]; [exact P|exfalso].
  apply not_prime_divide in P as (d & Hd & (e & E)); [|exact H].
  assert (Small : forall d, 1 < d -> (d | n) -> n < d * d).
  { intros d' Hd' D. destruct (prime_divisor d' Hd') as (q & Q & Dq).
    assert (q <= d') by (apply Z.divide_pos_le; [lia|exact Dq]).
    assert (1 < q) by (destruct Q; assumption).
    pose proof (A q Q (Z.divide_trans _ _ _ Dq D)). nia. }
  assert (1 < e) by nia.
  pose proof (Small d ltac:(lia) (ex_intro _ e E)).
  assert (E' : n = d * e) by lia.
  pose proof (Small e ltac:(lia) (ex_intro _ d E')). nia.
Qed.

(** ** Pocklington *)
Lemma pow_one_mul q a x k : 1 < q -> 0 <= x -> 0 <= k -> a ^ x mod q = 1 -> a ^ (x * k) mod q = 1.
Proof.
  intros Hq Hx Hk E. rewrite Z.pow_mul_r by assumption. rewrite Zpower_mod by lia.
  rewrite E, Z.pow_1_l by lia. apply Z.mod_1_l. lia.
Qed.
Lemma pow_one_gcd q a v : 1 < q -> 0 <= v -> forall u, 0 <= u ->
  a ^ u mod q = 1 -> a ^ v mod q = 1 -> a ^ Z.gcd u v mod q = 1.
Proof.
  intros Hq Hv. pattern v. apply Z_lt_induction; [|exact Hv]. clear v Hv.
  intros v IH u Hu Eu Ev. destruct (Z.eq_dec v 0) as [->|N].
  - rewrite Z.gcd_0_r, Z.abs_eq by exact Hu. exact Eu.
  - destruct (Z_lt_le_dec v 0) as [L|L].
    { rewrite Z.pow_neg_r, Z.mod_0_l in Ev by lia. discriminate. }
    rewrite Z.gcd_comm, <- Z.gcd_mod, Z.gcd_comm by exact N.
    pose proof (Z.mod_pos_bound u v ltac:(lia)) as B. apply IH; [lia|exact L|exact Ev|].
    rewrite (Z.div_mod u v N) in Eu. rewrite Z.pow_add_r in Eu; [|apply Z.mul_nonneg_nonneg; [lia|apply Z.div_pos; lia]|lia].
    rewrite Z.mul_mod, pow_one_mul in Eu; try lia; [|apply Z.div_pos; lia].
    rewrite Z.mul_1_l, Z.mod_mod in Eu by lia. exact Eu.
Qed.

(** One prime factor [r] of n - 1 divides q - 1 for each prime factor q of n. *)
Lemma pocklington_step n a r q : 1 < n -> prime r -> (r | n - 1) -> a ^ (n - 1) mod n = 1 ->
  rel_prime (a ^ ((n - 1) / r) - 1) n -> prime q -> (q | n) -> (r | q - 1).
Proof.
  intros Hn Hr Dr E R Hq Dq. assert (Q1 : 1 < q) by (destruct Hq; assumption).
  assert (R1 : 1 < r) by (destruct Hr; assumption).
  assert (Eq : a ^ (n - 1) mod q = 1).
  { destruct Dq as [k Ek]. rewrite (Z.div_mod (a ^ (n - 1)) n) by lia. rewrite E, Ek.
    replace (k * q * (a ^ (k * q - 1) / (k * q)) + 1) with (1 + (k * (a ^ (k * q - 1) / (k * q))) * q) by lia.
    rewrite Z.mod_add by lia. apply Z.mod_1_l. exact Q1. }
  assert (Na : ~ (q | a)).
  { intros D. assert (Z0 : a ^ (n - 1) mod q = 0).
    { apply Z.mod_divide; [lia|]. replace (n - 1) with (Z.succ (n - 2)) by lia.
      rewrite Z.pow_succ_r by lia. apply Z.divide_mul_l. exact D. }
    lia. }
  pose proof (fermat q a Hq Na) as Fq.
  pose proof (pow_one_gcd q a (q - 1) Q1 ltac:(lia) (n - 1) ltac:(lia) Eq Fq) as G.
  set (g := Z.gcd (n - 1) (q - 1)) in *.
  assert (Hg : 0 < g).
  { pose proof (Z.gcd_nonneg (n - 1) (q - 1)). fold g in H. assert (g <> 0); [|lia].
    intros Z0. apply Z.gcd_eq_0 in Z0. lia. }
  destruct (Z.gcd_divide_l (n - 1) (q - 1)) as [h Eh]. fold g in Eh.
  assert (Hh : 0 < h) by nia.
  destruct (prime_mult r Hr h g) as [D|D]; [rewrite <- Eh; exact Dr| |].
  - exfalso. destruct D as [k Ek]. assert (0 < k) by nia.
    assert (Ed : (n - 1) / r = g * k).
    { rewrite Eh, Ek. replace (k * r * g) with (g * k * r) by lia. apply Z.div_mul. lia. }
    rewrite Ed in R. pose proof (pow_one_mul q a g k Q1 ltac:(lia) ltac:(lia) G) as Z1.
    assert (Dv : (q | a ^ (g * k) - 1)).
    { apply Z.mod_divide; [lia|]. rewrite Zminus_mod, Z1, Z.mod_1_l, Z.sub_diag by exact Q1. apply Z.mod_0_l. lia. }
    destruct R as [_ _ R]. specialize (R q Dv Dq). apply Z.divide_1_r_nonneg in R; lia.
  - etransitivity; [exact D|]. apply Z.gcd_divide_r.
Qed.
Lemma primes_product_divides rs x : (forall r, In r rs -> prime r) -> NoDup rs ->
  (forall r, In r rs -> (r | x)) -> (prod rs | x).
Proof.
  induction rs as [|r rs IH]; intros P N D; cbn [prod fold_right]; [apply Z.divide_1_l|].
  inversion N; subst. fold (prod rs).
  destruct (IH) as [k Ek].
  - intros s Hs. apply P. right. exact Hs.
  - assumption.
  - intros s Hs. apply D. right. exact Hs.
  - assert (Dr : (r | k)).
    { apply (Gauss r (prod rs)).
      - rewrite Z.mul_comm, <- Ek. apply D. left. reflexivity.
      - apply rel_prime_sym, prod_rel_prime. intros s Hs.
        assert (Pr : prime r) by (apply P; left; reflexivity).
        assert (Ps : prime s) by (apply P; right; exact Hs).
        apply prime_rel_prime; [exact Ps|]. intros Ds. apply prime_div_prime in Ds; [|assumption..]. congruence. }
    destruct Dr as [j Ej]. exists j. rewrite Ek, Ej. lia.
Qed.
Theorem pocklington n a rs : 1 < n -> (forall r, In r rs -> prime r) -> NoDup rs ->
  (forall r, In r rs -> (r | n - 1) /\ rel_prime (a ^ ((n - 1) / r) - 1) n) ->
  a ^ (n - 1) mod n = 1 -> n <= prod rs * prod rs -> prime n.
Proof.
  intros Hn P N D E L. apply prime_by_divisors; [exact Hn|]. intros q Hq Dq.
  assert (Q1 : 1 < q) by (destruct Hq; assumption).
  assert (Dp : (prod rs | q - 1)).
  { apply primes_product_divides; [exact P|exact N|]. intros r Hr. destruct (D r Hr) as [Dr Rr].
    apply (pocklington_step n a r q); auto. }
  assert (0 < prod rs).
  { clear -P. induction rs as [|r rs IH]; cbn [prod fold_right]; [lia|]. fold (prod rs).
    assert (1 < r) by (destruct (P r (or_introl eq_refl)); assumption).
    assert (0 < prod rs) by (apply IH; intros s Hs; apply P; right; exact Hs). nia. }
  apply Z.divide_pos_le in Dp; [|lia]. nia.
Qed.

(** ** The checker *)
(** Powers by repeated squaring with some multiplication [mul]. *)
Fixpoint pow_pos_with (mul : Z -> Z -> Z) (a : Z) (e : positive) : Z :=
  match e with
  | xH => a
  | xO e => let t := pow_pos_with mul a e in mul t t
  | xI e => let t := pow_pos_with mul a e in mul a (mul t t)
  end.
Definition pow_with (mul : Z -> Z -> Z) (a e : Z) : Z :=
  match e with Zpos e => pow_pos_with mul a e | _ => 1 end.
(** [mul] multiplies modulo n, not necessarily with a reduced result. *)
Definition mul_ok (n : Z) (mul : Z -> Z -> Z) : Prop := forall x y, mul x y mod n = (x * y) mod n.
Lemma pow_pos_with_ok n mul : n <> 0 -> mul_ok n mul -> forall e a,
  pow_pos_with mul a e mod n = a ^ Zpos e mod n.
Proof.
  intros Hn M. induction e as [e IH|e IH|]; intros a; cbn [pow_pos_with].
  - rewrite M, <- Z.mul_mod_idemp_r, M by exact Hn.
    rewrite (Z.mul_mod (pow_pos_with mul a e)), IH by exact Hn.
    rewrite <- Z.mul_mod, Z.mul_mod_idemp_r by exact Hn. f_equal.
    rewrite Pos2Z.inj_xI. rewrite Z.pow_add_r, Z.pow_1_r, Z.mul_comm by lia. f_equal.
    replace (2 * Z.pos e) with (Z.pos e + Z.pos e) by lia. rewrite Z.pow_add_r by lia. reflexivity.
  - rewrite M, Z.mul_mod, IH, <- Z.mul_mod by exact Hn. f_equal.
    rewrite Pos2Z.inj_xO. replace (2 * Z.pos e) with (Z.pos e + Z.pos e) by lia.
    rewrite Z.pow_add_r by lia. reflexivity.
  - rewrite Z.pow_1_r. reflexivity.
Qed.
Lemma pow_with_ok n mul a e : n <> 0 -> mul_ok n mul -> 0 <= e -> pow_with mul a e mod n = a ^ e mod n.
Proof.
  intros Hn M He. destruct e as [|e|e]; cbn [pow_with]; [reflexivity| |lia].
  apply pow_pos_with_ok; assumption.
Qed.
(** Multiplication with a Barrett reduction: any [mu], [s], [t] are correct. *)
Definition barrett (n mu s t : Z) (x y : Z) : Z :=
  let z := x * y in z - Z.shiftr (Z.shiftr z s * mu) t * n.
Lemma barrett_ok n mu s t : n <> 0 -> mul_ok n (barrett n mu s t).
Proof.
  intros Hn x y. unfold barrett. cbv zeta.
  rewrite <- (Z.mod_add (x * y - _ * n) (Z.shiftr (Z.shiftr (x * y) s * mu) t)) by exact Hn. f_equal. lia.
Qed.

(** Reduction for a modulus 2^k - c: the high part is multiplied by c and added to the
    low part.  [mulc h] is c h. *)
Fixpoint split_pos (k : nat) (a : positive) : Z * Z :=
  match k with
  | O => (0, Zpos a)
  | S k =>
      match a with
      | xH => (1, 0)
      | xO a => let (l, h) := split_pos k a in (Z.double l, h)
      | xI a => let (l, h) := split_pos k a in (Z.succ_double l, h)
      end
  end.
Definition fold_once (k : nat) (mulc : Z -> Z) (x : Z) : Z :=
  match x with
  | Zpos a => let (l, h) := split_pos k a in l + mulc h
  | _ => x
  end.
Fixpoint fold_times (m k : nat) (mulc : Z -> Z) (x : Z) : Z :=
  match m with O => x | S m => fold_times m k mulc (fold_once k mulc x) end.
Definition fold_mul (m k : nat) (mulc : Z -> Z) (x y : Z) : Z := fold_times m k mulc (x * y).

Lemma split_pos_ok k : forall a l h, split_pos k a = (l, h) -> Zpos a = l + h * 2 ^ Z.of_nat k.
Proof.
  induction k as [|k IH]; intros a l h E.
  - cbn [split_pos] in E. injection E as <- <-. change (2 ^ Z.of_nat 0) with 1. lia.
  - rewrite Nat2Z.inj_succ, Z.pow_succ_r by lia. cbn [split_pos] in E. destruct a as [a|a|].
    + destruct (split_pos k a) as [l' h'] eqn:E'. apply IH in E'. injection E as <- <-.
      rewrite Z.succ_double_spec. lia.
    + destruct (split_pos k a) as [l' h'] eqn:E'. apply IH in E'. injection E as <- <-.
      rewrite Z.double_spec. lia.
    + injection E as <- <-. lia.
Qed.
Lemma fold_mul_ok n c m k mulc : 0 < n -> n = 2 ^ Z.of_nat k - c -> (forall h, mulc h = c * h) ->
  mul_ok n (fold_mul m k mulc).
Proof.
  intros Hn E Hc x y. unfold fold_mul. generalize (x * y). clear x y.
  induction m as [|m IH]; intros x; cbn [fold_times]; [reflexivity|].
  rewrite IH. destruct x as [|a|a]; cbn [fold_once]; [reflexivity| |reflexivity].
  destruct (split_pos k a) as [l h] eqn:Es. apply split_pos_ok in Es. rewrite Es, Hc.
  replace (2 ^ Z.of_nat k) with (c + n) by lia.
  rewrite <- (Z.mod_add (l + c * h) h) by lia. f_equal. lia.
Qed.

(** c = a^((n-1)/F) for F the product of the prime factors, then c^(F/r) = a^((n-1)/r)
    for each factor and c^F = a^(n-1). *)
Definition check (mul : Z -> Z -> Z) (n a : Z) (rs : list Z) : bool :=
  let f := prod rs in
  let c := pow_with mul a ((n - 1) / f) in
  (1 <? n) && (0 <? f) && ((n - 1) mod f =? 0) && (n <=? f * f)
  && forallb (fun r => (1 <? r) && (f mod r =? 0) && (Z.gcd (pow_with mul c (f / r) - 1) n =? 1)) rs
  && (pow_with mul c f mod n =? 1).
Fixpoint distinct (l : list Z) : bool :=
  match l with [] => true | x :: l => negb (existsb (Z.eqb x) l) && distinct l end.
Lemma distinct_ok l : distinct l = true -> NoDup l.
Proof.
  induction l as [|x l IH]; cbn [distinct]; intros H; constructor; apply andb_prop in H as [H1 H2].
  - intros Hx. apply Bool.negb_true_iff in H1. rewrite (proj2 (existsb_exists _ _)) in H1; [discriminate|].
    exists x. rewrite Z.eqb_refl. auto.
  - apply IH. exact H2.
Qed.

Lemma rel_prime_mod n x y : n <> 0 -> x mod n = y mod n -> Z.gcd (x - 1) n = 1 -> rel_prime (y - 1) n.
Proof.
  intros Hn E G. apply Zgcd_1_rel_prime. rewrite Z.gcd_comm, <- Z.gcd_mod in G |- * by exact Hn.
  rewrite Zminus_mod, <- E, <- Zminus_mod. exact G.
Qed.
Theorem check_prime mul n a rs : mul_ok n mul -> Forall prime rs -> distinct rs = true ->
  check mul n a rs = true -> prime n.
Proof.
  intros M P N C. unfold check in C. cbv zeta in C. set (f := prod rs) in *.
  apply andb_prop in C as [C Ce]. apply andb_prop in C as [C Cr]. apply andb_prop in C as [C Cl].
  apply andb_prop in C as [C Cd]. apply andb_prop in C as [Cn Cf].
  apply Z.ltb_lt in Cn, Cf. apply Z.eqb_eq in Cd, Ce. apply Z.leb_le in Cl.
  assert (Hn : n <> 0) by lia.
  destruct (proj1 (Z.mod_divide (n - 1) f ltac:(lia)) Cd) as [k Ek]. assert (Hk : 0 <= k) by nia.
  assert (Ed : (n - 1) / f = k) by (rewrite Ek; apply Z.div_mul; lia). rewrite Ed in *.
  assert (B : forall r, 0 <= r -> pow_with mul (pow_with mul a k) r mod n = a ^ (k * r) mod n).
  { intros r R. rewrite pow_with_ok, Zpower_mod, pow_with_ok, <- Zpower_mod, <- Z.pow_mul_r by (assumption || lia).
    reflexivity. }
  rewrite B in Ce by lia. rewrite <- Ek in Ce.
  apply (pocklington n a rs); [exact Cn|apply Forall_forall; exact P|apply distinct_ok; exact N| |exact Ce|exact Cl].
  intros r Hr. apply (proj1 (forallb_forall _ _) Cr) in Hr. cbv beta in Hr.
  apply andb_prop in Hr as [Hr Hg]. apply andb_prop in Hr as [H1 Hm].
  apply Z.ltb_lt in H1. apply Z.eqb_eq in Hm, Hg.
  destruct (proj1 (Z.mod_divide f r ltac:(lia)) Hm) as [j Ej].
  assert (Ef : f / r = j) by (rewrite Ej; apply Z.div_mul; lia). rewrite Ef in Hg.
  assert (Hj : 0 <= j) by nia. split.
  - rewrite Ek, Ej. exists (k * j). lia.
  - assert (En : (n - 1) / r = k * j).
    { rewrite Ek, Ej. replace (k * (j * r)) with (k * j * r) by lia. apply Z.div_mul. lia. }
    rewrite En. eapply rel_prime_mod; [exact Hn|apply B; exact Hj|exact Hg].
Qed.

(** Trial division for the small primes at the bottom. *)
Fixpoint no_divisor (n : Z) (fuel : nat) (d : Z) : bool :=
  match fuel with
  | O => false
  | S fuel => if n <? d * d then true else negb (n mod d =? 0) && no_divisor n fuel (d + 1)
  end.
Lemma no_divisor_ok n fuel : forall d, 0 < d -> no_divisor n fuel d = true ->
  forall q, d <= q -> (q | n) -> 0 < n -> n < q * q.
Proof.
  induction fuel as [|fuel IH]; intros d Hd C q Hq D Hn; cbn [no_divisor] in C; [discriminate|].
  destruct (Z.ltb_spec n (d * d)); [nia|]. apply andb_prop in C as [C1 C2].
  apply Bool.negb_true_iff, Z.eqb_neq in C1. destruct (Z.eq_dec q d) as [->|N].
  - elim C1. apply Z.mod_divide; [lia|exact D].
  - apply (IH (d + 1)); try assumption; lia.
Qed.
Theorem trial_prime n fuel : 1 < n -> no_divisor n fuel 2 = true -> prime n.
Proof.
  intros Hn C. apply prime_by_divisors; [exact Hn|]. intros q Hq D.
  assert (1 < q) by (destruct Hq; assumption). apply (no_divisor_ok n fuel 2); try assumption; lia.
Qed.
