(** C113: the RIPEMD-160 that the fingerprints use (bip0032/src/xkey/core/mod.rs
    42) is the function of Dobbertin, Bosselaers and Preneel's paper.  The model
    in Ripemd.v is written with tables, row by row; here the function is stated
    as the paper defines it: eighty numbered steps, the message words selected by
    the permutations rho and pi, the shifts by message word, the constants by
    the integer parts of square and cube roots, arithmetic modulo 2^32. *)
From Verif Require Import Base Ripemd.
From Coq Require Import Lia.

(** The permutation rho as the paper tabulates it, and pi(i) = 9i+5 mod 16. *)
Definition rho (i : nat) : nat :=
  nth i [7; 4; 13; 1; 10; 6; 15; 3; 12; 0; 9; 5; 2; 14; 11; 8]%nat 0%nat.
Definition pi (i : nat) : nat := ((9 * i + 5) mod 16)%nat.
Fixpoint times (n : nat) (f : nat -> nat) (i : nat) : nat :=
  match n with 0%nat => i | S k => f (times k f i) end.

(** Step j works in round j / 16 on the word selected by that power of rho. *)
Definition left_word (j : nat) : nat := times (j / 16) rho (j mod 16).
Definition right_word (j : nat) : nat := times (j / 16) rho (pi (j mod 16)).

(** The paper's table of shifts, by round and message word. *)
Definition shift_by (round word : nat) : N :=
  nth word (nth round
    [[11; 14; 15; 12; 5; 8; 7; 9; 11; 13; 14; 15; 6; 7; 9; 8];
     [12; 13; 11; 15; 6; 9; 9; 7; 12; 15; 11; 13; 7; 8; 7; 7];
     [13; 15; 14; 11; 7; 7; 6; 8; 13; 14; 13; 12; 5; 5; 6; 9];
     [14; 11; 12; 14; 8; 6; 5; 5; 15; 12; 15; 14; 9; 9; 8; 6];
     [15; 12; 13; 13; 9; 5; 8; 6; 14; 11; 12; 11; 8; 6; 5; 5]] []) 0.

(** The constants: 2^30 times the square (left) or cube (right) roots of the
    first four primes, rounded down; none in the first left and last right
    round. *)
Definition left_constant (round : nat) (k : N) : Prop :=
  match round with
  | 0%nat => k = 0
  | S i => let p := nth i [2; 3; 5; 7] 0 in
           k ^ 2 <= p * 2 ^ 60 /\ p * 2 ^ 60 < (k + 1) ^ 2
  end.
Definition right_constant (round : nat) (k : N) : Prop :=
  match round with
  | 4%nat => k = 0
  | i => let p := nth i [2; 3; 5; 7] 0 in
         k ^ 3 <= p * 2 ^ 90 /\ p * 2 ^ 90 < (k + 1) ^ 3
  end.

Definition plus32 (a b : N) : N := (a + b) mod 2 ^ 32.
Definition rotl (s x : N) : N := N.lor ((x * 2 ^ s) mod 2 ^ 32) (x / 2 ^ (32 - s)).
Definition compl (x : N) : N := N.lxor x (2 ^ 32 - 1).

Definition boolean (round : nat) (x y z : N) : N :=
  match round with
  | 0%nat => N.lxor (N.lxor x y) z
  | 1%nat => N.lor (N.land x y) (N.land (compl x) z)
  | 2%nat => N.lxor (N.lor x (compl y)) z
  | 3%nat => N.lor (N.land x z) (N.land y (compl z))
  | _ => N.lxor x (N.lor y (compl z))
  end.

(** One step: T := rol_s(A + f(B,C,D) + X + K) + E; A := E; E := D;
    D := rol_10(C); C := B; B := T. *)
Definition one_step (fn : nat) (k s x : N) (st : st5) : st5 :=
  let '(a, b, c, d, e) := st in
  (e, plus32 (rotl s (plus32 (plus32 (plus32 a (boolean fn b c d)) x) k)) e, b, rotl 10 c, d).

Section Paper.
  Variables kl kr : nat -> N.

  Definition left_step (X : nat -> N) (st : st5) (j : nat) : st5 :=
    one_step (j / 16) (kl (j / 16)) (shift_by (j / 16) (left_word j)) (X (left_word j)) st.
  Definition right_step (X : nat -> N) (st : st5) (j : nat) : st5 :=
    one_step (4 - j / 16) (kr (j / 16)) (shift_by (j / 16) (right_word j)) (X (right_word j)) st.

  Definition paper_block (h : st5) (X : nat -> N) : st5 :=
    let '(a, b, c, d, e) := fold_left (left_step X) (seq 0 80) h in
    let '(a', b', c', d', e') := fold_left (right_step X) (seq 0 80) h in
    let '(h0, h1, h2, h3, h4) := h in
    (plus32 (plus32 h1 c) d', plus32 (plus32 h2 d) e', plus32 (plus32 h3 e) a',
     plus32 (plus32 h4 a) b', plus32 (plus32 h0 b) c').

  (** The padded message: a one bit, the least number of zero bytes that leaves
      eight to a multiple of 64, the bit length with the low byte first. *)
  Definition padded (m p : list byte) : Prop :=
    exists z, (z < 64)%nat /\ ((length m + 1 + z + 8) mod 64 = 0)%nat /\
      p = m ++ [n2b 128] ++ repeat (n2b 0) z ++
          map (fun i => n2b ((8 * N.of_nat (length m) / 256 ^ N.of_nat i) mod 256)) (seq 0 8).

  (** Word i of block b, low byte first. *)
  Definition word_at (p : list byte) (b i : nat) : N :=
    let byte_at k := b2n (nth (64 * b + 4 * i + k) p (n2b 0)) in
    byte_at 0%nat + 256 * (byte_at 1%nat + 256 * (byte_at 2%nat + 256 * byte_at 3%nat)).

  Definition low_first (w : N) : list byte :=
    map (fun i => n2b ((w / 256 ^ N.of_nat i) mod 256)) (seq 0 4).

  Definition paper_hash (p : list byte) : list byte :=
    let '(a, b, c, d, e) :=
      fold_left (fun h b => paper_block h (word_at p b)) (seq 0 (length p / 64))
        (0x67452301, 0xEFCDAB89, 0x98BADCFE, 0x10325476, 0xC3D2E1F0) in
    low_first a ++ low_first b ++ low_first c ++ low_first d ++ low_first e.
End Paper.

(** ** Arithmetic *)
Lemma add32_plus a b : add32 a b = plus32 a b.
Proof. unfold add32, plus32. change m32 with (N.ones 32). apply N.land_ones. Qed.

Lemma rol32_rotl s x : rol32 s x = rotl s x.
Proof.
  unfold rol32, rotl. change m32 with (N.ones 32).
  rewrite N.land_ones, N.shiftl_mul_pow2, N.shiftr_div_pow2. reflexivity.
Qed.

Lemma rf_boolean f x y z : rf f x y z = boolean f x y z.
Proof.
  destruct f as [|[|[|[|f]]]]; cbn [rf boolean]; try reflexivity.
  symmetry. apply N.lxor_assoc.
Qed.

Lemma plus32_assoc a b c : plus32 a (plus32 b c) = plus32 (plus32 a b) c.
Proof.
  unfold plus32. rewrite N.add_mod_idemp_r, N.add_mod_idemp_l by discriminate.
  f_equal. apply N.add_assoc.
Qed.

Lemma rstep_one f k x st r s :
  rstep f k x st (r, s) = one_step f k s (nth r x 0) st.
Proof.
  destruct st as [[[[a b] c] d] e]. unfold rstep, one_step. cbn [fst snd].
  rewrite !add32_plus, !rol32_rotl, rf_boolean, plus32_assoc. reflexivity.
Qed.

Lemma root_unique e k k' v : 0 < e ->
  k ^ e <= v -> v < (k + 1) ^ e -> k' ^ e <= v -> v < (k' + 1) ^ e -> k = k'.
Proof.
  intros E A B A' B'.
  assert (k < k' + 1).
  { destruct (N.lt_ge_cases k (k' + 1)) as [L|L]; [exact L|].
    pose proof (N.pow_le_mono_l (k' + 1) k e L). lia. }
  assert (k' < k + 1).
  { destruct (N.lt_ge_cases k' (k + 1)) as [L|L]; [exact L|].
    pose proof (N.pow_le_mono_l (k + 1) k' e L). lia. }
  lia.
Qed.

Lemma left_constants : forall r, (r < 5)%nat -> left_constant r (nth r KL 0).
Proof.
  intros r R. do 5 (destruct r as [|r]; [vm_compute; try split; try reflexivity; discriminate|]). lia.
Qed.
Lemma right_constants : forall r, (r < 5)%nat -> right_constant r (nth r KR 0).
Proof.
  intros r R. do 5 (destruct r as [|r]; [vm_compute; try split; try reflexivity; discriminate|]). lia.
Qed.

Lemma left_constant_unique r k k' : left_constant r k -> left_constant r k' -> k = k'.
Proof.
  destruct r as [|r]; unfold left_constant; [congruence|].
  intros [A B] [A' B']. eapply (root_unique 2); [reflexivity|eassumption..].
Qed.
Lemma right_constant_unique r k k' : right_constant r k -> right_constant r k' -> k = k'.
Proof.
  destruct r as [|[|[|[|[|r]]]]]; unfold right_constant; try congruence;
    intros [A B] [A' B']; (eapply (root_unique 3); [reflexivity|eassumption..]).
Qed.

(** ** The steps in order *)
Definition gstep (X : nat -> N) (st : st5) (p : nat * N * N * nat) : st5 :=
  let '(f, k, s, r) := p in one_step f k s (X r) st.

Definition flat (fs : list nat) (ks : list N) (rs : list (list nat)) (ss : list (list N)) :
    list (nat * N * N * nat) :=
  flat_map (fun p => let '(f, k, r, sh) := p in
      map (fun ri => (f, k, snd ri, fst ri)) (combine r sh))
    (combine (combine (combine fs ks) rs) ss).

Lemma rline_flat fs ks rs ss x st :
  rline fs ks rs ss x st = fold_left (gstep (fun i => nth i x 0)) (flat fs ks rs ss) st.
Proof.
  unfold rline, flat.
  generalize (combine (combine (combine fs ks) rs) ss) as l. intros l. revert st.
  induction l as [|[[[f k] r] sh] l IH]; intros st; cbn [fold_left flat_map]; [reflexivity|].
  rewrite fold_left_app, IH. f_equal.
  generalize (combine r sh) as c. intros c. revert st.
  induction c as [|[i s] c IHc]; intros st; cbn [fold_left map fst snd gstep]; [reflexivity|].
  rewrite rstep_one. apply IHc.
Qed.

Lemma fold_in {A B : Type} (f g : A -> B -> A) l st :
  (forall s b, In b l -> f s b = g s b) -> fold_left f l st = fold_left g l st.
Proof.
  revert st; induction l as [|b l IH]; intros st H; cbn [fold_left]; [reflexivity|].
  rewrite (H st b) by (left; reflexivity). apply IH. intros s c C. apply H. right. exact C.
Qed.

Lemma fold_map {A B C : Type} (f : A -> C -> A) (h : B -> C) l st :
  fold_left f (map h l) st = fold_left (fun s b => f s (h b)) l st.
Proof. revert st; induction l as [|b l IH]; intros st; cbn; [reflexivity|apply IH]. Qed.

Definition lparams (j : nat) : nat * N * N * nat :=
  ((j / 16)%nat, nth (j / 16) KL 0, shift_by (j / 16) (left_word j), left_word j).
Definition rparams (j : nat) : nat * N * N * nat :=
  ((4 - j / 16)%nat, nth (j / 16) KR 0, shift_by (j / 16) (right_word j), right_word j).

Lemma lparams_flat : map lparams (seq 0 80) = flat [0;1;2;3;4]%nat KL RL SL.
Proof. vm_compute. reflexivity. Qed.
Lemma rparams_flat : map rparams (seq 0 80) = flat [4;3;2;1;0]%nat KR RR SR.
Proof. vm_compute. reflexivity. Qed.

Lemma words_small j : (j < 80)%nat -> (left_word j < 16)%nat /\ (right_word j < 16)%nat.
Proof.
  intros J.
  assert (F : forallb (fun j => Nat.ltb (left_word j) 16 && Nat.ltb (right_word j) 16)
    (seq 0 80) = true) by (vm_compute; reflexivity).
  rewrite forallb_forall in F. specialize (F j ltac:(apply in_seq; lia)).
  apply andb_prop in F. rewrite !Nat.ltb_lt in F. exact F.
Qed.

Lemma block_eq kl kr h x X :
  (forall r, (r < 5)%nat -> left_constant r (kl r)) ->
  (forall r, (r < 5)%nat -> right_constant r (kr r)) ->
  (forall i, (i < 16)%nat -> nth i x 0 = X i) ->
  rcompress h x = paper_block kl kr h X.
Proof.
  intros CL CR HX. unfold rcompress, paper_block.
  assert (L : rline [0;1;2;3;4]%nat KL RL SL x h = fold_left (left_step kl X) (seq 0 80) h).
  { rewrite rline_flat, <- lparams_flat, fold_map. apply fold_in. intros s j J.
    apply in_seq in J. unfold lparams, gstep, left_step.
    rewrite HX by (apply words_small; lia).
    assert (R : (j / 16 < 5)%nat) by (apply Nat.div_lt_upper_bound; lia).
    rewrite (left_constant_unique _ _ _ (left_constants _ R) (CL _ R)). reflexivity. }
  assert (R : rline [4;3;2;1;0]%nat KR RR SR x h = fold_left (right_step kr X) (seq 0 80) h).
  { rewrite rline_flat, <- rparams_flat, fold_map. apply fold_in. intros s j J.
    apply in_seq in J. unfold rparams, gstep, right_step.
    rewrite HX by (apply words_small; lia).
    assert (R : (j / 16 < 5)%nat) by (apply Nat.div_lt_upper_bound; lia).
    rewrite (right_constant_unique _ _ _ (right_constants _ R) (CR _ R)). reflexivity. }
  rewrite L, R.
  destruct (fold_left (left_step kl X) (seq 0 80) h) as [[[[a b] c] d] e].
  destruct (fold_left (right_step kr X) (seq 0 80) h) as [[[[a' b'] c'] d'] e'].
  destruct h as [[[[h0 h1] h2] h3] h4].
  rewrite !add32_plus, !plus32_assoc. reflexivity.
Qed.

(** ** Blocks and words *)
Lemma skip_skip {A : Type} a b (l : list A) : skipn a (skipn b l) = skipn (b + a) l.
Proof.
  revert l; induction b as [|b IH]; intros l; [reflexivity|].
  destruct l as [|x l]; [rewrite !skipn_nil; reflexivity|]. cbn [skipn Nat.add]. apply IH.
Qed.

Lemma rchunks_seq {A : Type} k n : (0 < k)%nat -> forall fuel (l : list A),
  (n <= fuel)%nat -> length l = (k * n)%nat ->
  rchunks fuel k l = map (fun i => firstn k (skipn (k * i) l)) (seq 0 n).
Proof.
  intros K. induction n as [|n IH]; intros fuel l F L.
  - destruct l; [|cbn in L; lia]. destruct fuel; reflexivity.
  - destruct fuel as [|fuel]; [lia|].
    destruct l as [|x l]; [cbn in L; lia|].
    cbn [rchunks seq map]. f_equal; [rewrite Nat.mul_0_r; reflexivity|].
    rewrite (IH fuel) by (rewrite ?skipn_length; lia).
    rewrite <- seq_shift, map_map. apply map_ext. intros i. rewrite skip_skip.
    f_equal. f_equal. lia.
Qed.

Lemma four_at {A : Type} (d : A) o : forall l, (o + 4 <= length l)%nat ->
  firstn 4 (skipn o l) = [nth o l d; nth (o + 1) l d; nth (o + 2) l d; nth (o + 3) l d].
Proof.
  induction o as [|o IH]; intros l L.
  - destruct l as [|a [|b [|c [|e l]]]]; cbn [length] in L; try lia. reflexivity.
  - destruct l as [|a l]; cbn [length] in L; [lia|]. cbn [skipn Nat.add nth].
    apply IH. lia.
Qed.

Lemma word_eq p n b i : length p = (64 * n)%nat -> (b < n)%nat -> (i < 16)%nat ->
  nth i (map le_word (rchunks 16 4 (firstn 64 (skipn (64 * b) p)))) 0 = word_at p b i.
Proof.
  intros L B I.
  rewrite (rchunks_seq 4 16) by (rewrite ?firstn_length, ?skipn_length; lia).
  rewrite map_map.
  set (g := fun j => le_word (firstn 4 (skipn (4 * j) (firstn 64 (skipn (64 * b) p))))).
  rewrite (nth_indep _ 0 (g 0%nat)) by (rewrite map_length, seq_length; exact I).
  rewrite map_nth, seq_nth by exact I. cbn [Nat.add]. unfold g.
  rewrite skipn_firstn_comm, firstn_firstn, skip_skip.
  replace (Nat.min 4 (64 - 4 * i)) with 4%nat by lia.
  rewrite (four_at (n2b 0)) by lia.
  unfold le_word, word_at. rewrite Nat.add_0_r.
  cbn [rev app]. unfold be_val. cbn [fold_left]. lia.
Qed.

Lemma low_bytes n : forall w,
  rev (be_bytes n w) = map (fun i => n2b ((w / 256 ^ N.of_nat i) mod 256)) (seq 0 n).
Proof.
  induction n as [|n IH]; intros w; [reflexivity|].
  cbn [be_bytes seq map]. rewrite rev_app_distr. cbn [rev app]. f_equal.
  - cbn [N.of_nat]. rewrite N.pow_0_r, N.div_1_r. apply b2n_inj. rewrite !b2n_n2b.
    rewrite N.mod_mod by discriminate. reflexivity.
  - rewrite IH, <- seq_shift, map_map. apply map_ext. intros i.
    rewrite Nat2N.inj_succ, N.pow_succ_r', N.div_div; [reflexivity|discriminate|].
    apply N.pow_nonzero. discriminate.
Qed.

Lemma rpad_padded m : padded m (rpad m).
Proof.
  unfold padded, rpad. exists ((119 - length m mod 64) mod 64)%nat.
  pose proof (Nat.mod_upper_bound (length m) 64 ltac:(discriminate)) as M.
  split; [apply Nat.mod_upper_bound; discriminate|]. split.
  - rewrite (Nat.div_mod_eq (length m) 64) at 1.
    replace (64 * (length m / 64) + length m mod 64 + 1 + (119 - length m mod 64) mod 64 + 8)%nat
      with (length m mod 64 + 1 + (119 - length m mod 64) mod 64 + 8 + (length m / 64) * 64)%nat by lia.
    rewrite Nat.mod_add by discriminate.
    revert M. generalize (length m mod 64)%nat as r. intros r M.
    destruct (Nat.le_gt_cases r 55) as [C|C].
    + replace (119 - r)%nat with (55 - r + 1 * 64)%nat by lia.
      rewrite Nat.mod_add, (Nat.mod_small (55 - r)) by lia.
      replace (r + 1 + (55 - r) + 8)%nat with 64%nat by lia. reflexivity.
    + rewrite (Nat.mod_small (119 - r)) by lia.
      replace (r + 1 + (119 - r) + 8)%nat with 128%nat by lia. reflexivity.
  - rewrite low_bytes. reflexivity.
Qed.

Lemma padded_unique m p q : padded m p -> padded m q -> p = q.
Proof.
  intros [y [Y [My ->]]] [z [Z [Mz ->]]].
  assert (y = z) as ->; [|reflexivity].
  apply Nat.mod_divides in My; [|discriminate]. apply Nat.mod_divides in Mz; [|discriminate].
  destruct My as [a A], Mz as [b B]. lia.
Qed.

(** The hash is the paper's function of the padded message, whatever functions
    give the constants; every message has one padding. *)
Theorem C113_ripemd160 :
  forall (kl kr : nat -> N),
    (forall r, (r < 5)%nat -> left_constant r (kl r)) ->
    (forall r, (r < 5)%nat -> right_constant r (kr r)) ->
  forall m, exists p, padded m p /\ (forall q, padded m q -> q = p) /\
    ripemd160 m = paper_hash kl kr p.
Proof.
  intros kl kr CL CR m. exists (rpad m).
  split; [apply rpad_padded|]. split; [intros q Q; exact (padded_unique _ _ _ Q (rpad_padded m))|].
  destruct (rpad_padded m) as [z [Z [M E]]].
  assert (L : exists n, length (rpad m) = (64 * n)%nat).
  { apply Nat.mod_divides in M; [|discriminate]. destruct M as [n M]. exists n.
    rewrite E, !app_length, repeat_length, map_length, seq_length. cbn [length]. lia. }
  clear E. destruct L as [n L]. unfold ripemd160, paper_hash.
  rewrite (rchunks_seq 64 n) by lia.
  assert (D : (length (rpad m) / 64 = n)%nat).
  { rewrite L, Nat.mul_comm. apply Nat.div_mul. discriminate. }
  rewrite D, fold_map.
  rewrite (fold_in _ (fun h b => paper_block kl kr h (word_at (rpad m) b))).
  2:{ intros h b B. apply in_seq in B. apply block_eq; [exact CL|exact CR|].
      intros i I. apply (word_eq _ n); [exact L|lia|exact I]. }
  destruct (fold_left _ _ _) as [[[[a b] c] d] e].
  unfold le_out, low_first. rewrite !low_bytes. reflexivity.
Qed.
Print Assumptions C113_ripemd160.

(** There are such constants. *)
Theorem C113_constants :
  exists kl kr, (forall r, (r < 5)%nat -> left_constant r (kl r)) /\
    (forall r, (r < 5)%nat -> right_constant r (kr r)).
Proof.
  exists (fun r => nth r KL 0), (fun r => nth r KR 0).
  split; [exact left_constants|exact right_constants].
Qed.
Print Assumptions C113_constants.

(** The paper's test values: the empty message, "abc" and the 62 letters and
    digits, which take two blocks. *)
Example C113_case :
  be_val (ripemd160 []) = 0x9c1185a5c5e9fc54612808977ee8f548b2258d31 /\
  be_val (ripemd160 (map n2b [97; 98; 99])) = 0x8eb208f7e05d987a9b044a8e98c6b087f15a0bfc /\
  be_val (ripemd160 (map (fun i => n2b (65 + N.of_nat i)) (seq 0 26) ++
                     map (fun i => n2b (97 + N.of_nat i)) (seq 0 26) ++
                     map (fun i => n2b (48 + N.of_nat i)) (seq 0 10))) =
    0xb0e20b6e3116640286ed3a87a5713079b21f5189.
Proof. vm_compute. repeat split. Qed.
