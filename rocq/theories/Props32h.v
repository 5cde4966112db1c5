(** Property theorems about how the crates drive their hash functions: chunk boundaries do
    not matter (C85), SHA-2 collisions are collisions of the compression function (C86), and
    HMAC-SHA512 collisions are SHA-512 collisions (C87). *)
From Verif Require Import Base Sha2 Str Error32 Version32 Path32 Meta32 Payload32 Curve32 XKey32
  XKeySpec32 XKeyProofs32 Cyclic32 Props32k Props32x Stream StreamProofs.

(** ** C85 *)
(** C85: hashing in pieces is hashing the concatenation, for every way to cut the input. *)
Theorem C85_sha2_pieces ds :
  Sha256_finalize (fold_left Sha256_update ds Sha256_new) = sha256 (concat ds) /\
  Sha512_finalize (fold_left Sha512_update ds Sha512_new) = sha512 (concat ds).
Proof. split; [apply Sha256_stream_eq|apply Sha512_stream_eq]. Qed.
Theorem C85_hmac_pieces key ds :
  Hmac_finalize (fold_left Hmac_update ds (Hmac_new key)) = hmac_sha512 key (concat ds).
Proof. apply Hmac_stream_eq. Qed.
(** PBKDF2 with a MAC that is keyed once and cloned. *)
Theorem C85_pbkdf2_pieces password salt rounds :
  pbkdf2_stream password salt rounds = pbkdf2_hmac_sha512 password salt rounds 64.
Proof. apply pbkdf2_stream_eq. Qed.
(** The two calls of [update] in non-hardened derivation give tweak and chain code of the
    child just as the one call on 37 bytes does. *)
Theorem C85_derive_pieces b L (x : XPrv (backend b L)) child :
  prv_parts x child =
  let I := hmac_sha512 (m_chain (xprv_meta x)) (ckd_priv_data L (xprv_key x) child) in
  Ok (firstn 32 I, skipn 32 I).
Proof.
  cbv zeta. unfold prv_parts, prv_updates, hmac_split_stream. rewrite hardened_eq, <- (gen_data_eq L b).
  unfold gen_data. destruct (2 ^ 31 <=? child).
  - assert (P := put37 (E := Error) (prv_to_bytes (backend b L) (xprv_key x)) child (be_bytes_length 32 _)).
    destruct (put 1 33 _ _) as [d| |]; cbn [bind] in P |- *; [|discriminate P|discriminate P].
    rewrite P. cbn [bind]. cbv zeta. rewrite C85_hmac_pieces, hmac_sha512_length. cbn [concat].
    rewrite app_nil_r. reflexivity.
  - cbn [bind]. cbv zeta. rewrite C85_hmac_pieces, hmac_sha512_length. cbn [concat].
    rewrite app_nil_r, child_bytes_eq. reflexivity.
Qed.
Theorem C85_derive_public_pieces b L (x : XPub (backend b L)) child :
  pub_parts x child =
  let I := hmac_sha512 (m_chain (xpub_meta x)) (ckd_pub_data L (xpub_key x) child) in
  Ok (firstn 32 I, skipn 32 I).
Proof.
  cbv zeta. unfold pub_parts, pub_updates, hmac_split_stream. cbv zeta.
  rewrite C85_hmac_pieces, hmac_sha512_length. cbn [concat]. rewrite app_nil_r, child_bytes_eq. reflexivity.
Qed.
Print Assumptions C85_sha2_pieces.
Print Assumptions C85_hmac_pieces.
Print Assumptions C85_pbkdf2_pieces.
Print Assumptions C85_derive_pieces.
Print Assumptions C85_derive_public_pieces.

(** 131 bytes in pieces of 0, 1, 126, 1 and 3 bytes, the fourth of which completes a block;
    and the two calls of non-hardened derivation. *)
Example C85_case :
  let ds := [[]; [x61]; repeat x62 126; [x63]; [x64; x65; x66]] in
  (bytes_eqb (Sha256_finalize (fold_left Sha256_update ds Sha256_new)) (sha256 (concat ds)) &&
   bytes_eqb (Sha512_finalize (fold_left Sha512_update ds Sha512_new)) (sha512 (concat ds)) &&
   bytes_eqb (Hmac_finalize (fold_left Hmac_update [repeat x02 33; [x00; x00; x00; x01]] (Hmac_new (repeat x07 32))))
             (hmac_sha512 (repeat x07 32) (repeat x02 33 ++ [x00; x00; x00; x01])))%bool = true.
Proof. vm_cast_no_check (eq_refl true). Qed.

(** ** C86 *)
(** A hash function as FIPS 180-4 describes it: the blocks of the padded message, and the
    chaining value before block [j]. *)
Definition sha512_blocks (m : list byte) : list (list byte) := chunks 128 (pad 64 m).
Definition sha512_chaining (m : list byte) (j : nat) : st8 := fold_left cf512 (firstn j (sha512_blocks m)) iv512.
Definition sha256_blocks (m : list byte) : list (list byte) := chunks 64 (pad 32 m).
Definition sha256_chaining (m : list byte) (j : nat) : st8 := fold_left cf256 (firstn j (sha256_blocks m)) iv256.

(** Among the compression calls made for [m] and those made for [m'] two have different
    arguments and the same result. *)
Definition compression_collision (cf : st8 -> list byte -> st8) (blocks : list byte -> list (list byte))
    (chaining : list byte -> nat -> st8) (m m' : list byte) : Prop :=
  exists j j' b b', nth_error (blocks m) j = Some b /\ nth_error (blocks m') j' = Some b' /\
    (chaining m j, b) <> (chaining m' j', b') /\ cf (chaining m j) b = cf (chaining m' j') b'.

(** C86 for every compression function on states that can be compared: [bs] bytes a block,
    [lf] of them for the length. *)
Theorem C86_merkle_damgard (St : Type) (bs lf : nat) (cf : St -> list byte -> St) (iv : St) m m' :
  (lf < bs)%nat -> (forall s s' : St, {s = s'} + {s <> s'}) ->
  8 * N.of_nat (length m) < 256 ^ N.of_nat lf -> 8 * N.of_nat (length m') < 256 ^ N.of_nat lf ->
  m <> m' ->
  let blocks x := chunks bs (md_pad bs lf x) in
  let chaining x j := fold_left cf (firstn j (blocks x)) iv in
  chaining m (length (blocks m)) = chaining m' (length (blocks m')) ->
  exists j j' b b', nth_error (blocks m) j = Some b /\ nth_error (blocks m') j' = Some b' /\
    (chaining m j, b) <> (chaining m' j', b') /\ cf (chaining m j) b = cf (chaining m' j') b'.
Proof.
  intros H D L L' Hn. cbv beta zeta. rewrite !firstn_all. intros E.
  destruct (md_collision bs lf cf ltac:(lia) H D iv m m' L L' Hn E) as [i C].
  exact (calls_collide_front _ _ _ _ _ C).
Qed.
(** C86: a collision of SHA-512 (SHA-256) exhibits one of the compression function. *)
Theorem C86_sha512_collision m m' :
  N.of_nat (length m) < 2 ^ 125 -> N.of_nat (length m') < 2 ^ 125 ->
  m <> m' -> sha512 m = sha512 m' ->
  compression_collision cf512 sha512_blocks sha512_chaining m m'.
Proof.
  intros H H' Hn E. rewrite !sha512_md in E.
  assert (B : forall x, words_below 64 (md 128 16 cf512 iv512 x)).
  { intros x. apply md_below; [lia|lia|apply cf512_below]. }
  apply (words_out_inj 8 64) in E; [|reflexivity|apply B|apply B].
  change (2 ^ 125) with 42535295865117307932921825928971026432 in H, H'.
  destruct (md_collision 128 16 cf512 ltac:(lia) ltac:(lia) st8_dec iv512 m m') as [i C];
    [|  |exact Hn|exact E|exact (calls_collide_front _ _ _ _ _ C)];
    change (256 ^ N.of_nat 16) with 340282366920938463463374607431768211456; lia.
Qed.
Theorem C86_sha256_collision m m' :
  N.of_nat (length m) < 2 ^ 61 -> N.of_nat (length m') < 2 ^ 61 ->
  m <> m' -> sha256 m = sha256 m' ->
  compression_collision cf256 sha256_blocks sha256_chaining m m'.
Proof.
  intros H H' Hn E. rewrite !sha256_md in E.
  assert (B : forall x, words_below 32 (md 64 8 cf256 iv256 x)).
  { intros x. apply md_below; [lia|lia|apply cf256_below]. }
  apply (words_out_inj 4 32) in E; [|reflexivity|apply B|apply B].
  change (2 ^ 61) with 2305843009213693952 in H, H'.
  destruct (md_collision 64 8 cf256 ltac:(lia) ltac:(lia) st8_dec iv256 m m') as [i C];
    [|  |exact Hn|exact E|exact (calls_collide_front _ _ _ _ _ C)];
    change (256 ^ N.of_nat 8) with 18446744073709551616; lia.
Qed.
(** These are the calls that make the hash: the last chaining value is the output. *)
Theorem C86_output m :
  sha512 m = words_out 8 (sha512_chaining m (length (sha512_blocks m))) /\
  sha256 m = words_out 4 (sha256_chaining m (length (sha256_blocks m))).
Proof.
  unfold sha512_chaining, sha256_chaining. rewrite !firstn_all. split; [apply sha512_md|apply sha256_md].
Qed.
(** The length bound is needed: padding is injective below it. *)
Theorem C86_padding m m' :
  N.of_nat (length m) < 2 ^ 125 -> N.of_nat (length m') < 2 ^ 125 -> pad 64 m = pad 64 m' -> m = m'.
Proof.
  intros H H' E. change (md_pad 128 16 m = md_pad 128 16 m') in E.
  assert (L : length m = length m').
  { destruct (md_pad_suffix 128 16 m) as [q Q]. destruct (md_pad_suffix 128 16 m') as [q' Q'].
    rewrite Q, Q' in E. apply app_suffix in E; [|rewrite !be_bytes_length; reflexivity].
    destruct E as [_ E]. apply be_inj in E.
    - lia.
    - change (256 ^ N.of_nat 16) with (8 * 2 ^ 125). apply N.mul_lt_mono_pos_l; [lia|exact H].
    - change (256 ^ N.of_nat 16) with (8 * 2 ^ 125). apply N.mul_lt_mono_pos_l; [lia|exact H']. }
  apply (md_pad_inj 128 16); [lia..|exact L|exact E].
Qed.
Print Assumptions C86_merkle_damgard.
Print Assumptions C86_sha512_collision.
Print Assumptions C86_sha256_collision.
Print Assumptions C86_output.
Print Assumptions C86_padding.

(** No collision of SHA-512 is known.  A toy function with blocks of 8 bytes, 2 of them for
    the length, that adds the bytes modulo 7 has collisions between messages of one and of
    two blocks. *)
Example C86_case :
  let cf (s : N) (b : list byte) := (s + fold_right N.add 0 (map b2n b)) mod 7 in
  let m := [x01; x02] in
  let m' := [x01; x00; x03; x00; x00; x01; x07] in
  (2 < 8)%nat /\ m <> m' /\ 8 * N.of_nat (length m) < 256 ^ 2 /\ 8 * N.of_nat (length m') < 256 ^ 2 /\
  length (chunks 8 (md_pad 8 2 m)) = 1%nat /\ length (chunks 8 (md_pad 8 2 m')) = 2%nat /\
  md 8 2 cf 0 m = md 8 2 cf 0 m'.
Proof.
  cbv zeta. split; [lia|]. split; [discriminate|]. split; [reflexivity|]. split; [reflexivity|].
  split; [reflexivity|]. split; [reflexivity|]. vm_compute. reflexivity.
Qed.

(** ** C87 *)
(** The two messages HMAC-SHA512 hashes. *)
Definition hmac_inner (key data : list byte) : list byte := xor_pad 0x36 (key_block key) ++ data.
Definition hmac_outer (key data : list byte) : list byte :=
  xor_pad 0x5c (key_block key) ++ sha512 (hmac_inner key data).
(** Among them two different ones have SHA-512 values with the same right half. *)
Definition sha_half_collision (key data key' data' : list byte) : Prop :=
  (hmac_outer key data <> hmac_outer key' data' /\
   skipn 32 (sha512 (hmac_outer key data)) = skipn 32 (sha512 (hmac_outer key' data'))) \/
  (hmac_inner key data <> hmac_inner key' data' /\
   sha512 (hmac_inner key data) = sha512 (hmac_inner key' data')).

(** C87: two inputs of HMAC-SHA512 whose outputs have the same right half have the same data
    and equivalent keys, or SHA-512 collides. *)
Theorem C87_hmac_collision key data key' data' :
  skipn 32 (hmac_sha512 key data) = skipn 32 (hmac_sha512 key' data') ->
  (key_block key = key_block key' /\ data = data') \/ sha_half_collision key data key' data'.
Proof.
  intros E. rewrite !hmac_eq in E. fold (hmac_inner key data) (hmac_inner key' data') in E.
  fold (hmac_outer key data) (hmac_outer key' data') in E.
  destruct (list_eq_dec Byte.byte_eq_dec (hmac_outer key data) (hmac_outer key' data')) as [Q|Q];
    [|right; left; split; [exact Q|exact E]].
  unfold hmac_outer in Q. apply app_prefix in Q; [|rewrite !xor_pad_length, !key_block_length; reflexivity].
  destruct Q as [Qk Qi]. apply xor_pad_inj in Qk; [|reflexivity].
  destruct (list_eq_dec Byte.byte_eq_dec (hmac_inner key data) (hmac_inner key' data')) as [Q|Q];
    [|right; right; split; [exact Q|exact Qi]].
  left. split; [exact Qk|]. unfold hmac_inner in Q. rewrite Qk in Q. exact (app_inv_head _ _ _ Q).
Qed.

(** Which keys are equivalent: those that differ by zeros at the end, long keys stand for
    their hashes. *)
Theorem C87_equivalent_keys key key' :
  (length key <= length key')%nat -> (length key' <= 128)%nat ->
  (key_block key = key_block key' <-> key' = key ++ repeat x00 (length key' - length key)) /\
  (key_block key = key_block key' -> forall data, hmac_sha512 key data = hmac_sha512 key' data).
Proof.
  intros H H'. split.
  - split; [apply key_block_le; assumption|]. intros E.
    assert (L : length key' = (length key + (length key' - length key))%nat) by lia.
    rewrite !key_block_short by lia. set (n := (length key' - length key)%nat) in *.
    rewrite E at 1. rewrite <- app_assoc, <- repeat_app'. do 2 f_equal. lia.
  - intros E data. rewrite !hmac_eq, E. reflexivity.
Qed.
Theorem C87_long_key key : (128 < length key)%nat ->
  key_block key = key_block (sha512 key) /\ forall data, hmac_sha512 key data = hmac_sha512 (sha512 key) data.
Proof.
  intros H. assert (E : key_block key = key_block (sha512 key)).
  { rewrite key_block_long by exact H. rewrite key_block_short by (rewrite sha512_length; lia).
    rewrite sha512_length. reflexivity. }
  split; [exact E|]. intros data. rewrite !hmac_eq, E. reflexivity.
Qed.

(** Two passwords without zero bytes, such as two phrases, key PBKDF2 differently unless
    SHA-512 collides on them or one is what the other, longer than a block, hashes to. *)
Theorem C87_passwords P P' : ~ In x00 P -> ~ In x00 P' -> key_block P = key_block P' ->
  P = P' \/ (P <> P' /\ sha512 P = sha512 P') \/
  ((128 < length P)%nat /\ sha512 P = P' ++ repeat x00 (64 - length P')) \/
  ((128 < length P')%nat /\ sha512 P' = P ++ repeat x00 (64 - length P)).
Proof.
  intros Z Z' E.
  assert (SH : forall A B, ~ In x00 A -> ~ In x00 B -> (length A <= length B)%nat -> (length B <= 128)%nat ->
            key_block A = key_block B -> A = B).
  { intros A B ZA ZB H H' Q. apply key_block_le in Q; [|assumption|assumption].
    destruct (length B - length A)%nat as [|n]; [cbn [repeat] in Q; rewrite app_nil_r in Q; now symmetry|].
    exfalso. apply ZB. rewrite Q. apply in_or_app. right. left. reflexivity. }
  assert (LG : forall A B, ~ In x00 B -> (128 < length A)%nat -> (length B <= 128)%nat ->
            key_block A = key_block B -> sha512 A = B ++ repeat x00 (64 - length B)).
  { intros A B ZB HA HB Q. rewrite key_block_long, key_block_short in Q by assumption.
    assert (LB : (length B <= 64)%nat).
    { destruct (Nat.le_gt_cases (length B) 64) as [G|G]; [exact G|]. exfalso. apply ZB.
      assert (W := f_equal (fun l => nth 64 l x01) Q). cbn beta in W.
      rewrite app_nth2, sha512_length in W by (rewrite sha512_length; lia).
      rewrite app_nth1 in W by lia. change (nth (64 - 64) (repeat x00 64) x01) with x00 in W.
      rewrite W. apply nth_In. lia. }
    replace (128 - length B)%nat with ((64 - length B) + 64)%nat in Q by lia.
    rewrite repeat_app', app_assoc in Q. apply app_prefix in Q; [exact (proj1 Q)|].
    rewrite sha512_length, app_length, repeat_length. lia. }
  destruct (Nat.le_gt_cases (length P) 128) as [H|H]; destruct (Nat.le_gt_cases (length P') 128) as [H'|H'].
  - left. destruct (Nat.le_ge_cases (length P) (length P')) as [O|O].
    + exact (SH P P' Z Z' O H' E).
    + symmetry. exact (SH P' P Z' Z O H (eq_sym E)).
  - right. right. right. split; [exact H'|]. exact (LG P' P Z H' H (eq_sym E)).
  - right. right. left. split; [exact H|]. exact (LG P P' Z' H H' E).
  - destruct (list_eq_dec Byte.byte_eq_dec P P') as [Q|Q]; [left; exact Q|]. right. left. split; [exact Q|].
    rewrite !key_block_long in E by assumption. apply app_prefix in E; [exact (proj1 E)|].
    rewrite !sha512_length. reflexivity.
Qed.

(** C87 for the key tree: C65 with SHA-512 in place of HMAC-SHA512.  A chain code equal to
    the curve's master key followed by zeros would make a child key and a master key come
    from one MAC call. *)
Definition padded_curve_key (b : Library) : list byte :=
  curve_key b ++ repeat x00 (32 - length (curve_key b)).
Theorem C87_tree_collision dbg b L (HL : ec_laws L) seed seed' p p' (m m' x x' : XPrv (backend b L)) :
  Forall (fun i => i < 2 ^ 32) p -> Forall (fun i => i < 2 ^ 32) p' ->
  xprv_new dbg (backend b L) seed = Ok m -> xprv_derive_path dbg m p = Ok x ->
  xprv_new dbg (backend b L) seed' = Ok m' -> xprv_derive_path dbg m' p' = Ok x' ->
  m_chain (xprv_meta x) = m_chain (xprv_meta x') ->
  (seed = seed' /\ p = p') \/
  seed_input dbg b L seed p (padded_curve_key b) seed' \/
  seed_input dbg b L seed' p' (padded_curve_key b) seed \/
  exists c d c' d', seed_input dbg b L seed p c d /\ seed_input dbg b L seed' p' c' d' /\
    sha_half_collision c d c' d'.
Proof.
  intros F F' M P M' P' E.
  destruct (C65_tree_collision dbg b L HL seed seed' p p' m m' x x' F F' M P M' P' E)
    as [H|(c & d & c' & d' & A & A' & N & C)]; [left; exact H|].
  destruct (C87_hmac_collision _ _ _ _ C) as [[K D]|C']; [|right; right; right; exists c, d, c', d'; auto].
  subst d'.
  assert (LK : forall s q k e, seed_input dbg b L s q k e -> k = curve_key b /\ e = s \/ length k = 32%nat).
  { intros s q k e [[-> ->]|(m0 & q0 & i & r & z & M0 & -> & Q0 & -> & _)]; [left; auto|]. right.
    exact (chain_length _ _ _ _ _ _ _ M0 Q0). }
  assert (CL : (length (curve_key b) <= 32)%nat) by (destruct b; cbn; lia).
  assert (PK : forall k, length k = 32%nat -> key_block (curve_key b) = key_block k -> k = padded_curve_key b).
  { intros k Lk Q. apply key_block_le in Q; [|lia|lia]. rewrite Lk in Q. exact Q. }
  destruct (LK _ _ _ _ A) as [[Q R]|Lc]; destruct (LK _ _ _ _ A') as [[Q' R']|Lc'].
  - exfalso. apply N. rewrite Q, Q'. reflexivity.
  - right. right. left. subst c d. rewrite (PK c' Lc' K) in A'. exact A'.
  - right. left. subst c' d. rewrite (PK c Lc (eq_sym K)) in A. exact A.
  - exfalso. apply N. f_equal. apply key_block_eq; [lia|lia|exact K].
Qed.
Print Assumptions C87_hmac_collision.
Print Assumptions C87_equivalent_keys.
Print Assumptions C87_long_key.
Print Assumptions C87_passwords.
Print Assumptions C87_tree_collision.

(** The master key "Bitcoin seed" and the chain code made of it by 20 zeros are different and
    give the same MACs. *)
Example C87_case :
  curve_key K256 <> padded_curve_key K256 /\ length (padded_curve_key K256) = 32%nat /\
  bytes_eqb (hmac_sha512 (curve_key K256) [x01]) (hmac_sha512 (padded_curve_key K256) [x01]) = true.
Proof.
  split; [discriminate|]. split; [reflexivity|].
  vm_cast_no_check (eq_refl true).
Qed.
