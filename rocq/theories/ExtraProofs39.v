(** Wrap-around of the entropy bit count, the accumulator as a queue, and PBKDF2. *)
From Verif Require Import Base Sha2 Str StrProofs Unicode UnicodeProofs BitAcc Language39 Mnemonic39
  Spec39 BitsProofs EncProofs DecProofs LangSpec39 MnemonicProofs QueueSpec39.

(** ** C02: release builds when [len * 8] wraps *)
Lemma push_all_total L idxs : (forall i, i < 2048 -> any_word_of L i <> None) ->
  Forall (fun i => i < 2048) idxs -> forall p, exists p', push_all L idxs p = Ok p'.
Proof.
  intros HL F p. destruct (words_exist L idxs HL F) as [ws F2]. eexists. apply push_all_words. exact F2.
Qed.

Lemma encode_wrapped B L e c : b_debug B = false ->
  2 ^ b_usize_bits B <= N.of_nat (length e) * 8 ->
  from_key_size ((N.of_nat (length e) * 8) mod 2 ^ b_usize_bits B) = Ok c ->
  (forall i, i < 2048 -> any_word_of L i <> None) ->
  exists p, encode_entropy_with B L e = Ok p.
Proof.
  intros HD HW HC HL. unfold encode_entropy_with, mul_usize. change BITS_PER_BYTE with 8.
  destruct (N.ltb_spec (N.of_nat (length e) * 8) (2 ^ b_usize_bits B)) as [H|_]; [lia|].
  rewrite HD. cbn [bind]. rewrite HC. cbn [bind].
  destruct (enc_bytes_spec L e ba_new [] [] acc_rep_new) as [i1 [q1 [a1 [F1 [Hq1 [Hl1 [R1 E1]]]]]]];
    [cbn; lia|].
  rewrite E1. destruct (push_all_total L i1 HL F1 []) as [p1 ->]. cbn [bind]. cbv zeta.
  assert (Hcs8 : (N.to_nat (checksum_bit_length c) <= 8)%nat) by (destruct c; cbn; lia).
  set (k := N.to_nat (checksum_bit_length c)) in *.
  assert (Hk : checksum_bit_length c = N.of_nat k) by (unfold k; lia).
  clearbody k. rewrite Hk.
  set (v := N.shiftr (b2n (hd x00 (sha256 e))) (8 - N.of_nat k)).
  destruct (@push_rep err39 a1 q1 v k R1 ltac:(lia) ltac:(lia)) as [a2 [E2 R2]]. rewrite E2. cbn [bind].
  unfold enc_drain_all.
  assert (Hl2 : length (q1 ++ bits_msb k v) = (length q1 + k)%nat) by (rewrite app_length, bits_msb_length; reflexivity).
  destruct (enc_drain_spec L (S (N.to_nat (ba_bits a2))) a2 (q1 ++ bits_msb k v) p1) as
    [i2 [q2 [a3 [F2 [Hq2 [Hl3 [R3 E3]]]]]]]; [exact R2|lia| |].
  { destruct R2 as [_ R2]. rewrite R2. lia. }
  rewrite E3. destruct (push_all_total L i2 HL F2 p1) as [p2 ->]. cbn [bind]. eexists. reflexivity.
Qed.

Lemma from_entropy_wrapped B L e : b_debug B = false ->
  2 ^ b_usize_bits B <= 8 * N.of_nat (length e) ->
  In ((8 * N.of_nat (length e)) mod 2 ^ b_usize_bits B) [128; 160; 192; 224; 256] ->
  (forall i, i < 2048 -> lang_word_of L i <> None) ->
  exists m, from_entropy B L e = Ok m.
Proof.
  intros HD HW HI HL. assert (HC : exists c, from_key_size ((N.of_nat (length e) * 8) mod 2 ^ b_usize_bits B) = Ok c).
  { rewrite (N.mul_comm (N.of_nat (length e)) 8). cbn [In] in HI.
    destruct HI as [<-|[<-|[<-|[<-|[<-|[]]]]]]; eexists; reflexivity. }
  destruct HC as [c HC]. destruct (encode_wrapped B (any_of L) e c HD ltac:(lia) HC HL) as [p E].
  exists {| m_phrase := p; m_entropy := e |}. unfold from_entropy, encode_entropy. rewrite E. reflexivity.
Qed.

(** ** C11 *)
Lemma from_entropy_no_panic B L e : valid_build B ->
  8 * N.of_nat (length e) < 2 ^ b_usize_bits B \/ b_debug B = false ->
  (forall i, i < 2048 -> lang_word_of L i <> None) ->
  from_entropy B L e <> Panic.
Proof.
  intros HB HW HL.
  destruct (N.lt_ge_cases (8 * N.of_nat (length e)) (2 ^ b_usize_bits B)) as [H|H].
  - destruct (in_dec Nat.eq_dec (length e) [16; 20; 24; 28; 32]%nat) as [Hl|Hl].
    + destruct (from_entropy_ok B L e HB Hl HL) as [idxs [ws [_ [_ E]]]]. rewrite E. discriminate.
    + rewrite from_entropy_illegal by assumption. discriminate.
  - destruct HW as [HW|HD]; [lia|].
    destruct (from_key_size ((N.of_nat (length e) * 8) mod 2 ^ b_usize_bits B)) as [c|er|] eqn:EC.
    + destruct (encode_wrapped B (any_of L) e c HD ltac:(lia) EC HL) as [p E].
      unfold from_entropy, encode_entropy. rewrite E. discriminate.
    + unfold from_entropy, encode_entropy, encode_entropy_with, mul_usize. change BITS_PER_BYTE with 8.
      destruct (N.ltb_spec (N.of_nat (length e) * 8) (2 ^ b_usize_bits B)) as [H'|_]; [lia|].
      rewrite HD. cbn [bind]. rewrite EC. discriminate.
    + exfalso. revert EC. unfold from_key_size.
      repeat match goal with |- context[match ?x with _ => _ end] => destruct x; try discriminate end.
Qed.

Lemma from_normalized_no_panic L s : from_normalized_phrase L s <> Panic.
Proof. destruct (from_normalized_outcome L s) as [r [_ ->]]. destruct r; discriminate. Qed.

Lemma validate_no_panic U L s : validate U L s <> Panic.
Proof.
  rewrite validate_agrees. pose proof (from_normalized_no_panic L (normalize_utf8 U s)) as H.
  unfold from_phrase. destruct (from_normalized_phrase L (normalize_utf8 U s)); cbn; congruence.
Qed.

(** ** C20 *)
Fixpoint run_acc (a : bitacc) (ops : list bit_op) : res err39 (list N * bitacc) :=
  match ops with
  | [] => Ok ([], a)
  | Push v n :: ops' => let? a' := push_bits a v (N.of_nat n) in run_acc a' ops'
  | Take n :: ops' =>
      let? (v, a') := take_bits a (N.of_nat n) in
      let? (vs, a'') := run_acc a' ops' in
      Ok (v :: vs, a'')
  end.

Lemma run_acc_queue ops : forall a q vs q', acc_rep a q -> run_queue q ops = Some (vs, q') ->
  exists a', run_acc a ops = Ok (vs, a') /\ acc_rep a' q'.
Proof.
  induction ops as [|[v n|n] ops IH]; intros a q vs q' HR E; cbn [run_queue run_acc] in *.
  - injection E as <- <-. eauto.
  - destruct ((n <=? 56) && (length q + n <=? 64))%nat eqn:EG; [|discriminate].
    apply andb_true_iff in EG as [G1 G2]. apply Nat.leb_le in G1, G2.
    destruct (@push_rep err39 a q v n HR G1 G2) as [a1 [-> R1]]. cbn [bind]. eapply IH; eassumption.
  - destruct ((n <=? 56) && (n <=? length q) && (length q - n <? 64))%nat eqn:EG; [|discriminate].
    apply andb_true_iff in EG as [EG G3]. apply andb_true_iff in EG as [G1 G2].
    apply Nat.leb_le in G1, G2. apply Nat.ltb_lt in G3.
    destruct (run_queue (skipn n q) ops) as [[ws r]|] eqn:ER; [|discriminate]. injection E as <- <-.
    destruct (@take_rep err39 a q n HR G2 ltac:(lia) G3) as [a1 [-> R1]]. cbn [bind].
    destruct (IH _ _ _ _ R1 ER) as [a2 [-> R2]]. cbn [bind]. eauto.
Qed.

(** ** C14 *)
Lemma xor_bytes_nth a b j : length a = length b -> (j < length a)%nat ->
  b2n (nth j (xor_bytes a b) x00) = N.lxor (b2n (nth j a x00)) (b2n (nth j b x00)).
Proof.
  intros HL Hj. unfold xor_bytes.
  rewrite (nth_indep _ x00 ((fun p => n2b (N.lxor (b2n (fst p)) (b2n (snd p)))) (x00, x00)))
    by (rewrite map_length, combine_length; lia).
  rewrite (map_nth (fun p => n2b (N.lxor (b2n (fst p)) (b2n (snd p))))), combine_nth by exact HL. cbn [fst snd]. rewrite b2n_n2b.
  apply N.mod_small.
  pose proof (b2n_bound (nth j a x00)) as Ha. pose proof (b2n_bound (nth j b x00)) as Hb.
  revert Ha Hb. generalize (b2n (nth j a x00)), (b2n (nth j b x00)). intros x y Hx Hy.
  destruct (N.eq_dec (N.lxor x y) 0) as [->|Hne]; [lia|].
  apply N.log2_lt_pow2 with (b := 8); [lia|].
  eapply N.le_lt_trans; [apply N.log2_lxor|]. apply N.max_lub_lt.
  - destruct (N.eq_dec x 0) as [->|]; [cbn; lia|]. apply N.log2_lt_pow2; [lia|exact Hx].
  - destruct (N.eq_dec y 0) as [->|]; [cbn; lia|]. apply N.log2_lt_pow2; [lia|exact Hy].
Qed.

Lemma pbkdf2_U_length prf first k : (forall m, length (prf m) = 64%nat) -> length (pbkdf2_U prf first k) = 64%nat.
Proof. intros H. destruct k; cbn; apply H. Qed.

Lemma pbkdf2_loop_xor prf first (Hp : forall m, length (prf m) = 64%nat) n : forall k acc j,
  length acc = 64%nat -> (j < 64)%nat ->
  b2n (nth j (pbkdf2_loop prf n (pbkdf2_U prf first k) acc) x00) =
  N.lxor (b2n (nth j acc x00))
    (fold_right N.lxor 0 (map (fun i => b2n (nth j (pbkdf2_U prf first i) x00)) (seq (S k) n))).
Proof.
  induction n as [|n IH]; intros k acc j Ha Hj; cbn [pbkdf2_loop seq map fold_right].
  - rewrite N.lxor_0_r. reflexivity.
  - cbv zeta. change (prf (pbkdf2_U prf first k)) with (pbkdf2_U prf first (S k)).
    rewrite IH by (try exact Hj; rewrite xor_bytes_length, Ha, pbkdf2_U_length by exact Hp; reflexivity).
    rewrite xor_bytes_nth by (rewrite ?pbkdf2_U_length by exact Hp; lia).
    rewrite N.lxor_assoc. reflexivity.
Qed.

Lemma pbkdf2_correct password salt c : 1 <= c ->
  is_pbkdf2_block (hmac_sha512 password) salt c (pbkdf2_hmac_sha512 password salt c 64).
Proof.
  intros Hc. split; [apply pbkdf2_length64|]. intros j Hj.
  unfold pbkdf2_hmac_sha512. change ((64 + 63) / 64)%nat with 1%nat. cbn [seq map concat].
  rewrite app_nil_r, firstn_all2 by (rewrite pbkdf2_block_length; lia).
  unfold pbkdf2_block. change (be_bytes 4 (N.of_nat 1)) with [x00; x00; x00; x01].
  set (first := salt ++ [x00; x00; x00; x01]).
  change (hmac_sha512 password first) with (pbkdf2_U (hmac_sha512 password) first 0).
  assert (Hp : forall m, length (hmac_sha512 password m) = 64%nat) by (intros; apply hmac_sha512_length).
  rewrite (pbkdf2_loop_xor _ first Hp) by (try exact Hj; apply (pbkdf2_U_length (hmac_sha512 password) first 0 Hp)).
  replace (N.to_nat c) with (S (N.to_nat (c - 1))) by lia. cbn [seq map fold_right]. reflexivity.
Qed.

Lemma salt_normalised U p : ucd_ok U -> normalize_utf8 U (lit "mnemonic" ++ p) = lit "mnemonic" ++ nfkd U p.
Proof.
  intros OK. rewrite normalize_is_nfkd by exact OK. apply nfkd_ascii_prefix; [exact OK|].
  cbn. repeat constructor; lia.
Qed.
