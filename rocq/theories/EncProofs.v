(** The encoder computes the BIP-0039 indices and never panics. *)
From Verif Require Import Base Sha2 Str BitAcc Language39 Mnemonic39 Spec39 BitsProofs StrProofs.

(** Appending a sequence of words by index. *)
Fixpoint push_all (L : AnyLanguage) (idxs : list N) (phrase : str) : res err39 str :=
  match idxs with
  | [] => Ok phrase
  | i :: idxs' => let? p := enc_push_index L i phrase in push_all L idxs' p
  end.

Lemma push_all_app L i1 i2 p :
  push_all L (i1 ++ i2) p = let? p1 := push_all L i1 p in push_all L i2 p1.
Proof.
  revert p; induction i1 as [|i i1 IH]; intros p; cbn [app push_all]; [reflexivity|].
  destruct (enc_push_index L i p); cbn [bind]; [apply IH|reflexivity|reflexivity].
Qed.

Lemma enc_drain_spec L fuel : forall a q p,
  acc_rep a q -> (length q < 64)%nat -> (length q < fuel)%nat ->
  exists idxs q' a', Forall (fun i => i < 2048) idxs /\ index_bits idxs ++ q' = q /\
    (length q' < 11)%nat /\ acc_rep a' q' /\
    enc_drain L fuel a p = let? p' := push_all L idxs p in Ok (a', p').
Proof.
  induction fuel as [|fuel IH]; intros a q p HR H64 Hf; [lia|].
  cbn [enc_drain]. change BITS_PER_WORD with (N.of_nat 11). rewrite (can_take_rep a q 11 HR).
  destruct (Nat.leb_spec 11 (length q)) as [H11|H11].
  - destruct (@take_rep err39 a q 11 HR H11 ltac:(lia) ltac:(lia)) as [a1 [E1 R1]].
    rewrite E1. cbn [bind].
    assert (HL : length (firstn 11 q) = 11%nat) by (rewrite firstn_length; lia).
    pose proof (bits_val_bound (firstn 11 q)) as HB. rewrite HL in HB. change (2 ^ N.of_nat 11) with 2048 in HB.
    destruct (enc_push_index L (bits_val (firstn 11 q)) p) as [p1|e|] eqn:EP; cbn [bind].
    + destruct (IH a1 (skipn 11 q) p1 R1) as [idxs [q' [a' [F [Hq [Hq' [R' E]]]]]]];
        [rewrite skipn_length; lia|rewrite skipn_length; lia|].
      exists (bits_val (firstn 11 q) :: idxs), q', a'. repeat split; try assumption.
      * constructor; assumption.
      * rewrite index_bits_cons, <- app_assoc, Hq. rewrite <- HL at 1. rewrite bits_msb_val. apply firstn_skipn.
      * apply R'.
      * apply R'.
      * rewrite E. cbn [push_all]. rewrite EP. reflexivity.
    + destruct (IH a1 (skipn 11 q) p R1) as [idxs [q' [a' [F [Hq [Hq' [R' E]]]]]]];
        [rewrite skipn_length; lia|rewrite skipn_length; lia|].
      exists (bits_val (firstn 11 q) :: idxs), q', a'. repeat split; try assumption.
      * constructor; assumption.
      * rewrite index_bits_cons, <- app_assoc, Hq. rewrite <- HL at 1. rewrite bits_msb_val. apply firstn_skipn.
      * apply R'.
      * apply R'.
      * cbn [push_all]. rewrite EP. reflexivity.
    + destruct (IH a1 (skipn 11 q) p R1) as [idxs [q' [a' [F [Hq [Hq' [R' E]]]]]]];
        [rewrite skipn_length; lia|rewrite skipn_length; lia|].
      exists (bits_val (firstn 11 q) :: idxs), q', a'. repeat split; try assumption.
      * constructor; assumption.
      * rewrite index_bits_cons, <- app_assoc, Hq. rewrite <- HL at 1. rewrite bits_msb_val. apply firstn_skipn.
      * apply R'.
      * apply R'.
      * cbn [push_all]. rewrite EP. reflexivity.
  - exists [], q, a. repeat split; try assumption; try constructor; apply HR.
Qed.

Lemma enc_bytes_spec L e : forall a q p,
  acc_rep a q -> (length q < 11)%nat ->
  exists idxs q' a', Forall (fun i => i < 2048) idxs /\ index_bits idxs ++ q' = q ++ bytes_bits e /\
    (length q' < 11)%nat /\ acc_rep a' q' /\
    enc_bytes L e a p = let? p' := push_all L idxs p in Ok (a', p').
Proof.
  induction e as [|b e IH]; intros a q p HR Hq; cbn [enc_bytes].
  - exists [], q, a. cbn [push_all bind index_bits flat_map app bytes_bits]. rewrite app_nil_r.
    repeat split; try assumption; try constructor; apply HR.
  - change BITS_PER_BYTE with (N.of_nat 8).
    destruct (@push_rep err39 a q (b2n b) 8 HR ltac:(lia) ltac:(lia)) as [a1 [E1 R1]].
    rewrite E1. cbn [bind]. unfold enc_drain_all.
    set (q1 := q ++ bits_msb 8 (b2n b)) in *.
    assert (Hl1 : length q1 = (length q + 8)%nat) by (unfold q1; rewrite app_length, bits_msb_length; reflexivity).
    destruct (enc_drain_spec L (S (N.to_nat (ba_bits a1))) a1 q1 p R1) as [i1 [q2 [a2 [F1 [Hq1 [Hq2 [R2 E2]]]]]]].
    { lia. }
    { destruct R1 as [_ R1]. rewrite R1. lia. }
    rewrite E2. destruct (push_all L i1 p) as [p1|er|] eqn:EP; cbn [bind].
    + destruct (IH a2 q2 p1 R2 Hq2) as [i2 [q3 [a3 [F2 [Hq3 [Hl3 [R3 E3]]]]]]].
      exists (i1 ++ i2), q3, a3. rewrite push_all_app, EP. cbn [bind].
      rewrite index_bits_app, <- app_assoc, Hq3, app_assoc, Hq1. unfold q1.
      rewrite bytes_bits_cons, <- app_assoc.
      repeat split; try assumption; try apply R3. apply Forall_app; split; assumption.
    + destruct (IH a2 q2 p R2 Hq2) as [i2 [q3 [a3 [F2 [Hq3 [Hl3 [R3 E3]]]]]]].
      exists (i1 ++ i2), q3, a3. rewrite push_all_app, EP. cbn [bind].
      rewrite index_bits_app, <- app_assoc, Hq3, app_assoc, Hq1. unfold q1.
      rewrite bytes_bits_cons, <- app_assoc.
      repeat split; try assumption; try apply R3. apply Forall_app; split; assumption.
    + destruct (IH a2 q2 p R2 Hq2) as [i2 [q3 [a3 [F2 [Hq3 [Hl3 [R3 E3]]]]]]].
      exists (i1 ++ i2), q3, a3. rewrite push_all_app, EP. cbn [bind].
      rewrite index_bits_app, <- app_assoc, Hq3, app_assoc, Hq1. unfold q1.
      rewrite bytes_bits_cons, <- app_assoc.
      repeat split; try assumption; try apply R3. apply Forall_app; split; assumption.
Qed.

(** Sizes. *)
Lemma from_key_size_legal (e : list byte) c :
  from_key_size (N.of_nat (length e) * 8) = Ok c ->
  legal_entropy_len (length e) /\ N.to_nat (checksum_bit_length c) = (length e * 8 / 32)%nat /\
  (length e * 8 = 32 * N.to_nat (checksum_bit_length c))%nat.
Proof.
  intros H. unfold legal_entropy_len.
  assert (HC : length e = 16%nat /\ c = Words12 \/ length e = 20%nat /\ c = Words15 \/
               length e = 24%nat /\ c = Words18 \/ length e = 28%nat /\ c = Words21 \/
               length e = 32%nat /\ c = Words24).
  { remember (N.of_nat (length e) * 8) as n eqn:En. unfold from_key_size in H.
    destruct n as [|n]; [discriminate|].
    repeat (match type of H with context[match ?x with _ => _ end] => destruct x; try discriminate H end);
      injection H as <-;
      first [ left; split; [lia|reflexivity]
            | right; left; split; [lia|reflexivity]
            | right; right; left; split; [lia|reflexivity]
            | right; right; right; left; split; [lia|reflexivity]
            | right; right; right; right; split; [lia|reflexivity] ]. }
  destruct HC as [[-> ->]|[[-> ->]|[[-> ->]|[[-> ->]|[-> ->]]]]]; cbn; intuition lia.
Qed.

Lemma from_key_size_ok (e : list byte) : legal_entropy_len (length e) ->
  exists c, from_key_size (N.of_nat (length e) * 8) = Ok c.
Proof.
  unfold legal_entropy_len. cbn [In].
  intros [H|[H|[H|[H|[H|[]]]]]]; rewrite <- H; cbn; eexists; reflexivity.
Qed.

Lemma checksum_split e k : (k <= 8)%nat ->
  firstn k (bytes_bits (sha256 e)) = firstn k (bits_msb 8 (b2n (hd x00 (sha256 e)))).
Proof.
  intros Hk. pose proof (sha256_length e) as HL. destruct (sha256 e) as [|b l]; [discriminate|].
  rewrite bytes_bits_cons. cbn [hd]. rewrite firstn_app, bits_msb_length.
  replace (k - 8)%nat with 0%nat by lia. cbn [firstn]. rewrite app_nil_r. reflexivity.
Qed.

(** The main encoder lemma: for a legal length the result is the words of the
    BIP-0039 indices. *)
Lemma encode_legal B L e :
  legal_entropy_len (length e) -> N.of_nat (length e) * 8 < 2 ^ b_usize_bits B ->
  exists idxs, bip39_indices e idxs /\ encode_entropy_with B L e = push_all L idxs [].
Proof.
  intros Hlen Hw. unfold encode_entropy_with, mul_usize.
  change BITS_PER_BYTE with 8.
  destruct (N.of_nat (length e) * 8 <? 2 ^ b_usize_bits B) eqn:EW; [|lia]. cbn [bind].
  destruct (from_key_size_ok e Hlen) as [c Hc]. rewrite Hc. cbn [bind].
  destruct (from_key_size_legal e c Hc) as [_ [Hcs Hcs2]].
  destruct (enc_bytes_spec L e ba_new [] [] acc_rep_new) as [i1 [q1 [a1 [F1 [Hq1 [Hl1 [R1 E1]]]]]]];
    [cbn; lia|].
  rewrite E1. cbn [app] in Hq1.
  assert (Hcs8 : (N.to_nat (checksum_bit_length c) <= 8)%nat) by (destruct c; cbn; lia).
  set (k := N.to_nat (checksum_bit_length c)) in *.
  cbv zeta.
  assert (Hk : checksum_bit_length c = N.of_nat k) by (unfold k; lia).
  clearbody k. rewrite Hk.
  set (v := N.shiftr (b2n (hd x00 (sha256 e))) (8 - N.of_nat k)).
  destruct (@push_rep err39 a1 q1 v k R1 ltac:(lia) ltac:(lia)) as [a2 [E2 R2]].
  assert (Hv : bits_msb k v = checksum_bits e).
  { unfold v, checksum_bits. rewrite <- Hcs. rewrite checksum_split by exact Hcs8.
    apply shiftr_bits. exact Hcs8. }
  rewrite Hv in R2.
  assert (Hl2 : length (q1 ++ checksum_bits e) = (length q1 + k)%nat).
  { rewrite app_length, <- Hv, bits_msb_length. reflexivity. }
  assert (HT : forall idxs q', index_bits idxs ++ q' = bytes_bits e ++ checksum_bits e ->
              (length q' < 11)%nat -> q' = []).
  { intros idxs q' HE Hlt. apply (f_equal (@length bool)) in HE.
    rewrite !app_length, index_bits_length, bytes_bits_length in HE.
    assert (Hck : length (checksum_bits e) = k) by (rewrite <- Hv; apply bits_msb_length).
    rewrite Hck in HE. destruct q'; [reflexivity|]. cbn [length] in *. exfalso.
    assert ((8 * length e + k = 33 * k)%nat) by lia. lia. }
  destruct (enc_drain_spec L (S (N.to_nat (ba_bits a2))) a2 (q1 ++ checksum_bits e) []) as
    [i2 [q2 [a3 [F2 [Hq2 [Hl3 [R3 E3]]]]]]]; [exact R2|lia| |].
  { destruct R2 as [_ R2]. rewrite R2. lia. }
  assert (HI : index_bits (i1 ++ i2) ++ q2 = bip39_bits e).
  { unfold bip39_bits. rewrite index_bits_app, <- app_assoc, Hq2, app_assoc, Hq1. reflexivity. }
  assert (Hq2nil : q2 = []) by (eapply HT; [exact HI|exact Hl3]). subst q2. rewrite app_nil_r in HI.
  exists (i1 ++ i2). split.
  { split; [apply Forall_app; split; assumption|exact HI]. }
  rewrite push_all_app. destruct (push_all L i1 []) as [p1|er|]; cbn [bind]; try reflexivity.
  rewrite E2. cbn [bind]. unfold enc_drain_all.
  destruct (enc_drain_spec L (S (N.to_nat (ba_bits a2))) a2 (q1 ++ checksum_bits e) p1) as
    [i3 [q3 [a4 [F3 [Hq3 [Hl4 [R4 E4]]]]]]]; [exact R2|lia| |].
  { destruct R2 as [_ R2]. rewrite R2. lia. }
  assert (HI3 : index_bits (i1 ++ i3) ++ q3 = bip39_bits e).
  { unfold bip39_bits. rewrite index_bits_app, <- app_assoc, Hq3, app_assoc, Hq1. reflexivity. }
  assert (Hq3nil : q3 = []) by (eapply HT; [exact HI3|exact Hl4]). subst q3.
  assert (i3 = i2).
  { apply index_bits_inj; [assumption|assumption|].
    apply (f_equal (fun l => l)) in Hq3. rewrite app_nil_r in Hq2, Hq3. congruence. }
  subst i3. rewrite E4. destruct (push_all L i2 p1) as [p2|er|]; cbn [bind]; try reflexivity.
  destruct R4 as [_ R4]. rewrite R4. cbn. rewrite andb_false_r. reflexivity.
Qed.

(** Other lengths are rejected with the exact bit count. *)
Lemma from_key_size_illegal n : ~ legal_entropy_len n ->
  from_key_size (N.of_nat n * 8) = Err (BadEntropyBitCount (N.of_nat n * 8)).
Proof.
  intros H. unfold legal_entropy_len in H. cbn [In] in H.
  remember (N.of_nat n * 8) as m eqn:Em. unfold from_key_size.
  destruct m as [|m]; [reflexivity|].
  repeat (match goal with |- context[match ?x with _ => _ end] => destruct x; try reflexivity end);
    exfalso; apply H; lia.
Qed.

Lemma encode_illegal B L e :
  ~ legal_entropy_len (length e) -> N.of_nat (length e) * 8 < 2 ^ b_usize_bits B ->
  encode_entropy_with B L e = Err (BadEntropyBitCount (8 * N.of_nat (length e))).
Proof.
  intros H Hw. unfold encode_entropy_with, mul_usize. change BITS_PER_BYTE with 8.
  destruct (N.of_nat (length e) * 8 <? 2 ^ b_usize_bits B) eqn:EW; [|lia]. cbn [bind].
  rewrite from_key_size_illegal by exact H. cbn [bind]. do 2 f_equal. lia.
Qed.

(** Words of the indices. *)
Lemma push_all_words L idxs ws : Forall2 (fun i w => any_word_of L i = Some w) idxs ws ->
  forall p, push_all L idxs p = Ok (fold_left push_word ws p).
Proof.
  induction 1 as [|i w idxs ws H F IH]; intros p; cbn [push_all fold_left]; [reflexivity|].
  unfold enc_push_index. rewrite H. cbn [bind]. apply IH.
Qed.

Lemma words_exist L idxs :
  (forall i, i < 2048 -> any_word_of L i <> None) -> Forall (fun i => i < 2048) idxs ->
  exists ws, Forall2 (fun i w => any_word_of L i = Some w) idxs ws.
Proof.
  intros HL. induction 1 as [|i idxs Hi F [ws IH]]; [exists []; constructor|].
  specialize (HL i Hi). destruct (any_word_of L i) as [w|] eqn:E; [|contradiction].
  exists (w :: ws). constructor; assumption.
Qed.
