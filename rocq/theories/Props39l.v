(** C95: what the local variables of bip0039 keep of the entropy and the phrase. *)
From Verif Require Import Base Sha2 Str BitAcc Language39 Mnemonic39 Spec39 BitsProofs StrProofs EncProofs DecProofs
  LangSpec39 LangProofs MnemonicProofs Unicode Builtin39 Locals39 Props39.

Definition lastv {A} (l : list A) (d : option A) : option A := fold_left (fun _ i => Some i) l d.
Lemma lastv_app {A} (l m : list A) d : lastv (l ++ m) d = lastv m (lastv l d).
Proof. apply fold_left_app. Qed.

(** ** The results are those of the functions without variables *)
Lemma enc_drain_v_fst L fuel : forall a p v,
  (let? (a', p', _) := enc_drain_v L fuel a p v in Ok (a', p')) = enc_drain L fuel a p.
Proof.
  induction fuel as [|fuel IH]; intros a p v; [reflexivity|]. cbn [enc_drain_v enc_drain].
  destruct (can_take a BITS_PER_WORD); [|reflexivity].
  destruct (take_bits a BITS_PER_WORD) as [[i a']| |]; cbn [bind]; [|reflexivity..].
  destruct (enc_push_index L i p) as [p'| |]; cbn [bind]; [apply IH|reflexivity..].
Qed.
Lemma enc_bytes_v_fst L e : forall a p vb vi,
  (let? (a', p', _, _) := enc_bytes_v L e a p vb vi in Ok (a', p')) = enc_bytes L e a p.
Proof.
  induction e as [|b e IH]; intros a p vb vi; [reflexivity|]. cbn [enc_bytes_v enc_bytes].
  destruct (push_bits a (b2n b) BITS_PER_BYTE) as [a1| |]; cbn [bind]; [|reflexivity..].
  unfold enc_drain_all. rewrite <- (enc_drain_v_fst L _ a1 p vi).
  destruct (enc_drain_v _ _ _ _ _) as [[[a2 p2] v2]| |]; cbn [bind]; [apply IH|reflexivity..].
Qed.
Lemma encode_v_snd B L e : snd (encode_v B L e) = encode_entropy_with B L e.
Proof.
  unfold encode_v, encode_entropy_with.
  destruct (mul_usize _ _ _) as [size| |]; cbn [bind]; [|reflexivity..].
  destruct (from_key_size size) as [c| |]; cbn [bind]; [|reflexivity..].
  cbv zeta. rewrite <- (enc_bytes_v_fst L e ba_new [] None None).
  destruct (enc_bytes_v _ _ _ _ _ _) as [[[[a p] vb] vi]| |]; cbn [bind]; [|reflexivity..].
  destruct (push_bits _ _ _) as [a1| |]; cbn [bind]; [|reflexivity..].
  unfold enc_drain_all. rewrite <- (enc_drain_v_fst L _ a1 p None).
  destruct (enc_drain_v _ _ _ _ _) as [[[a2 p2] v2]| |]; cbn [bind]; [|reflexivity..].
  destruct (_ && _); reflexivity.
Qed.
Lemma drain_checksum_v_fst fuel : forall s vb,
  (let? (s', _) := drain_checksum_v fuel s vb in Ok s') = drain_checksum fuel s.
Proof.
  induction fuel as [|fuel IH]; intros s vb; [reflexivity|]. cbn [drain_checksum_v drain_checksum].
  destruct (_ && _); [|reflexivity]. destruct (take_bits _ _) as [[b a']| |]; cbn [bind]; [apply IH|reflexivity..].
Qed.
Lemma dec_push_v_fst s i vb : (let? (s', _) := dec_push_index_v s i vb in Ok s') = dec_push_index s i.
Proof.
  unfold dec_push_index_v, dec_push_index. destruct (push_bits _ _ _) as [a| |]; cbn [bind]; [|reflexivity..].
  destruct (drain_bytes _ _) as [s2| |]; cbn [bind]; [apply drain_checksum_v_fst|reflexivity..].
Qed.
Lemma decode_words_v_snd L ws : forall norm s vi vb, snd (decode_words_v L ws norm s vi vb) = decode_words L ws norm s.
Proof.
  induction ws as [|w ws IH]; intros norm s vi vb; [reflexivity|]. cbn [decode_words_v decode_words].
  destruct (any_index_of L w) as [i|]; [|reflexivity]. rewrite <- (dec_push_v_fst s i vb).
  destruct (dec_push_index_v s i vb) as [[s' vb']| |]; cbn [bind]; [apply IH|reflexivity..].
Qed.
Lemma dec_finish_v_snd s v : snd (dec_finish_v s v) = dec_finish s.
Proof. unfold dec_finish_v, dec_finish. repeat (destruct (negb _); [reflexivity|]). reflexivity. Qed.
Lemma decode_v_snd L s mode : snd (decode_v L s mode) = decode_phrase_with L s mode.
Proof.
  unfold decode_v, decode_phrase_with. destruct (parse_params_from_phrase s) as [p| |]; cbn [bind]; [|reflexivity..].
  cbv zeta. rewrite <- (decode_words_v_snd L _ _ _ None None).
  destruct (decode_words_v _ _ _ _ _ _) as [v [[norm st]| |]]; cbn [snd bind]; [|reflexivity..].
  rewrite <- (dec_finish_v_snd st v). destruct (dec_finish_v st v) as [v' [e| |]]; reflexivity.
Qed.

Theorem C95_same_results U B :
  (forall L e, snd (encode_v B L e) = encode_entropy_with B L e) /\
  (forall L s mode, snd (decode_v L s mode) = decode_phrase_with L s mode) /\
  (forall L s, (let? d := snd (decode_v (any_of L) (normalize_utf8 U s) ValidateOnly) in Ok tt) = validate U L s) /\
  (forall L fill c, snd (generate_v B L fill c) = generate B L fill c) /\
  (forall L fill c, snd (any_generate_v B L fill c) = any_generate B L fill c).
Proof.
  split; [intros; apply encode_v_snd|]. split; [intros; apply decode_v_snd|].
  split; [intros; rewrite decode_v_snd; reflexivity|].
  split; intros L fill c.
  - unfold generate_v, generate, from_entropy, encode_entropy.
    destruct c; cbn [gen_size]; rewrite <- encode_v_snd; destruct (encode_v _ _ _) as [v r]; reflexivity.
  - unfold any_generate_v, any_generate, any_from_entropy.
    destruct c; cbn [gen_size]; rewrite <- encode_v_snd; destruct (encode_v _ _ _) as [v r]; reflexivity.
Qed.
Print Assumptions C95_same_results.

(** ** Encoding *)
Lemma enc_drain_v_spec L fuel : forall a q p v,
  acc_rep a q -> (length q < 64)%nat -> (length q < fuel)%nat ->
  exists idxs q' a', Forall (fun i => i < 2048) idxs /\ index_bits idxs ++ q' = q /\
    (length q' < 11)%nat /\ acc_rep a' q' /\
    forall a2 p2 v2, enc_drain_v L fuel a p v = Ok (a2, p2, v2) -> a2 = a' /\ v2 = lastv idxs v.
Proof.
  induction fuel as [|fuel IH]; intros a q p v HR H64 Hf; [lia|].
  cbn [enc_drain_v]. change BITS_PER_WORD with (N.of_nat 11). rewrite (can_take_rep a q 11 HR).
  destruct (Nat.leb_spec 11 (length q)) as [H11|H11].
  - destruct (@take_rep err39 a q 11 HR H11 ltac:(lia) ltac:(lia)) as [a1 [E1 R1]].
    rewrite E1. cbn [bind].
    assert (HL : length (firstn 11 q) = 11%nat) by (rewrite firstn_length; lia).
    pose proof (bits_val_bound (firstn 11 q)) as HB. rewrite HL in HB. change (2 ^ N.of_nat 11) with 2048 in HB.
    set (i := bits_val (firstn 11 q)) in *.
    assert (G : forall p1, exists idxs q' a', Forall (fun i => i < 2048) idxs /\ index_bits idxs ++ q' = q /\
      (length q' < 11)%nat /\ acc_rep a' q' /\
      forall a2 p2 v2, enc_drain_v L fuel a1 p1 (Some i) = Ok (a2, p2, v2) -> a2 = a' /\ v2 = lastv idxs v).
    { intros p1. destruct (IH a1 (skipn 11 q) p1 (Some i) R1) as [idxs [q' [a' [F [Hq [Hq' [R' E]]]]]]];
        [rewrite skipn_length; lia|rewrite skipn_length; lia|].
      exists (i :: idxs), q', a'. split; [constructor; assumption|]. split; [|split; [exact Hq'|split; [exact R'|exact E]]].
      rewrite index_bits_cons, <- app_assoc, Hq. unfold i. rewrite <- HL at 1. rewrite bits_msb_val. apply firstn_skipn. }
    destruct (enc_push_index L i p) as [p1|e|]; cbn [bind]; [apply G| |].
    + destruct (G p) as [idxs [q' [a' [F [Hq [Hq' [R' _]]]]]]]. exists idxs, q', a'. repeat split; try assumption; try apply R'; discriminate.
    + destruct (G p) as [idxs [q' [a' [F [Hq [Hq' [R' _]]]]]]]. exists idxs, q', a'. repeat split; try assumption; try apply R'; discriminate.
  - exists [], q, a. split; [constructor|]. split; [reflexivity|]. split; [exact H11|]. split; [exact HR|].
    intros a2 p2 v2 E. inversion E. split; reflexivity.
Qed.
Lemma enc_bytes_v_spec L e : forall a q p vb vi a2 p2 vb2 vi2,
  acc_rep a q -> (length q < 11)%nat -> enc_bytes_v L e a p vb vi = Ok (a2, p2, vb2, vi2) ->
  exists idxs q', Forall (fun i => i < 2048) idxs /\ index_bits idxs ++ q' = q ++ bytes_bits e /\
    (length q' < 11)%nat /\ acc_rep a2 q' /\ vi2 = lastv idxs vi /\ vb2 = lastv e vb.
Proof.
  induction e as [|b e IH]; intros a q p vb vi a2 p2 vb2 vi2 HR Hq; cbn [enc_bytes_v].
  - intros E. assert (a2 = a /\ vb2 = vb /\ vi2 = vi) as [-> [-> ->]] by (inversion E; repeat split).
    exists [], q. cbn [index_bits flat_map app bytes_bits]. rewrite app_nil_r.
    split; [constructor|]. split; [reflexivity|]. split; [exact Hq|]. split; [exact HR|]. split; reflexivity.
  - change BITS_PER_BYTE with (N.of_nat 8).
    destruct (@push_rep err39 a q (b2n b) 8 HR ltac:(lia) ltac:(lia)) as [a1 [E1 R1]].
    rewrite E1. cbn [bind]. set (q1 := q ++ bits_msb 8 (b2n b)) in *.
    assert (Hl1 : length q1 = (length q + 8)%nat) by (unfold q1; rewrite app_length, bits_msb_length; reflexivity).
    destruct (enc_drain_v_spec L (S (N.to_nat (ba_bits a1))) a1 q1 p vi R1) as [i1 [q2 [a3 [F1 [Hq1 [Hq2 [R2 E2]]]]]]].
    { lia. }
    { destruct R1 as [_ R1]. rewrite R1. lia. }
    destruct (enc_drain_v _ _ _ _ _) as [[[a4 p4] v4]| |]; cbn [bind]; [|discriminate..].
    destruct (E2 _ _ _ eq_refl) as [-> ->]. intros E.
    destruct (IH _ _ _ _ _ _ _ _ _ R2 Hq2 E) as [i2 [q3 [F2 [Hq3 [Hl3 [R3 [V1 V2]]]]]]].
    exists (i1 ++ i2), q3. split; [apply Forall_app; split; assumption|].
    split; [|split; [exact Hl3|split; [exact R3|split; [rewrite lastv_app; exact V1|exact V2]]]].
    rewrite index_bits_app, <- app_assoc, Hq3, app_assoc, Hq1. unfold q1.
    rewrite bytes_bits_cons, <- app_assoc. reflexivity.
Qed.

Lemma lastv_snoc {A} (l : list A) x d : lastv (l ++ [x]) d = Some x.
Proof. rewrite lastv_app. reflexivity. Qed.
Lemma split_last {A} (l : list A) : l <> [] -> exists l' x, l = l' ++ [x].
Proof. intros H. destruct (exists_last H) as [l' [x E]]. exists l', x. exact E. Qed.

(** The tail of [32k] entropy and [k] checksum bits, read off the last two indices *)
Lemma tail_values (k : nat) W u v V b cs :
  (k <= 8)%nat -> u < 2048 -> v < 2048 -> b < 256 -> cs < 2 ^ N.of_nat k ->
  (V * 256 + b) * 2 ^ N.of_nat k + cs = (W * 2048 + u) * 2048 + v ->
  b = (u * 2048 + v) / 2 ^ N.of_nat k mod 256 /\ cs = v mod 2 ^ N.of_nat k.
Proof.
  intros Hk Hu Hv Hb Hc E.
  assert (P : 2 ^ N.of_nat k <> 0) by (apply N.pow_nonzero; lia).
  assert (P11 : 2048 = 2 ^ (11 - N.of_nat k) * 2 ^ N.of_nat k).
  { rewrite <- N.pow_add_r. replace (11 - N.of_nat k + N.of_nat k) with 11 by lia. reflexivity. }
  assert (P22 : 2048 * 2048 = 2 ^ (14 - N.of_nat k) * 256 * 2 ^ N.of_nat k).
  { change 256 with (2 ^ 8). rewrite <- !N.pow_add_r. replace (14 - N.of_nat k + 8 + N.of_nat k) with 22 by lia. reflexivity. }
  split.
  - assert (D : V * 256 + b = ((W * 2048 + u) * 2048 + v) / 2 ^ N.of_nat k).
    { rewrite <- E, N.div_add_l by exact P. rewrite (N.div_small cs) by exact Hc. lia. }
    replace ((W * 2048 + u) * 2048 + v) with (W * 2 ^ (14 - N.of_nat k) * 256 * 2 ^ N.of_nat k + (u * 2048 + v)) in D.
    + rewrite N.div_add_l in D by exact P.
      assert (D2 : (V * 256 + b) mod 256 = (W * 2 ^ (14 - N.of_nat k) * 256 + (u * 2048 + v) / 2 ^ N.of_nat k) mod 256)
        by (rewrite D; reflexivity).
      rewrite !(N.add_comm (_ * 256)), !N.mod_add in D2 by lia. rewrite (N.mod_small b) in D2 by exact Hb. exact D2.
    + replace (W * 2 ^ (14 - N.of_nat k) * 256 * 2 ^ N.of_nat k) with (W * (2 ^ (14 - N.of_nat k) * 256 * 2 ^ N.of_nat k)) by lia.
      rewrite <- P22. lia.
  - assert (D : ((V * 256 + b) * 2 ^ N.of_nat k + cs) mod 2 ^ N.of_nat k = ((W * 2048 + u) * 2048 + v) mod 2 ^ N.of_nat k)
      by (rewrite E; reflexivity).
    replace ((W * 2048 + u) * 2048) with ((W * 2048 + u) * 2 ^ (11 - N.of_nat k) * 2 ^ N.of_nat k) in D
      by (rewrite <- N.mul_assoc, <- P11; reflexivity).
    rewrite !(N.add_comm (_ * 2 ^ N.of_nat k)), !N.mod_add in D by exact P. rewrite (N.mod_small cs) in D by exact Hc. exact D.
Qed.

Lemma index_val_snoc l i : i < 2048 -> bits_val (index_bits (l ++ [i])) = bits_val (index_bits l) * 2048 + i.
Proof.
  intros H. rewrite index_bits_app, bits_val_app. cbn [index_bits flat_map]. rewrite app_nil_r, bits_msb_length, bits_val_msb.
  change (2 ^ N.of_nat 11) with 2048. rewrite N.mod_small by exact H. reflexivity.
Qed.
Lemma bytes_val_snoc l b : bits_val (bytes_bits (l ++ [b])) = bits_val (bytes_bits l) * 256 + b2n b.
Proof.
  rewrite bytes_bits_app, bits_val_app. cbn [bytes_bits flat_map]. rewrite app_nil_r, bits_msb_length, bits_val_msb.
  change (2 ^ N.of_nat 8) with 256. rewrite N.mod_small by apply b2n_bound. reflexivity.
Qed.
Lemma checksum_val e k : (k <= 8)%nat -> (length e * 8 / 32 = k)%nat ->
  N.shiftr (b2n (hd x00 (sha256 e))) (8 - N.of_nat k) = bits_val (checksum_bits e) /\ length (checksum_bits e) = k.
Proof.
  intros Hk8 Hk.
  assert (Hcd : checksum_bits e = bits_msb k (N.shiftr (b2n (hd x00 (sha256 e))) (8 - N.of_nat k))).
  { unfold checksum_bits. rewrite Hk, checksum_split by exact Hk8. symmetry. apply shiftr_bits. exact Hk8. }
  rewrite Hcd. split; [|apply bits_msb_length]. rewrite bits_val_msb. symmetry. apply N.mod_small.
  rewrite N.shiftr_div_pow2. pose proof (b2n_bound (hd x00 (sha256 e))) as Hb.
  apply N.div_lt_upper_bound; [apply N.pow_nonzero; lia|].
  rewrite <- N.pow_add_r. replace (8 - N.of_nat k + N.of_nat k) with 8 by lia. exact Hb.
Qed.

(** After a successful encoding the variables hold the last two word indices, what these determine
    (the last byte and the checksum), and the first byte of the hash.  The accumulator is empty. *)
Theorem C95_encode B L e phrase :
  valid_build B -> legal_entropy_len (length e) -> snd (encode_v B L e) = Ok phrase ->
  exists idxs u v, bip39_indices e (idxs ++ [u; v]) /\
    fst (encode_v B L e) =
      {| ev_checksum_byte := Some (hd x00 (sha256 e));
         ev_acc := {| ba_acc := 0; ba_bits := 0 |};
         ev_byte := Some (n2b ((u * 2048 + v) / 2 ^ (N.of_nat (length e) / 4) mod 256));
         ev_index := Some u;
         ev_checksum_bits := Some (v mod 2 ^ (N.of_nat (length e) / 4));
         ev_index_last := Some v |}.
Proof.
  intros HB Hlen. unfold encode_v, mul_usize. change BITS_PER_BYTE with 8.
  destruct (N.of_nat (length e) * 8 <? 2 ^ b_usize_bits B) eqn:EW.
  2:{ exfalso. apply N.ltb_ge in EW. revert EW. apply N.lt_nge. apply (valid_build_bits B _ HB (legal_le _ Hlen)). }
  cbn [bind]. destruct (from_key_size_ok e Hlen) as [c Hc]. rewrite Hc. cbn [bind].
  destruct (from_key_size_legal e c Hc) as [_ [Hcs Hcs2]].
  assert (Hcs8 : (N.to_nat (checksum_bit_length c) <= 8)%nat) by (destruct c; cbn; lia).
  assert (Hcs4 : (4 <= N.to_nat (checksum_bit_length c))%nat) by (destruct c; cbn; lia).
  set (k := N.to_nat (checksum_bit_length c)) in *. cbv zeta.
  assert (Hk : checksum_bit_length c = N.of_nat k) by (unfold k; lia).
  clearbody k. rewrite Hk.
  destruct (checksum_val e k Hcs8 (eq_sym Hcs)) as [HV HCL].
  assert (Hle : length e = (4 * k)%nat) by lia.
  assert (K4 : N.of_nat (length e) / 4 = N.of_nat k).
  { rewrite Hle. replace (N.of_nat (4 * k)) with (N.of_nat k * 4) by lia. apply N.div_mul. lia. }
  destruct (enc_bytes_v L e ba_new [] None None) as [[[[a1 p1] vb] vi]| |] eqn:E1; cbn [bind snd fst]; [|discriminate..].
  destruct (enc_bytes_v_spec L e ba_new [] [] None None a1 p1 vb vi acc_rep_new ltac:(cbn; lia) E1)
    as [i1 [q1 [F1 [Hq1 [Hl1 [R1 [Vi Vb]]]]]]]. cbn [app] in Hq1.
  rewrite HV.
  destruct (@push_rep err39 a1 q1 (bits_val (checksum_bits e)) k R1 ltac:(lia) ltac:(lia)) as [a2 [E2 R2]].
  rewrite E2. cbn [bind]. rewrite <- HCL, bits_msb_val in R2.
  assert (Hl2 : length (q1 ++ checksum_bits e) = (length q1 + k)%nat) by (rewrite app_length, HCL; reflexivity).
  destruct (enc_drain_v_spec L (S (N.to_nat (ba_bits a2))) a2 (q1 ++ checksum_bits e) p1 None R2)
    as [i2 [q2 [a3 [F2 [Hq2 [Hl3 [R3 E3]]]]]]]; [lia| |].
  { destruct R2 as [_ R2]. rewrite R2. lia. }
  destruct (enc_drain_v _ _ _ _ _) as [[[a4 p4] v4]| |]; cbn [bind]; [|discriminate..].
  destruct (E3 _ _ _ eq_refl) as [-> ->].
  assert (X1 := f_equal (@length bool) Hq1). rewrite !app_length, index_bits_length, bytes_bits_length, Hle in X1.
  assert (X2 := f_equal (@length bool) Hq2). rewrite !app_length, index_bits_length, HCL in X2.
  assert (L2 : length i2 = 1%nat /\ length q2 = 0%nat) by lia. destruct L2 as [L2 L3].
  destruct i2 as [|v [|? ?]]; try discriminate L2. destruct q2; [|discriminate L3].
  destruct (split_last i1) as [idxs [u ->]]; [intros ->; cbn [length] in X1; lia|].
  destruct (split_last e) as [e' [b Ee]]; [intros ->; cbn [length] in Hle; lia|].
  rewrite app_nil_r in Hq2.
  assert (HI : index_bits (idxs ++ [u; v]) = bip39_bits e).
  { change [u; v] with ([u] ++ [v]). rewrite app_assoc, index_bits_app, Hq2, app_assoc, Hq1. reflexivity. }
  apply Forall_app in F1 as [F1 F1u]. assert (Hu : u < 2048) by (inversion F1u; assumption).
  assert (Hv : v < 2048) by (inversion F2; assumption).
  assert (HVal := f_equal bits_val HI). unfold bip39_bits in HVal. rewrite bits_val_app, HCL in HVal.
  change [u; v] with ([u] ++ [v]) in HVal. rewrite app_assoc in HVal.
  rewrite !index_val_snoc in HVal by assumption. rewrite Ee in HVal at 1. rewrite bytes_val_snoc in HVal.
  assert (BC := bits_val_bound (checksum_bits e)). rewrite HCL in BC.
  destruct (tail_values k _ u v _ (b2n b) _ Hcs8 Hu Hv (b2n_bound b) BC (eq_sym HVal)) as [T1 T2].
  intros Hok. exists idxs, u, v. split.
  { split; [|exact HI]. apply Forall_app. split; [exact F1|]. constructor; [exact Hu|]. exact F2. }
  rewrite K4, <- T1, <- T2, n2b_b2n, Vi, lastv_snoc, Vb, Ee, lastv_snoc.
  destruct R3 as [R3 R3']. cbn [length] in R3'. destruct a3 as [acc bits]. cbn [ba_acc ba_bits] in *. subst acc bits.
  cbn [N.of_nat N.eqb negb]. rewrite andb_false_r. reflexivity.
Qed.
Print Assumptions C95_encode.

(** ** Decoding *)
(** The last checksum bit read, [None] before the first *)
Definition bit_ok (s : DecodeState) (vb : option N) : Prop :=
  vb = if d_cs_filled s =? 0 then None else Some (d_cs s mod 2).

Lemma lor_bit c b : b < 2 -> N.lor (N.shiftl c 1 mod 256) (b mod 256) mod 2 = b.
Proof.
  intros H. rewrite (N.mod_small b) by lia. rewrite <- N.bit0_mod, N.lor_spec.
  change 256 with (2 ^ 8). rewrite N.mod_pow2_bits_low by lia. rewrite N.shiftl_spec_low by lia. cbn [orb].
  rewrite N.bit0_mod. apply N.mod_small. exact H.
Qed.
Lemma take1 a v a' : @take_bits err39 a 1 = Ok (v, a') -> v < 2.
Proof.
  unfold take_bits. destruct (_ <? _); [discriminate|]. destruct (_ || _); [discriminate|].
  intros E. assert (V : N.land (N.shiftr (ba_acc a) (ba_bits a - 1)) (N.shiftl 1 1 - 1) = v) by congruence.
  rewrite <- V, land_mask. apply N.mod_lt. discriminate.
Qed.
Lemma drain_checksum_v_bit fuel : forall s vb s' vb', bit_ok s vb -> drain_checksum_v fuel s vb = Ok (s', vb') -> bit_ok s' vb'.
Proof.
  induction fuel as [|fuel IH]; intros s vb s' vb' HB; [discriminate|]. cbn [drain_checksum_v].
  destruct (_ && _); [|intros E; assert (s' = s /\ vb' = vb) as [-> ->] by (split; congruence); exact HB].
  destruct (take_bits (d_acc s) 1) as [[b a]| |] eqn:T; cbn [bind]; [|discriminate..].
  apply IH. unfold bit_ok. cbn [d_cs d_cs_filled]. apply take1 in T. rewrite lor_bit by exact T.
  rewrite (N.mod_small b) by lia. destruct (d_cs_filled s + 1 =? 0) eqn:Z; [lia|reflexivity].
Qed.
Lemma drain_bytes_cs fuel : forall s s', drain_bytes fuel s = Ok s' -> d_cs s' = d_cs s /\ d_cs_filled s' = d_cs_filled s.
Proof.
  induction fuel as [|fuel IH]; intros s s'; [discriminate|]. cbn [drain_bytes].
  destruct (_ && _); [|intros E; assert (s' = s) as -> by congruence; split; reflexivity].
  destruct (take_bits _ _) as [[v a]| |]; cbn [bind]; [|discriminate..].
  destruct (set_at _ _ _) as [l| |]; cbn [bind]; [|discriminate..]. intros E. apply IH in E. exact E.
Qed.
Lemma dec_push_v_bit s i vb s' vb' : bit_ok s vb -> dec_push_index_v s i vb = Ok (s', vb') -> bit_ok s' vb'.
Proof.
  intros HB. unfold dec_push_index_v. destruct (push_bits _ _ _) as [a| |]; cbn [bind]; [|discriminate..].
  destruct (drain_bytes _ _) as [s2| |] eqn:D; cbn [bind]; [|discriminate..].
  apply drain_bytes_cs in D as [D1 D2]. cbn [d_cs d_cs_filled] in D1, D2.
  apply drain_checksum_v_bit. unfold bit_ok. rewrite D1, D2. exact HB.
Qed.

Lemma decode_words_v_spec L params n k :
  p_entropy_len params = N.of_nat n -> p_cs_len params = N.of_nat k -> (k <= 8)%nat ->
  forall ws norm s P done cb q vi vb,
  Inv params n k s P done cb q -> Drained n k done cb q -> bit_ok s vb ->
  (length P + 11 * length ws <= 8 * n + k)%nat ->
  exists known rest idxs s' done' cb' q' vb', ws = known ++ rest /\
    Forall2 (fun w i => any_index_of L w = Some i) known idxs /\
    Inv params n k s' (P ++ index_bits idxs) done' cb' q' /\ Drained n k done' cb' q' /\ bit_ok s' vb' /\
    fst (decode_words_v L ws norm s vi vb) = vars_of s' (lastv idxs vi) vb' /\
    match rest with
    | [] => exists nm, snd (decode_words_v L ws norm s vi vb) = Ok (nm, s')
    | w :: _ => any_index_of L w = None /\ snd (decode_words_v L ws norm s vi vb) = Err (UnknownWord w)
    end.
Proof.
  intros Hn Hk Hk8. induction ws as [|w ws IH]; intros norm s P done cb q vi vb HI HD HB HP.
  - exists [], [], [], s, done, cb, q, vb. cbn [decode_words_v index_bits flat_map fst snd].
    split; [reflexivity|]. split; [constructor|]. split; [rewrite app_nil_r; exact HI|]. split; [exact HD|]. split; [exact HB|].
    split; [reflexivity|]. exists norm. reflexivity.
  - cbn [decode_words_v]. destruct (any_index_of L w) as [i|] eqn:Ei.
    + destruct (push_index_spec params n k Hn Hk Hk8 s P done cb q i HI HD) as [s1 [d1 [c1 [q1 [E1 [I1 D1]]]]]]; [lia|].
      rewrite <- (dec_push_v_fst s i vb) in E1.
      destruct (dec_push_index_v s i vb) as [[s2 vb2]| |] eqn:EV; cbn [bind] in E1; [|discriminate..].
      assert (s2 = s1) as -> by congruence.
      pose proof (dec_push_v_bit s i vb s1 vb2 HB EV) as HB2.
      set (norm1 := match norm with None => None | Some out => Some ((if is_empty out then out else out ++ [32]) ++ w) end).
      destruct (IH norm1 s1 (P ++ bits_msb 11 i) d1 c1 q1 (Some i) vb2 I1 D1 HB2)
        as [known [rest [idxs [s' [d' [c' [q' [vb' [H1 [H2 [H3 [H4 [H5 [H6 H7]]]]]]]]]]]]]].
      { rewrite app_length, bits_msb_length. cbn [length] in HP. lia. }
      exists (w :: known), rest, (i :: idxs), s', d', c', q', vb'.
      split; [cbn [app]; congruence|]. split; [constructor; assumption|].
      split; [rewrite index_bits_cons, app_assoc; exact H3|]. split; [exact H4|]. split; [exact H5|].
      split; [exact H6|]. exact H7.
    + exists [], (w :: ws), [], s, done, cb, q, vb. cbn [index_bits flat_map fst].
      split; [reflexivity|]. split; [constructor|]. split; [rewrite app_nil_r; exact HI|]. split; [exact HD|]. split; [exact HB|].
      split; [reflexivity|split; [exact Ei|reflexivity]].
Qed.

Lemma decode_v_words L s mode : legal_word_count (length (split_whitespace s)) ->
  exists params k known rest idxs s' done cb q vb,
    parse_params_from_phrase s = Ok params /\ p_entropy_len params = N.of_nat (4 * k) /\ p_cs_len params = N.of_nat k /\
    (4 <= k <= 8)%nat /\ length (split_whitespace s) = (3 * k)%nat /\ split_whitespace s = known ++ rest /\
    Forall2 (fun w i => any_index_of L w = Some i) known idxs /\
    Inv params (4 * k) k s' (index_bits idxs) done cb q /\ Drained (4 * k) k done cb q /\ bit_ok s' vb /\
    let r := decode_words_v L (split_whitespace s)
               match mode with ValidateOnly => None | BuildNormalizedPhrase => Some [] end (decode_state_new params) None None in
    fst r = vars_of s' (lastv idxs None) vb /\
    match rest with [] => exists nm, snd r = Ok (nm, s') | w :: _ => any_index_of L w = None /\ snd r = Err (UnknownWord w) end.
Proof.
  intros HL. set (ws := split_whitespace s) in *.
  destruct (from_word_count_cases (length ws)) as [[_ [c [Hc [Hk3 [Hk32 Hwc]]]]]|[HN _]]; [|contradiction].
  set (params := {| p_entropy_len := entropy_bit_length c / BITS_PER_BYTE;
                    p_cs_len := checksum_bit_length c; p_count := c |}).
  set (k := N.to_nat (checksum_bit_length c)) in *.
  assert (Hn : p_entropy_len params = N.of_nat (4 * k)) by (unfold k; destruct c; reflexivity).
  assert (Hk : p_cs_len params = N.of_nat k) by (unfold k; destruct c; reflexivity).
  assert (Hk8 : (4 <= k <= 8)%nat) by (unfold k; destruct c; cbn; lia).
  assert (HP : parse_params_from_phrase s = Ok params).
  { unfold parse_params_from_phrase, count_from_phrase. fold ws. rewrite Hc. reflexivity. }
  assert (I0 : Inv params (4 * k) k (decode_state_new params) [] [] [] []).
  { unfold Inv, decode_state_new. cbn [d_params d_entropy d_out d_acc d_cs d_cs_filled length app bytes_bits flat_map].
    rewrite Hn, Nat2N.id, Nat.sub_0_r. repeat split; lia. }
  assert (D0 : Drained (4 * k) k [] [] []) by (split; [cbn; lia|left; reflexivity]).
  clearbody k params.
  destruct (decode_words_v_spec L params (4 * k) k Hn Hk ltac:(lia) ws
    match mode with ValidateOnly => None | BuildNormalizedPhrase => Some [] end _ [] [] [] [] None None I0 D0 eq_refl)
    as [known [rest [idxs [s' [d' [c' [q' [vb' [H1 [H2 [H3 [H4 [H5 [H6 H7]]]]]]]]]]]]]]; [cbn [length]; lia|].
  exists params, k, known, rest, idxs, s', d', c', q', vb'. cbv zeta.
  split; [exact HP|]. split; [exact Hn|]. split; [exact Hk|]. split; [exact Hk8|]. split; [lia|]. split; [exact H1|].
  split; [exact H2|]. split; [exact H3|]. split; [exact H4|]. split; [exact H5|]. split; [exact H6|exact H7].
Qed.

Lemma prefix_idxs (f : str -> option N) pre w post known rest idxs idxs' :
  Forall2 (fun v i => f v = Some i /\ i < 2048) pre idxs -> f w = None ->
  pre ++ w :: post = known ++ rest -> Forall2 (fun v i => f v = Some i) known idxs' ->
  (forall w', hd_error rest = Some w' -> f w' = None) -> idxs' = idxs /\ rest = w :: post.
Proof.
  intros F Hw. revert known idxs'. induction F as [|v i pre idxs [Hv Hi] F IH]; intros known idxs' E G HR.
  - destruct known as [|v known]; cbn [app] in E.
    + inversion G. split; [reflexivity|congruence].
    + exfalso. assert (v = w) as -> by congruence. inversion G. congruence.
  - destruct known as [|v' known]; cbn [app] in E.
    + exfalso. subst rest. specialize (HR v eq_refl). congruence.
    + assert (v' = v) as -> by congruence. assert (E' : pre ++ w :: post = known ++ rest) by congruence.
      inversion G as [|? i' ? idxs'' G1 G2]; subst. destruct (IH known idxs'' E' G2 HR) as [-> ->].
      split; [f_equal; congruence|reflexivity].
Qed.

Lemma all_known (f : str -> option N) ws known rest idxs idxs' :
  Forall2 (fun v i => f v = Some i /\ i < 2048) ws idxs ->
  ws = known ++ rest -> Forall2 (fun v i => f v = Some i) known idxs' ->
  (forall w', hd_error rest = Some w' -> f w' = None) -> idxs' = idxs /\ rest = [].
Proof.
  intros F. revert known idxs'. induction F as [|v i ws idxs [Hv Hi] F IH]; intros known idxs' E G HR.
  - destruct known as [|v known]; [|discriminate]. cbn [app] in E. inversion G. split; [reflexivity|congruence].
  - destruct known as [|v' known]; cbn [app] in E.
    + exfalso. subst rest. specialize (HR v eq_refl). congruence.
    + assert (v' = v) as -> by congruence. assert (E' : ws = known ++ rest) by congruence.
      inversion G as [|? i' ? idxs'' G1 G2]; subst. destruct (IH known idxs'' eq_refl G2 HR) as [-> ->].
      split; [f_equal; congruence|reflexivity].
Qed.

Lemma forall2_bound (f : str -> option N) pre idxs :
  Forall2 (fun v i => f v = Some i /\ i < 2048) pre idxs -> forall i, In i idxs -> i < 2048.
Proof. intros F. induction F as [|v j pre idxs [_ H] F IH]; intros i []; [congruence|apply IH; assumption]. Qed.

Lemma suffix_val idxs i done q :
  i < 2048 -> index_bits (idxs ++ [i]) = bytes_bits done ++ q -> (length q < 8)%nat ->
  bits_val q = i mod 2 ^ N.of_nat (length q).
Proof.
  intros Hi E Hq. apply (f_equal bits_val) in E. rewrite index_val_snoc, bits_val_app in E by exact Hi.
  assert (P : 2 ^ N.of_nat (length q) <> 0) by (apply N.pow_nonzero; lia).
  assert (P11 : 2048 = 2 ^ (11 - N.of_nat (length q)) * 2 ^ N.of_nat (length q)).
  { rewrite <- N.pow_add_r. replace (11 - N.of_nat (length q) + N.of_nat (length q)) with 11 by lia. reflexivity. }
  rewrite P11, N.mul_assoc in E. apply (f_equal (fun x => x mod 2 ^ N.of_nat (length q))) in E.
  rewrite !(N.add_comm (_ * 2 ^ N.of_nat (length q))), !N.mod_add in E by exact P.
  rewrite (N.mod_small (bits_val q)) in E by apply bits_val_bound. congruence.
Qed.

(** A phrase with an unknown word: the variables hold the index of the word before it, and the low
    bits of the same index that did not fill a byte.  Nothing else of the words read is left. *)
Theorem C95_unknown_word L s mode pre w post idxs :
  words_of s (pre ++ w :: post) -> legal_word_count (length (pre ++ w :: post)) ->
  Forall2 (fun v i => any_index_of L v = Some i /\ i < 2048) pre idxs -> any_index_of L w = None ->
  snd (decode_v L s mode) = Err (UnknownWord w) /\
  fst (decode_v L s mode) = Some
    (let r := N.of_nat (11 * length pre) mod 8 in
     {| dv_acc := {| ba_acc := last idxs 0 mod 2 ^ r; ba_bits := r |};
        dv_actual_checksum := 0;
        dv_index := match idxs with [] => None | _ => Some (last idxs 0) end;
        dv_bit := None; dv_checksum_byte := None; dv_expected_checksum := None |}).
Proof.
  intros W HL F Hw. pose proof (words_of_fun _ _ _ W (words_of_split s)) as EW. rewrite EW in HL.
  destruct (decode_v_words L s mode HL) as
    [params [k [known [rest [idxs' [s' [done [cb [q [vb [HP [Hn [Hk [Hk8 [Hlen [Hs [G [HI [HD [HB [H1 H2]]]]]]]]]]]]]]]]]]]]].
  rewrite <- EW in Hs, Hlen.
  destruct (prefix_idxs (any_index_of L) pre w post known rest idxs idxs' F Hw Hs G) as [-> ->].
  { intros w' E. destruct rest as [|w0 rest]; [discriminate|]. cbn in E. injection E as ->. apply H2. }
  assert (Hl : length idxs = length pre) by (symmetry; eapply Forall2_len; exact F).
  pose proof HI as [Hp [HPe [Ho [He [Hle [HR [Hcs [Hcf [Hcl Hcb]]]]]]]]].
  assert (HX := f_equal (@length bool) HPe). rewrite !app_length, bytes_bits_length, index_bits_length, Hl in HX.
  rewrite app_length in Hlen. cbn [length] in Hlen.
  assert (Hd : (length done < 4 * k)%nat) by lia.
  rewrite (Hcb Hd) in *. cbn [app length] in *.
  destruct HD as [HD _]. specialize (HD Hd).
  assert (Hr : N.of_nat (11 * length pre) mod 8 = N.of_nat (length q)).
  { replace (N.of_nat (11 * length pre)) with (N.of_nat (length q) + N.of_nat (length done) * 8) by lia.
    rewrite N.mod_add by lia. apply N.mod_small. lia. }
  split.
  { rewrite decode_v_snd. destruct (decode_phrase_outcome L s mode) as [r [PS E]]. rewrite E.
    assert (r = PUnknown w) as ->; [|reflexivity].
    apply (parse_spec_fun _ _ _ _ PS). apply ps_unknown with pre post; [exact W|rewrite EW; exact HL| |exact Hw].
    clear -F. induction F as [|v i pre idxs [H _] F IH]; constructor; [congruence|exact IH]. }
  unfold decode_v. rewrite HP. cbv zeta.
  destruct H2 as [_ SN].
  destruct (decode_words_v _ _ _ _ _ _) as [v r]. cbn [snd fst] in *. subst r v. cbn [fst].
  rewrite Hr. unfold vars_of, bit_ok in *. rewrite HB, Hcf, Hcs. cbn [N.of_nat N.eqb].
  assert (HA : d_acc s' = {| ba_acc := last idxs 0 mod 2 ^ N.of_nat (length q); ba_bits := N.of_nat (length q) |}).
  { destruct (d_acc s') as [acc bits]. destruct HR as [R1 R2]. cbn [ba_acc ba_bits] in *. subst acc bits. f_equal.
    destruct idxs as [|i0 idxs]; [destruct q; [reflexivity|cbn [length] in *; lia]|].
    destruct (split_last (i0 :: idxs)) as [l [i Ei]]; [discriminate|]. rewrite Ei in HPe |- *. rewrite last_last.
    apply (suffix_val l i done q); [|exact HPe|exact HD].
    apply (forall2_bound _ _ _ F). rewrite Ei. apply in_or_app. right. left. reflexivity. }
  rewrite HA. f_equal. f_equal. destruct idxs as [|i0 idxs]; [reflexivity|].
  destruct (split_last (i0 :: idxs)) as [l [i Ei]]; [discriminate|]. rewrite Ei, lastv_snoc, last_last. reflexivity.
Qed.
Print Assumptions C95_unknown_word.

(** A phrase of known words, with a right or a wrong checksum: the variables hold the index of the
    last word, what it determines, and the first byte of the hash of the decoded bytes. *)
Theorem C95_known_words L s mode ws idxs v e cs :
  words_of s ws -> legal_word_count (length ws) ->
  Forall2 (fun w i => any_index_of L w = Some i /\ i < 2048) ws (idxs ++ [v]) ->
  index_bits (idxs ++ [v]) = bytes_bits e ++ cs -> (3 * length cs = length ws)%nat ->
  let k := N.of_nat (length ws) / 3 in
  fst (decode_v L s mode) = Some
     {| dv_acc := {| ba_acc := 0; ba_bits := 0 |};
        dv_actual_checksum := v mod 2 ^ k;
        dv_index := Some v;
        dv_bit := Some (v mod 2);
        dv_checksum_byte := Some (hd x00 (sha256 e));
        dv_expected_checksum := Some (b2n (hd x00 (sha256 e)) / 2 ^ (8 - k)) |}.
Proof.
  intros W HL F HE HC. cbv zeta. pose proof (words_of_fun _ _ _ W (words_of_split s)) as EW. rewrite EW in HL.
  destruct (decode_v_words L s mode HL) as
    [params [k [known [rest [idxs' [s' [done [cb [q [vb [HP [Hn [Hk [Hk8 [Hlen [Hs [G [HI [HD [HB [H1 H2]]]]]]]]]]]]]]]]]]]]].
  rewrite <- EW in Hs, Hlen.
  destruct (all_known (any_index_of L) ws known rest (idxs ++ [v]) idxs' F Hs G) as [-> ->].
  { intros w' E. destruct rest as [|w0 rest]; [discriminate|]. cbn in E. injection E as ->. apply H2. }
  destruct H2 as [nm SN].
  assert (Hl : length (idxs ++ [v]) = length ws) by (symmetry; eapply Forall2_len; exact F).
  pose proof HI as [Hp [HPe [Ho [He [Hle [HR [Hcs [Hcf [Hcl Hcb]]]]]]]]].
  assert (HX := f_equal (@length bool) HPe). rewrite !app_length, bytes_bits_length, index_bits_length, Hl in HX.
  assert (HPl : length (index_bits (idxs ++ [v])) = (8 * (4 * k) + k)%nat) by (rewrite index_bits_length; lia).
  assert (Hq8 : (length q < 8)%nat) by (eapply drained_short; try eassumption; lia).
  assert (Hd : length done = (4 * k)%nat).
  { destruct (Nat.eq_dec (length done) (4 * k)) as [E|E]; [exact E|].
    rewrite (Hcb ltac:(lia)) in HX. cbn [length] in HX. lia. }
  assert (Hq' : q = [] /\ length cb = k).
  { destruct HD as [_ HD]. destruct (HD Hd) as [->|Hc']; cbn [length] in *; [split; [reflexivity|lia]|].
    destruct q; [split; [reflexivity|exact Hc']|]. cbn [length] in HX. lia. }
  destruct Hq' as [-> Hc']. rewrite app_nil_r in HPe.
  assert (He' : d_entropy s' = done).
  { rewrite He, Hd, Nat.sub_diag. cbn [repeat]. apply app_nil_r. }
  assert (HEQ : e = done /\ cs = cb).
  { rewrite HE in HPe. assert (LE := f_equal (@length bool) HE). rewrite HPl, app_length, bytes_bits_length in LE.
    apply app_inv_length in HPe as [H3 H4]; [|rewrite !bytes_bits_length; lia].
    split; [apply bytes_bits_inj; exact H3|exact H4]. }
  destruct HEQ as [<- <-].
  assert (K3 : N.of_nat (length ws) / 3 = N.of_nat k).
  { rewrite Hlen. replace (N.of_nat (3 * k)) with (N.of_nat k * 3) by lia. apply N.div_mul. lia. }
  rewrite K3.
  assert (HV : bits_val cs = v mod 2 ^ N.of_nat k).
  { assert (Hv : v < 2048) by (apply (forall2_bound _ _ _ F); apply in_or_app; right; left; reflexivity).
    assert (E := f_equal bits_val HE). rewrite index_val_snoc, bits_val_app, Hc' in E by exact Hv.
    assert (P : 2 ^ N.of_nat k <> 0) by (apply N.pow_nonzero; lia).
    assert (P11 : 2048 = 2 ^ (11 - N.of_nat k) * 2 ^ N.of_nat k).
    { rewrite <- N.pow_add_r. replace (11 - N.of_nat k + N.of_nat k) with 11 by lia. reflexivity. }
    rewrite P11, N.mul_assoc in E. apply (f_equal (fun x => x mod 2 ^ N.of_nat k)) in E.
    rewrite !(N.add_comm (_ * 2 ^ N.of_nat k)), !N.mod_add in E by exact P.
    rewrite (N.mod_small (bits_val cs)) in E by (rewrite <- Hc'; apply bits_val_bound). congruence. }
  unfold decode_v. rewrite HP. cbv zeta.
  destruct (decode_words_v _ _ _ _ _ _) as [vv r]. cbn [snd fst] in *. subst r vv.
  assert (FV : fst (dec_finish_v s' (vars_of s' (lastv (idxs ++ [v]) None) vb)) =
     {| dv_acc := {| ba_acc := 0; ba_bits := 0 |};
        dv_actual_checksum := v mod 2 ^ N.of_nat k;
        dv_index := Some v;
        dv_bit := Some (v mod 2);
        dv_checksum_byte := Some (hd x00 (sha256 e));
        dv_expected_checksum := Some (b2n (hd x00 (sha256 e)) / 2 ^ (8 - N.of_nat k)) |}).
  { unfold dec_finish_v. rewrite Hp, Ho, Hn, Hcf, Hk, Hd, Hc', !N.eqb_refl. cbn [negb].
    destruct HR as [R1 R2]. rewrite R2. cbn [length N.of_nat N.eqb negb fst]. rewrite He'.
    unfold vars_of. cbn [dv_acc dv_actual_checksum dv_index dv_bit]. rewrite lastv_snoc.
    change BITS_PER_BYTE with 8. rewrite N.shiftr_div_pow2, Hcs, HV.
    assert (A : d_acc s' = {| ba_acc := 0; ba_bits := 0 |}).
    { destruct (d_acc s') as [acc bits]. cbn [ba_acc ba_bits length] in *. subst acc bits. reflexivity. }
    rewrite A. unfold bit_ok in HB. rewrite HB, Hcf, Hc', Hcs, HV.
    destruct (N.of_nat k =? 0) eqn:Z; [apply N.eqb_eq in Z; lia|].
    assert (M : (v mod 2 ^ N.of_nat k) mod 2 = v mod 2); [|rewrite M; reflexivity].
    replace (2 ^ N.of_nat k) with (2 * 2 ^ (N.of_nat k - 1)).
    - rewrite N.mod_mul_r by (try apply N.pow_nonzero; lia).
      rewrite (N.mul_comm 2), N.mod_add by lia. apply N.mod_mod. lia.
    - change 2 with (2 ^ 1) at 1. rewrite <- N.pow_add_r. f_equal. lia. }
  destruct (dec_finish_v _ _) as [v' [x| |]]; cbn [fst] in *; congruence.
Qed.
Print Assumptions C95_known_words.


(** ** generate *)
(** The array the random bytes were drawn into is left as it is: it is the entropy, from which the
    mnemonic can be made again after it was dropped and wiped. *)
Theorem C95_generate U B b fill c :
  ucd_std U -> valid_build B -> (forall n, length (fill n) = n) ->
  exists m, snd (generate_v B (language_of b) fill c) = Ok m /\
    gv_entropy (fst (generate_v B (language_of b) fill c)) = entropy m /\
    from_entropy B (language_of b) (gv_entropy (fst (generate_v B (language_of b) fill c))) = Ok m.
Proof.
  intros HU HB Hf. destruct (C17_generate U B b fill c HU HB Hf) as [m [E [He _]]]. exists m.
  destruct (C95_same_results U B) as [_ [_ [_ [G _]]]]. rewrite G. split; [exact E|].
  assert (V : gv_entropy (fst (generate_v B (language_of b) fill c)) = fill (gen_size c)).
  { unfold generate_v. destruct (encode_v _ _ _) as [v r]. reflexivity. }
  rewrite V. split; [rewrite He; destruct c; reflexivity|].
  unfold generate in E. destruct c; cbn [gen_size]; unfold expect_ok in E; destruct (from_entropy _ _ _); congruence.
Qed.
Print Assumptions C95_generate.

Theorem C95_any_generate B L fill c :
  gv_entropy (fst (any_generate_v B L fill c)) = fill (N.to_nat (entropy_bit_length c / 8)) /\
  forall m, snd (any_generate_v B L fill c) = Ok m ->
    gv_entropy (fst (any_generate_v B L fill c)) = any_entropy m.
Proof.
  unfold any_generate_v. destruct (encode_v _ _ _) as [v r]. cbn [fst snd gv_entropy].
  split; [destruct c; reflexivity|]. intros m. destruct r as [p| |]; cbn [bind expect_ok]; [|discriminate..].
  intros [= <-]. reflexivity.
Qed.
Print Assumptions C95_any_generate.

(** So the array does not end up wiped or truncated, as the fields of the mnemonic do. *)
Theorem C95_array_wiped_refuted :
  ~ forall B L fill c, valid_build B -> (forall n, length (fill n) = n) ->
      Forall (fun b => b = x00) (gv_entropy (fst (generate_v B L fill c))).
Proof.
  intros H. specialize (H b64 (language_of BEnglish) (fun n => repeat x01 n) Words12 b64_valid (fun n => repeat_length x01 n)).
  unfold generate_v in H. destruct (encode_v _ _ _) as [v r]. cbn [fst gv_entropy gen_size] in H.
  inversion H. discriminate.
Qed.
Print Assumptions C95_array_wiped_refuted.

(** The numbers in the variables, 4096 for one never written *)
Definition onum (o : option N) : N := match o with Some n => n | None => 4096 end.
Definition enc_numbers (v : enc_vars) : list N :=
  [onum (option_map b2n (ev_checksum_byte v)); ba_acc (ev_acc v); ba_bits (ev_acc v); onum (option_map b2n (ev_byte v));
   onum (ev_index v); onum (ev_checksum_bits v); onum (ev_index_last v)].
Definition dec_numbers (o : option dec_vars) : list N :=
  match o with
  | None => []
  | Some v => [ba_acc (dv_acc v); ba_bits (dv_acc v); dv_actual_checksum v; onum (dv_index v); onum (dv_bit v);
               onum (option_map b2n (dv_checksum_byte v)); onum (dv_expected_checksum v)]
  end.
(** "legal winner thank .. thank yellow": indices 1019 2015 1790 .. 1790 2040; 2015 mod 2^6 = 31 *)
Example C95_case :
  valid_build b64 /\ legal_entropy_len (length ex_entropy) /\
  enc_numbers (fst (encode_v b64 (any_of (language_of BEnglish)) ex_entropy)) = [0x87; 0; 0; 0x7f; 1790; 8; 2040] /\
  dec_numbers (fst (decode_v (any_of (language_of BEnglish)) ex_phrase ValidateOnly)) = [0; 0; 8; 2040; 0; 0x87; 8] /\
  dec_numbers (fst (decode_v (any_of (language_of BEnglish))
    (lit "legal winner foo year wave sausage worth useful legal winner thank yellow") ValidateOnly))
    = [31; 6; 0; 2015; 4096; 4096; 4096] /\
  dec_numbers (fst (decode_v (any_of (language_of BEnglish)) (lit "legal winner") ValidateOnly)) = [].
Proof.
  split; [exact b64_valid|]. split; [cbn; tauto|].
  repeat split; apply (list_eqb_eq N.eqb N.eqb_eq); vm_cast_no_check (eq_refl true).
Qed.
