(** The decoder computes [parse_spec] and never panics. *)
From Verif Require Import Base Sha2 Str BitAcc Language39 Mnemonic39 Spec39 BitsProofs StrProofs EncProofs.

Section Decode.
Variable params : DecodeParams.
Variables n k : nat.
Hypothesis Hn : p_entropy_len params = N.of_nat n.
Hypothesis Hk : p_cs_len params = N.of_nat k.
Hypothesis Hk8 : (k <= 8)%nat.

(** After consuming the bit stream [P]: [done] bytes stored, [cb] checksum bits
    collected, [q] still in the accumulator. *)
Definition Inv (s : DecodeState) (P : list bool) (done : list byte) (cb q : list bool) : Prop :=
  d_params s = params /\ P = bytes_bits done ++ cb ++ q /\ d_out s = N.of_nat (length done) /\
  d_entropy s = done ++ repeat x00 (n - length done) /\ (length done <= n)%nat /\
  acc_rep (d_acc s) q /\ d_cs s = bits_val cb /\ d_cs_filled s = N.of_nat (length cb) /\
  (length cb <= k)%nat /\ ((length done < n)%nat -> cb = []).

Lemma upd_middle {A : Type} (l : list A) x y m : upd (length l) x (l ++ y :: m) = l ++ x :: m.
Proof. induction l as [|a l IH]; cbn; [reflexivity|]. f_equal. exact IH. Qed.

Lemma drain_bytes_spec fuel : forall s P done cb q,
  Inv s P done cb q -> (length q < 64)%nat -> (length q < fuel)%nat ->
  exists s' done' q', drain_bytes fuel s = Ok s' /\ Inv s' P done' cb q' /\
    ((length done' < n)%nat -> (length q' < 8)%nat) /\ (length q' <= length q)%nat.
Proof.
  induction fuel as [|fuel IH]; intros s P done cb q HI H64 Hf; [lia|].
  pose proof HI as [Hp [HP [Ho [He [Hle [HR [Hc [Hcf [Hcl Hcb]]]]]]]]].
  cbn [drain_bytes]. rewrite Hp, Hn, Ho. change BITS_PER_BYTE with (N.of_nat 8).
  rewrite (can_take_rep _ _ 8 HR).
  destruct (N.of_nat (length done) <? N.of_nat n) eqn:E1; cbn [andb].
  - assert (Hlt : (length done < n)%nat) by lia.
    destruct (Nat.leb_spec 8 (length q)) as [H8|H8].
    + destruct (@take_rep err39 (d_acc s) q 8 HR H8 ltac:(lia) ltac:(lia)) as [a1 [E2 R1]].
      rewrite E2. cbn [bind]. unfold set_at. rewrite He.
      destruct (N.to_nat (N.of_nat (length done)) <? length (done ++ repeat x00 (n - length done)))%nat eqn:E3.
      2:{ apply Nat.ltb_ge in E3. rewrite app_length, repeat_length in E3. lia. }
      cbn [bind]. rewrite Nat2N.id.
      replace (n - length done)%nat with (S (n - S (length done))) by lia.
      cbn [repeat]. rewrite upd_middle.
      set (b := n2b (bits_val (firstn 8 q))).
      assert (HL : length (firstn 8 q) = 8%nat) by (rewrite firstn_length; lia).
      assert (Hb : bits_msb 8 (b2n b) = firstn 8 q).
      { unfold b. rewrite b2n_n2b. pose proof (bits_val_bound (firstn 8 q)) as HB. rewrite HL in HB.
        rewrite N.mod_small by exact HB. rewrite <- HL at 1. apply bits_msb_val. }
      specialize (Hcb Hlt). subst cb.
      match goal with |- exists _ _ _, drain_bytes fuel ?st = _ /\ _ => set (s1 := st) end.
      destruct (IH s1 P (done ++ [b]) [] (skipn 8 q)) as [s' [done' [q' [E [I' [Hd' Hq']]]]]].
      * unfold Inv, s1. cbn [d_params d_entropy d_out d_acc d_cs d_cs_filled].
        rewrite app_length. cbn [length].
        repeat split; try assumption.
        -- rewrite HP, bytes_bits_app. cbn [app]. rewrite <- app_assoc. f_equal.
           rewrite bytes_bits_cons, Hb. cbn [bytes_bits flat_map]. rewrite app_nil_r.
           symmetry. apply firstn_skipn.
        -- lia.
        -- rewrite <- app_assoc. cbn [app]. do 2 f_equal. f_equal. lia.
        -- lia.
        -- apply R1.
        -- apply R1.
      * rewrite skipn_length. lia.
      * rewrite skipn_length. lia.
      * exists s', done', q'. repeat split; try assumption; try apply I'.
        rewrite skipn_length in Hq'. lia.
    + exists s, done, q. repeat split; try assumption; try apply HI; try lia.
  - exists s, done, q. repeat split; try assumption; try apply HI; try lia.
Qed.

Lemma drain_checksum_spec fuel : forall s P done cb q,
  Inv s P done cb q -> (length q < 64)%nat -> (length q < fuel)%nat ->
  exists s' cb' q', drain_checksum fuel s = Ok s' /\ Inv s' P done cb' q' /\
    ((length done = n)%nat -> q' = [] \/ length cb' = k) /\ (length q' <= length q)%nat.
Proof.
  induction fuel as [|fuel IH]; intros s P done cb q HI H64 Hf; [lia|].
  pose proof HI as [Hp [HP [Ho [He [Hle [HR [Hc [Hcf [Hcl Hcb]]]]]]]]].
  cbn [drain_checksum]. rewrite Hp, Hn, Ho, Hk, Hcf. change 1 with (N.of_nat 1).
  rewrite (can_take_rep _ _ 1 HR).
  destruct ((N.of_nat (length done) =? N.of_nat n) && (N.of_nat (length cb) <? N.of_nat k)
            && (1 <=? length q)%nat) eqn:E1.
  - assert (H1 : (1 <= length q)%nat).
    { destruct (Nat.leb_spec 1 (length q)); [assumption|]. rewrite andb_false_r in E1. discriminate. }
    destruct (@take_rep err39 (d_acc s) q 1 HR H1 ltac:(lia) ltac:(lia)) as [a1 [E2 R1]].
    rewrite E2. cbn [bind].
    destruct q as [|b q]; [cbn in H1; lia|]. cbn [firstn skipn] in *.
    match goal with |- exists _ _ _, drain_checksum fuel ?st = _ /\ _ => set (s1 := st) end.
    destruct (IH s1 P done (cb ++ [b]) q) as [s' [cb' [q' [E [I' [Hd' Hq']]]]]].
    + unfold Inv, s1. cbn [d_params d_entropy d_out d_acc d_cs d_cs_filled].
      rewrite app_length. cbn [length].
      repeat split; try assumption; try apply R1; try lia.
      * rewrite HP. rewrite <- app_assoc. reflexivity.
      * rewrite Hc, bits_val_snoc. pose proof (bits_val_bound cb) as HB.
        assert (2 ^ N.of_nat (length cb) <= 2 ^ 7) by (apply N.pow_le_mono_r; lia).
        change (2 ^ 7) with 128 in *.
        rewrite N.shiftl_mul_pow2. change (2 ^ N.of_nat 1) with (2 ^ 1).
        assert (Hbit : bits_val [b] = if b then 1 else 0) by (destruct b; reflexivity).
        rewrite Hbit.
        rewrite (N.mod_small (bits_val cb * 2 ^ 1)) by (change (2 ^ 1) with 2; lia).
        rewrite (N.mod_small (if b then 1 else 0)) by (destruct b; lia).
        rewrite lor_add by (destruct b; cbn; lia). change (2 ^ 1) with 2. lia.
    + cbn in H64. lia.
    + cbn in Hf. lia.
    + exists s', cb', q'. repeat split; try assumption; try apply I'. cbn. lia.
  - exists s, cb, q. repeat split; try assumption; try apply HI; try lia.
    intros Hd. destruct q; [left; reflexivity|]. right.
    assert (E3 : (1 <=? length (b :: q))%nat = true) by reflexivity. rewrite E3 in E1. lia.
Qed.

Definition Drained (done : list byte) (cb q : list bool) : Prop :=
  ((length done < n)%nat -> (length q < 8)%nat) /\
  ((length done = n)%nat -> q = [] \/ length cb = k).

Lemma drained_short P s done cb q :
  Inv s P done cb q -> Drained done cb q -> (length P <= 8 * n + k)%nat -> (length q < 8)%nat.
Proof.
  intros HI [H1 H2] HP. destruct HI as [_ [HPe [_ [_ [Hle _]]]]].
  destruct (Nat.eq_dec (length done) n) as [E|E].
  - destruct (H2 E) as [->|Hc]; [cbn; lia|].
    apply (f_equal (@length bool)) in HPe. rewrite !app_length, bytes_bits_length in HPe. lia.
  - apply H1. lia.
Qed.

Lemma push_index_spec s P done cb q i :
  Inv s P done cb q -> Drained done cb q -> (length P <= 8 * n + k)%nat ->
  exists s' done' cb' q', dec_push_index s i = Ok s' /\
    Inv s' (P ++ bits_msb 11 i) done' cb' q' /\ Drained done' cb' q'.
Proof.
  intros HI HD HP. pose proof (drained_short P s done cb q HI HD HP) as Hq.
  unfold dec_push_index. change BITS_PER_WORD with (N.of_nat 11).
  pose proof HI as [Hp [HPe [Ho [He [Hle [HR [Hc [Hcf [Hcl Hcb]]]]]]]]].
  destruct (@push_rep err39 (d_acc s) q i 11 HR ltac:(lia) ltac:(lia)) as [a1 [E1 R1]].
  rewrite E1. cbn [bind].
  match goal with |- context[drain_bytes _ ?st] => set (s1 := st) end.
  assert (I1 : Inv s1 (P ++ bits_msb 11 i) done cb (q ++ bits_msb 11 i)).
  { unfold Inv, s1. cbn [d_params d_entropy d_out d_acc d_cs d_cs_filled].
    repeat split; try assumption; try apply R1. rewrite HPe, <- !app_assoc. reflexivity. }
  assert (Hl : length (q ++ bits_msb 11 i) = (length q + 11)%nat) by (rewrite app_length, bits_msb_length; reflexivity).
  assert (Hb : ba_bits a1 = N.of_nat (length q + 11)) by (destruct R1 as [_ R1]; rewrite R1, Hl; reflexivity).
  destruct (drain_bytes_spec (S (N.to_nat (ba_bits a1))) s1 _ done cb _ I1) as [s2 [done2 [q2 [E2 [I2 [D2 L2]]]]]];
    [lia|lia|].
  rewrite E2. cbn [bind].
  destruct (drain_checksum_spec (S (N.to_nat (ba_bits a1))) s2 _ done2 cb q2 I2) as [s3 [cb3 [q3 [E3 [I3 [D3 L3]]]]]];
    [lia|lia|].
  exists s3, done2, cb3, q3. rewrite E3. repeat split; try apply I3.
  - intros H. specialize (D2 H). lia.
  - exact D3.
Qed.

End Decode.

(** Normalised phrase built by the loop. *)
Definition norm_after (norm : option str) (ws : list str) : option str :=
  option_map (fun out => fold_left push_word ws out) norm.

Lemma decode_words_spec L params n k :
  p_entropy_len params = N.of_nat n -> p_cs_len params = N.of_nat k -> (k <= 8)%nat ->
  forall ws norm s P done cb q,
  Inv params n k s P done cb q -> Drained n k done cb q ->
  (length P + 11 * length ws <= 8 * n + k)%nat ->
  (exists pre w post, ws = pre ++ w :: post /\ Forall (fun v => any_index_of L v <> None) pre /\
     any_index_of L w = None /\ decode_words L ws norm s = Err (UnknownWord w)) \/
  (exists idxs s' done' cb' q', Forall2 (fun w i => any_index_of L w = Some i) ws idxs /\
     decode_words L ws norm s = Ok (norm_after norm ws, s') /\
     Inv params n k s' (P ++ index_bits idxs) done' cb' q' /\ Drained n k done' cb' q').
Proof.
  intros Hn Hk Hk8. induction ws as [|w ws IH]; intros norm s P done cb q HI HD HP.
  - right. exists [], s, done, cb, q. cbn [decode_words index_bits flat_map]. rewrite app_nil_r.
    split; [constructor|]. split; [|split; assumption]. destruct norm; reflexivity.
  - cbn [decode_words]. destruct (any_index_of L w) as [i|] eqn:Ei.
    + destruct (push_index_spec params n k Hn Hk Hk8 s P done cb q i HI HD) as [s1 [d1 [c1 [q1 [E1 [I1 D1]]]]]];
        [lia|].
      rewrite E1. cbn [bind].
      set (norm1 := match norm with None => None | Some out => Some ((if is_empty out then out else out ++ [32]) ++ w) end).
      destruct (IH norm1 s1 (P ++ bits_msb 11 i) d1 c1 q1 I1 D1) as [H|H].
      { rewrite app_length, bits_msb_length. cbn [length] in HP. lia. }
      * left. destruct H as [pre [v [post [H1 [H2 [H3 H4]]]]]].
        exists (w :: pre), v, post. subst ws. repeat split; try assumption.
        constructor; [congruence|assumption].
      * right. destruct H as [idxs [s' [d' [c' [q' [H1 [H2 [H3 H4]]]]]]]].
        exists (i :: idxs), s', d', c', q'. split; [constructor; assumption|].
        rewrite H2. split; [|split; [|exact H4]].
        -- unfold norm_after, norm1. destruct norm; reflexivity.
        -- rewrite index_bits_cons, app_assoc. exact H3.
    + left. exists [], w, ws. repeat split; try assumption. constructor.
Qed.

(** Count parameters for a legal number of words. *)
Lemma from_word_count_cases n :
  (legal_word_count n /\ exists c, from_word_count (N.of_nat n) = Ok c /\
     (3 * N.to_nat (checksum_bit_length c) = n)%nat /\
     (32 * N.to_nat (checksum_bit_length c) = N.to_nat (entropy_bit_length c))%nat /\
     N.to_nat (word_count c) = n) \/
  (~ legal_word_count n /\ from_word_count (N.of_nat n) = Err (BadWordCount (N.of_nat n))).
Proof.
  unfold legal_word_count. cbn [In].
  destruct (Nat.eq_dec n 12) as [->|]; [left; split; [tauto|]; exists Words12; cbn; repeat split; lia|].
  destruct (Nat.eq_dec n 15) as [->|]; [left; split; [tauto|]; exists Words15; cbn; repeat split; lia|].
  destruct (Nat.eq_dec n 18) as [->|]; [left; split; [tauto|]; exists Words18; cbn; repeat split; lia|].
  destruct (Nat.eq_dec n 21) as [->|]; [left; split; [tauto|]; exists Words21; cbn; repeat split; lia|].
  destruct (Nat.eq_dec n 24) as [->|]; [left; split; [tauto|]; exists Words24; cbn; repeat split; lia|].
  right. split; [lia|].
  remember (N.of_nat n) as m eqn:Em. unfold from_word_count.
  destruct m as [|m]; [reflexivity|].
  repeat (match goal with |- context[match ?x with _ => _ end] => destruct x; try reflexivity end); lia.
Qed.

(** Reading a model result as a specification outcome. *)
Definition outcome (r : res err39 (list byte * str)) : option parse_result :=
  match r with
  | Ok (e, p) => Some (POk e p)
  | Err (BadWordCount n) => Some (PBadCount (N.to_nat n))
  | Err (UnknownWord w) => Some (PUnknown w)
  | Err InvalidChecksum => Some PBadChecksum
  | Err (BadEntropyBitCount _) => None
  | Panic => None
  end.

(** Result of decoding, for both modes at once. *)
Lemma decode_phrase_outcome L s mode :
  exists r, parse_spec (any_index_of L) s r /\
  decode_phrase_with L s mode =
    match r with
    | POk e p => Ok {| dp_entropy := e; dp_normalized := match mode with ValidateOnly => None | BuildNormalizedPhrase => Some p end |}
    | PBadCount n => Err (BadWordCount (N.of_nat n))
    | PUnknown w => Err (UnknownWord w)
    | PBadChecksum => Err InvalidChecksum
    end.
Proof.
  pose proof (words_of_split s) as HW. set (ws := split_whitespace s) in *.
  unfold decode_phrase_with, parse_params_from_phrase, count_from_phrase. fold ws.
  destruct (from_word_count_cases (length ws)) as [[HL [c [Hc [Hk3 [Hk32 Hwc]]]]]|[HL Hc]].
  2:{ exists (PBadCount (length ws)). split; [apply ps_count; assumption|]. rewrite Hc. reflexivity. }
  rewrite Hc. cbn [bind].
  set (params := {| p_entropy_len := entropy_bit_length c / BITS_PER_BYTE;
                    p_cs_len := checksum_bit_length c; p_count := c |}).
  set (k := N.to_nat (checksum_bit_length c)) in *.
  set (n := (4 * k)%nat).
  assert (Hn : p_entropy_len params = N.of_nat n) by (unfold n, k; destruct c; reflexivity).
  assert (Hk : p_cs_len params = N.of_nat k) by (unfold k; destruct c; reflexivity).
  assert (Hk8 : (k <= 8)%nat) by (unfold k; destruct c; cbn; lia).
  assert (I0 : Inv params n k (decode_state_new params) [] [] [] []).
  { unfold Inv, decode_state_new. cbn [d_params d_entropy d_out d_acc d_cs d_cs_filled length app bytes_bits flat_map].
    rewrite Hn, Nat2N.id, Nat.sub_0_r. repeat split; lia. }
  assert (D0 : Drained n k [] [] []).
  { split; [cbn; lia|]. left. reflexivity. }
  set (norm := match mode with ValidateOnly => None | BuildNormalizedPhrase => Some [] end).
  destruct (decode_words_spec L params n k Hn Hk Hk8 ws norm _ [] [] [] [] I0 D0) as [H|H].
  { cbn [length]. lia. }
  - destruct H as [pre [w [post [H1 [H2 [H3 H4]]]]]].
    exists (PUnknown w). split.
    + apply ps_unknown with pre post; [rewrite <- H1; assumption|rewrite <- H1; assumption|assumption|assumption].
    + rewrite H4. reflexivity.
  - destruct H as [idxs [s' [d' [c' [q' [H1 [H2 [H3 H4]]]]]]]]. cbn [app] in H3.
    rewrite H2. cbn [bind].
    assert (Hlen : length idxs = length ws) by (symmetry; eapply Forall2_len; exact H1).
    pose proof H3 as [Hp [HP [Ho [He [Hle [HR [Hcs [Hcf [Hcl Hcb]]]]]]]]].
    assert (HPl : length (index_bits idxs) = (8 * n + k)%nat) by (rewrite index_bits_length; lia).
    assert (Hq8 : (length q' < 8)%nat) by (eapply drained_short; try eassumption; lia).
    assert (HX := f_equal (@length bool) HP). rewrite !app_length, bytes_bits_length, HPl in HX.
    assert (Hd : length d' = n).
    { destruct (Nat.eq_dec (length d') n) as [E|E]; [exact E|].
      rewrite (Hcb ltac:(lia)) in HX. cbn [length] in HX. lia. }
    assert (Hq' : q' = [] /\ length c' = k).
    { destruct H4 as [_ H4]. destruct (H4 Hd) as [->|Hc']; cbn [length] in *; [split; [reflexivity|lia]|].
      destruct q'; [split; [reflexivity|exact Hc']|]. cbn [length] in HX. lia. }
    destruct Hq' as [-> Hc']. rewrite app_nil_r in HP.
    assert (He' : d_entropy s' = d').
    { rewrite He, Hd, Nat.sub_diag. cbn [repeat]. apply app_nil_r. }
    unfold dec_finish. rewrite Hp, Ho, Hn, Hcf, Hk, Hd, Hc', !N.eqb_refl. cbn [negb].
    destruct HR as [_ HR]. rewrite HR. cbn [length N.of_nat N.eqb negb]. rewrite He'.
    change BITS_PER_BYTE with 8.
    assert (Hcd : checksum_bits d' = bits_msb k (N.shiftr (b2n (hd x00 (sha256 d'))) (8 - N.of_nat k))).
    { unfold checksum_bits. replace (length d' * 8 / 32)%nat with k.
      - rewrite checksum_split by exact Hk8. symmetry. apply shiftr_bits. exact Hk8.
      - rewrite Hd. unfold n. replace (4 * k * 8)%nat with (k * 32)%nat by lia.
        symmetry. apply Nat.div_mul. lia. }
    set (ex := N.shiftr (b2n (hd x00 (sha256 d'))) (8 - N.of_nat k)) in *.
    assert (Hex : ex = bits_val (checksum_bits d')).
    { rewrite Hcd, bits_val_msb. symmetry. apply N.mod_small.
      unfold ex. rewrite N.shiftr_div_pow2. pose proof (b2n_bound (hd x00 (sha256 d'))) as Hb.
      apply N.div_lt_upper_bound; [apply N.pow_nonzero; lia|].
      rewrite <- N.pow_add_r. replace (8 - N.of_nat k + N.of_nat k) with 8 by lia. exact Hb. }
    rewrite Hcs.
    destruct (bits_val c' =? ex) eqn:EQ; cbn [bind].
    + apply N.eqb_eq in EQ.
      assert (Hcc : c' = checksum_bits d').
      { apply bits_val_inj; [rewrite Hcd, bits_msb_length; exact Hc'|congruence]. }
      exists (POk d' (join [32] ws)). split.
      * apply ps_ok with idxs; try assumption; [|unfold n in *; lia].
        rewrite HP, Hcc. reflexivity.
      * unfold norm. destruct mode; cbn [norm_after option_map]; [reflexivity|].
        rewrite fold_push_word_nil; [reflexivity|]. apply split_words_nonempty.
    + exists PBadChecksum. split; [|reflexivity].
      apply ps_checksum with ws idxs d' c'; try assumption; [lia|].
      intros Hcc. apply N.eqb_neq in EQ. apply EQ. rewrite Hcc. symmetry. exact Hex.
Qed.

(** The specification is functional, so it determines the outcome. *)
Lemma forall2_fun {A B : Type} (f : A -> option B) l m1 m2 :
  Forall2 (fun a b => f a = Some b) l m1 -> Forall2 (fun a b => f a = Some b) l m2 -> m1 = m2.
Proof.
  intros H1. revert m2. induction H1 as [|a b l m E F IH]; intros m2 H2; inversion H2; subst; [reflexivity|].
  f_equal; [congruence|]. apply IH. assumption.
Qed.

Lemma forall2_no_none {A B : Type} (f : A -> option B) pre x post m :
  Forall2 (fun a b => f a = Some b) (pre ++ x :: post) m -> f x <> None.
Proof.
  intros H. apply Forall2_app_inv_l in H as [m1 [m2 [_ [H _]]]]. inversion H; subst. congruence.
Qed.

Lemma first_unknown_fun (f : str -> option N) pre1 w1 post1 pre2 w2 post2 :
  pre1 ++ w1 :: post1 = pre2 ++ w2 :: post2 ->
  Forall (fun v => f v <> None) pre1 -> f w1 = None ->
  Forall (fun v => f v <> None) pre2 -> f w2 = None -> w1 = w2.
Proof.
  revert pre2. induction pre1 as [|a pre1 IH]; intros pre2 E F1 H1 F2 H2.
  - destruct pre2 as [|b pre2]; cbn in E.
    + congruence.
    + injection E as -> _. inversion F2; subst. congruence.
  - destruct pre2 as [|b pre2]; cbn in E.
    + injection E as -> _. inversion F1; subst. congruence.
    + injection E as -> E. inversion F1; subst. inversion F2; subst. eapply IH; eassumption.
Qed.

Lemma checksum_bits_length e n : (3 * length e = 4 * n)%nat -> legal_word_count n ->
  (3 * length (checksum_bits e) = n)%nat.
Proof.
  intros He Hl. unfold checksum_bits. rewrite firstn_length, bytes_bits_length, sha256_length.
  unfold legal_word_count in Hl. cbn [In] in Hl.
  destruct Hl as [H|[H|[H|[H|[H|[]]]]]]; subst n.
  - replace (length e) with 16%nat by lia. reflexivity.
  - replace (length e) with 20%nat by lia. reflexivity.
  - replace (length e) with 24%nat by lia. reflexivity.
  - replace (length e) with 28%nat by lia. reflexivity.
  - replace (length e) with 32%nat by lia. reflexivity.
Qed.

Lemma split_fun idxs ws e cs e' cs' : length idxs = length ws ->
  index_bits idxs = bytes_bits e ++ cs -> (3 * length cs = length ws)%nat ->
  index_bits idxs = bytes_bits e' ++ cs' -> (3 * length cs' = length (A := str) ws)%nat ->
  e = e' /\ cs = cs'.
Proof.
  intros HL E1 H1 E2 H2. rewrite E1 in E2.
  pose proof (f_equal (@length bool) E2) as HX. rewrite !app_length, !bytes_bits_length in HX.
  apply app_inv_length in E2; [|rewrite !bytes_bits_length; lia].
  destruct E2 as [E2 ->]. split; [|reflexivity]. apply bytes_bits_inj. exact E2.
Qed.

Theorem parse_spec_fun f s r1 r2 : parse_spec f s r1 -> parse_spec f s r2 -> r1 = r2.
Proof.
  intros H1 H2.
  destruct H1 as [ws W1 L1|pre w post W1 L1 F1 N1|ws idxs e cs W1 L1 F1 B1 C1 X1|ws idxs e W1 L1 F1 B1 E1];
  destruct H2 as [ws' W2 L2|pre' w' post' W2 L2 F2 N2|ws' idxs' e' cs' W2 L2 F2 B2 C2 X2|ws' idxs' e' W2 L2 F2 B2 E2];
  pose proof (words_of_fun _ _ _ W1 W2) as EW; try (subst; tauto); try (rewrite EW in *; tauto).
  - f_equal. eapply first_unknown_fun; eassumption.
  - subst. apply forall2_no_none in F2. tauto.
  - subst. apply forall2_no_none in F2. tauto.
  - subst. apply forall2_no_none in F1. tauto.
  - subst ws'. pose proof (forall2_fun f _ _ _ F1 F2). subst idxs'. exfalso. apply X1.
    unfold bip39_bits in B2. pose proof (checksum_bits_length e' _ E2 L1).
    destruct (split_fun idxs ws e cs e' (checksum_bits e')) as [-> ->]; try assumption; [|reflexivity].
    symmetry. eapply Forall2_len. exact F1.
  - subst. apply forall2_no_none in F1. tauto.
  - subst ws'. pose proof (forall2_fun f _ _ _ F1 F2). subst idxs'. exfalso. apply X2.
    unfold bip39_bits in B1. pose proof (checksum_bits_length e _ E1 L1).
    destruct (split_fun idxs ws e' cs' e (checksum_bits e)) as [-> ->]; try assumption; [|reflexivity].
    symmetry. eapply Forall2_len. exact F1.
  - subst ws'. pose proof (forall2_fun f _ _ _ F1 F2). subst idxs'.
    unfold bip39_bits in B1, B2.
    destruct (split_fun idxs ws e (checksum_bits e) e' (checksum_bits e')) as [-> _]; try assumption; [| | |reflexivity].
    + symmetry. eapply Forall2_len. exact F1.
    + apply checksum_bits_length; assumption.
    + apply checksum_bits_length; assumption.
Qed.

(** ... and total. *)
Theorem parse_spec_total f s : exists r, parse_spec f s r.
Proof.
  destruct (decode_phrase_outcome {| any_word_of := fun _ => None; any_index_of := f |} s ValidateOnly) as [r [H _]].
  exists r. exact H.
Qed.
