(** The checksum of the last word: how many last words are accepted. *)
From Verif Require Import Base Sha2 Str StrProofs Unicode Language39 Mnemonic39
  Spec39 BitsProofs EncProofs DecProofs LangSpec39 MnemonicProofs.

Lemma bits_msb_split a b n : bits_msb (a + b) n = bits_msb a (n / 2 ^ N.of_nat b) ++ bits_msb b n.
Proof.
  revert n. induction b as [|b IH]; intros n.
  - rewrite Nat.add_0_r. cbn [bits_msb]. rewrite app_nil_r. change (2 ^ N.of_nat 0) with 1. rewrite N.div_1_r. reflexivity.
  - replace (a + S b)%nat with (S (a + b)) by lia. cbn [bits_msb]. rewrite IH, <- app_assoc.
    replace (N.of_nat (S b)) with (N.succ (N.of_nat b)) by lia. rewrite N.pow_succ_r'.
    rewrite N.div_div by (try apply N.pow_nonzero; lia). reflexivity.
Qed.

(** Bits packed into bytes. *)
Fixpoint pack (n : nat) (l : list bool) : list byte :=
  match n with
  | O => []
  | S n' => n2b (bits_val (firstn 8 l)) :: pack n' (skipn 8 l)
  end.

Lemma pack_length n l : length (pack n l) = n.
Proof. revert l. induction n; intros l; cbn; auto. Qed.

Lemma pack_bits n : forall l, length l = (8 * n)%nat -> bytes_bits (pack n l) = l.
Proof.
  induction n as [|n IH]; intros l H.
  - destruct l; [reflexivity|discriminate].
  - cbn [pack]. rewrite bytes_bits_cons, IH by (rewrite skipn_length; lia).
    assert (HL : length (firstn 8 l) = 8%nat) by (rewrite firstn_length; lia).
    pose proof (bits_val_bound (firstn 8 l)) as HB. rewrite HL in HB. change (2 ^ N.of_nat 8) with 256 in HB.
    rewrite b2n_n2b, N.mod_small by exact HB. rewrite <- HL at 1. rewrite bits_msb_val. apply firstn_skipn.
Qed.

(** Counting. *)
Lemma count_block (f : nat -> nat) b : (0 < b)%nat -> forall a, (forall h, (f h < b)%nat) ->
  length (filter (fun i => (i mod b =? f (i / b))%nat) (seq 0 (a * b))) = a.
Proof.
  intros Hb a Hf. induction a as [|a IH]; [reflexivity|].
  replace (S a * b)%nat with (a * b + b)%nat by lia. rewrite seq_app, filter_app, app_length, IH.
  cbn [Nat.add]. enough (E : length (filter (fun i => (i mod b =? f (i / b))%nat) (seq (a * b) b)) = 1%nat) by lia.
  replace (seq (a * b) b) with (map (fun j => (a * b + j)%nat) (seq 0 b)).
  2:{ clear. generalize (a * b)%nat. intros c.
      assert (G : forall s, map (fun j => (c + j)%nat) (seq s b) = seq (c + s) b).
      { induction b as [|b IH]; intros s; cbn; [reflexivity|]. f_equal. rewrite IH. f_equal. lia. }
      rewrite G. f_equal. lia. }
  assert (E : forall l, Forall (fun j => (j < b)%nat) l ->
     length (filter (fun i => (i mod b =? f (i / b))%nat) (map (fun j => (a * b + j)%nat) l))
     = length (filter (fun j => (j =? f a)%nat) l)).
  { induction 1 as [|j l Hj F IH']; [reflexivity|]. cbn [map filter].
    replace ((a * b + j) mod b)%nat with j by (rewrite Nat.add_comm, Nat.mod_add by lia; symmetry; apply Nat.mod_small; exact Hj).
    replace ((a * b + j) / b)%nat with a by (rewrite Nat.div_add_l, Nat.div_small by lia; lia).
    destruct (j =? f a)%nat; cbn; lia. }
  rewrite E by (apply Forall_forall; intros j Hj; apply in_seq in Hj; lia). clear E IH.
  specialize (Hf a). revert Hf. generalize (f a). intros x Hx.
  assert (E : forall s n, length (filter (fun j => (j =? x)%nat) (seq s n)) = (if ((s <=? x) && (x <? s + n))%nat then 1%nat else 0%nat)).
  { intros s n. revert s. induction n as [|n IHn]; intros s; cbn [seq filter].
    - destruct (Nat.leb_spec s x), (Nat.ltb_spec x (s + 0)); cbn; try reflexivity. lia.
    - specialize (IHn (S s)).
      destruct (Nat.eqb_spec s x) as [->|Hne]; cbn [length]; rewrite IHn;
      repeat match goal with |- context[(?p <=? ?q)%nat] => destruct (Nat.leb_spec p q) | |- context[(?p <? ?q)%nat] => destruct (Nat.ltb_spec p q) end;
      cbn; lia. }
  rewrite E. destruct (0 <=? x)%nat eqn:E1; [|discriminate]. destruct (Nat.ltb_spec x (0 + b)); [reflexivity|lia].
Qed.

Lemma filter_map_length {A B : Type} (g : A -> B) (P : B -> bool) l :
  length (filter P (map g l)) = length (filter (fun x => P (g x)) l).
Proof. induction l as [|a l IH]; cbn; [reflexivity|]. destruct (P (g a)); cbn; auto. Qed.

Lemma filter_ext_length {A : Type} (P Q : A -> bool) l :
  (forall x, In x l -> P x = Q x) -> length (filter P l) = length (filter Q l).
Proof.
  induction l as [|a l IH]; intros H; cbn; [reflexivity|].
  rewrite (H a) by (left; reflexivity). destruct (Q a); cbn; rewrite IH by (intros; apply H; right; assumption); reflexivity.
Qed.

Lemma list_as_map {A : Type} (d : A) l : l = map (fun i => nth i l d) (seq 0 (length l)).
Proof.
  induction l as [|a l IH]; [reflexivity|]. cbn [length seq map nth]. f_equal.
  rewrite <- seq_shift, map_map. exact IH.
Qed.

Section LastWord.
Variable U : ucd.
Variable L : Language.
Hypothesis LC : lang_contract U L.

Lemma last_word pre pidx w i n k :
  Forall2 (fun w i => lang_index_of L w = Some i) pre pidx -> lang_index_of L w = Some i ->
  length (pre ++ [w]) = n -> legal_word_count n -> (3 * k = n)%nat ->
  let e := pack (4 * k) (index_bits pidx ++ bits_msb (11 - k) (i / 2 ^ N.of_nat k)) in
  from_normalized_phrase L (join [32] (pre ++ [w])) =
  if i mod 2 ^ N.of_nat k =? bits_val (checksum_bits e)
  then Ok {| m_phrase := join [32] (pre ++ [w]); m_entropy := e |} else Err InvalidChecksum.
Proof.
  intros F Hw Hn Hleg Hk e.
  assert (F2 : Forall2 (fun w i => lang_index_of L w = Some i) (pre ++ [w]) (pidx ++ [i])).
  { apply Forall2_app; [exact F|]. constructor; [exact Hw|constructor]. }
  assert (HK : (4 <= k <= 8)%nat) by (unfold legal_word_count in Hleg; cbn in Hleg; lia).
  assert (HP : length pidx = (n - 1)%nat).
  { rewrite <- (Forall2_len _ _ _ F). rewrite app_length in Hn. cbn in Hn. lia. }
  assert (HE : bytes_bits e = index_bits pidx ++ bits_msb (11 - k) (i / 2 ^ N.of_nat k)).
  { apply pack_bits. rewrite app_length, index_bits_length, bits_msb_length. lia. }
  assert (HB : index_bits (pidx ++ [i]) = bytes_bits e ++ bits_msb k i).
  { rewrite index_bits_app, HE, <- app_assoc. f_equal.
    unfold index_bits. cbn [flat_map]. rewrite app_nil_r.
    rewrite <- (bits_msb_split (11 - k) k i). f_equal. lia. }
  assert (HW : words_of (join [32] (pre ++ [w])) (pre ++ [w])).
  { apply words_of_join. apply (in_good U L LC). apply (words_of_index U L LC) in F2. tauto. }
  assert (HLE : length e = (4 * k)%nat) by apply pack_length.
  assert (HCL : length (checksum_bits e) = k).
  { enough (3 * length (checksum_bits e) = n)%nat by lia. apply checksum_bits_length; [lia|exact Hleg]. }
  destruct (N.eqb_spec (i mod 2 ^ N.of_nat k) (bits_val (checksum_bits e))) as [EQ|NE].
  - change (Ok _) with (parsed (POk e (join [32] (pre ++ [w])))). apply from_normalized_iff.
    apply ps_ok with (idxs := pidx ++ [i]); [exact HW|congruence|exact F2| |lia].
    rewrite HB. unfold bip39_bits. f_equal. apply bits_val_inj.
    + rewrite bits_msb_length. symmetry. exact HCL.
    + rewrite bits_val_msb. exact EQ.
  - change (Err _) with (parsed PBadChecksum). apply from_normalized_iff.
    apply ps_checksum with (ws := pre ++ [w]) (idxs := pidx ++ [i]) (e := e) (cs := bits_msb k i); [exact HW|congruence|exact F2|exact HB| |].
    + rewrite bits_msb_length. lia.
    + intros E. apply NE. rewrite <- E, bits_val_msb. reflexivity.
Qed.

Theorem swap_checksum pre w w' i i' n m :
  Forall (fun v => In v (lang_words L)) pre ->
  lang_index_of L w = Some i -> lang_index_of L w' = Some i' ->
  length (pre ++ [w]) = n -> i <> i' ->
  i / 2 ^ N.of_nat (n / 3) = i' / 2 ^ N.of_nat (n / 3) ->
  from_normalized_phrase L (join [32] (pre ++ [w])) = Ok m ->
  from_normalized_phrase L (join [32] (pre ++ [w'])) = Err InvalidChecksum.
Proof.
  intros Fin Hw Hw' Hn Hne Hdiv Hok.
  assert (HF : exists pidx, Forall2 (fun w i => lang_index_of L w = Some i) pre pidx).
  { clear - Fin LC. induction Fin as [|v pre Hv F [pidx IH]]; [exists []; constructor|].
    apply (lc_in_index U L LC) in Hv as [j Hj]. exists (j :: pidx). constructor; assumption. }
  destruct HF as [pidx HF].
  assert (Hleg : legal_word_count n).
  { destruct (in_dec Nat.eq_dec n [12; 15; 18; 21; 24]%nat) as [H|H]; [exact H|]. exfalso.
    assert (HW : words_of (join [32] (pre ++ [w])) (pre ++ [w])).
    { apply words_of_join. apply (in_good U L LC). apply Forall_app. split; [exact Fin|].
      constructor; [eapply lc_index_in; eassumption|constructor]. }
    assert (E : from_normalized_phrase L (join [32] (pre ++ [w])) = parsed (PBadCount n)).
    { apply from_normalized_iff. rewrite <- Hn. apply ps_count; [exact HW|]. rewrite Hn. exact H. }
    rewrite Hok in E. discriminate. }
  assert (HK : exists k, (3 * k = n)%nat /\ (n / 3 = k)%nat).
  { unfold legal_word_count in Hleg. cbn in Hleg.
    exists (n / 3)%nat. split; [|reflexivity]. destruct Hleg as [<-|[<-|[<-|[<-|[<-|[]]]]]]; reflexivity. }
  destruct HK as [k [Hk HKd]]. rewrite HKd in Hdiv.
  pose proof (last_word pre pidx w i n k HF Hw Hn Hleg Hk) as E1. cbv zeta in E1.
  assert (Hn' : length (pre ++ [w']) = n) by (rewrite app_length in *; exact Hn).
  pose proof (last_word pre pidx w' i' n k HF Hw' Hn' Hleg Hk) as E2. cbv zeta in E2.
  rewrite E1 in Hok. rewrite <- Hdiv in E2.
  destruct (i mod 2 ^ N.of_nat k =? _) eqn:EQ in Hok; [|discriminate].
  rewrite E2. apply N.eqb_eq in EQ. rewrite <- EQ.
  destruct (N.eqb_spec (i' mod 2 ^ N.of_nat k) (i mod 2 ^ N.of_nat k)) as [E|E]; [|reflexivity].
  exfalso. apply Hne. rewrite (N.div_mod i (2 ^ N.of_nat k)), (N.div_mod i' (2 ^ N.of_nat k)) by (apply N.pow_nonzero; lia).
  rewrite Hdiv, E. reflexivity.
Qed.

Theorem count_last_words pre n :
  Forall (fun v => In v (lang_words L)) pre -> S (length pre) = n -> legal_word_count n ->
  N.of_nat (length (filter (fun w => is_ok (from_normalized_phrase L (join [32] (pre ++ [w])))) (lang_words L)))
  = 2 ^ N.of_nat (11 - n / 3).
Proof.
  intros Fin Hn Hleg.
  assert (HF : exists pidx, Forall2 (fun w i => lang_index_of L w = Some i) pre pidx).
  { clear - Fin LC. induction Fin as [|v pre Hv F [pidx IH]]; [exists []; constructor|].
    apply (lc_in_index U L LC) in Hv as [j Hj]. exists (j :: pidx). constructor; assumption. }
  destruct HF as [pidx HF].
  assert (HK : exists k, (3 * k = n)%nat /\ (n / 3 = k)%nat /\ (4 <= k <= 8)%nat).
  { unfold legal_word_count in Hleg. cbn in Hleg.
    destruct Hleg as [<-|[<-|[<-|[<-|[<-|[]]]]]]; [exists 4%nat|exists 5%nat|exists 6%nat|exists 7%nat|exists 8%nat]; repeat split; lia. }
  destruct HK as [k [Hk [HKd HKb]]]. rewrite HKd.
  set (E := fun h : N => pack (4 * k) (index_bits pidx ++ bits_msb (11 - k) h)).
  set (b := N.to_nat (2 ^ N.of_nat k)). set (a := N.to_nat (2 ^ N.of_nat (11 - k))).
  set (f := fun h : nat => N.to_nat (bits_val (checksum_bits (E (N.of_nat h))))).
  assert (Hb : N.of_nat b = 2 ^ N.of_nat k) by (unfold b; lia).
  assert (Ha : N.of_nat a = 2 ^ N.of_nat (11 - k)) by (unfold a; lia).
  assert (Hab : length (lang_words L) = (a * b)%nat).
  { pose proof (lc_count U L LC) as HC. apply Nat2N.inj. rewrite HC, Nat2N.inj_mul, Ha, Hb, <- N.pow_add_r.
    replace (N.of_nat (11 - k) + N.of_nat k) with 11 by lia. reflexivity. }
  assert (Hb0 : (0 < b)%nat) by (pose proof (N.pow_nonzero 2 (N.of_nat k)); lia).
  assert (Hf : forall h, (f h < b)%nat).
  { intros h. unfold f. pose proof (bits_val_bound (checksum_bits (E (N.of_nat h)))) as HB.
    assert (HCL : (3 * length (checksum_bits (E (N.of_nat h))) = n)%nat).
    { apply checksum_bits_length; [|exact Hleg]. unfold E. rewrite pack_length. lia. }
    replace (length (checksum_bits (E (N.of_nat h)))) with k in HB by lia. lia. }
  rewrite <- Ha. f_equal. rewrite <- (count_block f b Hb0 a Hf).
  rewrite (list_as_map (A := str) [] (lang_words L)) at 1. rewrite filter_map_length, Hab.
  apply filter_ext_length. intros j Hj. apply in_seq in Hj.
  assert (Hjw : nth_error (lang_words L) j = Some (nth j (lang_words L) [])) by (apply nth_error_nth'; lia).
  assert (Hji : lang_index_of L (nth j (lang_words L) []) = Some (N.of_nat j)).
  { apply (lc_index_of U L LC). rewrite Nat2N.id. exact Hjw. }
  assert (Hlen : length (pre ++ [nth j (lang_words L) []]) = n) by (rewrite app_length; cbn; lia).
  rewrite (last_word pre pidx _ (N.of_nat j) n k HF Hji Hlen Hleg Hk).
  fold (E (N.of_nat j / 2 ^ N.of_nat k)). unfold f. rewrite <- Hb, <- Nat2N.inj_mod, <- Nat2N.inj_div.
  destruct (N.eqb_spec (N.of_nat (j mod b)) (bits_val (checksum_bits (E (N.of_nat (j / b)))))) as [EQ|NE]; cbn [is_ok].
  - symmetry. apply Nat.eqb_eq. rewrite <- EQ, Nat2N.id. reflexivity.
  - symmetry. apply Nat.eqb_neq. intros H. apply NE. rewrite H, N2Nat.id. reflexivity.
Qed.

End LastWord.
