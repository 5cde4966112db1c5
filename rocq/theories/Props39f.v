(** Property theorems for the fuzz targets of the bip0039 crate (C57, C58): no input
    makes an assertion of a target fail. *)
From Verif Require Import Base Sha2 Str StrProofs Unicode UnicodeTables UnicodeProofs Language39 Builtin39
  Mnemonic39 Spec39 LangSpec39 LangProofs MnemonicProofs Fuzz39 Eqb39 Props39.

(** ** C57 *)
Lemma bytes_refl l : bytes_eqb l l = true.
Proof. apply bytes_eqb_eq. reflexivity. Qed.
Lemma str_refl s : str_eqb s s = true.
Proof. apply str_eqb_eq. reflexivity. Qed.
Lemma input_legal i : entropy_input_wf i -> legal_entropy_len (length (as_slice i)).
Proof. unfold legal_entropy_len. destruct i; cbn [entropy_input_wf as_slice]; intros ->; cbn; auto 10. Qed.

Theorem C57_fuzz_from_entropy U B input :
  ucd_std U -> valid_build B -> entropy_input_wf input -> fuzz_from_entropy U B input = Ok tt.
Proof.
  intros HU HB HI. apply input_legal in HI.
  destruct (C01_entropy_roundtrip U B BEnglish _ HU HB HI) as (m & E & EE & EP).
  unfold fuzz_from_entropy. rewrite E. cbn [unwrap bind]. rewrite EP, EE. cbn [unwrap bind].
  rewrite EE, bytes_refl, str_refl. reflexivity.
Qed.
Print Assumptions C57_fuzz_from_entropy.

Theorem C57_fuzz_to_seed U B lossy input passphrase_bytes :
  ucd_std U -> valid_build B -> entropy_input_wf input ->
  fuzz_to_seed U B lossy input passphrase_bytes = Ok tt.
Proof.
  intros HU HB HI. apply input_legal in HI.
  destruct (C01_entropy_roundtrip U B BEnglish _ HU HB HI) as (m & E & EE & EP).
  unfold fuzz_to_seed. rewrite E. cbn [unwrap bind]. rewrite EP. cbn [unwrap bind].
  rewrite bytes_refl. reflexivity.
Qed.
Print Assumptions C57_fuzz_to_seed.

Example C57_case : entropy_input_wf (In12 ex_entropy) /\ valid_build b64 /\ ucd_std ucd15.
Proof. split; [reflexivity|]. split; [exact b64_valid|exact ucd15_std]. Qed.

(** ** C58 *)
Definition bad_word : str := lit "not_in_wordlist".
Lemma bad_word_ascii : Forall (fun c => c <= 0x7F) bad_word.
Proof. repeat constructor; intros E; discriminate E. Qed.
Lemma bad_word_good : bad_word <> [] /\ no_ws bad_word.
Proof. split; [discriminate|repeat constructor]. Qed.
Lemma bad_word_unknown : lang_index_of (language_of BEnglish) bad_word = None.
Proof.
  assert (H : match lang_index_of (language_of BEnglish) bad_word with None => true | _ => false end = true)
    by (vm_cast_no_check (eq_refl true)).
  destruct (lang_index_of (language_of BEnglish) bad_word); [discriminate H|reflexivity].
Qed.

Lemma nfkd_words U ws : ucd_ok U -> Forall (fun w => nfkd U w = w) ws -> nfkd U (join [32] ws) = join [32] ws.
Proof.
  intros OK. induction ws as [|w ws IH]; intros F; [reflexivity|].
  inversion F as [|? ? Hw F']; subst. destruct ws as [|v ws]; [exact Hw|].
  rewrite join_cons. cbn [app]. rewrite nfkd_split by (assumption || lia). rewrite Hw, IH by exact F'. reflexivity.
Qed.
Lemma set_word_ok ws i w : (i < length ws)%nat ->
  set_word ws i w = Ok (firstn i ws ++ w :: skipn (S i) ws) /\
  length (firstn i ws ++ w :: skipn (S i) ws) = length ws.
Proof.
  intros H. unfold set_word. replace (i <? length ws)%nat with true by (symmetry; apply Nat.ltb_lt; exact H).
  split; [reflexivity|]. rewrite app_length, firstn_length. cbn [length]. rewrite skipn_length. lia.
Qed.
Lemma Forall_cut {A : Type} (P : A -> Prop) l i w : Forall P l -> P w -> Forall P (firstn i l ++ w :: skipn (S i) l).
Proof.
  intros F H. rewrite Forall_forall in *. intros x Hx. apply in_app_or in Hx as [Hx|[<-|Hx]]; [|exact H|].
  - apply F. rewrite <- (firstn_skipn i l). apply in_or_app. left. exact Hx.
  - apply F. rewrite <- (firstn_skipn (S i) l). apply in_or_app. right. exact Hx.
Qed.
Lemma known_words U L ws : lang_contract U L -> Forall (fun w => In w (lang_words L)) ws ->
  exists idxs, Forall2 (fun w i => lang_index_of L w = Some i) ws idxs.
Proof.
  intros LC. induction ws as [|w ws IH]; intros F; [exists []; constructor|]. inversion F; subst.
  destruct IH as [idxs H]; [assumption|]. destruct (lc_in_index U L LC w) as [i Hi]; [assumption|].
  exists (i :: idxs). constructor; assumption.
Qed.
Lemma nonempty_words (ws : list str) : legal_word_count (length ws) -> (0 < length ws)%nat.
Proof. unfold legal_word_count. cbn. lia. Qed.

Section Negative.
Context (U : ucd) (HU : ucd_std U).
Local Notation L := (language_of BEnglish).
Let LC : lang_contract U L := builtin_contract U BEnglish HU.
Let OK : ucd_ok U := std_ok U HU.

Lemma unknown_ok ws : Forall (fun w => In w (lang_words L)) ws -> legal_word_count (length ws) ->
  exists s, flip_some_words_to_unknown (join [32] ws) = Ok s /\ from_phrase U L s = Err (UnknownWord bad_word).
Proof.
  intros F HL. pose proof (nonempty_words ws HL) as NE.
  unfold flip_some_words_to_unknown. rewrite split_join by (apply (in_good U L LC); exact F).
  replace (is_empty ws) with false by (destruct ws; [cbn in NE; lia|reflexivity]).
  set (i := Nat.min (length ws / 2) (length ws - 1)). assert (Hi : (i < length ws)%nat) by (unfold i; lia).
  destruct (set_word_ok ws i (lit "not_in_wordlist") Hi) as [-> HLn]. cbn [bind].
  fold bad_word in HLn |- *. eexists. split; [reflexivity|]. rewrite from_phrase_nfkd by exact OK.
  assert (Fn : Forall (fun w => nfkd U w = w) ws).
  { eapply Forall_impl; [|exact F]. intros w Hw. apply (lc_good U L LC) in Hw. tauto. }
  assert (Fg : Forall (fun w => w <> [] /\ no_ws w) ws) by (apply (in_good U L LC); exact F).
  rewrite nfkd_words; [|exact OK|].
  2:{ apply Forall_cut; [exact Fn|]. rewrite <- (app_nil_r bad_word) at 1.
      rewrite nfkd_ascii_prefix by (exact OK || exact bad_word_ascii).
      rewrite nfkd_nil. apply app_nil_r. }
  change (Err (UnknownWord bad_word)) with (parsed (PUnknown bad_word)). apply from_normalized_iff.
  apply ps_unknown with (pre := firstn i ws) (post := skipn (S i) ws).
  - apply words_of_join. apply Forall_cut; [exact Fg|exact bad_word_good].
  - rewrite HLn. exact HL.
  - rewrite Forall_forall in *. intros w Hw E.
    destruct (lc_in_index U L LC w) as [j Hj]; [|congruence].
    apply F. rewrite <- (firstn_skipn i ws). apply in_or_app. left. exact Hw.
  - exact bad_word_unknown.
Qed.

Lemma checksum_ok ws : Forall (fun w => In w (lang_words L)) ws -> legal_word_count (length ws) ->
  exists s, flip_checksum_like (join [32] ws) = Ok s /\
    ((exists m, from_phrase U L s = Ok m) \/ from_phrase U L s = Err InvalidChecksum).
Proof.
  intros F HL. pose proof (nonempty_words ws HL) as NE.
  unfold flip_checksum_like. rewrite split_join by (apply (in_good U L LC); exact F).
  replace (is_empty ws) with false by (destruct ws; [cbn in NE; lia|reflexivity]).
  destruct (nth_error ws (length ws - 1)) as [orig|] eqn:EO.
  2:{ apply nth_error_None in EO. lia. }
  assert (HO : In orig (lang_words L)).
  { rewrite Forall_forall in F. apply F. eapply nth_error_In. exact EO. }
  destruct (lc_in_index U L LC orig HO) as [j Hj]. rewrite Hj.
  assert (HB : (j + 1) mod 2048 < 2048) by (apply N.mod_lt; discriminate).
  destruct (lang_word_of L ((j + 1) mod 2048)) as [new|] eqn:EN.
  2:{ exfalso. exact (lc_total U L LC _ HB EN). }
  assert (HN : In new (lang_words L)) by (eapply (lc_word_in U L LC); [exact HB|exact EN]).
  destruct (set_word_ok ws (length ws - 1) new) as [-> HLn]; [lia|]. cbn [bind].
  eexists. split; [reflexivity|]. set (ws' := firstn _ ws ++ _) in *.
  assert (F' : Forall (fun w => In w (lang_words L)) ws') by (apply Forall_cut; assumption).
  rewrite from_phrase_nfkd by exact OK. rewrite (nfkd_join U L LC) by (exact OK || exact F').
  destruct (from_normalized_outcome L (join [32] ws')) as (r & H & ->).
  assert (W : words_of (join [32] ws') ws') by (apply words_of_join, (in_good U L LC); exact F').
  destruct r as [n|w| |e p].
  - exfalso. inversion H as [ws0 W0 L0| | |]; subst. apply (words_of_fun _ _ _ W) in W0. subst ws0.
    apply L0. rewrite HLn. exact HL.
  - exfalso. inversion H as [|pre w0 post W0 L0 F0 N0| |]; subst. apply (words_of_fun _ _ _ W) in W0.
    rewrite W0 in F'. rewrite Forall_forall in F'.
    destruct (lc_in_index U L LC w) as [k Hk]; [|congruence].
    apply F'. apply in_or_app. right. left. reflexivity.
  - right. reflexivity.
  - left. eexists. reflexivity.
Qed.

Lemma negative_ok B m : valid_build B -> made U B L m -> fuzz_negative U (phrase m) = Ok tt.
Proof.
  intros HB HM. destruct (made_inv U B L m OK LC HB HM) as (ws & F & HL & EP & _). rewrite EP.
  unfold fuzz_negative. destruct (unknown_ok ws F HL) as (s & -> & E). cbn [bind]. rewrite E. cbn [unwrap_err bind].
  fold bad_word. rewrite str_refl. cbn [assert bind].
  destruct (checksum_ok ws F HL) as (t & -> & [[m' Em]|Em]); cbn [bind].
  - rewrite C06_validate_agrees, Em. cbn [unwrap bind].
    destruct (C09_reparse U B BEnglish m' HU HB (made_phrase U B L t m' Em)) as (_ & _ & ->). reflexivity.
  - rewrite C06_validate_agrees, Em. reflexivity.
Qed.
End Negative.

Theorem C58_fuzz_from_phrase U lossy phrase_bytes do_negative messy_whitespace max_phrase_len :
  ucd_std U ->
  fuzz_from_phrase U lossy phrase_bytes do_negative messy_whitespace max_phrase_len = Ok tt.
Proof.
  intros HU. unfold fuzz_from_phrase. set (n := N.to_nat _). clearbody n.
  set (s0 := lossy_string _ _ _). clearbody s0. set (s := if messy_whitespace then _ else _). clearbody s.
  destruct (C11_no_panic U b64 (language_of BEnglish) b64_valid) as (_ & NP & _ & NV).
  destruct (from_phrase U (language_of BEnglish) s) as [m|e|] eqn:E.
  - pose proof (made_phrase U b64 (language_of BEnglish) s m E) as HM.
    destruct (C09_reparse U b64 BEnglish m HU b64_valid HM) as (E1 & _ & E2).
    rewrite C06_validate_agrees, E, E1, E2. cbn [assert unwrap bind].
    rewrite bytes_refl, str_refl. cbn [assert bind].
    destruct (is_empty (phrase m)) eqn:EE.
    { exfalso. destruct (made_inv U b64 _ m (std_ok U HU) (builtin_contract U BEnglish HU) b64_valid HM)
        as (ws & F & HL & EP & _). destruct (phrase m); [|discriminate EE].
      pose proof (nonempty_words ws HL) as NE. destruct ws as [|w ws]; [cbn in NE; lia|].
      inversion F as [|? ? Hw F']; subst. apply (lc_good U _ (builtin_contract U BEnglish HU)) in Hw as (Hw & _).
      destruct w; [congruence|]. destruct ws; discriminate EP. }
    cbn [negb assert bind]. destruct do_negative; [|reflexivity].
    apply (negative_ok U HU b64 m b64_valid HM).
  - rewrite C06_validate_agrees, E. reflexivity.
  - elim (NP s E).
Qed.
Print Assumptions C58_fuzz_from_phrase.

(** The target's inputs include accepted phrases, for which the perturbed phrases are
    rejected for the expected reasons. *)
Example C58_case :
  from_phrase ucd15 (language_of BEnglish) (make_whitespace_mess ex_phrase) = Ok ex_mnemonic /\
  flip_some_words_to_unknown ex_phrase =
    Ok (lit "legal winner thank year wave sausage not_in_wordlist useful legal winner thank yellow") /\
  flip_checksum_like ex_phrase =
    Ok (lit "legal winner thank year wave sausage worth useful legal winner thank you").
Proof. split; [run_m|]. split; run_s. Qed.

(** ** C62 *)
(** Every Unicode whitespace character decomposes to one whitespace character that
    does not combine with its neighbours. *)
Definition ws_single (U : ucd) : Prop := forall c, is_ws c = true ->
  exists d, decompose U c = [d] /\ is_ws d = true /\ ucd_ccc U d = 0.
Definition all_ws : list N := [9; 10; 11; 12; 13; 0x20; 0x85; 0xA0; 0x1680; 0x2000; 0x2001; 0x2002; 0x2003;
  0x2004; 0x2005; 0x2006; 0x2007; 0x2008; 0x2009; 0x200A; 0x2028; 0x2029; 0x202F; 0x205F; 0x3000].
Lemma all_ws_complete c : is_ws c = true -> In c all_ws.
Proof.
  unfold is_ws, all_ws. intros H. cbn [In].
  repeat (apply orb_true_iff in H as [H|H]); try lia.
Qed.
Lemma ucd15_ws : ws_single ucd15.
Proof.
  intros c H. apply all_ws_complete in H.
  assert (G : forallb (fun c => match decompose ucd15 c with
                                | [d] => is_ws d && (ucd_ccc ucd15 d =? 0) | _ => false end) all_ws = true)
    by (vm_cast_no_check (eq_refl true)).
  rewrite forallb_forall in G. specialize (G c H).
  destruct (decompose ucd15 c) as [|d [|]]; try discriminate. apply andb_true_iff in G as [G1 G2].
  exists d. split; [reflexivity|]. split; [exact G1|]. apply N.eqb_eq, G2.
Qed.

Lemma split_ws_app a c b : is_ws c = true ->
  split_whitespace (a ++ c :: b) = split_whitespace a ++ split_whitespace b.
Proof.
  intros Hc. pose proof (words_of_split a) as W. remember (split_whitespace a) as ws eqn:E. clear E.
  induction W as [|d s ws Hd W IH|w s ws Hw F Hs W IH]; cbn [app].
  - apply sw_cons_ws, Hc.
  - rewrite sw_cons_ws by exact Hd. exact IH.
  - rewrite <- app_assoc. rewrite sw_word; [rewrite IH; reflexivity|exact Hw|exact F|].
    destruct Hs as [-> |(d & s' & -> & Hd)]; right; [exists c, b; auto|cbn [app]; eauto].
Qed.

(** The words of the normalised phrase are those of its normalised words. *)
Lemma nfkd_words_of U s ws : ws_single U -> words_of s ws ->
  split_whitespace (nfkd U s) = flat_map (fun w => split_whitespace (nfkd U w)) ws.
Proof.
  intros WS W. induction W as [|c s ws Hc W IH|w s ws Hw F Hs W IH]; [reflexivity| |].
  - destruct (WS c Hc) as (d & Ed & Hd & Cd). rewrite <- IH.
    unfold nfkd. cbn [flat_map]. rewrite Ed. cbn [app reorder]. rewrite Cd. cbn [N.eqb].
    change (sort_ccc U []) with (@nil N). cbn [app]. apply sw_cons_ws, Hd.
  - cbn [flat_map]. rewrite <- IH. destruct Hs as [-> |(c & s' & -> & Hc)].
    + rewrite app_nil_r. cbn. rewrite app_nil_r. reflexivity.
    + destruct (WS c Hc) as (d & Ed & Hd & Cd). unfold nfkd.
      rewrite flat_map_app. cbn [flat_map]. rewrite Ed. cbn [app].
      rewrite reorder_split by exact Cd. rewrite split_ws_app by exact Hd. f_equal.
      cbn [reorder]. rewrite Cd. cbn [N.eqb]. change (sort_ccc U []) with (@nil N). cbn [app].
      symmetry. apply sw_cons_ws, Hd.
Qed.

Theorem C62_typed_words_only U L s t ws :
  ucd_ok U -> ws_single U -> words_of s ws -> words_of t ws ->
  from_phrase U L s = from_phrase U L t /\ validate U L s = validate U L t.
Proof.
  intros OK WS Hs Ht. assert (E : from_phrase U L s = from_phrase U L t).
  { apply (C07_words_only U L s t (split_whitespace (nfkd U s))); [exact OK|apply words_of_split|].
    rewrite (nfkd_words_of U s ws WS Hs), <- (nfkd_words_of U t ws WS Ht). apply words_of_split. }
  split; [exact E|]. rewrite !C06_validate_agrees, E. reflexivity.
Qed.
Print Assumptions C62_typed_words_only.

(** In particular for the fuzz target's perturbation. *)
Theorem C62_mess U L s : ucd_ok U -> ws_single U ->
  from_phrase U L (make_whitespace_mess s) = from_phrase U L s.
Proof.
  intros OK WS. apply (C62_typed_words_only U L _ _ (split_whitespace s)); [exact OK|exact WS| |apply words_of_split].
  replace (split_whitespace s) with (split_whitespace (make_whitespace_mess s)); [apply words_of_split|].
  unfold make_whitespace_mess.
  assert (M : forall i, (mess_char i 32 <> [] /\ Forall (fun c => is_ws c = true) (mess_char i 32))).
  { intros i. unfold mess_char. cbn [N.eqb Pos.eqb].
    repeat match goal with |- context [match ?x with _ => _ end] => destruct x end;
      (split; [discriminate|repeat constructor]). }
  assert (A0 : forall m b, Forall (fun c => is_ws c = true) m -> split_whitespace (m ++ b) = split_whitespace b).
  { intros m b F. induction F as [|d m H F IH]; [reflexivity|]. cbn [app]. rewrite sw_cons_ws by exact H. exact IH. }
  assert (G : forall s i pre, split_whitespace (pre ++ mess_from i s) = split_whitespace (pre ++ s)).
  { clear s. induction s as [|c s IH]; intros i pre; [reflexivity|]. cbn [mess_from].
    destruct (c =? 32) eqn:E.
    - apply N.eqb_eq in E. subst c. destruct (M i) as [NE F].
      destruct (mess_char i 32) as [|d m]; [congruence|]. inversion F as [|? ? Hd Fm]; subst. cbn [app].
      rewrite split_ws_app by exact Hd. rewrite A0 by exact Fm.
      rewrite split_ws_app by reflexivity. f_equal. apply (IH (i + 1) []).
    - unfold mess_char. rewrite E. cbn [app].
      change (c :: mess_from (i + 1) s) with ([c] ++ mess_from (i + 1) s).
      change (c :: s) with ([c] ++ s). rewrite !app_assoc. apply IH. }
  apply (G s 0 []).
Qed.
Print Assumptions C62_mess.

(** U+00A8 is not whitespace, but its decomposition starts with a space; U+3000 is. *)
Example C62_case : ucd_ok ucd15 /\ ws_single ucd15 /\
  words_of (lit "a" ++ [0xA8; 0x3000; 98]) [lit "a" ++ [0xA8]; lit "b"] /\
  words_of (lit " a" ++ [0xA8; 9; 98; 0x2028]) [lit "a" ++ [0xA8]; lit "b"] /\
  split_whitespace (nfkd ucd15 (lit "a" ++ [0xA8; 0x3000; 98])) = [lit "a"; [0x308]; lit "b"].
Proof.
  split; [exact ucd15_ok|]. split; [exact ucd15_ws|].
  split; [exact (words_of_split (lit "a" ++ [0xA8; 0x3000; 98]))|].
  split; [exact (words_of_split (lit " a" ++ [0xA8; 9; 98; 0x2028]))|]. reflexivity.
Qed.
