(** Property theorems for the bip0032 crate, first part: paths, versions, the
    extended key format and errors (C22-C32, C52, C53). *)
From Verif Require Import Base Str Sha2 Error32 Path32 PathSpec32 PathProofs32 Version32 Meta32
  Payload32 Base58 Base58Spec Base58Proofs PayloadSpec32 PayloadProofs32 Curve32 XKey32 Eqb32.

(** ** C22 *)
Theorem C22_child_numbers : 
  (forall i h, i < 2 ^ 32 ->
     (i < 2 ^ 31 -> exists c, child_new i h = Ok c /\ child_index c = i /\ child_is_hardened c = h /\
                      c = i + (if h then 2 ^ 31 else 0) /\ c < 2 ^ 32) /\
     (2 ^ 31 <= i -> exists e, child_new i h = Err e /\ e_kind e = InvalidPath)) /\
  (forall b, length b = 4%nat -> child_from_bytes b < 2 ^ 32 /\ child_to_bytes (child_from_bytes b) = b) /\
  (forall c, c < 2 ^ 32 -> length (child_to_bytes c) = 4%nat /\ child_from_bytes (child_to_bytes c) = c /\
     child_new (child_index c) (child_is_hardened c) = Ok c /\
     child_to_bytes c = [n2b (c / 2 ^ 24); n2b (c / 2 ^ 16); n2b (c / 2 ^ 8); n2b c]).
Proof.
  split; [|split].
  - intros i h Hi. split; intros H.
    + exists (i + (if h then 2 ^ 31 else 0)). destruct (child_of_parts i h H) as [-> ->].
      repeat split; [apply child_new_iff; auto|destruct h; lia].
    + destruct (child_new i h) as [c|e|] eqn:E.
      * apply child_new_iff in E. lia.
      * exists e. split; [reflexivity|]. eapply child_new_err; exact E.
      * elim (child_new_no_panic i h E).
  - intros b Hb. unfold child_from_bytes, child_to_bytes, u32_from_be, u32_to_be. split.
    + pose proof (be_val_bound b) as B. rewrite Hb in B. exact B.
    + rewrite <- Hb. apply be_bytes_be_val.
  - intros c Hc. split; [apply be_bytes_length|]. split; [|split].
    + unfold child_from_bytes, child_to_bytes, u32_from_be, u32_to_be.
      rewrite be_val_be_bytes. apply N.mod_small. exact Hc.
    + apply child_new_iff. pose proof (child_parts c Hc). tauto.
    + unfold child_to_bytes, u32_to_be. cbn [be_bytes app].
      rewrite !N.div_div by lia. reflexivity.
Qed.
Print Assumptions C22_child_numbers.

Example C22_case : child_new 44 true = Ok 2147483692 /\ child_to_bytes 2147483692 = [x80; x00; x00; x2c] /\
  exists e, child_new 2147483648 false = Err e.
Proof. split; [reflexivity|]. split; [reflexivity|]. eexists. reflexivity. Qed.

(** ** C23 *)
Theorem C23_display_parses :
  (forall c, c < 2 ^ 32 -> parse_child_component (child_show c) = Ok c) /\
  (forall p, Forall (fun c => c < 2 ^ 32) p -> path_parse (path_show p) = Ok p).
Proof.
  split.
  - intros c Hc. apply component_iff, child_show_spells, Hc.
  - intros p Hp. apply path_parse_iff, path_show_spells, Hp.
Qed.
Print Assumptions C23_display_parses.

Example C23_case : path_show [2147483692; 0; 4294967295; 5] = lit "m/44'/0/2147483647'/5" /\
  path_show [] = lit "m".
Proof. split; reflexivity. Qed.

(** ** C24 *)
Theorem C24_path_grammar s :
  (forall cs, path_parse s = Ok cs <-> spells_path s cs) /\
  ((forall cs, ~ spells_path s cs) -> exists e, path_parse s = Err e /\ e_kind e = InvalidPath).
Proof.
  split; [intros cs; apply path_parse_iff|]. intros H.
  destruct (path_parse s) as [cs|e|] eqn:E.
  - apply path_parse_iff in E. elim (H cs E).
  - exists e. split; [reflexivity|]. eapply path_parse_err; exact E.
  - elim (path_parse_no_panic s E).
Qed.
Print Assumptions C24_path_grammar.

Example C24_case :
  path_parse (lit "M/+044h/0H/7") = Ok [2147483692; 2147483648; 7] /\
  path_parse (lit "1/2") = Ok [1; 2] /\
  is_ok (path_parse (lit "m/")) = false /\ is_ok (path_parse (lit "m//1")) = false /\
  is_ok (path_parse (lit "")) = false /\ is_ok (path_parse (lit "m/1''")) = false /\
  is_ok (path_parse (lit "m/2147483648")) = false /\ is_ok (path_parse (lit "m/-1")) = false /\
  is_ok (path_parse (lit "m/4294967297")) = false /\ is_ok (path_parse (lit "/1")) = false.
Proof. repeat split; reflexivity. Qed.

(** ** C25 *)
Theorem C25_parsing_normalises s p :
  path_parse s = Ok p ->
  path_parse (path_show p) = Ok p /\
  (exists t, path_show p = lit "m" ++ t /\ Forall (fun x => is_digit x \/ x = 39 \/ x = 47) t) /\
  Forall (fun c => c < 2 ^ 32 /\ child_index c < 2 ^ 31) p /\
  (forall s' p', path_parse s' = Ok p' -> (p = p' <-> path_show p = path_show p')).
Proof.
  intros H. apply path_parse_iff in H. pose proof (spells_path_bound _ _ H) as B.
  assert (R : path_parse (path_show p) = Ok p) by (apply path_parse_iff, path_show_spells, B).
  split; [exact R|]. split; [|split].
  - apply path_show_chars.
  - apply Forall_forall. intros c Hc. rewrite Forall_forall in B. specialize (B c Hc).
    split; [exact B|]. apply child_parts. exact B.
  - intros s' p' H'. split; [intros ->; reflexivity|]. intros E.
    apply path_parse_iff in H'. pose proof (spells_path_bound _ _ H') as B'.
    assert (R' : path_parse (path_show p') = Ok p') by (apply path_parse_iff, path_show_spells, B').
    congruence.
Qed.
Print Assumptions C25_parsing_normalises.

Example C25_case : path_parse (lit "M/+044h/007") = Ok [2147483692; 7] /\
  path_show [2147483692; 7] = lit "m/44'/7".
Proof. split; reflexivity. Qed.

(** ** C26 *)
Theorem C26_hardened_types :
  (forall i, i < 2 ^ 32 ->
     (i < 2 ^ 31 <-> exists h, hchild_new i = Ok h) /\
     forall h, hchild_new i = Ok h -> hc_child h = i + 2 ^ 31 /\ hchild_index h = i) /\
  (forall c, (c <? 2 ^ 31) = false -> hchild_try_from c = Ok (mkHC c)) /\
  (forall c, c < 2 ^ 31 -> hchild_try_from c =
     Err {| e_kind := InvalidPath; e_message := lit "expected hardened child number";
            e_context := [(lit "child_index", dec c)]; e_source := None |}) /\
  (forall p, (Forall (fun c => 2 ^ 31 <= c) p /\ hpath_try_from p = Ok (mkHP p)) \/
     exists a c b, p = a ++ c :: b /\ Forall (fun c => 2 ^ 31 <= c) a /\ c < 2 ^ 31 /\
       hpath_try_from p =
         Err {| e_kind := InvalidPath; e_message := lit "expected hardened derivation path";
                e_context := [(lit "child_index", dec c)]; e_source := None |}) /\
  (forall s h, hpath_parse s = Ok h <->
     spells_path s (hp_inner h) /\ Forall (fun c => 2 ^ 31 <= c) (hp_inner h)) /\
  (forall E dbg s h, hpath_parse s = Ok h ->
     hpath_children (E := E) dbg h = Ok (map mkHC (hp_inner h))).
Proof.
  assert (HH : forall c, child_is_hardened c = true <-> 2 ^ 31 <= c).
  { intros c. unfold child_is_hardened. rewrite N.leb_le. reflexivity. }
  assert (HN : forall c, child_is_hardened c = false <-> c < 2 ^ 31).
  { intros c. unfold child_is_hardened. rewrite N.leb_gt. reflexivity. }
  assert (HF : forall p, Forall (fun c => child_is_hardened c = true) p <-> Forall (fun c => 2 ^ 31 <= c) p).
  { intros p. rewrite !Forall_forall. split; intros H c Hc; apply HH, H, Hc. }
  assert (TRY : forall p h, hpath_try_from p = Ok h <-> h = mkHP p /\ Forall (fun c => 2 ^ 31 <= c) p).
  { intros p h. unfold hpath_try_from.
    destruct (find (fun c => negb (child_is_hardened c)) p) as [c|] eqn:F.
    - split; [discriminate|]. intros [_ A]. apply find_some_first in F as (a & b & -> & _ & N).
      apply Forall_app in A as [_ A]. inversion A; subst. apply HN in N. lia.
    - apply find_none_forall, HF in F. split; [intros [= <-]; auto|intros [-> _]; reflexivity]. }
  split; [|split; [|split; [|split; [|split]]]].
  - intros i Hi. unfold hchild_new. split; [split|].
    + intros L. destruct (child_new i true) as [c|e|] eqn:E; cbn [res_map]; eauto.
      * apply child_new_err in E as K. assert (X : child_new i true = Ok (i + 2 ^ 31)) by (apply child_new_iff; auto).
        congruence.
      * elim (child_new_no_panic i true E).
    + intros [h H]. destruct (child_new i true) as [c|e|] eqn:E; try discriminate.
      apply child_new_iff in E. tauto.
    + intros h H. destruct (child_new i true) as [c|e|] eqn:E; try discriminate.
      cbn [res_map] in H. injection H as <-. apply child_new_iff in E as [L ->].
      cbn [hc_child]. split; [reflexivity|]. apply (child_of_parts i true L).
  - intros c H. unfold hchild_try_from. replace (child_is_hardened c) with true; [reflexivity|].
    symmetry. apply HH. lia.
  - intros c H. unfold hchild_try_from. replace (child_is_hardened c) with false; [|symmetry; apply HN; exact H].
    unfold with_context, err_new. cbn [e_kind e_message e_context e_source app].
    rewrite child_index_mod, N.mod_small by exact H. reflexivity.
  - intros p. unfold hpath_try_from.
    destruct (find (fun c => negb (child_is_hardened c)) p) as [c|] eqn:F.
    + right. apply find_some_first in F as (a & b & E & A & N). exists a, c, b.
      apply HN in N. split; [exact E|]. split; [apply HF; exact A|]. split; [exact N|].
      unfold with_context, err_new. cbn [e_kind e_message e_context e_source app].
      rewrite child_index_mod, N.mod_small by exact N. reflexivity.
    + left. apply find_none_forall, HF in F. auto.
  - intros s h. unfold hpath_parse. split.
    + destruct (path_parse s) as [p|e|] eqn:E; cbn [bind]; try discriminate.
      intros H. apply TRY in H as [-> H]. cbn [hp_inner]. split; [apply path_parse_iff; exact E|exact H].
    + intros [S A]. apply path_parse_iff in S. rewrite S. cbn [bind]. apply TRY. destruct h; auto.
  - intros E dbg s h H. apply hchildren_ok. unfold hpath_parse in H.
    destruct (path_parse s) as [p|e|] eqn:Ep; cbn [bind] in H; try discriminate.
    apply TRY in H as [-> H]. apply HF. exact H.
Qed.
Print Assumptions C26_hardened_types.

Example C26_case : hpath_parse (lit "m/44'/501'") = Ok (mkHP [2147483692; 2147484149]) /\
  hpath_parse (lit "m/44'/7/8") =
    Err {| e_kind := InvalidPath; e_message := lit "expected hardened derivation path";
           e_context := [(lit "child_index", lit "7")]; e_source := None |}.
Proof. split; reflexivity. Qed.

(** ** C27 *)
Theorem C27_known_versions :
  (forall k k', into_version k = into_version k' -> k = k') /\
  (forall v k, into_known_version v = Some k <-> into_version k = v) /\
  (forall raw k k', into_version k = Public raw -> into_version k' = Private raw -> False) /\
  (forall raw k, from_raw raw = Some k <-> as_u32 (into_version k) = raw) /\
  (forall k, as_u32 (into_version k) < 2 ^ 32) /\
  (forall raw, In raw known_public <-> exists k, into_version k = Public raw) /\
  (forall raw, In raw known_private <-> exists k, into_version k = Private raw).
Proof.
  assert (KV : forall k, into_known_version (into_version k) = Some k) by (intros []; reflexivity).
  assert (FR : forall k, from_raw (as_u32 (into_version k)) = Some k) by (intros []; reflexivity).
  split; [|split; [|split; [|split; [|split; [|split]]]]].
  - intros k k' E. pose proof (KV k) as A. rewrite E, KV in A. congruence.
  - intros v k. split; [|intros <-; apply KV].
    assert (P : forall arms, In (into_version k, k) arms \/ True) by auto. clear P.
    assert (G : forall arms, (forall q, In q arms -> fst q = into_version (snd q)) ->
                first_arm v arms = Some k -> into_version k = v).
    { induction arms as [|[q kq] arms IH]; intros HA; cbn [first_arm]; [discriminate|].
      destruct (version_eqb v q) eqn:E.
      - intros [= <-]. apply version_eqb_eq in E. subst. symmetry. apply (HA (q, kq)). left. reflexivity.
      - apply IH. intros r Hr. apply HA. right. exact Hr. }
    apply G. intros q Hq. cbn in Hq. repeat destruct Hq as [<-|Hq]; try reflexivity. contradiction.
  - intros raw k k' E E'. pose proof (FR k) as A. pose proof (FR k') as A'.
    rewrite E in A. rewrite E' in A'. cbn [as_u32] in *. rewrite A in A'. injection A' as ->. congruence.
  - intros raw k. split; [|intros <-; apply FR].
    intros H. pose proof (from_raw_public raw k H). destruct (into_version k); cbn; tauto.
  - intros []; reflexivity.
  - intros raw. split.
    + intros H. cbn in H. repeat destruct H as [<-|H]; [..|contradiction].
      * exists Xpub; reflexivity. * exists Tpub; reflexivity. * exists Ypub; reflexivity.
      * exists YpubShWsh; reflexivity. * exists Upub; reflexivity. * exists UpubShWsh; reflexivity.
      * exists Zpub; reflexivity. * exists ZpubWsh; reflexivity. * exists Vpub; reflexivity.
      * exists VpubWsh; reflexivity.
    + intros [k H]. pose proof (FR k) as A. rewrite H in A. apply from_raw_public in A. rewrite H in A. tauto.
  - intros raw. split.
    + intros H. cbn in H. repeat destruct H as [<-|H]; [..|contradiction].
      * exists Xprv; reflexivity. * exists Tprv; reflexivity. * exists Yprv; reflexivity.
      * exists YprvShWsh; reflexivity. * exists Uprv; reflexivity. * exists UprvShWsh; reflexivity.
      * exists Zprv; reflexivity. * exists ZprvWsh; reflexivity. * exists Vprv; reflexivity.
      * exists VprvWsh; reflexivity.
    + intros [k H]. pose proof (FR k) as A. rewrite H in A. apply from_raw_public in A. rewrite H in A. tauto.
Qed.
Print Assumptions C27_known_versions.

Example C27_case : into_version UprvShWsh = Private 0x024285B5 /\
  from_raw 0x024285B5 = Some UprvShWsh /\ from_raw 0x12345678 = None /\
  into_known_version (Public 0x0488ADE4) = None.
Proof. repeat split. Qed.

(** A test vector of BIP-0032 (vector 1, chain m/0H). *)
Definition ex_xprv : str :=
  lit "xprv9uHRZZhk6KAJC1avXpDAp4MDc3sQKNxDiPvvkX8Br5ngLNv1TxvUxt4cV1rGL5hj6KCesnDYUhd7oWgT11eZG7XnxHrnYeSvkzY7d2bhkJ7".
Definition ex_payload : Payload := {|
  p_version := Private 0x0488ADE4;
  p_meta := {| m_depth := x01; m_fingerprint := [x34; x42; x19; x3e]; m_child := 2147483648;
    m_chain := unhex "47fdacbd0f1097043b78c63c20c34ef4ed9a111d980047ad16282c7ae6236141" |};
  p_key := x00 :: unhex "edb2e14f9ee77d26dd93b4ecede8d16ed408ce149b6cd80b0715a2d911a0afea" |}.
Lemma ex_payload_wf : payload_wf ex_payload.
Proof. repeat split. Qed.

(** ** C28 *)
Theorem C28_payload_roundtrip dbg :
  (forall s p, payload_parse dbg s = Ok p ->
     exists t, payload_show p = Ok t /\ payload_parse dbg t = Ok p) /\
  (forall p, payload_wf p -> depth_rule (p_meta p) -> prefix_rule p ->
     exists t, payload_show p = Ok t /\ payload_parse dbg t = Ok p).
Proof.
  assert (G : forall p, payload_wf p -> depth_rule (p_meta p) -> prefix_rule p ->
     exists t, payload_show p = Ok t /\ payload_parse dbg t = Ok p).
  { intros p W D P. destruct (payload_show_ok p W) as (t & S & B). exists t. split; [exact S|].
    apply payload_parse_iff. tauto. }
  split; [|exact G]. intros s p H. apply payload_parse_iff in H as (W & _ & D & P). auto.
Qed.
Print Assumptions C28_payload_roundtrip.

(** The condition on the version bytes is needed: a payload with public kind and
    the bytes of a known private version prints, but its text is rejected. *)
Theorem C28_wrong_kind_refuted :
  exists p t, payload_wf p /\ depth_rule (p_meta p) /\ p_version p = Public 0x0488ADE4 /\
    key_prefix p = x02 /\ payload_show p = Ok t /\ forall dbg q, payload_parse dbg t <> Ok q.
Proof.
  set (p := {| p_version := Public 0x0488ADE4; p_meta := p_meta ex_payload;
               p_key := x02 :: tl (p_key ex_payload) |}).
  assert (W : payload_wf p) by (repeat split).
  destruct (payload_show_ok p W) as (t & S & B). exists p, t.
  split; [exact W|]. split; [discriminate|]. split; [reflexivity|]. split; [reflexivity|].
  split; [exact S|]. intros dbg q H. apply payload_parse_iff in H as (Wq & Bq & _ & Pq).
  pose proof (base58check_inj _ _ _ B Bq) as E'.
  apply payload_bytes_inj in E' as (V & _ & K); [|assumption..].
  unfold prefix_rule, key_prefix in Pq. rewrite <- K in Pq. destruct (p_version q) as [v|v].
  - destruct Pq as [_ N]. apply N. cbn in V. subst v. cbn. tauto.
  - destruct Pq as [P _]. discriminate.
Qed.
Print Assumptions C28_wrong_kind_refuted.

Example C28_case : payload_wf ex_payload /\ depth_rule (p_meta ex_payload) /\ prefix_rule ex_payload /\
  payload_show ex_payload = Ok ex_xprv /\ payload_parse true ex_xprv = Ok ex_payload.
Proof.
  split; [exact ex_payload_wf|]. split; [discriminate|]. split.
  - split; [reflexivity|]. intros H. cbn in H. repeat destruct H as [H|H]; discriminate || exact H.
  - split; [eval_by run_string|eval_by run_payload].
Qed.

(** ** C29 *)
Theorem C29_canonical_strings dbg s p :
  payload_parse dbg s = Ok p ->
  payload_show p = Ok s /\ forall s', payload_parse dbg s' = Ok p -> s' = s.
Proof.
  intros H. apply payload_parse_iff in H as (W & B & _).
  destruct (payload_show_ok p W) as (t & S & Bt). assert (t = s) by (eapply base58_fun; eassumption). subst t.
  split; [exact S|]. intros s' H'. apply payload_parse_iff in H' as (_ & B' & _).
  eapply base58_fun; eassumption.
Qed.
Print Assumptions C29_canonical_strings.

Example C29_case : payload_parse false ex_xprv = Ok ex_payload /\ payload_show ex_payload = Ok ex_xprv.
Proof. split; [eval_by run_payload|eval_by run_string]. Qed.

(** ** C30 *)
Theorem C30_acceptance dbg s :
  (forall p, payload_parse dbg s = Ok p <->
     payload_wf p /\ is_base58check (payload_bytes p) s /\ depth_rule (p_meta p) /\ prefix_rule p) /\
  ((exists p, payload_parse dbg s = Ok p) <->
   exists b, length b = 78%nat /\ is_base58check b s /\
     (nth 4 b x00 = x00 -> slice 5 13 b = repeat x00 8) /\
     (In (be_val (slice 0 4 b)) known_public -> nth 45 b x00 = x02 \/ nth 45 b x00 = x03) /\
     (In (be_val (slice 0 4 b)) known_private -> nth 45 b x00 = x00) /\
     (nth 45 b x00 = x00 \/ nth 45 b x00 = x02 \/ nth 45 b x00 = x03)).
Proof.
  split; [intros p; apply payload_parse_iff|].
  assert (DIS : forall r, In r known_public -> In r known_private -> False).
  { intros r A B. cbn in A. repeat destruct A as [<-|A]; try contradiction;
      cbn in B; repeat destruct B as [B|B]; discriminate || contradiction. }
  assert (DZ : forall b, length b = 78%nat -> (slice 5 13 b = repeat x00 8 <->
     slice 5 9 b = zeros 4 /\ be_val (slice 9 13 b) = 0)).
  { intros b L. rewrite <- (slice_join 5 9 13) by lia.
    assert (L1 : length (slice 5 9 b) = 4%nat) by (rewrite slice_len; lia).
    assert (L2 : length (slice 9 13 b) = 4%nat) by (rewrite slice_len; lia).
    change (repeat x00 8) with (zeros 4 ++ zeros 4). split.
    - intros E. apply app_len_inj in E as [-> ->]; [split; reflexivity|rewrite L1; reflexivity].
    - intros [-> E]. f_equal. apply be_val_inj; [exact L2|exact E]. }
  assert (HK : forall b, length b = 78%nat -> hd x00 (slice 45 78 b) = nth 45 b x00).
  { intros b L. rewrite <- (slice_join 45 46 78) by lia. rewrite (slice_one 45 b x00) by lia. reflexivity. }
  split.
  - intros [p H]. apply payload_parse_iff in H as (W & B & D & P).
    pose proof (payload_bytes_length p W) as L.
    pose proof (split78_bytes p _ W eq_refl) as (A1 & A2 & A3 & A4 & A5 & A6).
    exists (payload_bytes p). split; [exact L|]. split; [exact B|].
    unfold depth_rule in D. rewrite A2, A3, A4 in D.
    unfold prefix_rule, key_prefix in P. rewrite A6, (HK _ L) in P. rewrite <- A1.
    split; [intros E; apply DZ; [exact L|apply D; exact E]|].
    destruct (p_version p) as [v|v]; cbn [as_u32]; destruct P as [P N].
    + split; [tauto|]. split; [intros I; contradiction|]. tauto.
    + split; [intros I; contradiction|]. tauto.
  - intros (b & L & B & D & P1 & P2 & P3).
    set (mk v := {| p_version := v;
        p_meta := {| m_depth := nth 4 b x00; m_fingerprint := slice 5 9 b;
                     m_child := be_val (slice 9 13 b); m_chain := slice 13 45 b |};
        p_key := slice 45 78 b |}).
    assert (G : forall v, as_u32 v = be_val (slice 0 4 b) -> prefix_rule (mk v) ->
              exists p, payload_parse dbg s = Ok p).
    { intros v E P. exists (mk v). apply payload_parse_iff.
      destruct (bytes_of_split78 (mk v) b L) as [W Eb].
      { repeat split. exact E. }
      split; [exact W|]. rewrite Eb. split; [exact B|]. split; [|exact P].
      intros Z. apply DZ; [exact L|]. apply D. exact Z. }
    destruct (in_dec N.eq_dec (be_val (slice 0 4 b)) known_public) as [I|I].
    + apply (G (Public (be_val (slice 0 4 b))) eq_refl). split.
      * unfold key_prefix. cbn [mk p_key]. rewrite HK by exact L. auto.
      * intros I'. exact (DIS _ I I').
    + destruct (in_dec N.eq_dec (be_val (slice 0 4 b)) known_private) as [J|J].
      * apply (G (Private (be_val (slice 0 4 b))) eq_refl). split; [|exact I].
        unfold key_prefix. cbn [mk p_key]. rewrite HK by exact L. auto.
      * destruct P3 as [Z|Z].
        -- apply (G (Private (be_val (slice 0 4 b))) eq_refl). split; [|exact I].
           unfold key_prefix. cbn [mk p_key]. rewrite HK by exact L. auto.
        -- apply (G (Public (be_val (slice 0 4 b))) eq_refl). split; [|exact J].
           unfold key_prefix. cbn [mk p_key]. rewrite HK by exact L. auto.
Qed.
Print Assumptions C30_acceptance.

(** Which kind of error a rejected string gives. *)
Theorem C30_rejection dbg s e :
  payload_parse dbg s = Err e ->
  (e_kind e = InvalidPayload /\
     forall b, length b = 78%nat -> is_base58check b s ->
       nth 4 b x00 = x00 /\ slice 5 13 b <> repeat x00 8) \/
  (e_kind e = InvalidKeyData /\
     exists b, length b = 78%nat /\ is_base58check b s /\
       (nth 4 b x00 = x00 -> slice 5 13 b = repeat x00 8)).
Proof.
  assert (DZ : forall b, length b = 78%nat -> (slice 5 13 b = repeat x00 8 <->
     slice 5 9 b = zeros 4 /\ be_val (slice 9 13 b) = 0)).
  { intros b L. rewrite <- (slice_join 5 9 13) by lia.
    assert (L1 : length (slice 5 9 b) = 4%nat) by (rewrite slice_len; lia).
    assert (L2 : length (slice 9 13 b) = 4%nat) by (rewrite slice_len; lia).
    change (repeat x00 8) with (zeros 4 ++ zeros 4). split.
    - intros E. apply app_len_inj in E as [-> ->]; [split; reflexivity|rewrite L1; reflexivity].
    - intros [-> E]. f_equal. apply be_val_inj; [exact L2|exact E]. }
  intros H. destruct (base58check_dec78 s) as [(b & L & B)|N].
  - rewrite (payload_parse_bytes dbg s b L B) in H.
    pose proof (parse_payload_err b L _ H) as [[K D]|[K [D _]]].
    + left. split; [exact K|]. intros b' L' B'.
      assert (b' = b).
      { eapply base58check_inj; eassumption. }
      subst b'. destruct (Byte.eqb (nth 4 b x00) x00) eqn:Z.
      * apply Byte.byte_dec_bl in Z. split; [exact Z|]. intros E. apply D.
        intros _. apply DZ; assumption.
      * elim D. intros Z'. rewrite Z' in Z. discriminate.
    + right. split; [exact K|]. exists b. split; [exact L|]. split; [exact B|].
      intros Z. apply DZ; [exact L|]. apply D. exact Z.
  - destruct (payload_parse_not78 dbg s N) as (e' & E' & K). rewrite H in E'. injection E' as <-.
    left. split; [exact K|]. intros b L B. elim N. eauto.
Qed.
Print Assumptions C30_rejection.

Example C30_case :
  payload_parse true ex_xprv = Ok ex_payload /\
  payload_parse true (lit "xprv9s2SPatNQ9Vc6GTbVMFPFo7jsaZySyzk7L8n2uqKXJen3KUmvQNTuLh3fhZMBoG3G4ZW1N2kZuHEPY53qmbZzCHshoQnNf4GvELZfqTUrcv") =
    Err {| e_kind := InvalidPayload; e_message := lit "zero depth with non-zero parent fingerprint";
           e_context := [(lit "depth", lit "0"); (lit "parent_fingerprint", lit "0x01010101")];
           e_source := None |} /\
  payload_parse true (lit "xprv9s21ZrQH4r4TsiLvyLXqM9P7k1K3EYhA1kkD6xuquB5i39AU8KF42acDyL3qsDbU9NmZn6MsGSUYZEsuoePmjzsB3eFKSUEh3Gu1N3cqVUN") =
    Err {| e_kind := InvalidPayload; e_message := lit "zero depth with non-zero child number";
           e_context := [(lit "depth", lit "0"); (lit "child_number", lit "16843009")];
           e_source := None |} /\
  payload_parse true (lit "xpub661MyMwAqRbcEYS8w7XLSVeEsBXy79zSzH1J8vCdxAZningWLdN3zgtU6LBpB85b3D2yc8sfvZU521AAwdZafEz7mnzBBsz4wKY5fTtTQBm") =
    Err {| e_kind := InvalidKeyData; e_message := lit "invalid public key prefix";
           e_context := [(lit "key_prefix", lit "0x00")]; e_source := None |}.
Proof. repeat split; eval_by run_payload. Qed.

(** ** C31 *)
Theorem C31_fits_and_total :
  (forall p, payload_wf p -> exists s, payload_show p = Ok s /\ (length s <= 112)%nat /\
     length (utf8 s) = length s /\ (length s <= MAX_KEY_PAYLOAD_STRING_LENGTH)%nat /\
     Forall (fun c => In c alphabet58) s) /\
  (forall dbg s, payload_parse dbg s <> Panic).
Proof.
  split.
  - intros p W. destruct (payload_show_ok p W) as (s & S & B). exists s. split; [exact S|].
    pose proof (base58check_78_short _ _ (payload_bytes_length p W) B) as L. split; [exact L|].
    split; [apply utf8_len_ascii; eapply base58_ascii; exact B|].
    split; [change MAX_KEY_PAYLOAD_STRING_LENGTH with 123%nat; lia|].
    destruct B as (ds & F & _). clear -F. induction F as [|d c ds s' H F IH]; constructor; [|apply IH].
    eapply nth_error_In. exact H.
  - intros dbg s. destruct (base58check_dec78 s) as [(b & L & B)|N].
    + rewrite (payload_parse_bytes dbg s b L B). intros H. exact (parse_payload_err b L _ H).
    + destruct (payload_parse_not78 dbg s N) as (e & -> & _). discriminate.
Qed.
Print Assumptions C31_fits_and_total.

(** The bound 112 is attained. *)
Example C31_case : exists p s, payload_wf p /\ payload_show p = Ok s /\ length s = 112%nat.
Proof.
  exists {| p_version := Public 0xFFFFFFFF; p_meta := p_meta ex_payload; p_key := p_key ex_payload |}.
  exists (lit "wM5uZBQixmHqjoaFUjZ9fD9HEd7nz938MuvZmY4Pb2SRotwBK9yk5yHz3kDfvkNZCpwj5Qo1EicGb3Wua7Bxzt9XJfPQiggP8Amp9aJm74YN1h9Z").
  split; [repeat split|]. split; [eval_by run_string|reflexivity].
Qed.

(** ** C32 *)
(** The number of '1' characters a text starts with. *)
Fixpoint leading_ones (s : str) : nat :=
  match s with
  | c :: s' => if c =? 49 then S (leading_ones s') else 0%nat
  | [] => 0%nat
  end.

Theorem C32_base58check_roundtrip :
  (forall b, exists s, encode_check b = Some s /\ is_base58check b s /\
     forall cap, (length b + 4 <= cap)%nat -> decode_check (utf8 s) cap = inr b) /\
  (forall s cap b, decode_check (utf8 s) cap = inr b -> encode_check b = Some s) /\
  (forall b s, is_base58 b s -> lead_zeros (map b2n b) = leading_ones s).
Proof.
  split; [|split].
  - intros b. destruct (encode_check_spec b) as (s & E & B). exists s. split; [exact E|]. split; [exact B|].
    intros cap L. apply decode_check_iff. split; [apply base58_utf8; exact B|exact L].
  - intros s cap b H. apply decode_check_iff in H as [H _]. apply (proj1 (base58_utf8 _ _)) in H.
    destruct (encode_check_spec b) as (t & E & B). rewrite E. f_equal. exact (base58_fun _ _ _ B H).
  - intros b s (ds & F & _ & Z). rewrite <- Z. clear Z.
    induction F as [|d c ds s H F IH]; [reflexivity|]. cbn [lead_zeros leading_ones].
    assert (K : (d =? 0) = (c =? 49)).
    { apply eq_true_iff_eq. rewrite !N.eqb_eq. split; intros ->.
      - eapply digit_char_fun; [exact H|reflexivity].
      - eapply digit_char_inj; [exact H|reflexivity]. }
    rewrite K. destruct (c =? 49); [rewrite IH|]; reflexivity.
Qed.
Print Assumptions C32_base58check_roundtrip.

Example C32_case : encode_check [x00; x00; x01; xff] = Some (lit "11zj1EoG3") /\
  decode_check (utf8 (lit "11zj1EoG3")) 8 = inr [x00; x00; x01; xff] /\
  decode_check (utf8 (lit "11zj1EoG3")) 7 = inl SBufferTooSmall /\
  decode_check (utf8 (lit "11zj")) 8 = inl (SChecksum [x5d; xf6; xe0; xe2] [x00; x00; x0d; x14]).
Proof.
  split; [|split; [|split]]; [apply run_opt_string|apply run_decode|apply run_decode|apply run_decode];
    vm_cast_no_check (eq_refl true).
Qed.

(** ** C52 *)
(** A builder step: [with_context key value] or [set_source s]. *)
Inductive build_step : Type :=
| AddContext (key value : str)
| SetSource (s : Source).
Definition build_one (dbg : profile) (e : option Error) (b : build_step) : option Error :=
  match e with
  | None => None
  | Some e =>
      match b with
      | AddContext k v => Some (with_context e k v)
      | SetSource s => set_source dbg e s
      end
  end.
Definition contexts (l : list build_step) : list (str * str) :=
  flat_map (fun b => match b with AddContext k v => [(k, v)] | SetSource _ => [] end) l.
Definition sources (l : list build_step) : list Source :=
  flat_map (fun b => match b with AddContext _ _ => [] | SetSource s => [s] end) l.

Theorem C52_error_builder dbg k msg steps :
  match fold_left (build_one dbg) steps (Some (err_new k msg)) with
  | Some e =>
      e_kind e = k /\ e_message e = msg /\ e_context e = contexts steps /\
      e_source e = match rev (sources steps) with s :: _ => Some s | [] => None end /\
      show_error e = kind_name k ++ lit ": " ++ msg ++
        match contexts steps with
        | [] => []
        | c => lit " { " ++ join (lit ", ") (map (fun kv => fst kv ++ lit "=" ++ snd kv) c) ++ lit " }"
        end
  | None => dbg = true /\ (2 <= length (sources steps))%nat
  end.
Proof.
  assert (SC : forall c, show_context true c = join (lit ", ") (map (fun kv => fst kv ++ lit "=" ++ snd kv) c)).
  { assert (SF : forall c, c <> [] -> show_context false c =
       lit ", " ++ join (lit ", ") (map (fun kv => fst kv ++ lit "=" ++ snd kv) c)).
    { induction c as [|[x y] c IH]; intros H; [congruence|]. cbn [show_context map fst snd].
      destruct c as [|z c].
      - cbn [show_context map join]. rewrite app_nil_r. reflexivity.
      - rewrite IH by discriminate. cbn [map]. cbn [join]. rewrite <- ?app_assoc. reflexivity. }
    intros [|[x y] c]; [reflexivity|]. cbn [show_context map fst snd app].
    destruct c as [|z c].
    - cbn [show_context map join]. rewrite app_nil_r. reflexivity.
    - rewrite SF by discriminate. cbn [map]. cbn [join]. rewrite <- ?app_assoc. reflexivity. }
  assert (INV : match fold_left (build_one dbg) steps (Some (err_new k msg)) with
    | Some e => e_kind e = k /\ e_message e = msg /\ e_context e = contexts steps /\
        e_source e = match rev (sources steps) with s :: _ => Some s | [] => None end
    | None => dbg = true /\ (2 <= length (sources steps))%nat
    end).
  { induction steps as [|b steps IH] using rev_ind; [cbn; auto|].
    rewrite fold_left_app. cbn [fold_left].
    unfold contexts, sources. rewrite !flat_map_app. cbn [flat_map]. rewrite !app_nil_r.
    fold (contexts steps) (sources steps).
    destruct (fold_left (build_one dbg) steps (Some (err_new k msg))) as [e|]; cbn [build_one].
    - destruct IH as (K & M & C & S). destruct b as [key v|s].
      + cbn [with_context e_kind e_message e_context e_source]. rewrite app_nil_r, C. auto.
      + unfold set_source. destruct (e_source e) as [s0|] eqn:E.
        * destruct dbg; cbn [andb].
          -- split; [reflexivity|]. rewrite app_length. cbn [length].
             destruct (sources steps); [discriminate|]. cbn [length]. lia.
          -- cbn [e_kind e_message e_context e_source]. rewrite rev_app_distr, app_nil_r. auto.
        * rewrite andb_false_r. cbn [e_kind e_message e_context e_source].
          rewrite rev_app_distr, app_nil_r. auto.
    - destruct IH as [D L]. split; [exact D|]. rewrite app_length. lia. }
  destruct (fold_left (build_one dbg) steps (Some (err_new k msg))) as [e|]; [|exact INV].
  destruct INV as (K & M & C & S). repeat split; try assumption.
  unfold show_error. rewrite K, M, C. destruct (contexts steps) as [|c0 c]; cbn [is_empty]; [reflexivity|].
  rewrite SC. reflexivity.
Qed.
Print Assumptions C52_error_builder.

Example C52_case :
  option_map show_error (fold_left (build_one true)
    [AddContext (lit "child_index") (lit "7"); SetSource SEllipticCurve; AddContext (lit "hardened") (lit "true")]
    (Some (err_new InvalidDerivation (lit "invalid child private key")))) =
  Some (lit "InvalidDerivation: invalid child private key { child_index=7, hardened=true }").
Proof. reflexivity. Qed.

(** ** C53 *)
(** An upper-case hexadecimal digit and the number a digit string denotes. *)
Definition hex_digit (c : N) : Prop := 48 <= c <= 57 \/ 65 <= c <= 70.
Definition hex_value (s : str) : N :=
  fold_left (fun a c => 16 * a + (if c <=? 57 then c - 48 else c - 55)) s 0.

Theorem C53_version_bytes :
  (forall b, length b = 4%nat ->
     version_to_bytes (from_public_bytes b) = b /\ version_to_bytes (from_private_bytes b) = b /\
     is_public (from_public_bytes b) = true /\ is_private (from_private_bytes b) = true) /\
  (forall v, as_u32 v < 2 ^ 32 ->
     length (version_to_bytes v) = 4%nat /\ is_public v = negb (is_private v) /\
     (is_public v = true -> from_public_bytes (version_to_bytes v) = v) /\
     (is_private v = true -> from_private_bytes (version_to_bytes v) = v) /\
     version_to_bytes v = [n2b (as_u32 v / 2 ^ 24); n2b (as_u32 v / 2 ^ 16); n2b (as_u32 v / 2 ^ 8); n2b (as_u32 v)]) /\
  (forall v, as_u32 v < 2 ^ 32 -> exists ds, version_show v = lit "0x" ++ ds /\ length ds = 8%nat /\
     Forall hex_digit ds /\ hex_value ds = as_u32 v).
Proof.
  assert (R : forall b, length b = 4%nat -> u32_to_be (u32_from_be b) = b).
  { intros b L. unfold u32_to_be, u32_from_be. rewrite <- L. apply be_bytes_be_val. }
  assert (R' : forall n, n < 2 ^ 32 -> u32_from_be (u32_to_be n) = n).
  { intros n H. unfold u32_to_be, u32_from_be. rewrite be_val_be_bytes. apply N.mod_small. exact H. }
  split; [|split].
  - intros b L. unfold version_to_bytes. cbn [from_public_bytes from_private_bytes as_u32 is_public is_private].
    rewrite R by exact L. auto.
  - intros v H. split; [apply be_bytes_length|].
    unfold version_to_bytes, from_public_bytes, from_private_bytes. rewrite R' by exact H.
    split; [destruct v; reflexivity|].
    split; [destruct v; [reflexivity|discriminate]|]. split; [destruct v; [discriminate|reflexivity]|].
    unfold u32_to_be. cbn [be_bytes app]. rewrite !N.div_div by lia. reflexivity.
  - intros v H. exists (hexw 8 (as_u32 v)). split; [reflexivity|]. revert H. generalize (as_u32 v). clear.
    assert (G : forall w n, n < 16 ^ N.of_nat w -> length (hexw w n) = w /\ Forall hex_digit (hexw w n) /\
              hex_value (hexw w n) = n).
    { induction w as [|w IH]; intros n H.
      - cbn in H. assert (n = 0) by lia. subst. cbn. auto.
      - cbn [hexw]. replace (N.of_nat (S w)) with (N.succ (N.of_nat w)) in H by lia.
        rewrite N.pow_succ_r' in H.
        destruct (IH (n / 16)) as (L & F & V); [apply N.div_lt_upper_bound; lia|].
        pose proof (N.mod_lt n 16 ltac:(lia)) as M. pose proof (N.div_mod n 16 ltac:(lia)) as D.
        split; [rewrite app_length, L; cbn; lia|]. split.
        + apply Forall_app. split; [exact F|]. constructor; [|constructor]. unfold hex_digit, hexdig.
          destruct (n mod 16 <? 10) eqn:E; lia.
        + unfold hex_value in *. rewrite fold_left_app, V. cbn [fold_left]. unfold hexdig.
          destruct (n mod 16 <? 10) eqn:E.
          * replace (48 + n mod 16 <=? 57) with true by lia. lia.
          * replace (55 + n mod 16 <=? 57) with false by lia. lia. }
    intros n H. exact (G 8%nat n H).
Qed.
Print Assumptions C53_version_bytes.

Example C53_case : from_private_bytes [x04; x88; xad; xe4] = Private 0x0488ADE4 /\
  version_show (Private 0x0488ADE4) = lit "0x0488ADE4" /\ version_show (Public 10) = lit "0x0000000A".
Proof. repeat split. Qed.
