(** C92: the text of a key with a registered version starts with the registered four characters. *)
From Verif Require Import Base Str Sha2 Error32 Version32 Meta32 Payload32 PayloadSpec32 PayloadProofs32 Base58
  Base58Spec Base58Proofs Curve32 CurveSpec XKey32 XKeySpec32 XKeyProofs32 Cyclic32 Props32 Props32k
  FmtDebug FmtProofs Mnemonic39 DebugImpls Props32b.

(** SLIP-0132 *)
Definition registered_prefix (k : KnownVersion) : str :=
  match k with
  | Xpub => lit "xpub" | Xprv => lit "xprv" | Tpub => lit "tpub" | Tprv => lit "tprv"
  | Ypub => lit "ypub" | Yprv => lit "yprv" | YpubShWsh => lit "Ypub" | YprvShWsh => lit "Yprv"
  | Upub => lit "upub" | Uprv => lit "uprv" | UpubShWsh => lit "Upub" | UprvShWsh => lit "Uprv"
  | Zpub => lit "zpub" | Zprv => lit "zprv" | ZpubWsh => lit "Zpub" | ZprvWsh => lit "Zprv"
  | Vpub => lit "vpub" | Vprv => lit "vprv" | VpubWsh => lit "Vpub" | VprvWsh => lit "Vprv"
  end.

Lemma digits_val_app B a b : digits_val B (a ++ b) = B ^ N.of_nat (length b) * digits_val B a + digits_val B b.
Proof. unfold digits_val at 1. rewrite fold_left_app, digits_val_from. reflexivity. Qed.
Lemma digits_val_bound B ds : 0 < B -> Forall (fun d => d < B) ds -> digits_val B ds < B ^ N.of_nat (length ds).
Proof.
  intros HB F. induction F as [|d ds Hd F IH]; [cbn; lia|]. rewrite digits_val_cons. cbn [length].
  rewrite Nat2N.inj_succ, N.pow_succ_r'. nia.
Qed.
Lemma be_val_digits b : digits_val 256 (map b2n b) = be_val b.
Proof.
  induction b as [|x b IH] using rev_ind; [reflexivity|].
  rewrite map_app, digits_val_app, be_val_snoc, IH. cbn [map length digits_val fold_left].
  change (N.of_nat 1) with 1. rewrite N.pow_1_r. lia.
Qed.

(** A number in an interval on which the top digits agree *)
Lemma top_digits B ds m j K : 0 < B -> Forall (fun d => d < B) ds -> length ds = (m + j)%nat ->
  K * B ^ N.of_nat j <= digits_val B ds -> digits_val B ds < (K + 1) * B ^ N.of_nat j ->
  digits_val B (firstn m ds) = K.
Proof.
  intros HB F L. rewrite <- (firstn_skipn m ds) in F at 1. rewrite <- (firstn_skipn m ds) at 1 2.
  apply Forall_app in F as [F1 F2]. rewrite digits_val_app.
  assert (Lj : length (skipn m ds) = j) by (rewrite skipn_length; lia).
  pose proof (digits_val_bound B _ HB F2) as V. rewrite Lj in *. intros H1 H2.
  set (P := B ^ N.of_nat j) in *. set (h := digits_val B (firstn m ds)) in *. set (l := digits_val B (skipn m ds)) in *.
  clearbody P h l. nia.
Qed.
Lemma length_by_value B ds n : 1 < B -> Forall (fun d => d < B) ds -> hd 0 ds <> 0 ->
  B ^ N.of_nat n <= digits_val B ds -> digits_val B ds < B ^ N.of_nat (S n) -> length ds = S n.
Proof.
  intros HB F H V1 V2. pose proof (digits_val_bound B ds ltac:(lia) F) as U.
  destruct ds as [|d ds]; [elim H; reflexivity|]. cbn [hd] in H.
  assert (V3 : B ^ N.of_nat (length ds) <= digits_val B (d :: ds)).
  { rewrite digits_val_cons. nia. }
  assert (N.of_nat n < N.of_nat (length (d :: ds))).
  { apply (N.pow_lt_mono_r_iff B); [exact HB|]. eapply N.le_lt_trans; eassumption. }
  assert (N.of_nat (length ds) < N.of_nat (S n)).
  { apply (N.pow_lt_mono_r_iff B); [exact HB|]. eapply N.le_lt_trans; eassumption. }
  cbn [length] in *. lia.
Qed.

(** The check of one version number against one prefix: all 82-byte strings with these first four
    bytes are numbers of 111 digits in base 58 with the same first four digits. *)
Definition char_digit (c : N) : N := match find_index c alphabet58 0 with Some i => i | None => 0 end.
Definition prefix_check (v : N) (pre : str) : bool :=
  let K := digits_val 58 (map char_digit pre) in
  (0x01000000 <=? v) && (v <? 0x100000000) &&
  (58 ^ 110 <=? v * 256 ^ 78) && ((v + 1) * 256 ^ 78 <=? 58 ^ 111) &&
  (K * 58 ^ 107 <=? v * 256 ^ 78) && ((v + 1) * 256 ^ 78 <=? (K + 1) * 58 ^ 107) &&
  (length pre =? 4)%nat && forallb (fun c => existsb (N.eqb c) alphabet58) pre.
Lemma prefix_checked k : prefix_check (as_u32 (into_version k)) (registered_prefix k) = true.
Proof. destruct k; vm_compute; reflexivity. Qed.

Lemma four_digits a b : Forall (fun d => d < 58) a -> Forall (fun d => d < 58) b -> length a = length b ->
  digits_val 58 a = digits_val 58 b -> a = b.
Proof.
  revert b. induction a as [|x a IH]; intros [|y b] A B L E; try discriminate L; [reflexivity|].
  inversion A as [|? ? Hx A']; subst. inversion B as [|? ? Hy B']; subst. cbn in L. injection L as L.
  rewrite !digits_val_cons, L in E.
  pose proof (digits_val_bound 58 a ltac:(lia) A') as Ua. pose proof (digits_val_bound 58 b ltac:(lia) B') as Ub.
  rewrite L in Ua. set (P := 58 ^ N.of_nat (length b)) in *. clearbody P.
  assert (x = y) by nia. subst y. f_equal. apply IH; [assumption..|lia].
Qed.

Definition alphabet_check : bool :=
  forallb (fun i => match nth_error alphabet58 i with Some c => char_digit c =? N.of_nat i | None => false end) (seq 0 58)
  && (length alphabet58 =? 58)%nat.
Lemma digit_char_iff d c : digit_char d c -> d < 58 /\ char_digit c = d.
Proof.
  intros H. assert (A : alphabet_check = true) by (vm_compute; reflexivity).
  apply andb_prop in A as [A L]. apply Nat.eqb_eq in L. unfold digit_char in H.
  assert (D : (N.to_nat d < 58)%nat) by (rewrite <- L; apply nth_error_Some; congruence).
  rewrite forallb_forall in A. specialize (A (N.to_nat d) ltac:(apply in_seq; lia)). rewrite H in A.
  apply N.eqb_eq in A. split; lia.
Qed.
Lemma char_digit_iff c : existsb (N.eqb c) alphabet58 = true -> digit_char (char_digit c) c.
Proof.
  intros H. apply existsb_exists in H as (c' & I & E). apply N.eqb_eq in E. subst c'.
  apply In_nth_error in I as (i & I).
  assert (G : digit_char (N.of_nat i) c) by (unfold digit_char; rewrite Nat2N.id; exact I).
  destruct (digit_char_iff _ _ G) as [_ ->]. exact G.
Qed.
Lemma digit_chars ds s : Forall2 digit_char ds s -> Forall (fun d => d < 58) ds /\ map char_digit s = ds.
Proof.
  induction 1 as [|d c ds s H F [I1 I2]]; [split; [constructor|reflexivity]|].
  destruct (digit_char_iff _ _ H) as [H1 H2]. split; [constructor; assumption|]. cbn [map]. congruence.
Qed.
Lemma char_digit_inj c d : existsb (N.eqb c) alphabet58 = true -> existsb (N.eqb d) alphabet58 = true ->
  char_digit c = char_digit d -> c = d.
Proof.
  intros C D E. apply char_digit_iff in C, D. rewrite E in C. unfold digit_char in *. congruence.
Qed.

Lemma Forall2_same_length {A B} (R : A -> B -> Prop) l m : Forall2 R l m -> length l = length m.
Proof. induction 1; cbn [length]; congruence. Qed.
Lemma firstn_In {A} n (l : list A) x : In x (firstn n l) -> In x l.
Proof. intros H. rewrite <- (firstn_skipn n l). apply in_or_app. left. exact H. Qed.
Lemma text_prefix p s v pre : payload_wf p -> is_base58check (payload_bytes p) s ->
  as_u32 (p_version p) = v -> prefix_check v pre = true -> length s = 111%nat /\ firstn 4 s = pre.
Proof.
  intros W (ds & F & V & Z) E C. unfold prefix_check in C.
  repeat (apply andb_prop in C as [C ?]).
  repeat match goal with
  | H : (_ <=? _) = true |- _ => apply N.leb_le in H
  | H : (_ <? _) = true |- _ => apply N.ltb_lt in H
  end.
  rename H into CA, H0 into CL, H1 into C6, H2 into C5, H3 into C4, H4 into C3, H5 into C2. rename C into C1.
  apply Nat.eqb_eq in CL.
  assert (LB : length (payload_bytes p ++ firstn 4 (sha256 (sha256 (payload_bytes p)))) = 82%nat).
  { rewrite app_length, (payload_bytes_length p W), firstn_length, sha256_length. reflexivity. }
  destruct (digit_chars ds s F) as [Fd Md].
  remember (payload_bytes p ++ firstn 4 (sha256 (sha256 (payload_bytes p)))) as bs eqn:Ebs.
  assert (SB : exists r, bs = be_bytes 4 v ++ r /\ length r = 78%nat).
  { unfold payload_bytes in Ebs at 1. rewrite E in Ebs. rewrite <- app_assoc in Ebs.
    eexists. split; [exact Ebs|]. rewrite Ebs in LB. rewrite app_length, be_bytes_length in LB. lia. }
  clear Ebs. destruct SB as (r & -> & Lr).
  assert (Hv : v < 2 ^ 32) by exact C2.
  assert (BV : digits_val 256 (map b2n (be_bytes 4 v ++ r)) = v * 256 ^ 78 + be_val r).
  { rewrite map_app, digits_val_app, map_length, Lr, !be_val_digits, be_val_be_bytes, N.mod_small by exact Hv.
    change (N.of_nat 78) with 78. lia. }
  assert (BR : be_val r < 256 ^ 78).
  { pose proof (be_val_bound r) as X. rewrite Lr in X. exact X. }
  assert (Z0 : lead_zeros ds = 0%nat).
  { rewrite Z. pose proof (be_val_be_bytes 4 v) as X. rewrite N.mod_small in X by exact Hv.
    pose proof (be_bytes_length 4 v) as Lv. destruct (be_bytes 4 v) as [|c t]; [discriminate Lv|].
    cbn [app map lead_zeros]. destruct (N.eqb_spec (b2n c) 0) as [X0|X0]; [exfalso|reflexivity].
    change (c :: t) with ([c] ++ t) in X. rewrite <- be_val_digits, map_app, digits_val_app in X.
    cbn [map] in X. rewrite X0 in X. rewrite be_val_digits in X. change (digits_val 256 [0]) with 0 in X.
    pose proof (be_val_bound t) as Y. injection Lv as Lv. rewrite Lv in Y. change (256 ^ N.of_nat 3) with 0x01000000 in Y.
    rewrite N.mul_0_r, N.add_0_l in X. rewrite X in Y. apply N.lt_nge in Y. exact (Y C1). }
  rewrite BV in V.
  set (M := 256 ^ 78) in *. set (K := digits_val 58 (map char_digit pre)) in *.
  assert (L : length ds = 111%nat).
  { apply (length_by_value 58 ds 110); [lia|exact Fd| | |].
    - destruct ds as [|d ds]; cbn [hd].
      + exfalso. cbn in V. clear - V C1 BR. clearbody M. nia.
      + cbn [lead_zeros] in Z0. destruct (N.eqb_spec d 0); [discriminate Z0|assumption].
    - rewrite V. change (N.of_nat 110) with 110. eapply N.le_trans; [exact C3|apply N.le_add_r].
    - rewrite V. change (N.of_nat 111) with 111. eapply N.lt_le_trans; [|exact C4].
      rewrite N.mul_add_distr_r, N.mul_1_l. apply N.add_lt_mono_l. exact BR. }
  assert (T : digits_val 58 (firstn 4 ds) = K).
  { apply (top_digits 58 ds 4 107 K); [lia|exact Fd|exact L| |].
    - rewrite V. change (N.of_nat 107) with 107. eapply N.le_trans; [exact C5|apply N.le_add_r].
    - rewrite V. change (N.of_nat 107) with 107. eapply N.lt_le_trans; [|exact C6].
      rewrite N.mul_add_distr_r, N.mul_1_l. apply N.add_lt_mono_l. exact BR. }
  assert (Ls : length s = 111%nat) by (rewrite <- L; symmetry; apply (Forall2_same_length _ _ _ F)).
  split; [exact Ls|].
  assert (D : firstn 4 ds = map char_digit pre).
  { apply four_digits.
    - apply Forall_forall. intros x Hx. rewrite Forall_forall in Fd. apply Fd. eapply firstn_In; exact Hx.
    - apply Forall_forall. intros x Hx. apply in_map_iff in Hx as (c & <- & Hc).
      rewrite forallb_forall in CA. apply (digit_char_iff _ _ (char_digit_iff c (CA c Hc))).
    - rewrite firstn_length, map_length, L, CL. reflexivity.
    - exact T. }
  rewrite <- Md, firstn_map in D.
  assert (CS : forall c, In c (firstn 4 s) -> existsb (N.eqb c) alphabet58 = true).
  { intros c Hc. assert (I : In c s) by (eapply firstn_In; exact Hc). clear - F I.
    induction F as [|d x ds s H F IH]; [destruct I|]. destruct I as [<-|I]; [|auto].
    apply existsb_exists. exists x. split; [|apply N.eqb_refl]. eapply nth_error_In; exact H. }
  rewrite forallb_forall in CA. revert D CS CA. clear. generalize (firstn 4 s) as a. revert pre.
  intros b a. revert b. induction a as [|x a IH]; intros [|y b] D CS CA; try discriminate D; [reflexivity|].
  cbn [map] in D. assert (D1 : char_digit x = char_digit y) by congruence.
  assert (D2 : map char_digit a = map char_digit b) by congruence.
  f_equal; [apply char_digit_inj; [apply CS; left; reflexivity|apply CA; left; reflexivity|exact D1]|].
  apply IH; [exact D2|intros; apply CS; right; assumption|intros; apply CA; right; assumption].
Qed.

(** [KeyPayload] *)
Theorem C92_text p k s : payload_wf p -> as_u32 (p_version p) = as_u32 (into_version k) -> payload_show p = Ok s ->
  length s = 111%nat /\ firstn 4 s = registered_prefix k.
Proof.
  intros W E H. destruct (payload_show_ok p W) as (t & S' & B). assert (t = s) by congruence. subst t.
  exact (text_prefix p s _ _ W B E (prefix_checked k)).
Qed.

(** Extended keys of every backend: [encode_with] a registered version and print *)
Theorem C92_keys (L : ECLib) (HL : ec_laws L) (b : Library) (k : KnownVersion) :
  (forall x : XPrv (backend b L), xprv_wf x -> is_private (into_version k) = true ->
     exists p s, xprv_encode_with x (into_version k) = Ok p /\ payload_show p = Ok s /\
       length s = 111%nat /\ firstn 4 s = registered_prefix k /\ skipn 1 (firstn 4 s) = lit "prv") /\
  (forall x : XPub (backend b L), xpub_wf x -> is_public (into_version k) = true ->
     exists p s, xpub_encode_with x (into_version k) = Ok p /\ payload_show p = Ok s /\
       length s = 111%nat /\ firstn 4 s = registered_prefix k /\ skipn 1 (firstn 4 s) = lit "pub").
Proof.
  assert (V : as_u32 (into_version k) < 2 ^ 32) by (destruct k; reflexivity).
  split; intros x W P.
  - rewrite (prv_encode_eq L b x _ P). pose proof (prv_payload_wf L b x (into_version k) W V) as WP.
    destruct (payload_show_ok _ WP) as (s & S' & B). exists (prv_payload L x (into_version k)), s.
    destruct (C92_text _ k s WP eq_refl S') as [L1 L2].
    split; [reflexivity|]. split; [exact S'|]. split; [exact L1|]. split; [exact L2|]. rewrite L2.
    clear - P. destruct k; try discriminate P; reflexivity.
  - rewrite (pub_encode_eq L b x _ P). pose proof (pub_payload_wf L HL b x (into_version k) W V) as WP.
    destruct (payload_show_ok _ WP) as (s & S' & B). exists (pub_payload L x (into_version k)), s.
    destruct (C92_text _ k s WP eq_refl S') as [L1 L2].
    split; [reflexivity|]. split; [exact S'|]. split; [exact L1|]. split; [exact L2|]. rewrite L2.
    clear - P. destruct k; try discriminate P; reflexivity.
Qed.

(** Reading: among the registered versions the four characters and the version determine each other. *)
Theorem C92_read dbg s p l : payload_parse dbg s = Ok p -> into_known_version (p_version p) = Some l ->
  length s = 111%nat /\ (forall k, firstn 4 s = registered_prefix k <-> k = l).
Proof.
  intros H K. apply payload_parse_iff in H as (W & B & _ & _).
  assert (E : into_version l = p_version p) by (apply C27_known_versions; exact K).
  destruct (text_prefix p s _ _ W B (f_equal as_u32 (eq_sym E)) (prefix_checked l)) as [L1 L2].
  split; [exact L1|]. intros k. rewrite L2. split; [|congruence].
  clear. destruct k, l; vm_compute; intros X; first [reflexivity | discriminate X].
Qed.

(** The four characters alone do not make the version known: the five numbers after 0x0488B21E also
    print as "xpub". *)
Definition odd_payload : Payload :=
  {| p_version := Public 0x0488B21F;
     p_meta := {| m_depth := x01; m_fingerprint := zeros 4; m_child := 0; m_chain := zeros 32 |};
     p_key := x02 :: zeros 32 |}.
Theorem C92_prefix_decides_refuted :
  ~ (forall dbg s p k, payload_parse dbg s = Ok p -> firstn 4 s = registered_prefix k ->
       into_known_version (p_version p) = Some k).
Proof.
  intros H. assert (W : payload_wf odd_payload) by (repeat split; vm_compute; reflexivity).
  destruct (payload_show_ok _ W) as (s & S' & B).
  assert (P : payload_parse true s = Ok odd_payload).
  { apply payload_parse_iff. split; [exact W|]. split; [exact B|]. split.
    - intros X. discriminate X.
    - split; [left; reflexivity|]. intros X. cbn in X. repeat destruct X as [X|X]; try discriminate X. exact X. }
  assert (C : prefix_check 0x0488B21F (lit "xpub") = true) by (vm_compute; reflexivity).
  destruct (text_prefix odd_payload s _ _ W B eq_refl C) as [_ F].
  specialize (H true s odd_payload Xpub P F). discriminate H.
Qed.

Definition case_payload : Payload :=
  {| p_version := into_version VpubWsh;
     p_meta := {| m_depth := x03; m_fingerprint := be_bytes 4 0xDEADBEEF; m_child := 2 ^ 31; m_chain := be_bytes 32 7 |};
     p_key := x03 :: be_bytes 32 99 |}.
Example C92_case : ec_laws Cyclic /\ xprv_wf (ex_prv K256) /\ is_private (into_version UprvShWsh) = true /\
  xpub_wf (xprv_public (ex_prv Secp256k1Ffi)) /\ is_public (into_version Upub) = true /\
  payload_wf case_payload /\
  exists s, payload_show case_payload = Ok s /\ payload_parse false s = Ok case_payload /\
    into_known_version (p_version case_payload) = Some VpubWsh /\ firstn 4 s = lit "Vpub".
Proof.
  split; [apply cyclic_laws|]. split; [apply C33_case|]. split; [reflexivity|]. split; [apply C34_case|].
  split; [reflexivity|].
  assert (W : payload_wf case_payload) by (repeat split; vm_compute; reflexivity). split; [exact W|].
  destruct (payload_show_ok _ W) as (s & S' & B). exists s. split; [exact S'|]. split; [|split; [reflexivity|]].
  - apply payload_parse_iff. split; [exact W|]. split; [exact B|]. split.
    + intros X. discriminate X.
    + split; [right; reflexivity|]. intros X. cbn in X. repeat destruct X as [X|X]; try discriminate X. exact X.
  - apply (C92_text _ VpubWsh s W eq_refl S').
Qed.
Print Assumptions C92_text.
Print Assumptions C92_keys.
Print Assumptions C92_read.
Print Assumptions C92_prefix_decides_refuted.

(** ** C91: the [Debug] texts left open by [C91_text] *)
Definition lower (c : N) : N := if (65 <=? c) && (c <=? 90) then c + 32 else c.
(** A registered version prints as the four characters of its texts with a capital first letter; where SLIP-0132
    has a capital letter itself, the script type follows: nested (Y, U) or native (Z, V) P2WSH *)
Theorem C91_names :
  (forall alt k, exists script,
     debug alt (known_dbg k) = firstn 4 (debug alt (known_dbg k)) ++ script /\
     map lower (firstn 4 (debug alt (known_dbg k))) = map lower (registered_prefix k) /\
     (forall c, hd_error (debug alt (known_dbg k)) = Some c -> c <> lower c) /\
     skipn 1 (firstn 4 (debug alt (known_dbg k))) = skipn 1 (registered_prefix k) /\
     script = match hd 0 (registered_prefix k) with
              | 89 | 85 => lit "ShWsh" | 90 | 86 => lit "Wsh" | _ => [] end) /\
  (forall alt special, debug alt (error_dbg special InvalidChecksum) = lit "InvalidChecksum") /\
  (forall alt m, debug alt (mode_dbg m) = match m with ValidateOnly => lit "ValidateOnly"
                                          | BuildNormalizedPhrase => lit "BuildNormalizedPhrase" end) /\
  (forall m, debug false (meta_dbg m) =
     lit "ExtendedKeyMetadata { depth: " ++ dec (b2n (m_depth m)) ++
     lit ", parent_fingerprint: [" ++ join (lit ", ") (map (fun x => dec (b2n x)) (m_fingerprint m)) ++
     lit "], child_number: " ++ dec (m_child m) ++
     lit ", chain_code: [" ++ join (lit ", ") (map (fun x => dec (b2n x)) (m_chain m)) ++ lit "] }").
Proof.
  repeat apply conj.
  - intros [] k; exists (skipn 4 (debug true (known_dbg k))); destruct k;
      (repeat split; try reflexivity; intros c [= <-]; discriminate).
  - intros [] special; reflexivity.
  - intros [] []; reflexivity.
  - assert (B : forall l, show flat (bytes_dbg l) = lit "[" ++ join (lit ", ") (map (fun x => dec (b2n x)) l) ++ lit "]").
    { intros l. unfold bytes_dbg. destruct l as [|x l]; [reflexivity|].
      assert (E : forall l', map (show flat) (map (fun y => DRaw (dec (b2n y))) l') = map (fun y => dec (b2n y)) l').
      { intros l'. rewrite map_map. apply map_ext. reflexivity. }
      cbn [map show]. change (map (show _)) with (map (show flat)).
      rewrite (E l). cbn. rewrite <- ?app_assoc. reflexivity. }
    intros m. rewrite debug_plain by apply wf_meta. unfold meta_dbg.
    cbn [show map join fst snd]. change (show _ (bytes_dbg ?l)) with (show flat (bytes_dbg l)). rewrite !B.
    generalize (join (lit ", ") (map (fun x => dec (b2n x)) (m_fingerprint m)))
      (join (lit ", ") (map (fun x => dec (b2n x)) (m_chain m))) (dec (b2n (m_depth m))) (dec (m_child m)).
    intros fp cc d c. cbn. repeat (rewrite <- !app_assoc; cbn [app]). reflexivity.
Qed.
Print Assumptions C91_names.

Example C91_names_case :
  debug false (known_dbg ZpubWsh) = lit "ZpubWsh" /\
  debug false (meta_dbg (mkMeta x03 [x01; xff; x00; x10] 2147483648 [])) =
    lit "ExtendedKeyMetadata { depth: 3, parent_fingerprint: [1, 255, 0, 16], child_number: 2147483648, chain_code: [] }".
Proof. split; vm_compute; reflexivity. Qed.
