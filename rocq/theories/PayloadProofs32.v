From Verif Require Import Base Str Sha2 Error32 Version32 Meta32 Payload32 Base58 Base58Spec
  Base58Proofs PayloadSpec32.

(** ** UTF-8 of ASCII texts *)
Lemma utf8_char_ascii c : c < 128 -> utf8_char c = [n2b c].
Proof. intros H. unfold utf8_char. replace (c <? 0x80) with true by lia. reflexivity. Qed.

Lemma utf8_ascii s : Forall (fun c => c < 128) s -> map b2n (utf8 s) = s.
Proof.
  induction 1 as [|c s H _ IH]; [reflexivity|]. unfold utf8 in *. cbn [flat_map].
  rewrite utf8_char_ascii by exact H. cbn [app map]. rewrite IH, b2n_n2b, N.mod_small by lia.
  reflexivity.
Qed.

Lemma utf8_char_last c : 128 <= c -> exists l x, utf8_char c = l ++ [x] /\ 128 <= b2n x.
Proof.
  intros H. unfold utf8_char. replace (c <? 0x80) with false by lia.
  assert (K : 128 <= b2n (n2b (0x80 + c mod 64))).
  { rewrite b2n_n2b. pose proof (N.mod_lt c 64 ltac:(lia)). rewrite N.mod_small by lia. lia. }
  destruct (c <? 0x800); [|destruct (c <? 0x10000)].
  - eexists [_], _. split; [reflexivity|exact K].
  - eexists [_; _], _. split; [reflexivity|exact K].
  - eexists [_; _; _], _. split; [reflexivity|exact K].
Qed.

Lemma utf8_all_ascii s : Forall (fun n => n < 128) (map b2n (utf8 s)) -> Forall (fun c => c < 128) s.
Proof.
  induction s as [|c s IH]; intros H; [constructor|]. unfold utf8 in *. cbn [flat_map] in H.
  rewrite map_app in H. apply Forall_app in H as [H1 H2]. constructor; [|apply IH; exact H2].
  destruct (N.lt_ge_cases c 128) as [L|L]; [exact L|exfalso].
  destruct (utf8_char_last c L) as (l & x & E & Hx). rewrite E, map_app in H1.
  apply Forall_app in H1 as [_ H1]. inversion H1. lia.
Qed.

Lemma base58_ascii b s : is_base58 b s -> Forall (fun c => c < 128) s.
Proof.
  intros (ds & F & _). induction F as [|d c ds s H F IH]; constructor; [|exact IH].
  apply digit_char_ascii in H. lia.
Qed.

Lemma base58_utf8 b s : is_base58 b (map b2n (utf8 s)) <-> is_base58 b s.
Proof.
  split; intros H.
  - pose proof (base58_ascii _ _ H) as A. apply utf8_all_ascii in A. rewrite utf8_ascii in H; assumption.
  - pose proof (base58_ascii _ _ H) as A. rewrite utf8_ascii; assumption.
Qed.

(** ** Writing into buffers *)
Lemma put_ok {E : Type} a b src out : (a <= b <= length out)%nat -> length src = (b - a)%nat ->
  @put E a b src out = Ok (firstn a out ++ src ++ skipn b out).
Proof.
  intros H L. unfold put. replace (a <=? b)%nat with true by lia.
  replace (b <=? length out)%nat with true by lia. rewrite L, Nat.eqb_refl. reflexivity.
Qed.
Lemma put_whole {E : Type} n src : length src = n -> @put E 0 n src (zeros n) = Ok src.
Proof.
  intros H. unfold zeros. rewrite put_ok.
  - rewrite skipn_all2 by (rewrite repeat_length; lia). cbn [firstn app]. rewrite app_nil_r. reflexivity.
  - rewrite repeat_length. lia.
  - lia.
Qed.

(** Extending an already written prefix. *)
Lemma put_next {E : Type} pre n a b src : length pre = a -> (a <= b <= n)%nat -> length src = (b - a)%nat ->
  @put E a b src (pre ++ zeros (n - a)) = Ok ((pre ++ src) ++ zeros (n - b)).
Proof.
  intros Hp Hab Hs. rewrite put_ok.
  - rewrite firstn_app, Hp, Nat.sub_diag. rewrite <- Hp at 1. rewrite firstn_all. cbn [firstn].
    rewrite app_nil_r, <- app_assoc. do 2 f_equal. f_equal.
    rewrite skipn_app, Hp. rewrite skipn_all2 by lia. cbn [app]. unfold zeros.
    replace (n - a)%nat with ((b - a) + (n - b))%nat by lia. rewrite repeat_app.
    rewrite skipn_app, repeat_length, Nat.sub_diag, skipn_all2 by (rewrite repeat_length; lia).
    reflexivity.
  - rewrite app_length. unfold zeros. rewrite repeat_length. lia.
  - exact Hs.
Qed.

Lemma payload_bytes_length p : payload_wf p -> length (payload_bytes p) = 78%nat.
Proof.
  intros (_ & (F & _ & C) & K). unfold payload_bytes. rewrite !app_length, !be_bytes_length, F, C, K.
  reflexivity.
Qed.

Lemma serialize_ok p : payload_wf p -> serialize p = Ok (payload_bytes p).
Proof.
  intros (V & (F & C & CC) & K). unfold serialize, payload_bytes, version_to_bytes, u32_to_be.
  unfold KEY_PAYLOAD_LENGTH.
  change (zeros 78) with ([] ++ zeros (78 - 0)).
  rewrite put_next; [cbn [bind]|reflexivity|lia|apply be_bytes_length].
  rewrite put_next; [cbn [bind]|rewrite app_length, be_bytes_length; reflexivity|lia|reflexivity].
  rewrite put_next; [cbn [bind]|rewrite !app_length, be_bytes_length; reflexivity|lia|exact F].
  rewrite put_next; [cbn [bind]|rewrite !app_length, be_bytes_length, F; reflexivity|lia|apply be_bytes_length].
  rewrite put_next; [cbn [bind]|rewrite !app_length, !be_bytes_length, F; reflexivity|lia|exact CC].
  rewrite put_next; [|rewrite !app_length, !be_bytes_length, F, CC; reflexivity|lia|exact K].
  f_equal. change (zeros (78 - 78)) with (@nil byte). rewrite app_nil_r. cbn [app].
  rewrite <- !app_assoc. reflexivity.
Qed.

Lemma payload_show_ok p : payload_wf p ->
  exists s, payload_show p = Ok s /\ is_base58check (payload_bytes p) s.
Proof.
  intros W. unfold payload_show. rewrite (serialize_ok p W). cbn [bind].
  destruct (encode_check_spec (payload_bytes p)) as (s & -> & H). exists s. auto.
Qed.

(** ** Splitting 78 bytes *)
Definition split78 (d : list byte) (p : Payload) : Prop :=
  as_u32 (p_version p) = be_val (slice 0 4 d) /\ m_depth (p_meta p) = nth 4 d x00 /\
  m_fingerprint (p_meta p) = slice 5 9 d /\ m_child (p_meta p) = be_val (slice 9 13 d) /\
  m_chain (p_meta p) = slice 13 45 d /\ p_key p = slice 45 78 d.

Lemma slice_len {A : Type} a b (d : list A) : (a <= b <= length d)%nat -> length (slice a b d) = (b - a)%nat.
Proof. intros H. unfold slice. rewrite firstn_length, skipn_length. lia. Qed.

Lemma slice_app_left {A : Type} a b (l r : list A) : (b <= length l)%nat -> slice a b (l ++ r) = slice a b l.
Proof.
  intros H. unfold slice. rewrite skipn_app, firstn_app, skipn_length.
  replace (b - a - (length l - a))%nat with 0%nat by lia. cbn [firstn]. apply app_nil_r.
Qed.
Lemma slice_app_right {A : Type} a b (l r : list A) : (length l <= a)%nat ->
  slice a b (l ++ r) = slice (a - length l) (b - length l) r.
Proof.
  intros H. unfold slice. rewrite skipn_app, (skipn_all2 l) by lia. cbn [app]. f_equal. lia.
Qed.
Lemma slice_all {A : Type} b (l : list A) : length l = b -> slice 0 b l = l.
Proof. intros <-. unfold slice. cbn [skipn]. rewrite Nat.sub_0_r. apply firstn_all. Qed.

Lemma split78_bytes p d : payload_wf p -> payload_bytes p = d -> split78 d p.
Proof.
  intros (V & (F & C & CC) & K) <-. unfold split78, payload_bytes.
  assert (Vv : be_val (be_bytes 4 (as_u32 (p_version p))) = as_u32 (p_version p))
    by (rewrite be_val_be_bytes, N.mod_small; [reflexivity|exact V]).
  assert (Vc : be_val (be_bytes 4 (m_child (p_meta p))) = m_child (p_meta p))
    by (rewrite be_val_be_bytes, N.mod_small; [reflexivity|exact C]).
  set (v4 := be_bytes 4 (as_u32 (p_version p))) in *. set (c4 := be_bytes 4 (m_child (p_meta p))) in *.
  assert (Lv : length v4 = 4%nat) by apply be_bytes_length.
  assert (Lc : length c4 = 4%nat) by apply be_bytes_length.
  clearbody c4. clearbody v4.
  split; [|split; [|split; [|split; [|split]]]].
  - rewrite slice_app_left, slice_all by lia. symmetry. exact Vv.
  - rewrite app_nth2 by lia. rewrite Lv. reflexivity.
  - rewrite slice_app_right by lia. rewrite Lv, slice_app_right by (cbn; lia). cbn [length Nat.sub].
    rewrite slice_app_left, slice_all by lia. reflexivity.
  - rewrite slice_app_right by lia. rewrite Lv, slice_app_right by (cbn; lia). cbn [length Nat.sub].
    rewrite slice_app_right, F by lia. cbn [Nat.sub]. rewrite slice_app_left, slice_all by lia.
    symmetry. exact Vc.
  - rewrite slice_app_right by lia. rewrite Lv, slice_app_right by (cbn; lia). cbn [length Nat.sub].
    rewrite slice_app_right, F by lia. cbn [Nat.sub]. rewrite slice_app_right, Lc by lia. cbn [Nat.sub].
    rewrite slice_app_left, slice_all by lia. reflexivity.
  - rewrite slice_app_right by lia. rewrite Lv, slice_app_right by (cbn; lia). cbn [length Nat.sub].
    rewrite slice_app_right, F by lia. cbn [Nat.sub]. rewrite slice_app_right, Lc by lia. cbn [Nat.sub].
    rewrite slice_app_right, CC by lia. cbn [Nat.sub]. rewrite slice_all by lia. reflexivity.
Qed.

Lemma skipn_skipn' {A : Type} n m (l : list A) : skipn n (skipn m l) = skipn (m + n) l.
Proof.
  revert l. induction m as [|m IH]; intros l; [reflexivity|].
  destruct l as [|x l]; [cbn; apply skipn_nil|]. cbn [skipn Nat.add]. apply IH.
Qed.
Lemma slice_join {A : Type} a b c (d : list A) : (a <= b <= c)%nat ->
  slice a b d ++ slice b c d = slice a c d.
Proof.
  intros H. unfold slice. replace (c - a)%nat with ((b - a) + (c - b))%nat by lia.
  replace (skipn b d) with (skipn (b - a) (skipn a d)) by (rewrite skipn_skipn'; f_equal; lia).
  generalize (skipn a d). clear. intros l. generalize (b - a)%nat as n, (c - b)%nat as m.
  intros n. revert l. induction n as [|n IH]; intros l m; [reflexivity|].
  destruct l as [|x l]; cbn; [destruct m; reflexivity|]. f_equal. apply IH.
Qed.
Lemma slice_one {A : Type} a (d : list A) x : (a < length d)%nat -> slice a (S a) d = [nth a d x].
Proof.
  intros H. unfold slice. replace (S a - a)%nat with 1%nat by lia.
  revert d H. induction a as [|a IH]; intros [|y d] H; cbn [length] in H; try lia; [reflexivity|].
  cbn [skipn nth]. apply IH. lia.
Qed.

Lemma bytes_of_split78 p d : length d = 78%nat -> split78 d p -> payload_wf p /\ payload_bytes p = d.
Proof.
  intros L (V & D & F & C & CC & K).
  assert (L1 : length (slice 0 4 d) = 4%nat) by (rewrite slice_len; lia).
  assert (L2 : length (slice 9 13 d) = 4%nat) by (rewrite slice_len; lia).
  split.
  - split; [|split; [split; [|split]|]].
    + rewrite V. pose proof (be_val_bound (slice 0 4 d)) as B. rewrite L1 in B. exact B.
    + rewrite F, slice_len; lia.
    + rewrite C. pose proof (be_val_bound (slice 9 13 d)) as B. rewrite L2 in B. exact B.
    + rewrite CC, slice_len; lia.
    + rewrite K, slice_len; lia.
  - unfold payload_bytes. rewrite V, D, F, C, CC, K.
    assert (E1 : be_bytes 4 (be_val (slice 0 4 d)) = slice 0 4 d).
    { rewrite <- (be_bytes_be_val (slice 0 4 d)) at 2. rewrite L1. reflexivity. }
    assert (E2 : be_bytes 4 (be_val (slice 9 13 d)) = slice 9 13 d).
    { rewrite <- (be_bytes_be_val (slice 9 13 d)) at 2. rewrite L2. reflexivity. }
    rewrite E1, E2.
    rewrite <- (slice_one 4 d x00) by lia. rewrite !slice_join by lia. apply slice_all. exact L.
Qed.

(** Two payloads with the same bytes differ at most in the version kind. *)
Lemma payload_bytes_inj p q : payload_wf p -> payload_wf q -> payload_bytes p = payload_bytes q ->
  as_u32 (p_version p) = as_u32 (p_version q) /\ p_meta p = p_meta q /\ p_key p = p_key q.
Proof.
  intros Wp Wq E. pose proof (split78_bytes p _ Wp eq_refl) as (A1 & A2 & A3 & A4 & A5 & A6).
  pose proof (split78_bytes q _ Wq (eq_sym E)) as (B1 & B2 & B3 & B4 & B5 & B6).
  split; [congruence|]. split; [|congruence].
  destruct (p_meta p) as [d1 f1 c1 h1], (p_meta q) as [d2 f2 c2 h2]; cbn [m_depth m_fingerprint m_child m_chain] in *. congruence.
Qed.

(** ** Versions *)
Lemma from_raw_public raw k : from_raw raw = Some k ->
  match into_version k with
  | Public v => v = raw /\ In raw known_public /\ ~ In raw known_private
  | Private v => v = raw /\ In raw known_private /\ ~ In raw known_public
  end.
Proof.
  intros H.
  assert (E : as_u32 (into_version k) = raw).
  { revert H. unfold from_raw, into_known_version, known_arms. cbn [first_arm version_eqb].
    unfold version_eqb. cbn.
    repeat match goal with |- context [raw =? ?n] =>
      destruct (N.eqb_spec raw n) as [->|]; [intros [= <-]; reflexivity|] end.
    discriminate. }
  subst raw. clear H. destruct k; cbn; (split; [reflexivity|split; [tauto|]]);
    intros F; repeat destruct F as [F|F]; discriminate || exact F.
Qed.

Lemma from_raw_none raw : from_raw raw = None -> ~ In raw known_public /\ ~ In raw known_private.
Proof.
  intros H. split; intros F; cbn in F;
    repeat destruct F as [<-|F]; try (cbv in H; discriminate); exact F.
Qed.

Lemma byte_zero b : (b2n b =? 0) = true <-> b = x00.
Proof.
  rewrite N.eqb_eq. split; [|intros ->; reflexivity].
  intros H. apply b2n_inj. rewrite H. reflexivity.
Qed.
Lemma byte_23 b : (b2n b =? 2) || (b2n b =? 3) = true <-> b = x02 \/ b = x03.
Proof.
  rewrite orb_true_iff, !N.eqb_eq. split.
  - intros [H|H]; [left|right]; apply b2n_inj; rewrite H; reflexivity.
  - intros [->| ->]; [left|right]; reflexivity.
Qed.

Definition prefix_ok (v : Version) (k0 : byte) : Prop :=
  match v with
  | Private v => k0 = x00 /\ ~ In v known_public
  | Public v => (k0 = x02 \/ k0 = x03) /\ ~ In v known_private
  end.

(** The version decision: which version results, if any. *)
Lemma payload_version_spec raw key : length key = 33%nat ->
  (exists v, payload_version raw key = Ok v /\ as_u32 v = raw /\ prefix_ok v (hd x00 key) /\
     forall v', as_u32 v' = raw -> prefix_ok v' (hd x00 key) -> v' = v) \/
  ((exists e, payload_version raw key = Err e /\ e_kind e = InvalidKeyData) /\
   forall v', as_u32 v' = raw -> ~ prefix_ok v' (hd x00 key)).
Proof.
  intros L. unfold payload_version. replace (nth 0 key x00) with (hd x00 key) by (destruct key; reflexivity).
  set (k0 := hd x00 key).
  destruct (from_raw raw) as [k|] eqn:E.
  - pose proof (from_raw_public raw k E) as S. destruct (into_version k) as [v|v].
    + destruct S as (-> & S1 & S2). destruct ((b2n k0 =? 2) || (b2n k0 =? 3)) eqn:B; cbn [negb].
      * apply byte_23 in B. left. exists (Public raw). repeat split; try assumption.
        intros [v'|v'] <-; [reflexivity|]. intros [_ N]. contradiction.
      * right. split; [eauto|]. intros [v'|v'] <-.
        -- intros [P _]. apply byte_23 in P. congruence.
        -- intros [_ N]. contradiction.
    + destruct S as (-> & S1 & S2). destruct (b2n k0 =? 0) eqn:B; cbn [negb].
      * apply byte_zero in B. left. exists (Private raw). repeat split; try assumption.
        intros [v'|v'] <-; [|reflexivity]. intros [_ N]. contradiction.
      * right. split; [eauto|]. intros [v'|v'] <-.
        -- intros [_ N]. contradiction.
        -- intros [P _]. apply byte_zero in P. congruence.
  - apply from_raw_none in E as [N1 N2].
    destruct (b2n k0 =? 0) eqn:B0.
    { apply byte_zero in B0. left. exists (Private raw). repeat split; try assumption.
      intros [v'|v'] <-; [|reflexivity]. intros [[P|P] _]; rewrite B0 in P; discriminate. }
    destruct ((b2n k0 =? 2) || (b2n k0 =? 3)) eqn:B.
    { apply byte_23 in B. left. exists (Public raw). repeat split; try assumption.
      intros [v'|v'] <-; [reflexivity|]. intros [P _]. destruct B as [B|B]; rewrite B in P; discriminate. }
    right. split; [eauto|]. intros [v'|v'] <-.
    + intros [P _]. apply byte_23 in P. congruence.
    + intros [P _]. apply byte_zero in P. congruence.
Qed.

(** ** Depth zero *)
Definition depth_ok (d : byte) (f : list byte) (c : N) : Prop := d = x00 -> f = zeros 4 /\ c = 0.
Lemma check_depth_spec d f c :
  (depth_ok d f c /\ check_depth_zero d f c = Ok tt) \/
  (~ depth_ok d f c /\ exists e, check_depth_zero d f c = Err e /\ e_kind e = InvalidPayload).
Proof.
  unfold check_depth_zero, depth_ok. destruct (b2n d =? 0) eqn:E.
  - apply byte_zero in E. destruct (bytes_eqb f (zeros 4)) eqn:F; cbn [negb].
    + apply bytes_eqb_eq in F. destruct (c =? 0) eqn:C; cbn [negb].
      * apply N.eqb_eq in C. left. auto.
      * right. split; [|eauto]. intros H. destruct (H E) as [_ H2]. lia.
    + right. split; [|eauto]. intros H. destruct (H E) as [H1 _].
      apply bytes_eqb_eq in H1. congruence.
  - left. split; [|reflexivity]. intros H. apply byte_zero in H. congruence.
Qed.

(** ** Parsing 78 bytes *)
Lemma parse_payload_long data : length data = 78%nat -> parse_payload data =
  let? _ := check_depth_zero (nth 4 data x00) (slice 5 9 data) (be_val (slice 9 13 data)) in
  let? version := payload_version (be_val (slice 0 4 data)) (slice 45 78 data) in
  Ok {| p_version := version;
        p_meta := {| m_depth := nth 4 data x00; m_fingerprint := slice 5 9 data;
                     m_child := be_val (slice 9 13 data); m_chain := slice 13 45 data |};
        p_key := slice 45 78 data |}.
Proof.
  intros L. unfold parse_payload, KEY_PAYLOAD_LENGTH. rewrite L, Nat.eqb_refl. cbn [negb].
  rewrite !put_whole by (rewrite slice_len; lia). reflexivity.
Qed.

Lemma depth_ok_rule m : depth_ok (m_depth m) (m_fingerprint m) (m_child m) <-> depth_rule m.
Proof. reflexivity. Qed.
Lemma prefix_ok_rule p : prefix_ok (p_version p) (hd x00 (p_key p)) <-> prefix_rule p.
Proof. reflexivity. Qed.

Lemma parse_payload_iff data p :
  parse_payload data = Ok p <->
  payload_wf p /\ payload_bytes p = data /\ depth_rule (p_meta p) /\ prefix_rule p.
Proof.
  destruct (Nat.eq_dec (length data) 78) as [L|L].
  - rewrite parse_payload_long by exact L.
    destruct (check_depth_spec (nth 4 data x00) (slice 5 9 data) (be_val (slice 9 13 data)))
      as [[D ->]|[D (e & -> & _)]]; cbn [bind].
    + destruct (payload_version_spec (be_val (slice 0 4 data)) (slice 45 78 data) ltac:(rewrite slice_len; lia))
        as [(v & -> & V1 & V2 & V3)|[(e & -> & _) V3]]; cbn [bind].
      * split.
        -- intros [= <-]. cbn [p_meta p_version p_key].
           rewrite <- depth_ok_rule, <- prefix_ok_rule. cbn [m_depth m_fingerprint m_child p_version p_key].
           rewrite <- and_assoc. split; [|split; assumption].
           apply bytes_of_split78; [exact L|]. repeat split. exact V1.
        -- intros (W & E & Dr & Pr). pose proof (split78_bytes p data W E) as (A1 & A2 & A3 & A4 & A5 & A6).
           rewrite <- prefix_ok_rule, A6 in Pr. specialize (V3 _ A1 Pr).
           destruct p as [pv [md mf mc mch] pk]. cbn [p_version p_meta p_key m_depth m_fingerprint m_child m_chain] in *.
           congruence.
      * split; [discriminate|]. intros (W & E & Dr & Pr). exfalso.
        pose proof (split78_bytes p data W E) as (A1 & A2 & A3 & A4 & A5 & A6).
        rewrite <- prefix_ok_rule, A6 in Pr. exact (V3 _ A1 Pr).
    + split; [discriminate|]. intros (W & E & Dr & Pr). exfalso. apply D.
      pose proof (split78_bytes p data W E) as (A1 & A2 & A3 & A4 & A5 & A6).
      rewrite <- depth_ok_rule, A2, A3, A4 in Dr. exact Dr.
  - split.
    + unfold parse_payload, KEY_PAYLOAD_LENGTH. destruct (length data =? 78)%nat eqn:E; [lia|].
      cbn [negb]. discriminate.
    + intros (W & E & _). exfalso. apply L. rewrite <- E. apply payload_bytes_length. exact W.
Qed.

(** Errors of parsing 78 bytes. *)
Lemma parse_payload_err data : length data = 78%nat -> forall r, parse_payload data = r ->
  match r with
  | Ok _ => True
  | Err e =>
      (e_kind e = InvalidPayload /\ ~ depth_ok (nth 4 data x00) (slice 5 9 data) (be_val (slice 9 13 data))) \/
      (e_kind e = InvalidKeyData /\ depth_ok (nth 4 data x00) (slice 5 9 data) (be_val (slice 9 13 data)) /\
       forall v, as_u32 v = be_val (slice 0 4 data) -> ~ prefix_ok v (nth 45 data x00))
  | Panic => False
  end.
Proof.
  intros L r <-. rewrite parse_payload_long by exact L.
  destruct (check_depth_spec (nth 4 data x00) (slice 5 9 data) (be_val (slice 9 13 data)))
      as [[D ->]|[D (e & -> & K)]]; cbn [bind].
  - destruct (payload_version_spec (be_val (slice 0 4 data)) (slice 45 78 data) ltac:(rewrite slice_len; lia))
        as [(v & -> & _)|[(e & -> & K) V3]]; cbn [bind]; [exact I|].
    right. split; [exact K|]. split; [exact D|].
    assert (E : hd x00 (slice 45 78 data) = nth 45 data x00).
    { rewrite <- (slice_join 45 46 78) by lia. rewrite (slice_one 45 data x00) by lia. reflexivity. }
    rewrite E in V3. exact V3.
  - left. auto.
Qed.

(** ** Strings *)
Lemma base58check_78_short b s : length b = 78%nat -> is_base58check b s -> (length s <= 112)%nat.
Proof.
  intros L (ds & F & V & Z). pose proof (Forall2_len _ _ _ F) as LF. rewrite <- LF.
  set (c := b ++ firstn 4 (sha256 (sha256 b))) in *.
  assert (Lc : length c = 82%nat).
  { unfold c. rewrite app_length, firstn_length, sha256_length, L. reflexivity. }
  destruct (lead_zeros_split ds) as (t & Et & Ht).
  destruct (lead_zeros_split (map b2n c)) as (u & Eu & Hu). rewrite Z in Et.
  set (z := lead_zeros (map b2n c)) in *.
  assert (Lt : length ds = (z + length t)%nat).
  { rewrite Et, app_length, repeat_length. reflexivity. }
  assert (Lu : length c = (z + length u)%nat).
  { rewrite <- (map_length b2n c), Eu, app_length, repeat_length. reflexivity. }
  rewrite Et, Eu, !digits_val_zeros in V.
  assert (Ft : Forall (fun d => d < 58) t).
  { apply Forall2_digit_lt in F. rewrite Et in F. apply Forall_app in F. apply F. }
  assert (Fu : Forall (fun d => d < 256) u).
  { pose proof (bytes_lt c) as G. rewrite Eu in G. apply Forall_app in G. apply G. }
  pose proof (canon_rev 58 t Ft Ht) as Ct. pose proof (canon_rev 256 u Fu Hu) as Cu.
  destruct t as [|t0 t]; [cbn [length] in *; lia|].
  assert (NE : rev (t0 :: t) <> []).
  { intros E. apply (f_equal (@length N)) in E. rewrite rev_length in E. discriminate. }
  pose proof (canon_lower 58 (rev (t0 :: t)) ltac:(lia) Ct NE) as Lo.
  pose proof (le_val_bound 256 (rev u) ltac:(lia) (proj1 Cu)) as Up.
  rewrite <- !digits_val_rev, !rev_involutive, !rev_length in *.
  rewrite V in Lo. rewrite Lt. clear - Lo Up Lu Lc.
  set (m := length (t0 :: t)) in *. set (k := length u) in *.
  destruct (Nat.le_gt_cases (z + m) 112) as [C|C]; [exact C|exfalso].
  (* m - 1 >= 112 - z and k = 82 - z: 58^(112-z) >= 256^(82-z) *)
  assert (Lo2 : 58 ^ (112 - N.of_nat z) <= 58 ^ N.of_nat (m - 1)) by (apply N.pow_le_mono_r; lia).
  assert (Ek : N.of_nat k = 82 - N.of_nat z) by lia. rewrite Ek in Up.
  assert (Hz : (z <= 82)%nat) by lia.
  assert (K : 256 ^ (82 - N.of_nat z) <= 58 ^ (112 - N.of_nat z)).
  { assert (T : forallb (fun z => 256 ^ (82 - N.of_nat z) <=? 58 ^ (112 - N.of_nat z)) (seq 0 83) = true)
      by (vm_compute; reflexivity).
    rewrite forallb_forall in T. specialize (T z). rewrite in_seq in T.
    apply N.leb_le, T. lia. }
  lia.
Qed.

Lemma decode_check_string s b :
  decode_check (utf8 s) KEY_PAYLOAD_WITH_CHECKSUM_LENGTH = inr b <->
  is_base58check b s /\ (length b <= 78)%nat.
Proof.
  rewrite decode_check_iff. unfold is_base58check. rewrite base58_utf8.
  unfold KEY_PAYLOAD_WITH_CHECKSUM_LENGTH, KEY_PAYLOAD_LENGTH. split; intros [A B]; split; try assumption; lia.
Qed.

Lemma utf8_len_ascii s : Forall (fun c => c < 128) s -> length (utf8 s) = length s.
Proof. intros H. rewrite <- (map_length b2n (utf8 s)), utf8_ascii by exact H. reflexivity. Qed.

Lemma base58check_78_decode s b : length b = 78%nat -> is_base58check b s ->
  (MAX_KEY_PAYLOAD_STRING_LENGTH <? length (utf8 s))%nat = false /\
  decode_check (utf8 s) KEY_PAYLOAD_WITH_CHECKSUM_LENGTH = inr b.
Proof.
  intros L H. split.
  - apply Nat.ltb_ge. rewrite utf8_len_ascii by (eapply base58_ascii; exact H).
    pose proof (base58check_78_short b s L H). change MAX_KEY_PAYLOAD_STRING_LENGTH with 123%nat. lia.
  - apply decode_check_string. split; [exact H|lia].
Qed.

Lemma payload_parse_bytes dbg s b : length b = 78%nat -> is_base58check b s ->
  payload_parse dbg s = parse_payload b.
Proof.
  intros L H. unfold payload_parse. destruct (base58check_78_decode s b L H) as [-> ->].
  unfold KEY_PAYLOAD_LENGTH. rewrite L, Nat.eqb_refl. reflexivity.
Qed.

Lemma payload_parse_not78 dbg s : ~ (exists b, length b = 78%nat /\ is_base58check b s) ->
  exists e, payload_parse dbg s = Err e /\ e_kind e = InvalidPayload.
Proof.
  intros H. unfold payload_parse.
  destruct (MAX_KEY_PAYLOAD_STRING_LENGTH <? length (utf8 s))%nat; [eauto|].
  destruct (decode_check (utf8 s) KEY_PAYLOAD_WITH_CHECKSUM_LENGTH) as [e|d] eqn:E.
  - unfold set_source. cbn [with_context err_new e_source]. rewrite andb_false_r. cbn [raise].
    eexists. split; [reflexivity|]. reflexivity.
  - apply decode_check_string in E as [E _]. unfold KEY_PAYLOAD_LENGTH.
    destruct (length d =? 78)%nat eqn:L; cbn [negb]; [|eauto].
    elim H. exists d. split; [lia|exact E].
Qed.

Lemma base58check_dec78 s : (exists b, length b = 78%nat /\ is_base58check b s) \/
  ~ (exists b, length b = 78%nat /\ is_base58check b s).
Proof.
  destruct (decode_check (utf8 s) KEY_PAYLOAD_WITH_CHECKSUM_LENGTH) as [e|d] eqn:E.
  - right. intros (b & L & H). destruct (base58check_78_decode s b L H) as [_ H2]. congruence.
  - destruct (Nat.eq_dec (length d) 78) as [L|L].
    + left. exists d. split; [exact L|]. apply decode_check_string in E. apply E.
    + right. intros (b & Lb & H). destruct (base58check_78_decode s b Lb H) as [_ H2].
      rewrite E in H2. injection H2 as ->. contradiction.
Qed.

Lemma payload_parse_iff dbg s p :
  payload_parse dbg s = Ok p <->
  payload_wf p /\ is_base58check (payload_bytes p) s /\ depth_rule (p_meta p) /\ prefix_rule p.
Proof.
  split.
  - intros H. destruct (base58check_dec78 s) as [(b & L & B)|N].
    + rewrite (payload_parse_bytes dbg s b L B) in H. apply parse_payload_iff in H as (W & E & R).
      subst b. tauto.
    + destruct (payload_parse_not78 dbg s N) as (e & E & _). congruence.
  - intros (W & B & R). rewrite (payload_parse_bytes dbg s (payload_bytes p)); [|apply payload_bytes_length; exact W|exact B].
    apply parse_payload_iff. tauto.
Qed.
