(** Property theorems about programs that use bip0032 (C110): no sequence of calls panics, and
    which values can be held. *)
From Verif Require Import Base Str Sha2 Error32 Version32 Path32 PathSpec32 PathProofs32 Meta32 Base58Spec
  Payload32 PayloadSpec32 PayloadProofs32 Curve32 XKey32 Slip10 XKeySpec32 XKeyProofs32 SlipProofs32 Cyclic32
  Session32 Props32 Props32k Props32s Props32n Props32y Props32z PropsWallet PropsWallet10.
Local Open Scope N_scope.

Section Sound.
Context (dbg : profile) (E : Library -> ECLib) (D : EdLib).
Context (HE : forall b, ec_laws (E b)) (HD : ed_laws D).

(** The 33 key bytes of a valid key of one of the curves of BIP-0032. *)
Definition key_bytes (l : list byte) : Prop :=
  exists b, b <> P256 /\
    ((exists k, 0 < k < order (E b) /\ l = x00 :: be_bytes 32 k) \/
     (exists K, K <> infinity (E b) /\ l = compress (E b) K)).

(** What every held value satisfies.  A master key has no parent; a key is one of its
    group.  A payload either is what a text can say, or carries a valid key under a version
    of the caller's choice. *)
Definition sound (v : value E D) : Prop :=
  match v with
  | VChild _ _ c => c < 2 ^ 32
  | VHChild _ _ h => 2 ^ 31 <= hc_child h < 2 ^ 32
  | VPath _ _ p => Forall (fun c => c < 2 ^ 32) p
  | VHPath _ _ p => Forall (fun c => 2 ^ 31 <= c < 2 ^ 32) (hp_inner p)
  | VPayload _ _ p => payload_wf p /\ depth_rule (p_meta p) /\ (prefix_rule p \/ key_bytes (p_key p))
  | VPrv _ _ b x => meta_wf (xprv_meta x) /\ depth_rule (xprv_meta x) /\ 0 < xprv_key x < order (E b)
  | VPub _ _ b x => meta_wf (xpub_meta x) /\ depth_rule (xpub_meta x) /\ xpub_key x <> infinity (E b)
  | VEdPrv _ _ x => meta_wf (xprv_meta x) /\ depth_rule (xprv_meta x) /\ length (xprv_key x) = 32%nat
  | VEdPub _ _ x => meta_wf (xpub_meta x) /\ depth_rule (xpub_meta x) /\
      exists s, length s = 32%nat /\ xpub_key x = ed_verifying D s
  | VData _ _ => True
  end.
(** The values made from nothing but strings, bytes and integers: all but the keys of the
    curves of SLIP-0010 alone, which are only found in the trees of the seeds (C46, C49). *)
Definition free (v : value E D) : bool :=
  match v with
  | VPrv _ _ b _ | VPub _ _ b _ => bip32_curve b
  | VEdPrv _ _ _ | VEdPub _ _ _ => false
  | _ => true
  end.

Local Notation Cv b := (backend b (E b)).
Local Notation Ed := (Ed25519DalekBackend D).
Local Notation ses := (session dbg E D).
Local Notation run := (run dbg E D).
Local Notation sprv := (fun (b : Library) (x : XPrv (Cv b)) => sound (VPrv E D b x)).
Local Notation spub := (fun (b : Library) (x : XPub (Cv b)) => sound (VPub E D b x)).

(** ** Soundness *)
Definition good (o : option (res Error (value E D))) : Prop :=
  match o with Some Panic => False | Some (Ok v) => sound v | _ => True end.
Lemma good_now {A : Type} (f : A -> value E D) (r : res Error A) :
  r <> Panic -> (forall a, r = Ok a -> sound (f a)) -> good (now E D f r).
Proof. intros P H. destruct r as [a|e|]; cbn; [apply H; reflexivity|exact I|congruence]. Qed.
Lemma good_omap {A : Type} (f : A -> value E D) (o : option (res Error A)) :
  o <> Some Panic -> (forall a, o = Some (Ok a) -> sound (f a)) -> good (omap f o).
Proof. intros P H. destruct o as [[a|e|]|]; cbn; [apply H; reflexivity|exact I|congruence|exact I]. Qed.

Lemma child_new_bound i h c : i < 2 ^ 32 -> child_new i h = Ok c -> c < 2 ^ 32 /\ (h = true -> 2 ^ 31 <= c).
Proof.
  unfold child_new, HARDENED_OFFSET. intros Hi. destruct (N.leb_spec 0x80000000 i); [discriminate|].
  intros [= <-]. change (2 ^ 32) with 0x100000000. change (2 ^ 31) with 0x80000000.
  destruct h; (split; [lia|]); intros; first [discriminate|lia].
Qed.
Lemma child_new_np i h : child_new i h <> Panic.
Proof. unfold child_new. destruct (_ <=? _); discriminate. Qed.
Lemma component_np s : parse_child_component s <> Panic.
Proof.
  unfold parse_child_component. destruct (match strip_suffix 39 s with Some _ => _ | None => _ end) as [n h].
  destruct (is_empty n); [discriminate|]. destruct (parse_u32 n); [apply child_new_np|discriminate].
Qed.
Lemma hard_bound c : c < 2 ^ 32 -> child_is_hardened c = true -> 2 ^ 31 <= c < 2 ^ 32.
Proof. rewrite hardened_eq. intros A B. apply N.leb_le in B. auto. Qed.
Lemma hpath_bound p q : Forall (fun c => c < 2 ^ 32) p -> hpath_try_from p = Ok q ->
  Forall (fun c => 2 ^ 31 <= c < 2 ^ 32) (hp_inner q).
Proof.
  unfold hpath_try_from. intros F. destruct (find _ p) as [c|] eqn:G; [discriminate|]. intros [= <-].
  cbn [hp_inner]. rewrite Forall_forall in F |- *. intros c Hc. apply hard_bound; [exact (F c Hc)|].
  apply (find_none _ _ G c), negb_false_iff in Hc. exact Hc.
Qed.
Lemma hpath_np p : hpath_try_from p <> Panic.
Proof. unfold hpath_try_from. destruct (find _ p); discriminate. Qed.
Lemma path_bound s p : path_parse s = Ok p -> Forall (fun c => c < 2 ^ 32) p.
Proof. intros H. apply path_parse_iff in H. exact (spells_path_bound _ _ H). Qed.
Lemma hpath_kids p : Forall (fun c => 2 ^ 31 <= c < 2 ^ 32) (hp_inner p) ->
  hpath_children (E := Error) dbg p = Ok (map mkHC (hp_inner p)).
Proof.
  intros F. apply hchildren_ok. eapply Forall_impl; [|exact F]. intros c [H _].
  rewrite hardened_eq. apply N.leb_le. exact H.
Qed.
Lemma nth_sound {A : Type} (f : A -> value E D) l k :
  Forall (fun a => sound (f a)) l -> sound (nth_value E D f l k).
Proof.
  intros F. unfold nth_value. destruct (nth_error l k) as [a|] eqn:G; [|exact I].
  rewrite Forall_forall in F. apply F. eapply nth_error_In. exact G.
Qed.

Lemma payload_sound s p : payload_parse dbg s = Ok p -> sound (VPayload E D p).
Proof. intros H. apply payload_parse_iff in H as (W & _ & R & P). split; [exact W|]. split; [exact R|]. left. exact P. Qed.
Lemma payload_np s : payload_parse dbg s <> Panic.
Proof. apply C31_fits_and_total. Qed.
Lemma key_prefix_cases p : sound (VPayload E D p) -> key_prefix p = x00 \/ key_prefix p = x02 \/ key_prefix p = x03.
Proof.
  intros (_ & _ & [P|(b & _ & [(k & _ & H)|(K & V & H)])]).
  - unfold prefix_rule in P. destruct (p_version p); tauto.
  - left. unfold key_prefix. rewrite H. reflexivity.
  - right. unfold key_prefix. rewrite H. apply (compress_prefix (E b) (HE b)). exact V.
Qed.
Lemma pub_from_valid b l K : length l = 33%nat -> hd x00 l = x00 \/ hd x00 l = x02 \/ hd x00 l = x03 ->
  pub_from_bytes (Cv b) l = inr K -> K <> infinity (E b).
Proof.
  intros HL [Z|P] H.
  - exfalso. destruct l as [|t l]; [discriminate|]. cbn [hd] in Z. subst t. cbn [length] in HL.
    assert (L2 : (length l =? 32)%nat = true) by (apply Nat.eqb_eq; lia).
    destruct b; cbn in H; unfold rc_sec1, ffi_public in H; rewrite L2 in H; discriminate H.
  - apply (pub_from_iff (E b) (HE b)) in H; [apply H|exact HL|exact P].
Qed.
Lemma prv_try_sound b p x : sound (VPayload E D p) -> xprv_try_from dbg (Cv b) p = Ok x -> sprv b x.
Proof.
  intros ((_ & M & HK) & R & _). rewrite (prv_try_from_eq (E b)) by exact HK. destruct (p_version p); [discriminate|].
  destruct (prv_from_bytes _ _) as [s|k] eqn:G; [discriminate|]. intros [= <-].
  apply (prv_from_iff (E b)) in G as [_ V]; [|destruct (p_key p); [discriminate|]; cbn [tl length] in *; lia].
  split; [exact M|]. split; [exact R|exact V].
Qed.
Lemma prv_try_np b p : sound (VPayload E D p) -> xprv_try_from dbg (Cv b) p <> Panic.
Proof.
  intros ((_ & _ & HK) & _). rewrite (prv_try_from_eq (E b)) by exact HK. destruct (p_version p); [discriminate|].
  destruct (prv_from_bytes _ _); discriminate.
Qed.
Lemma pub_try_sound b p x : sound (VPayload E D p) -> xpub_try_from dbg (Cv b) p = Ok x -> spub b x.
Proof.
  intros S0. pose proof (key_prefix_cases p S0) as KP. destruct S0 as ((_ & M & HK) & R & _).
  rewrite (pub_try_from_eq (E b)). destruct (p_version p); [|discriminate].
  destruct (pub_from_bytes _ _) as [s|k] eqn:G; [discriminate|]. intros [= <-].
  split; [exact M|]. split; [exact R|]. exact (pub_from_valid b _ _ HK KP G).
Qed.
Lemma pub_try_np b p : xpub_try_from dbg (Cv b) p <> Panic.
Proof.
  rewrite (pub_try_from_eq (E b)). destruct (p_version p); [|discriminate]. destruct (pub_from_bytes _ _); discriminate.
Qed.

Lemma bind_np {A B : Type} (r : res Error A) (k : A -> res Error B) :
  r <> Panic -> (forall a, r = Ok a -> k a <> Panic) -> bind r k <> Panic.
Proof. intros P H. destruct r as [a|e|]; cbn; [apply H; reflexivity|discriminate|congruence]. Qed.
Lemma bind_ok {A B : Type} (r : res Error A) (k : A -> res Error B) c :
  bind r k = Ok c -> exists a, r = Ok a /\ k a = Ok c.
Proof. destruct r as [a|e|]; cbn; [|discriminate..]. intros H. exists a. auto. Qed.

Lemma prv_new_np (C : Curve) seed : xprv_new dbg C seed <> Panic.
Proof. rewrite xprv_new_eq. cbv zeta. destruct (prv_from_bytes _ _); discriminate. Qed.
Lemma prv_new_sound b seed x : xprv_new dbg (Cv b) seed = Ok x -> sprv b x.
Proof.
  intros H. destruct (reachable_wf (E b) (HE b) dbg b seed [] x x (Forall_nil _) H eq_refl) as [[M V] R].
  split; [exact M|]. split; [exact R|exact V].
Qed.
Lemma prv_child_sound b (x y : XPrv (Cv b)) c : c < 2 ^ 32 -> xprv_derive_child dbg x c = Ok y -> sprv b y.
Proof.
  intros Hc H. destruct (prv_child_wf (E b) (HE b) dbg b x y c Hc H) as [M V]. split; [exact M|]. split; [|exact V].
  rewrite derive_child_eq in H by apply be_bytes_length. cbv zeta in H.
  destruct (prv_add_tweak _ _ _); [discriminate|]. injection H as <-. apply child_depth_rule.
Qed.
Lemma pub_child_sound b (x y : XPub (Cv b)) c : c < 2 ^ 32 -> xpub_derive_child dbg x c = Ok y -> spub b y.
Proof.
  intros Hc H. destruct (pub_child_wf (E b) (HE b) dbg b x y c Hc H) as [M V]. split; [exact M|]. split; [|exact V].
  rewrite derive_pub_eq in H. destruct (2 ^ 31 <=? c); [discriminate|]. cbv zeta in H.
  destruct (pub_add_tweak _ _ _); [discriminate|]. injection H as <-. apply child_depth_rule.
Qed.
Lemma prv_path_sound b p : Forall (fun c => c < 2 ^ 32) p -> forall x : XPrv (Cv b), sprv b x ->
  xprv_derive_path dbg x p <> Panic /\ forall y, xprv_derive_path dbg x p = Ok y -> sprv b y.
Proof.
  induction 1 as [|c p Hc Hp IH]; intros x Sx; cbn [xprv_derive_path].
  - split; [discriminate|]. intros y [= <-]. exact Sx.
  - split.
    + apply bind_np; [apply prv_child_no_panic|]. intros z Hz. apply IH. exact (prv_child_sound b x z c Hc Hz).
    + intros y H. apply bind_ok in H as (z & Hz & H). revert y H. apply IH. exact (prv_child_sound b x z c Hc Hz).
Qed.
Lemma pub_path_sound b p : Forall (fun c => c < 2 ^ 32) p -> forall x : XPub (Cv b), spub b x ->
  xpub_derive_path dbg x p <> Panic /\ forall y, xpub_derive_path dbg x p = Ok y -> spub b y.
Proof.
  induction 1 as [|c p Hc Hp IH]; intros x Sx; cbn [xpub_derive_path].
  - split; [discriminate|]. intros y [= <-]. exact Sx.
  - split.
    + apply bind_np; [apply pub_child_no_panic|]. intros z Hz. apply IH. exact (pub_child_sound b x z c Hc Hz).
    + intros y H. apply bind_ok in H as (z & Hz & H). revert y H. apply IH. exact (pub_child_sound b x z c Hc Hz).
Qed.

(** *** SLIP-0010 *)
Lemma master_np (C : Curve) fuel seed : new_slip10 dbg fuel C seed <> Some Panic.
Proof.
  unfold new_slip10. destruct (master_spec dbg C fuel seed) as [(j & k & _ & _ & R)|[_ R]]; rewrite R; discriminate.
Qed.
Lemma master_sound b fuel seed x : new_slip10 dbg fuel (Cv b) seed = Some (Ok x) -> sprv b x.
Proof.
  intros H. destruct (slip10_reachable_wf dbg b (E b) (HE b) fuel seed [] x x (Forall_nil _) H eq_refl) as [[M V] R].
  split; [exact M|]. split; [exact R|exact V].
Qed.
Lemma schild_sound b fuel (x : XPrv (Cv b)) c : c < 2 ^ 32 ->
  slip10_prv_child fuel x c <> Some Panic /\ forall y, slip10_prv_child fuel x c = Some (Ok y) -> sprv b y.
Proof.
  intros Hc. rewrite prv_child_loop; [|apply be_bytes_length|apply (compress_length (E b) (HE b))].
  destruct (loop_spec (prv_add_tweak (Cv b) (xprv_key x)) (m_chain (xprv_meta x)) c fuel (gen_data (Cv b) (xprv_key x) c))
    as [(j & k & _ & [G _] & R)|[_ R]]; rewrite R; cbn [omap option_map res_map]; (split; [discriminate|]); [|discriminate].
  intros y [= <-]. apply (prv_tweak_iff (E b) (HE b)) in G as (_ & -> & NZ). split; [|split].
  - apply child_meta_wf; [exact Hc|]. destruct j; apply right_length.
  - apply child_depth_rule.
  - cbn [xprv_key]. split; [apply N.neq_0_lt_0; exact NZ|]. apply N.mod_lt. exact (order_nz (E b) (HE b)).
Qed.
Lemma spchild_sound b fuel (x : XPub (Cv b)) c : c < 2 ^ 32 ->
  slip10_pub_child fuel x c <> Some Panic /\ forall y, slip10_pub_child fuel x c = Some (Ok y) -> spub b y.
Proof.
  intros Hc. rewrite pub_child_loop by apply (compress_length (E b) (HE b)).
  destruct (2 ^ 31 <=? c); [split; discriminate|].
  match goal with |- context [slip10_loop fuel ?ch ?t (child_to_bytes c) ?d] =>
    destruct (loop_spec t ch c fuel d) as [(j & k & _ & [G _] & R)|[_ R]] end;
    rewrite R; cbn [omap option_map res_map]; (split; [discriminate|]); [|discriminate].
  intros y [= <-]. apply (pub_tweak_iff (E b) (HE b)) in G as (_ & _ & NZ). split; [|split].
  - apply child_meta_wf; [exact Hc|]. destruct j; apply right_length.
  - apply child_depth_rule.
  - exact NZ.
Qed.
Lemma loop_sound {X A : Type} (P : X -> Prop) (Q : A -> Prop) (step : X -> A -> option (res Error X)) :
  (forall x a, P x -> Q a -> step x a <> Some Panic /\ forall y, step x a = Some (Ok y) -> P y) ->
  forall l, Forall Q l -> forall x, P x ->
  path_loop step x l <> Some Panic /\ forall y, path_loop step x l = Some (Ok y) -> P y.
Proof.
  intros H l F. induction F as [|a l Ha Hl IH]; intros x Px; cbn [path_loop].
  - split; [discriminate|]. intros y [= <-]. exact Px.
  - destruct (H x a Px Ha) as [N O]. destruct (step x a) as [[y|e|]|].
    + apply IH. apply O. reflexivity.
    + split; discriminate.
    + congruence.
    + split; discriminate.
Qed.
Lemma spath_sound b fuel p (x : XPrv (Cv b)) : Forall (fun c => c < 2 ^ 32) p -> sprv b x ->
  slip10_prv_path fuel x p <> Some Panic /\ forall y, slip10_prv_path fuel x p = Some (Ok y) -> sprv b y.
Proof.
  intros F Sx. unfold slip10_prv_path. apply (loop_sound (sprv b) (fun c => c < 2 ^ 32)); [|exact F|exact Sx].
  intros y c _ Hc. apply schild_sound. exact Hc.
Qed.
Lemma sppath_sound b fuel p (x : XPub (Cv b)) : Forall (fun c => c < 2 ^ 32) p -> spub b x ->
  slip10_pub_path fuel x p <> Some Panic /\ forall y, slip10_pub_path fuel x p = Some (Ok y) -> spub b y.
Proof.
  intros F Sx. unfold slip10_pub_path. apply (loop_sound (spub b) (fun c => c < 2 ^ 32)); [|exact F|exact Sx].
  intros y c _ Hc. apply spchild_sound. exact Hc.
Qed.
Local Notation sed := (fun x : XPrv Ed => sound (VEdPrv E D x)).
Lemma ed_child_sound fuel (x : XPrv Ed) h : sed x -> 2 ^ 31 <= hc_child h < 2 ^ 32 ->
  slip10_hardened_child fuel x h <> Some Panic /\ forall y, slip10_hardened_child fuel x h = Some (Ok y) -> sed y.
Proof.
  intros (M & _ & HK) Hh. rewrite hardened_child_loop by exact HK.
  match goal with |- context [slip10_loop fuel ?ch ?t (child_to_bytes ?c) ?d] =>
    destruct (loop_spec t ch c fuel d) as [(j & k & _ & [G _] & R)|[_ R]] end;
    rewrite R; cbn [omap option_map res_map]; (split; [discriminate|]); [|discriminate].
  intros y [= <-]. injection G as <-. split; [|split].
  - apply child_meta_wf; [apply Hh|]. destruct j; apply right_length.
  - apply child_depth_rule.
  - cbn [xprv_key]. destruct j; apply left_length.
Qed.
Lemma ed_path_sound fuel p (x : XPrv Ed) : Forall (fun c => 2 ^ 31 <= c < 2 ^ 32) (hp_inner p) -> sed x ->
  slip10_hardened_path dbg fuel x p <> Some Panic /\ forall y, slip10_hardened_path dbg fuel x p = Some (Ok y) -> sed y.
Proof.
  intros F Sx. unfold slip10_hardened_path. rewrite hpath_kids by exact F. cbn [obind].
  apply (loop_sound sed (fun h => 2 ^ 31 <= hc_child h < 2 ^ 32)); [|apply Forall_map; exact F|exact Sx].
  intros y h Sy Hh. apply ed_child_sound; assumption.
Qed.
Lemma ed_made I (x : XPrv Ed) : length (firstn 32 I) = 32%nat -> length (IR I) = 32%nat ->
  @mkXPrv Ed (master_meta (IR I)) (firstn 32 I) = x -> sed x.
Proof.
  intros LL LR <-. split; [|split].
  - split; [reflexivity|]. split; [reflexivity|exact LR].
  - intros _. split; reflexivity.
  - exact LL.
Qed.
Lemma ok_eq {A : Type} (a b : A) : @Ok Error A a = Ok b -> a = b.
Proof. intros H. injection H as H. exact H. Qed.
Lemma ed_new_sound seed (x : XPrv Ed) : xprv_new dbg Ed seed = Ok x -> sed x.
Proof.
  intros H. pose proof (xprv_new_eq dbg Ed seed) as Q. cbv zeta in Q. rewrite H in Q. clear H.
  pose proof (left_length (hmac_key Ed) seed) as LL. pose proof (right_length (hmac_key Ed) seed) as LR.
  revert Q LL LR. generalize (hmac_sha512 (hmac_key Ed) seed). intros I Q LL LR.
  apply (ed_made I x LL LR). apply ok_eq. symmetry. exact Q.
Qed.
Lemma ed_master_sound fuel seed (x : XPrv Ed) : new_slip10 dbg fuel Ed seed = Some (Ok x) -> sed x.
Proof.
  intros H. unfold new_slip10 in H.
  destruct (master_spec dbg Ed fuel seed) as [(j & k & _ & [G _] & R)|[_ R]]; rewrite R in H; [|discriminate].
  clear R. assert (LL : length (firstn 32 (master_candidate (hmac_key Ed) seed j)) = 32%nat) by (destruct j; apply left_length).
  assert (LR : length (IR (master_candidate (hmac_key Ed) seed j)) = 32%nat) by (destruct j; apply right_length).
  revert G LL LR H. generalize (master_candidate (hmac_key Ed) seed j). intros I G LL LR H. injection G as <-.
  apply (ed_made I x LL LR). apply some_ok. exact H.
Qed.

(** *** Payloads of keys *)
Lemma prv_unchecked b (x : XPrv (Cv b)) v : xprv_encode_unchecked x v = Ok (prv_payload (E b) x v).
Proof. unfold xprv_encode_unchecked. rewrite put_key by apply be_bytes_length. reflexivity. Qed.
Lemma not_p256 b : bip32_curve b = true -> b <> P256.
Proof. intros H ->. discriminate. Qed.
Lemma prv_payload_sound b (x : XPrv (Cv b)) v : bip32_curve b = true -> as_u32 v < 2 ^ 32 -> sprv b x ->
  sound (VPayload E D (prv_payload (E b) x v)).
Proof.
  intros B V (M & R & K). split; [|split].
  - apply prv_payload_wf; [split; [exact M|exact K]|exact V].
  - exact R.
  - right. exists b. split; [exact (not_p256 b B)|]. left. exists (xprv_key x). split; [exact K|reflexivity].
Qed.
Lemma pub_payload_sound b (x : XPub (Cv b)) v : bip32_curve b = true -> as_u32 v < 2 ^ 32 -> spub b x ->
  sound (VPayload E D (pub_payload (E b) x v)).
Proof.
  intros B V (M & R & K). split; [|split].
  - apply (pub_payload_wf (E b) (HE b)); [split; [exact M|exact K]|exact V].
  - exact R.
  - right. exists b. split; [exact (not_p256 b B)|]. right. exists (xpub_key x). split; [exact K|reflexivity].
Qed.

Lemma run_good fuel c : typed E D c -> Forall sound (args E D c) -> good (run fuel c).
Proof.
  destruct c; cbn [typed args Session32.run]; intros T A;
    repeat match goal with
    | H : Forall sound (_ :: _) |- _ => let a := fresh "A" in let b := fresh "B" in
        apply Forall_inv in H as a; apply Forall_inv_tail in H as b; clear H
    | H : Forall sound [] |- _ => clear H
    end.
  - apply good_now; [apply child_new_np|]. intros a H. exact (proj1 (child_new_bound _ _ _ T H)).
  - apply good_now; [discriminate|]. intros a [= <-]. unfold child_from_bytes, u32_from_be. cbn [sound].
    pose proof (be_val_bound bytes) as B. rewrite T in B. exact B.
  - apply good_now; [apply component_np|]. intros a H. apply component_iff in H. exact (spells_child_bound _ _ H).
  - apply good_now; [discriminate|]. intros a [= <-]. exact (proj2 A0).
  - apply good_now.
    + unfold hchild_new. pose proof (child_new_np index true). destruct (child_new index true); [discriminate..|congruence].
    + intros a H. unfold hchild_new in H. destruct (child_new index true) as [c|e|] eqn:G; [|discriminate..].
      injection H as <-. destruct (child_new_bound _ _ _ T G) as [U V]. cbn [sound hc_child]. split; [apply V; reflexivity|exact U].
  - apply good_now; [unfold hchild_try_from; destruct (child_is_hardened c); discriminate|].
    unfold hchild_try_from. destruct (child_is_hardened c) eqn:G; [|discriminate]. intros a [= <-].
    exact (hard_bound c A0 G).
  - apply good_now; [apply path_parse_no_panic|]. intros a H. exact (path_bound s a H).
  - apply good_now; [discriminate|]. intros a [= <-]. cbn [sound]. exact (proj1 (Forall_map _ _ _) A).
  - apply good_now; [discriminate|]. intros a [= <-]. cbn [sound]. apply Forall_app. split; [exact A0|exact (proj1 (Forall_map _ _ _) B)].
  - exact (nth_sound (VChild E D) p k A0).
  - apply good_now; [discriminate|]. intros a [= <-]. cbn [sound]. eapply Forall_impl; [|exact A0]. intros c H. apply H.
  - apply good_now.
    + unfold hpath_parse. apply bind_np; [apply path_parse_no_panic|]. intros. apply hpath_np.
    + intros a H. unfold hpath_parse in H. apply bind_ok in H as (q & Q & H). exact (hpath_bound q a (path_bound s q Q) H).
  - apply good_now; [apply hpath_np|]. intros a H. exact (hpath_bound p a A0 H).
  - rewrite hpath_kids by exact A0. apply (nth_sound (VHChild E D)). apply Forall_map. exact A0.
  - destruct (payload_show_ok p (proj1 A0)) as (s & S0 & _). rewrite S0. exact I.
  - apply good_now; [apply payload_np|]. intros a H. exact (payload_sound s a H).
  - apply good_now; [apply prv_new_np|]. intros a H. exact (prv_new_sound b seed a H).
  - apply good_now; [discriminate|]. intros a [= <-]. destruct A0 as (M & R & K). split; [exact M|]. split; [exact R|].
    exact (public_valid (E b) (HE b) _ K).
  - apply good_now; [apply prv_child_no_panic|]. intros a H. exact (prv_child_sound b x a c A H).
  - destruct (prv_path_sound b p A x A0) as [N O]. apply good_now; assumption.
  - unfold xprv_encode_with. destruct (negb (is_private v)); [exact I|]. rewrite prv_unchecked.
    exact (prv_payload_sound b x v (proj1 T) (proj2 T) A0).
  - rewrite prv_unchecked. exact (prv_payload_sound b x v (proj1 T) (proj2 T) A0).
  - apply good_now.
    + unfold xprv_parse. apply bind_np; [apply payload_np|]. intros p P. apply prv_try_np. exact (payload_sound s p P).
    + intros a H. unfold xprv_parse in H. apply bind_ok in H as (p & P & H). exact (prv_try_sound b p a (payload_sound s p P) H).
  - apply good_now; [exact (prv_try_np b p A0)|]. intros a H. exact (prv_try_sound b p a A0 H).
  - apply good_now; [apply pub_child_no_panic|]. intros a H. exact (pub_child_sound b x a c A H).
  - destruct (pub_path_sound b p A x A0) as [N O]. apply good_now; assumption.
  - unfold xpub_encode_with. destruct (negb (is_public v)); [exact I|]. exact (pub_payload_sound b x v (proj1 T) (proj2 T) A0).
  - exact (pub_payload_sound b x v (proj1 T) (proj2 T) A0).
  - apply good_now.
    + unfold xpub_parse. apply bind_np; [apply payload_np|]. intros p P. apply pub_try_np.
    + intros a H. unfold xpub_parse in H. apply bind_ok in H as (p & P & H). exact (pub_try_sound b p a (payload_sound s p P) H).
  - apply good_now; [exact (pub_try_np b p)|]. intros a H. exact (pub_try_sound b p a A0 H).
  - apply good_omap; [apply master_np|]. intros a H. exact (master_sound b fuel seed a H).
  - destruct (schild_sound b fuel x c A) as [N O]. apply good_omap; assumption.
  - destruct (spath_sound b fuel p x A A0) as [N O]. apply good_omap; assumption.
  - destruct (spchild_sound b fuel x c A) as [N O]. apply good_omap; assumption.
  - destruct (sppath_sound b fuel p x A A0) as [N O]. apply good_omap; assumption.
  - apply good_now; [apply prv_new_np|]. intros a H. exact (ed_new_sound seed a H).
  - apply good_now; [discriminate|]. intros a [= <-]. destruct A0 as (M & R & K). split; [exact M|]. split; [exact R|].
    exists (xprv_key x). split; [exact K|reflexivity].
  - apply good_omap; [apply master_np|]. intros a H. exact (ed_master_sound fuel seed a H).
  - destruct (ed_child_sound fuel x h A0 A) as [N O]. apply good_omap; assumption.
  - destruct (ed_path_sound fuel p x A A0) as [N O]. apply good_omap; assumption.
  - unfold ed25519_pubkey_from_slip10_bytes. destruct (negb _); [exact I|].
    rewrite put_whole; [exact I|]. rewrite skipn_length, T. reflexivity.
  - unfold ed25519_pubkey_to_slip10_bytes. rewrite put_key by exact T. exact I.
Qed.

Lemma session_sound vs : ses vs -> Forall sound vs.
Proof.
  induction 1 as [|vs c fuel v H IH T A R]; [constructor|]. constructor; [|exact IH].
  assert (F : Forall sound (args E D c)).
  { rewrite Forall_forall in IH |- *. intros u Hu. apply IH, A, Hu. }
  pose proof (run_good fuel c T F) as G. rewrite R in G. exact G.
Qed.

(** C110: no sequence of calls panics, in debug and in release builds, whatever values earlier
    calls gave. *)
Theorem C110_no_panic vs c fuel :
  ses vs -> typed E D c -> incl (args E D c) vs -> run fuel c <> Some Panic.
Proof.
  intros H T A P. pose proof (session_sound vs H) as IH.
  assert (F : Forall sound (args E D c)).
  { rewrite Forall_forall in IH |- *. intros u Hu. apply IH, A, Hu. }
  pose proof (run_good fuel c T F) as G. rewrite P in G. exact G.
Qed.

(** ** Completeness *)
Definition held (vs : list (value E D)) (v : value E D) : Prop := exists us, ses (v :: us ++ vs).
Lemma held_call vs c fuel v : ses vs -> typed E D c -> args E D c = [] -> run fuel c = Some (Ok v) -> held vs v.
Proof.
  intros H T A R. exists []. apply (ses_call dbg E D vs c fuel v H T); [|exact R]. rewrite A. intros u [].
Qed.
Lemma held_step vs c fuel u v : held vs u -> typed E D c -> args E D c = [u] -> run fuel c = Some (Ok v) -> held vs v.
Proof.
  intros (us & H) T A R. exists (u :: us). apply (ses_call dbg E D (u :: us ++ vs) c fuel v H T); [|exact R].
  rewrite A. intros w [<-|[]]. now left.
Qed.
Lemma child_back c : c < 2 ^ 32 -> child_from_bytes (be_bytes 4 c) = c.
Proof. intros H. unfold child_from_bytes, u32_from_be. rewrite be_val_be_bytes. apply N.mod_small. exact H. Qed.
Lemma prv_held b (x : XPrv (Cv b)) vs : ses vs -> bip32_curve b = true -> sprv b x -> held vs (VPrv E D b x).
Proof.
  intros H B (M & R & K).
  destruct (prv_roundtrip (E b) (HE b) dbg b x (Private 0) (conj M K) R eq_refl eq_refl) as (t & _ & P).
  { intros X. repeat (destruct X as [X|X]; [discriminate|]). exact X. }
  apply (held_call vs (PrvParse E D b t) 0 _ H B eq_refl). cbn [Session32.run now]. rewrite P. reflexivity.
Qed.
Lemma pub_held b (x : XPub (Cv b)) vs : ses vs -> bip32_curve b = true -> spub b x -> held vs (VPub E D b x).
Proof.
  intros H B (M & R & K).
  destruct (pub_roundtrip (E b) (HE b) dbg b x (Public 0) (conj M K) R eq_refl eq_refl) as (t & _ & P).
  { intros X. repeat (destruct X as [X|X]; [discriminate|]). exact X. }
  apply (held_call vs (PubParse E D b t) 0 _ H B eq_refl). cbn [Session32.run now]. rewrite P. reflexivity.
Qed.
Lemma path_held p vs : ses vs -> sound (VPath E D p) -> held vs (VPath E D p).
Proof.
  intros H F. apply (held_call vs (PathParse E D (path_show p)) 0 _ H I eq_refl). cbn [Session32.run now].
  replace (path_parse (path_show p)) with (@Ok Error (list N) p); [reflexivity|]. symmetry.
  apply path_parse_iff, path_show_spells. exact F.
Qed.
Lemma find_none_hard p : Forall (fun c => 2 ^ 31 <= c < 2 ^ 32) p -> hpath_try_from p = Ok (mkHP p).
Proof.
  intros F. unfold hpath_try_from. destruct (find _ p) as [c|] eqn:G; [|reflexivity].
  apply find_some in G as [Hc G]. rewrite Forall_forall in F. destruct (F c Hc) as [H _].
  rewrite hardened_eq in G. apply N.leb_le in H. rewrite H in G. discriminate.
Qed.

Lemma payload_eta p v m k : p_version p = v -> p_meta p = m -> p_key p = k ->
  p = {| p_version := v; p_meta := m; p_key := k |}.
Proof. destruct p. cbn. congruence. Qed.
Lemma complete vs v : ses vs -> free v = true -> sound v -> held vs v.
Proof.
  intros H F S0. destruct v as [c|h|p|p|p|b x|b x|x|x|]; try discriminate F.
  - apply (held_call vs (ChildFromBytes E D (be_bytes 4 c)) 0 _ H (be_bytes_length _ _) eq_refl).
    cbn [Session32.run now res_map]. rewrite child_back by exact S0. reflexivity.
  - assert (A : held vs (VChild E D (hc_child h))).
    { apply (held_call vs (ChildFromBytes E D (be_bytes 4 (hc_child h))) 0 _ H (be_bytes_length _ _) eq_refl).
      cbn [Session32.run now res_map]. rewrite child_back by apply S0. reflexivity. }
    apply (held_step vs (HChildTry E D (hc_child h)) 0 _ _ A I eq_refl). cbn [Session32.run]. unfold hchild_try_from.
    rewrite hardened_eq. destruct S0 as [S0 _]. apply N.leb_le in S0. rewrite S0. destruct h. reflexivity.
  - exact (path_held p vs H S0).
  - assert (A : held vs (VPath E D (hp_inner p))).
    { apply path_held; [exact H|]. eapply Forall_impl; [|exact S0]. intros c Hc. apply Hc. }
    apply (held_step vs (HPathTry E D (hp_inner p)) 0 _ _ A I eq_refl). cbn [Session32.run].
    rewrite find_none_hard by exact S0. destruct p. reflexivity.
  - destruct S0 as (W & R & [P|(b & B & KB)]).
    + destruct (proj2 (C28_payload_roundtrip dbg) p W R P) as (t & _ & T).
      apply (held_call vs (PayloadParse E D t) 0 _ H I eq_refl). cbn [Session32.run]. rewrite T. reflexivity.
    + assert (B' : bip32_curve b = true) by (destruct b; [reflexivity|congruence|reflexivity]).
      destruct W as (V & M & _). destruct KB as [(k & K & HK)|(K & HI & HK)].
      * assert (A : held vs (VPrv E D b (@mkXPrv (Cv b) (p_meta p) k))) by (apply prv_held; [exact H|exact B'|repeat split; try apply M; try apply K; apply R; assumption]).
        apply (held_step vs (PrvEncodeUnchecked E D b (@mkXPrv (Cv b) (p_meta p) k) (p_version p)) 0 _ _ A (conj B' V) eq_refl).
        cbn [Session32.run]. rewrite prv_unchecked.
        change (Some (Ok (VPayload E D (prv_payload (E b) (@mkXPrv (Cv b) (p_meta p) k) (p_version p)))) = Some (@Ok Error _ (VPayload E D p))).
        do 3 f_equal. symmetry.
        apply payload_eta; [reflexivity..|exact HK].
      * assert (A : held vs (VPub E D b (@mkXPub (Cv b) (p_meta p) K))) by (apply pub_held; [exact H|exact B'|split; [exact M|split; [exact R|exact HI]]]).
        apply (held_step vs (PubEncodeUnchecked E D b (@mkXPub (Cv b) (p_meta p) K) (p_version p)) 0 _ _ A (conj B' V) eq_refl).
        change (Some (Ok (VPayload E D (pub_payload (E b) (@mkXPub (Cv b) (p_meta p) K) (p_version p)))) = Some (@Ok Error _ (VPayload E D p))).
        do 3 f_equal. symmetry. apply payload_eta; [reflexivity..|exact HK].
  - exact (prv_held b x vs H F S0).
  - exact (pub_held b x vs H F S0).
  - apply (held_call vs (EdToSlip10 E D (repeat x00 32)) 0 _ H eq_refl eq_refl). reflexivity.
Qed.

(** C110: every value a program can hold is sound; and every sound value that is not a key of
    a curve of SLIP-0010 alone can be got, at any time, by further calls. *)
Theorem C110_held_values :
  (forall vs v, ses vs -> In v vs -> sound v) /\
  (forall vs v, ses vs -> free v = true -> sound v -> exists us, ses (v :: us ++ vs)).
Proof.
  split.
  - intros vs v H. pose proof (session_sound vs H) as F. rewrite Forall_forall in F. exact (F v).
  - exact complete.
Qed.

(** ** Keys of the curves of SLIP-0010 alone *)
Definition carries (m : Metadata) (nd : node) : Prop :=
  b2n (m_depth m) = n_depth nd /\ m_fingerprint m = n_parent nd /\ m_child m = n_number nd /\ m_chain m = n_chain nd.
(** The key is that of a node of the tree SLIP-0010 gives some seed. *)
Definition seeded (v : value E D) : Prop :=
  match v with
  | VPrv _ _ b x => b = P256 -> exists seed p nd,
      slip10_node (E P256) (bytes_of "Nist256p1 seed") false seed p nd /\ carries (xprv_meta x) nd /\ xprv_key x = n_key nd
  | VPub _ _ b x => b = P256 -> exists seed p nd,
      slip10_node (E P256) (bytes_of "Nist256p1 seed") false seed p nd /\ carries (xpub_meta x) nd /\
      xpub_key x = pmul (E b) (n_key nd) (gen (E b))
  | VEdPrv _ _ x => exists seed p nd,
      ed25519_node (fun s => ed_raw D (ed_verifying D s)) seed p nd /\ carries (xprv_meta x) nd /\
      xprv_key x = be_bytes 32 (n_key nd)
  | VEdPub _ _ x => exists seed p nd,
      ed25519_node (fun s => ed_raw D (ed_verifying D s)) seed p nd /\ carries (xpub_meta x) nd /\
      xpub_key x = ed_verifying D (be_bytes 32 (n_key nd))
  | _ => True
  end.

Lemma new_once (C : Curve) seed x : xprv_new dbg C seed = Ok x -> new_slip10 dbg 1 C seed = Some (Ok x).
Proof.
  rewrite xprv_new_eq. cbv zeta. intros H. unfold new_slip10. cbn [slip10_master_loop]. unfold derive_master_key_parts.
  rewrite hmac_split_eq. destruct (prv_from_bytes C _) as [s|k]; [discriminate|]. injection H as <-. reflexivity.
Qed.

Definition in_tree (b : Library) (x : XPrv (Cv b)) : Prop :=
  exists seed p, slip10_node (E b) (curve_key b) (ffi b) seed p (node_of x).
Lemma tree_master b fuel seed x : new_slip10 dbg fuel (Cv b) seed = Some (Ok x) -> in_tree b x.
Proof.
  intros H. exists seed, []. apply (slip_tree_iff (E b) (HE b) dbg). split; [constructor|].
  exists fuel, x, x. split; [exact H|]. split; reflexivity.
Qed.
Lemma tree_path b fuel p (x : XPrv (Cv b)) y : Forall (fun c => c < 2 ^ 32) p -> sprv b x -> in_tree b x ->
  slip10_prv_path fuel x p = Some (Ok y) -> in_tree b y.
Proof.
  intros F Sx Tx H.
  refine (proj2 (proj2 (loop_sound (fun x => sprv b x /\ in_tree b x) (fun c => c < 2 ^ 32) (slip10_prv_child fuel) _ p F x (conj Sx Tx)) y H)).
  clear - HE. intros x c [(M & R & K) (seed & p & T)] Hc. destruct (schild_sound b fuel x c Hc) as [N O]. split; [exact N|].
  intros y Y. split; [exact (O y Y)|].
  destruct (proj1 (schild_node (E b) (HE b) b x y c (conj M K) Hc) (ex_intro _ fuel Y)) as (J & G & Q).
  exists seed, (p ++ [c]). rewrite Q. apply sn_child; [exact T|exact Hc|exact G].
Qed.
Lemma carries_node {b} (x : XPrv (Cv b)) nd : carries (xprv_meta x) nd -> xprv_key x = n_key nd -> node_of x = nd.
Proof. intros (A & B & C & F) K. destruct nd. unfold node_of. cbn in *. congruence. Qed.
Lemma seeded_prv b x : b = P256 -> (seeded (VPrv E D b x) <-> in_tree b x).
Proof.
  intros ->. cbn [seeded]. unfold in_tree. split.
  - intros H. destruct (H eq_refl) as (seed & p & nd & T & C & K). exists seed, p. rewrite (carries_node x nd C K). exact T.
  - intros (seed & p & T) _. exists seed, p, (node_of x). split; [exact T|]. repeat split.
Qed.
Lemma seeded_pub b x : b = P256 -> (seeded (VPub E D b x) <-> exists y, in_tree b y /\ xprv_public y = x).
Proof.
  intros ->. cbn [seeded]. unfold in_tree. split.
  - intros H. destruct (H eq_refl) as (seed & p & nd & T & C & K).
    exists (@mkXPrv (Cv P256) (xpub_meta x) (n_key nd)). split.
    + exists seed, p. rewrite (carries_node (@mkXPrv (Cv P256) (xpub_meta x) (n_key nd)) nd C eq_refl). exact T.
    + destruct x as [m k]. cbn in K. subst k. reflexivity.
  - intros (y & (seed & p & T) & <-) _. exists seed, p, (node_of y). split; [exact T|]. repeat split.
Qed.
Lemma tree_sound b x : in_tree b x -> sprv b x.
Proof.
  intros (seed & p & T). apply (slip_tree_iff (E b) (HE b) dbg) in T as (F & fuel & r & y & R & P & N).
  apply node_of_inj in N. subst y. destruct (slip10_reachable_wf dbg b (E b) (HE b) fuel seed p r x F R P) as [[M K] Q].
  split; [exact M|]. split; [exact Q|exact K].
Qed.
Lemma pub_path_normal b fuel p : forall x y : XPub (Cv b),
  slip10_pub_path fuel x p = Some (Ok y) -> Forall (fun c => c < 2 ^ 31) p.
Proof.
  induction p as [|c p IH]; intros x y; [constructor|]. unfold slip10_pub_path. cbn [path_loop].
  destruct (slip10_pub_child fuel x c) as [[z|e|]|] eqn:G; try discriminate. intros H. constructor; [|exact (IH z y H)].
  unfold slip10_pub_child in G. rewrite hardened_eq in G. destruct (N.leb_spec (2 ^ 31) c); [discriminate|assumption].
Qed.
Lemma tree_pub_path b fuel p (x : XPrv (Cv b)) y : in_tree b x ->
  slip10_pub_path fuel (xprv_public x) p = Some (Ok y) -> exists z, in_tree b z /\ xprv_public z = y.
Proof.
  intros T H. pose proof (pub_path_normal b fuel p _ _ H) as F. destruct (tree_sound b x T) as (M & R & K).
  pose proof (C48_slip10_neuter_commutes b (E b) (HE b) fuel p x (conj M K) F) as Q.
  destruct (slip10_prv_path fuel x p) as [[z|e|]|] eqn:Z; [|contradiction..|congruence].
  exists z. split; [|congruence]. refine (tree_path b fuel p x z _ (tree_sound b x T) T Z).
  eapply Forall_impl; [|exact F]. cbn. intros c Hc. apply (N.lt_trans _ _ _ Hc). reflexivity.
Qed.
Lemma one_prv b fuel (x : XPrv (Cv b)) c : slip10_prv_path fuel x [c] = slip10_prv_child fuel x c.
Proof. apply (C39_path_composition dbg (Cv b) fuel). Qed.
Lemma one_pub b fuel (x : XPub (Cv b)) c : slip10_pub_path fuel x [c] = slip10_pub_child fuel x c.
Proof. apply (C39_path_composition dbg (Cv b) fuel). Qed.

Definition in_ed_tree (x : XPrv Ed) : Prop :=
  ed_wf x /\ exists seed p, ed25519_node (ed_public D) seed p (ed_node_of x).
Lemma sed_wf x : sed x -> ed_wf x.
Proof. intros (M & _ & K). exact (conj M K). Qed.
Lemma ed_tree_master fuel seed (x : XPrv Ed) : new_slip10 dbg fuel Ed seed = Some (Ok x) -> in_ed_tree x.
Proof.
  intros H. split; [exact (sed_wf x (ed_master_sound fuel seed x H))|]. destruct fuel as [|fuel]; [discriminate|].
  exists seed, []. apply (ed_tree_iff D HD dbg fuel). split; [constructor|]. exists x, x. split; [exact H|].
  split; [apply ed_nil_path|]. split; [reflexivity|]. exact (sed_wf x (ed_master_sound (S fuel) seed x H)).
Qed.
Lemma ed_tree_child fuel (x : XPrv Ed) h y : in_ed_tree x -> 2 ^ 31 <= hc_child h < 2 ^ 32 ->
  slip10_hardened_child fuel x h = Some (Ok y) -> in_ed_tree y.
Proof.
  intros (W & seed & p & T) Hh H. destruct fuel as [|fuel].
  { rewrite hardened_child_loop in H by apply W. discriminate. }
  destruct h as [i]. cbn [hc_child] in Hh. destruct (ed_child D HD fuel x i W Hh) as (z & Z & WZ & NZ).
  rewrite Z in H. apply some_ok in H. subst z. split; [exact WZ|]. exists seed, (p ++ [i]). rewrite (NZ _ eq_refl).
  apply en_child; [exact T|exact Hh|reflexivity].
Qed.
Lemma ed_tree_path fuel p (x : XPrv Ed) y : Forall (fun c => 2 ^ 31 <= c < 2 ^ 32) (hp_inner p) -> sed x -> in_ed_tree x ->
  slip10_hardened_path dbg fuel x p = Some (Ok y) -> in_ed_tree y.
Proof.
  intros F Sx T H. unfold slip10_hardened_path in H. rewrite hpath_kids in H by exact F. cbn [obind] in H.
  refine (proj2 (proj2 (loop_sound (fun x => sed x /\ in_ed_tree x) (fun h => 2 ^ 31 <= hc_child h < 2 ^ 32)
    (slip10_hardened_child fuel) _ (map mkHC (hp_inner p)) (proj2 (Forall_map mkHC _ _) F) x (conj Sx T)) y H)).
  clear - HD. intros x h [Sx T] Hh. destruct (ed_child_sound fuel x h Sx Hh) as [N O]. split; [exact N|].
  intros y Y. split; [exact (O y Y)|]. exact (ed_tree_child fuel x h y T Hh Y).
Qed.
Lemma ed_node_key (x : XPrv Ed) : length (xprv_key x) = 32%nat -> be_bytes 32 (be_val (xprv_key x)) = xprv_key x.
Proof. intros H. rewrite <- H at 1. apply be_bytes_be_val. Qed.
Lemma ed_node_bound seed p nd : ed25519_node (ed_public D) seed p nd -> n_key nd < 256 ^ N.of_nat 32.
Proof.
  intros H. assert (B : forall k d, be_val (firstn 32 (hmac_sha512 k d)) < 256 ^ N.of_nat 32).
  { intros k d. pose proof (be_val_bound (firstn 32 (hmac_sha512 k d))) as B. rewrite left_length in B. exact B. }
  destruct H as [I ->|p nd i I H Hi ->]; apply B.
Qed.
Lemma ed_carries_node (x : XPrv Ed) nd : carries (xprv_meta x) nd -> xprv_key x = be_bytes 32 (n_key nd) ->
  n_key nd < 256 ^ N.of_nat 32 -> ed_node_of x = nd.
Proof.
  intros (A & B & C & F) K L. assert (V : be_val (xprv_key x) = n_key nd).
  { rewrite K, be_val_be_bytes. apply N.mod_small. exact L. }
  destruct nd. unfold ed_node_of. cbn in *. congruence.
Qed.
Lemma ed_node_meta seed p nd m : ed25519_node (ed_public D) seed p nd -> carries m nd -> meta_wf m.
Proof.
  intros H (_ & A & B & C). unfold meta_wf. rewrite A, B, C. destruct H as [I ->|p nd i I H Hi ->]; cbn [n_parent n_number n_chain].
  - split; [reflexivity|]. split; [reflexivity|]. apply skip_length.
  - split; [apply fingerprint_length|]. split; [apply Hi|apply skip_length].
Qed.
Lemma seeded_ed x : seeded (VEdPrv E D x) <-> in_ed_tree x.
Proof.
  cbn [seeded]. change (fun s => ed_raw D (ed_verifying D s)) with (ed_public D). split.
  - intros (seed & p & nd & T & C & K). split.
    + split; [exact (ed_node_meta seed p nd _ T C)|]. rewrite K. apply be_bytes_length.
    + exists seed, p. rewrite (ed_carries_node x nd C K (ed_node_bound seed p nd T)). exact T.
  - intros ((M & K) & seed & p & T). exists seed, p, (ed_node_of x). split; [exact T|]. split; [repeat split|].
    symmetry. exact (ed_node_key x K).
Qed.
Lemma seeded_ed_pub x : seeded (VEdPub E D x) <-> exists y, in_ed_tree y /\ xprv_public y = x.
Proof.
  cbn [seeded]. change (fun s => ed_raw D (ed_verifying D s)) with (ed_public D). split.
  - intros (seed & p & nd & T & C & K). exists (@mkXPrv Ed (xpub_meta x) (be_bytes 32 (n_key nd))). split.
    + apply seeded_ed. cbn [seeded]. exists seed, p, nd. split; [exact T|]. split; [exact C|reflexivity].
    + destruct x as [m k]. cbn in K. subst k. reflexivity.
  - intros (y & ((M & K) & seed & p & T) & <-). exists seed, p, (ed_node_of y). split; [exact T|]. split; [repeat split|].
    cbn [xprv_public xpub_key prv_to_public Ed25519DalekBackend ed_node_of n_key]. rewrite ed_node_key by exact K. reflexivity.
Qed.

Lemma now_inv {A : Type} (f : A -> value E D) (r : res Error A) v : now E D f r = Some (Ok v) -> exists a, r = Ok a /\ f a = v.
Proof. destruct r as [a|e|]; cbn; try discriminate. intros [= <-]. exists a. auto. Qed.
Lemma omap_inv {A : Type} (f : A -> value E D) o v : omap f o = Some (Ok v) -> exists a, o = Some (Ok a) /\ f a = v.
Proof. destruct o as [[a|e|]|]; cbn; try discriminate. intros [= <-]. exists a. auto. Qed.
Lemma nth_seeded {A : Type} (f : A -> value E D) l k : (forall a, seeded (f a)) -> seeded (nth_value E D f l k).
Proof. intros F. unfold nth_value. destruct (nth_error l k); [apply F|exact I]. Qed.
Lemma not_only b (Q : Prop) : bip32_curve b = true -> b = P256 -> Q.
Proof. intros B ->. discriminate. Qed.

Lemma nth_plain {A : Type} (f : A -> value E D) l k v : (forall a, seeded (f a)) ->
  Some (Ok (nth_value E D f l k)) = Some (@Ok Error _ v) -> seeded v.
Proof. intros F [= <-]. apply nth_seeded. exact F. Qed.
Lemma run_seeded fuel c v : typed E D c -> Forall sound (args E D c) -> Forall seeded (args E D c) ->
  run fuel c = Some (Ok v) -> seeded v.
Proof.
  destruct c; cbn [typed args Session32.run]; intros T A Q R;
    try (apply now_inv in R as (a & R & <-); exact I);
    try (apply now_inv in R as (a & R & <-); exact (not_only _ _ T)).
  - exact (nth_plain (VChild E D) p k v (fun _ => I) R).
  - apply now_inv in R as (hs & R & <-). apply nth_seeded. intros a. exact I.
  - apply now_inv in R as (a & R & <-). intros P. refine (proj2 (seeded_prv b a P) _ P). apply (tree_master b 1 seed), new_once. exact R.
  - apply now_inv in R as (a & R & <-). apply ok_eq in R. subst a. intros P. refine (proj2 (seeded_pub b _ P) _ P).
    exists x. split; [|reflexivity]. apply (seeded_prv b x P). exact (Forall_inv Q).
  - apply omap_inv in R as (a & R & <-). intros P. refine (proj2 (seeded_prv b a P) _ P). exact (tree_master b fuel seed a R).
  - apply omap_inv in R as (a & R & <-). intros P. refine (proj2 (seeded_prv b a P) _ P). rewrite <- one_prv in R.
    apply (tree_path b fuel [c] x a); [|exact (Forall_inv A)|apply (seeded_prv b x P); exact (Forall_inv Q)|exact R].
    constructor; [exact (Forall_inv (Forall_inv_tail A))|constructor].
  - apply omap_inv in R as (a & R & <-). intros P. refine (proj2 (seeded_prv b a P) _ P).
    apply (tree_path b fuel p x a); [exact (Forall_inv (Forall_inv_tail A))|exact (Forall_inv A)|
      apply (seeded_prv b x P); exact (Forall_inv Q)|exact R].
  - apply omap_inv in R as (a & R & <-). intros P. refine (proj2 (seeded_pub b _ P) _ P). rewrite <- one_pub in R.
    destruct (proj1 (seeded_pub b x P) (Forall_inv Q)) as (y & Ty & <-). exact (tree_pub_path b fuel [c] y a Ty R).
  - apply omap_inv in R as (a & R & <-). intros P. refine (proj2 (seeded_pub b _ P) _ P).
    destruct (proj1 (seeded_pub b x P) (Forall_inv Q)) as (y & Ty & <-). exact (tree_pub_path b fuel p y a Ty R).
  - apply now_inv in R as (a & R & <-). apply seeded_ed. apply (ed_tree_master 1 seed), new_once. exact R.
  - apply now_inv in R as (a & R & <-). apply ok_eq in R. subst a. apply seeded_ed_pub. exists x.
    split; [|reflexivity]. apply seeded_ed. exact (Forall_inv Q).
  - apply omap_inv in R as (a & R & <-). apply seeded_ed. exact (ed_tree_master fuel seed a R).
  - apply omap_inv in R as (a & R & <-). apply seeded_ed.
    refine (ed_tree_child fuel x h a _ (Forall_inv (Forall_inv_tail A)) R). apply seeded_ed. exact (Forall_inv Q).
  - apply omap_inv in R as (a & R & <-). apply seeded_ed.
    refine (ed_tree_path fuel p x a (Forall_inv (Forall_inv_tail A)) (Forall_inv A) _ R). apply seeded_ed. exact (Forall_inv Q).
  - destruct (ed25519_pubkey_from_slip10_bytes bytes); [|..|discriminate]; injection R as <-; exact I.
  - destruct (ed25519_pubkey_to_slip10_bytes bytes); [|..|discriminate]; injection R as <-; exact I.
Qed.
Lemma session_seeded vs : ses vs -> Forall seeded vs.
Proof.
  induction 1 as [|vs c fuel v H IH T A R]; [constructor|]. constructor; [|exact IH].
  pose proof (session_sound vs H) as G. rewrite Forall_forall in IH, G.
  refine (run_seeded fuel c v T _ _ R); apply Forall_forall; intros u Hu; [apply G|apply IH]; apply A, Hu.
Qed.

(** Two held values at once, for a call on both. *)
Lemma held_two vs u w : held vs u -> (forall us, ses us -> held us w) ->
  forall c fuel v, typed E D c -> args E D c = [u; w] -> run fuel c = Some (Ok v) -> held vs v.
Proof.
  intros (us & H) W c fuel v T A R. destruct (W _ H) as (ws & H'). exists (w :: ws ++ u :: us).
  replace ((w :: ws ++ u :: us) ++ vs) with (w :: ws ++ u :: us ++ vs) by (cbn [app]; rewrite <- app_assoc; reflexivity).
  apply (ses_call dbg E D _ c fuel v H' T); [|exact R]. rewrite A. intros q [<-|[<-|[]]]; [|now left].
  right. apply in_or_app. right. now left.
Qed.
Lemma tree_held b x vs : ses vs -> in_tree b x -> held vs (VPrv E D b x).
Proof.
  intros H (seed & p & T). apply (slip_tree_iff (E b) (HE b) dbg) in T as (F & fuel & r & y & R & P & N).
  apply node_of_inj in N. subst y. refine (held_two vs (VPrv E D b r) (VPath E D p) _ _ (SlipPath E D b r p) fuel _ I eq_refl _).
  - apply (held_call vs (SlipNew E D b seed) fuel _ H I eq_refl). cbn [Session32.run]. rewrite R. reflexivity.
  - intros us U. exact (path_held p us U F).
  - cbn [Session32.run]. rewrite P. reflexivity.
Qed.
Lemma ed_node_inj (x y : XPrv Ed) : ed_wf x -> ed_wf y -> ed_node_of x = ed_node_of y -> x = y.
Proof.
  intros [_ Kx] [_ Ky] N. destruct x as [[d f c h] k], y as [[d' f' c' h'] k']. unfold ed_node_of in N.
  cbn [xprv_meta xprv_key m_depth m_fingerprint m_child m_chain] in *. injection N as A B C F G.
  assert (d = d') by (rewrite <- (n2b_b2n d), <- (n2b_b2n d'), A; reflexivity).
  assert (k = k').
  { pose proof (ed_node_key (@mkXPrv Ed (mkMeta d f c h) k) Kx) as U. pose proof (ed_node_key (@mkXPrv Ed (mkMeta d f c h) k') Ky) as V.
    cbn [xprv_key] in U, V. rewrite <- U, <- V, G. reflexivity. }
  subst. reflexivity.
Qed.
Lemma ed_tree_held x vs : ses vs -> in_ed_tree x -> held vs (VEdPrv E D x).
Proof.
  intros H (W & seed & p & T). apply (ed_tree_iff D HD dbg 0) in T as (F & r & y & R & P & N & Wy).
  apply (ed_node_inj y x Wy W) in N. subst y.
  refine (held_two vs (VEdPrv E D r) (VHPath E D (mkHP p)) _ _ (EdSlipPath E D r (mkHP p)) 1 _ I eq_refl _).
  - apply (held_call vs (EdSlipNew E D seed) 1 _ H I eq_refl). cbn [Session32.run]. rewrite R. reflexivity.
  - intros us U. exact (complete us (VHPath E D (mkHP p)) U eq_refl F).
  - cbn [Session32.run]. rewrite P. reflexivity.
Qed.

(** C110: a key of NIST P-256 or ed25519 can be held if and only if it is that of a node of
    the tree of some seed. *)
Theorem C110_slip10_keys v : free v = false ->
  (forall vs, ses vs -> In v vs -> seeded v) /\
  (forall vs, ses vs -> seeded v -> exists us, ses (v :: us ++ vs)).
Proof.
  intros F. split.
  - intros vs H. pose proof (session_seeded vs H) as G. rewrite Forall_forall in G. exact (G v).
  - intros vs H Sv. change (held vs v). destruct v as [c|h|p|p|p|b x|b x|x|x|]; try discriminate F.
    + assert (P : b = P256) by (destruct b; [discriminate F|reflexivity|discriminate F]).
      apply tree_held; [exact H|]. apply (seeded_prv b x P). exact Sv.
    + assert (P : b = P256) by (destruct b; [discriminate F|reflexivity|discriminate F]).
      destruct (proj1 (seeded_pub b x P) Sv) as (y & Ty & <-).
      apply (held_step vs (PrvPublic E D b y) 0 _ _ (tree_held b y vs H Ty) I eq_refl). reflexivity.
    + apply ed_tree_held; [exact H|]. apply seeded_ed. exact Sv.
    + destruct (proj1 (seeded_ed_pub x) Sv) as (y & Ty & <-).
      apply (held_step vs (EdPublic E D y) 0 _ _ (ed_tree_held y vs H Ty) I eq_refl). reflexivity.
Qed.
End Sound.
Print Assumptions C110_no_panic.
Print Assumptions C110_held_values.
Print Assumptions C110_slip10_keys.

(** Four calls, each on what the ones before gave; and, later, a payload no text can say: the
    bytes of the public key 1 under the version of private keys.  [try_from] takes it for
    the private key with the number of the x-coordinate. *)
Definition session_E (_ : Library) : ECLib := Cyclic.
Definition session_meta : Metadata :=
  {| m_depth := x00; m_fingerprint := [x00; x00; x00; x00]; m_child := 0; m_chain := repeat x01 32 |}.
Definition confused : Payload :=
  {| p_version := Private 0x0488ADE4; p_meta := session_meta; p_key := x02 :: be_bytes 32 1 |}.
Example C110_case :
  (forall b, ec_laws (session_E b)) /\
  (let V := value session_E ToyEd in
   let s : list V := [VHChild _ _ (mkHC 0x8000002C); VHPath _ _ (mkHP [0x8000002C; 0x80000001]);
      VPath _ _ [0x8000002C; 0x80000001]; VPath _ _ [0x8000002C]; VChild _ _ 0x80000001] in
   session true session_E ToyEd s /\
   exists us, session true session_E ToyEd (VPayload _ _ confused :: us ++ s)) /\
  ~ prefix_rule confused /\
  xprv_try_from true (backend K256 Cyclic) confused = Ok (@mkXPrv (backend K256 Cyclic) session_meta 1).
Proof.
  assert (HE : forall b, ec_laws (session_E b)) by (intros b; exact cyclic_laws).
  split; [exact HE|]. split; [|split].
  - intros V s. assert (H : session true session_E ToyEd s).
    { apply (ses_call true session_E ToyEd _ (HPathChild _ _ (mkHP [0x8000002C; 0x80000001]) 0) 0);
        [|exact I|intros v [<-|[]]; now left|reflexivity].
      apply (ses_call true session_E ToyEd _ (HPathTry _ _ [0x8000002C; 0x80000001]) 0);
        [|exact I|intros v [<-|[]]; now left|reflexivity].
      apply (ses_call true session_E ToyEd _ (PathExtend _ _ [0x8000002C] [0x80000001]) 0);
        [|exact I|intros v [<-|[<-|[]]]; [now left|right; now left]|reflexivity].
      apply (ses_call true session_E ToyEd _ (PathParse _ _ (lit "m/44h")) 0); [|exact I|intros v []|reflexivity].
      apply (ses_call true session_E ToyEd _ (ChildNew _ _ 1 true) 0); [constructor|reflexivity|intros v []|reflexivity]. }
    split; [exact H|].
    apply (proj2 (C110_held_values true session_E ToyEd HE) s (VPayload _ _ confused) H eq_refl).
    split; [repeat split|]. split; [intros _; split; reflexivity|].
    right. exists K256. split; [discriminate|]. right. exists (gen Cyclic). split; [|reflexivity].
    intros G. apply (f_equal (@proj1_sig _ _)) in G. discriminate G.
  - intros [P _]. discriminate P.
  - reflexivity.
Qed.
