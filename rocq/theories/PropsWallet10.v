(** Property theorem about both crates together: from a typed phrase, passphrase and path
    to the text of a SLIP-0010 key (C108). *)
From Verif Require Import Base Str Sha2 Ripemd Unicode UnicodeTables UnicodeProofs Language39 Mnemonic39
  Builtin39 BuildScript39 Spec39 QueueSpec39 LangSpec39 LangProofs MnemonicProofs ExtraProofs39 Props39
  Error32 Path32 PathSpec32 PathProofs32 Version32 Meta32 Base58Spec Base58Proofs Payload32 PayloadSpec32
  PayloadProofs32 Curve32 XKey32 Slip10 XKeySpec32 XKeyProofs32 SlipProofs32 Cyclic32 Props32 Props32k Props32s
  Props32n PropsWallet.
Local Open Scope N_scope.

(** ** The standard *)
(** [J] is the first good one of [I], [next I], [next (next I)], ... *)
Inductive first_good (good : list byte -> Prop) (next : list byte -> list byte) : list byte -> list byte -> Prop :=
| fg_now I : good I -> first_good good next I I
| fg_next I J : ~ good I -> first_good good next (next I) J -> first_good good next I J.

(** SLIP-0010 for the curves with non-hardened children, "Master key generation" and "Child
    key derivation (CKD) functions": as in BIP-0032, but an unusable value is replaced by
    that of the next round. *)
Inductive slip10_node (L : ECLib) (secret : list byte) (zero : bool) (seed : list byte) : list N -> node -> Prop :=
| sn_master J :
    first_good (fun I => 0 < be_val (firstn 32 I) < order L) (hmac_sha512 secret) (hmac_sha512 secret seed) J ->
    slip10_node L secret zero seed [] (Node 0 [x00; x00; x00; x00] 0 (skipn 32 J) (be_val (firstn 32 J)))
| sn_child p nd i J :
    slip10_node L secret zero seed p nd -> i < 2 ^ 32 ->
    first_good
      (fun I => be_val (firstn 32 I) < order L /\ (be_val (firstn 32 I) = 0 -> zero = true) /\
                (be_val (firstn 32 I) + n_key nd) mod order L <> 0)
      (fun I => hmac_sha512 (n_chain nd) (x01 :: skipn 32 I ++ be_bytes 4 i))
      (hmac_sha512 (n_chain nd)
         ((if 2 ^ 31 <=? i then x00 :: be_bytes 32 (n_key nd)
           else compress L (pmul L (n_key nd) (gen L))) ++ be_bytes 4 i)) J ->
    slip10_node L secret zero seed (p ++ [i])
      (Node (N.min 255 (n_depth nd + 1))
         (firstn 4 (ripemd160 (sha256 (compress L (pmul L (n_key nd) (gen L)))))) i (skipn 32 J)
         ((be_val (firstn 32 J) + n_key nd) mod order L)).

(** SLIP-0010 for ed25519: every value is usable and every child is hardened; [public] is the
    public key of 32 secret bytes. *)
Inductive ed25519_node (public : list byte -> list byte) (seed : list byte) : list N -> node -> Prop :=
| en_master I : I = hmac_sha512 (bytes_of "ed25519 seed") seed ->
    ed25519_node public seed [] (Node 0 [x00; x00; x00; x00] 0 (skipn 32 I) (be_val (firstn 32 I)))
| en_child p nd i I :
    ed25519_node public seed p nd -> 2 ^ 31 <= i < 2 ^ 32 ->
    I = hmac_sha512 (n_chain nd) (x00 :: be_bytes 32 (n_key nd) ++ be_bytes 4 i) ->
    ed25519_node public seed (p ++ [i])
      (Node (N.min 255 (n_depth nd + 1))
         (firstn 4 (ripemd160 (sha256 (x00 :: public (be_bytes 32 (n_key nd)))))) i (skipn 32 I)
         (be_val (firstn 32 I))).

(** ** Lemmas *)
Lemma first_good_iff good next J : forall f : nat -> list byte, (forall j, f (S j) = next (f j)) ->
  first_good good next (f 0%nat) J <-> exists j, first_index (fun j => good (f j)) j /\ J = f j.
Proof.
  intros f Hf. split.
  - intros H. remember (f 0%nat) as I0 eqn:E0. revert f Hf E0.
    induction H as [I G|I J G H IH]; intros f Hf ->.
    + exists 0%nat. split; [|reflexivity]. split; [exact G|lia].
    + destruct (IH (fun j => f (S j)) (fun j => Hf (S j)) (eq_sym (Hf 0%nat))) as (j & [A B] & ->).
      exists (S j). split; [|reflexivity]. split; [exact A|].
      intros [|i] Hi; [exact G|apply B; lia].
  - intros (j & [A B] & ->). revert f Hf A B. induction j as [|j IH]; intros f Hf A B.
    + apply fg_now. exact A.
    + apply fg_next; [apply B; lia|]. rewrite <- Hf.
      apply (IH (fun j => f (S j))); [intros i; apply Hf|exact A|]. intros i Hi. apply B. lia.
Qed.

Lemma first_index_ext (P Q : nat -> Prop) j : (forall i, P i <-> Q i) -> first_index P j <-> first_index Q j.
Proof.
  intros H. unfold first_index. rewrite (H j). split; intros [A B]; (split; [exact A|]); intros i Hi X;
    apply (B i Hi); apply H; exact X.
Qed.

Lemma smaster_node L (HL : ec_laws L) dbg b seed (r : XPrv (backend b L)) :
  (exists fuel, new_slip10 dbg fuel (backend b L) seed = Some (Ok r)) <->
  exists J, first_good (fun I => 0 < be_val (firstn 32 I) < order L) (hmac_sha512 (curve_key b))
      (hmac_sha512 (curve_key b) seed) J /\
    node_of r = Node 0 [x00; x00; x00; x00] 0 (skipn 32 J) (be_val (firstn 32 J)).
Proof.
  pose proof (proj1 (C45_slip10_master dbg b L HL seed)) as M.
  pose proof (first_good_iff (fun I => 0 < be_val (firstn 32 I) < order L) (hmac_sha512 (curve_key b))) as FG.
  split.
  - intros (fuel & E). apply M in E as (j & _ & G & [= ->]).
    exists (master_candidate (curve_key b) seed j). split; [|reflexivity].
    apply (FG _ (master_candidate (curve_key b) seed)); [reflexivity|]. exists j. split; [exact G|reflexivity].
  - intros (J & G & N). apply (FG _ (master_candidate (curve_key b) seed)) in G as (j & G & ->); [|reflexivity].
    exists (S j). apply M. exists j. split; [lia|]. split; [exact G|]. f_equal. apply node_of_inj. exact N.
Qed.
Lemma master_more L (HL : ec_laws L) dbg b seed fuel fuel' r : (fuel <= fuel')%nat ->
  new_slip10 dbg fuel (backend b L) seed = Some r -> new_slip10 dbg fuel' (backend b L) seed = Some r.
Proof.
  intros LE E. pose proof (proj1 (C45_slip10_master dbg b L HL seed)) as M.
  apply M in E as (j & Hj & G & ->). apply M. exists j. split; [lia|]. auto.
Qed.

Definition step_good (L : ECLib) (zero : bool) (k : N) (I : list byte) : Prop :=
  be_val (firstn 32 I) < order L /\ (be_val (firstn 32 I) = 0 -> zero = true) /\
  (be_val (firstn 32 I) + k) mod order L <> 0.

Lemma schild_node L (HL : ec_laws L) b (x y : XPrv (backend b L)) i : xprv_wf x -> i < 2 ^ 32 ->
  (exists fuel, slip10_prv_child fuel x i = Some (Ok y)) <->
  exists J, first_good (step_good L (ffi b) (n_key (node_of x)))
      (fun I => hmac_sha512 (n_chain (node_of x)) (x01 :: skipn 32 I ++ be_bytes 4 i))
      (hmac_sha512 (n_chain (node_of x))
         ((if 2 ^ 31 <=? i then x00 :: be_bytes 32 (n_key (node_of x))
           else compress L (pmul L (n_key (node_of x)) (gen L))) ++ be_bytes 4 i)) J /\
    node_of y = Node (N.min 255 (n_depth (node_of x) + 1))
         (firstn 4 (ripemd160 (sha256 (compress L (pmul L (n_key (node_of x)) (gen L)))))) i (skipn 32 J)
         ((be_val (firstn 32 J) + n_key (node_of x)) mod order L).
Proof.
  intros W Hi. cbn [node_of n_chain n_key n_depth].
  assert (GD : ckd_priv_data L (xprv_key x) i =
     (if 2 ^ 31 <=? i then x00 :: be_bytes 32 (xprv_key x)
      else compress L (pmul L (xprv_key x) (gen L))) ++ be_bytes 4 i).
  { unfold ckd_priv_data. destruct (2 ^ 31 <=? i); reflexivity. }
  pose proof (proj1 (proj1 (C46_slip10_child b L HL) x i W Hi)) as M. cbv zeta in M.
  set (cand := child_candidate (m_chain (xprv_meta x)) (ckd_priv_data L (xprv_key x) i) i) in M.
  assert (GE : forall j, (exists k, child_private b L (xprv_key x) (cand j) k) <-> step_good L (ffi b) (xprv_key x) (cand j)).
  { intros j. unfold child_private, allowed, step_good, IL. split.
    - intros (k & (A & B) & -> & NZ). split; [exact A|]. split; [intros Z; apply ffi_iff; auto|exact NZ].
    - intros (A & B & NZ). eexists. split; [split; [exact A|intros Z; apply ffi_iff; auto]|]. split; [reflexivity|exact NZ]. }
  assert (NE : forall j, node_of (@mkXPrv (backend b L)
       (derived (xprv_meta x) (compress L (pmul L (xprv_key x) (gen L))) i (IR (cand j)))
       ((be_val (firstn 32 (cand j)) + xprv_key x) mod order L)) =
     Node (N.min 255 (b2n (m_depth (xprv_meta x)) + 1))
         (firstn 4 (ripemd160 (sha256 (compress L (pmul L (xprv_key x) (gen L)))))) i (skipn 32 (cand j))
         ((be_val (firstn 32 (cand j)) + xprv_key x) mod order L)).
  { intros j. unfold node_of. cbn [xprv_meta xprv_key derived m_depth m_fingerprint m_child m_chain].
    f_equal. apply (sat_succ_val (m_depth (xprv_meta x))). }
  pose proof (fun J => first_good_iff (step_good L (ffi b) (xprv_key x))
    (fun I => hmac_sha512 (m_chain (xprv_meta x)) (x01 :: skipn 32 I ++ be_bytes 4 i)) J cand (fun j => eq_refl)) as FG.
  rewrite <- GD. change (hmac_sha512 (m_chain (xprv_meta x)) (ckd_priv_data L (xprv_key x) i)) with (cand 0%nat).
  split.
  - intros (fuel & E). apply M in E as (j & k & _ & G & (_ & -> & _) & [= ->]).
    exists (cand j). split; [apply FG; exists j; split; [|reflexivity]|apply NE].
    apply (first_index_ext _ _ j GE). exact G.
  - intros (J & G & N). apply FG in G as (j & G & ->).
    assert (CP : child_private b L (xprv_key x) (cand j) ((be_val (firstn 32 (cand j)) + xprv_key x) mod order L)).
    { destruct G as [G _]. destruct (proj2 (GE j) G) as (k & A & E & NZ). split; [exact A|]. split; [reflexivity|].
      rewrite E in NZ. exact NZ. }
    exists (S j). apply M. exists j, ((be_val (firstn 32 (cand j)) + xprv_key x) mod order L).
    split; [lia|]. split; [apply (first_index_ext _ _ j GE); exact G|]. split; [exact CP|].
    f_equal. apply node_of_inj. rewrite N. symmetry. apply NE.
Qed.
Lemma child_more L (HL : ec_laws L) b (x : XPrv (backend b L)) i fuel fuel' r : xprv_wf x -> i < 2 ^ 32 ->
  (fuel <= fuel')%nat -> slip10_prv_child fuel x i = Some r -> slip10_prv_child fuel' x i = Some r.
Proof.
  intros W Hi LE E. pose proof (proj1 (proj1 (C46_slip10_child b L HL) x i W Hi)) as M. cbv zeta in M.
  apply M in E as (j & k & Hj & G & C & ->). apply M. exists j, k. split; [lia|]. auto.
Qed.
Lemma schild_wf L (HL : ec_laws L) b (x y : XPrv (backend b L)) i fuel : xprv_wf x -> i < 2 ^ 32 ->
  slip10_prv_child fuel x i = Some (Ok y) -> xprv_wf y.
Proof.
  intros W Hi E. pose proof (proj1 (proj1 (C46_slip10_child b L HL) x i W Hi)) as M. cbv zeta in M.
  apply M in E as (j & k & _ & _ & (_ & -> & NZ) & [= ->]). split.
  - apply child_meta_wf; [exact Hi|]. destruct j; apply right_length.
  - cbn [xprv_key]. split; [apply N.neq_0_lt_0; exact NZ|]. apply N.mod_lt. exact (order_nz L HL).
Qed.
Lemma path_more L (HL : ec_laws L) b p : forall (x : XPrv (backend b L)) fuel fuel' r, xprv_wf x ->
  Forall (fun i => i < 2 ^ 32) p -> (fuel <= fuel')%nat ->
  slip10_prv_path fuel x p = Some r -> slip10_prv_path fuel' x p = Some r.
Proof.
  induction p as [|i p IH]; intros x fuel fuel' r W F LE E; [exact E|].
  inversion F as [|? ? Hi Fp]; subst. unfold slip10_prv_path in *. cbn [path_loop] in *.
  destruct (slip10_prv_child fuel x i) as [o|] eqn:C; [|discriminate].
  rewrite (child_more L HL b x i fuel fuel' o W Hi LE C). destruct o as [y|e|]; [|exact E..].
  exact (IH y fuel fuel' r (schild_wf L HL b x y i fuel W Hi C) Fp LE E).
Qed.
Lemma new_wf L (HL : ec_laws L) dbg b seed fuel (r : XPrv (backend b L)) :
  new_slip10 dbg fuel (backend b L) seed = Some (Ok r) -> xprv_wf r.
Proof.
  intros R. exact (proj1 (slip10_reachable_wf dbg b L HL fuel seed [] r r (Forall_nil _) R eq_refl)).
Qed.

Lemma slip_tree_iff L (HL : ec_laws L) dbg b seed p nd :
  slip10_node L (curve_key b) (ffi b) seed p nd <->
  Forall (fun i => i < 2 ^ 32) p /\
  exists fuel (r x : XPrv (backend b L)), new_slip10 dbg fuel (backend b L) seed = Some (Ok r) /\
    slip10_prv_path fuel r p = Some (Ok x) /\ node_of x = nd.
Proof.
  assert (CP := fun fuel => C39_path_composition dbg (backend b L) fuel).
  assert (APP : forall fuel (x : XPrv (backend b L)) p q, slip10_prv_path fuel x (p ++ q) =
     match slip10_prv_path fuel x p with Some (Ok y) => slip10_prv_path fuel y q | o => o end).
  { intros fuel. apply (CP fuel). }
  assert (ONE : forall fuel (x : XPrv (backend b L)) i, slip10_prv_path fuel x [i] = slip10_prv_child fuel x i).
  { intros fuel. apply (CP fuel). }
  clear CP. split.
  - intros H. induction H as [J G|p nd i J H IH Hi G].
    + split; [constructor|].
      set (r := @mkXPrv (backend b L) (master_meta (skipn 32 J)) (be_val (firstn 32 J))).
      assert (R : exists fuel, new_slip10 dbg fuel (backend b L) seed = Some (Ok r)).
      { apply (smaster_node L HL). exists J. split; [exact G|reflexivity]. }
      destruct R as (fuel & R). exists fuel, r, r. split; [exact R|]. split; reflexivity.
    + destruct IH as (F & fuel & r & x & R & D & <-). split; [apply Forall_app; split; [exact F|constructor; auto]|].
      destruct (slip10_reachable_wf dbg b L HL fuel seed p r x F R D) as [W _].
      set (y := @mkXPrv (backend b L) (child_meta (xprv_meta x) (compress L (pmul L (xprv_key x) (gen L))) i (skipn 32 J))
                  ((be_val (firstn 32 J) + xprv_key x) mod order L)).
      assert (N : node_of y = Node (N.min 255 (n_depth (node_of x) + 1))
         (firstn 4 (ripemd160 (sha256 (compress L (pmul L (n_key (node_of x)) (gen L)))))) i (skipn 32 J)
         ((be_val (firstn 32 J) + n_key (node_of x)) mod order L)).
      { unfold y, node_of. cbn [xprv_meta xprv_key child_meta m_depth m_fingerprint m_child m_chain n_depth n_key].
        rewrite sat_succ_val. reflexivity. }
      assert (Y : exists fuel, slip10_prv_child fuel x i = Some (Ok y)).
      { apply (schild_node L HL b x y i W Hi). exists J. split; [exact G|exact N]. }
      destruct Y as (fuel' & Y). exists (Nat.max fuel fuel'), r, y.
      split; [apply (master_more L HL dbg b seed fuel); [lia|exact R]|]. split; [|exact N].
      rewrite APP.
      rewrite (path_more L HL b p r fuel (Nat.max fuel fuel') (Ok x) (new_wf L HL dbg b seed fuel r R) F ltac:(lia) D).
      rewrite ONE. apply (child_more L HL b x i fuel'); [exact W|exact Hi|lia|exact Y].
  - revert nd. induction p as [|i p IH] using rev_ind; intros nd (F & fuel & r & x & R & D & <-).
    + injection D as <-. assert (R' : exists fuel, new_slip10 dbg fuel (backend b L) seed = Some (Ok r)) by eauto.
      apply (smaster_node L HL) in R' as (J & G & ->). apply sn_master. exact G.
    + apply Forall_app in F as [F Fi]. inversion Fi as [|? ? Hi _]; subst.
      rewrite APP in D. destruct (slip10_prv_path fuel r p) as [[z|e|]|] eqn:Z; try discriminate.
      rewrite ONE in D. destruct (slip10_reachable_wf dbg b L HL fuel seed p r z F R Z) as [W _].
      assert (Y : exists fuel, slip10_prv_child fuel z i = Some (Ok x)) by eauto.
      apply (schild_node L HL b z x i W Hi) in Y as (J & G & ->).
      apply sn_child; [|exact Hi|exact G]. apply IH. split; [exact F|]. exists fuel, r, z. auto.
Qed.

(** ** C108 *)
(** A phrase, a passphrase and a path as typed give the text [t] of a SLIP-0010 key exactly if
    BIP-0039 and SLIP-0010 do; [fuel] bounds the number of rounds of each step. *)
Theorem C108_private U dbg b L (HL : ec_laws L) l text pass ptext n t : ucd_std U -> n < 2 ^ 32 ->
  (exists fuel m p (r x : XPrv (backend b L)) q,
     from_phrase U (language_of l) text = Ok m /\ path_parse ptext = Ok p /\
     new_slip10 dbg fuel (backend b L) (to_seed U m pass) = Some (Ok r) /\ slip10_prv_path fuel r p = Some (Ok x) /\
     xprv_encode_with x (Private n) = Ok q /\ payload_show q = Ok t) <->
  exists seed p nd, bip39_seed U (file_of l) text pass seed /\ spells_path ptext p /\
    slip10_node L (curve_key b) (match b with Secp256k1Ffi => true | _ => false end) seed p nd /\ xprv_text n nd t.
Proof.
  intros HU Hn. split.
  - intros (fuel & m & p & r & x & q & M & P & R & D & E & T).
    apply (proj1 (C24_path_grammar ptext)) in P. pose proof (spells_bound _ _ P) as F.
    exists (to_seed U m pass), p, (node_of x). split; [apply seed_iff; eauto|]. split; [exact P|].
    split; [apply (slip_tree_iff L HL dbg); split; [exact F|]; exists fuel, r, x; auto|].
    apply (prv_text L HL); [exact (proj1 (slip10_reachable_wf dbg b L HL fuel _ p r x F R D))|exact Hn|eauto].
  - intros (seed & p & nd & SD & P & N & T). apply (seed_iff U l) in SD as (m & M & <-); [|exact HU].
    apply (slip_tree_iff L HL dbg) in N as (F & fuel & r & x & R & D & <-).
    apply (prv_text L HL) in T as (q & E & T);
      [|exact (proj1 (slip10_reachable_wf dbg b L HL fuel _ p r x F R D))|exact Hn].
    exists fuel, m, p, r, x, q. split; [exact M|]. split; [apply C24_path_grammar; exact P|]. auto.
Qed.
Print Assumptions C108_private.

Theorem C108_public U dbg b L (HL : ec_laws L) l text pass ptext n t : ucd_std U -> n < 2 ^ 32 ->
  (exists fuel m p (r x : XPrv (backend b L)) q,
     from_phrase U (language_of l) text = Ok m /\ path_parse ptext = Ok p /\
     new_slip10 dbg fuel (backend b L) (to_seed U m pass) = Some (Ok r) /\ slip10_prv_path fuel r p = Some (Ok x) /\
     xpub_encode_with (xprv_public x) (Public n) = Ok q /\ payload_show q = Ok t) <->
  exists seed p nd, bip39_seed U (file_of l) text pass seed /\ spells_path ptext p /\
    slip10_node L (curve_key b) (match b with Secp256k1Ffi => true | _ => false end) seed p nd /\ xpub_text L n nd t.
Proof.
  intros HU Hn. split.
  - intros (fuel & m & p & r & x & q & M & P & R & D & E & T).
    apply (proj1 (C24_path_grammar ptext)) in P. pose proof (spells_bound _ _ P) as F.
    exists (to_seed U m pass), p, (node_of x). split; [apply seed_iff; eauto|]. split; [exact P|].
    split; [apply (slip_tree_iff L HL dbg); split; [exact F|]; exists fuel, r, x; auto|].
    apply (pub_text L HL b); [exact (proj1 (slip10_reachable_wf dbg b L HL fuel _ p r x F R D))|exact Hn|eauto].
  - intros (seed & p & nd & SD & P & N & T). apply (seed_iff U l) in SD as (m & M & <-); [|exact HU].
    apply (slip_tree_iff L HL dbg) in N as (F & fuel & r & x & R & D & <-).
    apply (pub_text L HL b) in T as (q & E & T);
      [|exact (proj1 (slip10_reachable_wf dbg b L HL fuel _ p r x F R D))|exact Hn].
    exists fuel, m, p, r, x, q. split; [exact M|]. split; [apply C24_path_grammar; exact P|]. auto.
Qed.
Print Assumptions C108_public.

(** *** ed25519 *)
Definition ed_public (D : EdLib) (s : list byte) : list byte := ed_raw D (ed_verifying D s).
Definition ed_node_of {D : EdLib} (x : XPrv (Ed25519DalekBackend D)) : node :=
  Node (b2n (m_depth (xprv_meta x))) (m_fingerprint (xprv_meta x)) (m_child (xprv_meta x))
    (m_chain (xprv_meta x)) (be_val (xprv_key x)).
Definition ed_wf {D : EdLib} (x : XPrv (Ed25519DalekBackend D)) : Prop :=
  meta_wf (xprv_meta x) /\ length (xprv_key x) = 32%nat.
Lemma ed_key_bytes D (x : XPrv (Ed25519DalekBackend D)) : ed_wf x -> be_bytes 32 (n_key (ed_node_of x)) = xprv_key x.
Proof. intros [_ W]. cbn [ed_node_of n_key]. rewrite <- W at 1. apply be_bytes_be_val. Qed.

Lemma some_ok {A : Type} (a b : A) : Some (@Ok Error A a) = Some (Ok b) -> a = b.
Proof. intros H. injection H as H. exact H. Qed.

Lemma skip_length key data : length (skipn 32 (hmac_sha512 key data)) = 32%nat.
Proof. exact (right_length key data). Qed.

Lemma ed_child D (HD : ed_laws D) fuel (x : XPrv (Ed25519DalekBackend D)) i : ed_wf x -> 2 ^ 31 <= i < 2 ^ 32 ->
  exists y, slip10_hardened_child (S fuel) x (mkHC i) = Some (Ok y) /\ ed_wf y /\
    forall I, I = hmac_sha512 (n_chain (ed_node_of x)) (x00 :: be_bytes 32 (n_key (ed_node_of x)) ++ be_bytes 4 i) ->
    ed_node_of y = Node (N.min 255 (n_depth (ed_node_of x) + 1))
      (firstn 4 (ripemd160 (sha256 (x00 :: ed_public D (be_bytes 32 (n_key (ed_node_of x))))))) i
      (skipn 32 I) (be_val (firstn 32 I)).
Proof.
  intros W Hi. rewrite (ed_key_bytes D x W).
  destruct (C49_ed25519_total true D HD) as (_ & C & _). destruct (C fuel x i (proj2 W)) as [E LK].
  assert (EI : exists I, I = ed_step D (xprv_key x) (m_chain (xprv_meta x)) i /\ length (skipn 32 I) = 32%nat).
  { eexists. split; [reflexivity|]. apply right_length. }
  destruct EI as (I & EI & RI). cbv zeta in E, LK. rewrite <- EI in E, LK.
  eexists. split; [exact E|]. split.
  - split; [|exact LK]. split; [apply fingerprint_length|]. split; [apply Hi|exact RI].
  - intros I' EI'. unfold ed_step in EI. change ([x00] ++ xprv_key x ++ be_bytes 4 i) with (x00 :: xprv_key x ++ be_bytes 4 i) in EI.
    change (n_chain (ed_node_of x)) with (m_chain (xprv_meta x)) in EI'. rewrite <- EI in EI'. subst I'.
    unfold ed_node_of. cbn [xprv_meta xprv_key derived m_depth m_fingerprint m_child m_chain n_depth n_chain].
    f_equal. apply (sat_succ_val (m_depth (xprv_meta x))).
Qed.
Lemma ed_master D (HD : ed_laws D) dbg fuel seed :
  exists r, new_slip10 dbg (S fuel) (Ed25519DalekBackend D) seed = Some (Ok r) /\ ed_wf r /\
    forall I, I = hmac_sha512 (bytes_of "ed25519 seed") seed ->
    ed_node_of r = Node 0 [x00; x00; x00; x00] 0 (skipn 32 I) (be_val (firstn 32 I)).
Proof.
  destruct (C49_ed25519_total dbg D HD) as (M & _). specialize (M fuel seed). cbv zeta in M.
  pose proof (left_length (bytes_of "ed25519 seed") seed) as LL.
  pose proof (skip_length (bytes_of "ed25519 seed") seed) as RL.
  revert M LL RL. generalize (hmac_sha512 (bytes_of "ed25519 seed") seed). intros I M LL RL.
  eexists. split; [exact M|]. split.
  - split; [|exact LL]. split; [reflexivity|]. split; [reflexivity|exact RL].
  - intros I' ->. reflexivity.
Qed.

Lemma ed_step_path D dbg fuel (x : XPrv (Ed25519DalekBackend D)) p i :
  Forall (fun i => 2 ^ 31 <= i < 2 ^ 32) p -> 2 ^ 31 <= i < 2 ^ 32 ->
  slip10_hardened_path dbg fuel x (mkHP (p ++ [i])) =
    match slip10_hardened_path dbg fuel x (mkHP p) with
    | Some (Ok y) => slip10_hardened_child fuel y (mkHC i) | o => o end.
Proof.
  intros F Hi. assert (Fi : Forall (fun i => 2 ^ 31 <= i) [i]) by (constructor; [lia|constructor]).
  assert (HF : Forall (fun i => 2 ^ 31 <= i) p) by (eapply Forall_impl; [|exact F]; cbn; lia).
  rewrite (proj1 (C39_hardened_path_composition dbg (Ed25519DalekBackend D) fuel x p [i] HF Fi)).
  destruct (slip10_hardened_path dbg fuel x (mkHP p)) as [[y|e|]|]; try reflexivity.
  apply (C39_hardened_path_composition dbg (Ed25519DalekBackend D) fuel y [] [] (Forall_nil _) (Forall_nil _)). lia.
Qed.
Lemma ed_nil_path D dbg fuel (x : XPrv (Ed25519DalekBackend D)) :
  slip10_hardened_path dbg fuel x (mkHP []) = Some (Ok x).
Proof. apply (C39_hardened_path_composition dbg (Ed25519DalekBackend D) fuel x [] []); constructor. Qed.

Lemma ed_path_wf D (HD : ed_laws D) dbg fuel p : Forall (fun i => 2 ^ 31 <= i < 2 ^ 32) p ->
  forall x y : XPrv (Ed25519DalekBackend D), ed_wf x ->
  slip10_hardened_path dbg (S fuel) x (mkHP p) = Some (Ok y) -> ed_wf y.
Proof.
  intros F x y W P. revert y P. induction p as [|i p IH] using rev_ind; intros y P.
  - rewrite ed_nil_path in P. apply some_ok in P. subst y. exact W.
  - apply Forall_app in F as [F Fi]. inversion Fi as [|? ? Hi _]; subst. rewrite ed_step_path in P by assumption.
    destruct (slip10_hardened_path dbg (S fuel) x (mkHP p)) as [[z|e|]|]; try discriminate.
    destruct (ed_child D HD fuel z i (IH F z eq_refl) Hi) as (y' & Y & W' & _).
    rewrite Y in P. apply some_ok in P. subst y'. exact W'.
Qed.

Lemma ed_tree_iff D (HD : ed_laws D) dbg fuel seed p nd :
  ed25519_node (ed_public D) seed p nd <->
  Forall (fun i => 2 ^ 31 <= i < 2 ^ 32) p /\
  exists r x : XPrv (Ed25519DalekBackend D), new_slip10 dbg (S fuel) (Ed25519DalekBackend D) seed = Some (Ok r) /\
    slip10_hardened_path dbg (S fuel) r (mkHP p) = Some (Ok x) /\ ed_node_of x = nd /\ ed_wf x.
Proof.
  destruct (ed_master D HD dbg fuel seed) as (r0 & M & WM & NM). split.
  - intros H. induction H as [I E|p nd i I H IH Hi E].
    + split; [constructor|]. exists r0, r0. split; [exact M|]. split; [apply ed_nil_path|]. split; [exact (NM I E)|exact WM].
    + destruct IH as (F & r & x & R & P & <- & W). split; [apply Forall_app; split; [exact F|constructor; auto]|].
      destruct (ed_child D HD fuel x i W Hi) as (y & Y & WY & NY). exists r, y. split; [exact R|].
      split; [rewrite ed_step_path by assumption; rewrite P; exact Y|]. split; [exact (NY I E)|exact WY].
  - revert nd. induction p as [|i p IH] using rev_ind; intros nd (F & r & x & R & P & <- & W);
      (assert (r0 = r) by (apply some_ok; rewrite <- M, <- R; reflexivity)); subst r0.
    + rewrite ed_nil_path in P. apply some_ok in P. subst x. rewrite (NM _ eq_refl). apply en_master. reflexivity.
    + apply Forall_app in F as [F Fi]. inversion Fi as [|? ? Hi _]; subst.
      rewrite ed_step_path in P by assumption.
      destruct (slip10_hardened_path dbg (S fuel) r (mkHP p)) as [[z|e|]|] eqn:Z; try discriminate.
      pose proof (ed_path_wf D HD dbg fuel p F r z WM Z) as WZ.
      destruct (ed_child D HD fuel z i WZ Hi) as (y & Y & _ & NY). rewrite Y in P. apply some_ok in P. subst y.
      rewrite (NY _ eq_refl).
      apply en_child; [|exact Hi|reflexivity]. apply IH. split; [exact F|]. exists r, z. auto.
Qed.

Lemma ed_prv_text D (x : XPrv (Ed25519DalekBackend D)) n t : ed_wf x -> n < 2 ^ 32 ->
  (exists q, xprv_encode_with x (Private n) = Ok q /\ payload_show q = Ok t) <-> xprv_text n (ed_node_of x) t.
Proof.
  intros W Hn. pose (p := {| p_version := Private n; p_meta := xprv_meta x; p_key := [x00] ++ xprv_key x |}).
  assert (E : xprv_encode_with x (Private n) = Ok p).
  { unfold xprv_encode_with. cbn [is_private negb]. unfold xprv_encode_unchecked.
    change (prv_to_bytes (Ed25519DalekBackend D) (xprv_key x)) with (xprv_key x).
    rewrite put_key by apply W. reflexivity. }
  rewrite E.
  assert (PT : payload_show p = Ok t <-> xprv_text n (ed_node_of x) t).
  { unfold xprv_text. rewrite (ed_key_bytes D x W).
    apply (payload_text (Private n) p (ed_node_of x) (x00 :: xprv_key x)); [reflexivity..|].
    split; [exact Hn|]. split; [apply W|]. cbn [p p_key app length]. f_equal. apply W. }
  rewrite <- PT. split; [intros (q & [= <-] & T); exact T|eauto].
Qed.
Lemma ed_pub_text D (HD : ed_laws D) (x : XPrv (Ed25519DalekBackend D)) n t : ed_wf x -> n < 2 ^ 32 ->
  (exists q, xpub_encode_with (xprv_public x) (Public n) = Ok q /\ payload_show q = Ok t) <->
  node_text n (ed_node_of x) (x00 :: ed_public D (be_bytes 32 (n_key (ed_node_of x)))) t.
Proof.
  intros W Hn. rewrite (ed_key_bytes D x W).
  pose (p := {| p_version := Public n; p_meta := xprv_meta x; p_key := x00 :: ed_public D (xprv_key x) |}).
  assert (E : xpub_encode_with (xprv_public x) (Public n) = Ok p) by reflexivity.
  rewrite E.
  assert (PT : payload_show p = Ok t <-> node_text n (ed_node_of x) (x00 :: ed_public D (xprv_key x)) t).
  { apply (payload_text (Public n) p (ed_node_of x) (x00 :: ed_public D (xprv_key x))); [reflexivity..|].
    split; [exact Hn|]. split; [apply W|]. cbn [p p_key length]. f_equal. apply (raw_length D HD). }
  rewrite <- PT. split; [intros (q & [= <-] & T); exact T|eauto].
Qed.

(** ed25519: the same for hardened paths, and each of them leads to exactly one node. *)
Theorem C108_ed25519 U dbg D (HD : ed_laws D) fuel l text pass ptext n t : ucd_std U -> n < 2 ^ 32 ->
  let public := fun s => ed_raw D (ed_verifying D s) in
  ((exists m p (r x : XPrv (Ed25519DalekBackend D)) q,
     from_phrase U (language_of l) text = Ok m /\ hpath_parse ptext = Ok p /\
     new_slip10 dbg (S fuel) (Ed25519DalekBackend D) (to_seed U m pass) = Some (Ok r) /\
     slip10_hardened_path dbg (S fuel) r p = Some (Ok x) /\
     xprv_encode_with x (Private n) = Ok q /\ payload_show q = Ok t) <->
   exists seed p nd, bip39_seed U (file_of l) text pass seed /\ spells_path ptext p /\
     ed25519_node public seed p nd /\ xprv_text n nd t) /\
  ((exists m p (r x : XPrv (Ed25519DalekBackend D)) q,
     from_phrase U (language_of l) text = Ok m /\ hpath_parse ptext = Ok p /\
     new_slip10 dbg (S fuel) (Ed25519DalekBackend D) (to_seed U m pass) = Some (Ok r) /\
     slip10_hardened_path dbg (S fuel) r p = Some (Ok x) /\
     xpub_encode_with (xprv_public x) (Public n) = Ok q /\ payload_show q = Ok t) <->
   exists seed p nd, bip39_seed U (file_of l) text pass seed /\ spells_path ptext p /\
     ed25519_node public seed p nd /\ node_text n nd (x00 :: public (be_bytes 32 (n_key nd))) t) /\
  (forall seed p, Forall (fun i => 2 ^ 31 <= i < 2 ^ 32) p <-> exists nd, ed25519_node public seed p nd) /\
  (forall seed p nd nd', ed25519_node public seed p nd -> ed25519_node public seed p nd' -> nd = nd').
Proof.
  intros HU Hn public.
  assert (HP : forall p, hpath_parse ptext = Ok p <->
     spells_path ptext (hp_inner p) /\ Forall (fun i => 2 ^ 31 <= i < 2 ^ 32) (hp_inner p)).
  { intros p. destruct C26_hardened_types as (_ & _ & _ & _ & H & _). rewrite H. split; intros [A B]; (split; [exact A|]).
    - pose proof (spells_bound _ _ A) as F. clear A. induction B; [constructor|]. inversion F; subst. constructor; auto.
    - eapply Forall_impl; [|exact B]. cbn. lia. }
  assert (TREE := ed_tree_iff D HD dbg fuel).
  assert (GO : forall (E : XPrv (Ed25519DalekBackend D) -> res Error Payload) (T : node -> Prop),
     (forall x, ed_wf x -> (exists q, E x = Ok q /\ payload_show q = Ok t) <-> T (ed_node_of x)) ->
     (exists m p (r x : XPrv (Ed25519DalekBackend D)) q,
        from_phrase U (language_of l) text = Ok m /\ hpath_parse ptext = Ok p /\
        new_slip10 dbg (S fuel) (Ed25519DalekBackend D) (to_seed U m pass) = Some (Ok r) /\
        slip10_hardened_path dbg (S fuel) r p = Some (Ok x) /\ E x = Ok q /\ payload_show q = Ok t) <->
     exists seed p nd, bip39_seed U (file_of l) text pass seed /\ spells_path ptext p /\
       ed25519_node public seed p nd /\ T nd).
  { intros E T ET. split.
    - intros (m & [p] & r & x & q & M & P & R & X & EQ & S). apply HP in P as [P F]. cbn [hp_inner] in P, F.
      assert (NX : exists nd, ed25519_node public (to_seed U m pass) p nd).
      { clear - F. induction p as [|i p IH] using rev_ind.
        - eexists. apply en_master. reflexivity.
        - apply Forall_app in F as [F Fi]. inversion Fi as [|? ? Hi _]; subst. destruct (IH F) as (nd & N).
          eexists. apply en_child; [exact N|exact Hi|reflexivity]. }
      destruct NX as (nd & N). pose proof N as N'. apply TREE in N' as (_ & r' & x' & R' & X' & E' & W).
      rewrite R in R'. apply some_ok in R'. subst r'. rewrite X in X'. apply some_ok in X'. subst x'. subst nd.
      exists (to_seed U m pass), p, (ed_node_of x). split; [apply seed_iff; eauto|]. split; [exact P|].
      split; [exact N|]. apply (ET x W). eauto.
    - intros (seed & p & nd & SD & P & N & TT). apply (seed_iff U l) in SD as (m & M & <-); [|exact HU].
      apply TREE in N as (F & r & x & R & X & <- & W). apply (ET x W) in TT as (q & EQ & S).
      exists m, (mkHP p), r, x, q. split; [exact M|]. split; [apply HP; split; assumption|]. auto. }
  split; [apply (GO (fun x => xprv_encode_with x (Private n)) (fun nd => xprv_text n nd t));
          intros x W; exact (ed_prv_text D x n t W Hn)|].
  split; [apply (GO (fun x => xpub_encode_with (xprv_public x) (Public n))
                    (fun nd => node_text n nd (x00 :: public (be_bytes 32 (n_key nd))) t));
          intros x W; exact (ed_pub_text D HD x n t W Hn)|].
  split.
  - intros seed p. split.
    + intros F. induction p as [|i p IH] using rev_ind.
      * eexists. apply en_master. reflexivity.
      * apply Forall_app in F as [F Fi]. inversion Fi as [|? ? Hi _]; subst. destruct (IH F) as (nd & N).
        eexists. apply en_child; [exact N|exact Hi|reflexivity].
    + intros (nd & N). apply TREE in N. apply N.
  - intros seed p nd nd' N N'. apply TREE in N as (_ & r & x & R & X & <- & _).
    apply TREE in N' as (_ & r' & x' & R' & X' & <- & _).
    rewrite R in R'. apply some_ok in R'. subst r'. rewrite X in X'. apply some_ok in X'. subst x'. reflexivity.
Qed.
Print Assumptions C108_ed25519.

(** ** Importing a text *)
Lemma slip_public_plain fuel b L (HL : ec_laws L) q : forall w y : XPub (backend b L),
  slip10_pub_path fuel w q = Some (Ok y) -> Forall (fun i => i < 2 ^ 31) q.
Proof.
  induction q as [|i q IH]; intros w y Y; [constructor|]. unfold slip10_pub_path in Y. cbn [path_loop] in Y.
  destruct (slip10_pub_child fuel w i) as [[z|e|]|] eqn:C; try discriminate.
  constructor; [|exact (IH z y Y)]. unfold slip10_pub_child in C. rewrite hardened_eq in C.
  destruct (2 ^ 31 <=? i) eqn:Hi; [discriminate|]. lia.
Qed.
Lemma slip_commute_ok L (HL : ec_laws L) b fuel q (x : XPrv (backend b L)) y : xprv_wf x -> Forall (fun i => i < 2 ^ 31) q ->
  slip10_pub_path fuel (xprv_public x) q = Some (Ok y) <->
  exists z, slip10_prv_path fuel x q = Some (Ok z) /\ y = xprv_public z.
Proof.
  intros W F. pose proof (C48_slip10_neuter_commutes b L HL fuel q x W F) as PC.
  destruct (slip10_prv_path fuel x q) as [[z|e|]|]; try contradiction; rewrite PC.
  - split; [intros E; apply some_ok in E; eauto|intros (z' & E & ->); apply some_ok in E; subst z'; reflexivity].
  - split; [discriminate|intros (? & ? & _); discriminate].
Qed.

(** As C107 for the holder of a text: the private text of a node gives exactly the texts of
    the nodes below it, the public text exactly the public texts of those reached by
    non-hardened paths. *)
Theorem C108_import dbg b L (HL : ec_laws L) seed p nd n0 t0 ptext n t :
  let zero := match b with Secp256k1Ffi => true | _ => false end in
  slip10_node L (curve_key b) zero seed p nd -> n < 2 ^ 32 ->
  (In n0 known_private -> xprv_text n0 nd t0 ->
   (exists fuel q (w y : XPrv (backend b L)) pl,
      xprv_parse dbg (backend b L) t0 = Ok w /\ path_parse ptext = Ok q /\ slip10_prv_path fuel w q = Some (Ok y) /\
      xprv_encode_with y (Private n) = Ok pl /\ payload_show pl = Ok t) <->
   exists q nd', spells_path ptext q /\ slip10_node L (curve_key b) zero seed (p ++ q) nd' /\ xprv_text n nd' t) /\
  (In n0 known_public -> xpub_text L n0 nd t0 ->
   (exists fuel q (w y : XPub (backend b L)) pl,
      xpub_parse dbg (backend b L) t0 = Ok w /\ path_parse ptext = Ok q /\ slip10_pub_path fuel w q = Some (Ok y) /\
      xpub_encode_with y (Public n) = Ok pl /\ payload_show pl = Ok t) <->
   exists q nd', spells_path ptext q /\ Forall (fun i => i < 2 ^ 31) q /\
     slip10_node L (curve_key b) zero seed (p ++ q) nd' /\ xpub_text L n nd' t).
Proof.
  intros zero N Hn. apply (slip_tree_iff L HL dbg) in N as (F & fuel & r & x & R & D & <-).
  destruct (slip10_reachable_wf dbg b L HL fuel seed p r x F R D) as [W DR].
  assert (APP : forall fuel (x : XPrv (backend b L)) p q, slip10_prv_path fuel x (p ++ q) =
     match slip10_prv_path fuel x p with Some (Ok y) => slip10_prv_path fuel y q | o => o end).
  { intros g. apply (C39_path_composition dbg (backend b L) g). }
  (* keys below [x] and nodes below [p] *)
  assert (DOWN : forall q nd', Forall (fun i => i < 2 ^ 32) q ->
     slip10_node L (curve_key b) zero seed (p ++ q) nd' <->
     exists g y, slip10_prv_path g x q = Some (Ok y) /\ xprv_wf y /\ node_of y = nd').
  { intros q nd' Fq. assert (FQ : Forall (fun i => i < 2 ^ 32) (p ++ q)) by (apply Forall_app; split; assumption).
    split.
    - intros N. apply (slip_tree_iff L HL dbg) in N as (_ & g & r' & y & R' & Y & <-).
      assert (RR : r' = r).
      { apply some_ok. rewrite <- (master_more L HL dbg b seed g (Nat.max g fuel) _ ltac:(lia) R').
        exact (master_more L HL dbg b seed fuel (Nat.max g fuel) _ ltac:(lia) R). }
      subst r'. pose proof (proj1 (slip10_reachable_wf dbg b L HL g seed (p ++ q) r y FQ R' Y)) as WY.
      rewrite APP in Y. destruct (slip10_prv_path g r p) as [[z|e|]|] eqn:Z; try discriminate.
      assert (ZX : z = x).
      { apply some_ok. rewrite <- (path_more L HL b p r g (Nat.max g fuel) _ (new_wf L HL dbg b seed g r R') F ltac:(lia) Z).
        exact (path_more L HL b p r fuel (Nat.max g fuel) _ (new_wf L HL dbg b seed g r R') F ltac:(lia) D). }
      subst z. exists g, y. auto.
    - intros (g & y & Y & WY & <-). apply (slip_tree_iff L HL dbg). split; [exact FQ|].
      exists (Nat.max g fuel), r, y. split; [exact (master_more L HL dbg b seed fuel (Nat.max g fuel) _ ltac:(lia) R)|].
      split; [|reflexivity]. rewrite APP.
      rewrite (path_more L HL b p r fuel (Nat.max g fuel) _ (new_wf L HL dbg b seed fuel r R) F ltac:(lia) D).
      exact (path_more L HL b q x g (Nat.max g fuel) _ W Fq ltac:(lia) Y). }
  assert (WY : forall g q (y : XPrv (backend b L)), Forall (fun i => i < 2 ^ 32) q -> slip10_prv_path g x q = Some (Ok y) -> xprv_wf y).
  { clear - HL W. intros g q y Fq. revert x W. induction Fq as [|i q Hi Fq IH]; intros x W Y.
    - apply some_ok in Y. subst y. exact W.
    - unfold slip10_prv_path in Y. cbn [path_loop] in Y.
      destruct (slip10_prv_child g x i) as [[z|e|]|] eqn:C; try discriminate.
      exact (IH z (schild_wf L HL b x z i g W Hi C) Y). }
  split; intros K T0.
  - destruct (proj2 known_facts n0 K) as [B0 K0].
    apply (prv_text L HL) in T0 as (q0 & E0 & T0); [|exact W|exact B0].
    rewrite (prv_encode_eq L) in E0 by reflexivity. injection E0 as <-.
    destruct (prv_roundtrip L HL dbg b x (Private n0) W DR B0 eq_refl K0) as (t0' & T0' & P0).
    assert (Q0 := eq_trans (eq_sym T0) T0'). injection Q0 as <-. rewrite P0. split.
    + intros (g & q & w & y & pl & [= <-] & Q & Y & E & T). apply (proj1 (C24_path_grammar ptext)) in Q.
      pose proof (spells_bound _ _ Q) as Fq. exists q, (node_of y). split; [exact Q|].
      split; [apply DOWN; [exact Fq|]; exists g, y; split; [exact Y|]; split; [exact (WY g q y Fq Y)|reflexivity]|].
      apply (prv_text L HL); [exact (WY g q y Fq Y)|exact Hn|eauto].
    + intros (q & nd' & Q & N & T). pose proof (spells_bound _ _ Q) as Fq. apply (DOWN q nd' Fq) in N as (g & y & Y & Wy & <-).
      apply (prv_text L HL) in T as (pl & E & T); [|exact Wy|exact Hn].
      exists g, q, x, y, pl. split; [reflexivity|]. split; [apply C24_path_grammar; exact Q|]. auto.
  - destruct (proj1 known_facts n0 K) as [B0 K0].
    apply (pub_text L HL b) in T0 as (q0 & E0 & T0); [|exact W|exact B0].
    rewrite (pub_encode_eq L) in E0 by reflexivity. injection E0 as <-.
    destruct (pub_roundtrip L HL dbg b (xprv_public x) (Public n0) (xprv_public_wf L HL b x W) DR B0 eq_refl K0)
      as (t0' & T0' & P0).
    assert (Q0 := eq_trans (eq_sym T0) T0'). injection Q0 as <-. rewrite P0. split.
    + intros (g & q & w & y & pl & [= <-] & Q & Y & E & T). apply (proj1 (C24_path_grammar ptext)) in Q.
      pose proof (spells_bound _ _ Q) as Fq. pose proof (slip_public_plain g b L HL q _ _ Y) as NH.
      apply (slip_commute_ok L HL b g q x y W NH) in Y as (z & Z & ->).
      exists q, (node_of z). split; [exact Q|]. split; [exact NH|].
      split; [apply DOWN; [exact Fq|]; exists g, z; split; [exact Z|]; split; [exact (WY g q z Fq Z)|reflexivity]|].
      apply (pub_text L HL b); [exact (WY g q z Fq Z)|exact Hn|eauto].
    + intros (q & nd' & Q & NH & N & T). pose proof (spells_bound _ _ Q) as Fq.
      apply (DOWN q nd' Fq) in N as (g & z & Z & Wz & <-).
      apply (pub_text L HL b) in T as (pl & E & T); [|exact Wz|exact Hn].
      exists g, q, (xprv_public x), (xprv_public z), pl. split; [reflexivity|].
      split; [apply C24_path_grammar; exact Q|]. split; [apply (slip_commute_ok L HL b g q x _ W NH); eauto|]. auto.
Qed.
Print Assumptions C108_import.

(** Every BIP-0032 node is the SLIP-0010 node at the same path. *)
Theorem C108_extends_bip32 L secret zero seed p nd :
  bip32_node L secret zero seed p nd -> slip10_node L secret zero seed p nd.
Proof.
  intros H. induction H as [I E V|p nd i I t k H IH Hi E Et Ht Hz Ek NZ].
  - apply sn_master. rewrite <- E. apply fg_now. exact V.
  - subst k t. apply sn_child; [exact IH|exact Hi|]. rewrite <- E. apply fg_now. auto.
Qed.
Print Assumptions C108_extends_bip32.

Lemma slip_reach_ok dbg b L fuel seed p :
  match new_slip10 dbg fuel (backend b L) seed with
  | Some (Ok r) => match slip10_prv_path fuel r p with Some (Ok _) => true | _ => false end
  | _ => false end = true ->
  exists r x : XPrv (backend b L), new_slip10 dbg fuel (backend b L) seed = Some (Ok r) /\
    slip10_prv_path fuel r p = Some (Ok x).
Proof.
  destruct (new_slip10 dbg fuel (backend b L) seed) as [[r|e|]|]; try discriminate.
  destruct (slip10_prv_path fuel r p) as [[x|e|]|] eqn:E; try discriminate. eauto.
Qed.
Lemma ex_slip_reach : exists r x : XPrv (backend K256 HalfCyclic),
  new_slip10 true 20 (backend K256 HalfCyclic) ex_seed = Some (Ok r) /\ slip10_prv_path 20 r ex_path = Some (Ok x).
Proof. apply slip_reach_ok. vm_cast_no_check (eq_refl true). Qed.
Lemma ex_bip_fails : match xprv_new true (backend K256 HalfCyclic) ex_seed with
  | Ok r => negb (is_ok (xprv_derive_path true r ex_path)) | _ => true end = true.
Proof. vm_cast_no_check (eq_refl true). Qed.

(** Over a group of order 2^255, where about half of the values are unusable, the seed 00..0f
    has a SLIP-0010 node at 0'/1/2147483647 but no BIP-0032 node. *)
Example C108_case : ec_laws HalfCyclic /\
  (exists nd, slip10_node HalfCyclic (bytes_of "Bitcoin seed") false ex_seed ex_path nd) /\
  (forall nd, ~ bip32_node HalfCyclic (bytes_of "Bitcoin seed") false ex_seed ex_path nd).
Proof.
  assert (HL : ec_laws HalfCyclic) by apply cyclic_of_laws. split; [exact HL|]. split.
  - destruct ex_slip_reach as (r & x & R & X). exists (node_of x).
    apply (slip_tree_iff HalfCyclic HL true K256). split; [repeat constructor|]. exists 20%nat, r, x. auto.
  - intros nd H. pose proof ex_bip_fails as NO. revert H NO. generalize ex_seed. intros seed H NO.
    apply (tree_iff HalfCyclic HL true K256) in H as (_ & r & x & R & X & _).
    rewrite R in NO. rewrite X in NO. discriminate.
Qed.
