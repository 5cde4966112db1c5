(** Property theorem about both crates together: from a typed phrase, passphrase and path
    to the text of an extended key, and from the text of an extended public key to the
    texts of its descendants (C107). *)
From Verif Require Import Base Str Sha2 Ripemd Unicode UnicodeTables UnicodeProofs Language39 Mnemonic39
  Builtin39 BuildScript39 Spec39 QueueSpec39 LangSpec39 LangProofs MnemonicProofs ExtraProofs39 Props39
  Error32 Path32 PathSpec32 PathProofs32 Version32 Meta32 Base58Spec Base58Proofs Payload32 PayloadSpec32
  PayloadProofs32 Curve32 XKey32 XKeySpec32 XKeyProofs32 Cyclic32 Props32 Props32k.

(** ** The standards *)
(** BIP-0039: [seed] is the seed of the phrase typed as [text], whose words are lines of the
    word-list file [file], with the passphrase typed as [pass]. *)
Definition bip39_seed (U : ucd) (file : list byte) (text pass : str) (seed : list byte) : Prop :=
  exists list ws idxs e,
    wordlist_file file list /\ words_of (nfkd U text) ws /\ In (length ws) [12; 15; 18; 21; 24]%nat /\
    Forall2 (fun w i => nth_error list (N.to_nat i) = Some w) ws idxs /\
    index_bits idxs = bytes_bits e ++ firstn (length e * 8 / 32) (bytes_bits (sha256 e)) /\
    (3 * length e = 4 * length ws)%nat /\
    is_pbkdf2_block (hmac_sha512 (utf8 (join [32] ws))) (utf8 (lit "mnemonic" ++ nfkd U pass)) 2048 seed.

(** A node of the BIP-0032 tree. *)
Record node : Type := Node {
  n_depth : N; n_parent : list byte; n_number : N; n_chain : list byte; n_key : N }.

(** BIP-0032: [nd] is the node at path [p] below [seed], on the curve [L] with the text
    [secret] as the HMAC key. The depth stops at 255. BIP-0032 says nothing about a tweak of
    zero; [zero] says whether it is used like any other. *)
Inductive bip32_node (L : ECLib) (secret : list byte) (zero : bool) (seed : list byte) : list N -> node -> Prop :=
| bn_master I : I = hmac_sha512 secret seed -> 0 < be_val (firstn 32 I) < order L ->
    bip32_node L secret zero seed [] (Node 0 [x00; x00; x00; x00] 0 (skipn 32 I) (be_val (firstn 32 I)))
| bn_child p nd i I t k :
    bip32_node L secret zero seed p nd -> i < 2 ^ 32 ->
    I = hmac_sha512 (n_chain nd)
          ((if 2 ^ 31 <=? i then x00 :: be_bytes 32 (n_key nd)
            else compress L (pmul L (n_key nd) (gen L))) ++ be_bytes 4 i) ->
    t = be_val (firstn 32 I) -> t < order L -> (t = 0 -> zero = true) ->
    k = (t + n_key nd) mod order L -> k <> 0 ->
    bip32_node L secret zero seed (p ++ [i])
      (Node (N.min 255 (n_depth nd + 1))
         (firstn 4 (ripemd160 (sha256 (compress L (pmul L (n_key nd) (gen L)))))) i (skipn 32 I) k).

(** BIP-0032, "Serialization format": [t] is the text of the extended private or public key of
    [nd] with version number [v]. *)
Definition node_text (v : N) (nd : node) (key : list byte) (t : str) : Prop :=
  is_base58check (be_bytes 4 v ++ be_bytes 1 (n_depth nd) ++ n_parent nd ++ be_bytes 4 (n_number nd) ++
    n_chain nd ++ key) t.
Definition xprv_text (v : N) (nd : node) (t : str) : Prop :=
  node_text v nd (x00 :: be_bytes 32 (n_key nd)) t.
Definition xpub_text (L : ECLib) (v : N) (nd : node) (t : str) : Prop :=
  node_text v nd (compress L (pmul L (n_key nd) (gen L))) t.

(** ** Lemmas *)
Definition ffi (b : Library) : bool := match b with Secp256k1Ffi => true | _ => false end.
Lemma ffi_iff b : ffi b = true <-> b = Secp256k1Ffi.
Proof. destruct b; cbn; split; congruence. Qed.

Lemma pbkdf2_unique prf salt c a a' : is_pbkdf2_block prf salt c a -> is_pbkdf2_block prf salt c a' -> a = a'.
Proof.
  intros [L H] [L' H']. apply (nth_ext _ _ x00 x00); [congruence|]. intros j Hj. rewrite L in Hj.
  pose proof (H j Hj) as A. rewrite <- (H' j Hj) in A. rewrite <- (n2b_b2n (nth j a x00)), A. apply n2b_b2n.
Qed.

Lemma wordlist_words l list : wordlist_file (file_of l) list -> list = lang_words (language_of l).
Proof.
  intros H.
  assert (G : generate_one (file_of l) =
     Ok {| wl_words := list; wl_index := combine list (map N.of_nat (seq 0 (length list))) |}).
  { apply C19_build_script. exists list. auto. }
  rewrite generated in G. rewrite language_of_wordlist. cbn [wordlist_language lang_words].
  injection G as ->. reflexivity.
Qed.
Lemma wordlist_words_ok l : wordlist_file (file_of l) (lang_words (language_of l)).
Proof.
  destruct (proj1 (C19_build_script (file_of l) (wordlist_of l)) (generated l)) as (ws & H & E & _).
  rewrite language_of_wordlist. cbn [wordlist_language lang_words]. rewrite E. exact H.
Qed.

Lemma Forall2_weaken {A B : Type} (P Q : A -> B -> Prop) (l : list A) (m : list B) :
  (forall a b, P a b -> Q a b) -> Forall2 P l m -> Forall2 Q l m.
Proof. intros H F. induction F; constructor; auto. Qed.

Lemma seed_iff U l text pass seed : ucd_std U ->
  (exists m, from_phrase U (language_of l) text = Ok m /\ to_seed U m pass = seed) <->
  bip39_seed U (file_of l) text pass seed.
Proof.
  intros HU. pose proof (builtin_contract U l HU) as LC. split.
  - intros (m & E & <-). rewrite from_phrase_nfkd in E by apply HU.
    destruct (C05_outcome_unique (language_of l) (nfkd U text)) as (r & P & _).
    pose proof (proj1 (C05_acceptance _ _ _) P) as E'. rewrite E in E'.
    destruct r as [n|w| |e ph]; try discriminate. cbn [parsed] in E'. injection E' as ->.
    inversion P as [| | |ws idxs e' W C F B LE]; subst.
    exists (lang_words (language_of l)), ws, idxs, e. split; [apply wordlist_words_ok|]. split; [exact W|].
    split; [exact C|]. split.
    { eapply Forall2_weaken; [|exact F]. intros w i Q. apply (lc_index_of _ _ LC). exact Q. }
    split; [exact B|]. split; [exact LE|].
    apply (C14_seed U {| m_phrase := join [32] ws; m_entropy := e |} pass). apply HU.
  - intros (list & ws & idxs & e & WL & W & C & F & B & LE & PB). apply wordlist_words in WL. subst list.
    exists {| m_phrase := join [32] ws; m_entropy := e |}. split.
    + rewrite from_phrase_nfkd by apply HU.
      apply (proj1 (C05_acceptance (language_of l) (nfkd U text) (POk e (join [32] ws)))).
      apply ps_ok with idxs; try assumption.
      eapply Forall2_weaken; [|exact F]. intros w i Q. apply (lc_index_of _ _ LC). exact Q.
    + eapply pbkdf2_unique; [|exact PB].
      apply (C14_seed U {| m_phrase := join [32] ws; m_entropy := e |} pass). apply HU.
Qed.

Definition node_of {b : Library} {L : ECLib} (x : XPrv (backend b L)) : node :=
  Node (b2n (m_depth (xprv_meta x))) (m_fingerprint (xprv_meta x)) (m_child (xprv_meta x))
    (m_chain (xprv_meta x)) (xprv_key x).
Lemma node_of_inj b L (x y : XPrv (backend b L)) : node_of x = node_of y -> x = y.
Proof.
  destruct x as [[d f c h] k], y as [[d' f' c' h'] k']. unfold node_of. cbn [xprv_meta xprv_key m_depth m_fingerprint m_child m_chain].
  intros [= D -> -> -> ->]. f_equal. f_equal. rewrite <- (n2b_b2n d), D. apply n2b_b2n.
Qed.

Lemma hmac_key_eq b L : hmac_key (backend b L) = curve_key b.
Proof. destruct b; reflexivity. Qed.

Lemma master_node L (HL : ec_laws L) dbg b seed (r : XPrv (backend b L)) :
  xprv_new dbg (backend b L) seed = Ok r <->
  exists I, I = hmac_sha512 (curve_key b) seed /\ 0 < be_val (firstn 32 I) < order L /\
    node_of r = Node 0 [x00; x00; x00; x00] 0 (skipn 32 I) (be_val (firstn 32 I)).
Proof.
  rewrite xprv_new_eq. cbv zeta. rewrite (hmac_key_eq b L). split.
  - destruct (prv_from_bytes _ _) as [s|k] eqn:E; [discriminate|]. intros [= <-].
    apply (prv_from_iff L) in E as [-> V]; [|apply left_length].
    exists (hmac_sha512 (curve_key b) seed). split; [reflexivity|]. split; [exact V|]. reflexivity.
  - intros (I & -> & V & E).
    assert (P : prv_from_bytes (backend b L) (firstn 32 (hmac_sha512 (curve_key b) seed)) =
      inr (be_val (firstn 32 (hmac_sha512 (curve_key b) seed)))).
    { apply (prv_from_iff L); [apply left_length|]. split; [reflexivity|exact V]. }
    rewrite P. f_equal. apply node_of_inj. rewrite E. reflexivity.
Qed.

Lemma child_node L (HL : ec_laws L) dbg b (x y : XPrv (backend b L)) i : 
  xprv_derive_child dbg x i = Ok y <->
  exists I t k,
    I = hmac_sha512 (n_chain (node_of x))
          ((if 2 ^ 31 <=? i then x00 :: be_bytes 32 (n_key (node_of x))
            else compress L (pmul L (n_key (node_of x)) (gen L))) ++ be_bytes 4 i) /\
    t = be_val (firstn 32 I) /\ t < order L /\ (t = 0 -> ffi b = true) /\
    k = (t + n_key (node_of x)) mod order L /\ k <> 0 /\
    node_of y = Node (N.min 255 (n_depth (node_of x) + 1))
         (firstn 4 (ripemd160 (sha256 (compress L (pmul L (n_key (node_of x)) (gen L)))))) i (skipn 32 I) k.
Proof.
  cbn [node_of n_chain n_key n_depth].
  assert (GD : gen_data (backend b L) (xprv_key x) i =
     (if 2 ^ 31 <=? i then x00 :: be_bytes 32 (xprv_key x)
      else compress L (pmul L (xprv_key x) (gen L))) ++ be_bytes 4 i).
  { unfold gen_data. destruct (2 ^ 31 <=? i); reflexivity. }
  rewrite derive_child_eq by apply be_bytes_length. cbv zeta. rewrite GD.
  set (I := hmac_sha512 _ _). split.
  - destruct (prv_add_tweak _ _ _) as [s|k] eqn:E; [discriminate|]. intros [= <-].
    apply (prv_tweak_iff L HL) in E as ([A1 A2] & -> & NZ).
    exists I, (be_val (firstn 32 I)), ((be_val (firstn 32 I) + xprv_key x) mod order L).
    split; [reflexivity|]. split; [reflexivity|]. split; [exact A1|]. split; [intros Z; apply ffi_iff; auto|].
    split; [reflexivity|]. split; [exact NZ|].
    unfold node_of. cbn [xprv_meta xprv_key child_meta m_depth m_fingerprint m_child m_chain].
    rewrite sat_succ_val. reflexivity.
  - intros (I' & t & k & -> & -> & A1 & A2 & -> & NZ & E).
    assert (P : prv_add_tweak (backend b L) (xprv_key x) (firstn 32 I) =
      inr ((be_val (firstn 32 I) + xprv_key x) mod order L)).
    { apply (prv_tweak_iff L HL). split; [|auto]. split; [exact A1|]. intros Z. apply ffi_iff. auto. }
    rewrite P. f_equal. apply node_of_inj. rewrite E. unfold node_of.
    cbn [xprv_meta xprv_key child_meta m_depth m_fingerprint m_child m_chain].
    rewrite sat_succ_val. reflexivity.
Qed.

Lemma tree_iff L (HL : ec_laws L) dbg b seed p nd :
  bip32_node L (curve_key b) (ffi b) seed p nd <->
  Forall (fun i => i < 2 ^ 32) p /\
  exists r x : XPrv (backend b L), xprv_new dbg (backend b L) seed = Ok r /\
    xprv_derive_path dbg r p = Ok x /\ node_of x = nd.
Proof.
  assert (CP := C39_path_composition dbg (backend b L) 0). split.
  - intros H. induction H as [I E V|p nd i I t k H IH Hi E Et Ht Hz Ek NZ].
    + split; [constructor|].
      set (k := be_val (firstn 32 I)) in *.
      exists (@mkXPrv (backend b L) (master_meta (skipn 32 I)) k), (@mkXPrv (backend b L) (master_meta (skipn 32 I)) k).
      split; [|split; reflexivity]. apply (master_node L HL). exists I. split; [exact E|]. split; [exact V|]. reflexivity.
    + destruct IH as (F & r & x & R & D & <-). split; [apply Forall_app; split; [exact F|constructor; auto]|].
      exists r, (@mkXPrv (backend b L) (child_meta (xprv_meta x) (compress L (pmul L (xprv_key x) (gen L))) i (skipn 32 I)) k).
      set (y := mkXPrv _ _).
      assert (N : node_of y = Node (N.min 255 (n_depth (node_of x) + 1))
         (firstn 4 (ripemd160 (sha256 (compress L (pmul L (n_key (node_of x)) (gen L)))))) i (skipn 32 I) k).
      { unfold y, node_of. cbn [xprv_meta xprv_key child_meta m_depth m_fingerprint m_child m_chain n_depth n_key].
        rewrite sat_succ_val. reflexivity. }
      split; [exact R|]. split; [|exact N].
      rewrite (proj1 CP), D. rewrite (proj1 (proj2 (proj2 CP))). apply (child_node L HL).
      exists I, t, k. auto 9.
  - revert nd. induction p as [|i p IH] using rev_ind; intros nd (F & r & x & R & D & <-).
    + rewrite (proj1 (proj2 CP)) in D. injection D as <-. apply (master_node L HL) in R as (I & E & V & ->).
      apply bn_master; assumption.
    + apply Forall_app in F as [F Fi]. inversion Fi as [|? ? Hi _]; subst.
      rewrite (proj1 CP) in D. destruct (xprv_derive_path dbg r p) as [z|e|] eqn:Z; try discriminate.
      rewrite (proj1 (proj2 (proj2 CP))) in D. apply (child_node L HL) in D as (I & t & k & E & Et & Ht & Hz & Ek & NZ & ->).
      eapply bn_child; try eassumption. apply IH. split; [exact F|]. exists r, z. auto.
Qed.

Lemma spells_bound s p : spells_path s p -> Forall (fun i => i < 2 ^ 32) p.
Proof.
  intros [[_ ->]|(pre & comps & _ & _ & _ & F)]; [constructor|].
  induction F as [|c i cs p (j & h & (_ & _ & _ & _ & _ & _ & _ & _ & B & _) & ->) F IH]; constructor; [|exact IH].
  destruct h; lia.
Qed.

Lemma payload_text v (p : Payload) nd key t : p_version p = v ->
  n_depth nd = b2n (m_depth (p_meta p)) -> n_parent nd = m_fingerprint (p_meta p) ->
  n_number nd = m_child (p_meta p) -> n_chain nd = m_chain (p_meta p) -> key = p_key p -> payload_wf p ->
  payload_show p = Ok t <-> node_text (as_u32 v) nd key t.
Proof.
  intros <- D F C H -> W. destruct (payload_show_ok p W) as (s & Hs & B). rewrite Hs.
  unfold node_text. rewrite D, F, C, H.
  replace (be_bytes 1 (b2n (m_depth (p_meta p)))) with [m_depth (p_meta p)]
    by (cbn [be_bytes]; cbn; rewrite ?n2b_b2n; reflexivity).
  split; [intros [= <-]; exact B|]. intros B'. f_equal. eapply base58_fun; eassumption.
Qed.
Lemma prv_text L (HL : ec_laws L) b (x : XPrv (backend b L)) n t : xprv_wf x -> n < 2 ^ 32 ->
  (exists q, xprv_encode_with x (Private n) = Ok q /\ payload_show q = Ok t) <-> xprv_text n (node_of x) t.
Proof.
  intros W Hn. rewrite (prv_encode_eq L) by reflexivity.
  assert (PT : payload_show (prv_payload L x (Private n)) = Ok t <-> xprv_text n (node_of x) t).
  { apply (payload_text (Private n) (prv_payload L x (Private n)) (node_of x) (x00 :: be_bytes 32 (n_key (node_of x))));
      [reflexivity..|]. apply (prv_payload_wf L); assumption. }
  rewrite <- PT. split; [intros (q & [= <-] & E); exact E|eauto].
Qed.
Lemma pub_text L (HL : ec_laws L) b (x : XPrv (backend b L)) n t : xprv_wf x -> n < 2 ^ 32 ->
  (exists q, xpub_encode_with (xprv_public x) (Public n) = Ok q /\ payload_show q = Ok t) <->
  xpub_text L n (node_of x) t.
Proof.
  intros W Hn. rewrite (pub_encode_eq L) by reflexivity.
  assert (PT : payload_show (pub_payload L (xprv_public x) (Public n)) = Ok t <-> xpub_text L n (node_of x) t).
  { apply (payload_text (Public n) (pub_payload L (xprv_public x) (Public n)) (node_of x)
       (compress L (pmul L (n_key (node_of x)) (gen L)))); [reflexivity..|]. apply (pub_payload_wf L HL); [|exact Hn].
    apply (xprv_public_wf L HL). exact W. }
  rewrite <- PT. split; [intros (q & [= <-] & E); exact E|eauto].
Qed.

Lemma public_path_plain dbg (C : TweakCurve) q : forall w y : XPub C, xpub_derive_path dbg w q = Ok y ->
  Forall (fun i => i < 2 ^ 31) q.
Proof.
  induction q as [|i q IH]; intros w y Y; [constructor|].
  cbn [xpub_derive_path] in Y. rewrite derive_pub_eq in Y.
  destruct (2 ^ 31 <=? i) eqn:Hi; [discriminate|]. constructor; [lia|].
  cbv zeta in Y. destruct (pub_add_tweak _ _ _); [discriminate|]. cbn [bind] in Y. exact (IH _ _ Y).
Qed.

Lemma commute_ok L (HL : ec_laws L) dbg b q (x : XPrv (backend b L)) y : Forall (fun i => i < 2 ^ 31) q ->
  xpub_derive_path dbg (xprv_public x) q = Ok y <-> exists z, xprv_derive_path dbg x q = Ok z /\ y = xprv_public z.
Proof.
  intros F. pose proof (path_commute L HL dbg b q x F) as PC.
  destruct (xprv_derive_path dbg x q) as [z|e|]; destruct (xpub_derive_path dbg (xprv_public x) q) as [w|e'|];
    try contradiction.
  - subst w. split; [intros [= <-]; eauto|intros (z' & [= <-] & ->); reflexivity].
  - split; [discriminate|intros (? & ? & _); discriminate].
Qed.

(** ** C107 *)
(** A phrase, a passphrase and a path as typed give the private text [t] exactly if the
    standards do. *)
Theorem C107_private U dbg b L (HL : ec_laws L) l text pass ptext n t : ucd_std U -> n < 2 ^ 32 ->
  (exists m p (r x : XPrv (backend b L)) q,
     from_phrase U (language_of l) text = Ok m /\ path_parse ptext = Ok p /\
     xprv_new dbg (backend b L) (to_seed U m pass) = Ok r /\ xprv_derive_path dbg r p = Ok x /\
     xprv_encode_with x (Private n) = Ok q /\ payload_show q = Ok t) <->
  exists seed p nd, bip39_seed U (file_of l) text pass seed /\ spells_path ptext p /\
    bip32_node L (curve_key b) (match b with Secp256k1Ffi => true | _ => false end) seed p nd /\ xprv_text n nd t.
Proof.
  intros HU Hn. split.
  - intros (m & p & r & x & q & M & P & R & D & E & T).
    apply (proj1 (C24_path_grammar ptext)) in P. pose proof (spells_bound _ _ P) as F.
    exists (to_seed U m pass), p, (node_of x). split; [apply seed_iff; eauto|]. split; [exact P|].
    split; [apply (tree_iff L HL dbg); split; [exact F|]; eauto|].
    apply (prv_text L HL); [exact (proj1 (reachable_wf L HL dbg b _ p r x F R D))|exact Hn|eauto].
  - intros (seed & p & nd & SD & P & N & T). apply (seed_iff U l) in SD as (m & M & <-); [|exact HU].
    apply (tree_iff L HL dbg) in N as (F & r & x & R & D & <-).
    apply (prv_text L HL) in T as (q & E & T);
      [|exact (proj1 (reachable_wf L HL dbg b _ p r x F R D))|exact Hn].
    exists m, p, r, x, q. split; [exact M|]. split; [apply C24_path_grammar; exact P|]. auto.
Qed.
Print Assumptions C107_private.

Theorem C107_public U dbg b L (HL : ec_laws L) l text pass ptext n t : ucd_std U -> n < 2 ^ 32 ->
  (exists m p (r x : XPrv (backend b L)) q,
     from_phrase U (language_of l) text = Ok m /\ path_parse ptext = Ok p /\
     xprv_new dbg (backend b L) (to_seed U m pass) = Ok r /\ xprv_derive_path dbg r p = Ok x /\
     xpub_encode_with (xprv_public x) (Public n) = Ok q /\ payload_show q = Ok t) <->
  exists seed p nd, bip39_seed U (file_of l) text pass seed /\ spells_path ptext p /\
    bip32_node L (curve_key b) (match b with Secp256k1Ffi => true | _ => false end) seed p nd /\ xpub_text L n nd t.
Proof.
  intros HU Hn. split.
  - intros (m & p & r & x & q & M & P & R & D & E & T).
    apply (proj1 (C24_path_grammar ptext)) in P. pose proof (spells_bound _ _ P) as F.
    exists (to_seed U m pass), p, (node_of x). split; [apply seed_iff; eauto|]. split; [exact P|].
    split; [apply (tree_iff L HL dbg); split; [exact F|]; eauto|].
    apply (pub_text L HL b); [exact (proj1 (reachable_wf L HL dbg b _ p r x F R D))|exact Hn|eauto].
  - intros (seed & p & nd & SD & P & N & T). apply (seed_iff U l) in SD as (m & M & <-); [|exact HU].
    apply (tree_iff L HL dbg) in N as (F & r & x & R & D & <-).
    apply (pub_text L HL b) in T as (q & E & T);
      [|exact (proj1 (reachable_wf L HL dbg b _ p r x F R D))|exact Hn].
    exists m, p, r, x, q. split; [exact M|]. split; [apply C24_path_grammar; exact P|]. auto.
Qed.
Print Assumptions C107_public.

Lemma known_facts : (forall n, In n known_public -> n < 2 ^ 32 /\ ~ In n known_private) /\
  (forall n, In n known_private -> n < 2 ^ 32 /\ ~ In n known_public).
Proof.
  split; intros n H; cbn in H; repeat destruct H as [<-|H]; try contradiction;
    (split; [reflexivity|]); intros Q; cbn in Q; repeat destruct Q as [Q|Q]; discriminate || contradiction.
Qed.

(** Whoever holds only the private text of a node computes, for every path below it, exactly
    the text of that node of the tree. *)
Theorem C107_private_import dbg b L (HL : ec_laws L) seed p nd n0 t0 ptext n t :
  let zero := match b with Secp256k1Ffi => true | _ => false end in
  bip32_node L (curve_key b) zero seed p nd -> In n0 known_private -> xprv_text n0 nd t0 -> n < 2 ^ 32 ->
  (exists q (w y : XPrv (backend b L)) pl,
     xprv_parse dbg (backend b L) t0 = Ok w /\ path_parse ptext = Ok q /\ xprv_derive_path dbg w q = Ok y /\
     xprv_encode_with y (Private n) = Ok pl /\ payload_show pl = Ok t) <->
  exists q nd', spells_path ptext q /\ bip32_node L (curve_key b) zero seed (p ++ q) nd' /\ xprv_text n nd' t.
Proof.
  intros zero N K T0 Hn. apply (tree_iff L HL dbg) in N as (F & r & x & R & D & <-).
  destruct (proj2 known_facts n0 K) as [B0 K0].
  destruct (reachable_wf L HL dbg b _ p r x F R D) as [W DR].
  apply (prv_text L HL) in T0 as (q0 & E0 & T0); [|exact W|exact B0].
  rewrite (prv_encode_eq L) in E0 by reflexivity. injection E0 as <-.
  destruct (prv_roundtrip L HL dbg b x (Private n0) W DR B0 eq_refl K0) as (t0' & T0' & P0).
  rewrite T0 in T0'. injection T0' as <-. rewrite P0.
  assert (CP := C39_path_composition dbg (backend b L) 0). split.
  - intros (q & w & y & pl & [= <-] & Q & Y & E & T). apply (proj1 (C24_path_grammar ptext)) in Q.
    pose proof (spells_bound _ _ Q) as Fq.
    assert (FQ : Forall (fun i => i < 2 ^ 32) (p ++ q)) by (apply Forall_app; split; assumption).
    assert (DQ : xprv_derive_path dbg r (p ++ q) = Ok y) by (rewrite (proj1 CP), D; exact Y).
    exists q, (node_of y). split; [exact Q|]. split; [apply (tree_iff L HL dbg); split; [exact FQ|]; eauto|].
    apply (prv_text L HL); [exact (proj1 (reachable_wf L HL dbg b _ _ r y FQ R DQ))|exact Hn|eauto].
  - intros (q & nd' & Q & N & T). apply (tree_iff L HL dbg) in N as (FQ & r' & y & R' & DQ & <-).
    rewrite R in R'. injection R' as <-.
    apply (prv_text L HL) in T as (pl & E & T); [|exact (proj1 (reachable_wf L HL dbg b _ _ r y FQ R DQ))|exact Hn].
    rewrite (proj1 CP), D in DQ. exists q, x, y, pl. split; [reflexivity|]. split; [apply C24_path_grammar; exact Q|]. auto.
Qed.
Print Assumptions C107_private_import.

(** Whoever holds only the public text of a node computes exactly the public texts of the
    nodes that non-hardened paths lead to. *)
Theorem C107_public_import dbg b L (HL : ec_laws L) seed p nd n0 t0 ptext n t :
  let zero := match b with Secp256k1Ffi => true | _ => false end in
  bip32_node L (curve_key b) zero seed p nd -> In n0 known_public -> xpub_text L n0 nd t0 -> n < 2 ^ 32 ->
  (exists q (w y : XPub (backend b L)) pl,
     xpub_parse dbg (backend b L) t0 = Ok w /\ path_parse ptext = Ok q /\ xpub_derive_path dbg w q = Ok y /\
     xpub_encode_with y (Public n) = Ok pl /\ payload_show pl = Ok t) <->
  exists q nd', spells_path ptext q /\ Forall (fun i => i < 2 ^ 31) q /\
    bip32_node L (curve_key b) zero seed (p ++ q) nd' /\ xpub_text L n nd' t.
Proof.
  intros zero N K T0 Hn. apply (tree_iff L HL dbg) in N as (F & r & x & R & D & <-).
  destruct (proj1 known_facts n0 K) as [B0 K0].
  destruct (reachable_wf L HL dbg b _ p r x F R D) as [W DR].
  apply (pub_text L HL b) in T0 as (q0 & E0 & T0); [|exact W|exact B0].
  rewrite (pub_encode_eq L) in E0 by reflexivity. injection E0 as <-.
  destruct (pub_roundtrip L HL dbg b (xprv_public x) (Public n0) (xprv_public_wf L HL b x W) DR B0 eq_refl K0)
    as (t0' & T0' & P0).
  assert (Q0 := eq_trans (eq_sym T0) T0'). injection Q0 as <-. rewrite P0.
  assert (CP := C39_path_composition dbg (backend b L) 0). split.
  - intros (q & w & y & pl & [= <-] & Q & Y & E & T). apply (proj1 (C24_path_grammar ptext)) in Q.
    pose proof (spells_bound _ _ Q) as Fq.
    assert (NH : Forall (fun i => i < 2 ^ 31) q).
    { exact (public_path_plain dbg (backend b L) q _ _ Y). }
    apply (commute_ok L HL dbg b q x y NH) in Y as (z & Z & ->).
    assert (FQ : Forall (fun i => i < 2 ^ 32) (p ++ q)) by (apply Forall_app; split; assumption).
    assert (DQ : xprv_derive_path dbg r (p ++ q) = Ok z) by (rewrite (proj1 CP), D; exact Z).
    exists q, (node_of z). split; [exact Q|]. split; [exact NH|].
    split; [apply (tree_iff L HL dbg); split; [exact FQ|]; eauto|].
    apply (pub_text L HL b); [exact (proj1 (reachable_wf L HL dbg b _ _ r z FQ R DQ))|exact Hn|eauto].
  - intros (q & nd' & Q & NH & N & T). apply (tree_iff L HL dbg) in N as (FQ & r' & z & R' & DQ & <-).
    rewrite R in R'. injection R' as <-.
    apply (pub_text L HL b) in T as (pl & E & T); [|exact (proj1 (reachable_wf L HL dbg b _ _ r z FQ R DQ))|exact Hn].
    rewrite (proj1 CP), D in DQ.
    exists q, (xprv_public x), (xprv_public z), pl. split; [reflexivity|].
    split; [apply C24_path_grammar; exact Q|]. split; [apply (commute_ok L HL dbg b q x _ NH); eauto|]. auto.
Qed.
Print Assumptions C107_public_import.

Lemma reach_ok dbg b L seed p :
  match xprv_new dbg (backend b L) seed with Ok r => is_ok (xprv_derive_path dbg r p) | _ => false end = true ->
  exists r x : XPrv (backend b L), xprv_new dbg (backend b L) seed = Ok r /\ xprv_derive_path dbg r p = Ok x.
Proof.
  destruct (xprv_new dbg (backend b L) seed) as [r|e|]; try discriminate.
  destruct (xprv_derive_path dbg r p) as [x|e|] eqn:E; try discriminate. eauto.
Qed.
Definition ex_seed : list byte := map n2b (map N.of_nat (seq 0 16)).
Definition ex_path : list N := [2147483648; 1; 2147483647].
Lemma ex_reach : exists r x : XPrv (backend K256 Cyclic),
  xprv_new true (backend K256 Cyclic) ex_seed = Ok r /\ xprv_derive_path true r ex_path = Ok x.
Proof. apply reach_ok. vm_cast_no_check (eq_refl true). Qed.

(** The published English test phrase has a seed with an empty passphrase, and the seed
    00..0f has, on the model curve, a node at 0'/1/2147483647 with both texts. *)
Example C107_case :
  (exists seed, bip39_seed ucd15 (file_of BEnglish) ex_phrase [] seed) /\
  ec_laws Cyclic /\
  exists nd t t', bip32_node Cyclic (bytes_of "Bitcoin seed") false ex_seed ex_path nd /\ n_depth nd = 3 /\
    xprv_text 0x0488ADE4 nd t /\ xpub_text Cyclic 0x0488B21E nd t' /\ In 0x0488ADE4 known_private /\
    In 0x0488B21E known_public /\ spells_path (lit "m/0h/1/2147483647") ex_path.
Proof.
  split.
  { eexists. apply (seed_iff ucd15 BEnglish); [exact ucd15_std|]. exists ex_mnemonic. split; [|reflexivity].
    exact (proj2 (proj2 (proj2 (proj2 C01_case)))). }
  split; [exact cyclic_laws|].
  destruct ex_reach as (r & x & R1 & R2). revert R1 R2. generalize ex_seed as seed. intros seed R1 R2.
  assert (F : Forall (fun i => i < 2 ^ 32) ex_path) by (repeat constructor).
  destruct (reachable_wf Cyclic cyclic_laws true K256 seed ex_path r x F R1 R2) as [W DR].
  pose proof (proj1 (proj1 (proj2 (proj2 (proj2 (proj2 (C40_derived_metadata true K256 Cyclic cyclic_laws))))) r x ex_path R2)) as D.
  exists (node_of x).
  destruct (prv_roundtrip Cyclic cyclic_laws true K256 x (Private 0x0488ADE4) W DR eq_refl eq_refl
    (proj2 (proj2 known_facts 0x0488ADE4 ltac:(cbn; auto)))) as (t & T & _).
  destruct (pub_roundtrip Cyclic cyclic_laws true K256 (xprv_public x) (Public 0x0488B21E)
    (xprv_public_wf Cyclic cyclic_laws K256 x W) DR eq_refl eq_refl
    (proj2 (proj1 known_facts 0x0488B21E ltac:(cbn; auto)))) as (t' & T' & _).
  exists t, t'. split.
  { apply (tree_iff Cyclic cyclic_laws true K256). split; [exact F|]. exists r, x. auto. }
  split.
  { cbn [node_of n_depth]. rewrite D. apply (master_node Cyclic cyclic_laws) in R1 as (I & _ & _ & N).
    change (b2n (m_depth (xprv_meta r))) with (n_depth (node_of r)). rewrite N. reflexivity. }
  split; [apply (prv_text Cyclic cyclic_laws K256); [exact W|reflexivity|]; rewrite (prv_encode_eq Cyclic) by reflexivity; eauto|].
  split; [apply (pub_text Cyclic cyclic_laws K256); [exact W|reflexivity|]; rewrite (pub_encode_eq Cyclic) by reflexivity; eauto|].
  split; [cbn; auto|]. split; [cbn; auto|]. apply C24_path_grammar. vm_compute. reflexivity.
Qed.
