(** Property theorem about both crates together: what two wallets have in common (C67). *)
From Verif Require Import Base Str Sha2 Utf8Proofs Unicode UnicodeTables UnicodeProofs Language39 Mnemonic39
  Builtin39 Spec39 LangSpec39 LangProofs MnemonicProofs ExtraProofs39 Props39
  Error32 Path32 Version32 Meta32 Payload32 Curve32 XKey32 XKeySpec32 XKeyProofs32 Cyclic32 Props32k Props32x.

(** Characters decompose into Unicode scalar values. *)
Definition ucd_scalar (U : ucd) : Prop :=
  forall c d, ucd_dec U c = Some d -> Forall (fun e => is_scalar e = true) d.
Definition chk_scalar (_ : N) (d : list N) : bool := forallb is_scalar d.
Lemma dec_table_scalar : tall chk_scalar dec_table = true.
Proof. vm_cast_no_check (eq_refl true). Qed.
Lemma ucd15_scalar : ucd_scalar ucd15.
Proof.
  intros c d E. apply (tall_lookup chk_scalar dec_table dec_table_scalar) in E.
  apply Forall_forall. apply forallb_forall. exact E.
Qed.

Lemma nfkd_scalar U s : ucd_scalar U -> Forall (fun c => is_scalar c = true) s ->
  Forall (fun c => is_scalar c = true) (nfkd U s).
Proof.
  intros HU F. apply Forall_forall. intros e He. unfold nfkd in He. apply reorder_in in He as [[]|He].
  apply in_flat_map in He as (c & Hc & He). rewrite Forall_forall in F. specialize (F c Hc).
  unfold decompose in He. destruct (c <=? 0x7F).
  - destruct He as [<-|[]]. exact F.
  - destruct (is_hangul c) eqn:H.
    + apply hangul_parts in He; [|exact H]. unfold is_scalar. 
      apply orb_true_iff. left. apply N.ltb_lt. lia.
    + destruct (ucd_dec U c) as [d|] eqn:D.
      * pose proof (HU c d D) as Q. rewrite Forall_forall in Q. apply Q. exact He.
      * destruct He as [<-|[]]. exact F.
Qed.
Lemma join_scalar ws : Forall (Forall (fun c => is_scalar c = true)) ws ->
  Forall (fun c => is_scalar c = true) (join [32] ws).
Proof.
  intros F. induction F as [|w ws Hw F IH]; [constructor|]. destruct ws as [|v ws]; [cbn; exact Hw|].
  change (join [32] (w :: v :: ws)) with (w ++ [32] ++ join [32] (v :: ws)).
  apply Forall_app. split; [exact Hw|]. apply Forall_app. split; [|exact IH]. constructor; [reflexivity|constructor].
Qed.

(** ** C67 *)
(** The password and the salt that [to_seed] gives to PBKDF2. *)
Definition seed_of (P S : list byte) : list byte := pbkdf2_hmac_sha512 P S 2048 64.
Definition wallet_input (U : ucd) (m : Mnemonic) (pass : str) : list byte * list byte :=
  (utf8 (phrase m), utf8 (lit "mnemonic" ++ nfkd U pass)).

(** C67: two wallets (mnemonic, passphrase, path) have different chain codes unless they are
    the same wallet, or PBKDF2 maps their two inputs to one seed, or the derivations have fed
    HMAC-SHA512 two different inputs with the same right half. *)
Theorem C67_wallet_collision U B dbg b L (HL : ec_laws L) l l' e e' m m' pass pass'
    p p' (r r' x x' : XPrv (backend b L)) :
  ucd_std U -> ucd_scalar U -> valid_build B ->
  legal_entropy_len (length e) -> legal_entropy_len (length e') ->
  from_entropy B (language_of l) e = Ok m -> from_entropy B (language_of l') e' = Ok m' ->
  Forall (fun c => is_scalar c = true) pass -> Forall (fun c => is_scalar c = true) pass' ->
  Forall (fun i => i < 2 ^ 32) p -> Forall (fun i => i < 2 ^ 32) p' ->
  xprv_new dbg (backend b L) (to_seed U m pass) = Ok r -> xprv_derive_path dbg r p = Ok x ->
  xprv_new dbg (backend b L) (to_seed U m' pass') = Ok r' -> xprv_derive_path dbg r' p' = Ok x' ->
  m_chain (xprv_meta x) = m_chain (xprv_meta x') ->
  (phrase m = phrase m' /\ (l = l' -> e = e') /\ nfkd U pass = nfkd U pass' /\ p = p') \/
  (wallet_input U m pass <> wallet_input U m' pass' /\
   seed_of (fst (wallet_input U m pass)) (snd (wallet_input U m pass)) =
   seed_of (fst (wallet_input U m' pass')) (snd (wallet_input U m' pass'))) \/
  exists c d c' d', seed_input dbg b L (to_seed U m pass) p c d /\
    seed_input dbg b L (to_seed U m' pass') p' c' d' /\ half_collision c d c' d'.
Proof.
  intros HU HS HB He He' M M' Fp Fp' F F' R X R' X' E.
  assert (TS : forall m pass, to_seed U m pass = seed_of (fst (wallet_input U m pass)) (snd (wallet_input U m pass))).
  { intros n q. unfold to_seed, to_seed_raw. rewrite salt_normalised by exact (std_ok U HU).
    unfold seed_of, wallet_input, PBKDF2_ROUNDS, PBKDF2_BYTES. cbn [fst snd]. reflexivity. }
  assert (SC : forall l e m, legal_entropy_len (length e) -> from_entropy B (language_of l) e = Ok m ->
    Forall (fun c => is_scalar c = true) (phrase m)).
  { intros k g n Hg Hn. pose proof (builtin_contract U k HU) as LC.
    destruct (from_entropy_words U _ LC B g HB Hg) as (idxs & ws & _ & _ & Fin & _ & Hn').
    rewrite Hn in Hn'. injection Hn' as ->. unfold phrase. cbn [m_phrase]. apply join_scalar.
    eapply Forall_impl; [|exact Fin]. intros w Hw. exact (builtin_scalar k w Hw). }
  destruct (C65_tree_collision dbg b L HL _ _ p p' r r' x x' F F' R X R' X' E) as [[S P]|H]; [|right; right; exact H].
  rewrite !TS in S. destruct (bytes_pair_dec (wallet_input U m pass) (wallet_input U m' pass')) as [Q|Q].
  - left. apply pair_equal_spec in Q as [Q1 Q2].
    apply utf8_inj in Q1; [|exact (SC _ _ _ He M)|exact (SC _ _ _ He' M')].
    apply utf8_inj in Q2; [|apply Forall_app; split; [repeat constructor|apply nfkd_scalar; assumption]..].
    apply app_inv_head in Q2. split; [exact Q1|]. split; [|split; [exact Q2|exact P]].
    intros <-. exact (C12_injective U B l e e' m m' HU HB He He' M M' Q1).
  - right. left. split; [exact Q|exact S].
Qed.
Print Assumptions C67_wallet_collision.

(** The seed of the first Japanese test vector (VectorSeed39 checks that [to_seed] gives it)
    has a key at m/44'/0, with another chain code than m/44'. *)
Example C67_case : ucd_std ucd15 /\ ucd_scalar ucd15 /\ ec_laws Cyclic /\
  is_ok (from_entropy b64 (language_of BJapanese) (repeat x00 16)) = true /\
  nfkd ucd15 [0x212B] = nfkd ucd15 [0x41; 0x30A] /\
  match xprv_new true (backend K256 Cyclic) (unhex "a262d6fb6122ecf45be09c50492b31f92e9beb7d9a845987a02cefda57a15f9c467a17872029a9e92299b5cbdf306e3a0ee620245cbd508959b6cb7ca637bd55") with
  | Ok r =>
      match xprv_derive_path true r [2147483692; 0], xprv_derive_path true r [2147483692] with
      | Ok x, Ok y => negb (bytes_eqb (m_chain (xprv_meta x)) (m_chain (xprv_meta y)))
      | _, _ => false
      end
  | _ => false end = true.
Proof.
  split; [exact ucd15_std|]. split; [exact ucd15_scalar|]. split; [exact cyclic_laws|].
  split; [vm_cast_no_check (eq_refl true)|]. split; [vm_compute; reflexivity|vm_cast_no_check (eq_refl true)].
Qed.
