(** Property theorems for bip0032: keys of different curves, ways of derivation, seeds and paths have
    different chain codes unless SHA-512 collides (C104). *)
From Verif Require Import Base Str Sha2 Error32 Path32 Version32 Meta32 Payload32 Curve32 XKey32
  Slip10 XKeySpec32 XKeyProofs32 SlipProofs32 Stream StreamProofs Cyclic32 Props32k Props32s Props32x Props32y Props32h.

(** ** The four ways to derive private keys *)
Inductive tree : Type :=
| Bip32Tree (b : Library) (L : ECLib)
| Slip10Tree (b : Library) (L : ECLib)
| EdTree (D : EdLib).
Definition tree_laws (t : tree) : Prop :=
  match t with Bip32Tree _ L | Slip10Tree _ L => ec_laws L | EdTree D => ed_laws D end.
Definition tree_key (t : tree) : list byte :=
  match t with Bip32Tree b _ | Slip10Tree b _ => curve_key b | EdTree _ => bytes_of "ed25519 seed" end.
Definition tree_path (t : tree) (p : list N) : Prop :=
  match t with EdTree _ => Forall (fun i => 2 ^ 31 <= i < 2 ^ 32) p | _ => Forall (fun i => i < 2 ^ 32) p end.
(** [c] is the chain code of the key at path [p] below [seed]. *)
Definition tree_chain (dbg : profile) (fuel : nat) (t : tree) (seed : list byte) (p : list N) (c : list byte) : Prop :=
  match t with
  | Bip32Tree b L => exists m x : XPrv (backend b L), xprv_new dbg (backend b L) seed = Ok m /\
      xprv_derive_path dbg m p = Ok x /\ m_chain (xprv_meta x) = c
  | Slip10Tree b L => exists m x : XPrv (backend b L), new_slip10 dbg fuel (backend b L) seed = Some (Ok m) /\
      slip10_prv_path fuel m p = Some (Ok x) /\ m_chain (xprv_meta x) = c
  | EdTree D => exists m x : XPrv (Ed25519DalekBackend D), new_slip10 dbg fuel (Ed25519DalekBackend D) seed = Some (Ok m) /\
      slip10_hardened_path dbg fuel m (mkHP p) = Some (Ok x) /\ m_chain (xprv_meta x) = c
  end.
(** What the derivation gives to HMAC-SHA512. *)
Definition tree_input (dbg : profile) (fuel : nat) (t : tree) (seed : list byte) (p : list N) (key data : list byte) : Prop :=
  match t with
  | Bip32Tree b L => seed_input dbg b L seed p key data
  | Slip10Tree b L => slip_input dbg fuel b L seed p key data
  | EdTree D => ed_input dbg D seed p key data
  end.
(** Only the SLIP-0010 search on a Weierstrass curve rejects seeds and tries others. *)
Definition tree_rejects (t : tree) (seed : list byte) (n : nat) : Prop :=
  match t with Slip10Tree b L => ~ master_good b L seed n | _ => False end.
Definition tree_retry (t : tree) (seed seed' : list byte) : Prop :=
  exists n, seed' = master_candidate (tree_key t) seed n /\ forall j, (j <= n)%nat -> tree_rejects t seed j.

(** ** Chain codes as a sequence of searches *)
Inductive chained (K s : list byte) (Rej : nat -> Prop) (I : list byte -> list byte -> Prop) : list N -> list byte -> Prop :=
| ch_master n : (forall j, (j < n)%nat -> Rej j) -> (forall j, (j <= n)%nat -> I K (master_round K s j)) ->
    chained K s Rej I [] (IR (master_candidate K s n))
| ch_child p c d i n : chained K s Rej I p c -> i < 2 ^ 32 -> hd x00 d <> x01 -> length d = 37%nat ->
    skipn 33 d = be_bytes 4 i -> (forall j, (j <= n)%nat -> I c (child_round c d i j)) ->
    chained K s Rej I (p ++ [i]) (IR (child_candidate c d i n)).
Lemma chained_mono K s Rej (I I' : list byte -> list byte -> Prop) p c : (forall a d, I a d -> I' a d) -> chained K s Rej I p c -> chained K s Rej I' p c.
Proof. intros M H. induction H; constructor; auto. Qed.
Lemma chained_length K s Rej I p c : chained K s Rej I p c -> length c = 32%nat.
Proof. intros H. destruct H; [rewrite master_cand_round|rewrite cand_round]; apply right_length. Qed.
Lemma ch_master0 K s Rej (I : list byte -> list byte -> Prop) x : x = skipn 32 (hmac_sha512 K s) -> I K s -> chained K s Rej I [] x.
Proof.
  intros -> H. apply (ch_master K s Rej I 0); [intros j Hj; lia|]. intros j Hj. replace j with 0%nat by lia. exact H.
Qed.
Lemma ch_child0 K s Rej (I : list byte -> list byte -> Prop) p c d i x : x = skipn 32 (hmac_sha512 c d) ->
  chained K s Rej I p c -> i < 2 ^ 32 -> hd x00 d <> x01 -> length d = 37%nat -> skipn 33 d = be_bytes 4 i -> I c d ->
  chained K s Rej I (p ++ [i]) x.
Proof.
  intros -> C Hi Hd Ld Sd H. apply (ch_child K s Rej I p c d i 0); try assumption.
  intros j Hj. replace j with 0%nat by lia. exact H.
Qed.
Lemma rounds_apart K s s' n n' : master_round K s n = master_round K s' n' ->
  (exists m, (m <= n)%nat /\ s' = master_round K s m) \/ (exists m, (m <= n')%nat /\ s = master_round K s' m) \/
  exists m m', (m < n)%nat /\ (m' < n')%nat /\ half_collision K (master_round K s m) K (master_round K s' m').
Proof.
  revert n'. induction n as [|n IH]; intros n' Q.
  - right. left. exists n'. split; [apply le_n|exact Q].
  - destruct n' as [|n'].
    + left. exists (S n). split; [apply le_n|]. symmetry. exact Q.
    + cbn [master_round] in Q.
      destruct (bytes_pair_dec (K, master_round K s n) (K, master_round K s' n')) as [Q'|Q'].
      * apply pair_equal_spec in Q' as [_ Q'].
        destruct (IH n' Q') as [(m & A & B)|[(m & A & B)|(m & m' & A & B & C)]].
        -- left. exists m. split; [lia|exact B].
        -- right. left. exists m. split; [lia|exact B].
        -- right. right. exists m, m'. split; [lia|]. split; [lia|exact C].
      * right. right. exists n, n'. split; [lia|]. split; [lia|]. split; [exact Q'|].
        rewrite <- !master_cand_round, Q. reflexivity.
Qed.
Definition retried_by (K : list byte) (Rej : nat -> Prop) (s s' : list byte) : Prop :=
  exists n, s' = master_candidate K s n /\ forall j, (j <= n)%nat -> Rej j.
Lemma chained_apart K s Rej I p c K' s' Rej' I' p' c' :
  length K <> 32%nat -> length K' <> 32%nat ->
  chained K s Rej I p c -> chained K' s' Rej' I' p' c' -> c = c' ->
  (K = K' /\ p = p' /\ (s = s' \/ retried_by K Rej s s' \/ retried_by K' Rej' s' s)) \/
  exists k d k' d', I k d /\ I' k' d' /\ half_collision k d k' d'.
Proof.
  intros LK LK' H. revert p' c'. induction H as [n R IN|p c d i n H IH Hi Hd Ld Sd IN]; intros p' c' H' E.
  - destruct H' as [n' R' IN'|q c' d j n' H' Hj Hd' Ld' Sd' IN'].
    + destruct (bytes_pair_dec (K, master_round K s n) (K', master_round K' s' n')) as [Q|Q].
      2:{ right. rewrite !master_cand_round in E. do 4 eexists. split; [apply IN, le_n|]. split; [apply IN', le_n|]. split; [exact Q|exact E]. }
      apply pair_equal_spec in Q as [<- Q].
      assert (RS : forall a a' n h (Rj : nat -> Prop), (forall j, (j < n)%nat -> Rj j) -> (h <= n)%nat ->
        a' = master_round K a h -> a = a' \/ retried_by K Rj a a').
      { intros a a' m [|h] Rj RR Hh ->; [left; reflexivity|]. right. exists h. split; [reflexivity|].
        intros j Hj. apply RR. lia. }
      destruct (rounds_apart K s s' n n' Q) as [(h & Hh & W)|[(h & Hh & W)|(h & h' & Hh & Hh' & W)]].
      * left. split; [reflexivity|]. split; [reflexivity|]. destruct (RS s s' n h Rej R Hh W); auto.
      * left. split; [reflexivity|]. split; [reflexivity|]. destruct (RS s' s n' h Rej' R' Hh W); auto.
      * right. do 4 eexists. split; [apply (IN h); lia|]. split; [apply (IN' h'); lia|exact W].
    + right. pose proof (chained_length _ _ _ _ _ _ H') as LC. rewrite master_cand_round, cand_round in E.
      do 4 eexists. split; [apply IN, le_n|]. split; [apply IN', le_n|]. split; [|exact E].
      intros Q. apply pair_equal_spec in Q as [-> _]. exact (LK LC).
  - pose proof (chained_length _ _ _ _ _ _ H) as LC.
    destruct H' as [n' R' IN'|q c' d' j n' H' Hj Hd' Ld' Sd' IN'].
    + right. rewrite master_cand_round, cand_round in E.
      do 4 eexists. split; [apply IN, le_n|]. split; [apply IN', le_n|]. split; [|exact E].
      intros Q. apply pair_equal_spec in Q as [-> _]. exact (LK' LC).
    + destruct (child_rounds c c' d d' i j Hi Hj Hd Hd' Ld Ld' Sd Sd' n n' E) as [(Q & _ & <-)|(h & h' & Hh & Hh' & Q)].
      * destruct (IH q c' H' Q) as [(EK & -> & W)|W]; [left; auto|right; exact W].
      * right. do 4 eexists. split; [apply (IN h Hh)|]. split; [apply (IN' h' Hh')|exact Q].
Qed.

(** ** Every tree is such a sequence *)
Lemma bip32_chained dbg b L (HL : ec_laws L) seed (m : XPrv (backend b L)) : xprv_new dbg (backend b L) seed = Ok m ->
  forall p x, Forall (fun i => i < 2 ^ 32) p -> xprv_derive_path dbg m p = Ok x ->
  xprv_wf x /\ chained (curve_key b) seed (fun _ => False) (seed_input dbg b L seed p) p (m_chain (xprv_meta x)).
Proof.
  intros M p. induction p as [|i p IH] using rev_ind; intros x F P.
  - cbn [xprv_derive_path] in P. injection P as <-. split.
    + destruct (C42_master_key dbg) as [A _]. destruct (A b L seed HL) as [A1 A2]. cbv zeta in A1, A2.
      set (k := be_val (firstn 32 (hmac_sha512 (curve_key b) seed))) in *.
      destruct (N.eq_dec k 0) as [Z|Z]; [destruct (A2 (or_introl Z)) as (e & X & _); congruence|].
      destruct (N.le_gt_cases (order L) k) as [O|O]; [destruct (A2 (or_intror O)) as (e & X & _); congruence|].
      destruct A1 as (x & X & K & C & D & FP & CH); [lia|]. rewrite M in X. injection X as <-.
      split; [|rewrite K; unfold valid_private; lia]. split; [rewrite FP; reflexivity|]. split; [rewrite CH; lia|]. rewrite C. apply right_length.
    + apply ch_master0; [exact (master_chain L dbg b seed m M)|]. left. auto.
  - apply Forall_app in F as [F Fi]. inversion Fi as [|? ? Hi _]; subst.
    apply prv_path_snoc in P as (z & P & C). destruct (IH z F P) as [Wz CZ].
    split; [exact (prv_child_wf L HL dbg b z x i Hi C)|].
    apply (ch_child0 _ _ _ _ _ _ _ _ _ (prv_child_chain L dbg b z x i C)).
    + eapply chained_mono; [|exact CZ]. intros a d. apply seed_input_snoc.
    + exact Hi.
    + apply data_head; [exact HL|apply Wz].
    + apply (data_length L HL).
    + apply (data_index L HL).
    + right. exists m, p, i, [], z. auto.
Qed.
Lemma slip10_chained dbg b L (HL : ec_laws L) fuel seed (m : XPrv (backend b L)) : new_slip10 dbg fuel (backend b L) seed = Some (Ok m) ->
  forall p x, Forall (fun i => i < 2 ^ 32) p -> slip10_prv_path fuel m p = Some (Ok x) ->
  chained (curve_key b) seed (fun n => ~ master_good b L seed n) (slip_input dbg fuel b L seed p) p (m_chain (xprv_meta x)).
Proof.
  intros M p. destruct (slip_master dbg b L HL fuel seed m M) as (Wm & a & Ra & Ea).
  induction p as [|i p IH] using rev_ind; intros x F P.
  - injection P as <-. rewrite Ea. constructor; [exact Ra|].
    intros j Hj. left. exists j. split; [intros k Hk; apply Ra; lia|auto].
  - apply Forall_app in F as [F Fi]. inversion Fi as [|? ? Hi _]; subst.
    apply slip_snoc in P as (z & P & C). pose proof (slip_wf b L HL fuel m p F Wm z P) as Wz.
    destruct (slip_child b L HL fuel z x i Wz Hi C) as (_ & n & Rn & En & _). rewrite En. constructor.
    + eapply chained_mono; [|exact (IH z F P)]. intros u d. apply slip_input_snoc.
    + exact Hi.
    + apply data_head; [exact HL|apply Wz].
    + apply (data_length L HL).
    + apply (data_index L HL).
    + intros j Hj. right. exists m, p, i, [], z, j. split; [exact M|]. split; [reflexivity|]. split; [exact P|].
      split; [intros k Hk; apply Rn; lia|auto].
Qed.
Lemma ed_chained dbg D (HD : ed_laws D) fuel seed (m : XPrv (Ed25519DalekBackend D)) :
  new_slip10 dbg fuel (Ed25519DalekBackend D) seed = Some (Ok m) ->
  forall p x, Forall (fun i => 2 ^ 31 <= i < 2 ^ 32) p -> slip10_hardened_path dbg fuel m (mkHP p) = Some (Ok x) ->
  chained (bytes_of "ed25519 seed") seed (fun _ => False) (ed_input dbg D seed p) p (m_chain (xprv_meta x)).
Proof.
  intros M. destruct (ed_fuel dbg D HD _ _ _ M) as [M1 [f ->]]. destruct (ed_master dbg D HD _ _ M1) as (Lm & Lc & Cm).
  intros p x F P. apply (ed_one dbg D HD p m x f Lm F) in P. revert x P.
  induction p as [|i p IH] using rev_ind; intros x P.
  - injection P as <-. apply ch_master0; [exact Cm|]. left. auto.
  - destruct (ed_snoc dbg D HD m x p i Lm Lc F P) as (w & W & LW & LC & CW).
    apply Forall_app in F as [F Fi]. inversion Fi as [|? ? Hi _]; subst.
    apply (ch_child0 _ _ _ _ _ _ _ _ _ CW).
    + eapply chained_mono; [|exact (IH F w W)]. intros u d [H|(n & q' & j & r & z & N & -> & H)]; [left; exact H|]. right.
      exists n, q', j, (r ++ [i]), z. split; [exact N|]. split; [|exact H]. rewrite <- app_assoc. reflexivity.
    + lia.
    + discriminate.
    + rewrite !app_length, be_bytes_length, LW. reflexivity.
    + rewrite app_assoc, skipn_app, skipn_all2; rewrite app_length, LW; [|reflexivity]. reflexivity.
    + right. exists m, p, i, [], w. auto.
Qed.
Lemma tree_chained dbg fuel t seed p c : tree_laws t -> tree_path t p -> tree_chain dbg fuel t seed p c ->
  chained (tree_key t) seed (tree_rejects t seed) (tree_input dbg fuel t seed p) p c.
Proof.
  destruct t as [b L|b L|D]; cbn [tree_laws tree_path tree_chain tree_key tree_rejects tree_input]; intros HL F (m & x & M & P & <-).
  - exact (proj2 (bip32_chained dbg b L HL seed m M p x F P)).
  - exact (slip10_chained dbg b L HL fuel seed m M p x F P).
  - exact (ed_chained dbg D HL fuel seed m M p x F P).
Qed.
Lemma tree_key_length t : length (tree_key t) = 12%nat \/ length (tree_key t) = 14%nat.
Proof. destruct t as [b L|b L|D]; [destruct b|destruct b|]; cbn; auto. Qed.

(** C104: keys of two trees, whatever their curves and ways of derivation, have different chain codes,
    unless HMAC-SHA512 was given two different inputs with the same right half, or curve key and path
    are the same and so is the seed, up to a retry. *)
Theorem C104_any_curves dbg t t' fuel fuel' seed seed' p p' c :
  tree_laws t -> tree_laws t' -> tree_path t p -> tree_path t' p' ->
  tree_chain dbg fuel t seed p c -> tree_chain dbg fuel' t' seed' p' c ->
  (tree_key t = tree_key t' /\ p = p' /\ (seed = seed' \/ tree_retry t seed seed' \/ tree_retry t' seed' seed)) \/
  exists k d k' d', tree_input dbg fuel t seed p k d /\ tree_input dbg fuel' t' seed' p' k' d' /\ half_collision k d k' d'.
Proof.
  intros HL HL' F F' H H'. apply tree_chained in H, H'; try assumption.
  assert (NL : forall t, length (tree_key t) <> 32%nat) by (intros t0; destruct (tree_key_length t0) as [-> | ->]; discriminate).
  exact (chained_apart _ _ _ _ _ _ _ _ _ _ _ _ (NL t) (NL t') H H' eq_refl).
Qed.
Print Assumptions C104_any_curves.

(** C104: the same with SHA-512.  The exception is a chain code that is a curve's key followed by
    zeros. *)
Definition padded (k : list byte) : list byte := k ++ repeat x00 (32 - length k).
Theorem C104_sha512 dbg t t' fuel fuel' seed seed' p p' c :
  tree_laws t -> tree_laws t' -> tree_path t p -> tree_path t' p' ->
  tree_chain dbg fuel t seed p c -> tree_chain dbg fuel' t' seed' p' c ->
  (tree_key t = tree_key t' /\ p = p' /\ (seed = seed' \/ tree_retry t seed seed' \/ tree_retry t' seed' seed)) \/
  (exists d, tree_input dbg fuel t seed p (padded (tree_key t')) d \/ tree_input dbg fuel' t' seed' p' (padded (tree_key t)) d) \/
  exists k d k' d', tree_input dbg fuel t seed p k d /\ tree_input dbg fuel' t' seed' p' k' d' /\ sha_half_collision k d k' d'.
Proof.
  intros HL HL' F F' H H'.
  destruct (C104_any_curves dbg t t' fuel fuel' seed seed' p p' c HL HL' F F' H H') as [E|(k & d & k' & d' & A & A' & N & C)]; [left; exact E|].
  right. destruct (C87_hmac_collision _ _ _ _ C) as [[K <-]|C']; [|right; exists k, d, k', d'; auto].
  left. exists d.
  assert (LKs : forall t fuel s q k e, tree_laws t -> tree_path t q -> tree_input dbg fuel t s q k e -> k = tree_key t \/ length k = 32%nat).
  { clear. intros [b L|b L|D] fuel s q k e; cbn [tree_laws tree_path tree_input tree_key]; intros HL F.
    - intros [[-> _]|(m & q0 & i & r & z & M & -> & Q & -> & _)]; [auto|]. right. exact (chain_length _ _ _ _ _ _ _ M Q).
    - intros [(n & _ & -> & _)|(m & q0 & i & r & z & n & M & -> & Q & _ & -> & _)]; [auto|]. right.
      apply Forall_app in F as [F _]. exact (chained_length _ _ _ _ _ _ (slip10_chained dbg b L HL fuel s m M q0 z F Q)).
    - intros [[-> _]|(m & q0 & i & r & z & M & -> & Q & -> & _)]; [auto|]. right.
      apply Forall_app in F as [F _]. exact (chained_length _ _ _ _ _ _ (ed_chained dbg D HL 1 s m M q0 z F Q)). }
  assert (PK : forall t k, length k = 32%nat -> key_block (tree_key t) = key_block k -> k = padded (tree_key t)).
  { intros t0 k0 Lk Q. destruct (tree_key_length t0) as [L0|L0]; (apply key_block_le in Q; [|lia|lia]); rewrite Lk in Q; exact Q. }
  destruct (LKs _ _ _ _ _ _ HL F A) as [Q|Lk]; destruct (LKs _ _ _ _ _ _ HL' F' A') as [Q'|Lk'].
  - exfalso. apply N. f_equal. subst k k'. clear -K.
    destruct t as [b L|b L|D], t' as [b' L'|b' L'|D']; cbn [tree_key] in *; try destruct b; try destruct b'; try reflexivity;
      exfalso; vm_compute in K; discriminate K.
  - right. rewrite Q in K. rewrite <- (PK t k' Lk' K). exact A'.
  - left. rewrite Q' in K. rewrite <- (PK t' k Lk (eq_sym K)). exact A.
  - exfalso. apply N. f_equal. apply key_block_eq; [lia|lia|exact K].
Qed.
Print Assumptions C104_sha512.

(** Keys of two curves for one seed. *)
Theorem C104_two_curves dbg t t' fuel fuel' seed p c :
  tree_laws t -> tree_laws t' -> tree_key t <> tree_key t' -> tree_path t p -> tree_path t' p ->
  tree_chain dbg fuel t seed p c -> tree_chain dbg fuel' t' seed p c ->
  exists k d k' d', tree_input dbg fuel t seed p k d /\ tree_input dbg fuel' t' seed p k' d' /\ half_collision k d k' d'.
Proof.
  intros HL HL' N F F' H H'.
  destruct (C104_any_curves dbg t t' fuel fuel' seed seed p p c HL HL' F F' H H') as [[E _]|W]; [elim (N E)|exact W].
Qed.
Print Assumptions C104_two_curves.

(** BIP-0032 and SLIP-0010 keys of two secp256k1 backends have the same chain code; those of the other
    two curves, for the same seed and path, have others. *)
Definition ex_path104 : list N := [2147483648; 2147483649].
Example C104_case : tree_laws (Bip32Tree K256 Cyclic) /\ tree_laws (Slip10Tree Secp256k1Ffi Cyclic) /\
  tree_laws (Slip10Tree P256 Cyclic) /\ tree_laws (EdTree ToyEd) /\
  tree_key (Slip10Tree P256 Cyclic) <> tree_key (EdTree ToyEd) /\ tree_path (EdTree ToyEd) ex_path104 /\
  match xprv_new true (backend K256 Cyclic) ex_seed, new_slip10 true 9 (backend Secp256k1Ffi Cyclic) ex_seed,
    new_slip10 true 9 (backend P256 Cyclic) ex_seed, new_slip10 true 9 (Ed25519DalekBackend ToyEd) ex_seed with
  | Ok m, Some (Ok m1), Some (Ok m2), Some (Ok m3) =>
      match xprv_derive_path true m ex_path104, slip10_prv_path 9 m1 ex_path104, slip10_prv_path 9 m2 ex_path104,
        slip10_hardened_path true 9 m3 (mkHP ex_path104) with
      | Ok x, Some (Ok x1), Some (Ok x2), Some (Ok x3) =>
          bytes_eqb (m_chain (xprv_meta x)) (m_chain (xprv_meta x1)) &&
          negb (bytes_eqb (m_chain (xprv_meta x)) (m_chain (xprv_meta x2))) &&
          negb (bytes_eqb (m_chain (xprv_meta x)) (m_chain (xprv_meta x3))) &&
          negb (bytes_eqb (m_chain (xprv_meta x2)) (m_chain (xprv_meta x3)))
      | _, _, _, _ => false
      end
  | _, _, _, _ => false
  end = true.
Proof.
  split; [exact cyclic_laws|]. split; [exact cyclic_laws|]. split; [exact cyclic_laws|]. split; [exact toy_ed_laws|].
  split; [discriminate|]. split; [repeat (constructor; [lia|]); constructor|]. vm_cast_no_check (eq_refl true).
Qed.
