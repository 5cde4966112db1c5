(** Property theorems for SLIP-0010: what different seeds and paths have in common (C75) and
    what a child key gives away about its parent (C76). *)
From Verif Require Import Base Str Sha2 Error32 Path32 Version32 Meta32 Payload32 Curve32 XKey32
  Slip10 XKeySpec32 XKeyProofs32 SlipProofs32 Cyclic32 Props32k Props32s Props32x.

(** ** C75 *)
(** What SLIP-0010 gives to HMAC-SHA512 in round [n] of a search. *)
Definition master_round (key seed : list byte) (n : nat) : list byte :=
  match n with O => seed | S m => master_candidate key seed m end.
Definition child_round (chain data : list byte) (i : N) (n : nat) : list byte :=
  match n with O => data | S m => [x01] ++ IR (child_candidate chain data i m) ++ be_bytes 4 i end.
(** Which candidates of the two searches are keys. *)
Definition master_good (b : Library) (L : ECLib) (seed : list byte) (n : nat) : Prop :=
  0 < be_val (firstn 32 (master_candidate (curve_key b) seed n)) < order L.
Definition child_good {b : Library} {L : ECLib} (z : XPrv (backend b L)) (i : N) (n : nat) : Prop :=
  exists k, child_private b L (xprv_key z)
    (child_candidate (m_chain (xprv_meta z)) (ckd_priv_data L (xprv_key z) i) i n) k.
(** The inputs (key, data) given to HMAC-SHA512 while deriving path [p] from [seed]: each
    round of a search, up to the first that finds a key. *)
Definition slip_input (dbg : profile) (fuel : nat) (b : Library) (L : ECLib) (seed : list byte) (p : list N)
    (key data : list byte) : Prop :=
  (exists n, (forall j, (j < n)%nat -> ~ master_good b L seed j) /\
     key = curve_key b /\ data = master_round (curve_key b) seed n) \/
  exists m q i r (z : XPrv (backend b L)) n,
    new_slip10 dbg fuel (backend b L) seed = Some (Ok m) /\ p = q ++ i :: r /\
    slip10_prv_path fuel m q = Some (Ok z) /\
    (forall j, (j < n)%nat -> ~ child_good z i j) /\
    key = m_chain (xprv_meta z) /\
    data = child_round (m_chain (xprv_meta z)) (ckd_priv_data L (xprv_key z) i) i n.
(** [seed'] is what the search for a master key tries after rejecting [seed]. *)
Definition seed_retry (b : Library) (L : ECLib) (seed seed' : list byte) : Prop :=
  exists n, seed' = master_candidate (curve_key b) seed n /\
    forall j, (j <= n)%nat -> ~ master_good b L seed j.

Lemma cand_round c d i n : child_candidate c d i n = hmac_sha512 c (child_round c d i n).
Proof. destruct n; reflexivity. Qed.
Lemma master_cand_round k s n : master_candidate k s n = hmac_sha512 k (master_round k s n).
Proof. destruct n; reflexivity. Qed.

(** Two searches for a child that end with the same right half. *)
Lemma child_rounds c c' d d' i i' : i < 2 ^ 32 -> i' < 2 ^ 32 ->
  hd x00 d <> x01 -> hd x00 d' <> x01 -> length d = 37%nat -> length d' = 37%nat ->
  skipn 33 d = be_bytes 4 i -> skipn 33 d' = be_bytes 4 i' ->
  forall n n', IR (child_candidate c d i n) = IR (child_candidate c' d' i' n') ->
  (c = c' /\ d = d' /\ i = i') \/
  exists m m', (m <= n)%nat /\ (m' <= n')%nat /\ half_collision c (child_round c d i m) c' (child_round c' d' i' m').
Proof.
  intros Hi Hi' Hd Hd' Ld Ld' Sd Sd'. induction n as [|n IH]; intros n' E;
    [set (h := 0%nat) in *|set (h := S n) in *];
    (destruct (bytes_pair_dec (c, child_round c d i h) (c', child_round c' d' i' n')) as [Q|Q];
     [|right; exists h, n'; split; [apply le_n|]; split; [apply le_n|]; split; [exact Q|];
       rewrite !cand_round in E; exact E]); subst h.
  - apply pair_equal_spec in Q as [-> Q]. left. destruct n' as [|n']; cbn [child_round] in Q.
    + subst d'. split; [reflexivity|]. split; [reflexivity|]. rewrite Sd in Sd'. apply be4_inj in Sd'; assumption.
    + subst d. elim Hd. reflexivity.
  - apply pair_equal_spec in Q as [-> Q]. destruct n' as [|n']; cbn [child_round] in Q.
    + subst d'. elim Hd'. reflexivity.
    + injection Q as Q.
      assert (L1 : forall c d i n, length (IR (child_candidate c d i n)) = 32%nat)
        by (intros; rewrite cand_round; apply right_length).
      assert (Q1 : IR (child_candidate c' d i n) = IR (child_candidate c' d' i' n')).
      { apply (f_equal (firstn 32)) in Q. rewrite !firstn_app, !L1, !firstn_O, !app_nil_r in Q.
        rewrite 2 firstn_all2 in Q by (rewrite L1; lia). exact Q. }
      destruct (IH n' Q1) as [H|(m & m' & A & B & H)]; [left; exact H|].
      right. exists m, m'. split; [lia|]. split; [lia|exact H].
Qed.

Section Laws.
Context (dbg : profile) (b : Library) (L : ECLib) (HL : ec_laws L).
Implicit Types (x y z : XPrv (backend b L)).

Lemma data_head k i : valid_private L k -> hd x00 (ckd_priv_data L k i) <> x01.
Proof.
  intros V. unfold ckd_priv_data. destruct (2 ^ 31 <=? i); [discriminate|].
  destruct (decompress_compress L HL (pmul L k (gen L)) (public_valid L HL k V)) as (t & r & -> & [-> | ->] & _); discriminate.
Qed.
Lemma slip_child fuel x y i : xprv_wf x -> i < 2 ^ 32 -> slip10_prv_child fuel x i = Some (Ok y) ->
  xprv_wf y /\ exists n, (forall j, (j < n)%nat -> ~ child_good x i j) /\
    m_chain (xprv_meta y) = IR (child_candidate (m_chain (xprv_meta x)) (ckd_priv_data L (xprv_key x) i) i n) /\
    child_private b L (xprv_key x)
      (child_candidate (m_chain (xprv_meta x)) (ckd_priv_data L (xprv_key x) i) i n) (xprv_key y).
Proof.
  intros W Hi H. apply (proj1 (proj1 (C46_slip10_child b L HL) x i W Hi)) in H as (n & k & _ & [_ R] & G & E).
  apply (f_equal (fun r => match r with Ok a => Some a | _ => None end)) in E. injection E as ->.
  cbn [xprv_meta xprv_key derived m_chain]. split.
  - split.
    + split; [apply fingerprint_length|]. split; [exact Hi|]. cbn [xprv_meta derived m_chain].
      rewrite cand_round. apply right_length.
    + destruct G as (_ & -> & Z). split; [apply N.neq_0_lt_0; exact Z|]. apply N.mod_lt, (order_nz L HL).
  - exists n. split; [exact R|]. split; [reflexivity|exact G].
Qed.
Lemma slip_master fuel seed m : new_slip10 dbg fuel (backend b L) seed = Some (Ok m) ->
  xprv_wf m /\ exists n, (forall j, (j < n)%nat -> ~ master_good b L seed j) /\
    m_chain (xprv_meta m) = IR (master_candidate (curve_key b) seed n).
Proof.
  intros H. apply (proj1 (C45_slip10_master dbg b L HL seed)) in H as (n & _ & [G R] & E).
  apply (f_equal (fun r => match r with Ok a => Some a | _ => None end)) in E. injection E as ->.
  cbn [xprv_meta xprv_key m_chain]. split; [|exists n; split; [exact R|reflexivity]].
  split; [|exact G]. split; [reflexivity|]. split; [cbn; lia|]. cbn [xprv_meta m_chain].
  rewrite master_cand_round. apply right_length.
Qed.
Lemma slip_snoc fuel x y q i : slip10_prv_path fuel x (q ++ [i]) = Some (Ok y) ->
  exists z, slip10_prv_path fuel x q = Some (Ok z) /\ slip10_prv_child fuel z i = Some (Ok y).
Proof.
  unfold slip10_prv_path. rewrite path_loop_app.
  destruct (path_loop (slip10_prv_child fuel) x q) as [[z|e|]|]; try discriminate. cbn [path_loop].
  intros H. exists z. split; [reflexivity|].
  destruct (slip10_prv_child fuel z i) as [[w|e|]|]; try discriminate. exact H.
Qed.
Lemma slip_wf fuel m q : Forall (fun i => i < 2 ^ 32) q -> xprv_wf m ->
  forall z, slip10_prv_path fuel m q = Some (Ok z) -> xprv_wf z.
Proof.
  intros F W. induction q as [|i q IH] using rev_ind; intros z P.
  - injection P as <-. exact W.
  - apply Forall_app in F as [F Fi]. inversion Fi as [|? ? Hi _]; subst.
    apply slip_snoc in P as (w & P & C). exact (proj1 (slip_child fuel w z i (IH F w P) Hi C)).
Qed.
Lemma slip_input_snoc fuel seed q i c d :
  slip_input dbg fuel b L seed q c d -> slip_input dbg fuel b L seed (q ++ [i]) c d.
Proof.
  intros [H|(m & q' & j & r & z & n & M & -> & H)]; [left; exact H|]. right.
  exists m, q', j, (r ++ [i]), z, n. split; [exact M|]. split; [|exact H]. rewrite <- app_assoc. reflexivity.
Qed.
Lemma master_rounds s s' : forall n n',
  IR (master_candidate (curve_key b) s n) = IR (master_candidate (curve_key b) s' n') ->
  (exists m, (m <= n)%nat /\ s' = master_round (curve_key b) s m) \/
  (exists m, (m <= n')%nat /\ s = master_round (curve_key b) s' m) \/
  half_collision (curve_key b) (master_round (curve_key b) s n) (curve_key b) (master_round (curve_key b) s' n') \/
  exists m m', (m < n)%nat /\ (m' < n')%nat /\
    master_candidate (curve_key b) s m = master_candidate (curve_key b) s' m' /\
    half_collision (curve_key b) (master_round (curve_key b) s m) (curve_key b) (master_round (curve_key b) s' m').
Proof.
  intros n n' E. destruct (bytes_pair_dec (curve_key b, master_round (curve_key b) s n)
    (curve_key b, master_round (curve_key b) s' n')) as [Q|Q].
  2:{ right. right. left. split; [exact Q|]. rewrite !master_cand_round in E. exact E. }
  apply pair_equal_spec in Q as [_ Q].
  assert (H : forall n n', master_round (curve_key b) s n = master_round (curve_key b) s' n' ->
    (exists m, (m <= n)%nat /\ s' = master_round (curve_key b) s m) \/
    (exists m, (m <= n')%nat /\ s = master_round (curve_key b) s' m) \/
    exists m m', (m < n)%nat /\ (m' < n')%nat /\
    master_candidate (curve_key b) s m = master_candidate (curve_key b) s' m' /\
    half_collision (curve_key b) (master_round (curve_key b) s m) (curve_key b) (master_round (curve_key b) s' m')).
  { clear n n' E Q. induction n as [|n IH]; intros n' Q.
    - right. left. exists n'. split; [apply le_n|exact Q].
    - destruct n' as [|n'].
      + left. exists (S n). split; [apply le_n|]. symmetry. exact Q.
      + cbn [master_round] in Q.
        destruct (bytes_pair_dec (curve_key b, master_round (curve_key b) s n)
          (curve_key b, master_round (curve_key b) s' n')) as [Q'|Q'].
        * apply pair_equal_spec in Q' as [_ Q'].
          destruct (IH n' Q') as [(m & A & B)|[(m & A & B)|(m & m' & A & B & C)]].
          -- left. exists m. split; [lia|exact B].
          -- right. left. exists m. split; [lia|exact B].
          -- right. right. exists m, m'. split; [lia|]. split; [lia|exact C].
        * right. right. exists n, n'. split; [lia|]. split; [lia|]. split; [exact Q|]. split; [exact Q'|].
          rewrite <- !master_cand_round, Q. reflexivity. }
  destruct (H n n' Q) as [A|[A|A]]; [left; exact A|right; left; exact A|right; right; right; exact A].
Qed.
End Laws.

(** C75: keys of two seed-and-path pairs have different chain codes, unless the two
    derivations have fed HMAC-SHA512 two different inputs with the same right half, or one
    seed is what the search tries after rejecting the other. *)
Theorem C75_tree_collision dbg b L (HL : ec_laws L) fuel fuel' seed seed' p p' (m m' x x' : XPrv (backend b L)) :
  Forall (fun i => i < 2 ^ 32) p -> Forall (fun i => i < 2 ^ 32) p' ->
  new_slip10 dbg fuel (backend b L) seed = Some (Ok m) -> slip10_prv_path fuel m p = Some (Ok x) ->
  new_slip10 dbg fuel' (backend b L) seed' = Some (Ok m') -> slip10_prv_path fuel' m' p' = Some (Ok x') ->
  m_chain (xprv_meta x) = m_chain (xprv_meta x') ->
  (p = p' /\ (seed = seed' \/ seed_retry b L seed seed' \/ seed_retry b L seed' seed)) \/
  exists c d c' d', slip_input dbg fuel b L seed p c d /\ slip_input dbg fuel' b L seed' p' c' d' /\
    half_collision c d c' d'.
Proof.
  intros F F' M P M' P'. destruct (slip_master dbg b L HL fuel seed m M) as (Wm & a & Ra & Ea).
  destruct (slip_master dbg b L HL fuel' seed' m' M') as (Wm' & a' & Ra' & Ea').
  revert p' F' x x' P P'. induction p as [|i p IH] using rev_ind; intros p' F' x x' P P' E.
  - cbn [slip10_prv_path path_loop] in P. injection P as <-. rewrite Ea in E.
    destruct p' as [|j p' _] using rev_ind.
    + injection P' as <-. rewrite Ea' in E.
      assert (RS : forall s s' n h, (forall j, (j < n)%nat -> ~ master_good b L s j) -> (h <= n)%nat ->
        s' = master_round (curve_key b) s h -> s = s' \/ seed_retry b L s s').
      { intros s s' n [|h] R Hh ->; [left; reflexivity|]. right. exists h. split; [reflexivity|].
        intros j Hj. apply R. lia. }
      destruct (master_rounds b seed seed' a a' E) as [(h & Hh & Q)|[(h & Hh & Q)|[Q|(h & h' & Hh & Hh' & _ & Q)]]].
      * left. split; [reflexivity|]. destruct (RS seed seed' a h Ra Hh Q); auto.
      * left. split; [reflexivity|]. destruct (RS seed' seed a' h Ra' Hh Q); auto.
      * right. do 4 eexists. split; [left; exists a; auto|]. split; [left; exists a'; auto|]. exact Q.
      * right. do 4 eexists. split; [left; exists h; split; [intros j Hj; apply Ra; lia|auto]|].
        split; [left; exists h'; split; [intros j Hj; apply Ra'; lia|auto]|]. exact Q.
    + right. apply Forall_app in F' as [F' Fj]. inversion Fj as [|? ? Hj _]; subst.
      apply slip_snoc in P' as (z & P' & C).
      pose proof (slip_wf b L HL fuel' m' p' F' Wm' z P') as Wz.
      destruct (slip_child b L HL fuel' z x' j Wz Hj C) as (_ & n & Rn & En & _). rewrite En in E.
      rewrite master_cand_round, cand_round in E.
      do 4 eexists. split; [left; exists a; auto|]. split; [right; exists m', p', j, [], z, n; auto 10|].
      split; [|exact E]. intros Q. apply (f_equal (fun u => length (fst u))) in Q. cbn [fst] in Q.
      destruct Wz as [(_ & _ & Lc) _]. rewrite Lc in Q. destruct b; discriminate Q.
  - apply Forall_app in F as [F Fi]. inversion Fi as [|? ? Hi _]; subst.
    apply slip_snoc in P as (z & P & C). pose proof (slip_wf b L HL fuel m p F Wm z P) as Wz.
    destruct (slip_child b L HL fuel z x i Wz Hi C) as (_ & n & Rn & En & _). rewrite En in E.
    destruct p' as [|j p' _] using rev_ind.
    + injection P' as <-. rewrite Ea' in E. right. rewrite master_cand_round, cand_round in E.
      do 4 eexists. split; [right; exists m, p, i, [], z, n; auto 10|]. split; [left; exists a'; auto|].
      split; [|exact E]. intros Q. apply (f_equal (fun u => length (fst u))) in Q. cbn [fst] in Q.
      destruct Wz as [(_ & _ & Lc) _]. rewrite Lc in Q. destruct b; discriminate Q.
    + apply Forall_app in F' as [F' Fj]. inversion Fj as [|? ? Hj _]; subst.
      apply slip_snoc in P' as (z' & P' & C'). pose proof (slip_wf b L HL fuel' m' p' F' Wm' z' P') as Wz'.
      destruct (slip_child b L HL fuel' z' x' j Wz' Hj C') as (_ & n' & Rn' & En' & _). rewrite En' in E.
      apply child_rounds in E as [(Qc & _ & <-)|(h & h' & Hh & Hh' & Q)]; try assumption;
        try apply (data_length L HL); try apply (data_index L HL); try (apply data_head; [exact HL|apply Wz || apply Wz']).
      * destruct (IH F p' F' z z' P P' Qc) as [[-> H]|(c & d & c' & d' & A & B & H)]; [left; auto|].
        right. exists c, d, c', d'. split; [apply slip_input_snoc; exact A|].
        split; [apply slip_input_snoc; exact B|exact H].
      * right. do 4 eexists.
        split; [right; exists m, p, i, [], z, h; repeat split; auto; intros u Hu; apply Rn; lia|].
        split; [right; exists m', p', j, [], z', h'; repeat split; auto; intros u Hu; apply Rn'; lia|]. exact Q.
Qed.
Print Assumptions C75_tree_collision.

(** The exception is real: such a seed has the master key of the other. *)
Theorem C75_retried_seed dbg b L (HL : ec_laws L) seed seed' : seed_retry b L seed seed' ->
  exists n, forall fuel, new_slip10 dbg (n + fuel) (backend b L) seed = new_slip10 dbg fuel (backend b L) seed'.
Proof.
  intros (n & -> & R). exists (S n). intros fuel.
  assert (SH : forall n j, master_candidate (curve_key b) (master_candidate (curve_key b) seed n) j =
                           master_candidate (curve_key b) seed (S n + j)).
  { clear. induction n as [|n IH]; intros j.
    - cbn [master_candidate]. apply master_candidate_shift.
    - change (master_candidate (curve_key b) seed (S n)) with
        (hmac_sha512 (curve_key b) (master_candidate (curve_key b) seed n)).
      rewrite master_candidate_shift, IH. f_equal. lia. }
  destruct (C45_slip10_master dbg b L HL seed) as (A & A0 & _).
  destruct (C45_slip10_master dbg b L HL (master_candidate (curve_key b) seed n)) as (B & B0 & _).
  destruct (new_slip10 dbg fuel (backend b L) (master_candidate (curve_key b) seed n)) as [r|] eqn:E.
  - apply B in E as (j & Hj & [G F] & ->). rewrite SH in *. apply A. exists (S n + j)%nat.
    split; [lia|]. split; [|reflexivity]. split; [exact G|]. intros i Hi.
    destruct (Nat.le_gt_cases i n) as [K|K]; [apply R; exact K|].
    specialize (F (i - S n)%nat ltac:(lia)). rewrite SH in F. replace (S n + (i - S n))%nat with i in F by lia. exact F.
  - apply A0. intros j Hj. destruct (Nat.le_gt_cases j n) as [K|K]; [apply R; exact K|].
    pose proof (proj1 (B0 fuel) E (j - S n)%nat ltac:(lia)) as Q. rewrite SH in Q.
    replace (S n + (j - S n))%nat with j in Q by lia. exact Q.
Qed.
Print Assumptions C75_retried_seed.

(** Ed25519, where every candidate is a key. *)
Definition ed_input (dbg : profile) (D : EdLib) (seed : list byte) (p : list N) (key data : list byte) : Prop :=
  (key = bytes_of "ed25519 seed" /\ data = seed) \/
  exists m q i r (z : XPrv (Ed25519DalekBackend D)),
    new_slip10 dbg 1 (Ed25519DalekBackend D) seed = Some (Ok m) /\ p = q ++ i :: r /\
    slip10_hardened_path dbg 1 m (mkHP q) = Some (Ok z) /\
    key = m_chain (xprv_meta z) /\ data = [x00] ++ xprv_key z ++ be_bytes 4 i.

Lemma some_ok {A : Type} (o : option (res Error A)) a a' : o = Some (Ok a) -> o = Some (Ok a') -> a' = a.
Proof. intros ->. intros [= ->]. reflexivity. Qed.

Lemma key_parts {C : Curve} (z : XPrv C) d f i c k :
  z = mkXPrv {| m_depth := d; m_fingerprint := f; m_child := i; m_chain := c |} k ->
  xprv_key z = k /\ m_chain (xprv_meta z) = c.
Proof. intros ->. split; reflexivity. Qed.

Lemma second_length key data : length (skipn 32 (hmac_sha512 key data)) = 32%nat.
Proof. apply right_length. Qed.

Section Ed.
Context (dbg : profile) (D : EdLib) (HD : ed_laws D).
Lemma ed_fuel : forall s (z : XPrv (Ed25519DalekBackend D)) f, new_slip10 dbg f (Ed25519DalekBackend D) s = Some (Ok z) ->
    new_slip10 dbg 1 (Ed25519DalekBackend D) s = Some (Ok z) /\ exists f', f = S f'.
Proof.
  destruct (C49_ed25519_total dbg D HD) as (TM & TC & TP & _).
    intros s z [|f] H; [discriminate|]. split; [|eauto]. rewrite (TM 0%nat). rewrite (TM f) in H. exact H.
Qed.
Lemma ed_new fuel s (z : XPrv (Ed25519DalekBackend D)) :
  new_slip10 dbg (S fuel) (Ed25519DalekBackend D) s = Some (Ok z) ->
  xprv_key z = firstn 32 (hmac_sha512 (bytes_of "ed25519 seed") s) /\
  m_chain (xprv_meta z) = skipn 32 (hmac_sha512 (bytes_of "ed25519 seed") s).
Proof.
  destruct (C49_ed25519_total dbg D HD) as (TM & _). intros H.
  exact (key_parts z _ _ _ _ _ (some_ok _ _ _ (TM fuel s) H)).
Qed.
Lemma ed_child fuel (w y : XPrv (Ed25519DalekBackend D)) i : length (xprv_key w) = 32%nat ->
  slip10_hardened_child (S fuel) w (mkHC i) = Some (Ok y) ->
  m_chain (xprv_meta y) = skipn 32 (hmac_sha512 (m_chain (xprv_meta w)) ([x00] ++ xprv_key w ++ be_bytes 4 i)).
Proof.
  destruct (C49_ed25519_total dbg D HD) as (_ & TC & _). intros Lw H.
  exact (proj2 (key_parts y _ _ _ _ _ (some_ok _ _ _ (proj1 (TC fuel w i Lw)) H))).
Qed.
Lemma ed_master : forall s (z : XPrv (Ed25519DalekBackend D)), new_slip10 dbg 1 (Ed25519DalekBackend D) s = Some (Ok z) ->
    length (xprv_key z) = 32%nat /\ length (m_chain (xprv_meta z)) = 32%nat /\
    m_chain (xprv_meta z) = skipn 32 (hmac_sha512 (bytes_of "ed25519 seed") s).
Proof.
  destruct (C49_ed25519_total dbg D HD) as (TM & TC & TP & _).
    intros s z H. apply ed_new in H as [-> ->].
    split; [apply left_length|]. split; [apply second_length|reflexivity].
Qed.
Lemma ed_one : forall q (z y : XPrv (Ed25519DalekBackend D)) g, length (xprv_key z) = 32%nat ->
    Forall (fun i => 2 ^ 31 <= i < 2 ^ 32) q ->
    slip10_hardened_path dbg (S g) z (mkHP q) = Some (Ok y) -> slip10_hardened_path dbg 1 z (mkHP q) = Some (Ok y).
Proof.
  destruct (C49_ed25519_total dbg D HD) as (TM & TC & TP & _).
    intros q z y g Lz Fq H. destruct (TP g q z Lz) as (w & A & B & _).
    - eapply Forall_impl; [|exact Fq]. cbv beta. intros. lia.
    - rewrite (some_ok _ _ _ A H). apply B.
Qed.
Lemma ed_snoc : forall (z y : XPrv (Ed25519DalekBackend D)) q i, length (xprv_key z) = 32%nat ->
    length (m_chain (xprv_meta z)) = 32%nat ->
    Forall (fun i => 2 ^ 31 <= i < 2 ^ 32) (q ++ [i]) -> slip10_hardened_path dbg 1 z (mkHP (q ++ [i])) = Some (Ok y) ->
    exists w, slip10_hardened_path dbg 1 z (mkHP q) = Some (Ok w) /\ length (xprv_key w) = 32%nat /\
      length (m_chain (xprv_meta w)) = 32%nat /\
      m_chain (xprv_meta y) = skipn 32 (hmac_sha512 (m_chain (xprv_meta w)) ([x00] ++ xprv_key w ++ be_bytes 4 i)).
Proof.
  destruct (C49_ed25519_total dbg D HD) as (TM & TC & TP & _).
    intros z y q i Lz Lcz Fq H. apply Forall_app in Fq as [Fq Fi].
    assert (Fq' : Forall (fun i => 2 ^ 31 <= i) q) by (eapply Forall_impl; [|exact Fq]; cbv beta; intros; lia).
    assert (Fi' : Forall (fun i => 2 ^ 31 <= i) [i]) by (eapply Forall_impl; [|exact Fi]; cbv beta; intros; lia).
    destruct (C39_hardened_path_composition dbg (Ed25519DalekBackend D) 1 z q [i] Fq' Fi') as (A & _ & B).
    rewrite A in H. destruct (TP 0%nat q z Lz Fq') as (w & W & _ & K).
    rewrite W in H. exists w. split; [exact W|].
    assert (LW : length (xprv_key w) = 32%nat /\ length (m_chain (xprv_meta w)) = 32%nat).
    { clear -K Lz Lcz. apply pair_equal_spec.
      assert (G : forall l k c, length k = 32%nat -> length c = 32%nat ->
        (fun kc => (length (fst kc), length (snd kc))) (fold_left (fun '(k, c) i => (firstn 32 (ed_step D k c i), skipn 32 (ed_step D k c i))) l (k, c)) = (32%nat, 32%nat)).
      { induction l as [|a l IH]; intros k c A B; cbn [fold_left fst snd]; [rewrite A, B; reflexivity|].
        apply IH; [apply left_length|apply second_length]. }
      apply (f_equal (fun kc => (length (fst kc), length (snd kc)))) in K.
      exact (eq_trans K (G q _ _ Lz Lcz)). }
    destruct LW as [LW1 LW2]. split; [exact LW1|]. split; [exact LW2|].
    destruct (C39_hardened_path_composition dbg (Ed25519DalekBackend D) 1 w q [i] Fq' Fi') as (_ & _ & B').
    rewrite B' in H by (inversion Fi'; assumption). exact (ed_child 0 w y i LW1 H).
Qed.
End Ed.

Theorem C75_ed25519_collision dbg D (HD : ed_laws D) fuel fuel' seed seed' p p'
    (m m' x x' : XPrv (Ed25519DalekBackend D)) :
  Forall (fun i => 2 ^ 31 <= i < 2 ^ 32) p -> Forall (fun i => 2 ^ 31 <= i < 2 ^ 32) p' ->
  new_slip10 dbg fuel (Ed25519DalekBackend D) seed = Some (Ok m) ->
  slip10_hardened_path dbg fuel m (mkHP p) = Some (Ok x) ->
  new_slip10 dbg fuel' (Ed25519DalekBackend D) seed' = Some (Ok m') ->
  slip10_hardened_path dbg fuel' m' (mkHP p') = Some (Ok x') ->
  m_chain (xprv_meta x) = m_chain (xprv_meta x') ->
  (seed = seed' /\ p = p') \/
  exists c d c' d', ed_input dbg D seed p c d /\ ed_input dbg D seed' p' c' d' /\ half_collision c d c' d'.
Proof.
  intros F F' M P M' P'.
  pose proof (ed_fuel dbg D HD) as FUEL. pose proof (ed_master dbg D HD) as MC.
  pose proof (ed_one dbg D HD) as ONE. pose proof (ed_snoc dbg D HD) as SN.
  destruct (FUEL _ _ _ M) as [M1 [f ->]]. destruct (FUEL _ _ _ M') as [M1' [f' ->]]. clear M M' FUEL.
  destruct (MC _ _ M1) as (Lm & Lc & Cm). destruct (MC _ _ M1') as (Lm' & Lc' & Cm').
  apply (ONE p m x f Lm F) in P. apply (ONE p' m' x' f' Lm' F') in P'. clear ONE.
  (* one step more *)
  assert (IDX : forall k i, length k = 32%nat -> skipn 33 ([x00] ++ k ++ be_bytes 4 i) = be_bytes 4 i).
  { intros k i Lk. rewrite app_assoc, skipn_app, skipn_all2; rewrite app_length, Lk; [|reflexivity]. reflexivity. }
  assert (SNOC : forall s q i c d, ed_input dbg D s q c d -> ed_input dbg D s (q ++ [i]) c d).
  { intros s q i c d [H|(n & q' & j & r & z & N & -> & H)]; [left; exact H|]. right.
    exists n, q', j, (r ++ [i]), z. split; [exact N|]. split; [|exact H]. rewrite <- app_assoc. reflexivity. }
  revert p' F' x x' P P'. induction p as [|i p IH] using rev_ind; intros p' F' x x' P P' E.
  - injection P as <-. rewrite Cm in E. destruct p' as [|j p' _] using rev_ind.
    + injection P' as <-. rewrite Cm' in E.
      destruct (bytes_pair_dec (bytes_of "ed25519 seed", seed) (bytes_of "ed25519 seed", seed')) as [Q|Q].
      * left. apply pair_equal_spec in Q as [_ ->]. auto.
      * right. do 4 eexists. split; [left; auto|]. split; [left; auto|]. split; [exact Q|exact E].
    + right. destruct (SN m' x' p' j Lm' Lc' F' P') as (w & W & LW & LC & CW). rewrite CW in E.
      do 4 eexists. split; [left; auto|]. split; [right; exists m', p', j, [], w; auto|].
      split; [|exact E]. intros Q. apply (f_equal (fun u => length (fst u))) in Q. cbn [fst] in Q.
      rewrite LC in Q. discriminate Q.
  - destruct (SN m x p i Lm Lc F P) as (w & W & LW & LC & CW). rewrite CW in E.
    apply Forall_app in F as [F Fi]. inversion Fi as [|? ? Hi _]; subst.
    destruct p' as [|j p' _] using rev_ind.
    + injection P' as <-. rewrite Cm' in E. right. do 4 eexists. split; [right; exists m, p, i, [], w; auto|].
      split; [left; auto|]. split; [|exact E]. intros Q. apply (f_equal (fun u => length (fst u))) in Q.
      cbn [fst] in Q. rewrite LC in Q. discriminate Q.
    + destruct (SN m' x' p' j Lm' Lc' F' P') as (w' & W' & LW' & LC' & CW'). rewrite CW' in E.
      apply Forall_app in F' as [F' Fj]. inversion Fj as [|? ? Hj _]; subst.
      destruct (bytes_pair_dec (m_chain (xprv_meta w), [x00] ++ xprv_key w ++ be_bytes 4 i)
                               (m_chain (xprv_meta w'), [x00] ++ xprv_key w' ++ be_bytes 4 j)) as [Q|Q].
      * apply pair_equal_spec in Q as [Qc Qd]. apply (f_equal (skipn 33)) in Qd. rewrite !IDX in Qd by assumption.
        apply be4_inj in Qd; [|lia..]. subst j.
        destruct (IH F p' F' w w' W W' Qc) as [[-> ->]|(c & d & c' & d' & A & B & H)]; [left; auto|].
        right. exists c, d, c', d'. split; [apply SNOC; exact A|]. split; [apply SNOC; exact B|exact H].
      * right. do 4 eexists. split; [right; exists m, p, i, [], w; auto|].
        split; [right; exists m', p', j, [], w'; auto|]. split; [exact Q|exact E].
Qed.
Print Assumptions C75_ed25519_collision.

(** A rejected seed and the seed tried next have the same master key; below it, keys of
    different paths have different chain codes. *)
Definition ex_seed : list byte := unhex "000102030405060708090a0b0c0d0e0f".
Definition retried : list byte := hmac_sha512 (curve_key K256) ex_seed.
Lemma seed_retried b L s :
  order L <=? be_val (firstn 32 (hmac_sha512 (curve_key b) s)) = true ->
  seed_retry b L s (hmac_sha512 (curve_key b) s).
Proof.
  intros B. apply N.leb_le in B. exists 0%nat. split; [reflexivity|]. intros j Hj [_ H].
  replace j with 0%nat in H by lia. cbn [master_candidate] in H. apply N.le_ngt in B. exact (B H).
Qed.
Example C75_case : ec_laws HalfCyclic /\ seed_retry K256 HalfCyclic ex_seed retried /\
  match new_slip10 true 1 (backend K256 HalfCyclic) ex_seed, new_slip10 true 2 (backend K256 HalfCyclic) ex_seed,
    new_slip10 true 1 (backend K256 HalfCyclic) retried with
  | None, Some (Ok m), Some (Ok m') =>
      (xprv_key m =? xprv_key m') && bytes_eqb (m_chain (xprv_meta m)) (m_chain (xprv_meta m')) &&
      match slip10_prv_path 9 m [2147483648; 1], slip10_prv_path 9 m [7] with
      | Some (Ok x), Some (Ok y) => negb (bytes_eqb (m_chain (xprv_meta x)) (m_chain (xprv_meta y)))
      | _, _ => false
      end
  | _, _, _ => false end = true.
Proof.
  split; [exact half_cyclic_laws|]. split; [|vm_cast_no_check (eq_refl true)].
  apply seed_retried. vm_cast_no_check (eq_refl true).
Qed.

(** ** C76 *)
(** The accepted left half of the search for child [i] below a public key; public data only. *)
Fixpoint found_tweak (fuel : nat) (b : Library) {L : ECLib} (K : point L) (chain : list byte) (i : N)
    (data : list byte) : N :=
  match fuel with
  | O => 0
  | S fuel' =>
      let I := hmac_sha512 chain data in
      match pub_add_tweak (backend b L) K (firstn 32 I) with
      | inr _ => be_val (firstn 32 I)
      | inl _ => found_tweak fuel' b K chain i ([x01] ++ skipn 32 I ++ be_bytes 4 i)
      end
  end.
(** The sum of the tweaks of a public derivation along [p]. *)
Fixpoint slip_tweaks (fuel : nat) {b : Library} {L : ECLib} (x : XPub (backend b L)) (p : list N) : N :=
  match p with
  | [] => 0
  | i :: r =>
      found_tweak fuel b (xpub_key x) (m_chain (xpub_meta x)) i (compress L (xpub_key x) ++ be_bytes 4 i) +
      match slip10_pub_child fuel x i with Some (Ok y) => slip_tweaks fuel y r | _ => 0 end
  end.

Lemma loop_tweak b L (HL : ec_laws L) k chain i fuel : forall data k' c,
  slip10_loop fuel chain (prv_add_tweak (backend b L) k) (child_to_bytes i) data = Some (Ok (k', c)) ->
  k' = (found_tweak fuel b (pmul L k (gen L)) chain i data + k) mod order L.
Proof.
  induction fuel as [|fuel IH]; intros data k' c; cbn [slip10_loop found_tweak]; [discriminate|].
  cbv zeta. rewrite hmac_split_eq. pose proof (tweak_agree L HL b k (firstn 32 (hmac_sha512 chain data))) as A.
  destruct (prv_add_tweak _ k _) as [s|k1] eqn:E; destruct (pub_add_tweak _ _ _) as [s'|K1]; try contradiction.
  - rewrite retry_ok by apply right_length. apply IH.
  - intros H. apply (f_equal (fun o => match o with Some (Ok (u, _)) => u | _ => k1 end)) in H.
    lazy beta iota in H. subst k'. apply (prv_tweak_iff L HL) in E as (_ & -> & _). reflexivity.
Qed.
Lemma slip_path_key b L (HL : ec_laws L) fuel p : forall (x y : XPrv (backend b L)),
  xprv_wf x -> Forall (fun i => i < 2 ^ 31) p -> slip10_prv_path fuel x p = Some (Ok y) ->
  xprv_key y = (xprv_key x + slip_tweaks fuel (xprv_public x) p) mod order L.
Proof.
  pose proof (order_nz L HL) as NZ.
  assert (SHIFT : forall u v w, u + v + w = v + (u + w)) by (clear; lia).
  induction p as [|i p IH]; intros x y Hx F P.
  - injection P as <-. cbn [slip_tweaks]. rewrite N.add_0_r, N.mod_small by apply Hx. reflexivity.
  - inversion F as [|? ? Hi Fp]; subst. unfold slip10_prv_path in P. cbn [path_loop] in P.
    destruct (slip10_prv_child fuel x i) as [[z|e|]|] eqn:C; try discriminate.
    pose proof (C48_slip10_neuter_commutes b L HL fuel [i] x Hx (Forall_cons i Hi (Forall_nil _))) as Q.
    unfold slip10_prv_path, slip10_pub_path in Q. cbn [path_loop] in Q. rewrite C in Q.
    assert (C' : slip10_pub_child fuel (xprv_public x) i = Some (Ok (xprv_public z))).
    { destruct (slip10_pub_child fuel (xprv_public x) i) as [[w|e|]|]; try discriminate. exact Q. }
    cbn [slip_tweaks]. rewrite C'.
    assert (Wz : xprv_wf z) by (refine (proj1 (slip_child b L HL fuel x z i Hx _ C)); lia).
    rewrite (IH z y Wz Fp P).
    rewrite prv_child_loop in C; [|apply be_bytes_length|apply (compress_length L HL)].
    unfold gen_data in C. rewrite (proj2 (N.leb_gt (2 ^ 31) i) Hi) in C.
    destruct (slip10_loop _ _ _ _ _) as [[[k c]|e|]|] eqn:El in C; try discriminate.
    apply (loop_tweak b L HL) in El. cbn [omap option_map res_map] in C.
    assert (K : xprv_key z = k).
    { apply (f_equal (fun o => match o with Some (Ok u) => xprv_key u | _ => k end)) in C. symmetry. exact C. }
    rewrite K, El. cbn [xprv_public xpub_meta xpub_key].
    rewrite N.add_mod_idemp_l by exact NZ. refine (f_equal (fun s => s mod order L) _). apply SHIFT.
Qed.
(** C76: whoever has an extended public key and the private key of one SLIP-0010 descendant
    along a path without hardened step can compute the extended private key. *)
Theorem C76_parent_recovery b L (HL : ec_laws L) fuel (x y : XPrv (backend b L)) p :
  xprv_wf x -> Forall (fun i => i < 2 ^ 31) p -> slip10_prv_path fuel x p = Some (Ok y) ->
  let X := xprv_public x in
  let t := slip_tweaks fuel X p in
  x = @mkXPrv (backend b L) (xpub_meta X) ((xprv_key y + (order L - t mod order L)) mod order L).
Proof.
  intros W F P X t. pose proof (order_nz L HL) as NZ. pose proof (proj2 (proj2 W)) as V.
  rewrite (slip_path_key b L HL fuel p x y W F P). fold X. fold t.
  rewrite N.add_mod_idemp_l by exact NZ.
  replace (xprv_key x + t + (order L - t mod order L)) with (xprv_key x + (1 + t / order L) * order L).
  - rewrite N.mod_add by exact NZ. rewrite N.mod_small by exact V. destruct x. reflexivity.
  - pose proof (N.div_mod t (order L) NZ). pose proof (N.mod_lt t (order L) NZ). lia.
Qed.
Print Assumptions C76_parent_recovery.

Definition half_prv : XPrv (backend K256 HalfCyclic) := @mkXPrv (backend K256 HalfCyclic) ex_meta 5.
(** One of the two steps takes more than one round. *)
Example C76_case : ec_laws HalfCyclic /\ xprv_wf half_prv /\
  match slip10_prv_path 1 half_prv [3; 0], slip10_prv_path 9 half_prv [3; 0] with
  | None, Some (Ok y) =>
      let t := slip_tweaks 9 (xprv_public half_prv) [3; 0] in
      negb (xprv_key y =? 5) && ((xprv_key y + (2 ^ 255 - t mod 2 ^ 255)) mod 2 ^ 255 =? 5)
  | _, _ => false
  end = true.
Proof.
  split; [exact half_cyclic_laws|]. split; [|vm_cast_no_check (eq_refl true)].
  split; [apply (ex_prv_wf K256)|]. split; reflexivity.
Qed.
