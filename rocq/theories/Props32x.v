(** Property theorems for the bip0032 crate: what different seeds and paths have in common
    (C65) and what a child key gives away about its parent (C66). *)
From Verif Require Import Base Str Sha2 Error32 Path32 Version32 Meta32 Payload32 Curve32 XKey32
  XKeySpec32 XKeyProofs32 Cyclic32 Props32k.

(** ** C65 *)
(** The inputs (key, data) given to HMAC-SHA512 while deriving path [p] from [seed]. *)
Definition seed_input (dbg : profile) (b : Library) (L : ECLib) (seed : list byte) (p : list N)
    (key data : list byte) : Prop :=
  (key = curve_key b /\ data = seed) \/
  exists m q i r (z : XPrv (backend b L)), xprv_new dbg (backend b L) seed = Ok m /\
    p = q ++ i :: r /\ xprv_derive_path dbg m q = Ok z /\
    key = m_chain (xprv_meta z) /\ data = ckd_priv_data L (xprv_key z) i.
(** The same for public derivation from [x]. *)
Definition public_input (dbg : profile) {b : Library} {L : ECLib} (x : XPub (backend b L)) (p : list N)
    (key data : list byte) : Prop :=
  exists q i r z, p = q ++ i :: r /\ xpub_derive_path dbg x q = Ok z /\
    key = m_chain (xpub_meta z) /\ data = compress L (xpub_key z) ++ be_bytes 4 i.
(** Two different inputs of HMAC-SHA512 with the same right half. *)
Definition half_collision (key data key' data' : list byte) : Prop :=
  (key, data) <> (key', data') /\ skipn 32 (hmac_sha512 key data) = skipn 32 (hmac_sha512 key' data').

Section Laws.
Context (L : ECLib) (HL : ec_laws L).

Lemma data_length k i : length (ckd_priv_data L k i) = 37%nat.
Proof.
  unfold ckd_priv_data. destruct (2 ^ 31 <=? i); rewrite !app_length, !be_bytes_length; [reflexivity|].
  rewrite (compress_length L HL). reflexivity.
Qed.
Lemma data_index k i : skipn 33 (ckd_priv_data L k i) = be_bytes 4 i.
Proof.
  unfold ckd_priv_data. destruct (2 ^ 31 <=? i).
  - rewrite app_assoc, skipn_app, skipn_all2; rewrite app_length, be_bytes_length; [|reflexivity].
    reflexivity.
  - rewrite skipn_app, skipn_all2; rewrite (compress_length L HL); [|reflexivity]. reflexivity.
Qed.
Lemma pub_data_index K i : skipn 33 (compress L K ++ be_bytes 4 i) = be_bytes 4 i.
Proof. rewrite skipn_app, skipn_all2; rewrite (compress_length L HL); [|reflexivity]. reflexivity. Qed.
Lemma be4_inj i j : i < 2 ^ 32 -> j < 2 ^ 32 -> be_bytes 4 i = be_bytes 4 j -> i = j.
Proof.
  intros Hi Hj E. apply (f_equal be_val) in E. rewrite !be_val_be_bytes in E.
  change (256 ^ N.of_nat 4) with (2 ^ 32) in E. rewrite !N.mod_small in E by assumption. exact E.
Qed.

Lemma prv_child_chain dbg b (x y : XPrv (backend b L)) i : xprv_derive_child dbg x i = Ok y ->
  m_chain (xprv_meta y) = skipn 32 (hmac_sha512 (m_chain (xprv_meta x)) (ckd_priv_data L (xprv_key x) i)).
Proof.
  rewrite derive_child_eq by apply be_bytes_length. cbv zeta. rewrite (gen_data_eq L b).
  destruct (prv_add_tweak _ _ _); [discriminate|]. intros [= <-]. reflexivity.
Qed.
Lemma pub_child_chain dbg b (x y : XPub (backend b L)) i : xpub_derive_child dbg x i = Ok y ->
  m_chain (xpub_meta y) = skipn 32 (hmac_sha512 (m_chain (xpub_meta x)) (compress L (xpub_key x) ++ be_bytes 4 i)).
Proof.
  rewrite derive_pub_eq. cbv zeta. destruct (2 ^ 31 <=? i); [discriminate|].
  destruct (pub_add_tweak _ _ _); [discriminate|]. intros [= <-]. reflexivity.
Qed.
Lemma master_chain dbg b seed (m : XPrv (backend b L)) : xprv_new dbg (backend b L) seed = Ok m ->
  m_chain (xprv_meta m) = skipn 32 (hmac_sha512 (curve_key b) seed).
Proof.
  rewrite xprv_new_eq. cbv zeta.
  assert (HI : hmac_sha512 (hmac_key (backend b L)) seed = hmac_sha512 (curve_key b) seed) by (destruct b; reflexivity).
  rewrite HI. destruct (prv_from_bytes _ _); [discriminate|]. intros [= <-]. reflexivity.
Qed.
Lemma prv_path_snoc dbg b (x y : XPrv (backend b L)) q i : xprv_derive_path dbg x (q ++ [i]) = Ok y ->
  exists z, xprv_derive_path dbg x q = Ok z /\ xprv_derive_child dbg z i = Ok y.
Proof.
  destruct (C39_path_composition dbg (backend b L) 0) as (A & _ & B & _). rewrite A.
  destruct (xprv_derive_path dbg x q) as [z|e|]; [|discriminate..]. rewrite B. eauto.
Qed.
Lemma pub_path_snoc dbg b (x y : XPub (backend b L)) q i : xpub_derive_path dbg x (q ++ [i]) = Ok y ->
  exists z, xpub_derive_path dbg x q = Ok z /\ xpub_derive_child dbg z i = Ok y.
Proof.
  destruct (C39_path_composition dbg (backend b L) 0) as (_ & _ & _ & A & _ & B & _). rewrite A.
  destruct (xpub_derive_path dbg x q) as [z|e|]; [|discriminate..]. rewrite B. eauto.
Qed.
Lemma chain_length dbg b seed (m : XPrv (backend b L)) q z : xprv_new dbg (backend b L) seed = Ok m ->
  xprv_derive_path dbg m q = Ok z -> length (m_chain (xprv_meta z)) = 32%nat.
Proof.
  intros M. destruct q as [|i q _] using rev_ind.
  - cbn [xprv_derive_path]. intros [= <-]. rewrite (master_chain dbg b seed m M). apply right_length.
  - intros H. apply prv_path_snoc in H as (w & _ & H). rewrite (prv_child_chain _ _ _ _ _ H). apply right_length.
Qed.
Lemma seed_input_snoc dbg b seed q i c d :
  seed_input dbg b L seed q c d -> seed_input dbg b L seed (q ++ [i]) c d.
Proof.
  intros [H|(m & q' & j & r & z & M & -> & H)]; [left; exact H|]. right.
  exists m, q', j, (r ++ [i]), z. split; [exact M|]. split; [|exact H]. rewrite <- app_assoc. reflexivity.
Qed.
Lemma public_input_snoc dbg b (x : XPub (backend b L)) q i c d :
  public_input dbg x q c d -> public_input dbg x (q ++ [i]) c d.
Proof.
  intros (q' & j & r & z & -> & H). exists q', j, (r ++ [i]), z. split; [|exact H].
  rewrite <- app_assoc. reflexivity.
Qed.
Lemma bytes_pair_dec (a b : list byte * list byte) : {a = b} + {a <> b}.
Proof. decide equality; apply (list_eq_dec Byte.byte_eq_dec). Qed.
End Laws.

(** C65: keys of two seed-and-path pairs have different chain codes, unless the two
    derivations have fed HMAC-SHA512 two different inputs with the same right half. *)
Theorem C65_tree_collision dbg b L (HL : ec_laws L) seed seed' p p' (m m' x x' : XPrv (backend b L)) :
  Forall (fun i => i < 2 ^ 32) p -> Forall (fun i => i < 2 ^ 32) p' ->
  xprv_new dbg (backend b L) seed = Ok m -> xprv_derive_path dbg m p = Ok x ->
  xprv_new dbg (backend b L) seed' = Ok m' -> xprv_derive_path dbg m' p' = Ok x' ->
  m_chain (xprv_meta x) = m_chain (xprv_meta x') ->
  (seed = seed' /\ p = p') \/
  exists c d c' d', seed_input dbg b L seed p c d /\ seed_input dbg b L seed' p' c' d' /\
    half_collision c d c' d'.
Proof.
  intros F F' M P M' P'.
  revert p' F' x x' P P'. induction p as [|i p IH] using rev_ind; intros p' F' x x' P P' E.
  - cbn [xprv_derive_path] in P. injection P as <-. rewrite (master_chain _ _ _ _ _ M) in E.
    destruct p' as [|j p' _] using rev_ind.
    + cbn [xprv_derive_path] in P'. injection P' as <-. rewrite (master_chain _ _ _ _ _ M') in E.
      destruct (bytes_pair_dec (curve_key b, seed) (curve_key b, seed')) as [Q|Q].
      * left. injection Q as ->. auto.
      * right. exists (curve_key b), seed, (curve_key b), seed'. split; [left; auto|]. split; [left; auto|].
        split; [exact Q|exact E].
    + right. apply prv_path_snoc in P' as (z & P' & C). rewrite (prv_child_chain _ _ _ _ _ _ C) in E.
      exists (curve_key b), seed, (m_chain (xprv_meta z)), (ckd_priv_data L (xprv_key z) j).
      split; [left; auto|]. split.
      * right. exists m', p', j, [], z. auto.
      * split; [|exact E]. intros Q. apply (f_equal (fun a => length (fst a))) in Q. cbn [fst] in Q.
        rewrite (chain_length _ _ _ _ _ _ _ M' P') in Q. destruct b; discriminate Q.
  - apply Forall_app in F as [F Fi]. inversion Fi as [|? ? Hi _]; subst.
    apply prv_path_snoc in P as (z & P & C). rewrite (prv_child_chain _ _ _ _ _ _ C) in E.
    destruct p' as [|j p' _] using rev_ind.
    + cbn [xprv_derive_path] in P'. injection P' as <-. rewrite (master_chain _ _ _ _ _ M') in E. right.
      exists (m_chain (xprv_meta z)), (ckd_priv_data L (xprv_key z) i), (curve_key b), seed'.
      split; [right; exists m, p, i, [], z; auto|]. split; [left; auto|].
      split; [|exact E]. intros Q. apply (f_equal (fun a => length (fst a))) in Q. cbn [fst] in Q.
      rewrite (chain_length _ _ _ _ _ _ _ M P) in Q. destruct b; discriminate Q.
    + apply Forall_app in F' as [F' Fj]. inversion Fj as [|? ? Hj _]; subst.
      apply prv_path_snoc in P' as (z' & P' & C'). rewrite (prv_child_chain _ _ _ _ _ _ C') in E.
      destruct (bytes_pair_dec (m_chain (xprv_meta z), ckd_priv_data L (xprv_key z) i)
                               (m_chain (xprv_meta z'), ckd_priv_data L (xprv_key z') j)) as [Q|Q].
      * apply pair_equal_spec in Q as [Qc Qd]. apply (f_equal (skipn 33)) in Qd. rewrite !data_index in Qd by exact HL.
        apply be4_inj in Qd; [|assumption..]. subst j.
        destruct (IH F p' F' z z' P P' Qc) as [[-> ->]|(c & d & c' & d' & A & B & H)]; [left; auto|].
        right. exists c, d, c', d'. split; [apply seed_input_snoc; exact A|]. split; [apply seed_input_snoc; exact B|exact H].
      * right. do 4 eexists. split; [right; exists m, p, i, [], z; auto|].
        split; [right; exists m', p', j, [], z'; auto|]. split; [exact Q|exact E].
Qed.
(** The same for two paths of one length below a public key. *)
Theorem C65_public_collision dbg b L (HL : ec_laws L) (x : XPub (backend b L)) p p' y y' :
  length p = length p' ->
  xpub_derive_path dbg x p = Ok y -> xpub_derive_path dbg x p' = Ok y' ->
  m_chain (xpub_meta y) = m_chain (xpub_meta y') ->
  p = p' \/
  exists c d c' d', public_input dbg x p c d /\ public_input dbg x p' c' d' /\ half_collision c d c' d'.
Proof.
  revert p' y y'. induction p as [|i p IH] using rev_ind; intros p' y y' Len P P' E.
  - left. destruct p'; [reflexivity|discriminate].
  - destruct p' as [|j p' _] using rev_ind; [rewrite app_length in Len; cbn in Len; lia|].
    rewrite !app_length in Len. cbn [length] in Len.
    apply pub_path_snoc in P as (z & P & C). apply pub_path_snoc in P' as (z' & P' & C').
    rewrite (pub_child_chain _ _ _ _ _ _ C), (pub_child_chain _ _ _ _ _ _ C') in E.
    assert (SM : forall w w' k, xpub_derive_child dbg w k = Ok w' :> res Error (XPub (backend b L)) -> k < 2 ^ 31).
    { intros w w' k. rewrite derive_pub_eq. destruct (2 ^ 31 <=? k) eqn:K; [discriminate|]. lia. }
    pose proof (SM _ _ _ C) as Hi. pose proof (SM _ _ _ C') as Hj.
    destruct (bytes_pair_dec (m_chain (xpub_meta z), compress L (xpub_key z) ++ be_bytes 4 i)
                             (m_chain (xpub_meta z'), compress L (xpub_key z') ++ be_bytes 4 j)) as [Q|Q].
    + apply pair_equal_spec in Q as [Qc Qd]. apply (f_equal (skipn 33)) in Qd.
      rewrite !pub_data_index in Qd by exact HL. apply be4_inj in Qd; [|lia..]. subst j.
      destruct (IH p' z z' ltac:(lia) P P' Qc) as [->|(c & d & c' & d' & A & B & H)]; [left; reflexivity|].
      right. exists c, d, c', d'. split; [apply public_input_snoc; exact A|].
      split; [apply public_input_snoc; exact B|exact H].
    + right. do 4 eexists. split; [exists p, i, [], z; auto|]. split; [exists p', j, [], z'; auto|].
      split; [exact Q|exact E].
Qed.
Print Assumptions C65_tree_collision.
Print Assumptions C65_public_collision.

(** Two different paths below one seed, of different length: both derivations succeed and
    the chain codes differ. *)
Example C65_case :
  match xprv_new true (backend K256 Cyclic) (unhex "000102030405060708090a0b0c0d0e0f") with
  | Ok m =>
      match xprv_derive_path true m [2147483648; 1], xprv_derive_path true m [7] with
      | Ok x, Ok y => negb (bytes_eqb (m_chain (xprv_meta x)) (m_chain (xprv_meta y)))
      | _, _ => false
      end
  | _ => false end = true.
Proof. vm_cast_no_check (eq_refl true). Qed.

(** ** C66 *)
(** The sum of the tweaks of a public derivation along [p]; public data only. *)
Fixpoint public_tweaks (dbg : profile) {b : Library} {L : ECLib} (x : XPub (backend b L)) (p : list N) : N :=
  match p with
  | [] => 0
  | i :: r =>
      be_val (firstn 32 (hmac_sha512 (m_chain (xpub_meta x)) (compress L (xpub_key x) ++ be_bytes 4 i))) +
      match xpub_derive_child dbg x i with Ok y => public_tweaks dbg y r | _ => 0 end
  end.
Lemma path_key dbg b L (HL : ec_laws L) p : forall (x y : XPrv (backend b L)),
  xprv_key x < order L -> Forall (fun i => i < 2 ^ 31) p -> xprv_derive_path dbg x p = Ok y ->
  xprv_key y = (xprv_key x + public_tweaks dbg (xprv_public x) p) mod order L.
Proof.
  pose proof (order_nz L HL) as NZ.
  assert (SHIFT : forall u v w, u + v + w = v + (u + w)) by (clear; lia).
  induction p as [|i p IH]; intros x y Hx F P.
  - cbn [xprv_derive_path] in P. injection P as <-. cbn [public_tweaks]. rewrite N.add_0_r, N.mod_small by exact Hx.
    reflexivity.
  - inversion F as [|? ? Hi Fp]; subst. cbn [xprv_derive_path] in P.
    pose proof (child_commute L HL dbg b x i Hi) as CC.
    destruct (xprv_derive_child dbg x i) as [z|e|] eqn:C; [|discriminate..]. cbn [bind] in P.
    cbn [public_tweaks]. destruct (xpub_derive_child dbg (xprv_public x) i) as [z'|e|]; try contradiction. subst z'.
    rewrite derive_child_eq in C by apply be_bytes_length. cbv zeta in C. rewrite (gen_data_eq L b) in C.
    destruct (prv_add_tweak _ _ _) as [s|k] eqn:T; [discriminate|]. injection C as <-.
    apply (prv_tweak_iff L HL) in T as (_ & Hk & _).
    assert (K : k < order L) by (rewrite Hk; apply N.mod_lt; exact NZ).
    pose proof (fun H => IH _ y H Fp P) as Q. cbn [xprv_key] in Q. rewrite (Q K). cbn [xprv_key]. rewrite Hk. unfold ckd_priv_data. rewrite (proj2 (N.leb_gt (2 ^ 31) i) Hi).
    cbn [xprv_public xpub_meta xpub_key]. change (prv_to_public (backend b L) (xprv_key x)) with (pmul L (xprv_key x) (gen L)).
    rewrite N.add_mod_idemp_l by exact NZ.
    refine (f_equal (fun s => s mod order L) _). apply SHIFT.
Qed.
(** C66: whoever has an extended public key and the private key of one descendant along a
    path without hardened step can compute the extended private key. *)
Theorem C66_parent_recovery dbg b L (HL : ec_laws L) (x y : XPrv (backend b L)) p :
  xprv_wf x -> Forall (fun i => i < 2 ^ 31) p -> xprv_derive_path dbg x p = Ok y ->
  let X := xprv_public x in
  let t := public_tweaks dbg X p in
  x = @mkXPrv (backend b L) (xpub_meta X) ((xprv_key y + (order L - t mod order L)) mod order L).
Proof.
  intros [_ [_ V]] F P X t. pose proof (order_nz L HL) as NZ.
  rewrite (path_key dbg b L HL p x y V F P). fold X. fold t.
  rewrite N.add_mod_idemp_l by exact NZ.
  replace (xprv_key x + t + (order L - t mod order L)) with (xprv_key x + (1 + t / order L) * order L).
  - rewrite N.mod_add by exact NZ. rewrite N.mod_small by exact V. destruct x. reflexivity.
  - pose proof (N.div_mod t (order L) NZ). pose proof (N.mod_lt t (order L) NZ). lia.
Qed.
Print Assumptions C66_parent_recovery.

Example C66_case : ec_laws Cyclic /\ xprv_wf (ex_prv K256) /\
  match xprv_derive_path true (ex_prv K256) [3; 0] with
  | Ok y =>
      let t := public_tweaks true (xprv_public (ex_prv K256)) [3; 0] in
      negb (xprv_key y =? xprv_key (ex_prv K256)) &&
      ((xprv_key y + (cy_n - t mod cy_n)) mod cy_n =? xprv_key (ex_prv K256))
  | _ => false
  end = true.
Proof. split; [exact cyclic_laws|]. split; [apply ex_prv_wf|]. vm_cast_no_check (eq_refl true). Qed.
