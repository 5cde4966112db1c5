(** Proofs about the SLIP-0010 retry loops. *)
From Verif Require Import Base Str Sha2 Error32 Version32 Path32 PathProofs32 Meta32
  PayloadProofs32 Curve32 XKey32 Slip10 XKeySpec32 XKeyProofs32.

Lemma retry_ok ir i : length ir = 32%nat ->
  retry_data ir (child_to_bytes i) = Ok ([x01] ++ ir ++ be_bytes 4 i).
Proof.
  intros L. unfold retry_data. change (zeros 37) with ([] ++ zeros (37 - 0)).
  rewrite put_next; [|reflexivity|lia|reflexivity]. cbn [bind app].
  change (x01 :: zeros (37 - 1)) with ([x01] ++ zeros (37 - 1)).
  rewrite put_next; [|reflexivity|lia|exact L]. cbn [bind].
  rewrite put_next; [|rewrite app_length, L; reflexivity|lia|apply be_bytes_length].
  change (zeros (37 - 37)) with (@nil byte). rewrite app_nil_r, <- app_assoc. reflexivity.
Qed.

Lemma child_candidate_shift chain data i j :
  child_candidate chain ([x01] ++ IR (hmac_sha512 chain data) ++ be_bytes 4 i) i j =
  child_candidate chain data i (S j).
Proof.
  induction j as [|j IH]; [reflexivity|].
  change (child_candidate chain ([x01] ++ IR (hmac_sha512 chain data) ++ be_bytes 4 i) i (S j)) with
    (hmac_sha512 chain ([x01] ++ IR (child_candidate chain ([x01] ++ IR (hmac_sha512 chain data) ++ be_bytes 4 i) i j) ++ be_bytes 4 i)).
  rewrite IH. reflexivity.
Qed.
Lemma master_candidate_shift key seed j :
  master_candidate key (hmac_sha512 key seed) j = master_candidate key seed (S j).
Proof. induction j as [|j IH]; [reflexivity|]. cbn [master_candidate] in *. rewrite IH. reflexivity. Qed.

(** What a terminated search returns. *)
Definition found {K : Type} (try_key : list byte -> Source + K) (cand : nat -> list byte)
    (j : nat) (k : K) : Prop :=
  try_key (firstn 32 (cand j)) = inr k /\
  forall i, (i < j)%nat -> exists s, try_key (firstn 32 (cand i)) = inl s.

Lemma found_unique {K : Type} (t : list byte -> Source + K) c j j' k k' :
  found t c j k -> found t c j' k' -> j = j' /\ k = k'.
Proof.
  intros [A B] [A' B']. destruct (Nat.lt_trichotomy j j') as [H|[H|H]].
  - destruct (B' j H). congruence.
  - subst j'. split; congruence.
  - destruct (B j' H). congruence.
Qed.

Lemma loop_spec {K : Type} (t : list byte -> Source + K) chain i fuel : forall data,
  (exists j k, (j < fuel)%nat /\ found t (child_candidate chain data i) j k /\
     slip10_loop fuel chain t (child_to_bytes i) data = Some (Ok (k, IR (child_candidate chain data i j)))) \/
  ((forall j, (j < fuel)%nat -> exists s, t (firstn 32 (child_candidate chain data i j)) = inl s) /\
   slip10_loop fuel chain t (child_to_bytes i) data = None).
Proof.
  induction fuel as [|fuel IH]; intros data; cbn [slip10_loop].
  - right. split; [intros j H; lia|reflexivity].
  - rewrite hmac_split_eq. destruct (t (firstn 32 (hmac_sha512 chain data))) as [s|k] eqn:E.
    + rewrite retry_ok by apply right_length.
      destruct (IH ([x01] ++ IR (hmac_sha512 chain data) ++ be_bytes 4 i)) as [(j & k & Hj & [F G] & R)|[F R]].
      * left. exists (S j), k. rewrite child_candidate_shift in F, R. split; [lia|]. split; [|exact R].
        split; [exact F|]. intros [|i'] H; [exists s; exact E|].
        destruct (G i') as [s' Es]; [lia|]. exists s'. rewrite child_candidate_shift in Es. exact Es.
      * right. split; [|exact R]. intros [|j] H; [exists s; exact E|].
        destruct (F j) as [s' Es]; [lia|]. exists s'. rewrite child_candidate_shift in Es. exact Es.
    + left. exists 0%nat, k. split; [lia|]. split; [|reflexivity]. split; [exact E|]. intros i' H. lia.
Qed.

Lemma master_spec dbg C fuel : forall seed,
  (exists j k, (j < fuel)%nat /\ found (prv_from_bytes C) (master_candidate (hmac_key C) seed) j k /\
     slip10_master_loop dbg fuel C seed =
     Some (Ok (mkXPrv (master_meta (IR (master_candidate (hmac_key C) seed j))) k))) \/
  ((forall j, (j < fuel)%nat ->
      exists s, prv_from_bytes C (firstn 32 (master_candidate (hmac_key C) seed j)) = inl s) /\
   slip10_master_loop dbg fuel C seed = None).
Proof.
  induction fuel as [|fuel IH]; intros seed; cbn [slip10_master_loop].
  - right. split; [intros j H; lia|reflexivity].
  - unfold derive_master_key_parts. rewrite hmac_split_eq.
    set (I0 := hmac_sha512 (hmac_key C) seed).
    assert (L : length (firstn 32 I0) = 32%nat) by apply left_length.
    assert (R : length (IR I0) = 32%nat) by apply right_length.
    destruct (prv_from_bytes C (firstn 32 I0)) as [s|k] eqn:E.
    + change (zeros 64) with ([] ++ zeros (64 - 0)).
      rewrite put_next; [|reflexivity|lia|exact L]. cbn [app].
      rewrite put_next; [|exact L|lia|exact R].
      change (zeros (64 - 64)) with (@nil byte). rewrite app_nil_r.
      assert (FS : firstn 32 I0 ++ IR I0 = I0) by apply firstn_skipn.
      rewrite !FS.
      assert (NE : is_empty I0 = false).
      { pose proof (hmac_sha512_length (hmac_key C) seed) as HL. fold I0 in HL.
        destruct I0; [discriminate|reflexivity]. }
      rewrite NE.
      destruct (IH I0) as [(j & k & Hj & [F G] & Q)|[F Q]].
      * left. exists (S j), k. unfold I0 in F, Q. rewrite master_candidate_shift in F, Q.
        split; [lia|]. split; [|exact Q]. split; [exact F|]. intros [|i'] H; [exists s; exact E|].
        destruct (G i') as [s' Es]; [lia|]. exists s'. unfold I0 in Es.
        rewrite master_candidate_shift in Es. exact Es.
      * right. split; [|exact Q]. intros [|j] H; [exists s; exact E|].
        destruct (F j) as [s' Es]; [lia|]. exists s'. unfold I0 in Es.
        rewrite master_candidate_shift in Es. exact Es.
    + left. exists 0%nat, k. split; [lia|]. split; [|reflexivity]. split; [exact E|]. intros i' H. lia.
Qed.

(** Two searches over the same candidates that succeed together. *)
Lemma loop_map {K K' : Type} (f : K -> K') (t : list byte -> Source + K) (t' : list byte -> Source + K')
    chain cb fuel : forall data,
  (forall b, match t b, t' b with
             | inr k, inr k' => k' = f k
             | inl _, inl _ => True
             | _, _ => False
             end) ->
  slip10_loop fuel chain t' cb data =
  omap (fun '(k, c) => (f k, c)) (slip10_loop fuel chain t cb data).
Proof.
  induction fuel as [|fuel IH]; intros data H; cbn [slip10_loop]; [reflexivity|].
  rewrite hmac_split_eq. pose proof (H (firstn 32 (hmac_sha512 chain data))) as T.
  destruct (t _) as [s|k]; destruct (t' _) as [s'|k']; try contradiction.
  - destruct (retry_data _ cb); [apply IH; exact H|reflexivity|reflexivity].
  - subst k'. reflexivity.
Qed.

(** ** The derivation steps *)
Lemma prv_child_loop (C : TweakCurve) fuel (x : XPrv C) i :
  length (prv_to_bytes C (xprv_key x)) = 32%nat ->
  length (pub_to_bytes C (prv_to_public C (xprv_key x))) = 33%nat ->
  slip10_prv_child fuel x i =
  omap (fun '(k, c) => mkXPrv (child_meta (xprv_meta x)
          (pub_to_bytes C (prv_to_public C (xprv_key x))) i c) k)
    (slip10_loop fuel (m_chain (xprv_meta x)) (prv_add_tweak C (xprv_key x)) (child_to_bytes i)
       (gen_data C (xprv_key x) i)).
Proof.
  intros L1 L2. unfold slip10_prv_child, gen_data. rewrite hardened_eq. destruct (2 ^ 31 <=? i).
  - pose proof (@put37 Error _ i L1) as P. destruct (put 1 33 _ _) as [d|e|]; cbn [bind obind] in *;
      [|discriminate P..]. rewrite P. reflexivity.
  - pose proof (@put37_pub Error _ i L2) as P. destruct (put 0 33 _ _) as [d|e|]; cbn [bind obind] in *;
      [|discriminate P..]. rewrite P. reflexivity.
Qed.
Lemma pub_child_loop (C : TweakCurve) fuel (x : XPub C) i :
  length (pub_to_bytes C (xpub_key x)) = 33%nat ->
  slip10_pub_child fuel x i =
  if 2 ^ 31 <=? i then Some (Err (hardened_public_error i))
  else omap (fun '(k, c) => mkXPub (child_meta (xpub_meta x) (pub_to_bytes C (xpub_key x)) i c) k)
    (slip10_loop fuel (m_chain (xpub_meta x)) (pub_add_tweak C (xpub_key x)) (child_to_bytes i)
       (pub_to_bytes C (xpub_key x) ++ be_bytes 4 i)).
Proof.
  intros L2. unfold slip10_pub_child. rewrite hardened_eq. destruct (2 ^ 31 <=? i); [reflexivity|].
  pose proof (@put37_pub Error _ i L2) as P. destruct (put 0 33 _ _) as [d|e|]; cbn [bind obind] in *;
      [|discriminate P..]. rewrite P. reflexivity.
Qed.
Lemma hardened_child_loop (C : Curve) fuel (x : XPrv C) h :
  length (prv_to_bytes C (xprv_key x)) = 32%nat ->
  slip10_hardened_child fuel x h =
  omap (fun '(k, c) => mkXPrv (child_meta (xprv_meta x)
          (pub_to_bytes C (prv_to_public C (xprv_key x))) (hc_child h) c) k)
    (slip10_loop fuel (m_chain (xprv_meta x)) (prv_from_bytes C) (child_to_bytes (hc_child h))
       ([x00] ++ prv_to_bytes C (xprv_key x) ++ be_bytes 4 (hc_child h))).
Proof.
  intros L1. unfold slip10_hardened_child.
  pose proof (@put37 Error _ (hc_child h) L1) as P. destruct (put 1 33 _ _) as [d|e|]; cbn [bind obind] in *;
      [|discriminate P..]. unfold hchild_to_bytes. rewrite P. reflexivity.
Qed.

(** ** Paths *)
Lemma path_loop_app {X A : Type} (step : X -> A -> option (res Error X)) p q : forall x,
  path_loop step x (p ++ q) =
  match path_loop step x p with
  | Some (Ok y) => path_loop step y q
  | other => other
  end.
Proof.
  induction p as [|a p IH]; intros x; cbn [path_loop app]; [reflexivity|].
  destruct (step x a) as [[y|e|]|]; try reflexivity. apply IH.
Qed.
