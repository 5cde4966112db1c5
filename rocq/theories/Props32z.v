(** C100: what branches and library calls reveal while keys are derived, and how many there are. *)
From Verif Require Import Base Str StrProofs Sha2 Error32 Path32 PathProofs32 Meta32 PayloadProofs32 Curve32 XKey32 XKeySpec32 XKeyProofs32
  Slip10 SlipProofs32 Cyclic32 Props32k Trace32.

(** ** The traces the specification allows *)
Definition hardened_flag (i : N) : N := if 2 ^ 31 <=? i then 1 else 0.
(** One private step: the parent's public key, one HMAC of 37 bytes, one tweak, one fingerprint. *)
Definition prv_begin (i : N) : trace32 :=
  [ToPublic; If 98 (hardened_flag i); Mac 32 (if 2 ^ 31 <=? i then [37%nat] else [33%nat; 4%nat]); AddTweak].
Definition prv_step (i : N) : trace32 := [If 131 1] ++ prv_begin i ++ [If 110 1; Hash160 33].
Definition prv_fail (i : N) : trace32 := [If 131 1] ++ prv_begin i ++ [If 110 0].
Definition pub_begin : trace32 := [If 54 0; Mac 32 [33%nat; 4%nat]; AddTweak].
Definition pub_step (i : N) : trace32 := [If 91 1] ++ pub_begin ++ [If 70 1; Hash160 33].
Definition pub_fail (i : N) : trace32 := [If 91 1] ++ (if 2 ^ 31 <=? i then [If 54 1] else pub_begin ++ [If 70 0]).
(** SLIP-0010: so many rejected candidates, then one accepted. *)
Definition rounds (line : N) (call : event32) (j : nat) : trace32 :=
  concat (repeat [Mac 32 [37%nat]; call; If line 0] j).
Definition accepted_round (line : N) (call : event32) : trace32 := [Mac 32 [37%nat]; call; If line 1; Hash160 33].

(** Master keys: the seed is hashed once, and again, as 64 bytes, after each rejection. *)
Definition seed_key_len (b : Library) : nat := match b with P256 => 14 | _ => 12 end.
Definition master_mac (b : Library) (seed : list byte) (round : nat) : event32 :=
  Mac (seed_key_len b) [match round with O => length seed | S _ => 64%nat end].
Definition master_rejected (b : Library) (seed : list byte) (j : nat) : trace32 :=
  flat_map (fun round => [master_mac b seed round; FromBytes; If 62 0; If 80 0]) (seq 0 j).

(** ** Proofs *)
Lemma rbind_eq {A B} (m : T32 (res Error A)) (f : A -> T32 (res Error B)) :
  rbind m f = match snd m with
              | Ok a => (fst m ++ fst (f a), snd (f a))
              | Err e => (fst m, Err e)
              | Panic => (fst m, Panic)
              end.
Proof. destruct m as [t [a|e|]]; cbn [rbind fst snd]; [|reflexivity..]. destruct (f a). reflexivity. Qed.
Lemma orbind_eq {A B} (m : T32 (res Error A)) (f : A -> T32 (option (res Error B))) :
  orbind m f = match snd m with
              | Ok a => (fst m ++ fst (f a), snd (f a))
              | Err e => (fst m, Some (Err e))
              | Panic => (fst m, Some Panic)
              end.
Proof. destruct m as [t [a|e|]]; cbn [orbind fst snd]; [|reflexivity..]. destruct (f a). reflexivity. Qed.
Lemma rbind_quiet {A B} (a : A) (f : A -> T32 (res Error B)) : rbind (quietly (Ok a)) f = f a.
Proof. cbn [rbind quietly]. destruct (f a). reflexivity. Qed.
Lemma orbind_quiet {A B} (a : A) (f : A -> T32 (option (res Error B))) : orbind (quietly (Ok a)) f = f a.
Proof. cbn [orbind quietly]. destruct (f a). reflexivity. Qed.
Lemma say_eq {A} e (t : trace32) (a : A) : say e (t, a) = (e :: t, a).
Proof. reflexivity. Qed.
Lemma split_eq key ups : split_t key ups =
  ([Mac (length key) (map (@length byte) ups)],
   Ok (firstn 32 (hmac_sha512 key (concat ups)), IR (hmac_sha512 key (concat ups)))).
Proof. unfold split_t, quietly. rewrite say_eq, hmac_split_eq. reflexivity. Qed.

Lemma prv_child_t dbg b L (HL : ec_laws L) (x : XPrv (backend b L)) i : length (m_chain (xprv_meta x)) = 32%nat ->
  xprv_derive_child_t dbg x i =
  (prv_begin i ++ match xprv_derive_child dbg x i with Ok _ => [If 110 1; Hash160 33] | _ => [If 110 0] end,
   xprv_derive_child dbg x i).
Proof.
  intros HC. rewrite (derive_child_eq dbg (backend b L) x i) by apply be_bytes_length. unfold xprv_derive_child_t, gen_data.
  change (b2v32 (child_is_hardened i)) with (hardened_flag i). rewrite hardened_eq. unfold prv_begin, hardened_flag.
  assert (L33 : length (pub_to_bytes (backend b L) (prv_to_public (backend b L) (xprv_key x))) = 33%nat)
    by (destruct b; apply (compress_length L HL)).
  cbv zeta. rewrite L33.
  destruct (2 ^ 31 <=? i) eqn:E.
  - pose proof (@put37 Error (prv_to_bytes (backend b L) (xprv_key x)) i ltac:(apply be_bytes_length)) as P.
    destruct (put 1 33 _ _) as [d|e|]; cbn [bind] in P; [|discriminate P..].
    rewrite rbind_quiet, P, rbind_quiet, split_eq, rbind_eq. cbn [fst snd map concat]. rewrite app_nil_r, HC.
    assert (L37 : length ([x00] ++ prv_to_bytes (backend b L) (xprv_key x) ++ be_bytes 4 i) = 37%nat).
    { rewrite !app_length, be_bytes_length. rewrite (be_bytes_length 32 (xprv_key x) : length (prv_to_bytes (backend b L) (xprv_key x)) = 32%nat). reflexivity. }
    rewrite L37.
    destruct (prv_add_tweak _ _ _) as [s|k]; unfold quietly; rewrite ?say_eq; cbn [fst snd app]; [|reflexivity].
    rewrite raise_fresh by reflexivity. unfold child_prv_error. rewrite hardened_eq, E. reflexivity.
  - rewrite split_eq, rbind_eq. cbn [fst snd map concat]. rewrite app_nil_r, L33, HC, child_bytes_eq, be_bytes_length.
    destruct (prv_add_tweak _ _ _) as [s|k]; unfold quietly; rewrite ?say_eq; cbn [fst snd app]; [|reflexivity].
    rewrite raise_fresh by reflexivity. unfold child_prv_error. rewrite hardened_eq, E. reflexivity.
Qed.
Lemma pub_child_t dbg b L (HL : ec_laws L) (x : XPub (backend b L)) i : length (m_chain (xpub_meta x)) = 32%nat ->
  xpub_derive_child_t dbg x i =
  (match xpub_derive_child dbg x i with
   | Ok _ => pub_begin ++ [If 70 1; Hash160 33]
   | _ => if 2 ^ 31 <=? i then [If 54 1] else pub_begin ++ [If 70 0]
   end, xpub_derive_child dbg x i).
Proof.
  intros HC. rewrite derive_pub_eq. unfold xpub_derive_child_t. rewrite hardened_eq.
  assert (L33 : length (pub_to_bytes (backend b L) (xpub_key x)) = 33%nat) by (destruct b; apply (compress_length L HL)).
  destruct (2 ^ 31 <=? i) eqn:E; [reflexivity|]. cbv zeta. rewrite split_eq, rbind_eq. cbn [fst snd map concat].
  rewrite app_nil_r, L33, HC, child_bytes_eq, be_bytes_length.
  destruct (pub_add_tweak _ _ _) as [s|k]; unfold quietly; rewrite ?say_eq; cbn [fst snd app]; [|reflexivity].
  rewrite raise_fresh by reflexivity. reflexivity.
Qed.

Lemma prv_child_chain dbg b L (x y : XPrv (backend b L)) i :
  xprv_derive_child dbg x i = Ok y -> length (m_chain (xprv_meta y)) = 32%nat.
Proof.
  rewrite (derive_child_eq dbg (backend b L) x i) by apply be_bytes_length. cbv zeta.
  destruct (prv_add_tweak _ _ _); [discriminate|]. intros H. apply (f_equal (fun r => match r with Ok z => m_chain (xprv_meta z) | _ => [] end)) in H.
  cbn [xprv_meta child_meta m_chain] in H. rewrite <- H. apply right_length.
Qed.
Lemma pub_child_chain dbg b L (x y : XPub (backend b L)) i :
  xpub_derive_child dbg x i = Ok y -> length (m_chain (xpub_meta y)) = 32%nat.
Proof.
  rewrite derive_pub_eq. destruct (2 ^ 31 <=? i); [discriminate|]. cbv zeta.
  destruct (pub_add_tweak _ _ _); [discriminate|]. intros H. apply (f_equal (fun r => match r with Ok z => m_chain (xpub_meta z) | _ => [] end)) in H.
  cbn [xpub_meta child_meta m_chain] in H. rewrite <- H. apply right_length.
Qed.
Lemma prv_child_no_panic dbg b L (x : XPrv (backend b L)) i : xprv_derive_child dbg x i <> Panic.
Proof.
  rewrite (derive_child_eq dbg (backend b L) x i) by apply be_bytes_length. cbv zeta. destruct (prv_add_tweak _ _ _); discriminate.
Qed.
Lemma pub_child_no_panic dbg b L (x : XPub (backend b L)) i : xpub_derive_child dbg x i <> Panic.
Proof. rewrite derive_pub_eq. destruct (2 ^ 31 <=? i); [discriminate|]. cbv zeta. destruct (pub_add_tweak _ _ _); discriminate. Qed.

(** C100: deriving a private key along a path runs, for each child until the first that does not
    exist, the same calls, whatever the key, the chain code and the metadata. *)
Theorem C100_private_path dbg b L (HL : ec_laws L) (x : XPrv (backend b L)) p :
  length (m_chain (xprv_meta x)) = 32%nat ->
  let (t, r) := xprv_derive_path_t dbg x p in
  r = xprv_derive_path dbg x p /\
  match r with
  | Ok _ => t = [Cloned] ++ flat_map prv_step p ++ [If 131 0]
  | Err e => exists pre i post y, p = pre ++ i :: post /\
      xprv_derive_path dbg x pre = Ok y /\ xprv_derive_child dbg y i = Err e /\
      t = [Cloned] ++ flat_map prv_step pre ++ prv_fail i
  | Panic => False
  end.
Proof.
  intros HC. unfold xprv_derive_path_t.
  assert (G : forall p (x : XPrv (backend b L)), length (m_chain (xprv_meta x)) = 32%nat ->
    snd (xprv_loop_t dbg x p) = xprv_derive_path dbg x p /\
    match xprv_derive_path dbg x p with
    | Ok _ => fst (xprv_loop_t dbg x p) = flat_map prv_step p ++ [If 131 0]
    | Err e => exists pre i post y, p = pre ++ i :: post /\
        xprv_derive_path dbg x pre = Ok y /\ xprv_derive_child dbg y i = Err e /\
        fst (xprv_loop_t dbg x p) = flat_map prv_step pre ++ prv_fail i
    | Panic => False
    end).
  { clear x p HC. induction p as [|i p IH]; intros x HC; [split; reflexivity|]. cbn [xprv_loop_t xprv_derive_path].
    rewrite (prv_child_t dbg b L HL x i HC), rbind_eq. cbn [fst snd].
    pose proof (prv_child_no_panic dbg b L x i) as NP.
    destruct (xprv_derive_child dbg x i) as [y|e|] eqn:E; cbn [bind]; [| |contradiction].
    - destruct (IH y (prv_child_chain _ _ _ _ _ _ E)) as [I1 I2]. rewrite say_eq. cbn [fst snd]. split; [exact I1|].
      destruct (xprv_derive_path dbg y p) as [z|e|]; [| |exact I2].
      + rewrite I2. cbn [flat_map]. unfold prv_step. rewrite <- !app_assoc. reflexivity.
      + destruct I2 as (pre & j & post & z & -> & P1 & P2 & P3). exists (i :: pre), j, post, z.
        split; [reflexivity|]. split; [cbn [xprv_derive_path]; rewrite E; exact P1|]. split; [exact P2|].
        rewrite P3. cbn [flat_map]. unfold prv_step at 2. rewrite <- !app_assoc. reflexivity.
    - rewrite say_eq. cbn [fst snd]. split; [reflexivity|]. exists [], i, p, x. repeat split. exact E. }
  destruct (G p x HC) as [G1 G2]. destruct (xprv_loop_t dbg x p) as [t r]. rewrite say_eq. cbn [fst snd] in *. subst r.
  split; [reflexivity|]. destruct (xprv_derive_path dbg x p) as [z|e|]; [|destruct G2 as (pre & i & post & y & -> & P1 & P2 & ->)|exact G2].
  - rewrite G2. reflexivity.
  - exists pre, i, post, y. repeat split; assumption.
Qed.
Print Assumptions C100_private_path.

(** C100: so two keys show the same, as long as the same children exist: on a path derived from both
    nothing but the path can be read off. *)
Theorem C100_private_control dbg b b' L L' (HL : ec_laws L) (HL' : ec_laws L')
  (x x0 : XPrv (backend b L)) (y y0 : XPrv (backend b' L')) p :
  length (m_chain (xprv_meta x)) = 32%nat -> length (m_chain (xprv_meta y)) = 32%nat ->
  xprv_derive_path dbg x p = Ok x0 -> xprv_derive_path dbg y p = Ok y0 ->
  fst (xprv_derive_path_t dbg x p) = fst (xprv_derive_path_t dbg y p).
Proof.
  intros H1 H2 E1 E2. pose proof (C100_private_path dbg b L HL x p H1) as P. pose proof (C100_private_path dbg b' L' HL' y p H2) as Q.
  destruct (xprv_derive_path_t dbg x p) as [t r], (xprv_derive_path_t dbg y p) as [t' r']. cbn [fst].
  destruct P as [-> P], Q as [-> Q]. rewrite E1 in P. rewrite E2 in Q. congruence.
Qed.
Print Assumptions C100_private_control.

(** C100: deriving a public key; a hardened child is refused before any hash. *)
Theorem C100_public_path dbg b L (HL : ec_laws L) (x : XPub (backend b L)) p :
  length (m_chain (xpub_meta x)) = 32%nat ->
  let (t, r) := xpub_derive_path_t dbg x p in
  r = xpub_derive_path dbg x p /\
  match r with
  | Ok _ => t = [Cloned] ++ flat_map pub_step p ++ [If 91 0]
  | Err e => exists pre i post y, p = pre ++ i :: post /\
      xpub_derive_path dbg x pre = Ok y /\ xpub_derive_child dbg y i = Err e /\
      t = [Cloned] ++ flat_map pub_step pre ++ pub_fail i
  | Panic => False
  end.
Proof.
  intros HC. unfold xpub_derive_path_t.
  assert (G : forall p (x : XPub (backend b L)), length (m_chain (xpub_meta x)) = 32%nat ->
    snd (xpub_loop_t dbg x p) = xpub_derive_path dbg x p /\
    match xpub_derive_path dbg x p with
    | Ok _ => fst (xpub_loop_t dbg x p) = flat_map pub_step p ++ [If 91 0]
    | Err e => exists pre i post y, p = pre ++ i :: post /\
        xpub_derive_path dbg x pre = Ok y /\ xpub_derive_child dbg y i = Err e /\
        fst (xpub_loop_t dbg x p) = flat_map pub_step pre ++ pub_fail i
    | Panic => False
    end).
  { clear x p HC. induction p as [|i p IH]; intros x HC; [split; reflexivity|]. cbn [xpub_loop_t xpub_derive_path].
    rewrite (pub_child_t dbg b L HL x i HC), rbind_eq. cbn [fst snd].
    pose proof (pub_child_no_panic dbg b L x i) as NP.
    destruct (xpub_derive_child dbg x i) as [y|e|] eqn:E; cbn [bind]; [| |contradiction].
    - destruct (IH y (pub_child_chain _ _ _ _ _ _ E)) as [I1 I2]. rewrite say_eq. cbn [fst snd]. split; [exact I1|].
      destruct (xpub_derive_path dbg y p) as [z|e|]; [| |exact I2].
      + rewrite I2. reflexivity.
      + destruct I2 as (pre & j & post & z & -> & P1 & P2 & P3). exists (i :: pre), j, post, z.
        split; [reflexivity|]. split; [cbn [xpub_derive_path]; rewrite E; exact P1|]. split; [exact P2|].
        rewrite P3. reflexivity.
    - rewrite say_eq. cbn [fst snd]. split; [reflexivity|]. exists [], i, p, x. repeat split. exact E. }
  destruct (G p x HC) as [G1 G2]. destruct (xpub_loop_t dbg x p) as [t r]. rewrite say_eq. cbn [fst snd] in *. subst r.
  split; [reflexivity|]. destruct (xpub_derive_path dbg x p) as [z|e|]; [|destruct G2 as (pre & i & post & y & -> & P1 & P2 & ->)|exact G2].
  - rewrite G2. reflexivity.
  - exists pre, i, post, y. repeat split; assumption.
Qed.
Print Assumptions C100_public_path.


(** C100: master keys of BIP-0032: one HMAC of the seed, whatever comes of it. *)
Theorem C100_master dbg b L seed :
  let (t, r) := xprv_new_t dbg (backend b L) seed in
  r = xprv_new dbg (backend b L) seed /\
  t = [Mac (seed_key_len b) [length seed]; FromBytes; If 40 (match r with Ok _ => 1 | _ => 0 end)].
Proof.
  unfold xprv_new_t, xprv_new, derive_master_key_parts. rewrite split_eq, rbind_eq, hmac_split_eq. cbn [fst snd map concat bind].
  rewrite app_nil_r. destruct (prv_from_bytes _ _) as [s|k]; unfold quietly; rewrite ?say_eq; cbn [fst snd app];
    [rewrite raise_fresh by reflexivity|]; split; destruct b; reflexivity.
Qed.
Print Assumptions C100_master.

(** *** SLIP-0010 *)
Lemma loop_t_spec {K : Type} line call n (t : list byte -> Source + K) chain i fuel : length chain = 32%nat -> forall data,
  length data = 37%nat ->
  (exists j k, (j < fuel)%nat /\ found t (child_candidate chain data i) j k /\
     slip10_loop_t line call n fuel chain t (child_to_bytes i) data =
     (rounds line call j ++ [Mac 32 [37%nat]; call; If line 1; Hash160 n],
      Some (Ok (k, IR (child_candidate chain data i j))))) \/
  ((forall j, (j < fuel)%nat -> exists s, t (firstn 32 (child_candidate chain data i j)) = inl s) /\
   slip10_loop_t line call n fuel chain t (child_to_bytes i) data = (rounds line call fuel, None)).
Proof.
  intros HC. induction fuel as [|fuel IH]; intros data HD; cbn [slip10_loop_t].
  - right. split; [intros j H; lia|reflexivity].
  - rewrite split_eq, orbind_eq. cbn [fst snd map concat]. rewrite app_nil_r, HC, HD.
    destruct (t (firstn 32 (hmac_sha512 chain data))) as [s|k] eqn:E.
    + rewrite retry_ok by apply right_length. rewrite orbind_eq. cbn [fst snd quietly].
      assert (L37 : length ([x01] ++ IR (hmac_sha512 chain data) ++ be_bytes 4 i) = 37%nat).
      { rewrite !app_length, right_length, be_bytes_length. reflexivity. }
      destruct (IH _ L37) as [(j & k & Hj & [F G] & R)|[F R]]; [rewrite child_candidate_shift in F, R|];
        rewrite R; rewrite !say_eq; cbn [fst snd app].
      * left. exists (S j), k. split; [lia|]. split; [|reflexivity].
        split; [exact F|]. intros [|i'] H; [exists s; exact E|].
        destruct (G i') as [s' Es]; [lia|]. exists s'. rewrite child_candidate_shift in Es. exact Es.
      * right. split; [|reflexivity]. intros [|j] H; [exists s; exact E|].
        destruct (F j) as [s' Es]; [lia|]. exists s'. rewrite child_candidate_shift in Es. exact Es.
    + left. exists 0%nat, k. split; [lia|]. split; [|reflexivity]. split; [exact E|]. intros i' H. lia.
Qed.
Lemma loop_t_snd {K : Type} line call n (t : list byte -> Source + K) chain cb fuel : forall data,
  snd (slip10_loop_t line call n fuel chain t cb data) = slip10_loop fuel chain t cb data.
Proof.
  induction fuel as [|fuel IH]; intros data; cbn [slip10_loop_t slip10_loop]; [reflexivity|].
  rewrite split_eq, orbind_eq, hmac_split_eq. cbn [fst snd map concat]. rewrite app_nil_r.
  destruct (t _); [|reflexivity]. rewrite orbind_eq. cbn [fst snd quietly]. destruct (retry_data _ _); cbn [say fst snd]; [apply IH|reflexivity..].
Qed.
(** The number of rounds is the index of the first candidate that is a key. *)
Lemma rounds_spec {K : Type} line call n (t : list byte -> Source + K) (child : list byte -> K -> Prop) chain i fuel data :
  length chain = 32%nat -> length data = 37%nat ->
  (forall I k, t (firstn 32 I) = inr k <-> child I k) ->
  let good j := exists k, child (child_candidate chain data i j) k in
  let (tr, r) := slip10_loop_t line call n fuel chain t (child_to_bytes i) data in
  match r with
  | Some r => exists j, (j < fuel)%nat /\ first_index good j /\
      tr = rounds line call j ++ [Mac 32 [37%nat]; call; If line 1; Hash160 n]
  | None => (forall j, (j < fuel)%nat -> ~ good j) /\ tr = rounds line call fuel
  end.
Proof.
  intros HC HD H good.
  assert (NG : forall j, (exists s, t (firstn 32 (child_candidate chain data i j)) = inl s) -> ~ good j).
  { intros j [s Hs] [k Hk]. apply H in Hk. congruence. }
  destruct (loop_t_spec line call n t chain i fuel HC data HD) as [(j & k & Hj & [F G] & R)|[F R]]; rewrite R.
  - exists j. split; [exact Hj|]. split; [|reflexivity]. split; [exists k; apply H; exact F|]. intros i' Hi. apply NG, G, Hi.
  - split; [|reflexivity]. intros j Hj. apply NG, F, Hj.
Qed.

(** C100: SLIP-0010 private children: one HMAC of 37 bytes for each candidate up to the first that
    gives a key, and nothing else that depends on the key. *)
Theorem C100_slip10_private_child b L (HL : ec_laws L) fuel (x : XPrv (backend b L)) i :
  length (m_chain (xprv_meta x)) = 32%nat ->
  let good j := exists k, child_private b L (xprv_key x)
                  (child_candidate (m_chain (xprv_meta x)) (ckd_priv_data L (xprv_key x) i) i j) k in
  let (t, r) := slip10_prv_child_t fuel x i in
  r = slip10_prv_child fuel x i /\
  match r with
  | Some _ => exists j, (j < fuel)%nat /\ first_index good j /\
      t = [ToPublic; If 161 (hardened_flag i)] ++ rounds 177 AddTweak j ++ accepted_round 177 AddTweak
  | None => (forall j, (j < fuel)%nat -> ~ good j) /\
      t = [ToPublic; If 161 (hardened_flag i)] ++ rounds 177 AddTweak fuel
  end.
Proof.
  intros HC good. rewrite prv_child_loop; [|apply be_bytes_length|apply (compress_length L HL)].
  assert (E : slip10_prv_child_t fuel x i = say ToPublic (say (If 161 (hardened_flag i))
    (omap_t (fun '(k, c) => mkXPrv (child_meta (xprv_meta x)
          (pub_to_bytes (backend b L) (prv_to_public (backend b L) (xprv_key x))) i c) k)
      (slip10_loop_t 177 AddTweak 33 fuel (m_chain (xprv_meta x)) (prv_add_tweak (backend b L) (xprv_key x))
         (child_to_bytes i) (ckd_priv_data L (xprv_key x) i))))).
  { unfold slip10_prv_child_t. change (b2v32 (child_is_hardened i)) with (hardened_flag i). rewrite hardened_eq. cbv zeta.
    pose proof (compress_length L HL (pmul L (xprv_key x) (gen L))) as L33.
    change (pub_to_bytes (backend b L) (prv_to_public (backend b L) (xprv_key x))) with (compress L (pmul L (xprv_key x) (gen L))).
    rewrite L33. rewrite orbind_eq. cbn [fst snd quietly app]. unfold ckd_priv_data.
    destruct (2 ^ 31 <=? i).
    - pose proof (@put37 Error (prv_to_bytes (backend b L) (xprv_key x)) i ltac:(apply be_bytes_length)) as P.
      destruct (put 1 33 _ _) as [d|e|]; cbn [bind] in P; [|discriminate P..].
      rewrite orbind_eq. cbn [fst snd quietly app]. rewrite P. reflexivity.
    - pose proof (@put37_pub Error (compress L (pmul L (xprv_key x) (gen L))) i L33) as P.
      destruct (put 0 33 _ _) as [d|e|]; cbn [bind] in P; [|discriminate P..].
      rewrite orbind_eq. cbn [fst snd quietly app]. rewrite P. reflexivity. }
  rewrite E. unfold omap_t. rewrite loop_t_snd, !say_eq.
  change (gen_data (backend b L) (xprv_key x) i) with (ckd_priv_data L (xprv_key x) i).
  split; [reflexivity|].
  assert (HD : length (ckd_priv_data L (xprv_key x) i) = 37%nat).
  { unfold ckd_priv_data. destruct (2 ^ 31 <=? i); rewrite !app_length, ?be_bytes_length, ?(compress_length L HL); reflexivity. }
  pose proof (rounds_spec 177 AddTweak 33 (prv_add_tweak (backend b L) (xprv_key x)) (child_private b L (xprv_key x))
                (m_chain (xprv_meta x)) i fuel (ckd_priv_data L (xprv_key x) i) HC HD
                (fun I k => prv_tweak_iff L HL b (xprv_key x) (firstn 32 I) k)) as R.
  cbv zeta in R. rewrite <- (loop_t_snd 177 AddTweak 33).
  destruct (slip10_loop_t _ _ _ _ _ _ _ _) as [tr r]. cbn [fst snd].
  destruct r as [r|]; cbn [omap option_map].
  - destruct R as (j & Hj & F & ->). exists j. split; [exact Hj|]. split; [exact F|]. reflexivity.
  - destruct R as (F & ->). split; [exact F|reflexivity].
Qed.
Print Assumptions C100_slip10_private_child.

(** C100: SLIP-0010 public children; a hardened child is refused before any hash. *)
Theorem C100_slip10_public_child b L (HL : ec_laws L) fuel (x : XPub (backend b L)) i :
  length (m_chain (xpub_meta x)) = 32%nat ->
  let good j := exists K, child_public b L (xpub_key x)
                  (child_candidate (m_chain (xpub_meta x)) (ckd_pub_data L (xpub_key x) i) i j) K in
  let (t, r) := slip10_pub_child_t fuel x i in
  r = slip10_pub_child fuel x i /\
  (2 ^ 31 <= i -> t = [If 216 1]) /\
  (i < 2 ^ 31 ->
   match r with
   | Some _ => exists j, (j < fuel)%nat /\ first_index good j /\
       t = [If 216 0] ++ rounds 239 AddTweak j ++ accepted_round 239 AddTweak
   | None => (forall j, (j < fuel)%nat -> ~ good j) /\ t = [If 216 0] ++ rounds 239 AddTweak fuel
   end).
Proof.
  intros HC good. rewrite pub_child_loop by apply (compress_length L HL).
  pose proof (compress_length L HL (xpub_key x)) as L33.
  assert (E : slip10_pub_child_t fuel x i = if 2 ^ 31 <=? i then ([If 216 1], Some (Err (hardened_public_error i))) else
    say (If 216 0) (omap_t (fun '(k, c) => mkXPub (child_meta (xpub_meta x) (pub_to_bytes (backend b L) (xpub_key x)) i c) k)
      (slip10_loop_t 239 AddTweak 33 fuel (m_chain (xpub_meta x)) (pub_add_tweak (backend b L) (xpub_key x))
         (child_to_bytes i) (ckd_pub_data L (xpub_key x) i)))).
  { unfold slip10_pub_child_t. rewrite hardened_eq. destruct (2 ^ 31 <=? i); [reflexivity|]. cbv zeta.
    change (pub_to_bytes (backend b L) (xpub_key x)) with (compress L (xpub_key x)). rewrite L33.
    pose proof (@put37_pub Error (compress L (xpub_key x)) i L33) as P.
    destruct (put 0 33 _ _) as [d|e|]; cbn [bind] in P; [|discriminate P..].
    rewrite orbind_quiet, P, orbind_quiet. reflexivity. }
  rewrite E. destruct (2 ^ 31 <=? i) eqn:H31.
  { split; [reflexivity|]. split; [reflexivity|]. intros ?. lia. }
  unfold omap_t. rewrite loop_t_snd, say_eq. split; [reflexivity|]. split; [intros ?; lia|]. intros _.
  assert (HD : length (ckd_pub_data L (xpub_key x) i) = 37%nat).
  { unfold ckd_pub_data. rewrite app_length, be_bytes_length, L33. reflexivity. }
  pose proof (rounds_spec 239 AddTweak 33 (pub_add_tweak (backend b L) (xpub_key x)) (child_public b L (xpub_key x))
                (m_chain (xpub_meta x)) i fuel (ckd_pub_data L (xpub_key x) i) HC HD
                (fun I k => pub_tweak_iff L HL b (xpub_key x) (firstn 32 I) k)) as R.
  cbv zeta in R. rewrite <- (loop_t_snd 239 AddTweak 33).
  destruct (slip10_loop_t _ _ _ _ _ _ _ _) as [tr r]. cbn [fst snd].
  destruct r as [r|]; cbn [omap option_map].
  - destruct R as (j & Hj & F & ->). exists j. split; [exact Hj|]. split; [exact F|]. reflexivity.
  - destruct R as (F & ->). split; [exact F|reflexivity].
Qed.
Print Assumptions C100_slip10_public_child.

(** C100: on ed25519 every candidate is a key, so there is always exactly one HMAC. *)
Theorem C100_slip10_ed25519_child D (HD : ed_laws D) fuel (x : XPrv (Ed25519DalekBackend D)) h :
  length (m_chain (xprv_meta x)) = 32%nat -> length (prv_to_bytes _ (xprv_key x)) = 32%nat ->
  let (t, r) := slip10_hardened_child_t (S fuel) x h in
  r = slip10_hardened_child (S fuel) x h /\
  (exists y, r = Some (Ok y)) /\
  t = [ToPublic; Mac 32 [37%nat]; FromBytes; If 115 1; Hash160 33].
Proof.
  intros HC HK. rewrite hardened_child_loop by exact HK.
  set (prv := prv_to_bytes _ (xprv_key x)) in *.
  assert (L37 : length ([x00] ++ prv ++ be_bytes 4 (hc_child h)) = 37%nat).
  { rewrite !app_length, be_bytes_length, HK. reflexivity. }
  assert (L33 : length (pub_to_bytes (Ed25519DalekBackend D) (prv_to_public (Ed25519DalekBackend D) (xprv_key x))) = 33%nat).
  { cbn [pub_to_bytes Ed25519DalekBackend length]. rewrite (raw_length D HD). reflexivity. }
  unfold slip10_hardened_child_t. cbv zeta. rewrite L33. fold prv.
  pose proof (@put37 Error prv (hc_child h) HK) as P. unfold hchild_to_bytes.
  destruct (put 1 33 _ _) as [d|e|]; cbn [bind] in P; [|discriminate P..].
  rewrite orbind_quiet, P, orbind_quiet. unfold omap_t. rewrite loop_t_snd, say_eq.
  split; [reflexivity|].
  destruct (loop_t_spec 115 FromBytes 33 (prv_from_bytes (Ed25519DalekBackend D)) (m_chain (xprv_meta x)) (hc_child h) (S fuel) HC _ L37)
    as [(j & k & Hj & [_ G] & R)|[F _]].
  - rewrite <- (loop_t_snd 115 FromBytes 33), R. cbn [fst snd omap option_map res_map]. split; [eexists; reflexivity|].
    destruct j as [|j]; [reflexivity|]. destruct (G 0%nat) as [s Hs]; [lia|discriminate Hs].
  - destruct (F 0%nat) as [s Hs]; [lia|discriminate Hs].
Qed.
Print Assumptions C100_slip10_ed25519_child.

(** C100: SLIP-0010 master keys: as many HMACs as there are candidates up to the first key. *)
Theorem C100_slip10_master dbg b L (HL : ec_laws L) fuel seed :
  let good j := 0 < be_val (firstn 32 (master_candidate (curve_key b) seed j)) < order L in
  let (t, r) := slip10_master_t dbg fuel (backend b L) seed in
  r = new_slip10 dbg fuel (backend b L) seed /\
  match r with
  | Some _ => exists j, (j < fuel)%nat /\ first_index good j /\
      t = master_rejected b seed j ++ [master_mac b seed j; FromBytes; If 62 1]
  | None => (forall j, (j < fuel)%nat -> ~ good j) /\ t = master_rejected b seed fuel
  end.
Proof.
  assert (HK : hmac_key (backend b L) = curve_key b) by (destruct b; reflexivity).
  assert (HKL : length (curve_key b) = seed_key_len b) by (destruct b; reflexivity).
  assert (LC : forall seed j, length (firstn 32 (master_candidate (curve_key b) seed j)) = 32%nat) by (intros s [|j]; apply left_length).
  assert (NG : forall seed j s, prv_from_bytes (backend b L) (firstn 32 (master_candidate (curve_key b) seed j)) = inl s ->
     ~ 0 < be_val (firstn 32 (master_candidate (curve_key b) seed j)) < order L).
  { intros sd j s E H. assert (prv_from_bytes (backend b L) (firstn 32 (master_candidate (curve_key b) sd j)) =
      inr (be_val (firstn 32 (master_candidate (curve_key b) sd j)))) by (apply prv_from_iff; [apply LC|split; [reflexivity|exact H]]). congruence. }
  (* later rounds hash 64 bytes *)
  set (rej := fun (seed : list byte) j => flat_map (fun round => [Mac (seed_key_len b) [match round with O => length seed | S _ => 64%nat end]; FromBytes; If 62 0; If 80 0]) (seq 0 j)).
  assert (STEP : forall seed I j, length I = 64%nat -> rej seed (S j) =
     [Mac (seed_key_len b) [length seed]; FromBytes; If 62 0; If 80 0] ++ rej I j).
  { intros sd I j LI. unfold rej. cbn [seq flat_map app]. do 4 f_equal. rewrite <- seq_shift, !flat_map_concat_map, map_map.
    f_equal. apply map_ext. intros [|r]; [rewrite LI|]; reflexivity. }
  assert (LAST : forall seed I j, length I = 64%nat -> master_mac b seed (S j) = master_mac b I j).
  { intros sd I [|j] LI; unfold master_mac; [rewrite LI|]; reflexivity. }
  revert seed. induction fuel as [|fuel IH]; intros seed good; cbn [slip10_master_t new_slip10 slip10_master_loop].
  - split; [reflexivity|]. split; [intros j H; lia|reflexivity].
  - unfold new_slip10. cbn [slip10_master_loop]. unfold derive_master_key_parts. rewrite hmac_split_eq, split_eq, orbind_eq.
    cbn [fst snd map concat]. rewrite app_nil_r, HK, HKL.
    set (I0 := hmac_sha512 (curve_key b) seed) in *.
    assert (L0 : length (firstn 32 I0) = 32%nat) by apply left_length.
    assert (R : length (IR I0) = 32%nat) by apply right_length.
    assert (L64 : length I0 = 64%nat) by apply hmac_sha512_length.
    destruct (prv_from_bytes (backend b L) (firstn 32 I0)) as [s|k] eqn:E.
    + change (zeros 64) with ([] ++ zeros (64 - 0)).
      rewrite put_next; [|reflexivity|lia|exact L0]. cbn [app]. rewrite orbind_quiet.
      rewrite put_next; [|exact L0|lia|exact R]. rewrite orbind_quiet.
      change (zeros (64 - 64)) with (@nil byte). rewrite app_nil_r.
      assert (FS : firstn 32 I0 ++ IR I0 = I0) by apply firstn_skipn.
      rewrite !FS.
      assert (NE : is_empty I0 = false) by (destruct I0; [discriminate|reflexivity]).
      rewrite NE. specialize (IH I0). cbv zeta in IH.
      destruct (slip10_master_t dbg fuel (backend b L) I0) as [t r]. rewrite !say_eq. cbn [fst snd app b2v32]. destruct IH as [-> IH].
      split; [reflexivity|]. unfold new_slip10 in *. destruct (slip10_master_loop dbg fuel (backend b L) I0) as [r|].
      * destruct IH as (j & Hj & [F G] & ->). exists (S j). split; [lia|]. split.
        -- split; [unfold good; rewrite <- master_candidate_shift; exact F|].
           intros [|i] Hi; [exact (NG seed 0%nat s E)|]. unfold good. rewrite <- master_candidate_shift. apply G. lia.
        -- change (master_rejected b) with rej. rewrite (STEP seed I0 j L64), (LAST seed I0 j L64). reflexivity.
      * destruct IH as (F & ->). split.
        -- intros [|i] Hi; [exact (NG seed 0%nat s E)|]. unfold good. rewrite <- master_candidate_shift. apply F. lia.
        -- change (master_rejected b) with rej. rewrite (STEP seed I0 fuel L64). reflexivity.
    + split; [reflexivity|]. exists 0%nat. split; [lia|]. split; [|reflexivity].
      apply prv_from_iff in E; [|exact L0]. destruct E as [-> V]. split; [exact V|]. intros i Hi. lia.
Qed.
Print Assumptions C100_slip10_master.

Example C100_case :
  ec_laws Cyclic /\ ed_laws ToyEd /\ length (m_chain (xprv_meta (ex_prv K256))) = 32%nat /\
  match xprv_derive_path true (ex_prv K256) [5] with Ok _ => true | _ => false end = true /\
  fst (xprv_derive_path_t true (ex_prv K256) [5]) =
    [Cloned; If 131 1; ToPublic; If 98 0; Mac 32 [33%nat; 4%nat]; AddTweak; If 110 1; Hash160 33; If 131 0] /\
  fst (xpub_derive_path_t true (xprv_public (ex_prv P256)) [2147483653]) = [Cloned; If 91 1; If 54 1].
Proof.
  assert (O : match xprv_derive_path true (ex_prv K256) [5] with Ok _ => true | _ => false end = true) by (vm_cast_no_check (eq_refl true)).
  split; [exact cyclic_laws|]. split; [exact toy_ed_laws|]. split; [reflexivity|]. split; [exact O|].
  split.
  - pose proof (C100_private_path true K256 Cyclic cyclic_laws (ex_prv K256) [5] eq_refl) as P.
    destruct (xprv_derive_path_t true (ex_prv K256) [5]) as [t r]. destruct P as [-> P]. cbn [fst].
    destruct (xprv_derive_path true (ex_prv K256) [5]); [rewrite P; reflexivity|discriminate O..].
  - reflexivity.
Qed.
Print Assumptions C100_case.
