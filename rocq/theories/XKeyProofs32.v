(** Proofs about extended keys and their derivation. *)
From Verif Require Import Base Str Sha2 Ripemd Error32 Version32 Path32 PathProofs32 Meta32 Payload32
  Base58Spec PayloadSpec32 PayloadProofs32 Curve32 XKey32 Slip10 XKeySpec32.

(** ** HMAC halves *)
Lemma hmac_split_eq {E : Type} key data :
  @hmac_sha512_split E key data =
  Ok (firstn 32 (hmac_sha512 key data), IR (hmac_sha512 key data)).
Proof.
  unfold hmac_sha512_split, IR. rewrite hmac_sha512_length. cbn [Nat.eqb].
  unfold slice. rewrite skipn_O. change (32 - 0)%nat with 32%nat. change (64 - 32)%nat with 32%nat.
  rewrite (firstn_all2 (skipn 32 _)); [reflexivity|].
  rewrite skipn_length, hmac_sha512_length. lia.
Qed.
Lemma left_length key data : length (firstn 32 (hmac_sha512 key data)) = 32%nat.
Proof. rewrite firstn_length, hmac_sha512_length. reflexivity. Qed.
Lemma right_length key data : length (IR (hmac_sha512 key data)) = 32%nat.
Proof. unfold IR. rewrite skipn_length, hmac_sha512_length. reflexivity. Qed.

Lemma fingerprint_eq b : key_fingerprint b = fingerprint b.
Proof. reflexivity. Qed.
Lemma fingerprint_length b : length (fingerprint b) = 4%nat.
Proof. unfold fingerprint. rewrite firstn_length, ripemd160_length. reflexivity. Qed.

(** ** Errors *)
Definition child_prv_error (child : N) (s : Source) : Error :=
  {| e_kind := InvalidDerivation; e_message := lit "invalid child private key";
     e_context := [(lit "child_index", dec (child_index child));
                   (lit "hardened", show_bool (child_is_hardened child))];
     e_source := Some s |}.
Definition child_pub_error (child : N) (s : Source) : Error :=
  {| e_kind := InvalidDerivation; e_message := lit "invalid child public key";
     e_context := [(lit "child_index", dec (child_index child)); (lit "hardened", show_bool false)];
     e_source := Some s |}.
Definition master_error (len : nat) (s : Source) : Error :=
  {| e_kind := InvalidKeyData; e_message := lit "invalid master key derived from seed";
     e_context := [(lit "seed_len", dec (N.of_nat len))]; e_source := Some s |}.

Lemma raise_fresh {A : Type} dbg e s : e_source e = None ->
  @raise A (set_source dbg e s) =
  Err {| e_kind := e_kind e; e_message := e_message e; e_context := e_context e; e_source := Some s |}.
Proof. intros H. unfold set_source. rewrite H, andb_false_r. reflexivity. Qed.

(** ** One derivation step, for every curve *)
Lemma child_bytes_eq i : child_to_bytes i = be_bytes 4 i.
Proof. reflexivity. Qed.
Lemma hardened_eq i : child_is_hardened i = (2 ^ 31 <=? i).
Proof. reflexivity. Qed.

Lemma put37 {E : Type} k i : length k = 32%nat ->
  (let? data := @put E 1 33 k (zeros 37) in put 33 37 (child_to_bytes i) data) =
  Ok ([x00] ++ k ++ be_bytes 4 i).
Proof.
  intros L. change (zeros 37) with ([x00] ++ zeros (37 - 1)).
  rewrite put_next; [|reflexivity|lia|exact L]. cbn [bind].
  rewrite put_next; [|rewrite app_length, L; reflexivity|lia|apply be_bytes_length].
  change (zeros (37 - 37)) with (@nil byte). rewrite app_nil_r, <- app_assoc. reflexivity.
Qed.
Lemma put37_pub {E : Type} p i : length p = 33%nat ->
  (let? data := @put E 0 33 p (zeros 37) in put 33 37 (child_to_bytes i) data) =
  Ok (p ++ be_bytes 4 i).
Proof.
  intros L. change (zeros 37) with ([] ++ zeros (37 - 0)).
  rewrite put_next; [|reflexivity|lia|exact L]. cbn [bind app].
  rewrite put_next; [|exact L|lia|apply be_bytes_length].
  change (zeros (37 - 37)) with (@nil byte). rewrite app_nil_r. reflexivity.
Qed.

Definition gen_data (C : Curve) (k : prv_t C) (i : N) : list byte :=
  if 2 ^ 31 <=? i then [x00] ++ prv_to_bytes C k ++ be_bytes 4 i
  else pub_to_bytes C (prv_to_public C k) ++ be_bytes 4 i.

Lemma derive_child_eq dbg (C : TweakCurve) (x : XPrv C) i :
  length (prv_to_bytes C (xprv_key x)) = 32%nat ->
  xprv_derive_child dbg x i =
  let I := hmac_sha512 (m_chain (xprv_meta x)) (gen_data C (xprv_key x) i) in
  match prv_add_tweak C (xprv_key x) (firstn 32 I) with
  | inl s => Err (child_prv_error i s)
  | inr k => Ok (mkXPrv (child_meta (xprv_meta x) (pub_to_bytes C (prv_to_public C (xprv_key x))) i (IR I)) k)
  end.
Proof.
  intros L. unfold xprv_derive_child, child_data, gen_data. rewrite hardened_eq.
  destruct (2 ^ 31 <=? i) eqn:E.
  - rewrite put37 by exact L. cbn [bind]. rewrite hmac_split_eq. cbn [bind].
    destruct (prv_add_tweak _ _ _); [|reflexivity]. rewrite raise_fresh by reflexivity.
    unfold child_prv_error. rewrite hardened_eq, E. reflexivity.
  - cbn [bind]. rewrite hmac_split_eq. cbn [bind]. rewrite child_bytes_eq.
    destruct (prv_add_tweak _ _ _); [|reflexivity]. rewrite raise_fresh by reflexivity.
    unfold child_prv_error. rewrite hardened_eq, E. reflexivity.
Qed.

Lemma derive_pub_eq dbg (C : TweakCurve) (x : XPub C) i :
  xpub_derive_child dbg x i =
  if 2 ^ 31 <=? i then Err (hardened_public_error i)
  else
    let I := hmac_sha512 (m_chain (xpub_meta x)) (pub_to_bytes C (xpub_key x) ++ be_bytes 4 i) in
    match pub_add_tweak C (xpub_key x) (firstn 32 I) with
    | inl s => Err (child_pub_error i s)
    | inr k => Ok (mkXPub (child_meta (xpub_meta x) (pub_to_bytes C (xpub_key x)) i (IR I)) k)
    end.
Proof.
  unfold xpub_derive_child. rewrite hardened_eq. destruct (2 ^ 31 <=? i); [reflexivity|].
  rewrite hmac_split_eq. cbn [bind]. rewrite child_bytes_eq.
  destruct (pub_add_tweak _ _ _); [|reflexivity]. rewrite raise_fresh by reflexivity. reflexivity.
Qed.

Lemma xprv_new_eq dbg C seed :
  xprv_new dbg C seed =
  let I := hmac_sha512 (hmac_key C) seed in
  match prv_from_bytes C (firstn 32 I) with
  | inl s => Err (master_error (length seed) s)
  | inr k => Ok (mkXPrv (master_meta (IR I)) k)
  end.
Proof.
  unfold xprv_new, derive_master_key_parts. rewrite hmac_split_eq. cbn [bind].
  destruct (prv_from_bytes _ _); [|reflexivity]. rewrite raise_fresh by reflexivity. reflexivity.
Qed.

(** ** The elliptic curve backends *)
Section Laws.
Context (L : ECLib) (HL : ec_laws L).

Lemma order_nz : order L <> 0.
Proof. pose proof (order_range L HL). lia. Qed.
Lemma order_small n : n mod order L < 256 ^ N.of_nat 32.
Proof.
  pose proof (order_range L HL). pose proof (N.mod_lt n (order L) order_nz).
  change (256 ^ N.of_nat 32) with (2 ^ 256). lia.
Qed.
Lemma small_prv k : k < order L -> k < 256 ^ N.of_nat 32.
Proof. intros H. pose proof (order_range L HL). change (256 ^ N.of_nat 32) with (2 ^ 256). lia. Qed.

Lemma prv_from_iff b bytes k : length bytes = 32%nat ->
  prv_from_bytes (backend b L) bytes = inr k <-> k = be_val bytes /\ valid_private L k.
Proof.
  intros HB. assert (Rc : rc_secret L bytes = inr k <-> k = be_val bytes /\ valid_private L k).
  { unfold rc_secret, valid_private. rewrite HB. cbn [Nat.eqb andb].
    destruct ((0 <? be_val bytes) && (be_val bytes <? order L)) eqn:E.
    - split; [intros [= <-]; lia|intros [-> _]; reflexivity].
    - split; [discriminate|intros [-> H]; lia]. }
  assert (Ff : ffi_secret L bytes = inr k <-> k = be_val bytes /\ valid_private L k).
  { unfold ffi_secret, valid_private. rewrite HB. cbn [Nat.eqb andb].
    destruct ((0 <? be_val bytes) && (be_val bytes <? order L)) eqn:E.
    - split; [intros [= <-]; lia|intros [-> _]; reflexivity].
    - split; [discriminate|intros [-> H]; lia]. }
  destruct b; [exact Rc|exact Rc|exact Ff].
Qed.

Lemma prv_tweak_iff b k t k' :
  prv_add_tweak (backend b L) k t = inr k' <->
  allowed b L (be_val t) /\ k' = (be_val t + k) mod order L /\ k' <> 0.
Proof.
  assert (Rc : rc_prv_add_tweak L k t = inr k' <->
     (0 < be_val t < order L) /\ k' = (be_val t + k) mod order L /\ k' <> 0).
  { unfold rc_prv_add_tweak, nonzero_scalar_from_bytes.
    destruct ((0 <? be_val t) && (be_val t <? order L)) eqn:E.
    - unfold rc_secret. rewrite be_bytes_length, be_val_be_bytes, N.mod_small by apply order_small.
      cbn [Nat.eqb andb]. pose proof (N.mod_lt (be_val t + k) (order L) order_nz) as B.
      destruct ((0 <? (be_val t + k) mod order L) && ((be_val t + k) mod order L <? order L)) eqn:F.
      + split; [intros [= <-]; lia|intros (_ & -> & _); reflexivity].
      + split; [discriminate|intros (_ & -> & H); lia].
    - split; [discriminate|intros (H & _); lia]. }
  assert (Ff : ffi_prv_add_tweak L k t = inr k' <->
     be_val t < order L /\ k' = (be_val t + k) mod order L /\ k' <> 0).
  { unfold ffi_prv_add_tweak, ffi_scalar. destruct (be_val t <? order L) eqn:E.
    - rewrite (N.add_comm k). destruct ((be_val t + k) mod order L =? 0) eqn:F.
      + split; [discriminate|intros (_ & -> & H); lia].
      + split; [intros [= <-]; lia|intros (_ & -> & _); reflexivity].
    - split; [discriminate|intros (H & _); lia]. }
  unfold allowed. destruct b; cbn [prv_add_tweak backend].
  - rewrite Rc. split; intros (A & B & C); (split; [split; [lia|]|auto]) || (split; [|auto]); try lia.
    destruct A as [A A']. split; [|lia]. destruct (be_val t); [|lia]. discriminate (A' eq_refl).
  - rewrite Rc. split; intros (A & B & C); (split; [split; [lia|]|auto]) || (split; [|auto]); try lia.
    destruct A as [A A']. split; [|lia]. destruct (be_val t); [|lia]. discriminate (A' eq_refl).
  - rewrite Ff. tauto.
Qed.

Lemma pub_tweak_iff b K t K' :
  pub_add_tweak (backend b L) K t = inr K' <->
  allowed b L (be_val t) /\ K' = padd L (pmul L (be_val t) (gen L)) K /\ K' <> infinity L.
Proof.
  pose proof (is_inf L HL) as INF.
  assert (Rc : rc_pub_add_tweak L K t = inr K' <->
     (0 < be_val t < order L) /\ K' = padd L (pmul L (be_val t) (gen L)) K /\ K' <> infinity L).
  { unfold rc_pub_add_tweak, nonzero_scalar_from_bytes, rc_public.
    destruct ((0 <? be_val t) && (be_val t <? order L)) eqn:E.
    - destruct (is_infinity L _) eqn:F.
      + apply INF in F. split; [discriminate|intros (_ & -> & H); contradiction].
      + split; [intros [= <-]|intros (_ & -> & _); reflexivity]. split; [lia|]. split; [reflexivity|].
        intros H. apply INF in H. congruence.
    - split; [discriminate|intros (H & _); lia]. }
  assert (Ff : ffi_pub_add_tweak L K t = inr K' <->
     be_val t < order L /\ K' = padd L (pmul L (be_val t) (gen L)) K /\ K' <> infinity L).
  { unfold ffi_pub_add_tweak, ffi_scalar. destruct (be_val t <? order L) eqn:E.
    - rewrite (add_comm L HL K). destruct (is_infinity L _) eqn:F.
      + apply INF in F. split; [discriminate|intros (_ & -> & H); contradiction].
      + split; [intros [= <-]|intros (_ & -> & _); reflexivity]. split; [lia|]. split; [reflexivity|].
        intros H. apply INF in H. congruence.
    - split; [discriminate|intros (H & _); lia]. }
  unfold allowed. destruct b; cbn [pub_add_tweak backend].
  - rewrite Rc. split; intros (A & B & C); (split; [split; [lia|]|auto]) || (split; [|auto]); try lia.
    destruct A as [A A']. split; [|lia]. destruct (be_val t); [|lia]. discriminate (A' eq_refl).
  - rewrite Rc. split; intros (A & B & C); (split; [split; [lia|]|auto]) || (split; [|auto]); try lia.
    destruct A as [A A']. split; [|lia]. destruct (be_val t); [|lia]. discriminate (A' eq_refl).
  - rewrite Ff. tauto.
Qed.

(** Scalar multiplication is additive in the scalar. *)
Lemma pmul_add a c p : pmul L (a + c) p = padd L (pmul L a p) (pmul L c p).
Proof.
  induction a as [|a IH] using N.peano_ind.
  - rewrite (mul_zero L HL), (add_comm L HL), (add_inf L HL). reflexivity.
  - rewrite N.add_succ_l, !(mul_succ L HL), IH, (add_assoc L HL). reflexivity.
Qed.
Lemma pmul_mod k : pmul L (k mod order L) (gen L) = pmul L k (gen L).
Proof.
  rewrite (N.div_mod k (order L) order_nz) at 2. rewrite pmul_add.
  assert (Z : pmul L (order L * (k / order L)) (gen L) = infinity L).
  { apply (gen_order L HL). rewrite N.mul_comm. apply N.mod_mul. exact order_nz. }
  rewrite Z, (add_comm L HL), (add_inf L HL). reflexivity.
Qed.
Lemma public_valid k : valid_private L k -> valid_public L (pmul L k (gen L)).
Proof.
  intros [H1 H2] E. apply (gen_order L HL) in E. rewrite N.mod_small in E by exact H2. lia.
Qed.

(** The private tweak is the public one, seen through the generator. *)
Lemma tweak_agree b k t :
  match prv_add_tweak (backend b L) k t, pub_add_tweak (backend b L) (pmul L k (gen L)) t with
  | inr k', inr K' => K' = pmul L k' (gen L)
  | inl _, inl _ => True
  | _, _ => False
  end.
Proof.
  assert (S : padd L (pmul L (be_val t) (gen L)) (pmul L k (gen L)) =
              pmul L ((be_val t + k) mod order L) (gen L)).
  { rewrite pmul_mod, pmul_add. reflexivity. }
  assert (Z : forall n, n mod order L = 0 <-> pmul L (n mod order L) (gen L) = infinity L).
  { intros n. rewrite pmul_mod. symmetry. apply (gen_order L HL). }
  destruct (prv_add_tweak (backend b L) k t) as [e|k'] eqn:Ek;
    destruct (pub_add_tweak (backend b L) (pmul L k (gen L)) t) as [e'|K'] eqn:EK.
  - exact I.
  - apply pub_tweak_iff in EK as (A & -> & NI). rewrite S in NI.
    assert (X : prv_add_tweak (backend b L) k t = inr ((be_val t + k) mod order L)).
    { apply prv_tweak_iff. split; [exact A|]. split; [reflexivity|]. intros E. apply Z in E. contradiction. }
    rewrite Ek in X. discriminate.
  - apply prv_tweak_iff in Ek as (A & -> & NZ).
    assert (X : pub_add_tweak (backend b L) (pmul L k (gen L)) t =
                inr (padd L (pmul L (be_val t) (gen L)) (pmul L k (gen L)))).
    { apply pub_tweak_iff. split; [exact A|]. split; [reflexivity|]. rewrite S. intros E.
      apply Z in E. contradiction. }
    rewrite EK in X. discriminate.
  - apply prv_tweak_iff in Ek as (_ & -> & _). apply pub_tweak_iff in EK as (_ & -> & _). exact S.
Qed.

Lemma pub_from_iff b bytes K : length bytes = 33%nat -> (hd x00 bytes = x02 \/ hd x00 bytes = x03) ->
  pub_from_bytes (backend b L) bytes = inr K <-> valid_public L K /\ compress L K = bytes.
Proof.
  intros HB HT. destruct bytes as [|tag x]; [discriminate|]. cbn [length hd] in *.
  assert (Lx : length x = 32%nat) by lia.
  assert (T : (b2n tag =? 2) || (b2n tag =? 3) = true) by (apply byte_23; exact HT).
  assert (D : decompress L tag x = Some K <-> valid_public L K /\ compress L K = tag :: x).
  { split.
    - intros H. apply (compress_decompress L HL tag x K HT Lx H).
    - intros [V E]. destruct (decompress_compress L HL K V) as (tag' & x' & E' & _ & D).
      rewrite E in E'. injection E' as -> ->. exact D. }
  assert (Rc : rc_sec1 L (tag :: x) = inr K <-> decompress L tag x = Some K).
  { unfold rc_sec1. rewrite Lx, T. cbn [Nat.eqb]. destruct (decompress L tag x) as [p|] eqn:E.
    - unfold rc_public. destruct (is_infinity L p) eqn:F.
      + apply (is_inf L HL) in F. apply (compress_decompress L HL tag x p HT Lx) in E. tauto.
      + split; [intros [= ->]|intros [= ->]]; reflexivity.
    - split; discriminate. }
  assert (Ff : ffi_public L (tag :: x) = inr K <-> decompress L tag x = Some K).
  { unfold ffi_public. rewrite Lx, T. cbn [Nat.eqb andb]. destruct (decompress L tag x) as [p|] eqn:E.
    - split; [intros [= ->]|intros [= ->]]; reflexivity.
    - split; discriminate. }
  rewrite <- D. destruct b; assumption.
Qed.

Lemma compress_prefix K : valid_public L K ->
  length (compress L K) = 33%nat /\ (hd x00 (compress L K) = x02 \/ hd x00 (compress L K) = x03).
Proof.
  intros V. split; [apply (compress_length L HL)|].
  destruct (decompress_compress L HL K V) as (tag & x & -> & T & _). exact T.
Qed.

(** ** Encoding and parsing *)
Lemma put_key {E : Type} k : length k = 32%nat -> @put E 1 33 k (zeros 33) = Ok ([x00] ++ k).
Proof.
  intros Lk. change (zeros 33) with ([x00] ++ zeros (33 - 1)).
  rewrite put_next; [|reflexivity|lia|exact Lk].
  change (zeros (33 - 33)) with (@nil byte). rewrite app_nil_r. reflexivity.
Qed.

Definition prv_payload {b : Library} (x : XPrv (backend b L)) (v : Version) : Payload :=
  {| p_version := v; p_meta := xprv_meta x; p_key := [x00] ++ be_bytes 32 (xprv_key x) |}.
Lemma prv_encode_eq b (x : XPrv (backend b L)) v : is_private v = true ->
  xprv_encode_with x v = Ok (prv_payload x v).
Proof.
  intros H. unfold xprv_encode_with. rewrite H. cbn [negb]. unfold xprv_encode_unchecked.
  rewrite put_key by apply be_bytes_length. reflexivity.
Qed.
Lemma prv_payload_wf b (x : XPrv (backend b L)) v : xprv_wf x -> as_u32 v < 2 ^ 32 ->
  payload_wf (prv_payload x v).
Proof.
  intros [M _] V. split; [exact V|]. split; [exact M|]. cbn [prv_payload p_key].
  rewrite app_length, be_bytes_length. reflexivity.
Qed.

Lemma prv_try_from_eq dbg b p : length (p_key p) = 33%nat ->
  xprv_try_from dbg (backend b L) p =
  match p_version p with
  | Public _ => Err (with_context (err_new InvalidVersion (lit "extended key is not private"))
                   (lit "version") (version_show (p_version p)))
  | Private _ =>
      match prv_from_bytes (backend b L) (tl (p_key p)) with
      | inl s => Err {| e_kind := InvalidKeyData; e_message := lit "invalid private key data";
                        e_context := [(lit "key_prefix", hex_byte_lower (hd x00 (p_key p)))];
                        e_source := Some s |}
      | inr k => Ok (mkXPrv (p_meta p) k)
      end
  end.
Proof.
  intros Lk. unfold xprv_try_from. destruct (p_version p) as [v|v]; [reflexivity|].
  cbn [is_private negb]. destruct (p_key p) as [|t k]; [discriminate|]. cbn [length] in Lk.
  cbn [skipn tl nth hd]. rewrite put_whole by lia. cbn [bind].
  destruct (prv_from_bytes _ _); [|reflexivity]. rewrite raise_fresh by reflexivity. reflexivity.
Qed.
Lemma pub_try_from_eq dbg b p :
  xpub_try_from dbg (backend b L) p =
  match p_version p with
  | Private _ => Err (with_context (err_new InvalidVersion (lit "extended key is not public"))
                   (lit "version") (version_show (p_version p)))
  | Public _ =>
      match pub_from_bytes (backend b L) (p_key p) with
      | inl s => Err {| e_kind := InvalidKeyData; e_message := lit "invalid public key data";
                        e_context := [(lit "key_prefix", hex_byte_lower (nth 0 (p_key p) x00))];
                        e_source := Some s |}
      | inr k => Ok (mkXPub (p_meta p) k)
      end
  end.
Proof.
  unfold xpub_try_from. destruct (p_version p) as [v|v]; [|reflexivity].
  cbn [is_public negb]. destruct (pub_from_bytes _ _); [|reflexivity].
  rewrite raise_fresh by reflexivity. reflexivity.
Qed.

Lemma prv_from_to b k : valid_private L k ->
  prv_from_bytes (backend b L) (be_bytes 32 k) = inr k.
Proof.
  intros V. apply prv_from_iff; [apply be_bytes_length|]. split; [|exact V].
  rewrite be_val_be_bytes, N.mod_small; [reflexivity|]. apply small_prv. apply V.
Qed.
Lemma pub_from_to b K : valid_public L K -> pub_from_bytes (backend b L) (compress L K) = inr K.
Proof.
  intros V. destruct (compress_prefix K V) as [A B]. apply pub_from_iff; auto.
Qed.

Lemma prv_roundtrip dbg b (x : XPrv (backend b L)) v :
  xprv_wf x -> depth_rule (xprv_meta x) -> as_u32 v < 2 ^ 32 -> is_private v = true ->
  ~ In (as_u32 v) known_public ->
  exists t, payload_show (prv_payload x v) = Ok t /\ xprv_parse dbg (backend b L) t = Ok x.
Proof.
  intros W D V P N. pose proof (prv_payload_wf b x v W V) as WP.
  destruct (payload_show_ok _ WP) as (t & S & B). exists t. split; [exact S|].
  unfold xprv_parse.
  assert (Q : payload_parse dbg t = Ok (prv_payload x v)).
  { apply payload_parse_iff. split; [exact WP|]. split; [exact B|]. split; [exact D|].
    unfold prefix_rule. cbn [prv_payload p_version]. destruct v as [v|v]; [discriminate|].
    split; [reflexivity|exact N]. }
  rewrite Q. cbn [bind]. rewrite prv_try_from_eq by apply WP.
  cbn [prv_payload p_version p_key p_meta]. destruct v as [v|v]; [discriminate|].
  cbn [app tl]. rewrite prv_from_to by apply W. destruct x; reflexivity.
Qed.

Definition pub_payload {b : Library} (x : XPub (backend b L)) (v : Version) : Payload :=
  {| p_version := v; p_meta := xpub_meta x; p_key := compress L (xpub_key x) |}.
Lemma pub_encode_eq b (x : XPub (backend b L)) v : is_public v = true ->
  xpub_encode_with x v = Ok (pub_payload x v).
Proof. intros H. unfold xpub_encode_with. rewrite H. reflexivity. Qed.
Lemma pub_payload_wf b (x : XPub (backend b L)) v : xpub_wf x -> as_u32 v < 2 ^ 32 ->
  payload_wf (pub_payload x v).
Proof. intros [M _] V. split; [exact V|]. split; [exact M|]. apply (compress_length L HL). Qed.
Lemma pub_roundtrip dbg b (x : XPub (backend b L)) v :
  xpub_wf x -> depth_rule (xpub_meta x) -> as_u32 v < 2 ^ 32 -> is_public v = true ->
  ~ In (as_u32 v) known_private ->
  exists t, payload_show (pub_payload x v) = Ok t /\ xpub_parse dbg (backend b L) t = Ok x.
Proof.
  intros W D V P N. pose proof (pub_payload_wf b x v W V) as WP.
  destruct (payload_show_ok _ WP) as (t & S & B). exists t. split; [exact S|].
  unfold xpub_parse.
  assert (Q : payload_parse dbg t = Ok (pub_payload x v)).
  { apply payload_parse_iff. split; [exact WP|]. split; [exact B|]. split; [exact D|].
    unfold prefix_rule. cbn [pub_payload p_version]. destruct v as [v|v]; [|discriminate].
    split; [apply compress_prefix; apply W|exact N]. }
  rewrite Q. cbn [bind]. rewrite pub_try_from_eq.
  cbn [pub_payload p_version p_key p_meta]. destruct v as [v|v]; [|discriminate].
  rewrite pub_from_to by apply W. destruct x; reflexivity.
Qed.

(** ** Derivation keeps the type invariants *)
Lemma child_meta_wf m p i c : i < 2 ^ 32 -> length c = 32%nat -> meta_wf (child_meta m p i c).
Proof. intros Hi Hc. split; [apply fingerprint_length|]. split; assumption. Qed.

Lemma prv_child_wf dbg b (x y : XPrv (backend b L)) i : i < 2 ^ 32 ->
  xprv_derive_child dbg x i = Ok y -> xprv_wf y.
Proof.
  intros Hi. rewrite derive_child_eq by apply be_bytes_length. cbv zeta.
  destruct (prv_add_tweak _ _ _) as [s|k] eqn:E; [discriminate|]. intros [= <-]. split.
  - apply child_meta_wf; [exact Hi|apply right_length].
  - apply prv_tweak_iff in E as (_ & -> & NZ). cbn [xprv_key]. split; [lia|].
    apply N.mod_lt. exact order_nz.
Qed.
Lemma pub_child_wf dbg b (x y : XPub (backend b L)) i : i < 2 ^ 32 ->
  xpub_derive_child dbg x i = Ok y -> xpub_wf y.
Proof.
  intros Hi. rewrite derive_pub_eq. cbv zeta. destruct (2 ^ 31 <=? i); [discriminate|].
  destruct (pub_add_tweak _ _ _) as [s|k] eqn:E; [discriminate|]. intros [= <-]. split.
  - apply child_meta_wf; [exact Hi|apply right_length].
  - apply pub_tweak_iff in E as (_ & -> & NZ). exact NZ.
Qed.
Lemma xprv_public_wf b (x : XPrv (backend b L)) : xprv_wf x -> xpub_wf (xprv_public x).
Proof. intros [M V]. split; [exact M|]. apply public_valid. exact V. Qed.

Lemma sat_succ_val d : b2n (sat_succ d) = N.min 255 (b2n d + 1).
Proof. unfold sat_succ. rewrite b2n_n2b, N.mod_small by lia. reflexivity. Qed.
Lemma sat_succ_nz d : sat_succ d <> x00.
Proof. intros E. pose proof (sat_succ_val d) as H. rewrite E in H. change (b2n x00) with 0 in H. lia. Qed.
Lemma child_depth_rule m p i c : depth_rule (child_meta m p i c).
Proof. intros E. elim (sat_succ_nz _ E). Qed.

(** ** Private and public derivation *)
Lemma gen_data_eq b k i : gen_data (backend b L) k i = ckd_priv_data L k i.
Proof. reflexivity. Qed.

Lemma child_commute dbg b (x : XPrv (backend b L)) i : i < 2 ^ 31 ->
  match xprv_derive_child dbg x i, xpub_derive_child dbg (xprv_public x) i with
  | Ok y, Ok z => z = xprv_public y
  | Err e, Err e' => e_kind e = InvalidDerivation /\ e_kind e' = InvalidDerivation
  | _, _ => False
  end.
Proof.
  intros Hi. rewrite derive_child_eq by apply be_bytes_length. rewrite derive_pub_eq.
  unfold gen_data. replace (2 ^ 31 <=? i) with false by lia. cbv zeta.
  cbn [xprv_public xpub_meta xpub_key].
  set (I := hmac_sha512 _ _).
  pose proof (tweak_agree b (xprv_key x) (firstn 32 I)) as T.
  change (prv_to_public (backend b L) (xprv_key x)) with (pmul L (xprv_key x) (gen L)).
  destruct (prv_add_tweak _ _ _) as [s|k]; destruct (pub_add_tweak _ _ _) as [s'|K];
    try contradiction; [split; reflexivity|]. rewrite T. reflexivity.
Qed.

Lemma path_commute dbg b p : forall (x : XPrv (backend b L)), Forall (fun i => i < 2 ^ 31) p ->
  match xprv_derive_path dbg x p, xpub_derive_path dbg (xprv_public x) p with
  | Ok y, Ok z => z = xprv_public y
  | Err e, Err e' => e_kind e = InvalidDerivation /\ e_kind e' = InvalidDerivation
  | _, _ => False
  end.
Proof.
  induction p as [|i p IH]; intros x H; cbn [xprv_derive_path xpub_derive_path]; [reflexivity|].
  inversion H as [|? ? Hi Hp]; subst. pose proof (child_commute dbg b x i Hi) as C.
  destruct (xprv_derive_child dbg x i) as [y|e|]; destruct (xpub_derive_child dbg (xprv_public x) i) as [z|e'|];
    try contradiction; cbn [bind].
  - subst z. apply IH. exact Hp.
  - exact C.
Qed.

Lemma reachable_wf dbg b seed p (m x : XPrv (backend b L)) :
  Forall (fun i => i < 2 ^ 32) p ->
  xprv_new dbg (backend b L) seed = Ok m -> xprv_derive_path dbg m p = Ok x ->
  xprv_wf x /\ depth_rule (xprv_meta x).
Proof.
  intros F Hm Hp. assert (IM : xprv_wf m /\ depth_rule (xprv_meta m)).
  { rewrite xprv_new_eq in Hm. cbv zeta in Hm.
    destruct (prv_from_bytes _ _) as [s|k] eqn:E; [discriminate|]. injection Hm as <-.
    apply prv_from_iff in E as [_ V]; [|apply left_length]. split.
    - split; [|exact V]. split; [reflexivity|]. split; [reflexivity|]. apply right_length.
    - intros _. split; reflexivity. }
  clear Hm. revert m IM Hp. induction p as [|i p IH]; intros m IM Hp; cbn [xprv_derive_path] in Hp.
  - injection Hp as <-. exact IM.
  - inversion F as [|? ? Fi Fp]; subst.
    destruct (xprv_derive_child dbg m i) as [y|e|] eqn:E; cbn [bind] in Hp; try discriminate.
    apply (IH Fp y); [|exact Hp]. split; [eapply prv_child_wf; eassumption|].
    rewrite derive_child_eq in E by apply be_bytes_length. cbv zeta in E.
    destruct (prv_add_tweak _ _ _); [discriminate|]. injection E as <-. apply child_depth_rule.
Qed.
End Laws.
