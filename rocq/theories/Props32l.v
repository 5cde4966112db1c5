(** C93: what the local variables of the private-key functions leave behind. *)
From Verif Require Import Base Str Sha2 Error32 Version32 Path32 Meta32 Base58 Payload32 PayloadSpec32 PayloadProofs32
  Base58Spec Base58Proofs Curve32 XKey32 Slip10 XKeySpec32 XKeyProofs32 SlipProofs32 Cyclic32 Locals32 Props32 Props32k.

(** ** The results are those of the functions without places *)
Lemma snd_scope {A} p b (m : W A) : snd (scope p b m) = snd m.
Proof. reflexivity. Qed.
Lemma snd_bindw {E A B} (m : W (res E A)) (k : A -> W (res E B)) :
  snd (bindw m k) = bind (snd m) (fun a => snd (k a)).
Proof. destruct m as [e [a|x|]]; reflexivity. Qed.
Lemma snd_obindw {A B} (m : W (res Error A)) (k : A -> W (option (res Error B))) :
  snd (obindw m k) = obind (snd m) (fun a => snd (k a)).
Proof. destruct m as [e [a|x|]]; reflexivity. Qed.
Lemma snd_hmac {E} key data : snd (@hmac_split_l E key data) = hmac_sha512_split key data.
Proof. unfold hmac_split_l, hmac_sha512_split. rewrite snd_scope. destruct (_ =? _)%nat; reflexivity. Qed.
Lemma snd_tweak b L k t : snd (tweak_l (backend_drop b L) k t) = prv_add_tweak (backend b L) k t.
Proof.
  assert (RC : snd (rc_tweak_l L k t) = rc_prv_add_tweak L k t).
  { unfold rc_tweak_l, rc_prv_add_tweak, nonzero_scalar_l.
    destruct (nonzero_scalar_from_bytes L t) as [e|n]; reflexivity. }
  destruct b; [exact RC|exact RC|].
  cbn [backend_drop tweak_l backend prv_add_tweak]. unfold ffi_tweak_l, ffi_prv_add_tweak.
  destruct (ffi_scalar L t) as [e|n]; reflexivity.
Qed.
Lemma snd_new dbg C seed : snd (new_l dbg C seed) = xprv_new dbg C seed.
Proof.
  unfold new_l, xprv_new, derive_master_key_parts. rewrite snd_bindw, snd_hmac.
  destruct (hmac_sha512_split _ _) as [[il ir]| |]; reflexivity.
Qed.
Lemma snd_child dbg b L (x : XPrv (backend b L)) i :
  snd (derive_child_l dbg (backend_drop b L) x i) = xprv_derive_child dbg x i.
Proof.
  unfold derive_child_l, xprv_derive_child, child_data. rewrite snd_scope, snd_bindw.
  match goal with |- bind ?m _ = bind ?n _ => assert (E : m = n) end.
  { destruct (child_is_hardened i); [|reflexivity]. unfold hardened_data_l. rewrite snd_bindw. cbn [scope pure snd].
    destruct (put 1 33 _ _) as [d| |]; cbn [bind]; [|reflexivity..]. rewrite snd_bindw. cbn [pure snd].
    destruct (put 33 37 _ _) as [d'| |]; reflexivity. }
  rewrite E. match goal with |- bind ?m _ = _ => destruct m as [data| |] end; cbn [bind]; [|reflexivity..].
  rewrite snd_bindw, snd_hmac. destruct (hmac_sha512_split _ _) as [[il ir]| |]; cbn [bind]; [|reflexivity..].
  rewrite !snd_scope. cbn [snd]. rewrite snd_tweak. reflexivity.
Qed.
Lemma snd_path dbg b L p : forall x : XPrv (backend b L),
  snd (derive_path_l dbg (backend_drop b L) x p) = xprv_derive_path dbg x p.
Proof.
  unfold derive_path_l. induction p as [|i p IH]; intros x; [reflexivity|]. cbn [derive_loop_l xprv_derive_path].
  rewrite <- (snd_child dbg b L x i).
  destruct (derive_child_l dbg (backend_drop b L) x i) as [e [y| |]]; cbn [snd bind]; [apply IH|reflexivity..].
Qed.
Lemma snd_encode C (x : XPrv C) v : snd (encode_unchecked_l x v) = xprv_encode_unchecked x v.
Proof.
  unfold encode_unchecked_l, xprv_encode_unchecked. rewrite snd_bindw. cbn [scope pure snd].
  destruct (put 1 33 _ _) as [d| |]; reflexivity.
Qed.
Lemma snd_try_from dbg C p : snd (try_from_l dbg C p) = xprv_try_from dbg C p.
Proof.
  unfold try_from_l, xprv_try_from. cbn [snd]. destruct (negb _); [reflexivity|]. rewrite snd_bindw. cbn [pure snd].
  destruct (put 0 32 _ _) as [d| |]; reflexivity.
Qed.
Lemma snd_payload_parse dbg s : snd (payload_parse_l dbg s) = payload_parse dbg s.
Proof.
  unfold payload_parse_l. destruct (_ <? _)%nat eqn:E; [reflexivity|]. rewrite snd_scope.
  destruct (decode_check _ _) as [err|data] eqn:D; [reflexivity|].
  destruct (negb _) eqn:N; [reflexivity|]. unfold parse_payload_l. rewrite N, !snd_scope. cbn [pure snd].
  unfold payload_parse. rewrite E, D, N. reflexivity.
Qed.
Lemma snd_show p : snd (payload_show_l p) = payload_show p.
Proof. unfold payload_show_l, payload_show. rewrite snd_bindw. destruct (serialize p) as [d| |]; reflexivity. Qed.
Lemma snd_parse dbg C s : snd (parse_l dbg C s) = xprv_parse dbg C s.
Proof.
  unfold parse_l, xprv_parse. rewrite snd_bindw, snd_payload_parse.
  destruct (payload_parse dbg s) as [p| |]; cbn [bind]; [apply snd_try_from|reflexivity..].
Qed.
Lemma snd_master dbg C fuel : forall seed, snd (master_loop_l dbg fuel C seed) = new_slip10 dbg fuel C seed.
Proof.
  unfold new_slip10. induction fuel as [|fuel IH]; intros seed; [reflexivity|].
  cbn [master_loop_l slip10_master_loop]. unfold derive_master_key_parts. rewrite <- (snd_hmac (E := Error) (hmac_key C) seed).
  destruct (hmac_split_l (hmac_key C) seed) as [e [[il ir]| |]]; cbn [snd]; [|reflexivity..].
  destruct (prv_from_bytes C il) as [err|k]; [|reflexivity].
  destruct (put 0 32 il (zeros 64)) as [n| |]; cbn [bind]; [|reflexivity..].
  destruct (put 32 64 ir n) as [n'| |]; cbn [app]; [|reflexivity..].
  destruct (is_empty n'); [reflexivity|]. apply IH.
Qed.
Lemma snd_loop {K} (t : list byte -> W (Source + K)) (u : list byte -> Source + K) chain cb :
  (forall il, snd (t il) = u il) -> forall fuel data,
  snd (slip10_loop_l fuel chain t cb data) = slip10_loop fuel chain u cb data.
Proof.
  intros H. induction fuel as [|fuel IH]; intros data; [reflexivity|]. cbn [slip10_loop_l slip10_loop].
  rewrite <- (snd_hmac (E := Error) chain data).
  destruct (hmac_split_l chain data) as [e [[il ir]| |]]; cbn [snd]; [|reflexivity..].
  rewrite <- (H il). destruct (t il) as [e' [s|k]]; cbn [fst snd]; [|reflexivity].
  destruct (retry_data ir cb) as [r| |]; [|reflexivity..]. apply IH.
Qed.
Lemma snd_hardened C fuel (x : XPrv C) c : snd (hardened_child_l fuel x c) = slip10_hardened_child fuel x c.
Proof.
  unfold hardened_child_l, slip10_hardened_child. rewrite snd_scope, snd_obindw. cbn [scope pure snd].
  destruct (put 1 33 _ _) as [d| |]; cbn [obind]; [|reflexivity..]. rewrite snd_obindw. cbn [pure snd].
  destruct (put 33 37 _ _) as [d'| |]; cbn [obind]; [|reflexivity..]. cbn [snd].
  rewrite (snd_loop _ (prv_from_bytes C)); reflexivity.
Qed.
Lemma snd_slip10 b L fuel (x : XPrv (backend b L)) c :
  snd (slip10_child_l fuel (backend_drop b L) x c) = slip10_prv_child fuel x c.
Proof.
  unfold slip10_child_l, slip10_prv_child. rewrite snd_scope, snd_obindw.
  match goal with |- obind ?m _ = obind ?n _ => assert (E : m = n) by (destruct (child_is_hardened c); reflexivity) end.
  rewrite E. match goal with |- obind ?m _ = _ => destruct m as [d| |] end; cbn [obind]; [|reflexivity..].
  rewrite snd_obindw. cbn [pure snd]. destruct (put 33 37 _ _) as [d'| |]; cbn [obind]; [|reflexivity..]. cbn [snd].
  rewrite (snd_loop _ (prv_add_tweak (backend b L) (xprv_key x))); [reflexivity|]. intros il. apply snd_tweak.
Qed.
Lemma snd_slip10_path {C N'} (D : KeyDrop C) (f : XPrv C -> N' -> W (option (res Error (XPrv C)))) g :
  (forall x c, snd (f x c) = g x c) -> forall p x, snd (slip10_path_l D f x p) = path_loop g x p.
Proof.
  intros H. induction p as [|c p IH]; intros x; [reflexivity|]. cbn [slip10_path_l path_loop]. rewrite <- H.
  destruct (f x c) as [e [[y| |]|]]; cbn [snd]; [apply IH|reflexivity..].
Qed.

Theorem C93_same_results dbg b L :
  (forall C seed, snd (new_l dbg C seed) = xprv_new dbg C seed) /\
  (forall (x : XPrv (backend b L)) i, snd (derive_child_l dbg (backend_drop b L) x i) = xprv_derive_child dbg x i) /\
  (forall (x : XPrv (backend b L)) p, snd (derive_path_l dbg (backend_drop b L) x p) = xprv_derive_path dbg x p) /\
  (forall C (x : XPrv C) v, snd (encode_unchecked_l x v) = xprv_encode_unchecked x v) /\
  (forall C s, snd (parse_l dbg C s) = xprv_parse dbg C s) /\
  (forall p, snd (payload_show_l p) = payload_show p) /\
  (forall fuel C seed, snd (master_loop_l dbg fuel C seed) = new_slip10 dbg fuel C seed) /\
  (forall fuel (x : XPrv (backend b L)) p,
     snd (slip10_path_l (backend_drop b L) (slip10_child_l fuel (backend_drop b L)) x p) = slip10_prv_path fuel x p) /\
  (forall z fuel D (x : XPrv (Ed25519DalekBackend D)) p cs, hpath_children dbg p = @Ok Error _ cs ->
     snd (slip10_path_l (dalek_drop z D) (hardened_child_l fuel) x cs) = slip10_hardened_path dbg fuel x p).
Proof.
  split; [intros; apply snd_new|]. split; [intros; apply snd_child|]. split; [intros; apply snd_path|].
  split; [intros; apply snd_encode|]. split; [intros; apply snd_parse|]. split; [intros; apply snd_show|].
  split; [intros; apply snd_master|]. split.
  - intros fuel x p. apply (snd_slip10_path _ _ (slip10_prv_child fuel)). intros. apply snd_slip10.
  - intros z fuel D x p cs H. unfold slip10_hardened_path. rewrite H. cbn [obind].
    apply (snd_slip10_path _ _ (slip10_hardened_child fuel)). intros. apply snd_hardened.
Qed.
Print Assumptions C93_same_results.

(** ** Everything with a wiping destructor is wiped *)

(** What must be left: 37, 32, .. zero bytes; the number 1 for scalars that cannot be zero; 01..01 for
    a key of libsecp256k1. *)
Definition cleared (b : Library) (e : place * list byte) : Prop :=
  match fst e with
  | HashData => snd e = zeros 37
  | Left | Raw | TweakBytes | Guard => snd e = zeros 32
  | TweakScalar | KeyScalar => snd e = zeros 31 ++ [x01]
  | Decoded => snd e = zeros 82
  | Serialized => snd e = zeros 78
  | MetaObject => snd e = zeros 41
  | PayloadKey => snd e = zeros 33
  | KeyObject => snd e = match b with Secp256k1Ffi => repeat x01 32 | _ => zeros 32 end
  | _ => True
  end.

Lemma wiped_zeros n bs : length bs = n -> wiped bs = zeros n.
Proof. intros <-. unfold wiped, zeros. induction bs as [|x bs IH]; [reflexivity|]. cbn. congruence. Qed.
Lemma put_length {E} a c src out d : @put E a c src out = Ok d -> length d = length out.
Proof.
  unfold put. destruct (_ && _) eqn:B; [|discriminate]. intros [= <-].
  apply andb_prop in B as [B B3]. apply andb_prop in B as [B1 B2].
  apply Nat.leb_le in B1, B2. apply Nat.eqb_eq in B3.
  rewrite !app_length, firstn_length, skipn_length. lia.
Qed.
Lemma meta_cleared m : length (m_chain m) = 32%nat -> meta_image (meta_zeroize m) = zeros 41.
Proof.
  intros H. unfold meta_image, meta_zeroize. cbn [m_depth m_fingerprint m_child m_chain].
  change (map (fun _ => x00) (m_chain m)) with (wiped (m_chain m)). rewrite (wiped_zeros 32) by exact H. reflexivity.
Qed.
Lemma F_scope {A} (P : place * list byte -> Prop) p bs (m : W A) : Forall P (fst m) -> P (p, bs) -> Forall P (fst (scope p bs m)).
Proof. intros H1 H2. cbn [scope fst]. apply Forall_app. auto. Qed.
Lemma F_bindw {E A B} P (m : W (res E A)) (k : A -> W (res E B)) :
  Forall P (fst m) -> (forall a, snd m = Ok a -> Forall P (fst (k a))) -> Forall P (fst (bindw m k)).
Proof. destruct m as [e [a|x|]]; cbn [bindw fst snd]; intros H1 H2; [apply Forall_app; auto|exact H1..]. Qed.
Lemma F_obindw {A B} P (m : W (res Error A)) (k : A -> W (option (res Error B))) :
  Forall P (fst m) -> (forall a, snd m = Ok a -> Forall P (fst (k a))) -> Forall P (fst (obindw m k)).
Proof. destruct m as [e [a|x|]]; cbn [obindw fst snd]; intros H1 H2; [apply Forall_app; auto|exact H1..]. Qed.
Lemma F_pure {A} P (a : A) : Forall P (fst (pure a)).
Proof. constructor. Qed.
Lemma F_hmac {E} b key data : Forall (cleared b) (fst (@hmac_split_l E key data)).
Proof.
  unfold hmac_split_l. apply F_scope; [|exact I]. destruct (_ =? _)%nat; [|apply F_pure].
  apply F_scope; [|exact I]. apply F_scope; [|exact I]. apply F_pure.
Qed.
Lemma F_tweak b L k t : length t = 32%nat -> Forall (cleared b) (fst (tweak_l (backend_drop b L) k t)).
Proof.
  intros Ht.
  assert (RC : Forall (cleared b) (fst (rc_tweak_l L k t))).
  { unfold rc_tweak_l, nonzero_scalar_l.
    destruct (nonzero_scalar_from_bytes L t) as [e|n]; cbn [scope pure fst snd app];
      repeat (constructor; [first [exact I | reflexivity | apply (wiped_zeros 32), Ht]|]); constructor. }
  destruct b; [exact RC|exact RC|]. cbn [backend_drop tweak_l]. unfold ffi_tweak_l.
  destruct (ffi_scalar L t) as [e|n]; cbn [scope pure fst snd app];
    repeat (constructor; [first [exact I | reflexivity | apply (wiped_zeros 32), Ht]|]); constructor.
Qed.
Lemma F_drop b L (x : XPrv (backend b L)) : length (m_chain (xprv_meta x)) = 32%nat ->
  Forall (cleared b) (drop_xprv_l (backend_drop b L) x).
Proof.
  intros H. constructor; [apply meta_cleared, H|]. constructor; [|constructor].
  destruct b; reflexivity.
Qed.
Lemma split_lengths {E} key data il ir : @hmac_sha512_split E key data = Ok (il, ir) ->
  length il = 32%nat /\ length ir = 32%nat.
Proof.
  rewrite hmac_split_eq. intros H. assert (E1 : il = firstn 32 (hmac_sha512 key data)) by congruence.
  assert (E2 : ir = IR (hmac_sha512 key data)) by congruence. subst. split; [apply left_length|apply right_length].
Qed.
Lemma F_new b dbg C seed : Forall (cleared b) (fst (new_l dbg C seed)).
Proof.
  unfold new_l. apply F_bindw; [apply F_hmac|]. intros [il ir] H. rewrite snd_hmac in H. apply split_lengths in H as [H _].
  apply F_scope; [|exact I]. apply F_scope; [|exact I]. apply F_scope; [apply F_pure|apply (wiped_zeros 32), H].
Qed.
Lemma F_child dbg b L (x : XPrv (backend b L)) i :
  Forall (cleared b) (fst (derive_child_l dbg (backend_drop b L) x i)).
Proof.
  unfold derive_child_l. apply F_scope; [|exact I]. apply F_bindw.
  - destruct (child_is_hardened i); [|apply F_pure]. unfold hardened_data_l. apply F_bindw.
    + apply F_scope; [apply F_pure|exact I].
    + intros d H. rewrite snd_scope in H. cbn [pure snd] in H. apply put_length in H. apply F_bindw; [apply F_pure|].
      intros d' H'. cbn [pure snd] in H'. apply put_length in H'. apply F_scope; [apply F_pure|].
      apply (wiped_zeros 37). rewrite H', H. reflexivity.
  - intros data _. apply F_bindw; [apply F_hmac|]. intros [il ir] H. rewrite snd_hmac in H. apply split_lengths in H as [H _].
    apply F_scope; [|exact I]. apply F_scope; [|exact I]. apply F_scope; [|apply (wiped_zeros 32), H].
    cbn [fst]. apply F_tweak, H.
Qed.
Lemma child_chain dbg b L (x y : XPrv (backend b L)) i : xprv_derive_child dbg x i = Ok y ->
  length (m_chain (xprv_meta y)) = 32%nat.
Proof.
  unfold xprv_derive_child. destruct (child_data _ _ _) as [d| |]; cbn [bind]; try discriminate.
  destruct (hmac_sha512_split _ d) as [[il ir]| |] eqn:H; cbn [bind]; try discriminate. apply split_lengths in H as [_ H].
  destruct (prv_add_tweak _ _ _) as [e|k].
  - unfold raise. destruct (set_source _ _ _); discriminate.
  - intros E. assert (Ey : y = mkXPrv (child_meta (xprv_meta x) (pub_to_bytes (backend b L) (prv_to_public (backend b L) (xprv_key x))) i ir) k) by congruence.
    subst y. exact H.
Qed.
Lemma F_path dbg b L p : forall x : XPrv (backend b L), length (m_chain (xprv_meta x)) = 32%nat ->
  Forall (cleared b) (fst (derive_path_l dbg (backend_drop b L) x p)).
Proof.
  unfold derive_path_l. induction p as [|i p IH]; intros x H; [constructor|]. cbn [derive_loop_l].
  pose proof (F_child dbg b L x i) as Fc. pose proof (snd_child dbg b L x i) as Sc.
  destruct (derive_child_l dbg (backend_drop b L) x i) as [e [y| |]]; cbn [fst snd] in *.
  - apply Forall_app. split; [exact Fc|]. apply Forall_app. split; [apply F_drop, H|]. apply IH.
    apply (child_chain dbg b L x y i). congruence.
  - apply Forall_app. split; [exact Fc|apply F_drop, H].
  - apply Forall_app. split; [exact Fc|apply F_drop, H].
Qed.
Lemma F_try_from b dbg C p : length (m_chain (p_meta p)) = 32%nat -> length (p_key p) = 33%nat ->
  Forall (cleared b) (fst (try_from_l dbg C p)).
Proof.
  intros Lc Lk. unfold try_from_l. cbn [fst]. apply Forall_app. split.
  - destruct (negb _); [apply F_pure|]. apply F_bindw; [apply F_pure|]. intros d H. cbn [pure snd] in H.
    apply put_length in H. apply F_scope; [apply F_pure|]. apply (wiped_zeros 32), H.
  - constructor; [apply meta_cleared, Lc|]. constructor; [|constructor]. cbn [payload_drop p_key].
    apply (wiped_zeros 33), Lk.
Qed.
Lemma F_payload_parse b dbg s : Forall (cleared b) (fst (payload_parse_l dbg s)).
Proof.
  unfold payload_parse_l. destruct (_ <? _)%nat; [apply F_pure|]. apply F_scope; [|reflexivity].
  destruct (decode_check _ _) as [e|data]; [apply F_pure|]. destruct (negb _) eqn:N; [apply F_pure|].
  unfold parse_payload_l. rewrite N. apply F_scope; [|exact I]. apply F_scope; [|exact I]. apply F_pure.
Qed.
Lemma F_parse b dbg C s : Forall (cleared b) (fst (parse_l dbg C s)).
Proof.
  unfold parse_l. apply F_bindw; [apply F_payload_parse|]. intros p H. rewrite snd_payload_parse in H.
  apply payload_parse_iff in H as ((_ & (_ & _ & Lc) & Lk) & _). apply F_try_from; assumption.
Qed.
Lemma F_show b p : payload_wf p -> Forall (cleared b) (fst (payload_show_l p)).
Proof.
  intros Wp. unfold payload_show_l. rewrite (serialize_ok p Wp). apply F_bindw; [apply F_scope; [apply F_pure|exact I]|].
  intros d H. cbn [scope pure snd] in H. assert (d = payload_bytes p) by congruence. subst d.
  apply F_scope; [apply F_pure|]. apply (wiped_zeros 78), (payload_bytes_length p Wp).
Qed.
Lemma F_master b dbg C fuel : forall seed, Forall (cleared b) (fst (master_loop_l dbg fuel C seed)).
Proof.
  induction fuel as [|fuel IH]; intros seed; [constructor|]. cbn [master_loop_l].
  pose proof (@F_hmac Error b (hmac_key C) seed) as Fh. pose proof (@snd_hmac Error (hmac_key C) seed) as Sh.
  destruct (hmac_split_l (hmac_key C) seed) as [e [[il ir]| |]]; cbn [fst snd] in *; [|exact Fh..].
  symmetry in Sh. apply split_lengths in Sh as [Hl _].
  assert (T : Forall (cleared b) [(Left, wiped il); (RightArray, ir); (LeftArray, il)]).
  { constructor; [apply (wiped_zeros 32), Hl|]. repeat (constructor; [exact I|]). constructor. }
  assert (R : forall mid, Forall (cleared b) mid ->
    Forall (cleared b) (e ++ mid ++ [(Left, wiped il); (RightArray, ir); (LeftArray, il)])).
  { intros mid Hm. apply Forall_app. split; [exact Fh|]. apply Forall_app. split; [exact Hm|exact T]. }
  assert (Z : forall n, Forall (cleared b) [(NextSeed, n)]) by (intros; repeat constructor).
  destruct (prv_from_bytes C il) as [err|k]; cbn [fst]; [|apply (R []); constructor].
  destruct (bind _ _) as [next| |]; cbn [fst]; [|apply (R []); constructor..].
  destruct (is_empty next); cbn [fst]; [apply R, Z|]. apply Forall_app. split; [apply R, Z|apply IH].
Qed.
Lemma retry_length ir cb d : retry_data ir cb = Ok d -> length d = 37%nat.
Proof.
  unfold retry_data. destruct (put 0 1 _ _) as [d1| |] eqn:E1; cbn [bind]; try discriminate.
  destruct (put 1 33 _ _) as [d2| |] eqn:E2; cbn [bind]; try discriminate. intros E3.
  apply put_length in E1, E2, E3. rewrite E3, E2, E1. reflexivity.
Qed.
Lemma F_loop {K} b (t : list byte -> W (Source + K)) chain cb :
  (forall il, length il = 32%nat -> Forall (cleared b) (fst (t il))) -> forall fuel data, length data = 37%nat ->
  Forall (cleared b) (fst (slip10_loop_l fuel chain t cb data)).
Proof.
  intros Ht. induction fuel as [|fuel IH]; intros data Ld; [constructor|]. cbn [slip10_loop_l].
  pose proof (@F_hmac Error b chain data) as Fh. pose proof (@snd_hmac Error chain data) as Sh.
  assert (DD : Forall (cleared b) [(HashData, wiped data)]).
  { constructor; [apply (wiped_zeros 37), Ld|constructor]. }
  destruct (hmac_split_l chain data) as [e [[il ir]| |]]; cbn [fst snd] in *;
    [|apply Forall_app; split; assumption..].
  symmetry in Sh. apply split_lengths in Sh as [Hl _]. specialize (Ht il Hl).
  assert (R : Forall (cleared b) (e ++ fst (t il) ++ [(Left, wiped il); (RightArray, ir); (LeftArray, il)])).
  { apply Forall_app. split; [exact Fh|]. apply Forall_app. split; [exact Ht|].
    constructor; [apply (wiped_zeros 32), Hl|]. repeat (constructor; [exact I|]). constructor. }
  destruct (snd (t il)) as [s|k]; cbn [fst]; [|apply Forall_app; split; assumption].
  destruct (retry_data ir cb) as [r| |] eqn:Er; cbn [fst]; [|apply Forall_app; split; assumption..].
  apply retry_length in Er. apply Forall_app. split; [exact R|]. constructor; [apply (wiped_zeros 37), Ld|].
  apply IH, Er.
Qed.
Lemma F_slip10 b L fuel (x : XPrv (backend b L)) c :
  Forall (cleared b) (fst (slip10_child_l fuel (backend_drop b L) x c)).
Proof.
  unfold slip10_child_l. apply F_scope; [|exact I]. apply F_obindw.
  - destruct (child_is_hardened c); [apply F_scope; [apply F_pure|exact I]|apply F_pure].
  - intros d H. assert (Ld : length d = 37%nat).
    { destruct (child_is_hardened c); cbn [scope pure snd] in H; apply put_length in H; exact H. }
    apply F_obindw; [apply F_pure|]. intros d' H'. cbn [pure snd] in H'. apply put_length in H'. cbn [fst].
    apply F_loop; [intros il Hl; apply F_tweak, Hl|congruence].
Qed.
Lemma loop_chain {K} (u : list byte -> Source + K) chain cb fuel : forall data k ir,
  slip10_loop fuel chain u cb data = Some (Ok (k, ir)) -> length ir = 32%nat.
Proof.
  induction fuel as [|fuel IH]; intros data k ir; [discriminate|]. cbn [slip10_loop].
  destruct (hmac_sha512_split chain data) as [[il ir']| |] eqn:H; try discriminate. apply split_lengths in H as [_ H].
  destruct (u il) as [s|k']; [|intros E; assert (ir' = ir) by congruence; congruence].
  destruct (retry_data ir' cb) as [r| |]; try discriminate. apply IH.
Qed.
Lemma slip10_chain b L fuel (x y : XPrv (backend b L)) c : slip10_prv_child fuel x c = Some (Ok y) ->
  length (m_chain (xprv_meta y)) = 32%nat.
Proof.
  unfold slip10_prv_child. match goal with |- obind ?m _ = _ -> _ => destruct m as [d| |] end; cbn [obind]; try discriminate.
  destruct (put 33 37 _ d) as [d'| |]; cbn [obind]; try discriminate.
  destruct (slip10_loop _ _ _ _ _) as [[[k ir]| |]|] eqn:E; cbn [omap option_map res_map]; try discriminate.
  apply loop_chain in E. intros H. injection H as <-. exact E.
Qed.
Lemma F_slip10_path b L fuel p : forall x : XPrv (backend b L), length (m_chain (xprv_meta x)) = 32%nat ->
  Forall (cleared b) (fst (slip10_path_l (backend_drop b L) (slip10_child_l fuel (backend_drop b L)) x p)).
Proof.
  induction p as [|c p IH]; intros x H; [constructor|]. cbn [slip10_path_l].
  pose proof (F_slip10 b L fuel x c) as Fc. pose proof (snd_slip10 b L fuel x c) as Sc.
  destruct (slip10_child_l fuel (backend_drop b L) x c) as [e [[y| |]|]]; cbn [fst snd] in *;
    [|apply Forall_app; split; [exact Fc|apply F_drop, H]..|exact Fc].
  apply Forall_app. split; [exact Fc|]. apply Forall_app. split; [apply F_drop, H|]. apply IH.
  apply (slip10_chain b L fuel x y c). congruence.
Qed.

Theorem C93_wiped dbg b L :
  (forall seed, Forall (cleared b) (fst (new_l dbg (backend b L) seed))) /\
  (forall (x : XPrv (backend b L)) p, meta_wf (xprv_meta x) ->
     Forall (cleared b) (fst (derive_path_l dbg (backend_drop b L) x p))) /\
  (forall s, Forall (cleared b) (fst (parse_l dbg (backend b L) s))) /\
  (forall p, payload_wf p -> Forall (cleared b) (fst (payload_show_l p))) /\
  (forall fuel seed, Forall (cleared b) (fst (master_loop_l dbg fuel (backend b L) seed))) /\
  (forall fuel (x : XPrv (backend b L)) p, meta_wf (xprv_meta x) ->
     Forall (cleared b) (fst (slip10_path_l (backend_drop b L) (slip10_child_l fuel (backend_drop b L)) x p))).
Proof.
  split; [intros; apply F_new|]. split; [intros x p (_ & _ & H); apply F_path, H|]. split; [intros; apply F_parse|].
  split; [apply F_show|]. split; [intros; apply F_master|]. intros fuel x p (_ & _ & H). apply F_slip10_path, H.
Qed.
Print Assumptions C93_wiped.

(** ** Every key object is dropped, except the one returned *)
Definition key_objects (e : ended) : nat :=
  length (filter (fun q => match fst q with KeyObject => true | _ => false end) e).
Lemma key_objects_app a c : key_objects (a ++ c) = (key_objects a + key_objects c)%nat.
Proof. unfold key_objects. rewrite filter_app, app_length. reflexivity. Qed.
Definition not_key (e : ended) : Prop := key_objects e = 0%nat.
Lemma nk_app a c : not_key a -> not_key c -> not_key (a ++ c).
Proof. unfold not_key. rewrite key_objects_app. lia. Qed.
Lemma nk_scope {A} p bs (m : W A) : not_key (fst m) -> p <> KeyObject -> not_key (fst (scope p bs m)).
Proof. intros H Hp. apply nk_app; [exact H|]. destruct p; try reflexivity. elim Hp. reflexivity. Qed.
Lemma nk_bindw {E A B} (m : W (res E A)) (k : A -> W (res E B)) :
  not_key (fst m) -> (forall a, not_key (fst (k a))) -> not_key (fst (bindw m k)).
Proof. destruct m as [e [a|x|]]; cbn [bindw fst]; intros H1 H2; [apply nk_app; auto|exact H1..]. Qed.
Lemma nk_hmac {E} key data : not_key (fst (@hmac_split_l E key data)).
Proof. unfold hmac_split_l. apply nk_scope; [|discriminate]. destruct (_ =? _)%nat; reflexivity. Qed.
Lemma nk_tweak b L k t : not_key (fst (tweak_l (backend_drop b L) k t)).
Proof.
  assert (RC : not_key (fst (rc_tweak_l L k t))).
  { unfold rc_tweak_l, nonzero_scalar_l. destruct (nonzero_scalar_from_bytes L t); reflexivity. }
  destruct b; [exact RC|exact RC|]. cbn [backend_drop tweak_l]. unfold ffi_tweak_l. destruct (ffi_scalar L t); reflexivity.
Qed.
Lemma nk_child dbg b L (x : XPrv (backend b L)) i : not_key (fst (derive_child_l dbg (backend_drop b L) x i)).
Proof.
  unfold derive_child_l. apply nk_scope; [|discriminate]. apply nk_bindw.
  - destruct (child_is_hardened i); [|reflexivity]. unfold hardened_data_l. apply nk_bindw; [reflexivity|].
    intros d. apply nk_bindw; reflexivity.
  - intros data. apply nk_bindw; [apply nk_hmac|]. intros [il ir].
    apply nk_scope; [|discriminate]. apply nk_scope; [|discriminate]. apply nk_scope; [|discriminate]. apply nk_tweak.
Qed.

(** [derive_path] makes a clone and one key for every child it derives.  On success all but the last
    are dropped, on failure all. *)
Theorem C93_key_objects dbg b L (x : XPrv (backend b L)) p :
  match xprv_derive_path dbg x p with
  | Ok _ => key_objects (fst (derive_path_l dbg (backend_drop b L) x p)) = length p
  | _ => exists i c y, nth_error p i = Some c /\ xprv_derive_path dbg x (firstn i p) = Ok y /\
           (forall z, xprv_derive_child dbg y c <> Ok z) /\
           key_objects (fst (derive_path_l dbg (backend_drop b L) x p)) = S i
  end.
Proof.
  unfold derive_path_l. revert x. induction p as [|c p IH]; intros x; [reflexivity|].
  cbn [derive_loop_l xprv_derive_path]. pose proof (nk_child dbg b L x c) as Nc. pose proof (snd_child dbg b L x c) as Sc.
  destruct (derive_child_l dbg (backend_drop b L) x c) as [e r]; cbn [fst snd] in *. subst r.
  destruct (xprv_derive_child dbg x c) as [y|err|] eqn:Ec; cbn [bind fst].
  - specialize (IH y). destruct (xprv_derive_path dbg y p) as [z|err|] eqn:Ep.
    + rewrite !key_objects_app, Nc, IH. reflexivity.
    + destruct IH as (i & c' & w & H1 & H2 & H3 & H4). exists (S i), c', w. split; [exact H1|]. split.
      * cbn [firstn xprv_derive_path]. rewrite Ec. exact H2.
      * split; [exact H3|]. rewrite !key_objects_app, Nc, H4. reflexivity.
    + destruct IH as (i & c' & w & H1 & H2 & H3 & H4). exists (S i), c', w. split; [exact H1|]. split.
      * cbn [firstn xprv_derive_path]. rewrite Ec. exact H2.
      * split; [exact H3|]. rewrite !key_objects_app, Nc, H4. reflexivity.
  - exists 0%nat, c, x. split; [reflexivity|]. split; [reflexivity|]. split; [intros z; congruence|].
    rewrite key_objects_app, Nc. reflexivity.
  - exists 0%nat, c, x. split; [reflexivity|]. split; [reflexivity|]. split; [intros z; congruence|].
    rewrite key_objects_app, Nc. reflexivity.
Qed.
Print Assumptions C93_key_objects.

(** ** What is left as it is *)
Definition holds (e : ended) (key : list byte) : Prop := exists p pre post, In (p, pre ++ key ++ post) e.
Lemma holds_at e p key : In (p, key) e -> holds e key.
Proof. intros H. exists p, [], []. rewrite app_nil_r. exact H. Qed.

Lemma from_bytes_key b L il k : length il = 32%nat -> prv_from_bytes (backend b L) il = inr k -> be_bytes 32 k = il.
Proof.
  intros Ll. replace (prv_from_bytes (backend b L) il)
    with (match b with Secp256k1Ffi => ffi_secret L | _ => rc_secret L end il) by (destruct b; reflexivity).
  assert (V : be_bytes 32 (be_val il) = il) by (rewrite <- Ll at 1; apply be_bytes_be_val).
  destruct b; unfold ffi_secret, rc_secret; destruct (_ && _ && _); intros [= <-]; exact V.
Qed.
Lemma raise_not_ok {A} (r : option Error) (y : A) : raise r <> Ok y.
Proof. destruct r; discriminate. Qed.
Lemma in_scope {A} q p bs (m : W A) : In q (fst m) -> In q (fst (scope p bs m)).
Proof. intros H. apply in_or_app. left. exact H. Qed.
Lemma in_scope_here {A} p bs (m : W A) : In (p, bs) (fst (scope p bs m)).
Proof. apply in_or_app. right. left. reflexivity. Qed.

Lemma new_holds dbg b L seed (x : XPrv (backend b L)) : xprv_new dbg (backend b L) seed = Ok x ->
  In (LeftArray, be_bytes 32 (xprv_key x)) (fst (new_l dbg (backend b L) seed)).
Proof.
  rewrite <- snd_new. unfold new_l. pose proof (@snd_hmac Error (hmac_key (backend b L)) seed) as Sh.
  destruct (hmac_split_l (hmac_key (backend b L)) seed) as [e [[il ir]| |]]; cbn [bindw fst snd]; try discriminate.
  symmetry in Sh. cbn [snd] in Sh. apply split_lengths in Sh as [Hl _]. rewrite !snd_scope. cbn [pure snd].
  destruct (prv_from_bytes (backend b L) il) as [s|k] eqn:K; intros H; [elim (raise_not_ok _ _ H)|].
  assert (Ex : x = mkXPrv (master_meta ir) k) by congruence. subst x. cbn [xprv_key].
  rewrite (from_bytes_key b L il k Hl K). apply in_or_app. right. apply in_scope_here.
Qed.
Lemma hardened_holds dbg b L (x : XPrv (backend b L)) i : 2 ^ 31 <= i ->
  In (KeyBytes, be_bytes 32 (xprv_key x)) (fst (derive_child_l dbg (backend_drop b L) x i)).
Proof.
  intros Hi. unfold derive_child_l. apply in_scope. rewrite hardened_eq. replace (2 ^ 31 <=? i) with true by lia.
  assert (H : In (KeyBytes, be_bytes 32 (xprv_key x)) (fst (hardened_data_l x i))).
  { unfold hardened_data_l. change (prv_to_bytes (backend b L) (xprv_key x)) with (be_bytes 32 (xprv_key x)).
    cbn [scope pure fst snd app]. destruct (put 1 33 _ _) as [d| |]; cbn [bindw fst]; left; reflexivity. }
  destruct (hardened_data_l x i) as [e [d| |]]; cbn [bindw fst] in *; [apply in_or_app; left; exact H|exact H..].
Qed.
Lemma rc_tweak_holds L k il k' : snd (rc_tweak_l L k il) = inr k' ->
  In (ChildScalar, be_bytes 32 k') (fst (rc_tweak_l L k il)).
Proof.
  unfold rc_tweak_l, nonzero_scalar_l.
  destruct (nonzero_scalar_from_bytes L il) as [s|t]; cbn [scope pure fst snd app]; [discriminate|].
  unfold rc_secret. destruct (_ && _ && _); [|discriminate]. intros H.
  assert (E : k' = be_val (be_bytes 32 ((t + k) mod order L))) by congruence. rewrite E.
  pose proof (be_bytes_be_val (be_bytes 32 ((t + k) mod order L))) as B. rewrite be_bytes_length in B. rewrite B.
  right. right. right. left. reflexivity.
Qed.
Lemma bindw_ok {E A B} (m : W (res E A)) (k : A -> W (res E B)) z : snd (bindw m k) = Ok z ->
  exists a, snd m = Ok a /\ snd (k a) = Ok z /\ (forall q, In q (fst (k a)) -> In q (fst (bindw m k))).
Proof.
  destruct m as [e [a|x|]]; cbn; [|discriminate..]. intros H. exists a. split; [reflexivity|]. split; [exact H|].
  intros q I. apply in_or_app. right. exact I.
Qed.
Lemma child_tweak dbg {C : TweakCurve} (D : TweakDrop C) (x y : XPrv C) i : snd (derive_child_l dbg D x i) = Ok y ->
  exists il, snd (tweak_l D (xprv_key x) il) = inr (xprv_key y) /\
  (forall q, In q (fst (tweak_l D (xprv_key x) il)) -> In q (fst (derive_child_l dbg D x i))).
Proof.
  unfold derive_child_l. rewrite snd_scope. intros H.
  apply bindw_ok in H as (d & _ & H & I1). apply bindw_ok in H as ([il ir] & _ & H & I2).
  exists il. rewrite !snd_scope in H. cbn [snd] in H. split.
  - destruct (snd (tweak_l D (xprv_key x) il)) as [s|k]; [elim (raise_not_ok _ _ H)|].
    apply (f_equal (fun r => match r with Ok v => Some (xprv_key v) | _ => None end)) in H. cbn [xprv_key] in H. congruence.
  - intros q I. apply in_scope, I1, I2, in_scope, in_scope, in_scope. exact I.
Qed.
Lemma child_holds dbg b L (x y : XPrv (backend b L)) i : b <> Secp256k1Ffi -> xprv_derive_child dbg x i = Ok y ->
  In (ChildScalar, be_bytes 32 (xprv_key y)) (fst (derive_child_l dbg (backend_drop b L) x i)).
Proof.
  intros Hb H. rewrite <- snd_child in H. apply child_tweak in H as (il & T & I). apply I.
  destruct b; [| |elim Hb; reflexivity]; exact (rc_tweak_holds L (xprv_key x) il _ T).
Qed.
Lemma encode_holds C (x : XPrv C) v : In (KeyBytes, prv_to_bytes C (xprv_key x)) (fst (encode_unchecked_l x v)).
Proof.
  unfold encode_unchecked_l. cbn [scope pure fst snd app].
  destruct (put 1 33 _ _) as [d| |]; cbn [bindw fst]; left; reflexivity.
Qed.
Lemma show_holds p : payload_wf p -> In (SerializedArray, payload_bytes p) (fst (payload_show_l p)).
Proof. intros Wp. unfold payload_show_l. rewrite (serialize_ok p Wp). cbn [scope pure bindw fst snd app]. left. reflexivity. Qed.
Lemma parse_holds dbg b L s (x : XPrv (backend b L)) : xprv_parse dbg (backend b L) s = Ok x ->
  In (KeyData, [x00] ++ be_bytes 32 (xprv_key x)) (fst (parse_l dbg (backend b L) s)).
Proof.
  unfold xprv_parse. destruct (payload_parse dbg s) as [p| |] eqn:P; cbn [bind]; try discriminate. intros T.
  pose proof (proj1 (payload_parse_iff dbg s p) P) as (Wp & B & _ & R). pose proof (payload_bytes_length p Wp) as Lb.
  destruct (base58check_78_decode s _ Lb B) as [U Dc].
  assert (E : p_key p = [x00] ++ be_bytes 32 (xprv_key x)).
  { destruct Wp as (_ & _ & Lk). rewrite (prv_try_from_eq L dbg b p Lk) in T. unfold prefix_rule, key_prefix in R.
    destruct (p_version p); [discriminate T|].
    destruct (prv_from_bytes (backend b L) (tl (p_key p))) as [e|k] eqn:K; [discriminate T|].
    assert (Ex : x = mkXPrv (p_meta p) k) by congruence. subst x. cbn [xprv_key].
    destruct (p_key p) as [|t r]; [discriminate Lk|]. cbn [tl hd] in *. injection Lk as Lk.
    rewrite (from_bytes_key b L r k Lk K). destruct R as [-> _]. reflexivity. }
  rewrite <- E. unfold parse_l. pose proof (snd_payload_parse dbg s) as Sp.
  assert (I0 : In (KeyData, p_key p) (fst (payload_parse_l dbg s))).
  { unfold payload_parse_l. rewrite U. apply in_scope. rewrite Dc. unfold KEY_PAYLOAD_LENGTH. rewrite Lb. cbn [Nat.eqb negb].
    unfold parse_payload_l. rewrite Lb. cbn [Nat.eqb negb]. apply in_scope.
    destruct (split78_bytes p _ Wp eq_refl) as (_ & _ & _ & _ & _ & K). rewrite K. apply in_scope_here. }
  destruct (payload_parse_l dbg s) as [e r]. cbn [fst snd] in *. subst r. rewrite P. cbn [bindw fst].
  apply in_or_app. left. exact I0.
Qed.
Lemma master_holds dbg b L fuel : forall seed (x : XPrv (backend b L)),
  new_slip10 dbg fuel (backend b L) seed = Some (Ok x) ->
  In (LeftArray, be_bytes 32 (xprv_key x)) (fst (master_loop_l dbg fuel (backend b L) seed)).
Proof.
  induction fuel as [|fuel IH]; intros seed x; [discriminate|]. rewrite <- snd_master. cbn [master_loop_l].
  pose proof (@snd_hmac Error (hmac_key (backend b L)) seed) as Sh.
  destruct (hmac_split_l (hmac_key (backend b L)) seed) as [e [[il ir]| |]]; cbn [fst snd] in *; try discriminate.
  symmetry in Sh. apply split_lengths in Sh as [Hl _].
  destruct (prv_from_bytes (backend b L) il) as [err|k] eqn:K; cbn [fst snd].
  - destruct (bind _ _) as [next| |]; cbn [fst snd]; try discriminate.
    destruct (is_empty next); cbn [fst snd].
    + intros H. exfalso. apply (raise_not_ok (set_source dbg (err_new InvalidDerivation (lit "slip10 seed retry failed")) err) x).
      congruence.
    + rewrite snd_master. intros H. apply in_or_app. right. apply IH, H.
  - intros H. assert (Ex : x = mkXPrv (master_meta ir) k) by congruence. subst x. cbn [xprv_key].
    rewrite (from_bytes_key b L il k Hl K). apply in_or_app. right. right. right. left. reflexivity.
Qed.

(** Private keys that stay in plain arrays: the master key in the variable shadowed by its [Zeroizing]
    copy, the parent's key in the temporary copied into the hashed data, the child's key in the scalar
    of the RustCrypto backends, and the key of every text written or read. *)
Theorem C93_private_keys_left dbg b L :
  (forall seed x, xprv_new dbg (backend b L) seed = Ok x ->
     holds (fst (new_l dbg (backend b L) seed)) (be_bytes 32 (xprv_key x))) /\
  (forall fuel seed x, new_slip10 dbg fuel (backend b L) seed = Some (Ok x) ->
     holds (fst (master_loop_l dbg fuel (backend b L) seed)) (be_bytes 32 (xprv_key x))) /\
  (forall (x : XPrv (backend b L)) i, 2 ^ 31 <= i ->
     holds (fst (derive_child_l dbg (backend_drop b L) x i)) (be_bytes 32 (xprv_key x))) /\
  (forall (x y : XPrv (backend b L)) i, b <> Secp256k1Ffi -> xprv_derive_child dbg x i = Ok y ->
     holds (fst (derive_child_l dbg (backend_drop b L) x i)) (be_bytes 32 (xprv_key y))) /\
  (forall (x : XPrv (backend b L)) v, holds (fst (encode_unchecked_l x v)) (be_bytes 32 (xprv_key x))) /\
  (forall p, payload_wf p -> holds (fst (payload_show_l p)) (p_key p)) /\
  (forall s x, xprv_parse dbg (backend b L) s = Ok x ->
     holds (fst (parse_l dbg (backend b L) s)) (be_bytes 32 (xprv_key x))).
Proof.
  repeat apply conj.
  - intros seed x H. eapply holds_at, new_holds, H.
  - intros fuel seed x H. eapply holds_at, master_holds, H.
  - intros x i H. eapply holds_at, hardened_holds, H.
  - intros x y i Hb H. eapply holds_at, child_holds; eassumption.
  - intros x v. eapply holds_at, (encode_holds (backend b L)).
  - intros p Wp. pose proof (show_holds p Wp) as H. unfold payload_bytes in H. rewrite !app_assoc in H.
    eexists SerializedArray, _, []. rewrite app_nil_r. exact H.
  - intros s x H. apply parse_holds in H. exists KeyData, [x00], []. rewrite app_nil_r. exact H.
Qed.
Print Assumptions C93_private_keys_left.

Theorem C93_no_key_left_refuted :
  ~ (forall dbg b L, ec_laws L -> forall (x : XPrv (backend b L)) i, xprv_wf x ->
       ~ holds (fst (derive_child_l dbg (backend_drop b L) x i)) (be_bytes 32 (xprv_key x))).
Proof.
  intros H. refine (H true K256 Cyclic cyclic_laws (ex_prv K256) (2 ^ 31) (ex_prv_wf K256) _).
  eapply holds_at, hardened_holds. lia.
Qed.
Print Assumptions C93_no_key_left_refuted.

(** With libsecp256k1 and a child that is not hardened, what is left can be computed from the extended
    public key. *)
Definition public_traces {L : ECLib} (X : XPub (backend Secp256k1Ffi L)) (i : N) : ended :=
  let P := compress L (xpub_key X) in
  let I := hmac_sha512 (m_chain (xpub_meta X)) (P ++ be_bytes 4 i) in
  [(HmacRight, skipn 32 I); (HmacLeft, firstn 32 I); (HmacOutput, I); (TweakBytes, zeros 32)] ++
  (if be_val (firstn 32 I) <? order L then [(Guard, zeros 32)] else []) ++
  [(Left, zeros 32); (RightArray, skipn 32 I); (LeftArray, firstn 32 I); (PublicBytes, P)].
Theorem C93_public_traces dbg L (x : XPrv (backend Secp256k1Ffi L)) i : i < 2 ^ 31 ->
  fst (derive_child_l dbg (backend_drop Secp256k1Ffi L) x i) = public_traces (xprv_public x) i.
Proof.
  intros Hi. unfold derive_child_l, public_traces. rewrite hardened_eq. replace (2 ^ 31 <=? i) with false by lia.
  change (pub_to_bytes (backend Secp256k1Ffi L) (prv_to_public (backend Secp256k1Ffi L) (xprv_key x)))
    with (compress L (xpub_key (xprv_public x))). rewrite child_bytes_eq.
  change (m_chain (xpub_meta (xprv_public x))) with (m_chain (xprv_meta x)).
  set (data := compress L _ ++ _). cbv zeta.
  pose proof (left_length (m_chain (xprv_meta x)) data) as Ll.
  assert (Sh : @hmac_split_l Error (m_chain (xprv_meta x)) data =
     ([(HmacRight, skipn 32 (hmac_sha512 (m_chain (xprv_meta x)) data));
       (HmacLeft, firstn 32 (hmac_sha512 (m_chain (xprv_meta x)) data));
       (HmacOutput, hmac_sha512 (m_chain (xprv_meta x)) data)],
      Ok (firstn 32 (hmac_sha512 (m_chain (xprv_meta x)) data), skipn 32 (hmac_sha512 (m_chain (xprv_meta x)) data)))).
  { unfold hmac_split_l. rewrite hmac_sha512_length. cbn [Nat.eqb].
    assert (E1 : slice 0 32 (hmac_sha512 (m_chain (xprv_meta x)) data) = firstn 32 (hmac_sha512 (m_chain (xprv_meta x)) data)) by reflexivity.
    assert (E2 : slice 32 64 (hmac_sha512 (m_chain (xprv_meta x)) data) = skipn 32 (hmac_sha512 (m_chain (xprv_meta x)) data)).
    { unfold slice. apply firstn_all2. rewrite skipn_length, hmac_sha512_length. lia. }
    rewrite E1, E2. reflexivity. }
  cbn [bindw pure]. rewrite Sh. cbn [bindw fst snd app].
  generalize dependent (hmac_sha512 (m_chain (xprv_meta x)) data). intros I Ll Sh. clear Sh.
  cbn [scope fst snd app backend_drop tweak_l]. unfold ffi_tweak_l, ffi_scalar.
  rewrite (wiped_zeros 32) by exact Ll. destruct (be_val (firstn 32 I) <? order L); reflexivity.
Qed.
Print Assumptions C93_public_traces.

(** ed25519: without dalek's feature "zeroize" the keys on the way stay as they are. *)
Lemma count_hardened {C : Curve} fuel (x : XPrv C) c : not_key (fst (hardened_child_l fuel x c)).
Proof.
  assert (LOOP : forall (t : list byte -> W (Source + prv_t C)) chain cb, (forall il, not_key (fst (t il))) ->
    forall fuel data, not_key (fst (slip10_loop_l fuel chain t cb data))).
  { intros t chain cb Ht. induction fuel0 as [|f IH]; intros data; [reflexivity|]. cbn [slip10_loop_l].
    pose proof (@nk_hmac Error chain data) as Nh.
    destruct (hmac_split_l chain data) as [e [[il ir]| |]]; cbn [fst snd] in *; [|apply nk_app; [exact Nh|reflexivity]..].
    specialize (Ht il). destruct (snd (t il)) as [s|k]; cbn [fst].
    - destruct (retry_data ir cb); cbn [fst]; repeat (apply nk_app; try assumption); try reflexivity. apply IH.
    - repeat (apply nk_app; try assumption); reflexivity. }
  unfold hardened_child_l. apply nk_scope; [|discriminate].
  assert (OB : forall A B (m : W (res Error A)) (k : A -> W (option (res Error B))),
    not_key (fst m) -> (forall a, not_key (fst (k a))) -> not_key (fst (obindw m k))).
  { intros A B [e [a|y|]] k H1 H2; cbn [obindw fst] in *; [apply nk_app; auto|exact H1..]. }
  apply OB; [reflexivity|]. intros d. apply OB; [reflexivity|]. intros d'. cbn [fst]. apply LOOP. reflexivity.
Qed.
Theorem C93_dalek z D fuel dbg (x y : XPrv (Ed25519DalekBackend D)) p cs :
  hpath_children dbg p = @Ok Error _ cs -> slip10_hardened_path dbg fuel x p = Some (Ok y) ->
  let e := fst (slip10_path_l (dalek_drop z D) (hardened_child_l fuel) x cs) in
  key_objects e = length cs /\
  (forall i w, (i < length cs)%nat -> path_loop (slip10_hardened_child fuel) x (firstn i cs) = Some (Ok w) ->
     In (KeyObject, if z then wiped (xprv_key w) else xprv_key w) e).
Proof.
  unfold slip10_hardened_path. intros -> H. cbn [obind] in H. cbv zeta. clear p. revert x H.
  induction cs as [|c cs IH]; intros x H; [split; [reflexivity|intros i w Hi; cbn in Hi; lia]|].
  cbn [path_loop slip10_path_l] in *. pose proof (count_hardened fuel x c) as Nc. pose proof (snd_hardened _ fuel x c) as Sc.
  destruct (hardened_child_l fuel x c) as [e r]. cbn [fst snd] in *. subst r.
  destruct (slip10_hardened_child fuel x c) as [[v| |]|] eqn:Ec; cbn [fst] in *; try discriminate H.
  destruct (IH v H) as [I1 I2]. split.
  - rewrite !key_objects_app, Nc, I1. reflexivity.
  - intros i w Hi Hw. apply in_or_app. right. destruct i as [|i].
    + cbn [firstn path_loop] in Hw. assert (x = w) by congruence. subst w. right. left. destruct z; reflexivity.
    + cbn [firstn path_loop] in Hw. rewrite Ec in Hw. apply in_or_app. right. apply (I2 i w); [cbn in Hi; lia|exact Hw].
Qed.
Print Assumptions C93_dalek.

(** Deriving child 0 of the example key with libsecp256k1 leaves only cleared and public values, the last one the
    public key; a hardened child leaves the key of the parent. *)
Example C93_case :
  (exists rest, fst (derive_child_l true (backend_drop Secp256k1Ffi Cyclic) (ex_prv Secp256k1Ffi) 0) =
     rest ++ [(PublicBytes, compress Cyclic (xpub_key (xprv_public (ex_prv Secp256k1Ffi))))]) /\
  holds (fst (derive_child_l true (backend_drop Secp256k1Ffi Cyclic) (ex_prv Secp256k1Ffi) (2 ^ 31)))
    (be_bytes 32 0xedb2e14f9ee77d26dd93b4ecede8d16ed408ce149b6cd80b0715a2d911a0afea).
Proof.
  split.
  - rewrite C93_public_traces by reflexivity. unfold public_traces. cbv zeta.
    match goal with |- context [ [?a; ?b; ?c; (PublicBytes, ?P)] ] => change [a; b; c; (PublicBytes, P)] with ([a; b; c] ++ [(PublicBytes, P)]) end.
    rewrite !app_assoc. eexists. reflexivity.
  - exact (proj1 (proj2 (proj2 (C93_private_keys_left true Secp256k1Ffi Cyclic))) (ex_prv Secp256k1Ffi) (2 ^ 31) (N.le_refl _)).
Qed.
