(** Property theorems for the fuzz targets of the bip0032 crate (C59-C61): no input
    makes an assertion of a target fail. *)
From Verif Require Import Base Str Sha2 Error32 Path32 PathSpec32 PathProofs32 Version32 Meta32 Payload32 Base58.
From Verif Require Import PayloadSpec32 PayloadProofs32 Curve32 XKey32 XKeySpec32 XKeyProofs32 Eqb32.
From Verif Require Import Fuzz39 Fuzz32 Props32 Props32k Secp256k1 Props32c.
Local Open Scope N_scope.

Lemma str_same s : str_eqb s s = true.
Proof. apply str_eqb_eq. reflexivity. Qed.
Lemma version_same v : version_eqb v v = true.
Proof. destruct v; apply N.eqb_refl. Qed.
Lemma index_ok {E A : Type} (l : list A) i : (i < length l)%nat -> exists x, @index E A l i = Ok x.
Proof.
  intros H. unfold index. destruct (nth_error l i) eqn:E0; [eauto|]. apply nth_error_None in E0. lia.
Qed.

Lemma build_loop_ok cs : forall acc h, Forall (fun c => c < 2 ^ 32) acc ->
  h = existsb child_is_hardened acc ->
  exists p, build_loop cs acc h = Ok (p, existsb child_is_hardened p) /\ Forall (fun c => c < 2 ^ 32) p.
Proof.
  induction cs as [|c cs IH]; intros acc h F ->; cbn [build_loop]; [eauto|].
  destruct (length c <? 5)%nat eqn:E; [eauto|]. apply Nat.ltb_ge in E.
  destruct (@index_ok Error byte c 4) as [b ->]; [lia|]. cbn [bind].
  set (i := N.land _ _). set (hd := _ =? 1).
  assert (Hi : i < 2 ^ 31).
  { unfold i. change 0x7FFFFFFF with (N.ones 31). rewrite N.land_ones. apply N.mod_lt. discriminate. }
  destruct (proj1 C22_child_numbers i hd) as [H _]; [lia|].
  destruct (H Hi) as (k & -> & _ & Hh & _ & Hk).
  destruct (IH (acc ++ [k]) (existsb child_is_hardened acc || hd)) as (p & -> & Fp).
  - apply Forall_app. auto.
  - rewrite existsb_app. cbn [existsb]. rewrite Hh, orb_false_r. reflexivity.
  - eauto.
Qed.
Lemma build_path_ok bytes n :
  exists p, build_path bytes n = Ok (p, existsb child_is_hardened p) /\ Forall (fun c => c < 2 ^ 32) p.
Proof. apply build_loop_ok; [constructor|reflexivity]. Qed.

(** ** C59 *)
Lemma mutate_step_ok alphabet bytes buf i : alphabet <> [] -> bytes <> [] ->
  exists buf', mutate_step alphabet bytes buf i = Ok buf'.
Proof.
  intros Ha Hb. assert (La : length alphabet <> 0%nat) by (destruct alphabet; [congruence|discriminate]).
  assert (Lb : length bytes <> 0%nat) by (destruct bytes; [congruence|discriminate]).
  unfold mutate_step.
  destruct (@index_ok Error byte bytes (i mod length bytes)) as [b ->]; [apply Nat.mod_upper_bound, Lb|].
  destruct (@index_ok Error byte bytes ((i + 1) mod length bytes)) as [p ->]; [apply Nat.mod_upper_bound, Lb|].
  destruct (@index_ok Error byte bytes ((i + 2) mod length bytes)) as [c ->]; [apply Nat.mod_upper_bound, Lb|].
  cbn [bind].
  destruct (@index_ok Error byte alphabet (N.to_nat (b2n c) mod length alphabet)) as [ch ->];
    [apply Nat.mod_upper_bound, La|]. cbn [bind].
  destruct buf as [|x buf]; cbn [is_empty negb].
  - destruct (_ =? 0); [eexists; reflexivity|]. destruct (_ =? 1); eexists; reflexivity.
  - set (n := length (x :: buf)). assert (Hn : (N.to_nat (b2n p) mod n < n)%nat)
      by (apply Nat.mod_upper_bound; discriminate).
    destruct (_ =? 0); [|destruct (_ =? 1)].
    + unfold vec_insert. fold n. replace (_ <=? n)%nat with true by (symmetry; apply Nat.leb_le; lia).
      eexists; reflexivity.
    + unfold set_at. fold n. replace (_ <? n)%nat with true by (symmetry; apply Nat.ltb_lt; exact Hn).
      eexists; reflexivity.
    + unfold vec_remove. fold n. replace (_ <? n)%nat with true by (symmetry; apply Nat.ltb_lt; exact Hn).
      eexists; reflexivity.
Qed.
Lemma mutate_loop_ok alphabet bytes : alphabet <> [] -> bytes <> [] -> forall n buf i,
  exists buf', mutate_loop alphabet bytes buf i n = Ok buf'.
Proof.
  intros Ha Hb. induction n as [|n IH]; intros buf i; cbn [mutate_loop]; [eauto|].
  destruct (mutate_step_ok alphabet bytes buf i Ha Hb) as [b ->]. apply IH.
Qed.
Lemma mutate_string_ok lossy alphabet s bytes ops : alphabet <> [] ->
  exists t, mutate_string lossy alphabet s bytes ops = Ok t.
Proof.
  intros Ha. unfold mutate_string. destruct bytes as [|b bytes]; [eexists; reflexivity|].
  cbn [is_empty orb]. destruct (ops =? 0)%nat; [eexists; reflexivity|].
  destruct (mutate_loop_ok alphabet (b :: bytes) Ha ltac:(discriminate) ops (utf8 s) 0) as [t ->].
  eexists. reflexivity.
Qed.
Lemma bounds_ok p : Forall (fun c => c < 2 ^ 32) p -> assert_child_bounds p = Ok tt.
Proof.
  induction 1 as [|c p H F IH]; [reflexivity|]. cbn [assert_child_bounds].
  replace (child_index c <? 0x80000000) with true; [exact IH|]. symmetry. apply N.ltb_lt.
  apply (child_parts c H).
Qed.
Lemma children_ok p : Forall (fun c => c < 2 ^ 32) p -> assert_children p = Ok tt.
Proof.
  induction 1 as [|c p H F IH]; [reflexivity|]. cbn [assert_children].
  rewrite (proj1 C23_display_parses c H). cbn [unwrap bind].
  rewrite N.eqb_refl, eqb_reflx. exact IH.
Qed.

Theorem C59_fuzz_parse_path lossy path_bytes mutate_bytes max_children mutate mutate_ops :
  fuzz_parse_path lossy path_bytes mutate_bytes max_children mutate mutate_ops = Ok tt.
Proof.
  unfold fuzz_parse_path. cbv zeta. destruct (build_path_ok path_bytes (Nat.min (N.to_nat (b2n max_children)) 32))
    as (p & -> & F). cbn [bind fst]. rewrite (proj2 C23_display_parses p F). cbn [unwrap bind].
  rewrite str_same. cbn [assert bind]. rewrite (bounds_ok p F), (children_ok p F). cbn [bind].
  destruct mutate; [|reflexivity]. unfold mutate_path.
  destruct (mutate_string_ok lossy (bytes_of "m/0123456789'hH") (path_show p) mutate_bytes
             (Nat.min (N.to_nat (b2n mutate_ops)) 8)) as [t ->]; [discriminate|]. cbn [bind].
  destruct (path_parse t) as [q|e|] eqn:E; [|reflexivity|].
  - destruct (C25_parsing_normalises t q E) as (R & _ & B & _).
    rewrite bounds_ok. { cbn [bind]. rewrite R. cbn [unwrap bind]. rewrite str_same. reflexivity. }
    eapply Forall_impl; [|exact B]. intros c [H _]. exact H.
  - exfalso. destruct (C24_path_grammar t) as [H1 H2].
    destruct H2 as (e & He & _); [|congruence]. intros cs Hc. apply H1 in Hc. congruence.
Qed.
Print Assumptions C59_fuzz_parse_path.

(** An input that takes the mutation branch and whose mutated text is accepted. *)
Example C59_case :
  build_path (unhex "2c0000000100000080000100000000") 3 = Ok ([2147483692; 0; 1], true) /\
  path_show [2147483692; 0; 1] = lit "m/44'/0/1" /\
  mutate_path (map b2n) (lit "m/44'/0/1") (unhex "010207") 1 = Ok (lit "m/54'/0/1").
Proof. repeat split; reflexivity. Qed.

(** ** C60 *)
Section Curve.
Context (dbg : profile) (L : ECLib) (HL : ec_laws L).
Local Notation C := (backend K256 L).

Lemma new_no_panic seed : xprv_new dbg C seed <> Panic.
Proof. rewrite xprv_new_eq. cbv zeta. destruct (prv_from_bytes _ _); discriminate. Qed.
Lemma prv_path_no_panic p : forall x : XPrv C, xprv_derive_path dbg x p <> Panic.
Proof.
  induction p as [|i p IH]; intros x; cbn [xprv_derive_path]; [discriminate|].
  rewrite derive_child_eq by apply be_bytes_length. cbv zeta.
  destruct (prv_add_tweak _ _ _); cbn [bind]; [discriminate|apply IH].
Qed.
Lemma pub_path_no_panic p : forall x : XPub C, xpub_derive_path dbg x p <> Panic.
Proof.
  induction p as [|i p IH]; intros x; cbn [xpub_derive_path]; [discriminate|].
  rewrite derive_pub_eq. destruct (2 ^ 31 <=? i); [discriminate|]. cbv zeta.
  destruct (pub_add_tweak _ _ _); cbn [bind]; [discriminate|apply IH].
Qed.

Lemma show_parse q : payload_wf q -> depth_rule (p_meta q) -> prefix_rule q ->
  exists t, payload_show q = Ok t /\ payload_parse dbg t = Ok q.
Proof. apply (proj2 (C28_payload_roundtrip dbg)). Qed.

Lemma export_prv (x : XPrv C) k : xprv_wf x -> depth_rule (xprv_meta x) ->
  In k [Xprv; Tprv; Yprv; Zprv; Uprv; Vprv; YprvShWsh; ZprvWsh; UprvShWsh; VprvWsh] ->
  exists q t, xprv_encode_with x (into_version k) = Ok q /\ payload_show q = Ok t /\
    payload_parse dbg t = Ok q /\ xprv_try_from dbg C q = Ok x /\ is_private (p_version q) = true.
Proof.
  intros W D K.
  assert (V : is_private (into_version k) = true /\ as_u32 (into_version k) < 2 ^ 32 /\
              ~ In (as_u32 (into_version k)) known_public).
  { cbn [In] in K. repeat (destruct K as [<-|K]; [split; [reflexivity|]; split; [reflexivity|];
      intros H; cbn in H; repeat destruct H as [H|H]; discriminate || exact H|]). contradiction. }
  destruct V as (V1 & V2 & V3). exists (prv_payload L x (into_version k)).
  destruct (show_parse (prv_payload L x (into_version k))) as (t & S & P).
  { apply (prv_payload_wf L K256 x _ W V2). }
  { exact D. }
  { unfold prefix_rule. cbn [prv_payload p_version]. destruct (into_version k); [discriminate|].
    split; [reflexivity|exact V3]. }
  exists t. split; [apply prv_encode_eq; exact V1|]. split; [exact S|]. split; [exact P|]. split; [|exact V1].
  rewrite prv_try_from_eq by apply (prv_payload_wf L K256 x _ W V2).
  cbn [prv_payload p_version p_key p_meta]. destruct (into_version k) as [v|v]; [discriminate|].
  cbn [app tl]. rewrite (prv_from_to L HL) by apply W. destruct x; reflexivity.
Qed.

Lemma export_pub (x : XPub C) k : xpub_wf x -> depth_rule (xpub_meta x) ->
  In k [Xpub; Tpub; Ypub; Zpub; Upub; Vpub; YpubShWsh; ZpubWsh; UpubShWsh; VpubWsh] ->
  exists q t, xpub_encode_with x (into_version k) = Ok q /\ payload_show q = Ok t /\
    payload_parse dbg t = Ok q /\ xpub_try_from dbg C q = Ok x /\ is_public (p_version q) = true.
Proof.
  intros W D K.
  assert (V : is_public (into_version k) = true /\ as_u32 (into_version k) < 2 ^ 32 /\
              ~ In (as_u32 (into_version k)) known_private).
  { cbn [In] in K. repeat (destruct K as [<-|K]; [split; [reflexivity|]; split; [reflexivity|];
      intros H; cbn in H; repeat destruct H as [H|H]; discriminate || exact H|]). contradiction. }
  destruct V as (V1 & V2 & V3). exists (pub_payload L x (into_version k)).
  destruct (show_parse (pub_payload L x (into_version k))) as (t & S & P).
  { apply (pub_payload_wf L HL K256 x _ W V2). }
  { exact D. }
  { unfold prefix_rule. cbn [pub_payload p_version]. destruct (into_version k); [|discriminate].
    split; [|exact V3]. apply (compress_prefix L HL). apply W. }
  exists t. split; [apply pub_encode_eq; exact V1|]. split; [exact S|]. split; [exact P|]. split; [|exact V1].
  rewrite pub_try_from_eq. cbn [pub_payload p_version p_key p_meta].
  destruct (into_version k) as [v|v]; [|discriminate].
  rewrite (pub_from_to L HL) by apply W. destruct x; reflexivity.
Qed.

Lemma roundtrip_prv_ok (x : XPrv C) : xprv_wf x -> depth_rule (xprv_meta x) ->
  exists t q, roundtrip_xprv dbg L x = Ok t /\ payload_parse dbg t = Ok q /\ is_private (p_version q) = true.
Proof.
  intros W D. destruct (export_prv x Xprv W D) as (q & t & E & S & P & T & V); [left; reflexivity|].
  exists t, q. unfold roundtrip_xprv. rewrite E. cbn [unwrap bind]. rewrite S. cbn [unwrap bind].
  rewrite P. cbn [unwrap bind]. rewrite T. cbn [unwrap bind]. rewrite E. cbn [unwrap bind].
  rewrite S. cbn [unwrap bind]. rewrite str_same. auto.
Qed.
Lemma roundtrip_pub_ok (x : XPub C) : xpub_wf x -> depth_rule (xpub_meta x) ->
  exists t q, roundtrip_xpub dbg L x = Ok t /\ payload_parse dbg t = Ok q /\ is_public (p_version q) = true.
Proof.
  intros W D. destruct (export_pub x Xpub W D) as (q & t & E & S & P & T & V); [left; reflexivity|].
  exists t, q. unfold roundtrip_xpub. rewrite E. cbn [unwrap bind]. rewrite S. cbn [unwrap bind].
  rewrite P. cbn [unwrap bind]. rewrite T. cbn [unwrap bind]. rewrite E. cbn [unwrap bind].
  rewrite S. cbn [unwrap bind]. rewrite str_same. auto.
Qed.

Lemma not_hardened p : Forall (fun c => c < 2 ^ 32) p -> existsb child_is_hardened p = false ->
  Forall (fun c => c < 2 ^ 31) p.
Proof.
  intros F. induction F as [|c p H F IH]; intros E; constructor; cbn [existsb] in E; apply orb_false_elim in E as [E1 E2].
  - rewrite hardened_eq in E1. apply N.leb_gt in E1. exact E1.
  - apply IH, E2.
Qed.
Lemma some_hardened p : existsb child_is_hardened p = true -> exists i, In i p /\ 2 ^ 31 <= i.
Proof.
  intros E. apply existsb_exists in E as (i & I & H). exists i. split; [exact I|].
  rewrite hardened_eq in H. apply N.leb_le, H.
Qed.

Theorem C60_fuzz_derive_path seed path_bytes max_seed_len max_path_len :
  fuzz_derive_path dbg L seed path_bytes max_seed_len max_path_len = Ok tt.
Proof.
  unfold fuzz_derive_path. cbv zeta. set (s := bounded_slice _ _). clearbody s.
  destruct (build_path_ok path_bytes (Nat.min (N.to_nat (b2n max_path_len)) 32)) as (p & -> & F).
  cbn [bind fst snd]. destruct (xprv_new dbg C s) as [m|e|] eqn:EM; [|reflexivity|elim (new_no_panic s EM)].
  destruct (xprv_derive_path dbg m p) as [x|e|] eqn:EX.
  - destruct (reachable_wf L HL dbg K256 s p m x F EM EX) as [W D].
    destruct (roundtrip_prv_ok x W D) as (t & q & -> & P & V). cbn [bind].
    destruct (roundtrip_pub_ok (xprv_public x)) as (t' & q' & R & P' & V').
    { apply xprv_public_wf; assumption. }
    { exact D. }
    rewrite R. cbn [bind]. rewrite (proj2 C23_display_parses p F). cbn [unwrap bind].
    rewrite str_same. cbn [assert bind].
    destruct (existsb child_is_hardened p) eqn:EH; cbn [negb].
    + destruct (some_hardened p EH) as (i & I & Hi).
      destruct (proj1 (C41_no_hardened_public dbg K256 L HL (xprv_public m) p i I Hi)) as (e & -> & _).
      cbn [bind]. rewrite P. cbn [unwrap bind]. rewrite V. cbn [assert bind].
      rewrite P'. cbn [unwrap bind]. rewrite V'. reflexivity.
    + pose proof (path_commute L HL dbg K256 p m (not_hardened p F EH)) as PC. rewrite EX in PC.
      destruct (xpub_derive_path dbg (xprv_public m) p) as [z|e|]; try contradiction. subst z.
      cbn [unwrap bind]. rewrite R. cbn [bind]. rewrite str_same. cbn [assert bind].
      rewrite P. cbn [unwrap bind]. rewrite V. cbn [assert bind].
      rewrite P'. cbn [unwrap bind]. rewrite V'. reflexivity.
  - destruct (negb _); [|reflexivity].
    pose proof (pub_path_no_panic p (xprv_public m)) as NP.
    destruct (xpub_derive_path dbg (xprv_public m) p); [reflexivity|reflexivity|congruence].
  - elim (prv_path_no_panic p m EX).
Qed.

(** ** C61 *)
Lemma mutate_payload_ok bytes ops : bytes <> [] -> forall payload i, payload <> [] ->
  exists payload', mutate_payload_loop bytes payload i ops = Ok payload'.
Proof.
  intros Hb. assert (Lb : length bytes <> 0%nat) by (destruct bytes; [congruence|discriminate]).
  induction ops as [|n IH]; intros payload i Hp; cbn [mutate_payload_loop]; [eauto|].
  assert (Lp : length payload <> 0%nat) by (destruct payload; [congruence|discriminate]).
  destruct (@index_ok Error byte bytes (i mod length bytes)) as [b ->]; [apply Nat.mod_upper_bound, Lb|].
  destruct (@index_ok Error byte bytes ((i + 1) mod length bytes)) as [d ->]; [apply Nat.mod_upper_bound, Lb|].
  cbn [bind]. set (pos := (N.to_nat (b2n b) mod length payload)%nat).
  assert (Hpos : (pos < length payload)%nat) by (apply Nat.mod_upper_bound, Lp).
  destruct (@index_ok Error byte payload pos Hpos) as [o ->]. cbn [bind]. unfold set_at.
  replace (pos <? length payload)%nat with true by (symmetry; apply Nat.ltb_lt; exact Hpos). cbn [bind].
  apply IH. clear -Lp. intros E. destruct payload; [cbn in Lp; congruence|]. destruct pos; discriminate E.
Qed.

Lemma pick_ok sel want : exists k, pick_version sel want = Ok (into_version k) /\ In k (if want then PRV else PUB).
Proof.
  unfold pick_version. set (i := (_ mod _)%nat). cbv zeta.
  assert (Hi : (i < length PUB)%nat) by (apply Nat.mod_upper_bound; discriminate).
  destruct (nth_error (if want then PRV else PUB) i) as [k|] eqn:E.
  - exists k. unfold index. rewrite E. split; [reflexivity|]. eapply nth_error_In. exact E.
  - exfalso. apply nth_error_None in E. destruct want; [change (length PRV) with (length PUB) in E|]; lia.
Qed.

Lemma tail_ok lossy encoded mutate_bytes (mutate_payload mutate_encoded : bool) ops :
  (let? _ :=
     if mutate_payload then
       match decode_payload encoded with
       | Some payload_bytes =>
           let? payload_bytes' := mutate_payload_bytes payload_bytes mutate_bytes ops in
           match encode_payload payload_bytes' with
           | Some mutated => @ignore Error Error _ (payload_parse dbg mutated)
           | None => Ok tt
           end
       | None => Ok tt
       end
     else (Ok tt : res Error unit) in
   if mutate_encoded then
     let? mutated := mutate_base58 lossy encoded mutate_bytes ops in
     @ignore Error Error _ (payload_parse dbg mutated)
   else Ok tt : res Error unit) = Ok tt.
Proof.
  assert (IG : forall s, @ignore Error Error _ (payload_parse dbg s) = Ok tt).
  { intros s. pose proof (proj2 C31_fits_and_total dbg s). destruct (payload_parse dbg s); reflexivity || congruence. }
  assert (T : (if mutate_encoded then
     let? mutated := mutate_base58 lossy encoded mutate_bytes ops in
     @ignore Error Error _ (payload_parse dbg mutated)
   else Ok tt) = Ok tt).
  { destruct mutate_encoded; [|reflexivity]. unfold mutate_base58.
    destruct (mutate_string_ok lossy (bytes_of "123456789ABCDEFGHJKLMNPQRSTUVWXYZabcdefghijkmnopqrstuvwxyz")
                encoded mutate_bytes ops) as [t ->]; [discriminate|]. apply IG. }
  rewrite T. destruct mutate_payload; [|reflexivity].
  destruct (decode_payload encoded) as [d|] eqn:E; [|reflexivity].
  assert (M : exists d', mutate_payload_bytes d mutate_bytes ops = Ok d').
  { unfold mutate_payload_bytes. destruct d as [|x d]; [eexists; reflexivity|].
    destruct mutate_bytes as [|y bs]; [eexists; reflexivity|]. cbn [is_empty orb].
    destruct (ops =? 0)%nat; [eexists; reflexivity|]. apply mutate_payload_ok; discriminate. }
  destruct M as [d' ->]. cbn [bind]. destruct (encode_payload d') as [s|]; [|reflexivity].
  rewrite IG. reflexivity.
Qed.

Theorem C61_fuzz_parse_xkey lossy seed path_bytes mutate_bytes max_seed_len max_children selector
    mutate_payload mutate_encoded mutate_ops :
  fuzz_parse_xkey dbg lossy L seed path_bytes mutate_bytes max_seed_len max_children selector
    mutate_payload mutate_encoded mutate_ops = Ok tt.
Proof.
  unfold fuzz_parse_xkey. cbv zeta. set (s := bounded_slice _ _). clearbody s.
  destruct (build_path_ok path_bytes (Nat.min (N.to_nat (b2n max_children)) 32)) as (p & -> & F).
  cbn [bind fst snd]. destruct (xprv_new dbg C s) as [m|e|] eqn:EM; [|reflexivity|elim (new_no_panic s EM)].
  destruct (xprv_derive_path dbg m p) as [x|e|] eqn:EX; [|reflexivity|elim (prv_path_no_panic p m EX)].
  destruct (reachable_wf L HL dbg K256 s p m x F EM EX) as [W D].
  set (want := N.land (b2n selector) 1 =? 0). clearbody want.
  destruct (pick_ok selector want) as (k & -> & K). cbn [bind]. destruct want.
  - destruct (export_prv x k W D K) as (q & t & E & S & P & T & V).
    rewrite E. cbn [unwrap bind]. rewrite S. cbn [unwrap bind]. rewrite P. cbn [unwrap bind].
    rewrite S. cbn [unwrap bind]. rewrite P. cbn [unwrap bind].
    rewrite version_same. cbn [assert bind]. rewrite V, T, E. cbn [unwrap bind].
    rewrite S. cbn [unwrap bind]. rewrite P. cbn [unwrap bind]. rewrite V. cbn [assert bind]. apply tail_ok.
  - destruct (export_pub (xprv_public x) k) as (q & t & E & S & P & T & V).
    { apply xprv_public_wf; assumption. }
    { exact D. }
    { exact K. }
    assert (V0 : is_private (p_version q) = false) by (destruct (p_version q); [reflexivity|discriminate V]).
    rewrite E. cbn [unwrap bind]. rewrite S. cbn [unwrap bind]. rewrite P. cbn [unwrap bind].
    rewrite S. cbn [unwrap bind]. rewrite P. cbn [unwrap bind].
    rewrite version_same. cbn [assert bind]. rewrite V0, V, T, E. cbn [unwrap bind].
    rewrite S. cbn [unwrap bind]. rewrite P. cbn [unwrap bind]. rewrite V. cbn [assert bind]. apply tail_ok.
Qed.
End Curve.
Print Assumptions C60_fuzz_derive_path.
Print Assumptions C61_fuzz_parse_xkey.

(** The curve the targets run on is an instance. *)
Example C60_case dc : ec_laws (Secp256k1 dc).
Proof. exact (proj1 (C55_secp256k1 dc)). Qed.
(** Selector 3 asks for a public key with the version of zpub. *)
Example C61_case : pick_version (n2b 3) false = Ok (Public 0x04B24746) /\
  mutate_payload_bytes (unhex "00ff10") (unhex "0507") 2 = Ok (unhex "00fa17").
Proof. split; reflexivity. Qed.
