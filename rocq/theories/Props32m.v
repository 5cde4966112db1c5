(** Property theorems for bip0032: what is left in released heap memory (C83, C84). *)
From Verif Require Import Base Str Sha2 Memory39 Error32 Version32 Path32 Meta32 Base58 Base58Spec Base58Proofs
  Payload32 PayloadSpec32 PayloadProofs32 Curve32 XKey32 Slip10 Memory32 XKeySpec32 XKeyProofs32 SlipProofs32
  Cyclic32 Eqb32 Props32 Props32k.

(** The allocator grants at least what is asked for. *)
Definition growing (Al : allocator) : Prop := forall c n, n <= al_grow Al c n.

Lemma elements_to_vec s : elements (to_vec s) = s.
Proof. apply firstn_all. Qed.

(** The vector after a rejected candidate. *)
Lemma retry_block Al f v bs : length bs = 64%nat -> (k_len v <= length (k_mem v))%nat ->
  extend Al (f, truncate 0 v) bs =
  ((if 64 <=? k_cap v then f else f ++ (if (k_cap v =? 0) || negb (al_moves Al (k_cap v) 64) then [] else [k_mem v])),
   {| k_cap := if 64 <=? k_cap v then k_cap v else al_grow Al (k_cap v) 64; k_len := 64;
      k_mem := bs ++ skipn 64 (k_mem v) |}).
Proof.
  intros L _. unfold extend, truncate. cbn [k_cap k_len k_mem Nat.min]. rewrite L.
  change (N.of_nat 0 + N.of_nat 64) with 64. destruct (64 <=? k_cap v); unfold write_at; cbn [k_cap k_len k_mem];
    rewrite L; reflexivity.
Qed.

Lemma next_ok key data :
  exists n, @put Error 0 32 (firstn 32 (hmac_sha512 key data)) (zeros 64) = Ok n /\
    @put Error 32 64 (IR (hmac_sha512 key data)) n = Ok (hmac_sha512 key data).
Proof.
  set (I0 := hmac_sha512 key data).
  assert (L : length (firstn 32 I0) = 32%nat) by apply left_length.
  assert (R : length (IR I0) = 32%nat) by apply right_length.
  eexists. change (zeros 64) with ([] ++ zeros (64 - 0)).
  split; [rewrite put_next; [reflexivity|reflexivity|lia|exact L]|]. cbn [app].
  rewrite put_next; [|exact L|lia|exact R].
  change (zeros (64 - 64)) with (@nil byte). rewrite app_nil_r. f_equal. apply firstn_skipn.
Qed.

(** One round of both loops. *)
Lemma round_m Al dbg C fuel f v : (k_len v <= length (k_mem v))%nat ->
  let I0 := hmac_sha512 (hmac_key C) (elements v) in
  slip10_master_loop_m Al dbg (S fuel) C f v =
  match prv_from_bytes C (firstn 32 I0) with
  | inr k => (f ++ drop_block v, Some (Ok (mkXPrv (master_meta (IR I0)) k)))
  | inl _ =>
      slip10_master_loop_m Al dbg fuel C
        (if 64 <=? k_cap v then f else f ++ (if (k_cap v =? 0) || negb (al_moves Al (k_cap v) 64) then [] else [k_mem v]))
        {| k_cap := if 64 <=? k_cap v then k_cap v else al_grow Al (k_cap v) 64; k_len := 64;
           k_mem := I0 ++ skipn 64 (k_mem v) |}
  end.
Proof.
  intros HV I0. cbn [slip10_master_loop_m]. unfold derive_master_key_parts. rewrite hmac_split_eq. fold I0.
  destruct (prv_from_bytes C (firstn 32 I0)) as [s|k]; [|reflexivity].
  destruct (next_ok (hmac_key C) (elements v)) as (n & E1 & E2). fold I0 in E1, E2. rewrite E1, E2.
  assert (L : length I0 = 64%nat) by apply hmac_sha512_length.
  rewrite retry_block by assumption.
  assert (E : elements {| k_cap := if 64 <=? k_cap v then k_cap v else al_grow Al (k_cap v) 64; k_len := 64;
                          k_mem := I0 ++ skipn 64 (k_mem v) |} = I0).
  { unfold elements. cbn [k_len k_mem]. rewrite <- L, firstn_app, firstn_all, Nat.sub_diag, app_nil_r. reflexivity. }
  rewrite E. destruct I0 as [|x I0]; [discriminate|]. reflexivity.
Qed.
Lemma round dbg C fuel seed :
  let I0 := hmac_sha512 (hmac_key C) seed in
  new_slip10 dbg (S fuel) C seed =
  match prv_from_bytes C (firstn 32 I0) with
  | inr k => Some (Ok (mkXPrv (master_meta (IR I0)) k))
  | inl _ => new_slip10 dbg fuel C I0
  end.
Proof.
  intros I0. unfold new_slip10. cbn [slip10_master_loop]. unfold derive_master_key_parts.
  rewrite hmac_split_eq. fold I0. destruct (prv_from_bytes C (firstn 32 I0)) as [s|k]; [|reflexivity].
  destruct (next_ok (hmac_key C) seed) as (n & E1 & E2). fold I0 in E1, E2. rewrite E1, E2.
  assert (L : length I0 = 64%nat) by apply hmac_sha512_length.
  cbn [app]. destruct I0 as [|x I0]; [discriminate|]. reflexivity.
Qed.
Lemma retried (I0 m : list byte) : length I0 = 64%nat -> firstn 64 (I0 ++ skipn 64 m) = I0.
Proof. intros L. rewrite <- L, firstn_app, firstn_all, Nat.sub_diag, app_nil_r. reflexivity. Qed.
Lemma retried_tail (I0 m : list byte) : length I0 = 64%nat -> skipn 64 (I0 ++ m) = m.
Proof. intros L. rewrite <- L, skipn_app, skipn_all, Nat.sub_diag. reflexivity. Qed.

(** ** C83 *)
(** The same keys come out with and without the blocks. *)
Theorem C83_same_key Al dbg fuel C seed : snd (new_slip10_m Al dbg fuel C seed) = new_slip10 dbg fuel C seed.
Proof.
  unfold new_slip10_m. rewrite <- (elements_to_vec seed) at 2. generalize (@nil (list byte)).
  assert (H : (k_len (to_vec seed) <= length (k_mem (to_vec seed)))%nat) by reflexivity.
  revert H. generalize (to_vec seed). induction fuel as [|fuel IH]; intros v H f; [reflexivity|].
  rewrite round_m by exact H. cbv zeta. rewrite round. cbv zeta.
  destruct (prv_from_bytes C _) as [s|k]; [|reflexivity].
  pose proof (hmac_sha512_length (hmac_key C) (elements v)) as L.
  rewrite IH; cbn [k_len k_mem]; [|rewrite app_length, L; lia].
  unfold elements at 1. cbn [k_len k_mem]. rewrite retried by exact L. reflexivity.
Qed.

Print Assumptions C83_same_key.

(** The released blocks, for the curves with rejected candidates.  Nothing is
    overwritten but the first 64 bytes of a copy that was tried and rejected. *)
Lemma blocks_after Al dbg C (G : growing Al) j : forall fuel f v,
  (k_len v <= length (k_mem v))%nat ->
  (j < fuel)%nat -> (forall i, (i < j)%nat -> exists s, prv_from_bytes C (firstn 32 (master_candidate (hmac_key C) (elements v) i)) = inl s) ->
  (exists k, prv_from_bytes C (firstn 32 (master_candidate (hmac_key C) (elements v) j)) = inr k) ->
  fst (slip10_master_loop_m Al dbg fuel C f v) =
  match j with
  | O => f ++ drop_block v
  | S n => f ++ (if (0 <? k_cap v) && (k_cap v <? 64) && al_moves Al (k_cap v) 64 then [k_mem v] else []) ++
           [master_candidate (hmac_key C) (elements v) n ++ skipn 64 (k_mem v)]
  end.
Proof.
  induction j as [|j IH]; intros [|fuel] f v HV Hf HR [k HK]; try lia; rewrite round_m by exact HV; cbv zeta.
  - cbn [master_candidate] in HK. rewrite HK. reflexivity.
  - destruct (HR 0%nat ltac:(lia)) as [s Es]. cbn [master_candidate] in Es. rewrite Es.
    pose proof (hmac_sha512_length (hmac_key C) (elements v)) as L.
    set (v' := {| k_cap := _; k_len := 64; k_mem := _ |}).
    assert (EL : elements v' = hmac_sha512 (hmac_key C) (elements v)) by (apply retried; exact L).
    assert (CAP : 64 <= k_cap v').
    { subst v'. cbn [k_cap]. destruct (N.leb_spec 64 (k_cap v)); [assumption|apply G]. }
    rewrite IH; rewrite ?EL.
    + assert (MV : (0 <? k_cap v') && (k_cap v' <? 64) && al_moves Al (k_cap v') 64 = false).
      { replace (k_cap v' <? 64) with false by (symmetry; apply N.ltb_ge; exact CAP). rewrite andb_false_r. reflexivity. }
      assert (FR : (if 64 <=? k_cap v then f else f ++ (if (k_cap v =? 0) || negb (al_moves Al (k_cap v) 64) then [] else [k_mem v])) =
                   f ++ (if (0 <? k_cap v) && (k_cap v <? 64) && al_moves Al (k_cap v) 64 then [k_mem v] else [])).
      { destruct (N.leb_spec 64 (k_cap v)) as [K|K].
        - replace (k_cap v <? 64) with false by (symmetry; apply N.ltb_ge; exact K). rewrite andb_false_r. cbn. rewrite app_nil_r. reflexivity.
        - replace (k_cap v <? 64) with true by (symmetry; apply N.ltb_lt; exact K). rewrite andb_true_r.
          destruct (k_cap v) as [|q]; cbn; [reflexivity|]. destruct (al_moves Al (N.pos q) 64); reflexivity. }
      rewrite FR, MV. destruct j as [|n]; rewrite <- app_assoc.
      * unfold drop_block. replace (k_cap v' =? 0) with false by (symmetry; apply N.eqb_neq; lia). reflexivity.
      * cbn [app]. rewrite master_candidate_shift. cbn [k_mem v'].
        rewrite retried_tail by exact L. reflexivity.
    + cbn [k_len k_mem v']. rewrite app_length, L. lia.
    + lia.
    + intros i Hi. rewrite master_candidate_shift. apply HR. lia.
    + rewrite master_candidate_shift. eauto.
Qed.

Theorem C83_blocks Al dbg b L (HL : ec_laws L) fuel seed x : growing Al ->
  new_slip10 dbg fuel (backend b L) seed = Some (Ok x) ->
  let cand := master_candidate (curve_key b) seed in
  let len := N.of_nat (length seed) in
  exists j, first_index (fun j => 0 < be_val (firstn 32 (cand j)) < order L) j /\
    fst (new_slip10_m Al dbg fuel (backend b L) seed) =
    match j with
    | O => if is_empty seed then [] else [seed]
    | S n => (if (0 <? len) && (len <? 64) && al_moves Al len 64 then [seed] else []) ++
             [cand n ++ skipn 64 seed]
    end.
Proof.
  intros G H cand len. destruct (C45_slip10_master dbg b L HL seed) as (A & _ & _).
  apply A in H as (j & Hj & [F1 F2] & _). fold cand in F1, F2. exists j. split; [split; assumption|].
  assert (HK : hmac_key (backend b L) = curve_key b) by (destruct b; reflexivity).
  assert (LC : forall i, length (firstn 32 (cand i)) = 32%nat) by (intros i; destruct i; apply left_length).
  unfold new_slip10_m. rewrite (blocks_after Al dbg (backend b L) G j);
    rewrite ?HK, ?elements_to_vec; try fold cand.
  - destruct j as [|n].
    + unfold drop_block, to_vec. cbn [k_cap k_mem]. destruct seed; reflexivity.
    + reflexivity.
  - reflexivity.
  - exact Hj.
  - intros i Hi. specialize (F2 i Hi). destruct (prv_from_bytes (backend b L) (firstn 32 (cand i))) as [s|k] eqn:E; [eauto|].
    elim F2. apply prv_from_iff in E as [-> V]; [exact V|apply LC].
  - eexists. apply prv_from_iff; [apply LC|]. split; [reflexivity|exact F1].
Qed.
Print Assumptions C83_blocks.

(** Whoever reads the released memory has the key: one of the blocks begins with a
    seed for it.  For any curve. *)
Lemma more_fuel dbg C fuel : forall seed r, new_slip10 dbg fuel C seed = Some r -> new_slip10 dbg (S fuel) C seed = Some r.
Proof.
  induction fuel as [|fuel IH]; intros seed r H; [discriminate|].
  rewrite round in H |- *. cbv zeta in *. destruct (prv_from_bytes C _); [apply IH; exact H|exact H].
Qed.
Theorem C83_recovered Al dbg fuel C seed x : growing Al -> seed <> [] ->
  new_slip10 dbg fuel C seed = Some (Ok x) ->
  exists blk n, In blk (fst (new_slip10_m Al dbg fuel C seed)) /\
    new_slip10 dbg fuel C (firstn n blk) = Some (Ok x).
Proof.
  intros G NE. unfold new_slip10_m. rewrite <- (elements_to_vec seed) at 1. generalize (@nil (list byte)).
  assert (H : (k_len (to_vec seed) <= length (k_mem (to_vec seed)))%nat) by reflexivity.
  assert (HC : k_cap (to_vec seed) <> 0) by (destruct seed; [elim NE; reflexivity|discriminate]).
  revert H HC. generalize (to_vec seed). clear seed NE.
  induction fuel as [|fuel IH]; intros v H HC f R; [discriminate|].
  rewrite round_m by exact H. cbv zeta. pose proof R as R'. rewrite round in R. cbv zeta in R.
  destruct (prv_from_bytes C _) as [s|k].
  - pose proof (hmac_sha512_length (hmac_key C) (elements v)) as L.
    set (v' := {| k_cap := _; k_len := 64; k_mem := _ |}).
    assert (EL : elements v' = hmac_sha512 (hmac_key C) (elements v)) by (apply retried; exact L).
    match goal with |- context [slip10_master_loop_m _ _ _ _ ?f' v'] => destruct (IH v') with (l := f') as (blk & n & I & Q) end.
    + cbn [k_len k_mem v']. rewrite app_length, L. lia.
    + cbn [k_cap v']. destruct (N.leb_spec 64 (k_cap v)); [lia|]. pose proof (G (k_cap v) 64). lia.
    + rewrite EL. exact R.
    + exists blk, n. split; [exact I|]. apply more_fuel. exact Q.
  - exists (k_mem v), (k_len v). split; [|exact R']. cbn [fst]. apply in_or_app. right.
    unfold drop_block. apply N.eqb_neq in HC. rewrite HC. left. reflexivity.
Qed.
Print Assumptions C83_recovered.

(** Ed25519, which rejects no candidate: the released block is the seed. *)
Theorem C83_ed25519 Al dbg fuel D seed :
  fst (new_slip10_m Al dbg (S fuel) (Ed25519DalekBackend D) seed) = if is_empty seed then [] else [seed].
Proof.
  unfold new_slip10_m. rewrite round_m by reflexivity. cbv zeta. cbn [prv_from_bytes Ed25519DalekBackend].
  cbn [fst app]. unfold drop_block, to_vec. cbn [k_cap k_mem]. destruct seed; reflexivity.
Qed.
Print Assumptions C83_ed25519.

(** A curve that rejects often, so that a second block is seen. *)
Definition SmallCurve : Curve := {|
  hmac_key := bytes_of "small seed"; prv_t := list byte; pub_t := list byte;
  prv_from_bytes := fun b => if b2n (hd x00 b) <? 64 then inr b else inl SEllipticCurve;
  prv_to_bytes := fun b => b; prv_to_public := fun b => b; pub_from_bytes := fun b => inr b; pub_to_bytes := fun b => b;
  prv_erase := fun b => b |}.
Definition doubling : allocator :=
  {| al_grow := fun cap need => N.max need (2 * cap); al_moves := fun _ _ => true |}.
Lemma doubling_grows : growing doubling.
Proof. intros c n. cbn. lia. Qed.
Example C83_case : growing doubling /\
  match new_slip10_m doubling true 9 SmallCurve [x01] with
  | ([s; c], Some (Ok x)) =>
      bytes_eqb s [x01] && (length c =? 64)%nat &&
      bytes_eqb (xprv_key x) (firstn 32 (hmac_sha512 (bytes_of "small seed") c))
  | _ => false
  end = true /\
  match new_slip10_m doubling true 1 (backend P256 Cyclic) (unhex "000102030405060708090a0b0c0d0e0f") with
  | ([s], Some (Ok _)) => bytes_eqb s (unhex "000102030405060708090a0b0c0d0e0f")
  | _ => false
  end = true.
Proof. split; [exact doubling_grows|]. split; vm_cast_no_check (eq_refl true). Qed.

(** ** C84 *)
(** The text at the beginning of a block, up to the first zero byte. *)
Fixpoint text_of (blk : list byte) : str :=
  match blk with
  | [] => []
  | c :: rest => if b2n c =? 0 then [] else b2n c :: text_of rest
  end.

Lemma text_of_zeros s n : Forall (fun c => 0 < c < 256) s -> text_of (map n2b s ++ zeros n) = s.
Proof.
  intros F. induction F as [|c s Hc F IH]; cbn [map app text_of].
  - destruct n; reflexivity.
  - rewrite b2n_n2b, N.mod_small by lia. replace (c =? 0) with false by (symmetry; apply N.eqb_neq; lia).
    rewrite IH. reflexivity.
Qed.

Lemma base58check_chars b s : is_base58check b s -> Forall (fun c => 0 < c < 256) s.
Proof.
  intros (ds & F & _). clear b. induction F as [|d c ds s D F IH]; constructor; [|exact IH].
  apply digit_char_ascii in D. lia.
Qed.

(** Printing releases one block, which begins with the text and is otherwise blank. *)
Theorem C84_printed_text Al p : payload_wf p ->
  exists t, payload_show p = Ok t /\
    payload_show_m Al p = ([map n2b t ++ repeat x00 (123 - length t)], Ok t).
Proof.
  intros W. destruct (payload_show_ok p W) as (t & E & B). exists t. split; [exact E|].
  unfold payload_show in E. rewrite (serialize_ok p W) in E. cbn [bind] in E.
  unfold payload_show_m. rewrite (serialize_ok p W).
  destruct (encode_check (payload_bytes p)) as [s|]; [|discriminate]. injection E as ->.
  assert (LP : length (payload_bytes p) = 78%nat) by (apply payload_bytes_length; exact W).
  rewrite LP. change (max_encoded_len (78 + 4)) with 123%nat.
  assert (LT : (length t <= 123)%nat).
  { apply base58_length in B. rewrite app_length, LP, firstn_length in B. lia. }
  unfold extend, new_block. cbn [k_cap k_len k_mem].
  change (N.of_nat 0 + N.of_nat (length (zeros 123)) <=? N.of_nat MAX_KEY_PAYLOAD_STRING_LENGTH) with true. cbv iota.
  unfold drop_block, truncate, write_at. cbn [k_cap k_len k_mem firstn app]. 
  change (N.of_nat MAX_KEY_PAYLOAD_STRING_LENGTH =? 0) with false. cbv iota. rewrite skipn_nil, app_nil_r, map_length.
  f_equal. f_equal. f_equal. unfold zeros. replace 123%nat with (length t + (123 - length t))%nat at 1 by lia.
  rewrite repeat_app, skipn_app, skipn_all2 by (rewrite repeat_length; lia). rewrite repeat_length, Nat.add_0_l, Nat.sub_diag. reflexivity.
Qed.
Print Assumptions C84_printed_text.

(** Whoever reads the released memory has the key. *)
Theorem C84_printed_key Al dbg b L (HL : ec_laws L) (x : XPrv (backend b L)) n :
  xprv_wf x -> depth_rule (xprv_meta x) -> n < 2 ^ 32 -> ~ In n known_public ->
  exists p blk t, xprv_encode_with x (Private n) = Ok p /\ payload_show_m Al p = ([blk], Ok t) /\
    xprv_parse dbg (backend b L) (text_of blk) = Ok x.
Proof.
  intros W D V N. exists (prv_payload L x (Private n)).
  destruct (prv_roundtrip L HL dbg b x (Private n) W D V eq_refl N) as (t & E & P).
  destruct (C84_printed_text Al (prv_payload L x (Private n))) as (t' & E' & B).
  { apply prv_payload_wf; assumption. }
  assert (t' = t) as -> by congruence.
  eexists _, t. split; [apply prv_encode_eq; reflexivity|]. split; [exact B|].
  fold (zeros (123 - length t)). rewrite text_of_zeros; [exact P|].
  destruct (payload_show_ok (prv_payload L x (Private n))) as (t'' & E'' & B'').
  { apply prv_payload_wf; assumption. }
  assert (t'' = t) as -> by congruence. eapply base58check_chars. exact B''.
Qed.
Print Assumptions C84_printed_key.

Example C84_case : xprv_wf (ex_prv K256) /\ depth_rule (xprv_meta (ex_prv K256)) /\ ~ In 0x0488ADE4 known_public /\
  match xprv_encode_with (ex_prv K256) (Private 0x0488ADE4) with
  | Ok p => match payload_show_m doubling p with
            | ([blk], Ok t) => str_eqb (firstn 4 (text_of blk)) (lit "xprv") && (length blk =? 123)%nat &&
                               (length (text_of blk) =? 111)%nat
            | _ => false
            end
  | _ => false
  end = true.
Proof.
  split; [apply ex_prv_wf|]. split; [apply ex_depth|]. split; [|vm_cast_no_check (eq_refl true)].
  intros H. cbn in H. repeat destruct H as [H|H]; try discriminate H. exact H.
Qed.
