(** C94: the shared contexts of the libsecp256k1 backend under threads and weak memory. *)
From Verif Require Import Base Str Error32 Path32 Meta32 Curve32 XKey32 XKeySpec32 XKeyProofs32 Once32 OnceProofs32 Cyclic32.

(** No execution of any threads accesses a context without synchronisation, or one that is not
    there. *)
Theorem C94_no_race L R (programs : list (prog L R)) w : steps (start programs) w ->
  forall t, In t (w_threads w) -> th_pc t <> Raced.
Proof.
  intros St t Ht. destruct (steps_ok _ _ St (start_ok programs)) as [I _]. pose proof (inv_threads _ I) as Th.
  rewrite Forall_forall in Th. destruct (Th t Ht) as [_ P]. intros E. rewrite E in P.
  destruct (call_kind (th_prog t)); [exact P|discriminate P].
Qed.
Print Assumptions C94_no_race.

(** A context that is there stays, so all calls of all threads get the same one; at most one thread is
    making one, and the word becomes COMPLETE at most once and for good. *)
Definition completes (c : message) : bool := match ms_state c with Complete => true | _ => false end.
Theorem C94_one_context L R (programs : list (prog L R)) w1 w2 k : steps (start programs) w1 -> steps w1 w2 ->
  (forall secp, c_value (w_cell w1 k) = Some secp ->
     c_value (w_cell w2 k) = Some secp /\ exists random, secp = make_context L k random) /\
  (forall a t1 b t2 c, w_threads w1 = a ++ t1 :: b ++ t2 :: c ->
     call_kind (th_prog t1) = Some k -> call_kind (th_prog t2) = Some k ->
     th_pc t1 = Initialising \/ th_pc t1 = Storing -> th_pc t2 = Initialising \/ th_pc t2 = Storing -> False) /\
  (length (filter completes (c_word (w_cell w1 k))) <= 1)%nat /\
  (forall older m, c_word (w_cell w1 k) = older ++ [m] -> ms_state m = Complete ->
     w_cell w2 k = w_cell w1 k).
Proof.
  intros S1 S2. destruct (steps_ok _ _ S1 (start_ok programs)) as [I1 _]. destruct (steps_ok _ _ S2 I1) as [I2 Le].
  pose proof (inv_phase _ I1 k) as Ph. repeat split.
  - apply Le. assumption.
  - eapply value_made; [exact Ph|assumption].
  - intros a t1 b t2 c E C1 C2 P1 P2. pose proof (phase_sum k _ _ _ Ph) as B. rewrite E in B.
    rewrite !total_app in B. cbn [total] in B. rewrite !total_app in B. cbn [total] in B.
    unfold on in B. rewrite C1, C2, kind_eqb_refl in B.
    destruct P1 as [P1|P1], P2 as [P2|P2]; rewrite P1, P2 in B; cbn [is_init is_storing] in B; lia.
  - assert (G : forall older m, c_word (w_cell w1 k) = older ++ [m] -> Forall not_complete older ->
              (length (filter completes (c_word (w_cell w1 k))) <= 1)%nat).
    { intros older m -> F. rewrite filter_app, app_length.
      assert (Z : filter completes older = []).
      { clear -F. induction F as [|x l H F IH]; [reflexivity|]. cbn [filter]. unfold completes. unfold not_complete in H.
        destruct (ms_state x); try exact IH. elim H. reflexivity. }
      rewrite Z. cbn [filter]. destruct (completes m); cbn; lia. }
    inversion Ph; eapply G; eassumption.
  - intros older m E Sm. pose proof (inv_phase _ I2 k) as Ph2. destruct (Le k) as [[ext X] V].
    assert (Vs : exists secp, c_value (w_cell w1 k) = Some secp).
    { inversion Ph as [o x E' F Q V'|o x E' F Q V'|o x r E' F Q V'|o x r E' F Q V']; rewrite E in E'; apply snoc_inj in E' as [_ <-];
        try (rewrite Sm in Q); try discriminate Q; [destruct Q; discriminate|eauto]. }
    destruct Vs as [secp Vs]. specialize (V secp Vs).
    destruct (w_cell w1 k) as [u1 x1], (w_cell w2 k) as [u2 x2]. cbn [c_word c_value] in *. f_equal; [|congruence].
    destruct ext as [|e0 ext0] eqn:Ex; [rewrite X, app_nil_r; reflexivity|]. exfalso. rewrite <- Ex in *.
    destruct (exists_last (l := ext)) as (l & y & El); [rewrite Ex; discriminate|].
    assert (G : forall older', Forall not_complete older' -> forall z, u2 = older' ++ [z] -> False).
    { intros o F z Z. rewrite X, El, E, app_assoc in Z. apply snoc_inj in Z as [<- _].
      apply Forall_app in F as [F _]. apply Forall_app in F as [_ F]. apply Forall_inv in F. exact (F Sm). }
    inversion Ph2; eapply G; eassumption.
Qed.
Print Assumptions C94_one_context.

(** Whatever the other threads do, and whatever random numbers the contexts are blinded with, a thread
    that comes to its end has the result of the build without "std", which is one result. *)
Theorem C94_results L (HL : ec_laws L) R (programs : list (prog L R)) w i t r : steps (start programs) w ->
  nth_error (w_threads w) i = Some t -> th_prog t = Ret r ->
  exists p, nth_error programs i = Some p /\ forall r', runs_alone p r' <-> r' = r.
Proof.
  intros St Ht Er. pose proof (steps_runs HL _ _ (start_ok programs) St) as M.
  apply (f_equal (fun l => nth_error l i)) in M. rewrite !nth_error_map, Ht in M. cbn [option_map start w_threads] in M.
  rewrite nth_error_map in M. destruct (nth_error programs i) as [p|]; [|discriminate M]. exists p. split; [reflexivity|].
  cbn [option_map th_prog] in M. rewrite Er in M. cbn [run] in M. injection M as M. intros r'. split.
  - intros H. rewrite (alone_run HL _ _ H). congruence.
  - intros ->. rewrite M. apply (run_alone HL).
Qed.
Print Assumptions C94_results.

(** From wherever an execution has come, all threads whose initialisation has not panicked can come to
    their end: a panic or an unlucky order does not block the others. *)
Theorem C94_no_deadlock L R (programs : list (prog L R)) w : steps (start programs) w ->
  exists w', steps w w' /\ length (w_threads w') = length programs /\
    forall i t t', nth_error (w_threads w) i = Some t -> nth_error (w_threads w') i = Some t' ->
      th_pc t <> Panicked -> exists r, th_prog t' = Ret r.
Proof.
  intros St. destruct (steps_ok _ _ St (start_ok programs)) as [I _].
  destruct (finish_all w I) as (w' & S' & M & F). exists w'. split; [exact S'|]. split.
  - assert (Len : forall a b : World L R, steps a b -> length (w_threads b) = length (w_threads a)).
    { induction 1 as [|w1 w2 w3 _ IH S3]; [reflexivity|]. rewrite <- IH. destruct S3. cbn [w_threads]. rewrite !app_length. reflexivity. }
    rewrite (Len _ _ S'), (Len _ _ St). cbn [start w_threads]. apply map_length.
  - intros i t t' Ht Ht' NP. rewrite Forall_forall in F. destruct (F t' (nth_error_In _ _ Ht')) as [C|P].
    + destruct (th_prog t') as [r|key f|key tw f]; [eauto|discriminate C|discriminate C].
    + apply (f_equal (fun l => nth_error l i)) in M. rewrite !nth_error_map, Ht, Ht' in M. cbn [option_map] in M.
      unfold panicked in M. rewrite P in M. destruct (th_pc t); try discriminate M. elim NP. reflexivity.
Qed.
Print Assumptions C94_no_deadlock.

(** So concurrent derivation gives the keys of the sequential model. *)
Theorem C94_derivation L (HL : ec_laws L) :
  (forall dbg programs w i t r x p, steps (start programs) w -> nth_error (w_threads w) i = Some t -> th_prog t = Ret r ->
     nth_error programs i = Some (@xprv_derive_path_p dbg L x p) ->
     r = @xprv_derive_path dbg (backend Secp256k1Ffi L) x p) /\
  (forall dbg programs w i t r x p, steps (start programs) w -> nth_error (w_threads w) i = Some t -> th_prog t = Ret r ->
     nth_error programs i = Some (@xpub_derive_path_p dbg L x p) ->
     r = @xpub_derive_path dbg (backend Secp256k1Ffi L) x p) /\
  (forall programs w i t r x, steps (start programs) w -> nth_error (w_threads w) i = Some t -> th_prog t = Ret r ->
     nth_error programs i = Some (@xprv_public_p L x) -> r = @xprv_public (backend Secp256k1Ffi L) x).
Proof.
  assert (G : forall R programs (w : World L R) i t r p, steps (start programs) w -> nth_error (w_threads w) i = Some t ->
    th_prog t = Ret r -> nth_error programs i = Some p -> r = run p).
  { intros R programs w i t r p S1 Ht Er Hp. destruct (C94_results L HL R programs w i t r S1 Ht Er) as (p' & Hp' & A).
    apply (alone_run HL). replace p with p' by congruence. apply A. reflexivity. }
  repeat split; intros.
  - rewrite <- (run_xprv_path dbg (L := L)). eapply G; eassumption.
  - rewrite <- (run_xpub_path dbg (L := L)). eapply G; eassumption.
  - exact (G _ programs w i t r _ H H0 H1 H2).
Qed.
Print Assumptions C94_derivation.

(** Two threads: the first takes the signing context and panics in it; the second still gets its key,
    also if it read the word before. *)
Definition two : list (prog Cyclic (point Cyclic)) := [ToPublic 5 Ret; ToPublic 7 Ret].
Example C94_case : exists w w', steps (start two) w /\ steps w w' /\
  map (@th_pc _ _) (w_threads w) = [Panicked; Taking Incomplete] /\
  (exists t, nth_error (w_threads w') 1 = Some t /\ th_prog t = Ret (pmul Cyclic 7 (gen Cyclic))).
Proof.
  assert (X : exists w, steps (start two) w /\ map (@th_pc _ _) (w_threads w) = [Panicked; Taking Incomplete] /\
                map (@th_prog _ _) (w_threads w) = two).
  { eexists. split; [|split].
    - unfold start, two. cbn [map].
      eapply (one_step _ [_] _ []); [eapply ts_once; [reflexivity|]; apply (os_load _ _ _ 0); [|reflexivity]; cbn; lia|].
      eapply (one_step _ [] _ [_]); [eapply ts_once; [reflexivity|]; apply (os_load _ _ _ 0); [|reflexivity]; cbn; lia|].
      eapply (one_step _ [] _ [_]); [eapply ts_once; [reflexivity|]; apply (os_take _ _ _ []); reflexivity|].
      eapply (one_step _ [] _ [_]); [eapply ts_once; [reflexivity|]; apply os_panic|].
      constructor.
    - reflexivity.
    - reflexivity. }
  destruct X as (w & S1 & P & Pr). destruct (C94_no_deadlock _ _ _ w S1) as (w' & S2 & Len & F).
  exists w, w'. split; [exact S1|]. split; [exact S2|]. split; [exact P|].
  destruct (nth_error (w_threads w) 1) as [t|] eqn:T; 
    [|apply (f_equal (fun l => nth_error l 1)) in P; rewrite nth_error_map, T in P; discriminate P].
  destruct (nth_error (w_threads w') 1) as [t'|] eqn:T'; [|apply nth_error_None in T'; rewrite Len in T'; cbv in T'; lia].
  exists t'. split; [reflexivity|]. destruct (F 1%nat t t' T T') as [r Er].
  - apply (f_equal (fun l => nth_error l 1)) in P. rewrite nth_error_map, T in P. cbn [option_map nth_error] in P. injection P as P. intros Q. discriminate (eq_trans (eq_sym P) Q).
  - rewrite Er. f_equal. destruct (C94_results Cyclic cyclic_laws _ two w' 1 t' r (steps_trans _ _ _ S1 S2) T' Er) as (p & Hp & A).
    injection Hp as <-. symmetry. apply (proj1 (A _)). exact (run_alone cyclic_laws (ToPublic 7 Ret)).
Qed.
