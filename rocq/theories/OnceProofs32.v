(** Invariants of the shared contexts ([Once32]). *)
From Verif Require Import Base Str Error32 Path32 Meta32 Curve32 XKey32 XKeySpec32 XKeyProofs32 Once32.

Lemma kind_eqb_refl k : kind_eqb k k = true.
Proof. destruct k; reflexivity. Qed.
Lemma kind_eqb_neq k k' : k <> k' -> kind_eqb k k' = false.
Proof. destruct k, k'; intros H; try reflexivity; elim H; reflexivity. Qed.
Lemma kind_dec (a b : kind) : {a = b} + {a <> b}.
Proof. decide equality. Qed.
Lemma upd_same {A} (f : kind -> A) k a : upd f k a k = a.
Proof. unfold upd. rewrite kind_eqb_refl. reflexivity. Qed.
Lemma upd_other {A} (f : kind -> A) k a k' : k' <> k -> upd f k a k' = f k'.
Proof. intros H. unfold upd. rewrite kind_eqb_neq by exact H. reflexivity. Qed.

(** ** One cell *)
Definition is_init (q : pc) : nat := match q with Initialising => 1 | _ => 0 end.
Definition is_storing (q : pc) : nat := match q with Storing => 1 | _ => 0 end.
Definition not_complete (m : message) : Prop := ms_state m <> Complete.

Inductive phase {L} (k : kind) (c : Cell L) : nat -> nat -> Prop :=
| ph_idle older m : c_word c = older ++ [m] -> Forall not_complete older ->
    (ms_state m = Incomplete \/ ms_state m = Poisoned) -> c_value c = None -> phase k c 0 0
| ph_init older m : c_word c = older ++ [m] -> Forall not_complete older -> ms_state m = Running ->
    c_value c = None -> phase k c 1 0
| ph_store older m random : c_word c = older ++ [m] -> Forall not_complete older -> ms_state m = Running ->
    c_value c = Some (make_context L k random) -> phase k c 0 1
| ph_done older m random : c_word c = older ++ [m] -> Forall not_complete older -> ms_state m = Complete ->
    c_value c = Some (make_context L k random) -> phase k c 0 0.

Definition word_ok {L} (c : Cell L) : Prop :=
  Forall (fun m => (ms_state m = Complete -> ms_written m = true) /\ (ms_written m = true -> c_value c <> None)) (c_word c).
Definition pc_ok (q : pc) (v : View) : Prop :=
  match q with
  | Taking s => s = Incomplete \/ s = Poisoned
  | Storing | Reading => v_written v = true
  | Raced => False
  | _ => True
  end.
Definition view_ok {L} (c : Cell L) (v : View) : Prop :=
  (v_seen v < length (c_word c))%nat /\ (v_written v = true -> c_value c <> None).
Definition cell_le {L} (c c' : Cell L) : Prop :=
  (exists ext, c_word c' = c_word c ++ ext) /\ (forall x, c_value c = Some x -> c_value c' = Some x).

Lemma cell_le_refl {L} (c : Cell L) : cell_le c c.
Proof. split; [exists []; rewrite app_nil_r; reflexivity|auto]. Qed.
Lemma cell_le_trans {L} (a b c : Cell L) : cell_le a b -> cell_le b c -> cell_le a c.
Proof.
  intros [[x X] P] [[y Y] Q]. split; [exists (x ++ y); rewrite Y, X, app_assoc; reflexivity|auto].
Qed.
Lemma view_ok_le {L} (c c' : Cell L) v : cell_le c c' -> view_ok c v -> view_ok c' v.
Proof.
  intros [[e E] V] [A B]. split; [rewrite E, app_length; lia|]. intros W. specialize (B W).
  destruct (c_value c) as [x|]; [|elim B; reflexivity]. rewrite (V x eq_refl). discriminate.
Qed.
Lemma word_ok_same {L} w w' (x : option (Context L)) m : word_ok (mkCell w x) -> w' = w ++ [m] ->
  (ms_state m = Complete -> ms_written m = true) -> (ms_written m = true -> x <> None) -> word_ok (mkCell w' x).
Proof. intros H -> H1 H2. apply Forall_app. split; [exact H|]. constructor; [|constructor]. split; assumption. Qed.

Lemma after_load_ok s v : (s = Complete -> v_written v = true) -> pc_ok (after_load s) v.
Proof. destruct s; cbn; auto. Qed.
Lemma after_load_free s : is_init (after_load s) = 0%nat /\ is_storing (after_load s) = 0%nat.
Proof. destruct s; split; reflexivity. Qed.

Lemma load_ok {L} (c : Cell L) v j m : word_ok c -> view_ok c v -> nth_error (c_word c) j = Some m ->
  view_ok c (seen j m v) /\ pc_ok (after_load (ms_state m)) (seen j m v).
Proof.
  intros Wo [V1 V2] Hm. unfold word_ok in Wo. rewrite Forall_forall in Wo.
  destruct (Wo m (nth_error_In _ _ Hm)) as [W1 W2]. repeat split.
  - apply nth_error_Some. cbn [seen v_seen]. congruence.
  - cbn [seen v_written]. intros H. apply orb_true_iff in H as [H|H]; auto.
  - apply after_load_ok. intros H. cbn [seen v_written]. rewrite (W1 H), orb_true_r. reflexivity.
Qed.
Lemma snoc_inj {A} (a b : list A) x y : a ++ [x] = b ++ [y] -> a = b /\ x = y.
Proof. intros H. apply app_inj_tail in H. exact H. Qed.

Lemma once_ok {L} k (c : Cell L) q v c' q' v' ni ns :
  once_step k c q v c' q' v' -> phase k c (ni + is_init q) (ns + is_storing q) -> word_ok c -> view_ok c v -> pc_ok q v ->
  phase k c' (ni + is_init q') (ns + is_storing q') /\ word_ok c' /\ view_ok c' v' /\ pc_ok q' v' /\ cell_le c c'.
Proof.
  intros St Ph Wo Vo Po. destruct St as [c v j m Hs Hm|c v s j m Hs Hm|c v older m Hw|c v random Hr|c v Hr|c v|c v].
  - destruct (load_ok c v j m Wo Vo Hm) as [A B]. destruct (after_load_free (ms_state m)) as [-> ->].
    repeat split; try assumption; try apply A; try apply B; apply cell_le_refl.
  - destruct (load_ok c v j m Wo Vo Hm) as [A B]. destruct (after_load_free (ms_state m)) as [-> ->].
    repeat split; try assumption; try apply A; try apply B; apply cell_le_refl.
  - cbn [pc_ok] in Po. cbn [is_init is_storing] in *. rewrite !Nat.add_0_r in Ph. rewrite !Nat.add_0_r.
    assert (X : ni = 0%nat /\ ns = 0%nat /\ Forall not_complete older /\ c_value c = None).
    { inversion Ph as [o' m' E F S1 V|o' m' E F S1 V|o' m' r E F S1 V|o' m' r E F S1 V];
        rewrite Hw in E; apply snoc_inj in E as [-> ->]; try (destruct Po as [Po|Po]; congruence). repeat split; auto. }
    destruct X as (-> & -> & Fo & Vn). cbn [Nat.add]. destruct c as [w x]. cbn [c_word c_value] in *. subst w x.
    assert (NC : not_complete m) by (unfold not_complete; destruct Po; congruence).
    unfold word_ok in Wo. cbn [c_word c_value] in Wo.
    assert (Wm : ms_written m = true -> @None (Context L) <> None).
    { apply Forall_app in Wo as [_ Wo]. apply Forall_inv in Wo. apply Wo. }
    repeat split.
    + eapply ph_init with (older := older ++ [m]); [cbn; rewrite <- app_assoc; reflexivity| |reflexivity|reflexivity].
      apply Forall_app. split; [exact Fo|]. constructor; [exact NC|constructor].
    + rewrite app_assoc. apply (word_ok_same (older ++ [m]) _ None (mkMessage Running (ms_written m))); [exact Wo|reflexivity|discriminate|].
      exact Wm.
    + cbn [c_word seen v_seen]. rewrite !app_length. cbn. lia.
    + cbn [seen v_written]. intros H. apply orb_true_iff in H as [H|H]; [apply Vo, H|apply Wm, H].
    + exists [mkMessage Running (ms_written m)]. cbn. rewrite <- app_assoc. reflexivity.
    + discriminate.
  - cbn [is_init is_storing] in *. 
    assert (X : ni = 0%nat /\ ns = 0%nat /\ c_value c = None /\
                exists o m, c_word c = o ++ [m] /\ Forall not_complete o /\ ms_state m = Running).
    { inversion Ph; try lia. repeat split; try lia; try assumption. eauto. }
    destruct X as (-> & -> & Vn & o & m & E & F & S1). cbn [Nat.add]. repeat split.
    + eapply ph_store; [exact E|exact F|exact S1|reflexivity].
    + unfold word_ok in *. cbn [c_word c_value]. eapply Forall_impl; [|exact Wo]. intros a [A1 A2]. split; [exact A1|discriminate].
    + apply Vo.
    + discriminate.
    + exists []. rewrite app_nil_r. reflexivity.
    + congruence.
  - exfalso. apply Hr. left. cbn [is_init] in Ph. inversion Ph; try lia. assumption.
  - cbn [is_init is_storing] in *.
    assert (X : ni = 0%nat /\ ns = 0%nat /\ c_value c = None /\
                exists o m, c_word c = o ++ [m] /\ Forall not_complete o /\ ms_state m = Running).
    { inversion Ph; try lia. repeat split; try lia; try assumption. eauto. }
    destruct X as (-> & -> & Vn & o & m & E & F & S1). cbn [Nat.add]. destruct c as [w x]. cbn [c_word c_value] in *. subst x.
    repeat split.
    + eapply ph_idle with (older := w); [reflexivity| |right; reflexivity|reflexivity].
      rewrite E. apply Forall_app. split; [exact F|]. constructor; [unfold not_complete; congruence|constructor].
    + apply (word_ok_same w _ None (mkMessage Poisoned (v_written v)) Wo eq_refl); [discriminate|apply Vo].
    + cbn [c_word v_seen]. rewrite app_length. cbn. lia.
    + apply Vo.
    + exists [mkMessage Poisoned (v_written v)]. reflexivity.
    + discriminate.
  - cbn [is_init is_storing pc_ok] in *.
    assert (X : ni = 0%nat /\ ns = 0%nat /\
                exists o m r, c_word c = o ++ [m] /\ Forall not_complete o /\ ms_state m = Running /\ c_value c = Some (make_context L k r)).
    { inversion Ph; try lia. repeat split; try lia; try assumption. eauto 8. }
    destruct X as (-> & -> & o & m & r & E & F & S1 & Vs). cbn [Nat.add]. destruct c as [w x]. cbn [c_word c_value] in *. subst x.
    repeat split.
    + eapply ph_done with (older := w); [reflexivity| |reflexivity|reflexivity].
      rewrite E. apply Forall_app. split; [exact F|]. constructor; [unfold not_complete; congruence|constructor].
    + apply (word_ok_same w _ _ (mkMessage Complete (v_written v)) Wo eq_refl); [intros _; exact Po|discriminate].
    + cbn [c_word v_seen]. rewrite app_length. cbn. lia.
    + discriminate.
    + exact Po.
    + exists [mkMessage Complete (v_written v)]. reflexivity.
    + auto.
Qed.

(** ** All threads *)
Definition on {L R} (k : kind) (t : Thread L R) (f : pc -> nat) : nat :=
  match call_kind (th_prog t) with Some k' => if kind_eqb k' k then f (th_pc t) else 0%nat | None => 0%nat end.
Fixpoint total {L R} (k : kind) (f : pc -> nat) (l : list (Thread L R)) : nat :=
  match l with [] => 0%nat | t :: l => (on k t f + total k f l)%nat end.
Lemma total_app {L R} k f (a b : list (Thread L R)) : total k f (a ++ b) = (total k f a + total k f b)%nat.
Proof. induction a as [|t a IH]; [reflexivity|]. cbn. rewrite IH. lia. Qed.

Definition thread_ok {L R} (cells : kind -> Cell L) (t : Thread L R) : Prop :=
  (forall k, view_ok (cells k) (th_view t k)) /\
  match call_kind (th_prog t) with
  | Some k => pc_ok (th_pc t) (th_view t k)
  | None => th_pc t = Loading
  end.
Record inv {L R} (w : World L R) : Prop := {
  inv_phase : forall k, phase k (w_cell w k) (total k is_init (w_threads w)) (total k is_storing (w_threads w));
  inv_word : forall k, word_ok (w_cell w k);
  inv_threads : Forall (thread_ok (w_cell w)) (w_threads w)
}.
Definition cells_le {L} (a b : kind -> Cell L) : Prop := forall k, cell_le (a k) (b k).
Lemma thread_ok_le {L R} a b (t : Thread L R) : cells_le a b -> thread_ok a t -> thread_ok b t.
Proof. intros H [V P]. split; [|exact P]. intros k. exact (view_ok_le _ _ _ (H k) (V k)). Qed.

Lemma thread_step_ok {L R} cells (t : Thread L R) cells' t' ni ns :
  thread_step cells t cells' t' ->
  (forall k, phase k (cells k) (ni k + on k t is_init) (ns k + on k t is_storing)) ->
  (forall k, word_ok (cells k)) -> thread_ok cells t ->
  (forall k, phase k (cells' k) (ni k + on k t' is_init) (ns k + on k t' is_storing)) /\
  (forall k, word_ok (cells' k)) /\ thread_ok cells' t' /\ cells_le cells cells'.
Proof.
  intros St Ph Wo [Vo Po]. destruct St as [cells t k c q v Ck Os|cells t k secp Ck Pk W Vs|cells t k Ck Pk Rk].
  - rewrite Ck in Po. pose proof (Ph k) as Phk. unfold on in Phk. rewrite Ck, kind_eqb_refl in Phk.
    destruct (once_ok k _ _ _ _ _ _ (ni k) (ns k) Os Phk (Wo k) (Vo k) Po) as (A1 & A2 & A3 & A4 & A5).
    assert (Le : cells_le cells (upd cells k c)).
    { intros k'. destruct (kind_dec k' k) as [->|N]; [rewrite upd_same; exact A5|rewrite upd_other by exact N; apply cell_le_refl]. }
    split; [|split; [|split; [split|exact Le]]].
    + intros k'. unfold on. cbn [th_prog th_pc]. rewrite Ck. destruct (kind_dec k' k) as [->|N].
      * rewrite upd_same, kind_eqb_refl. exact A1.
      * rewrite upd_other by exact N. specialize (Ph k'). unfold on in Ph. rewrite Ck in Ph.
        rewrite kind_eqb_neq in * by auto. exact Ph.
    + intros k'. destruct (kind_dec k' k) as [->|N]; [rewrite upd_same; exact A2|rewrite upd_other by exact N; apply Wo].
    + intros k'. cbn [th_view]. destruct (kind_dec k' k) as [->|N]; [rewrite !upd_same; exact A3|rewrite !upd_other by exact N; apply Vo].
    + cbn [th_prog th_pc th_view]. rewrite Ck, upd_same. exact A4.
  - split; [|split; [|split; [split|]]].
    + intros k'. specialize (Ph k'). unfold on in *. rewrite Ck, Pk in Ph. cbn [th_prog th_pc].
      destruct (kind_eqb k k'); cbn [is_init is_storing] in Ph;
        (destruct (call_kind (call (th_prog t) secp)) as [k2|]; [destruct (kind_eqb k2 k')|]; exact Ph).
    + exact Wo.
    + exact Vo.
    + cbn [th_prog th_pc th_view]. destruct (call_kind (call _ _)); [exact I|reflexivity].
    + intros k'. apply cell_le_refl.
  - exfalso. rewrite Ck, Pk in Po. cbn [pc_ok] in Po. destruct Rk as [R1|R1]; [congruence|].
    elim (proj2 (Vo k) Po R1).
Qed.

Lemma step_ok {L R} (w w' : World L R) : step w w' -> inv w -> inv w' /\ cells_le (w_cell w) (w_cell w').
Proof.
  intros St [Ph Wo Th]. destruct St as [cells b t a cells' t' Ts]. cbn [w_cell w_threads] in *.
  apply Forall_app in Th as [Tb Th]. pose proof (Forall_inv Th) as Tt. pose proof (Forall_inv_tail Th) as Ta.
  assert (Ph' : forall k, phase k (cells k) (total k is_init (b ++ a) + on k t is_init) (total k is_storing (b ++ a) + on k t is_storing)).
  { intros k. specialize (Ph k). rewrite !total_app in *. cbn [total] in Ph.
    replace (total k is_init b + total k is_init a + on k t is_init)%nat with (total k is_init b + (on k t is_init + total k is_init a))%nat by lia.
    replace (total k is_storing b + total k is_storing a + on k t is_storing)%nat with (total k is_storing b + (on k t is_storing + total k is_storing a))%nat by lia.
    exact Ph. }
  destruct (thread_step_ok cells t cells' t' (fun k => total k is_init (b ++ a)) (fun k => total k is_storing (b ++ a)) Ts Ph' Wo Tt) as (A1 & A2 & A3 & A4).
  split; [|exact A4]. constructor; cbn [w_cell w_threads].
  - intros k. specialize (A1 k). rewrite !total_app in *. cbn [total].
    replace (total k is_init b + (on k t' is_init + total k is_init a))%nat with (total k is_init b + total k is_init a + on k t' is_init)%nat by lia.
    replace (total k is_storing b + (on k t' is_storing + total k is_storing a))%nat with (total k is_storing b + total k is_storing a + on k t' is_storing)%nat by lia.
    exact A1.
  - exact A2.
  - apply Forall_app. split; [|constructor].
    + eapply Forall_impl; [|exact Tb]. intros x. apply thread_ok_le, A4.
    + exact A3.
    + eapply Forall_impl; [|exact Ta]. intros x. apply thread_ok_le, A4.
Qed.
Lemma steps_ok {L R} (w w' : World L R) : steps w w' -> inv w -> inv w' /\ cells_le (w_cell w) (w_cell w').
Proof.
  induction 1 as [w|w1 w2 w3 _ IH St]; intros I; [split; [exact I|intros k; apply cell_le_refl]|].
  destruct (IH I) as [I2 L2]. destruct (step_ok _ _ St I2) as [I3 L3]. split; [exact I3|].
  intros k. exact (cell_le_trans _ _ _ (L2 k) (L3 k)).
Qed.
Lemma start_ok {L R} (ps : list (prog L R)) : inv (start ps).
Proof.
  constructor; cbn [start w_cell w_threads].
  - intros k. assert (Z : forall f, f Loading = 0%nat -> total k f (map (fun p : prog L R => mkThread p Loading (fun _ => mkView 0 false)) ps) = 0%nat).
    { intros f Hf. induction ps as [|p ps IH]; [reflexivity|]. cbn [map total]. rewrite IH. unfold on. cbn [th_prog th_pc].
      destruct (call_kind p); [destruct (kind_eqb _ _)|]; rewrite ?Hf; reflexivity. }
    rewrite !Z by reflexivity. eapply (ph_idle k (new_cell L) []); [reflexivity|constructor|left; reflexivity|reflexivity].
  - intros k. constructor; [|constructor]. split; [discriminate|discriminate].
  - apply Forall_forall. intros t Ht. apply in_map_iff in Ht as (p & <- & _). split.
    + intros k. split; [cbn; lia|discriminate].
    + cbn [th_prog th_pc th_view]. destruct (call_kind p); [exact I|reflexivity].
Qed.
Lemma steps_trans {L R} (a b c : World L R) : steps a b -> steps b c -> steps a c.
Proof. intros H1 H2. induction H2; [exact H1|]. econstructor; [apply IHsteps, H1|assumption]. Qed.

(** ** Results *)
Fixpoint run {L R} (p : prog L R) : R :=
  match p with
  | Ret r => r
  | ToPublic key k => run (k (pmul L key (gen L)))
  | AddExpTweak key t k =>
      run (k (let child := padd L key (pmul L t (gen L)) in if is_infinity L child then inl SSecpTweak else inr child))
  end.
Lemma blinding L (HL : ec_laws L) k random key : k = Signing ->
  from_secret_key (make_context L k random) key = pmul L key (gen L).
Proof.
  intros ->. unfold from_secret_key, make_context. cbn [cx_offset cx_point].
  pose proof (order_range L HL) as [O _]. assert (B : random mod order L < order L) by (apply N.mod_lt; lia).
  rewrite (pmul_mod L HL), <- (pmul_add L HL).
  replace (key + random mod order L + (order L - random mod order L)) with (key + order L) by lia.
  rewrite <- (pmul_mod L HL), <- (N.mul_1_l (order L)) at 1. rewrite N.mod_add by lia. apply (pmul_mod L HL).
Qed.
Lemma call_run {L R} (HL : ec_laws L) (p : prog L R) k random : call_kind p = Some k ->
  run (call p (make_context L k random)) = run p.
Proof.
  destruct p as [r|key f|key t f]; cbn [call_kind]; intros [= <-].
  - cbn [call run]. rewrite (blinding L HL) by reflexivity. reflexivity.
  - reflexivity.
Qed.
Lemma alone_run {L R} (HL : ec_laws L) (p : prog L R) r : runs_alone p r -> r = run p.
Proof. induction 1 as [r|p k random r Ck _ IH]; [reflexivity|]. rewrite IH. apply call_run; assumption. Qed.

Lemma value_made {L} k (c : Cell L) a b x : phase k c a b -> c_value c = Some x -> exists random, x = make_context L k random.
Proof. intros Ph E. inversion Ph; try congruence; exists random; congruence. Qed.
Lemma step_runs {L R} (HL : ec_laws L) (w w' : World L R) : inv w -> step w w' ->
  map (fun t => run (th_prog t)) (w_threads w') = map (fun t => run (th_prog t)) (w_threads w).
Proof.
  intros I St. destruct St as [cells b t a cells' t' Ts]. cbn [w_threads]. rewrite !map_app. f_equal. cbn [map]. f_equal.
  destruct Ts as [cells t k c q v Ck Os|cells t k secp Ck Pk W Vs|cells t k Ck Pk Rk]; cbn [th_prog]; try reflexivity.
  destruct (value_made k _ _ _ secp (inv_phase _ I k) Vs) as [random ->]. apply call_run; assumption.
Qed.
Lemma steps_runs {L R} (HL : ec_laws L) (w w' : World L R) : inv w -> steps w w' ->
  map (fun t => run (th_prog t)) (w_threads w') = map (fun t => run (th_prog t)) (w_threads w).
Proof.
  intros I St. induction St as [w|w1 w2 w3 St IH S1]; [reflexivity|].
  rewrite (step_runs HL w2 w3); [apply IH, I|apply (steps_ok _ _ St I)|exact S1].
Qed.

Lemma run_alone {L R} (HL : ec_laws L) (p : prog L R) : runs_alone p (run p).
Proof.
  assert (G : forall p : prog L R, runs_alone p (run p)).
  { clear p. induction p as [r|key f IH|key t f IH]; [constructor| |].
    - apply (alone_call (ToPublic key f) Signing 0); [reflexivity|].
      rewrite <- (call_run HL (ToPublic key f) Signing 0 eq_refl). cbn [call]. apply IH.
    - apply (alone_call (AddExpTweak key t f) Verification 0); [reflexivity|]. cbn [call run]. apply IH. }
  apply G.
Qed.

(** ** Progress *)
Definition finished {L R} (t : Thread L R) : Prop := call_kind (th_prog t) = None \/ th_pc t = Panicked.
Definition panicked {L R} (t : Thread L R) : bool := match th_pc t with Panicked => true | _ => false end.
Definition quiet {L R} (w : World L R) : Prop := forall k, total k is_init (w_threads w) = 0%nat /\ total k is_storing (w_threads w) = 0%nat.

Lemma total_find {L R} k f (l : list (Thread L R)) : total k f l <> 0%nat ->
  exists b t a, l = b ++ t :: a /\ call_kind (th_prog t) = Some k /\ f (th_pc t) <> 0%nat.
Proof.
  induction l as [|t l IH]; [intros H; elim H; reflexivity|]. cbn [total]. intros H.
  destruct (Nat.eq_dec (on k t f) 0) as [E|E].
  - destruct IH as (b & t' & a & -> & X); [lia|]. exists (t :: b), t', a. split; [reflexivity|exact X].
  - exists [], t, l. split; [reflexivity|]. unfold on in E. destruct (call_kind (th_prog t)) as [k'|]; [|elim E; reflexivity].
    destruct (kind_dec k' k) as [->|N]; [|rewrite kind_eqb_neq in E by exact N; elim E; reflexivity].
    rewrite kind_eqb_refl in E. auto.
Qed.
Lemma phase_sum {L} k (c : Cell L) a b : phase k c a b -> (a + b <= 1)%nat.
Proof. destruct 1; lia. Qed.

Lemma one_step {L R} cells (b : list (Thread L R)) t a cells' t' w : thread_step cells t cells' t' ->
  steps (mkWorld cells' (b ++ t' :: a)) w -> steps (mkWorld cells (b ++ t :: a)) w.
Proof. intros H. apply steps_trans. econstructor; [constructor|]. constructor. exact H. Qed.

(** The thread that initialises can publish its context. *)
Lemma release {L R} k (w : World L R) : inv w -> exists w', steps w w' /\ map panicked (w_threads w') = map panicked (w_threads w) /\
  total k is_init (w_threads w') = 0%nat /\ total k is_storing (w_threads w') = 0%nat /\
  (forall k', k' <> k -> total k' is_init (w_threads w') = total k' is_init (w_threads w) /\
                         total k' is_storing (w_threads w') = total k' is_storing (w_threads w)).
Proof.
  assert (ST : forall w : World L R, inv w -> total k is_storing (w_threads w) <> 0%nat -> exists w', steps w w' /\ map panicked (w_threads w') = map panicked (w_threads w) /\
    total k is_init (w_threads w') = 0%nat /\ total k is_storing (w_threads w') = 0%nat /\
    (forall k', k' <> k -> total k' is_init (w_threads w') = total k' is_init (w_threads w) /\
                           total k' is_storing (w_threads w') = total k' is_storing (w_threads w))).
  { clear w. intros [cells ths] I H. cbn [w_threads] in *. destruct (total_find k is_storing ths H) as (b & t & a & -> & Ck & Pk).
    pose proof (phase_sum k _ _ _ (inv_phase _ I k)) as Sum. cbn [w_threads w_cell] in Sum. rewrite !total_app in Sum. cbn [total] in Sum.
    destruct t as [p q v]. cbn [th_prog th_pc] in *. destruct q; try (elim Pk; reflexivity).
    unfold on in Sum. cbn [th_prog th_pc] in Sum. rewrite Ck, kind_eqb_refl in Sum. cbn [is_init is_storing] in Sum.
    eexists. split; [eapply one_step; [|constructor]; eapply ts_once with (k := k); [exact Ck|apply os_store]|].
    split; [cbn [w_threads]; rewrite !map_app; reflexivity|].
    cbn [w_threads]. rewrite !total_app. cbn [total]. unfold on at 1 2. cbn [th_prog th_pc]. rewrite Ck, kind_eqb_refl. cbn [is_init is_storing].
    repeat split; try lia; intros; rewrite !total_app; cbn [total]; unfold on; cbn [th_prog th_pc]; rewrite Ck, kind_eqb_neq by auto; reflexivity. }
  intros I. destruct (Nat.eq_dec (total k is_storing (w_threads w)) 0) as [Zs|Zs]; [|apply ST; assumption].
  destruct (Nat.eq_dec (total k is_init (w_threads w)) 0) as [Zi|Zi].
  { exists w. split; [constructor|]. split; [reflexivity|]. auto. }
  destruct w as [cells ths]. cbn [w_threads] in *. destruct (total_find k is_init ths Zi) as (b & t & a & -> & Ck & Pk).
  destruct t as [p q v]. cbn [th_prog th_pc] in *. destruct q; try (elim Pk; reflexivity).
  pose proof (inv_phase _ I k) as Ph. cbn [w_threads w_cell] in Ph.
  assert (Vn : c_value (cells k) = None) by (inversion Ph; congruence || (exfalso; congruence)).
  assert (S1 : step (mkWorld cells (b ++ mkThread p Initialising v :: a))
                 (mkWorld (upd cells k (mkCell (c_word (cells k)) (Some (make_context L k 0))))
                    (b ++ mkThread p Storing (upd v k (mkView (v_seen (v k)) true)) :: a))).
  { constructor. apply (ts_once cells (mkThread p Initialising v) k _ Storing (mkView (v_seen (v k)) true) Ck). apply os_made. left. exact Vn. }
  destruct (step_ok _ _ S1 I) as [I1 _]. destruct (ST _ I1) as (w' & S2 & D & A & B & C).
  { cbn [w_threads]. rewrite total_app. cbn [total]. unfold on at 1. cbn [th_prog th_pc]. rewrite Ck, kind_eqb_refl. cbn [is_storing]. lia. }
  exists w'. split; [eapply steps_trans; [econstructor; [constructor|exact S1]|exact S2]|].
  split; [rewrite D; cbn [w_threads]; rewrite !map_app; reflexivity|]. split; [exact A|]. split; [exact B|]. intros k' Hk. destruct (C k' Hk) as [C1 C2]. rewrite C1, C2. cbn [w_threads].
  rewrite !total_app. cbn [total]. unfold on. cbn [th_prog th_pc]. rewrite Ck, kind_eqb_neq by auto. auto.
Qed.
Lemma make_quiet {L R} (w : World L R) : inv w -> exists w', steps w w' /\ map panicked (w_threads w') = map panicked (w_threads w) /\ quiet w'.
Proof.
  intros I. destruct (release Signing w I) as (w1 & S1 & D1 & A1 & B1 & _).
  destruct (steps_ok _ _ S1 I) as [I1 _]. destruct (release Verification w1 I1) as (w2 & S2 & D2 & A2 & B2 & C2).
  exists w2. split; [exact (steps_trans _ _ _ S1 S2)|]. split; [congruence|]. intros k. destruct k; [|auto].
  destruct (C2 Signing) as [-> ->]; [discriminate|auto].
Qed.
Definition busy (q : pc) : bool := match q with Initialising | Storing => true | _ => false end.
Lemma quiet_replace {L R} cells (b : list (Thread L R)) t a cells' t' : quiet (mkWorld cells (b ++ t :: a)) ->
  busy (th_pc t') = false -> quiet (mkWorld cells' (b ++ t' :: a)).
Proof.
  intros Q B k. specialize (Q k). cbn [w_threads] in *. rewrite !total_app in *. cbn [total] in *.
  assert (Z : on k t' is_init = 0%nat /\ on k t' is_storing = 0%nat).
  { unfold on. destruct (call_kind (th_prog t')); [destruct (kind_eqb _ _)|]; auto.
    destruct (th_pc t'); try discriminate B; auto. }
  lia.
Qed.
Lemma quiet_busy {L R} cells (b : list (Thread L R)) t a k : quiet (mkWorld cells (b ++ t :: a)) ->
  call_kind (th_prog t) = Some k -> busy (th_pc t) = false.
Proof.
  intros Q C. specialize (Q k). cbn [w_threads] in Q. rewrite !total_app in Q. cbn [total] in Q. unfold on in Q.
  rewrite C, kind_eqb_refl in Q. destruct (th_pc t); try reflexivity; cbn [is_init is_storing] in Q; lia.
Qed.
Lemma steps_one {L R} (a b : World L R) : step a b -> steps a b.
Proof. econstructor; [constructor|assumption]. Qed.

Lemma get_context {L R} cells (b : list (Thread L R)) t a k : inv (mkWorld cells (b ++ t :: a)) ->
  quiet (mkWorld cells (b ++ t :: a)) -> call_kind (th_prog t) = Some k -> th_pc t <> Panicked ->
  exists cells' t', steps (mkWorld cells (b ++ t :: a)) (mkWorld cells' (b ++ t' :: a)) /\
    th_prog t' = th_prog t /\ th_pc t' = Reading.
Proof.
  intros I Q C NP. pose proof (quiet_busy _ _ _ _ _ Q C) as NB. pose proof (inv_phase _ I k) as Ph. destruct (Q k) as [Q1 Q2].
  rewrite Q1, Q2 in Ph. cbn [w_cell] in Ph. pose proof (inv_threads _ I) as Th. cbn [w_threads w_cell] in Th.
  apply Forall_app in Th as [_ Th]. apply Forall_inv in Th as [Vo Po]. rewrite C in Po.
  destruct t as [p q v]. cbn [th_prog th_pc th_view] in *.
  assert (LD : forall q, q = Loading \/ (exists s, q = Taking s) -> forall older m, c_word (cells k) = older ++ [m] ->
     once_step k (cells k) q (v k) (cells k) (after_load (ms_state m)) (seen (length older) m (v k))).
  { intros q0 Hq older m E. assert (N1 : nth_error (c_word (cells k)) (length older) = Some m).
    { rewrite E, nth_error_app2, Nat.sub_diag by lia. reflexivity. }
    assert (N2 : (v_seen (v k) <= length older)%nat).
    { pose proof (proj1 (Vo k)) as H. rewrite E, app_length in H. cbn in H. lia. }
    destruct Hq as [->|[s ->]]; [apply os_load|apply os_lost]; assumption. }
  assert (DQ : q = Reading \/ (q = Loading \/ exists s, q = Taking s)).
  { destruct q; try discriminate NB; try (elim NP; reflexivity); try (elim Po); eauto. }
  destruct DQ as [->|DQ]; [exists cells; eexists; split; [constructor|auto]|].
  inversion Ph as [older m E F Sm Vn|older m E F Sm Vn|older m r E F Sm Vn|older m r E F Sm Vn].
  - (* take it *)
    set (c1 := cells k). set (v1 := seen (length older) m (v k)).
    set (c2 := mkCell (older ++ [m] ++ [mkMessage Running (ms_written m)]) (c_value c1)).
    set (v2 := seen (S (length older)) m v1).
    set (c3 := mkCell (c_word c2) (Some (make_context L k 0))). set (v3 := mkView (v_seen v2) true).
    set (c4 := mkCell (c_word c3 ++ [mkMessage Complete (v_written v3)]) (c_value c3)).
    set (v4 := mkView (length (c_word c3)) (v_written v3)).
    assert (A1 : after_load (ms_state m) = Taking (ms_state m)) by (destruct Sm as [-> | ->]; reflexivity).
    eexists _, _. split.
    + eapply one_step; [apply (ts_once cells (mkThread p q v) k c1 (Taking (ms_state m)) v1 C)|].
      { rewrite <- A1. apply LD; assumption. }
      eapply one_step; [eapply (ts_once _ (mkThread p _ _) k c2 Initialising v2 C)|].
      { cbn [th_pc th_view]. rewrite !upd_same. apply os_take. exact E. }
      eapply one_step; [eapply (ts_once _ (mkThread p _ _) k c3 Storing v3 C)|].
      { cbn [th_pc th_view]. rewrite !upd_same. apply os_made. left. exact Vn. }
      eapply one_step; [eapply (ts_once _ (mkThread p _ _) k c4 Reading v4 C)|].
      { cbn [th_pc th_view]. rewrite !upd_same. apply os_store. }
      constructor.
    + split; reflexivity.
  - eexists _, _. split.
    + eapply one_step; [apply (ts_once cells (mkThread p q v) k (cells k) Reading (seen (length older) m (v k)) C)|constructor].
      change Reading with (after_load Complete). rewrite <- Sm. apply LD; assumption.
    + split; reflexivity.
Qed.

Lemma finish_thread {L R} (p : prog L R) : forall cells b t a, th_prog t = p -> inv (mkWorld cells (b ++ t :: a)) ->
  quiet (mkWorld cells (b ++ t :: a)) ->
  exists cells' t', steps (mkWorld cells (b ++ t :: a)) (mkWorld cells' (b ++ t' :: a)) /\ finished t' /\ panicked t' = panicked t /\
    quiet (mkWorld cells' (b ++ t' :: a)).
Proof.
  assert (NEXT : forall cells b (t : Thread L R) a k, call_kind (th_prog t) = Some k -> inv (mkWorld cells (b ++ t :: a)) ->
    quiet (mkWorld cells (b ++ t :: a)) -> th_pc t <> Panicked ->
    exists cells' t' secp, steps (mkWorld cells (b ++ t :: a)) (mkWorld cells' (b ++ t' :: a)) /\
      th_prog t' = call (th_prog t) secp /\ panicked t' = false /\ quiet (mkWorld cells' (b ++ t' :: a))).
  { clear p. intros cells b t a k C I Q NP. destruct (get_context cells b t a k I Q C NP) as (cells1 & t1 & S1 & P1 & R1).
    destruct (steps_ok _ _ S1 I) as [I1 _]. pose proof (inv_threads _ I1) as Th. cbn [w_threads w_cell] in Th.
    apply Forall_app in Th as [_ Th]. apply Forall_inv in Th as [Vo Po]. rewrite P1, C, R1 in Po. cbn [pc_ok] in Po.
    destruct (c_value (cells1 k)) as [secp|] eqn:Vs; [|elim (proj2 (Vo k) Po Vs)].
    exists cells1, (mkThread (call (th_prog t1) secp) Loading (th_view t1)), secp. split.
    - econstructor; [exact S1|]. constructor. eapply ts_read; [rewrite P1; exact C|exact R1|exact Po|exact Vs].
    - split; [cbn [th_prog]; rewrite P1; reflexivity|]. split; [reflexivity|]. eapply quiet_replace; [exact Q|reflexivity]. }
  assert (PN : forall t : Thread L R, th_pc t = Panicked \/ th_pc t <> Panicked).
  { intros t. destruct (th_pc t); auto; right; discriminate. }
  induction p as [r|key f IH|key tw f IH]; intros cells b t a E I Q.
  - exists cells, t. split; [constructor|]. split; [left; rewrite E; reflexivity|]. split; [reflexivity|exact Q].
  - destruct (PN t) as [P|NP]; [exists cells, t; split; [constructor|split; [right; exact P|split; [reflexivity|exact Q]]]|].
    destruct (NEXT cells b t a Signing) as (c1 & t1 & secp & S1 & P1 & N1 & Q1); [rewrite E; reflexivity|assumption..|].
    rewrite E in P1. cbn [call] in P1. destruct (steps_ok _ _ S1 I) as [I1 _].
    destruct (IH _ c1 b t1 a P1 I1 Q1) as (c2 & t2 & S2 & X1 & X2 & X3). exists c2, t2. split; [exact (steps_trans _ _ _ S1 S2)|].
    split; [exact X1|]. split; [|exact X3]. rewrite X2, N1. unfold panicked. destruct (th_pc t); try reflexivity. elim NP. reflexivity.
  - destruct (PN t) as [P|NP]; [exists cells, t; split; [constructor|split; [right; exact P|split; [reflexivity|exact Q]]]|].
    destruct (NEXT cells b t a Verification) as (c1 & t1 & secp & S1 & P1 & N1 & Q1); [rewrite E; reflexivity|assumption..|].
    rewrite E in P1. cbn [call] in P1. destruct (steps_ok _ _ S1 I) as [I1 _].
    destruct (IH _ c1 b t1 a P1 I1 Q1) as (c2 & t2 & S2 & X1 & X2 & X3). exists c2, t2. split; [exact (steps_trans _ _ _ S1 S2)|].
    split; [exact X1|]. split; [|exact X3]. rewrite X2, N1. unfold panicked. destruct (th_pc t); try reflexivity. elim NP. reflexivity.
Qed.
Lemma finish_all {L R} (w : World L R) : inv w ->
  exists w', steps w w' /\ map panicked (w_threads w') = map panicked (w_threads w) /\ Forall finished (w_threads w').
Proof.
  intros I. destruct (make_quiet w I) as (w1 & S1 & D1 & Q1). destruct (steps_ok _ _ S1 I) as [I1 _]. clear I.
  assert (G : forall rest done cells, inv (mkWorld cells (done ++ rest)) -> quiet (mkWorld cells (done ++ rest)) ->
    Forall (@finished L R) done -> exists w', steps (mkWorld cells (done ++ rest)) w' /\
      map panicked (w_threads w') = map panicked (done ++ rest) /\ Forall finished (w_threads w')).
  { induction rest as [|t rest IH]; intros done cells I Q D.
    - exists (mkWorld cells (done ++ [])). split; [constructor|]. cbn [w_threads]. split; [reflexivity|]. rewrite app_nil_r. exact D.
    - destruct (finish_thread (th_prog t) cells done t rest eq_refl I Q) as (c' & t' & S2 & F2 & N2 & Q2).
      destruct (steps_ok _ _ S2 I) as [I2 _].
      assert (EM : map panicked ((done ++ [t']) ++ rest) = map panicked (done ++ t :: rest)).
      { rewrite <- app_assoc, !map_app. cbn [app map]. rewrite N2. reflexivity. }
      change (t' :: rest) with ([t'] ++ rest) in *. rewrite app_assoc in S2, I2, Q2.
      destruct (IH (done ++ [t']) c' I2 Q2) as (w' & S3 & M3 & F3).
      { apply Forall_app. split; [exact D|]. constructor; [exact F2|constructor]. }
      exists w'. split; [exact (steps_trans _ _ _ S2 S3)|]. split; [congruence|exact F3]. }
  destruct w1 as [cells ths]. destruct (G ths [] cells I1 Q1 (Forall_nil _)) as (w' & S2 & M & F). exists w'.
  split; [exact (steps_trans _ _ _ S1 S2)|]. cbn [w_threads] in *. cbn [app] in M. split; [congruence|exact F].
Qed.

(** ** Key operations *)
Lemma run_pbind {L A B} (p : prog L A) (f : A -> prog L B) : run (pbind p f) = run (f (run p)).
Proof. induction p as [r|key k IH|key t k IH]; cbn [pbind run]; [reflexivity|apply IH|apply IH]. Qed.
Lemma run_pub_tweak {L} (key : point L) tweak : run (pub_add_tweak_p key tweak) = ffi_pub_add_tweak L key tweak.
Proof. unfold pub_add_tweak_p, ffi_pub_add_tweak. destruct (ffi_scalar L tweak); reflexivity. Qed.
Lemma run_xprv_child dbg {L} (x : XPrv (Secp256k1FfiBackend L)) c :
  run (xprv_derive_child_p dbg x c) = xprv_derive_child dbg x c.
Proof. reflexivity. Qed.
Lemma run_xprv_path dbg {L} p : forall x : XPrv (Secp256k1FfiBackend L),
  run (xprv_derive_path_p dbg x p) = xprv_derive_path dbg x p.
Proof.
  induction p as [|c p IH]; intros x; [reflexivity|]. cbn [xprv_derive_path_p xprv_derive_path]. unfold rbind.
  rewrite run_pbind, run_xprv_child. destruct (xprv_derive_child dbg x c); cbn [bind]; [apply IH|reflexivity|reflexivity].
Qed.
Lemma run_xpub_child dbg {L} (x : XPub (Secp256k1FfiBackend L)) c :
  run (xpub_derive_child_p dbg x c) = xpub_derive_child dbg x c.
Proof.
  unfold xpub_derive_child_p, xpub_derive_child. destruct (child_is_hardened c); [reflexivity|].
  change (pub_to_bytes (Secp256k1FfiBackend L) (xpub_key x)) with (compress L (xpub_key x)).
  destruct (hmac_sha512_split _ _) as [[il ir]| |]; cbn [bind]; [|reflexivity|reflexivity].
  rewrite run_pbind, run_pub_tweak. reflexivity.
Qed.
Lemma run_xpub_path dbg {L} p : forall x : XPub (Secp256k1FfiBackend L),
  run (xpub_derive_path_p dbg x p) = xpub_derive_path dbg x p.
Proof.
  induction p as [|c p IH]; intros x; [reflexivity|]. cbn [xpub_derive_path_p xpub_derive_path]. unfold rbind.
  rewrite run_pbind, run_xpub_child. destruct (xpub_derive_child dbg x c); cbn [bind]; [apply IH|reflexivity|reflexivity].
Qed.
