(** Facts about the NFKD model: the quick check is sound, normalisation is
    idempotent and splits at starters. *)
From Verif Require Import Base Str Unicode UnicodeTables.

(** What the proofs need from the Unicode data.  All are stability-policy
    guarantees of the Unicode standard; [ucd15_ok] checks the 15.0 tables. *)
Record ucd_ok (U : ucd) : Prop := {
  ok_ascii_ccc : forall c, c <= 0x7F -> ucd_ccc U c = 0;
  ok_dec_closed : forall c d, ucd_dec U c = Some d ->
      Forall (fun e => ucd_dec U e = None /\ is_hangul e = false) d;
  ok_jamo : forall e, 0x1100 <= e <= 0x11C2 -> ucd_dec U e = None
}.

(** ** The 15.0 tables satisfy the laws *)
Fixpoint tall {A : Type} (p : N -> A -> bool) (t : tree A) : bool :=
  match t with
  | L => true
  | T l k v r => p k v && tall p l && tall p r
  end.

Lemma tall_lookup {A : Type} (p : N -> A -> bool) t :
  tall p t = true -> forall x v, tlookup t x = Some v -> p x v = true.
Proof.
  induction t as [|l IHl k v r IHr]; cbn; intros H x w E; [discriminate|].
  apply andb_true_iff in H as [H Hr]. apply andb_true_iff in H as [Hk Hl].
  destruct (N.compare_spec x k) as [->|_|_].
  - injection E as <-. exact Hk.
  - eauto.
  - eauto.
Qed.

(** Boolean checks over the whole tables, by computation. *)
Definition chk_ccc (c : N) (_ : N) : bool := 0x7F <? c.
Definition chk_closed (_ : N) (d : list N) : bool :=
  forallb (fun e => match tlookup dec_table e with None => negb (is_hangul e) | Some _ => false end) d.
Definition chk_jamo (c : N) (_ : list N) : bool := negb ((0x1100 <=? c) && (c <=? 0x11C2)).

Lemma ccc_table_ascii : tall chk_ccc ccc_table = true.
Proof. vm_cast_no_check (eq_refl true). Qed.
Lemma dec_table_closed : tall chk_closed dec_table = true.
Proof. vm_cast_no_check (eq_refl true). Qed.
Lemma dec_table_jamo : tall chk_jamo dec_table = true.
Proof. vm_cast_no_check (eq_refl true). Qed.

Lemma ucd15_ok : ucd_ok ucd15.
Proof.
  constructor.
  - intros c Hc. cbn [ucd15 ucd_ccc].
    destruct (tlookup ccc_table c) as [k|] eqn:E; [|reflexivity].
    apply (tall_lookup chk_ccc ccc_table ccc_table_ascii) in E.
    unfold chk_ccc in E. apply N.ltb_lt in E. exfalso. revert Hc E. clear. intros. lia.
  - intros c d E. cbn [ucd15 ucd_dec] in E |- *.
    apply (tall_lookup chk_closed dec_table dec_table_closed) in E. unfold chk_closed in E.
    rewrite forallb_forall in E. apply Forall_forall. intros e He. specialize (E e He).
    destruct (tlookup dec_table e); [discriminate|]. split; [reflexivity|].
    destruct (is_hangul e); [discriminate|reflexivity].
  - intros e He. cbn [ucd15 ucd_dec].
    destruct (tlookup dec_table e) as [d|] eqn:E; [|reflexivity].
    apply (tall_lookup chk_jamo dec_table dec_table_jamo) in E. unfold chk_jamo in E.
    exfalso. revert He E. clear. intros. lia.
Qed.

Section Facts.
Variable U : ucd.
Hypothesis UOK : ucd_ok U.
Notation ccc := (ucd_ccc U).

(** A character that [decompose] leaves alone. *)
Definition stable (c : N) : Prop := decompose U c = [c].

Lemma stable_iff c : c <= 0x7F \/ qc_nfkd U c = true -> stable c.
Proof.
  intros H. unfold stable, decompose, qc_nfkd in *.
  destruct (c <=? 0x7F) eqn:E; [reflexivity|].
  destruct H as [H|H]; [lia|].
  destruct (is_hangul c); [discriminate|]. destruct (ucd_dec U c); [discriminate|reflexivity].
Qed.

Lemma hangul_parts c e : is_hangul c = true -> In e (hangul_decomp c) -> 0x1100 <= e <= 0x11C2.
Proof.
  unfold is_hangul, hangul_decomp. intros Hc Hin.
  assert (H1 : (c - 0xAC00) / 588 < 19) by (apply N.div_lt_upper_bound; lia).
  assert (H2 : (c - 0xAC00) mod 588 < 588) by (apply N.mod_lt; lia).
  assert (H3 : ((c - 0xAC00) mod 588) / 28 < 21) by (apply N.div_lt_upper_bound; lia).
  assert (H4 : (c - 0xAC00) mod 28 < 28) by (apply N.mod_lt; lia).
  set (a := (c - 0xAC00) / 588) in *. set (b := ((c - 0xAC00) mod 588) / 28) in *.
  set (t := (c - 0xAC00) mod 28) in *.
  clearbody a b t. clear Hc H2.
  destruct (t =? 0) eqn:Et; unfold In in Hin; lia.
Qed.

Lemma decompose_closed c e : In e (decompose U c) -> e <= 0x7F \/ qc_nfkd U e = true.
Proof.
  unfold decompose. destruct (c <=? 0x7F) eqn:E.
  - cbn. intros [<-|[]]. left. lia.
  - destruct (is_hangul c) eqn:EH.
    + intros Hin. apply hangul_parts in Hin; [|exact EH]. right. unfold qc_nfkd.
      rewrite (ok_jamo U UOK e Hin). unfold is_hangul.
      destruct (0xAC00 <=? e) eqn:?; [lia|]. reflexivity.
    + destruct (ucd_dec U c) as [d|] eqn:ED.
      * intros Hin. pose proof (ok_dec_closed U UOK c d ED) as H.
        rewrite Forall_forall in H. destruct (H e Hin) as [H1 H2]. right.
        unfold qc_nfkd. rewrite H1, H2. reflexivity.
      * cbn. intros [<-|[]]. right. unfold qc_nfkd. rewrite EH, ED. reflexivity.
Qed.

(** ** Sorting *)
Inductive sorted_from : N -> list N -> Prop :=
| sf_nil k : sorted_from k []
| sf_cons k c l : k <= ccc c -> sorted_from (ccc c) l -> sorted_from k (c :: l).

Lemma sorted_from_weaken k k' l : k' <= k -> sorted_from k l -> sorted_from k' l.
Proof. intros H S. destruct S; constructor; [lia|assumption]. Qed.

Lemma insert_sorted k c l : k <= ccc c -> sorted_from k l -> sorted_from k (insert_ccc U c l).
Proof.
  intros Hk S. revert Hk. induction S as [k|k d l Hd S IH]; intros Hk; cbn.
  - constructor; [exact Hk|constructor].
  - destruct (ccc c <? ccc d) eqn:E.
    + constructor; [exact Hk|]. constructor; [lia|exact S].
    + constructor; [exact Hd|]. apply IH. lia.
Qed.

Lemma fold_insert_sorted l : forall acc k,
  sorted_from k acc -> Forall (fun c => k <= ccc c) l ->
  sorted_from k (fold_left (fun a c => insert_ccc U c a) l acc).
Proof.
  induction l as [|c l IH]; intros acc k S F; cbn; [exact S|].
  inversion F; subst. apply IH; [|assumption]. apply insert_sorted; assumption.
Qed.

Lemma sort_sorted l : sorted_from 0 (sort_ccc U l).
Proof.
  apply fold_insert_sorted; [constructor|]. apply Forall_forall. intros; lia.
Qed.

Lemma insert_in c l e : In e (insert_ccc U c l) <-> e = c \/ In e l.
Proof.
  induction l as [|d l IH]; cbn; [intuition|].
  destruct (ccc c <? ccc d); cbn; intuition.
Qed.

Lemma sort_in l e : In e (sort_ccc U l) <-> In e l.
Proof.
  unfold sort_ccc.
  assert (H : forall acc, In e (fold_left (fun a c => insert_ccc U c a) l acc) <-> In e l \/ In e acc).
  { induction l as [|c l IH]; intros acc; cbn; [intuition|].
    rewrite IH, insert_in. intuition. }
  rewrite H. cbn. intuition.
Qed.

(** Inserting at the end of a sorted list whose elements are not larger. *)
Lemma insert_last c l :
  Forall (fun d => ccc d <= ccc c) l -> insert_ccc U c l = l ++ [c].
Proof.
  induction l as [|d l IH]; intros F; cbn; [reflexivity|].
  inversion F; subst. destruct (ccc c <? ccc d) eqn:E; [lia|]. f_equal. auto.
Qed.

Lemma sort_snoc l c : sort_ccc U (l ++ [c]) = insert_ccc U c (sort_ccc U l).
Proof. unfold sort_ccc. rewrite fold_left_app. reflexivity. Qed.

Lemma sorted_from_app_inv k l m :
  sorted_from k (l ++ m) -> sorted_from k l.
Proof.
  revert k. induction l as [|c l IH]; intros k S; cbn in *; [constructor|].
  inversion S; subst. constructor; eauto.
Qed.

Lemma sorted_snoc_le k l c : sorted_from k (l ++ [c]) -> Forall (fun d => ccc d <= ccc c) l.
Proof.
  revert k. induction l as [|d l IH]; intros k S; [constructor|].
  cbn in S. inversion S as [|? ? ? H1 H2]; subst.
  pose proof (IH _ H2) as F. constructor; [|exact F].
  destruct l as [|x l'].
  - cbn in H2. inversion H2; subst. assumption.
  - cbn in H2. inversion H2; subst. inversion F; subst. lia.
Qed.

Lemma sort_id l : forall k, sorted_from k l -> sort_ccc U l = l.
Proof.
  induction l as [|c l IH] using rev_ind; intros k S; [reflexivity|].
  rewrite sort_snoc. rewrite (IH k) by (eapply sorted_from_app_inv; exact S).
  apply insert_last. eapply sorted_snoc_le. exact S.
Qed.

(** ** Reordering *)
Lemma reorder_in s : forall p e, In e (reorder U p s) <-> In e p \/ In e s.
Proof.
  induction s as [|c s IH]; intros p e; cbn.
  - rewrite sort_in. intuition.
  - destruct (ccc c =? 0).
    + rewrite in_app_iff, sort_in. cbn. rewrite IH. cbn. intuition.
    + rewrite IH, in_app_iff. cbn. intuition.
Qed.

Lemma reorder_split s t c : ccc c = 0 -> forall p,
  reorder U p (s ++ c :: t) = reorder U p s ++ c :: reorder U [] t.
Proof.
  intros Hc. induction s as [|d s IH]; intros p; cbn.
  - rewrite Hc. cbn. reflexivity.
  - destruct (ccc d =? 0).
    + rewrite IH, <- app_assoc. reflexivity.
    + apply IH.
Qed.

Lemma nfkd_split s t c : c <= 0x7F -> nfkd U (s ++ c :: t) = nfkd U s ++ c :: nfkd U t.
Proof.
  intros Hc. unfold nfkd. rewrite flat_map_app. cbn [flat_map].
  replace (decompose U c) with [c] by (unfold decompose; destruct (c <=? 0x7F) eqn:E; [reflexivity|lia]).
  cbn [app]. apply reorder_split. apply (ok_ascii_ccc U UOK). exact Hc.
Qed.

Lemma nfkd_nil : nfkd U [] = [].
Proof. reflexivity. Qed.

(** An ASCII prefix is copied unchanged. *)
Lemma nfkd_ascii_prefix a s : Forall (fun c => c <= 0x7F) a -> nfkd U (a ++ s) = a ++ nfkd U s.
Proof.
  induction a as [|c a IH]; intros F; cbn [app]; [reflexivity|].
  inversion F; subst.
  change (c :: a ++ s) with ([] ++ c :: (a ++ s)).
  rewrite nfkd_split by assumption. rewrite nfkd_nil. cbn. f_equal. apply IH. assumption.
Qed.

(** ** The quick check *)
(** [quick_from k s] says: every character is stable and non-starters do not
    decrease in class. *)
Inductive quick_spec : N -> str -> Prop :=
| qs_nil k : quick_spec k []
| qs_cons k c s : (c <= 0x7F \/ qc_nfkd U c = true) -> (ccc c = 0 \/ k <= ccc c) ->
    quick_spec (ccc c) s -> quick_spec k (c :: s).

Lemma quick_iff s : forall k, quick_from U k s = true <-> quick_spec k s.
Proof.
  induction s as [|c s IH]; intros k; cbn [quick_from].
  - split; [constructor|reflexivity].
  - destruct (c <=? 0x7F) eqn:E.
    + pose proof (ok_ascii_ccc U UOK c ltac:(lia)) as H0. rewrite IH. split; intros H.
      * constructor; [left; lia|left; exact H0|]. rewrite H0. exact H.
      * inversion H; subst. rewrite H0 in *. assumption.
    + destruct ((ccc c <? k) && negb (ccc c =? 0)) eqn:E2.
      * split; [discriminate|]. intros H. inversion H; subst. lia.
      * destruct (qc_nfkd U c) eqn:E3.
        -- rewrite IH. split; intros H.
           ++ constructor; [right; exact E3| |exact H]. lia.
           ++ inversion H; subst. assumption.
        -- split; [discriminate|]. intros H. inversion H as [|? ? ? H1 ? ?]; subst. destruct H1; [lia|congruence].
Qed.

Lemma quick_stable k s : quick_spec k s -> Forall stable s.
Proof. induction 1; constructor; auto using stable_iff. Qed.

Lemma flat_map_stable s : Forall stable s -> flat_map (decompose U) s = s.
Proof. induction 1 as [|c s H F IH]; cbn; [reflexivity|]. rewrite H, IH. reflexivity. Qed.

Lemma sorted_snoc k0 p c : sorted_from k0 p -> k0 <= ccc c -> Forall (fun d => ccc d <= ccc c) p ->
  sorted_from k0 (p ++ [c]).
Proof.
  revert k0. induction p as [|d p IH]; intros k0 S Hk F; cbn.
  - constructor; [exact Hk|constructor].
  - inversion S; subst. inversion F; subst. constructor; [assumption|]. apply IH; assumption.
Qed.

Lemma reorder_quick s : forall p k,
  sorted_from 0 p -> Forall (fun d => ccc d <= k) p ->
  quick_spec k s -> reorder U p s = p ++ s.
Proof.
  induction s as [|c s IH]; intros p k S F Q; cbn [reorder].
  - rewrite (sort_id p 0 S), app_nil_r. reflexivity.
  - inversion Q as [|? ? ? Hs Hc HQ]; subst. destruct (ccc c =? 0) eqn:E.
    + rewrite (sort_id p 0 S). f_equal. f_equal. rewrite (IH [] (ccc c)); [reflexivity|constructor|constructor|assumption].
    + assert (Hk : k <= ccc c) by lia.
      assert (F' : Forall (fun d => ccc d <= ccc c) p).
      { eapply Forall_impl; [|exact F]. cbv beta. intros; lia. }
      rewrite (IH (p ++ [c]) (ccc c)).
      * rewrite <- app_assoc. reflexivity.
      * apply sorted_snoc; [exact S|lia|exact F'].
      * apply Forall_app. split; [exact F'|]. constructor; [lia|constructor].
      * assumption.
Qed.

Theorem quick_sound s : is_nfkd_quick U s = true -> nfkd U s = s.
Proof.
  unfold is_nfkd_quick. intros H. apply quick_iff in H.
  unfold nfkd. rewrite flat_map_stable by (eapply quick_stable; exact H).
  apply (reorder_quick s [] 0); [constructor|constructor|exact H].
Qed.

(** Normalised output passes the quick check. *)
Lemma quick_sorted_app l s : Forall (fun c => c <= 0x7F \/ qc_nfkd U c = true) l ->
  forall k, sorted_from k l ->
  (forall k', quick_spec k' s) -> quick_spec k (l ++ s).
Proof.
  induction l as [|c l IH]; intros F k S Hs; cbn; [apply Hs|].
  inversion F; subst. inversion S; subst. constructor; [assumption|right; assumption|].
  apply IH; assumption.
Qed.

Lemma sort_nonstarter p : Forall (fun c => ccc c <> 0) p -> Forall (fun c => ccc c <> 0) (sort_ccc U p).
Proof. rewrite !Forall_forall. intros H e He. apply H. apply sort_in. exact He. Qed.

Lemma reorder_is_quick s : forall p,
  Forall (fun c => c <= 0x7F \/ qc_nfkd U c = true) p ->
  Forall (fun c => c <= 0x7F \/ qc_nfkd U c = true) s ->
  quick_spec 0 (reorder U p s).
Proof.
  induction s as [|c s IH]; intros p Fp Fs; cbn [reorder].
  - rewrite <- (app_nil_r (sort_ccc U p)).
    apply quick_sorted_app; [|apply sort_sorted|intros; constructor].
    rewrite Forall_forall in *. intros e He. apply Fp. apply sort_in. exact He.
  - inversion Fs; subst. destruct (ccc c =? 0) eqn:E.
    + apply quick_sorted_app; [|apply sort_sorted|].
      * rewrite Forall_forall in *. intros e He. apply Fp. apply sort_in. exact He.
      * intros k'. constructor; [assumption|left; lia|].
        replace (ccc c) with 0 by lia. apply IH; [constructor|assumption].
    + apply IH; [|assumption]. apply Forall_app. split; [assumption|]. constructor; [assumption|constructor].
Qed.

Theorem nfkd_is_quick s : is_nfkd_quick U (nfkd U s) = true.
Proof.
  unfold is_nfkd_quick. apply quick_iff. unfold nfkd. apply reorder_is_quick; [constructor|].
  apply Forall_forall. intros e He. apply in_flat_map in He as [c [_ He]].
  eapply decompose_closed. exact He.
Qed.

Theorem nfkd_idem s : nfkd U (nfkd U s) = nfkd U s.
Proof. apply quick_sound. apply nfkd_is_quick. Qed.

Theorem quick_complete s : is_nfkd_quick U s = true <-> nfkd U s = s.
Proof.
  split; [apply quick_sound|]. intros <-. apply nfkd_is_quick.
Qed.

Theorem normalize_is_nfkd s : normalize_utf8 U s = nfkd U s.
Proof.
  unfold normalize_utf8. destruct (is_nfkd_quick U s) eqn:E; [|reflexivity].
  symmetry. apply quick_sound. exact E.
Qed.

End Facts.
