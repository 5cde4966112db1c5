(** Property theorems for the bip0039 crate: the normal form given to phrases and
    passphrases is NFKD as the Unicode standard defines it (C68). *)
From Coq Require Import Relations.
From Verif Require Import Base Str Unicode UnicodeTables UnicodeProofs.

(** ** C68 *)
(** D108: two neighbours are reorderable if ccc(A) > ccc(B) > 0; one step of the canonical
    ordering algorithm (D109) exchanges such a pair. *)
Inductive exchange (U : ucd) : str -> str -> Prop :=
| exchange_at l a b r : ucd_ccc U a > ucd_ccc U b -> ucd_ccc U b > 0 ->
    exchange U (l ++ a :: b :: r) (l ++ b :: a :: r).
Definition exchanges (U : ucd) : str -> str -> Prop := clos_refl_trans str (exchange U).
Definition ordered (U : ucd) (t : str) : Prop := forall t', ~ exchange U t t'.

(** The full compatibility decomposition of a character: the jamo for a Hangul syllable
    (section 3.12, by the composition formula), the table for another one, and itself for
    a character without mapping. *)
Inductive decomposes (U : ucd) (c : N) : str -> Prop :=
| dec_lv l v : l < 19 -> v < 21 -> c = 0xAC00 + (l * 21 + v) * 28 ->
    decomposes U c [0x1100 + l; 0x1161 + v]
| dec_lvt l v t : l < 19 -> v < 21 -> 0 < t < 28 -> c = 0xAC00 + (l * 21 + v) * 28 + t ->
    decomposes U c [0x1100 + l; 0x1161 + v; 0x11A7 + t]
| dec_table d : 0x7F < c -> ~ (0xAC00 <= c <= 0xD7A3) -> ucd_dec U c = Some d -> decomposes U c d
| dec_none : ~ (0xAC00 <= c <= 0xD7A3) -> c <= 0x7F \/ ucd_dec U c = None -> decomposes U c [c].
Inductive decomposed (U : ucd) : str -> str -> Prop :=
| decomposed_nil : decomposed U [] []
| decomposed_cons c s d t : decomposes U c d -> decomposed U s t -> decomposed U (c :: s) (d ++ t).

Section Facts.
Context (U : ucd).
Notation ccc := (ucd_ccc U).

Lemma decompose_ok c : decomposes U c (decompose U c).
Proof.
  unfold decompose. destruct (c <=? 0x7F) eqn:E; [apply N.leb_le in E; apply dec_none; [lia|left; exact E]|].
  apply N.leb_gt in E. destruct (is_hangul c) eqn:H.
  - unfold is_hangul in H. apply andb_true_iff in H as [H1 H2]. apply N.leb_le in H1. apply N.ltb_lt in H2.
    unfold hangul_decomp. cbv zeta. set (i := c - 0xAC00).
    assert (Hi : i < 11172) by (unfold i; lia).
    assert (HL : i / 588 < 19) by (apply N.div_lt_upper_bound; lia).
    pose proof (N.mod_lt i 588 ltac:(discriminate)) as HM.
    assert (HV : (i mod 588) / 28 < 21) by (apply N.div_lt_upper_bound; lia).
    pose proof (N.div_mod i 588 ltac:(discriminate)) as D1.
    pose proof (N.div_mod (i mod 588) 28 ltac:(discriminate)) as D2.
    assert (D3 : (i mod 588) mod 28 = i mod 28).
    { rewrite D1 at 2. replace (588 * (i / 588) + i mod 588) with (i mod 588 + (21 * (i / 588)) * 28) by lia.
      rewrite N.mod_add by discriminate. reflexivity. }
    rewrite D3 in D2. pose proof (N.mod_lt i 28 ltac:(discriminate)) as HT.
    destruct (i mod 28 =? 0) eqn:T.
    + apply N.eqb_eq in T. apply dec_lv; [exact HL|exact HV|]. unfold i in *. lia.
    + apply N.eqb_neq in T. apply dec_lvt; [exact HL|exact HV|lia|]. unfold i in *. lia.
  - assert (NH : ~ (0xAC00 <= c <= 0xD7A3)).
    { unfold is_hangul in H. apply andb_false_iff in H as [H|H]; [apply N.leb_gt in H|apply N.ltb_ge in H]; lia. }
    destruct (ucd_dec U c) as [d|] eqn:D; [apply dec_table; assumption|apply dec_none; auto].
Qed.
Lemma decomposes_det c d d' : decomposes U c d -> decomposes U c d' -> d = d'.
Proof.
  assert (LV : forall l v l' v' t t', l < 19 -> v < 21 -> t < 28 -> l' < 19 -> v' < 21 -> t' < 28 ->
    0xAC00 + (l * 21 + v) * 28 + t = 0xAC00 + (l' * 21 + v') * 28 + t' -> l = l' /\ v = v' /\ t = t') by (intros; lia).
  intros H H'. destruct H as [l v A B C|l v t A B T C|d A B C|A B]; destruct H' as [l' v' A' B' C'|l' v' t' A' B' T' C'|d' A' B' C'|A' B'];
    try (exfalso; lia); try reflexivity; try congruence.
  - destruct (LV l v l' v' 0 0) as (-> & -> & _); try assumption; try lia. reflexivity.
  - destruct (LV l v l' v' t t') as (-> & -> & ->); try assumption; try lia. reflexivity.
  - destruct B' as [B'|B']; [lia|congruence].
  - destruct B as [B|B]; [lia|congruence].
Qed.
Lemma decomposed_iff s t : decomposed U s t <-> t = flat_map (decompose U) s.
Proof.
  split.
  - induction 1 as [|c s d t D _ IH]; [reflexivity|]. cbn [flat_map]. rewrite <- IH. f_equal.
    exact (decomposes_det c _ _ D (decompose_ok c)).
  - intros ->. induction s as [|c s IH]; [constructor|]. cbn [flat_map]. constructor; [apply decompose_ok|exact IH].
Qed.

(** Inserting does nothing but exchanges. *)
Lemma exchanges_ctx l r s t : exchanges U s t -> exchanges U (l ++ s ++ r) (l ++ t ++ r).
Proof.
  induction 1 as [s t [l' a b r' A B]|s|s t u _ IH1 _ IH2].
  - apply rt_step. rewrite <- !app_assoc. cbn [app]. rewrite !(app_assoc l l'). apply exchange_at; assumption.
  - apply rt_refl.
  - eapply rt_trans; eassumption.
Qed.
Lemma exchanges_app s t s' t' : exchanges U s t -> exchanges U s' t' -> exchanges U (s ++ s') (t ++ t').
Proof.
  intros A B. apply (rt_trans _ _ _ (t ++ s')).
  - exact (exchanges_ctx [] s' s t A).
  - pose proof (exchanges_ctx t [] s' t' B) as H. rewrite !app_nil_r in H. exact H.
Qed.
Lemma insert_exchanges c l : ccc c > 0 -> sorted_from U 0 l -> exchanges U (l ++ [c]) (insert_ccc U c l).
Proof.
  intros Hc. generalize 0 at 1. intros k S. revert S. revert k. induction l as [|d l IH]; intros k S; cbn [insert_ccc app].
  - apply rt_refl.
  - inversion S as [|? ? ? _ S']; subst. pose proof (IH _ S') as H.
    assert (E : exchanges U (d :: l ++ [c]) (d :: insert_ccc U c l)) by (apply (exchanges_app [d] [d]); [apply rt_refl|exact H]).
    destruct (ccc c <? ccc d) eqn:Lt; [|exact E]. apply N.ltb_lt in Lt.
    apply (rt_trans _ _ _ _ _ E).
    assert (I : insert_ccc U c l = c :: l).
    { destruct l as [|e l]; [reflexivity|]. cbn [insert_ccc]. inversion S' as [|? ? ? Q _]; subst.
      rewrite (proj2 (N.ltb_lt (ccc c) (ccc e))); [reflexivity|]. lia. }
    rewrite I. apply rt_step. apply (exchange_at U [] d c l); lia.
Qed.
Lemma sort_exchanges p : Forall (fun c => ccc c > 0) p -> exchanges U p (sort_ccc U p).
Proof.
  induction p as [|c p IH] using rev_ind; intros F; [apply rt_refl|].
  apply Forall_app in F as [F Fc]. inversion Fc; subst. rewrite sort_snoc.
  apply (rt_trans _ _ _ (sort_ccc U p ++ [c])).
  - apply exchanges_app; [apply IH; exact F|apply rt_refl].
  - apply insert_exchanges; [assumption|apply sort_sorted].
Qed.
Lemma reorder_exchanges s : forall p, Forall (fun c => ccc c > 0) p -> exchanges U (p ++ s) (reorder U p s).
Proof.
  induction s as [|c s IH]; intros p F; cbn [reorder].
  - rewrite app_nil_r. apply sort_exchanges. exact F.
  - destruct (ccc c =? 0) eqn:E.
    + apply exchanges_app; [apply sort_exchanges; exact F|]. apply (exchanges_app [c] [c]); [apply rt_refl|].
      exact (IH [] (Forall_nil _)).
    + apply N.eqb_neq in E. replace (p ++ c :: s) with ((p ++ [c]) ++ s) by (rewrite <- app_assoc; reflexivity).
      apply IH. apply Forall_app. split; [exact F|]. constructor; [lia|constructor].
Qed.

(** An exchange does not change what reordering gives. *)
Lemma insert_comm a b l : sorted_from U 0 l -> ccc a > ccc b ->
  insert_ccc U b (insert_ccc U a l) = insert_ccc U a (insert_ccc U b l).
Proof.
  intros S Lt. revert S. generalize 0 at 1. induction l as [|d l IH]; intros k S; cbn [insert_ccc].
  - rewrite (proj2 (N.ltb_lt (ccc b) (ccc a))) by lia. rewrite (proj2 (N.ltb_ge (ccc a) (ccc b))) by lia. reflexivity.
  - inversion S as [|? ? ? _ S']; subst.
    destruct (ccc a <? ccc d) eqn:A; [apply N.ltb_lt in A|apply N.ltb_ge in A];
      destruct (ccc b <? ccc d) eqn:B; [apply N.ltb_lt in B|apply N.ltb_ge in B|apply N.ltb_lt in B|apply N.ltb_ge in B]; cbn [insert_ccc].
    + rewrite (proj2 (N.ltb_lt (ccc b) (ccc a))) by lia. rewrite (proj2 (N.ltb_ge (ccc a) (ccc b))) by lia.
      rewrite (proj2 (N.ltb_lt (ccc a) (ccc d))) by lia. reflexivity.
    + exfalso. lia.
    + rewrite (proj2 (N.ltb_lt (ccc b) (ccc d))) by lia. rewrite (proj2 (N.ltb_ge (ccc a) (ccc b))) by lia.
      rewrite (proj2 (N.ltb_ge (ccc a) (ccc d))) by lia. reflexivity.
    + rewrite (proj2 (N.ltb_ge (ccc b) (ccc d))) by lia. rewrite (proj2 (N.ltb_ge (ccc a) (ccc d))) by lia.
      f_equal. exact (IH _ S').
Qed.
Lemma sort_swap p a b q : ccc a > ccc b -> sort_ccc U (p ++ a :: b :: q) = sort_ccc U (p ++ b :: a :: q).
Proof.
  intros Lt. unfold sort_ccc. rewrite !fold_left_app. cbn [fold_left].
  rewrite (insert_comm a b); [reflexivity| |exact Lt]. apply (sort_sorted U p).
Qed.
Lemma reorder_swap l a b r : ccc a > ccc b -> ccc b > 0 -> forall p,
  reorder U p (l ++ a :: b :: r) = reorder U p (l ++ b :: a :: r).
Proof.
  intros Lt Pos. induction l as [|c l IH]; intros p; cbn [app reorder].
  - rewrite (proj2 (N.eqb_neq (ccc a) 0)) by lia. rewrite (proj2 (N.eqb_neq (ccc b) 0)) by lia.
    rewrite <- !app_assoc. cbn [app]. generalize (@nil N) as q. induction r as [|c r IHr]; intros q; cbn [reorder].
    + apply sort_swap. exact Lt.
    + destruct (ccc c =? 0); [rewrite (sort_swap p a b q Lt); reflexivity|].
      rewrite <- !app_assoc. cbn [app]. apply IHr.
  - destruct (ccc c =? 0); [f_equal; f_equal; apply IH|apply IH].
Qed.
Lemma reorder_exchanged s t : exchanges U s t -> reorder U [] s = reorder U [] t.
Proof.
  induction 1 as [s t [l a b r A B]|s|s t u _ IH1 _ IH2]; [apply reorder_swap; assumption|reflexivity|congruence].
Qed.

(** Ordered strings are left alone. *)
Lemma ordered_tail c s : ordered U (c :: s) -> ordered U s.
Proof. intros H t' E. revert H. destruct E as [l a b r A B]. intros H. exact (H _ (exchange_at U (c :: l) a b r A B)). Qed.
Lemma reorder_ordered s : ordered U s -> forall p,
  sorted_from U 0 p -> match s with c :: _ => ccc c = 0 \/ Forall (fun d => ccc d <= ccc c) p | [] => True end ->
  reorder U p s = p ++ s.
Proof.
  induction s as [|c s IH]; intros O p S F; cbn [reorder].
  - rewrite (sort_id U p 0 S), app_nil_r. reflexivity.
  - pose proof (ordered_tail _ _ O) as O'. destruct (ccc c =? 0) eqn:E.
    + rewrite (sort_id U p 0 S). f_equal. f_equal. rewrite (IH O' []); [reflexivity|constructor|].
      destruct s; [exact I|right; constructor].
    + apply N.eqb_neq in E. destruct F as [F|F]; [contradiction|].
      rewrite (IH O'); [rewrite <- app_assoc; reflexivity|apply sorted_snoc; [exact S|lia|exact F]|].
      destruct s as [|d s]; [exact I|]. destruct (N.eq_dec (ccc d) 0) as [Z|Z]; [left; exact Z|right].
      assert (LE : ccc c <= ccc d).
      { apply N.le_ngt. intros Lt. apply (O (d :: c :: s)). apply (exchange_at U [] c d s); lia. }
      apply Forall_app. split; [|constructor; [exact LE|constructor]].
      eapply Forall_impl; [|exact F]. cbv beta. intros x Hx. lia.
Qed.
Lemma reorder_is_ordered s : ordered U (reorder U [] s).
Proof.
  assert (SF : forall l r k, sorted_from U k l -> (r = [] \/ exists c r', r = c :: r' /\ ccc c = 0 /\ ordered U r') ->
    ordered U (l ++ r)).
  { intros l r k S R t' E. remember (l ++ r) as w eqn:W. destruct E as [x a b y A B]. symmetry in W. revert l k S W.
    induction x as [|e x IH]; intros l k S W; cbn [app] in W.
    - destruct l as [|e l]; cbn [app] in W.
      + destruct R as [->|(c & r' & -> & Z & _)]; [discriminate|]. injection W as -> ->. lia.
      + injection W as -> W. inversion S as [|? ? ? _ S']; subst. destruct l as [|e l]; cbn [app] in W.
        * destruct R as [->|(c & r' & -> & Z & _)]; [discriminate|]. injection W as -> ->. lia.
        * injection W as -> W. inversion S' as [|? ? ? Q _]; subst. lia.
    - destruct l as [|f l]; cbn [app] in W.
      + destruct R as [->|(c & r' & -> & Z & O)]; [discriminate|]. injection W as -> ->.
        exact (O _ (exchange_at U x a b y A B)).
      + injection W as -> W. inversion S; subst. eapply IH; eassumption. }
  generalize (@nil N) as p. induction s as [|c s IH]; intros p; cbn [reorder].
  - rewrite <- (app_nil_r (sort_ccc U p)). apply (SF _ _ 0); [apply sort_sorted|left; reflexivity].
  - destruct (ccc c =? 0) eqn:E; [|apply IH]. apply N.eqb_eq in E.
    apply (SF _ _ 0); [apply sort_sorted|]. right. exists c, (reorder U [] s). auto.
Qed.
End Facts.

(** C68: [normalize_utf8] gives the NFKD form: the full decomposition of the string, put in
    canonical order by exchanges of reorderable pairs until there is none left; and no
    other string is obtained that way. *)
Theorem C68_nfkd U s t : ucd_ok U ->
  (t = normalize_utf8 U s <-> exists d, decomposed U s d /\ exchanges U d t /\ ordered U t).
Proof.
  intros OK. rewrite (normalize_is_nfkd U OK). unfold nfkd. split.
  - intros ->. exists (flat_map (decompose U) s). split; [apply decomposed_iff; reflexivity|].
    split; [exact (reorder_exchanges U _ [] (Forall_nil _))|apply reorder_is_ordered].
  - intros (d & D & E & O). apply decomposed_iff in D. subst d. rewrite (reorder_exchanged U _ _ E).
    symmetry. apply (reorder_ordered U t O []); [constructor|]. destruct t; [exact I|right; constructor].
Qed.
Print Assumptions C68_nfkd.

(** Every full decomposition is final: its characters decompose no further. *)
Theorem C68_full U c d e : ucd_ok U -> decomposes U c d -> In e d -> decomposes U e [e].
Proof.
  intros OK D HE. rewrite (decomposes_det U c _ _ D (decompose_ok U c)) in HE.
  pose proof (stable_iff U e (decompose_closed U OK c e HE)) as H. unfold stable in H. pose proof (decompose_ok U e) as Q. rewrite H in Q. exact Q.
Qed.
Print Assumptions C68_full.

(** U+1E69 (s with dot below and dot above), the same with the dots in the other order, a
    Hangul syllable and a ligature. *)
Example C68_case : ucd_ok ucd15 /\
  normalize_utf8 ucd15 [0x73; 0x307; 0x323; 0x1E69; 0xD4DB; 0xFB01]
  = [0x73; 0x323; 0x307; 0x73; 0x323; 0x307; 0x1111; 0x1171; 0x11B6; 0x66; 0x69] /\
  exchange ucd15 [0x73; 0x307; 0x323] [0x73; 0x323; 0x307].
Proof.
  split; [exact ucd15_ok|]. split; [vm_compute; reflexivity|].
  apply (exchange_at ucd15 [0x73] 0x307 0x323 []); vm_compute; reflexivity.
Qed.
