(** The output of the [Debug] builders can be read back in one way only. *)
From Verif Require Import Base Str FmtDebug Generate39 GenSpec39 GenProofs39.

(** ** Well-formed trees: names are identifiers, written pieces are identifiers or numbers or
    quoted strings *)
Definition ident_char (c : N) : Prop :=
  (48 <= c <= 57) \/ (65 <= c <= 90) \/ (97 <= c <= 122) \/ c = 95.
Definition ident (s : str) : Prop := s <> [] /\ Forall ident_char s.
Definition atom (s : str) : Prop := ident s \/ (exists w, str_literal s w) /\ ~ In 10 s.
Inductive wf : dbg -> Prop :=
| wf_raw s : atom s -> wf (DRaw s)
| wf_tuple n l : ident n -> l <> [] -> Forall wf l -> wf (DTuple n l)
| wf_struct n l : ident n -> l <> [] -> Forall (fun p => ident (fst p)) l -> Forall (fun p => wf (snd p)) l ->
    wf (DStruct n l)
| wf_list l : Forall wf l -> wf (DList l).

Section Induct.
  Context (P : dbg -> Prop)
    (H1 : forall s, P (DRaw s))
    (H2 : forall n l, Forall P l -> P (DTuple n l))
    (H3 : forall n l, Forall (fun p => P (snd p)) l -> P (DStruct n l))
    (H4 : forall l, Forall P l -> P (DList l)).
  Fixpoint dbg_ind2 (d : dbg) : P d :=
    match d with
    | DRaw s => H1 s
    | DTuple n l => H2 n l ((fix go l : Forall P l := match l with [] => Forall_nil _ | d :: l' => Forall_cons _ (dbg_ind2 d) (go l') end) l)
    | DStruct n l => H3 n l ((fix go l : Forall (fun p => P (snd p)) l :=
        match l with [] => Forall_nil _ | d :: l' => Forall_cons _ (dbg_ind2 (snd d)) (go l') end) l)
    | DList l => H4 l ((fix go l : Forall P l := match l with [] => Forall_nil _ | d :: l' => Forall_cons _ (dbg_ind2 d) (go l') end) l)
    end.
End Induct.

(** ** A common form of both outputs: items joined by [sep], the last one followed by [fin] *)
Record style : Type := { sep : str; fin : str; sopen : str; sclose : str }.
Definition flat : style := {| sep := lit ", "; fin := []; sopen := lit " { "; sclose := lit " }" |}.
Definition dense : style := {| sep := lit ","; fin := lit ","; sopen := lit " {"; sclose := lit "}" |}.
Fixpoint show (y : style) (d : dbg) : str :=
  match d with
  | DRaw s => s
  | DTuple n l => n ++ lit "(" ++ join (sep y) (map (show y) l) ++ fin y ++ lit ")"
  | DStruct n l => n ++ sopen y ++ join (sep y) (map (fun p => fst p ++ lit ": " ++ show y (snd p)) l) ++ fin y ++ sclose y
  | DList [] => lit "[]"
  | DList l => lit "[" ++ join (sep y) (map (show y) l) ++ fin y ++ lit "]"
  end.

(** What can follow a value *)
Definition follow (r : str) : Prop :=
  match r with
  | [] => True
  | c :: r' => c = 44 \/ c = 41 \/ c = 93 \/ (c = 32 /\ exists r'', r' = 125 :: r'')
  end.
Definition starts (s : str) : Prop :=
  match s with [] => False | c :: _ => ident_char c \/ c = 34 \/ c = 91 end.

Lemma ident_cut a b r s : Forall ident_char a -> Forall ident_char b ->
  a ++ r = b ++ s ->
  match r with [] => True | c :: _ => ~ ident_char c end ->
  match s with [] => True | c :: _ => ~ ident_char c end -> a = b /\ r = s.
Proof.
  intros A. revert b. induction A as [|c a Hc A IH]; intros b B E R S0.
  - destruct b as [|d b]; [auto|]. cbn in E. subst r. inversion B; subst. contradiction.
  - destruct b as [|d b].
    + cbn in E. subst s. contradiction.
    + cbn in E. injection E as -> E. inversion B; subst. destruct (IH b) as [-> ->]; auto.
Qed.
Lemma not_ident c : c = 44 \/ c = 41 \/ c = 93 \/ c = 32 \/ c = 40 \/ c = 58 -> ~ ident_char c.
Proof. unfold ident_char. lia. Qed.
Lemma follow_not_ident r : follow r -> match r with [] => True | c :: _ => ~ ident_char c end.
Proof. destruct r as [|c r]; [auto|]. cbn. intros H. apply not_ident. intuition. Qed.

Lemma show_starts y d : wf d -> starts (show y d).
Proof.
  assert (I : forall n r, ident n -> starts (n ++ r)).
  { intros [|c n] r [H F]; [congruence|]. inversion F; subst. left. assumption. }
  destruct 1 as [s [A|[(w & A) _]]|n l A _ _|n l A _ _ _|l A]; cbn [show].
  - rewrite <- (app_nil_r s). apply I, A.
  - destruct A as [b v _]. right. left. reflexivity.
  - apply I, A.
  - apply I, A.
  - destruct l; right; right; reflexivity.
Qed.

(** ** Unique reading of a list of items *)
Section Items.
  Context {X : Type} (f : X -> str) (sp tl : str).
  Definition readable (x : X) (Q : X -> Prop) : Prop :=
    forall y r s, Q y -> follow r -> follow s -> f x ++ r = f y ++ s -> x = y /\ r = s.
  Lemma items_unique (Q : X -> Prop) :
    (forall r, follow (sp ++ r)) -> (forall r, follow (tl ++ r)) ->
    (forall x r s, Q x -> sp ++ f x ++ r <> tl ++ s) ->
    forall l, Forall (fun x => readable x Q) l -> Forall Q l -> l <> [] ->
    forall l' r s, Forall Q l' -> l' <> [] ->
      join sp (map f l) ++ tl ++ r = join sp (map f l') ++ tl ++ s -> l = l' /\ r = s.
  Proof.
    intros F1 F2 D. induction l as [|x l IH]; intros R Ql Hl l' r s Q' Hl' E; [congruence|].
    destruct l' as [|y l']; [congruence|]. inversion R as [|? ? Rx Rl]; subst. inversion Q' as [|? ? Qy Ql']; subst.
    inversion Ql as [|? ? Qx Qll]; subst.
    destruct l as [|x2 l]; destruct l' as [|y2 l']; cbn [map join] in E; rewrite <- ?app_assoc in E.
    - destruct (Rx y _ _ Qy (F2 r) (F2 s) E) as [-> E']. apply app_inv_head in E'. auto.
    - apply Rx in E; [|assumption|apply F2|apply F1]. destruct E as [_ E]. exfalso.
      inversion Ql' as [|? ? Qy2 _]; subst.
      destruct l'; cbn [map join] in E; rewrite <- ?app_assoc in E; symmetry in E; revert E; apply D; assumption.
    - apply Rx in E; [|assumption|apply F1|apply F2]. destruct E as [_ E]. exfalso.
      inversion Qll as [|? ? Qx2 _]; subst.
      destruct l; cbn [map join] in E; rewrite <- ?app_assoc in E; revert E; apply D; assumption.
    - apply Rx in E; [|assumption|apply F1|apply F1]. destruct E as [-> E]. apply app_inv_head in E.
      assert (E1 : x2 :: l = y2 :: l' /\ r = s) by (apply (IH Rl Qll); [discriminate|assumption|discriminate|exact E]).
      destruct E1 as [E1 ->]. rewrite E1. auto.
  Qed.
End Items.

Definition good (y : style) : Prop := y = flat \/ y = dense.

Lemma style_follow y : good y -> (forall r, follow (sep y ++ r)) /\
  (forall c r, c = 41 \/ c = 93 -> follow ((fin y ++ [c]) ++ r)) /\ (forall r, follow ((fin y ++ sclose y) ++ r)).
Proof.
  intros [-> | ->]; (split; [|split]); intros; cbn; auto.
  - tauto.
  - right. right. right. split; [reflexivity|]. eexists. reflexivity.
Qed.
Lemma style_split y x r s : good y -> starts x ->
  (forall c, c = 41 \/ c = 93 -> sep y ++ x ++ r <> (fin y ++ [c]) ++ s) /\
  sep y ++ x ++ r <> (fin y ++ sclose y) ++ s.
Proof.
  intros G Sx. destruct x as [|a x]; [destruct Sx|].
  assert (B : a <> 41 /\ a <> 93 /\ a <> 125).
  { cbn in Sx. unfold ident_char in Sx. lia. }
  destruct G as [-> | ->]; (split; [intros c Hc E|intros E]); cbn in E; injection E as E; subst; try lia; try discriminate.
Qed.

Theorem show_unique y : good y -> forall d, wf d -> readable (show y) d wf.
Proof.
  intros G. pose proof (style_follow y G) as (F1 & F2 & F3).
  induction d as [s|n l IH|n l IH|l IH] using dbg_ind2; intros W e r t We Fr Ft E.
  - (* a written piece *)
    inversion W as [? A| | |]; subst. destruct We as [s' A'|n' l' A' L' W'|n' l' A' L' K' W'|l' W']; cbn [show] in E.
    + destruct A as [[_ A]|[(w & A) _]]; destruct A' as [[_ A']|[(w' & A') _]].
      * destruct (ident_cut _ _ _ _ A A' E (follow_not_ident _ Fr) (follow_not_ident _ Ft)) as [-> ->]. auto.
      * exfalso. destruct A' as [b v _]. destruct s as [|c s]; cbn in E.
        -- subst r. cbn in Fr. lia.
        -- injection E as -> _. inversion A; subst. unfold ident_char in *. lia.
      * exfalso. destruct A as [b v _]. destruct s' as [|c s']; cbn in E.
        -- subst t. cbn in Ft. lia.
        -- injection E as <- _. inversion A'; subst. unfold ident_char in *. lia.
      * destruct (str_literal_fun _ _ _ _ _ _ A A' E) as [_ ->]. apply app_inv_tail in E. subst. auto.
    + exfalso. destruct A' as [N0 A']. destruct A as [[_ A]|[(w & A) _]].
      * rewrite <- !app_assoc in E.
        destruct (ident_cut _ _ _ _ A A' E (follow_not_ident _ Fr) (not_ident 40 ltac:(tauto))) as [_ ->].
        cbn in Fr. lia.
      * destruct A as [b v _]. destruct n' as [|c n']; [congruence|]. cbn in E. injection E as <- _.
        inversion A'; subst. unfold ident_char in *. lia.
    + exfalso. destruct A' as [N0 A']. destruct A as [[_ A]|[(w & A) _]].
      * rewrite <- !app_assoc in E.
        destruct G as [-> | ->]; cbn [sopen flat dense] in E;
        (destruct (ident_cut _ _ _ _ A A' E (follow_not_ident _ Fr) (not_ident 32 ltac:(tauto))) as [_ ->];
         cbn in Fr; destruct Fr as [Fr|[Fr|[Fr|(_ & r'' & Fr)]]]; discriminate).
      * destruct A as [b v _]. destruct n' as [|c n']; [congruence|]. cbn in E. injection E as <- _.
        inversion A'; subst. unfold ident_char in *. lia.
    + exfalso. assert (HD : exists q, s ++ r = 91 :: q) by (rewrite E; destruct l'; eexists; reflexivity).
      clear E. destruct HD as (q & E). destruct A as [[N0 A]|[(w & A) _]].
      * destruct s as [|c s]; [congruence|]. cbn in E. injection E as -> _. inversion A; subst. unfold ident_char in *. lia.
      * destruct A as [b v _]. discriminate E.
  - (* a tuple *)
    inversion W as [|? ? A L W1| |]; subst. destruct A as [N0 A]. cbn [show] in E. rewrite <- !app_assoc in E.
    destruct We as [s' A'|n' l' [N' A'] L' W'|n' l' [N' A'] L' K' W'|l' W']; cbn [show] in E; rewrite <- ?app_assoc in E.
    + exfalso. destruct A' as [[_ A']|[(w & A') _]].
      * destruct (ident_cut _ _ _ _ A A' E (not_ident 40 ltac:(tauto)) (follow_not_ident _ Ft)) as [_ <-].
        cbn in Ft. lia.
      * destruct A' as [b v _]. destruct n as [|c n]; [congruence|]. cbn in E. injection E as -> _.
        inversion A; subst. unfold ident_char in *. lia.
    + destruct (ident_cut _ _ _ _ A A' E (not_ident 40 ltac:(tauto)) (not_ident 40 ltac:(tauto))) as [-> E1].
      apply app_inv_head in E1.
      assert (R : Forall (fun d => readable (show y) d wf) l).
      { clear -IH W1. rewrite Forall_forall in *. intros d I. apply IH; auto. }
      assert (U : l = l' /\ r = t).
      { apply (items_unique (show y) (sep y) (fin y ++ lit ")") wf F1 (fun r => F2 41 r (or_introl eq_refl)));
          try assumption.
        - intros x u v Wx. apply (style_split y _ u v G (show_starts y x Wx)). auto.
        - rewrite <- !app_assoc. exact E1. }
      destruct U as [-> ->]. auto.
    + exfalso. destruct (ident_cut _ _ _ _ A A' E (not_ident 40 ltac:(tauto))) as [_ E1].
      * destruct G as [-> | ->]; apply (not_ident 32); tauto.
      * destruct G as [-> | ->]; discriminate E1.
    + exfalso. destruct n as [|c n]; [congruence|]. inversion A; subst.
      destruct l'; cbn in E; injection E as -> _; unfold ident_char in *; lia.
  - (* a struct *)
    inversion W as [| |? ? A L K W1|]; subst. destruct A as [N0 A]. cbn [show] in E. rewrite <- !app_assoc in E.
    assert (NO : forall q, match sopen y ++ q with [] => True | c :: _ => ~ ident_char c end).
    { intros q. destruct G as [-> | ->]; apply (not_ident 32); tauto. }
    destruct We as [s' A'|n' l' [N' A'] L' W'|n' l' [N' A'] L' K' W'|l' W']; cbn [show] in E; rewrite <- ?app_assoc in E.
    + exfalso. destruct A' as [[_ A']|[(w & A') _]].
      * destruct (ident_cut _ _ _ _ A A' E (NO _) (follow_not_ident _ Ft)) as [_ <-].
        destruct G as [-> | ->]; cbn in Ft; destruct Ft as [Ft|[Ft|[Ft|(_ & r'' & Ft)]]]; discriminate.
      * destruct A' as [b v _]. destruct n as [|c n]; [congruence|]. cbn in E. injection E as -> _.
        inversion A; subst. unfold ident_char in *. lia.
    + exfalso. destruct (ident_cut _ _ _ _ A A' E (NO _) (not_ident 40 ltac:(tauto))) as [_ E1].
      destruct G as [-> | ->]; discriminate E1.
    + destruct (ident_cut _ _ _ _ A A' E (NO _) (NO _)) as [-> E1].
      apply app_inv_head in E1.
      set (g := fun p : str * dbg => fst p ++ lit ": " ++ show y (snd p)) in *.
      assert (R : Forall (fun p => readable g p (fun p => ident (fst p) /\ wf (snd p))) l).
      { clear -IH W1 K. rewrite Forall_forall in *. intros [k d] I [k' d'] u v [Ik' Wd'] Fu Fv E.
        unfold g in E. cbn [fst snd] in *. rewrite <- !app_assoc in E.
        destruct (K _ I) as [_ Kc]. destruct Ik' as [_ Kc']. cbn [fst] in Kc.
        destruct (ident_cut _ _ _ _ Kc Kc' E (not_ident 58 ltac:(tauto)) (not_ident 58 ltac:(tauto))) as [-> E1].
        apply app_inv_head in E1. destruct (IH _ I (W1 _ I) d' u v Wd' Fu Fv E1) as [Ed ->].
        cbn in Ed. subst. auto. }
      assert (Q : forall l, Forall (fun p : str * dbg => ident (fst p)) l -> Forall (fun p => wf (snd p)) l ->
                  Forall (fun p => ident (fst p) /\ wf (snd p)) l).
      { clear. intros l A B. rewrite Forall_forall in *. auto. }
      assert (U : l = l' /\ r = t).
      { apply (items_unique g (sep y) (fin y ++ sclose y) (fun p => ident (fst p) /\ wf (snd p)) F1 F3); try assumption.
        - intros [k d] u v [[Ik Kc] Wx]. unfold g. cbn [fst snd] in *.
          apply (style_split y _ u v G). destruct k as [|c k]; [congruence|]. inversion Kc; subst. left. assumption.
        - apply Q; assumption.
        - apply Q; assumption.
        - rewrite <- !app_assoc. exact E1. }
      destruct U as [-> ->]. auto.
    + exfalso. destruct n as [|c n]; [congruence|]. inversion A; subst.
      destruct l'; cbn in E; injection E as -> _; unfold ident_char in *; lia.
  - (* a list *)
    inversion W as [| | |? W1]; subst.
    assert (HD : exists q, show y (DList l) ++ r = 91 :: q) by (destruct l; eexists; reflexivity).
    assert (NI : forall n q, ident n -> show y (DList l) ++ r <> n ++ q).
    { intros n q [N0 A] C. destruct HD as (q' & HD). rewrite HD in C. destruct n as [|c n]; [congruence|].
      cbn in C. injection C as <- _. inversion A; subst. unfold ident_char in *. lia. }
    destruct We as [s' A'|n' l' A' L' W'|n' l' A' L' K' W'|l' W'].
    + exfalso. destruct A' as [A'|[(w & A') _]]; [elim (NI _ t A'); exact E|].
      destruct A' as [b v _]. destruct HD as (q & HD). rewrite HD in E. discriminate E.
    + exfalso. cbn [show] in E. rewrite <- !app_assoc in E. apply NI in E; assumption.
    + exfalso. cbn [show] in E. rewrite <- !app_assoc in E. apply NI in E; assumption.
    + destruct l as [|d l]; destruct l' as [|d' l'].
      * cbn [show] in E. apply app_inv_head in E. auto.
      * exfalso. inversion W'; subst. pose proof (show_starts y d' ltac:(assumption)) as S1.
        assert (HJ : exists q, join (sep y) (map (show y) (d' :: l')) ++ fin y ++ lit "]" ++ t = show y d' ++ q).
        { destruct l'; cbn [map join]; rewrite <- ?app_assoc; eexists; reflexivity. }
        destruct HJ as (q & HJ). cbn [show] in E. rewrite <- !app_assoc in E. rewrite HJ in E.
        destruct (show y d') as [|c u]; [destruct S1|]. cbn in E. injection E as <- _.
        cbn in S1. unfold ident_char in S1. lia.
      * exfalso. inversion W1; subst. pose proof (show_starts y d ltac:(assumption)) as S1.
        assert (HJ : exists q, join (sep y) (map (show y) (d :: l)) ++ fin y ++ lit "]" ++ r = show y d ++ q).
        { destruct l; cbn [map join]; rewrite <- ?app_assoc; eexists; reflexivity. }
        destruct HJ as (q & HJ). cbn [show] in E. rewrite <- !app_assoc in E. rewrite HJ in E.
        destruct (show y d) as [|c u]; [destruct S1|]. cbn in E. injection E as -> _.
        cbn in S1. unfold ident_char in S1. lia.
      * cbn [show] in E. rewrite <- !app_assoc in E. apply app_inv_head in E.
        assert (R : Forall (fun d => readable (show y) d wf) (d :: l)).
        { clear -IH W1. rewrite Forall_forall in *. intros x I. apply IH; auto. }
        assert (U : d :: l = d' :: l' /\ r = t).
        { apply (items_unique (show y) (sep y) (fin y ++ lit "]") wf F1 (fun r => F2 93 r (or_intror eq_refl)));
            try assumption; try discriminate.
          - intros x u v Wx. apply (style_split y _ u v G (show_starts y x Wx)). auto.
          - rewrite <- !app_assoc. exact E. }
        destruct U as [U ->]. rewrite U. auto.
Qed.

(** ** The plain output is [show flat] *)
Lemma debug_plain d : wf d -> debug false d = show flat d.
Proof.
  induction d as [s|n l IH|n l IH|l IH] using dbg_ind2; intros W; cbn [debug show].
  - reflexivity.
  - inversion W as [|? ? _ L W1| |]; subst. f_equal.
    assert (G : forall l, Forall (fun d => wf d -> debug false d = show flat d) l -> Forall wf l -> 
      (fix loop (first : bool) (l : list dbg) : str :=
         match l with
         | [] => if first then [] else lit ")"
         | f :: l' => ((if first then lit "(" else lit ", ") ++ debug false f) ++ loop false l'
         end) false l = match l with [] => [] | _ => lit ", " ++ join (lit ", ") (map (show flat) l) end ++ lit ")").
    { clear. intros l. induction l as [|d l IH]; intros F W; [reflexivity|].
      inversion F as [|? ? F1 F2]; subst. inversion W as [|? ? W1 W2]; subst.
      rewrite (IH F2 W2), F1 by assumption. destruct l; cbn [map join]; rewrite <- ?app_assoc; reflexivity. }
    destruct l as [|d l]; [congruence|]. inversion IH as [|? ? I1 I2]; subst. inversion W1 as [|? ? V1 V2]; subst.
    rewrite (G l I2 V2), (I1 V1). destruct l; cbn [map join sep fin flat]; rewrite <- ?app_assoc; reflexivity.
  - inversion W as [| |? ? _ L _ W1|]; subst. f_equal.
    assert (G : forall l, Forall (fun p : str * dbg => wf (snd p) -> debug false (snd p) = show flat (snd p)) l ->
      Forall (fun p => wf (snd p)) l -> 
      (fix loop (first : bool) (l : list (str * dbg)) : str :=
         match l with
         | [] => if first then [] else lit " }"
         | (k, f) :: l' => ((if first then lit " { " else lit ", ") ++ k ++ lit ": " ++ debug false f) ++ loop false l'
         end) false l = match l with [] => [] | _ => lit ", " ++ join (lit ", ") (map (fun p => fst p ++ lit ": " ++ show flat (snd p)) l) end ++ lit " }").
    { clear. intros l. induction l as [|[k d] l IH]; intros F W; [reflexivity|].
      inversion F as [|? ? F1 F2]; subst. inversion W as [|? ? W1 W2]; subst.
      rewrite (IH F2 W2). cbn [snd] in F1. rewrite F1 by assumption.
      destruct l; cbn [map join fst snd]; rewrite <- ?app_assoc; reflexivity. }
    destruct l as [|[k d] l]; [congruence|]. inversion IH as [|? ? I1 I2]; subst. inversion W1 as [|? ? V1 V2]; subst.
    rewrite (G l I2 V2). cbn [snd] in I1. rewrite (I1 V1).
    destruct l; cbn [map join sep fin flat fst snd sopen sclose]; rewrite <- ?app_assoc; reflexivity.
  - inversion W as [| | |? W1]; subst.
    assert (G : forall l, Forall (fun d => wf d -> debug false d = show flat d) l -> Forall wf l -> 
      (fix loop (first : bool) (l : list dbg) : str :=
         match l with
         | [] => lit "]"
         | f :: l' => ((if first then [] else lit ", ") ++ debug false f) ++ loop false l'
         end) false l = match l with [] => [] | _ => lit ", " ++ join (lit ", ") (map (show flat) l) end ++ lit "]").
    { clear. intros l. induction l as [|d l IH]; intros F W; [reflexivity|].
      inversion F as [|? ? F1 F2]; subst. inversion W as [|? ? W1 W2]; subst.
      rewrite (IH F2 W2), F1 by assumption. destruct l; cbn [map join]; rewrite <- ?app_assoc; reflexivity. }
    destruct l as [|d l]; [reflexivity|]. inversion IH as [|? ? I1 I2]; subst. inversion W1 as [|? ? V1 V2]; subst.
    rewrite (G l I2 V2), (I1 V1). destruct l; cbn [map join sep fin flat]; rewrite <- ?app_assoc; reflexivity.
Qed.

(** ** The indented output is [show dense] with line breaks and indentation put in *)
Fixpoint strip (nl : bool) (s : str) : str :=
  match s with
  | [] => []
  | c :: r => if c =? 10 then strip true r
              else if nl && (c =? 32) then strip true r else c :: strip false r
  end.
Lemma strip_pad s : forall b b' t, (b' = true -> b = true) ->
  strip b (pad b' (s ++ [10]) ++ t) = strip b (s ++ 10 :: t).
Proof.
  induction s as [|c s IH]; intros b b' t H.
  - destruct b'; [rewrite (H eq_refl)|]; reflexivity.
  - assert (P : strip b (c :: pad (c =? 10) (s ++ [10]) ++ t) = strip b (c :: s ++ 10 :: t)).
    { cbn [strip]. destruct (c =? 10) eqn:E; [apply IH; auto|].
      destruct (b && (c =? 32)); [apply IH; auto|]. f_equal. apply IH. discriminate. }
    cbn [app pad]. destruct b'; [|exact P]. rewrite (H eq_refl) in *. cbn [app]. exact P.
Qed.
Lemma strip_clean s b t : ~ In 10 s -> (match s with c :: _ => c <> 32 | [] => b = false end) ->
  strip b (s ++ t) = s ++ strip false t.
Proof.
  intros N H. destruct s as [|c s]; [subst b; reflexivity|].
  assert (G : forall u, ~ In 10 u -> strip false (u ++ t) = u ++ strip false t).
  { induction u as [|d u IH]; intros Nu; [reflexivity|]. cbn [app strip].
    destruct (d =? 10) eqn:E; [elim Nu; left; lia|]. cbn [andb]. f_equal. apply IH. intros I. apply Nu. right. exact I. }
  cbn [app strip]. destruct (c =? 10) eqn:E; [elim N; left; lia|].
  destruct (c =? 32) eqn:E2; [lia|]. rewrite andb_false_r. f_equal. apply G. intros I. apply N. right. exact I.
Qed.
Lemma ident_clean s : ident s -> ~ In 10 s /\ match s with c :: _ => c <> 32 | [] => False end.
Proof.
  intros [H F]. split.
  - rewrite Forall_forall in F. intros I. apply F in I. unfold ident_char in I. lia.
  - destruct s as [|c s]; [congruence|]. inversion F; subst. unfold ident_char in *. lia.
Qed.
Lemma strip_ident s b t : ident s -> strip b (s ++ t) = s ++ strip false t.
Proof. intros H. destruct (ident_clean s H) as [A B]. apply strip_clean; [exact A|]. destruct s; [contradiction|exact B]. Qed.

Lemma join_flat {X : Type} (f : X -> str) (l : list X) (r : str) : l <> [] ->
  join (lit ",") (map f l) ++ lit "," ++ r = flat_map (fun x => f x ++ lit ",") l ++ r.
Proof.
  intros H. induction l as [|x l IH]; [congruence|]. destruct l as [|y l].
  - cbn [map join flat_map]. rewrite app_nil_r, <- app_assoc. reflexivity.
  - cbn [flat_map] in *. cbn [map join] in *. rewrite <- !app_assoc in *. f_equal. f_equal.
    apply IH. discriminate.
Qed.

Theorem debug_pretty d : wf d -> forall b t, strip b (debug true d ++ t) = show dense d ++ strip false t.
Proof.
  induction d as [s|n l IH|n l IH|l IH] using dbg_ind2; intros W b t; cbn [debug].
  - inversion W as [? A| | |]; subst. cbn [show]. destruct A as [A|[(w & A) N]]; [apply strip_ident; exact A|].
    apply strip_clean; [exact N|]. destruct A as [u v _]. cbn. discriminate.
  - inversion W as [|? ? A L W1| |]; subst. cbn [show].
    rewrite <- !app_assoc, (strip_ident n) by exact A. f_equal.
    assert (G : forall l t, Forall (fun d => wf d -> forall b t, strip b (debug true d ++ t) = show dense d ++ strip false t) l ->
      Forall wf l -> 
      strip true ((fix loop (first : bool) (l : list dbg) : str :=
         match l with
         | [] => if first then [] else lit ")"
         | f :: l' => ((if first then lit "(" ++ [10] else []) ++ pad true (debug true f ++ lit "," ++ [10])) ++ loop false l'
         end) false l ++ t) =
      flat_map (fun d => show dense d ++ lit ",") l ++ lit ")" ++ strip false t).
    { clear. intros l. induction l as [|d l IH]; intros t F W; [reflexivity|].
      inversion F as [|? ? F1 F2]; subst. inversion W as [|? ? W1 W2]; subst.
      cbn [flat_map]. rewrite app_nil_l, <- !app_assoc. rewrite app_assoc with (l := debug true d).
      rewrite strip_pad by auto. rewrite <- app_assoc, (F1 W1). f_equal. cbn [app strip]. cbn. f_equal.
      apply (IH t F2 W2). }
    cbn [sep fin dense]. rewrite join_flat by exact L.
    destruct l as [|d l]; [congruence|]. rewrite <- (G (d :: l) t IH W1). cbn [app strip]. cbn. reflexivity.
  - inversion W as [| |? ? A L K W1|]; subst. cbn [show].
    rewrite <- !app_assoc, (strip_ident n) by exact A. f_equal.
    assert (G : forall l t, Forall (fun p : str * dbg => wf (snd p) -> forall b t, strip b (debug true (snd p) ++ t) = show dense (snd p) ++ strip false t) l ->
      Forall (fun p => ident (fst p)) l -> Forall (fun p => wf (snd p)) l -> 
      strip true ((fix loop (first : bool) (l : list (str * dbg)) : str :=
         match l with
         | [] => if first then [] else lit "}"
         | (k, f) :: l' => ((if first then lit " {" ++ [10] else []) ++ pad true (k ++ lit ": " ++ debug true f ++ lit "," ++ [10])) ++ loop false l'
         end) false l ++ t) =
      flat_map (fun p => (fst p ++ lit ": " ++ show dense (snd p)) ++ lit ",") l ++ lit "}" ++ strip false t).
    { clear. intros l. induction l as [|[k d] l IH]; intros t F K W; [reflexivity|].
      inversion F as [|? ? F1 F2]; subst. inversion W as [|? ? W1 W2]; subst. inversion K as [|? ? K1 K2]; subst.
      cbn [flat_map fst snd] in *. rewrite app_nil_l, <- !app_assoc.
      replace (k ++ lit ": " ++ debug true d ++ lit "," ++ [10]) with ((k ++ lit ": " ++ debug true d ++ lit ",") ++ [10])
        by (rewrite <- !app_assoc; reflexivity).
      rewrite strip_pad by auto. rewrite <- !app_assoc, (strip_ident k) by exact K1. f_equal.
      change (strip false (lit ": " ++ ?x)) with (lit ": " ++ strip false x). f_equal.
      rewrite (F1 W1). f_equal. cbn [app strip]. cbn. f_equal. apply (IH t F2 K2 W2). }
    cbn [sep fin dense sopen sclose]. rewrite join_flat by exact L.
    destruct l as [|d l]; [congruence|]. rewrite <- (G (d :: l) t IH K W1). destruct d. cbn [app strip]. cbn. reflexivity.
  - inversion W as [| | |? W1]; subst.
    assert (G : forall l t, Forall (fun d => wf d -> forall b t, strip b (debug true d ++ t) = show dense d ++ strip false t) l ->
      Forall wf l -> 
      strip true ((fix loop (first : bool) (l : list dbg) : str :=
         match l with
         | [] => lit "]"
         | f :: l' => ((if first then [10] else []) ++ pad true (debug true f ++ lit "," ++ [10])) ++ loop false l'
         end) false l ++ t) =
      flat_map (fun d => show dense d ++ lit ",") l ++ lit "]" ++ strip false t).
    { clear. intros l. induction l as [|d l IH]; intros t F W; [reflexivity|].
      inversion F as [|? ? F1 F2]; subst. inversion W as [|? ? W1 W2]; subst.
      cbn [flat_map]. rewrite app_nil_l, <- !app_assoc. rewrite app_assoc with (l := debug true d).
      rewrite strip_pad by auto. rewrite <- app_assoc, (F1 W1). f_equal. cbn [app strip]. cbn. f_equal.
      apply (IH t F2 W2). }
    destruct l as [|d l].
    + cbn. rewrite andb_false_r. reflexivity.
    + cbn [show sep fin dense]. rewrite <- !app_assoc, join_flat by discriminate. rewrite <- (G (d :: l) t IH W1).
      cbn [app strip]. cbn. rewrite andb_false_r, <- ?app_assoc. reflexivity.
Qed.

(** ** Both outputs determine the tree *)
Theorem debug_inj alt d e : wf d -> wf e -> debug alt d = debug alt e -> d = e.
Proof.
  intros Wd We E. destruct alt.
  - pose proof (debug_pretty d Wd false []) as D. rewrite E, (debug_pretty e We false []) in D.
    symmetry in D. apply (show_unique dense (or_intror eq_refl) d Wd) in D; [apply D|exact We|exact I|exact I].
  - rewrite !debug_plain in E by assumption.
    assert (E' : show flat d ++ [] = show flat e ++ []) by (rewrite !app_nil_r; exact E).
    apply (show_unique flat (or_introl eq_refl) d Wd) in E'; [apply E'|exact We|exact I|exact I].
Qed.
