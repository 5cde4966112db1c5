(** Property theorems for the fuzz targets of both crates as test oracles (C105): which
    implementations of the functions they call pass on all inputs. *)
From Verif Require Import Base Str StrProofs Sha2 Stream StreamProofs Unicode UnicodeTables UnicodeProofs Language39 Mnemonic39 Spec39
  Eqb39 Words_english Builtin39 LangSpec39 LangProofs Fuzz39.
From Verif Require Import Error32 Path32 PathSpec32 PathProofs32 Version32 Meta32 Payload32 Base58 Base58Spec Base58Proofs
  PayloadSpec32 PayloadProofs32 Curve32 XKey32 Eqb32 XKeySpec32 Fuzz32 FuzzApi Props39f Props32f.
Local Open Scope N_scope.

(** ** What a run without a panic says *)
Lemma bind_ok {E A B : Type} (r : res E A) (f : A -> res E B) y :
  bind r f = Ok y <-> exists x, r = Ok x /\ f x = Ok y.
Proof.
  destruct r as [x|e|]; cbn [bind]; split.
  - intros H. exists x. auto.
  - intros (z & [= ->] & H). exact H.
  - discriminate.
  - intros (z & H & _). discriminate.
  - discriminate.
  - intros (z & H & _). discriminate.
Qed.
Lemma unwrap_ok {E E' A : Type} (r : res E A) (x : A) : @unwrap E E' A r = Ok x <-> r = Ok x.
Proof. destruct r; cbn; split; congruence. Qed.
Lemma assert_ok {E : Type} b u : @assert E b = Ok u <-> b = true.
Proof. destruct b, u; cbn; split; congruence. Qed.
Lemma unwrap_inv {E E' A : Type} (r : res E A) (x : A) : @unwrap E E' A r = Ok x -> r = Ok x.
Proof. apply unwrap_ok. Qed.
Lemma assert_inv {E : Type} b u : @assert E b = Ok u -> b = true.
Proof. apply assert_ok. Qed.
Lemma ignore_ok {E E' A : Type} (r : res E A) u : @ignore E E' A r = Ok u <-> r <> Panic.
Proof. destruct r, u; cbn; split; congruence. Qed.

(** ** Paths *)
(** The children an implementation makes of index and marker pairs, leaving out the
    pairs it refuses; the flag tells whether one of them is hardened. *)
Inductive made (new : N -> bool -> res Error N) : list (N * bool) -> list N -> bool -> Prop :=
| made_nil : made new [] [] false
| made_child i h l c p f : new i h = Ok c -> made new l p f -> made new ((i, h) :: l) (c :: p) (h || f)
| made_refused i h l e p f : new i h = Err e -> made new l p f -> made new ((i, h) :: l) p f.
(** The paths the targets try, and when making one cannot panic. *)
Definition path_input (A : Api32) (p : list N) (f : bool) : Prop :=
  exists l, (length l <= 32)%nat /\ Forall (fun ih => fst ih < 2 ^ 31) l /\ made (a_child_new A) l p f.
Definition makes_children (A : Api32) : Prop := forall i h, i < 2 ^ 31 -> a_child_new A i h <> Panic.

Fixpoint pairs_of (cs : list (list byte)) : list (N * bool) :=
  match cs with
  | [] => []
  | c :: cs =>
      if (length c <? 5)%nat then []
      else (N.land (u32_from_le (slice 0 4 c)) 0x7FFFFFFF, N.land (b2n (nth 4 c x00)) 1 =? 1) :: pairs_of cs
  end.
Lemma pairs_length cs : (length (pairs_of cs) <= length cs)%nat.
Proof.
  induction cs as [|c cs IH]; cbn [pairs_of length]; [lia|]. destruct (length c <? 5)%nat; cbn [length]; lia.
Qed.
Lemma pairs_bound cs : Forall (fun ih => fst ih < 2 ^ 31) (pairs_of cs).
Proof.
  induction cs as [|c cs IH]; cbn [pairs_of]; [constructor|]. destruct (length c <? 5)%nat; constructor; [|exact IH].
  cbn [fst]. change 0x7FFFFFFF with (N.ones 31). rewrite N.land_ones. apply N.mod_lt. discriminate.
Qed.
Lemma index_nth {E : Type} (c : list byte) : (length c <? 5)%nat = false -> @index E byte c 4 = Ok (nth 4 c x00).
Proof.
  intros H. apply Nat.ltb_ge in H. unfold index. rewrite (nth_error_nth' c x00); [reflexivity|lia].
Qed.
Lemma build_loop_made A cs : forall ch h r g,
  build_loop_a A cs ch h = Ok (r, g) <->
  exists p f, made (a_child_new A) (pairs_of cs) p f /\ r = ch ++ p /\ g = (h || f)%bool.
Proof.
  induction cs as [|c cs IH]; intros ch h r g; cbn [build_loop_a pairs_of].
  - split.
    + intros [= <- <-]. exists [], false. rewrite app_nil_r, orb_false_r. split; [constructor|auto].
    + intros (p & f & M & -> & ->). inversion M. rewrite app_nil_r, orb_false_r. reflexivity.
  - destruct (length c <? 5)%nat eqn:E.
    + split.
      * intros [= <- <-]. exists [], false. rewrite app_nil_r, orb_false_r. split; [constructor|auto].
      * intros (p & f & M & -> & ->). inversion M. rewrite app_nil_r, orb_false_r. reflexivity.
    + rewrite (index_nth c E). cbn [bind]. set (i := N.land _ _). set (hd := _ =? 1).
      destruct (a_child_new A i hd) as [k|e|] eqn:K.
      * rewrite IH. split.
        -- intros (p & f & M & -> & ->). exists (k :: p), (hd || f). split; [constructor; assumption|].
           rewrite <- app_assoc, orb_assoc. auto.
        -- intros (p & f & M & -> & ->). inversion M; subst; [|congruence].
           match goal with H : a_child_new A i hd = Ok ?c0, M' : made _ _ ?p0 ?f0 |- _ =>
             assert (c0 = k) as -> by congruence; exists p0, f0 end.
           split; [assumption|]. rewrite <- app_assoc, orb_assoc. auto.
      * rewrite IH. split.
        -- intros (p & f & M & -> & ->). exists p, f. split; [econstructor; eassumption|auto].
        -- intros (p & f & M & -> & ->). inversion M; subst; [congruence|]. exists p, f. auto.
      * split; [discriminate|]. intros (p & f & M & _). inversion M; congruence.
Qed.

(** Bytes that spell given pairs. *)
Definition spell (ih : N * bool) : list byte :=
  rev (be_bytes 4 (fst ih)) ++ [if snd ih then x01 else x00].
Lemma spell_length ih : length (spell ih) = 5%nat.
Proof. reflexivity. Qed.
Lemma chunks_spell l : chunks 5 (flat_map spell l) = map spell l.
Proof.
  induction l as [|ih l IH]; [reflexivity|]. cbn [flat_map map].
  rewrite chunks_app by (reflexivity || lia). rewrite IH. reflexivity.
Qed.
Lemma pairs_spell l : Forall (fun ih => fst ih < 2 ^ 31) l -> pairs_of (map spell l) = l.
Proof.
  induction 1 as [|[i h] l Hi F IH]; [reflexivity|]. cbn [map pairs_of]. rewrite spell_length.
  change (5 <? 5)%nat with false. cbn match. cbn [fst] in Hi. f_equal; [f_equal|exact IH].
  - replace (slice 0 4 (spell (i, h))) with (rev (be_bytes 4 i)) by (unfold spell; destruct h; reflexivity).
    unfold u32_from_le. rewrite rev_involutive, be_val_be_bytes.
    change (256 ^ N.of_nat 4) with (2 ^ 32). rewrite (N.mod_small i) by lia.
    change 0x7FFFFFFF with (N.ones 31). rewrite N.land_ones. apply N.mod_small. exact Hi.
  - destruct h; reflexivity.
Qed.

Lemma build_path_made A bytes n r :
  build_path_a A bytes n = Ok r <-> made (a_child_new A) (pairs_of (firstn n (chunks 5 bytes))) (fst r) (snd r).
Proof.
  destruct r as [p f]. unfold build_path_a. rewrite build_loop_made. cbn [app orb fst snd]. split.
  - intros (p0 & f0 & M & -> & ->). exact M.
  - intros M. exists p, f. auto.
Qed.
(** A target that ends without panicking gives its paths, and every path is given by
    some bytes. *)
Lemma build_path_input A bytes n r : (n <= 32)%nat -> build_path_a A bytes n = Ok r -> path_input A (fst r) (snd r).
Proof.
  intros Hn H. apply build_path_made in H. eexists. split; [|split; [apply pairs_bound|exact H]].
  eapply Nat.le_trans; [apply pairs_length|]. rewrite firstn_length. lia.
Qed.
Lemma input_build_path A p f : path_input A p f ->
  exists bytes, build_path_a A bytes 32 = Ok (p, f).
Proof.
  intros (l & Hl & F & M). exists (flat_map spell l). apply build_path_made. cbn [fst snd].
  rewrite chunks_spell, firstn_all2, pairs_spell by (assumption || (rewrite map_length; exact Hl)). exact M.
Qed.
Lemma build_path_total A : makes_children A -> forall bytes n, exists r, build_path_a A bytes n = Ok r.
Proof.
  intros H bytes n. enough (exists p f, made (a_child_new A) (pairs_of (firstn n (chunks 5 bytes))) p f) as (p & f & M).
  { exists (p, f). apply build_path_made. exact M. }
  generalize (pairs_bound (firstn n (chunks 5 bytes))). generalize (pairs_of (firstn n (chunks 5 bytes))).
  induction 1 as [|[i h] l Hi F (p & f & M)]; [exists [], false; constructor|].
  destruct (a_child_new A i h) as [c|e|] eqn:E.
  - exists (c :: p), (h || f)%bool. constructor; assumption.
  - exists p, f. econstructor; eassumption.
  - destruct (H i h Hi E).
Qed.
(** Conversely, if every path can be built then no child panics. *)
Lemma total_children A : (forall bytes, build_path_a A bytes 32 <> Panic) -> makes_children A.
Proof.
  intros H i h Hi E. apply (H (spell (i, h))). unfold build_path_a.
  rewrite <- (app_nil_r (spell (i, h))), chunks_app by (reflexivity || lia).
  change (chunks 5 (@nil byte)) with (@nil (list byte)). cbn [firstn build_loop_a]. rewrite spell_length.
  change (5 <? 5)%nat with false. cbn match. rewrite (index_nth (spell (i, h)) eq_refl). cbn [bind].
  pose proof (pairs_spell [(i, h)] ltac:(repeat constructor; exact Hi)) as P. cbn [map pairs_of] in P.
  rewrite spell_length in P. change (5 <? 5)%nat with false in P. cbn match in P.
  apply (f_equal (hd (0, false))) in P. cbn [hd] in P.
  pose proof (f_equal fst P) as P1. pose proof (f_equal snd P) as P2. cbn [fst snd] in P1, P2.
  rewrite P1, P2, E. reflexivity.
Qed.

(** ** Edits *)
(** One edit, chosen by three bytes: insert a letter of the alphabet before a position,
    put one in its place, or delete the position.  An empty text only takes an insertion. *)
Inductive edit (alphabet : list byte) (a p c : byte) : list byte -> list byte -> Prop :=
| edit_insert_empty x :
    b2n a mod 3 = 0 -> nth_error alphabet (N.to_nat (b2n c) mod length alphabet) = Some x ->
    edit alphabet a p c [] [x]
| edit_insert u y v x :
    b2n a mod 3 = 0 -> nth_error alphabet (N.to_nat (b2n c) mod length alphabet) = Some x ->
    length u = (N.to_nat (b2n p) mod length (u ++ y :: v))%nat ->
    edit alphabet a p c (u ++ y :: v) (u ++ x :: y :: v)
| edit_replace u y v x :
    b2n a mod 3 = 1 -> nth_error alphabet (N.to_nat (b2n c) mod length alphabet) = Some x ->
    length u = (N.to_nat (b2n p) mod length (u ++ y :: v))%nat ->
    edit alphabet a p c (u ++ y :: v) (u ++ x :: v)
| edit_delete u y v :
    b2n a mod 3 = 2 -> length u = (N.to_nat (b2n p) mod length (u ++ y :: v))%nat ->
    edit alphabet a p c (u ++ y :: v) (u ++ v)
| edit_none : b2n a mod 3 <> 0 -> edit alphabet a p c [] [].
(** [k] edits driven by [k + 2] bytes, each edit reading three and moving on by one. *)
Inductive edits (alphabet : list byte) : list byte -> list byte -> list byte -> Prop :=
| edits_done p c t : edits alphabet [p; c] t t
| edits_step a p c w t t' t'' :
    edit alphabet a p c t t' -> edits alphabet (p :: c :: w) t' t'' -> edits alphabet (a :: p :: c :: w) t t''.

Definition byte_at (bytes : list byte) (i : nat) : byte := nth (i mod length bytes) bytes x00.
Lemma index_at {E : Type} bytes i : bytes <> [] ->
  @index E byte bytes (i mod length bytes) = Ok (byte_at bytes i).
Proof.
  intros H. unfold index, byte_at. rewrite (nth_error_nth' bytes x00); [reflexivity|].
  apply Nat.mod_upper_bound. destruct bytes; [congruence|discriminate].
Qed.
Lemma split_nth {T : Type} (l : list T) n : (n < length l)%nat ->
  exists y, l = firstn n l ++ y :: skipn (S n) l /\ skipn n l = y :: skipn (S n) l /\ length (firstn n l) = n.
Proof.
  intros H. destruct (skipn n l) as [|y t] eqn:K.
  - apply (f_equal (@length T)) in K. rewrite skipn_length in K. cbn in K. lia.
  - assert (t = skipn (S n) l) as ->.
    { change (S n) with (1 + n)%nat. clear H. revert l K. induction n as [|n IH]; intros l K.
      - cbn in K. subst. reflexivity.
      - destruct l as [|z l]; [discriminate|]. apply (IH l K). }
    exists y. rewrite <- K at 1. rewrite firstn_skipn. split; [reflexivity|]. split; [reflexivity|].
    rewrite firstn_length. lia.
Qed.
Lemma split_at {T : Type} (u : list T) y v n : length u = n ->
  firstn n (u ++ y :: v) = u /\ skipn n (u ++ y :: v) = y :: v /\ skipn (S n) (u ++ y :: v) = v.
Proof.
  intros <-. split; [|split].
  - rewrite firstn_app, Nat.sub_diag, firstn_O, app_nil_r. apply firstn_all.
  - rewrite skipn_app, Nat.sub_diag, skipn_all. reflexivity.
  - replace (S (length u)) with (length (u ++ [y])) by (rewrite app_length; cbn; lia).
    change (y :: v) with ([y] ++ v). rewrite app_assoc, skipn_app, Nat.sub_diag, skipn_all. reflexivity.
Qed.
Lemma upd_split {T : Type} n (x : T) l : (n < length l)%nat -> upd n x l = firstn n l ++ x :: skipn (S n) l.
Proof.
  revert l. induction n as [|n IH]; intros [|a l] H; cbn [length] in H; try lia; [reflexivity|].
  cbn [upd firstn app]. rewrite IH by lia. reflexivity.
Qed.
Lemma step_edit alphabet bytes buf i r : alphabet <> [] -> bytes <> [] ->
  mutate_step alphabet bytes buf i = Ok r <->
  edit alphabet (byte_at bytes i) (byte_at bytes (i + 1)) (byte_at bytes (i + 2)) buf r.
Proof.
  intros Ha Hb. unfold mutate_step. rewrite !index_at by exact Hb. cbn [bind].
  set (a := byte_at bytes i). set (p := byte_at bytes (i + 1)). set (c := byte_at bytes (i + 2)).
  destruct (nth_error alphabet (N.to_nat (b2n c) mod length alphabet)) as [x|] eqn:X.
  2:{ exfalso. apply nth_error_None in X. assert (length alphabet <> 0%nat) by (destruct alphabet; [congruence|discriminate]).
      pose proof (Nat.mod_upper_bound (N.to_nat (b2n c)) (length alphabet)). lia. }
  unfold index. rewrite X. cbn [bind].
  assert (M3 : b2n a mod 3 < 3) by (apply N.mod_lt; discriminate).
  destruct buf as [|y0 buf].
  - cbn [is_empty negb]. split.
    + destruct (N.eqb_spec (b2n a mod 3) 0) as [Z|Z].
      * cbn. intros [= <-]. apply edit_insert_empty; assumption.
      * destruct (b2n a mod 3 =? 1); intros [= <-]; apply edit_none; exact Z.
    + intros H. inversion H; subst; try (match goal with H0 : _ = [] |- _ => destruct u; discriminate H0 end);
        try (match goal with H0 : [] = _ |- _ => destruct u; discriminate H0 end).
      * rewrite H0, N.eqb_refl. cbn. congruence.
      * apply N.eqb_neq in H0. rewrite H0. destruct (b2n a mod 3 =? 1); reflexivity.
  - cbn [is_empty negb]. set (buf' := y0 :: buf). set (n := (N.to_nat (b2n p) mod length buf')%nat).
    assert (Hn : (n < length buf')%nat) by (apply Nat.mod_upper_bound; discriminate).
    rewrite Nat.min_l by lia. unfold vec_insert, vec_remove.
    replace (n <=? length buf')%nat with true by (symmetry; apply Nat.leb_le; lia).
    replace (n <? length buf')%nat with true by (symmetry; apply Nat.ltb_lt; lia).
    destruct (split_nth buf' n Hn) as (y & Y1 & Y2 & Y3).
    assert (SA : @set_at Error byte n x buf' = Ok (firstn n buf' ++ x :: skipn (S n) buf')).
    { unfold set_at. replace (n <? length buf')%nat with true by (symmetry; apply Nat.ltb_lt; lia).
      f_equal. apply upd_split. exact Hn. }
    split.
    + destruct (N.eqb_spec (b2n a mod 3) 0) as [Z|Z].
      * intros [= <-]. rewrite Y2.
        pose proof (edit_insert alphabet a p c (firstn n buf') y (skipn (S n) buf') x Z X) as Q.
        rewrite <- Y1 in Q. apply Q. exact Y3.
      * destruct (N.eqb_spec (b2n a mod 3) 1) as [O1|O1].
        -- rewrite SA. intros [= <-].
           pose proof (edit_replace alphabet a p c (firstn n buf') y (skipn (S n) buf') x O1 X) as Q.
           rewrite <- Y1 in Q. apply Q. exact Y3.
        -- intros [= <-].
           pose proof (edit_delete alphabet a p c (firstn n buf') y (skipn (S n) buf') ltac:(lia)) as Q.
           rewrite <- Y1 in Q. apply Q. exact Y3.
    + intros H. remember buf' as t eqn:Et in H. destruct H as [x' Z X'|u z v x' Z X' P|u z v x' Z X' P|u z v Z P|Z].
      * discriminate Et.
      * rewrite Z, N.eqb_refl. assert (Pn : length u = n) by (unfold n; rewrite <- Et; exact P).
        destruct (split_at u z v n Pn) as (F1 & F2 & F3). rewrite Et in F1, F2, F3.
        rewrite F1, F2. congruence.
      * rewrite Z. change (1 =? 0) with false. change (1 =? 1) with true. cbn match. rewrite SA. assert (Pn : length u = n) by (unfold n; rewrite <- Et; exact P).
        destruct (split_at u z v n Pn) as (F1 & F2 & F3). rewrite Et in F1, F2, F3.
        rewrite F1, F3. congruence.
      * rewrite Z. change (2 =? 0) with false. change (2 =? 1) with false. cbn match. assert (Pn : length u = n) by (unfold n; rewrite <- Et; exact P).
        destruct (split_at u z v n Pn) as (F1 & F2 & F3). rewrite Et in F1, F2, F3.
        rewrite F1, F3. congruence.
      * discriminate Et.
Qed.
Lemma loop_edits alphabet bytes : alphabet <> [] -> bytes <> [] -> forall k buf i r,
  mutate_loop alphabet bytes buf i k = Ok r <->
  edits alphabet (map (byte_at bytes) (seq i (k + 2))) buf r.
Proof.
  intros Ha Hb. induction k as [|k IH]; intros buf i r; cbn [mutate_loop].
  - cbn. split.
    + intros [= <-]. constructor.
    + intros H. inversion H. reflexivity.
  - rewrite bind_ok. replace (S k + 2)%nat with (S (S (S k))) by lia. cbn [seq map]. split.
    + intros (t & H1 & H2). apply (step_edit _ _ _ _ _ Ha Hb) in H1. apply IH in H2.
      replace (i + 1)%nat with (S i) in H1 by lia. replace (i + 2)%nat with (S (S i)) in H1 by lia.
      econstructor; [exact H1|]. replace (k + 2)%nat with (S (S k)) in H2 by lia. exact H2.
    + intros H. inversion H as [|a p c w t t' t'' E1 E2]; subst. exists t'. split.
      * apply (step_edit _ _ _ _ _ Ha Hb). replace (i + 1)%nat with (S i) by lia.
        replace (i + 2)%nat with (S (S i)) by lia. exact E1.
      * apply IH. replace (k + 2)%nat with (S (S k)) by lia. exact E2.
Qed.
Lemma edits_length alphabet w t t' : edits alphabet w t t' -> (2 <= length w)%nat.
Proof. induction 1; cbn [length] in *; lia. Qed.
Lemma own_window (w : list byte) : map (byte_at w) (seq 0 (length w)) = w.
Proof.
  apply nth_ext with (d := x00) (d' := x00); [rewrite map_length, seq_length; reflexivity|].
  intros n Hn. rewrite map_length, seq_length in Hn.
  rewrite (nth_indep _ x00 (byte_at w 0)) by (rewrite map_length, seq_length; exact Hn).
  rewrite map_nth, seq_nth by exact Hn. unfold byte_at. rewrite Nat.mod_small by (cbn; lia). reflexivity.
Qed.
(** The texts the targets make of a text: itself, or what one to eight edits leave. *)
Definition edited (lossy : list byte -> str) (alphabet : list byte) (s t : str) : Prop :=
  t = s \/ exists w b, (3 <= length w <= 10)%nat /\ edits alphabet w (utf8 s) b /\ t = lossy b.
Lemma string_edited lossy alphabet s bytes k t : alphabet <> [] -> (k <= 8)%nat ->
  mutate_string lossy alphabet s bytes k = Ok t -> edited lossy alphabet s t.
Proof.
  intros Ha Hk. unfold mutate_string. destruct bytes as [|b bytes]; [intros [= <-]; left; reflexivity|].
  cbn [is_empty orb]. destruct (Nat.eqb_spec k 0) as [->|K]; [intros [= <-]; left; reflexivity|].
  intros H. apply bind_ok in H as (r & H & [= <-]). apply loop_edits in H; [|exact Ha|discriminate].
  right. eexists _, r. split; [|split; [exact H|reflexivity]]. rewrite map_length, seq_length. lia.
Qed.
Lemma edited_string lossy alphabet s t : alphabet <> [] -> edited lossy alphabet s t ->
  exists bytes k, (k <= 8)%nat /\ mutate_string lossy alphabet s bytes k = Ok t.
Proof.
  intros Ha [->|(w & b & Hw & E & ->)]; [exists [], 0%nat; split; [lia|reflexivity]|].
  exists w, (length w - 2)%nat. split; [lia|]. unfold mutate_string.
  destruct w as [|b0 w]; [cbn in Hw; lia|]. cbn [is_empty orb].
  replace (length (b0 :: w) - 2 =? 0)%nat with false by (symmetry; apply Nat.eqb_neq; lia).
  assert (mutate_loop alphabet (b0 :: w) (utf8 s) 0 (length (b0 :: w) - 2) = Ok b) as ->; [|reflexivity].
  apply loop_edits; [exact Ha|discriminate|]. replace (length (b0 :: w) - 2 + 2)%nat with (length (b0 :: w)) by lia.
  rewrite own_window. exact E.
Qed.

(** ** C105: parse_path *)
Definition normalises (A : Api32) (t : str) : Prop :=
  a_path_parse A t <> Panic /\
  forall q, a_path_parse A t = Ok q ->
    Forall (fun c => a_index A c < 2 ^ 31) q /\
    exists r, a_path_parse A (a_path_show A q) = Ok r /\ a_path_show A r = a_path_show A q.
Definition child_reparsed (A : Api32) (c : N) : Prop :=
  a_index A c < 2 ^ 31 /\
  exists c', a_child_parse A (a_child_show A c) = Ok c' /\ a_index A c' = a_index A c /\ a_hardened A c' = a_hardened A c.
Definition path_reparsed (A : Api32) (p : list N) : Prop :=
  exists q, a_path_parse A (a_path_show A p) = Ok q /\ a_path_show A q = a_path_show A p /\
    Forall (child_reparsed A) q.

Lemma str_eqb_iff s t : str_eqb s t = true <-> s = t.
Proof. apply str_eqb_eq. Qed.
Lemma bounds_iff A q u : assert_child_bounds_a A q = Ok u <-> Forall (fun c => a_index A c < 2 ^ 31) q.
Proof.
  induction q as [|c q IH]; cbn [assert_child_bounds_a].
  - destruct u. split; [constructor|reflexivity].
  - rewrite bind_ok. split.
    + intros (x & H & K). apply assert_inv in H. apply N.ltb_lt in H. constructor; [exact H|apply IH, K].
    + intros F. inversion F as [|? ? H K]; subst. exists tt. split; [|apply IH, K].
      apply assert_ok, N.ltb_lt. exact H.
Qed.
Lemma children_iff A q u : assert_children_a A q = Ok u <->
  Forall (fun c => exists c', a_child_parse A (a_child_show A c) = Ok c' /\ a_index A c' = a_index A c /\
                              a_hardened A c' = a_hardened A c) q.
Proof.
  induction q as [|c q IH]; cbn [assert_children_a].
  - destruct u. split; [constructor|reflexivity].
  - rewrite bind_ok. split.
    + intros (c' & H & K). apply unwrap_inv in H. apply bind_ok in K as (x & K1 & K).
      apply bind_ok in K as (y & K2 & K). apply assert_inv, N.eqb_eq in K1. apply assert_inv, eqb_prop in K2.
      constructor; [exists c'; auto|apply IH, K].
    + intros F. inversion F as [|? ? (c' & H1 & H2 & H3) K]; subst. exists c'. split; [apply unwrap_ok, H1|].
      apply bind_ok. exists tt. split; [apply assert_ok, N.eqb_eq, H2|].
      apply bind_ok. exists tt. split; [apply assert_ok; rewrite H3; apply eqb_reflx|]. apply IH, K.
Qed.
Lemma reparsed_iff A p : path_reparsed A p <->
  exists q, a_path_parse A (a_path_show A p) = Ok q /\ a_path_show A q = a_path_show A p /\
    assert_child_bounds_a A q = Ok tt /\ assert_children_a A q = Ok tt.
Proof.
  split; intros (q & H1 & H2 & H3); exists q; (split; [exact H1|split; [exact H2|]]).
  - rewrite bounds_iff, children_iff. split; (eapply Forall_impl; [|exact H3]); intros c [Q1 Q2]; assumption.
  - rewrite bounds_iff, children_iff in H3. destruct H3 as [B K]. rewrite Forall_forall in *. intros c I.
    split; [apply B, I|apply K, I].
Qed.
Lemma normalises_iff A t :
  match a_path_parse A t with
  | Ok parsed_mut =>
      let? _ := assert_child_bounds_a A parsed_mut in
      let normalized := a_path_show A parsed_mut in
      let? parsed_again := unwrap (a_path_parse A normalized) in
      @assert Error (str_eqb (a_path_show A parsed_again) normalized)
  | Err _ => Ok tt
  | Panic => Panic
  end = Ok tt <-> normalises A t.
Proof.
  unfold normalises. destruct (a_path_parse A t) as [q|e|].
  - cbv zeta. rewrite bind_ok. split.
    + intros (x & H & K). apply bounds_iff in H. apply bind_ok in K as (r & K1 & K2).
      apply unwrap_inv in K1. apply assert_inv, str_eqb_iff in K2. split; [discriminate|].
      intros q' [= <-]. split; [exact H|]. exists r. auto.
    + intros (_ & H). destruct (H q eq_refl) as (B & r & R1 & R2). exists tt. split; [apply bounds_iff, B|].
      apply bind_ok. exists r. split; [apply unwrap_ok, R1|]. apply assert_ok, str_eqb_iff, R2.
  - split; [intros _; split; discriminate|reflexivity].
  - split; [discriminate|]. intros [H _]. congruence.
Qed.

Definition path_letters : list byte := bytes_of "m/0123456789'hH".
Theorem C105_parse_path (A : Api32) lossy :
  (forall path_bytes mutate_bytes max_children mutate mutate_ops,
    fuzz_parse_path_a A lossy path_bytes mutate_bytes max_children mutate mutate_ops = Ok tt) <->
  makes_children A /\
  forall p f, path_input A p f ->
    path_reparsed A p /\
    forall t, edited lossy path_letters (a_path_show A p) t -> normalises A t.
Proof.
  split.
  - intros H. split.
    { apply total_children. intros bytes P. specialize (H bytes [] x20 false x00). unfold fuzz_parse_path_a in H.
      change (Nat.min (N.to_nat (b2n x20)) 32) with 32%nat in H. cbv zeta in H. rewrite P in H. discriminate H. }
    intros p f I. destruct (input_build_path A p f I) as (bytes & Hb).
    split.
    + specialize (H bytes [] x20 false x00). unfold fuzz_parse_path_a in H.
      change (Nat.min (N.to_nat (b2n x20)) 32) with 32%nat in H. cbv zeta in H. rewrite Hb in H. cbn [bind fst] in H.
      apply bind_ok in H as (q & H1 & H). apply bind_ok in H as ([] & H2 & H). apply bind_ok in H as ([] & H3 & H).
      apply bind_ok in H as ([] & H4 & _). apply unwrap_inv in H1. apply assert_inv, str_eqb_iff in H2.
      apply reparsed_iff. exists q. auto.
    + intros t Et. apply edited_string in Et as (mb & k & Hk & Et); [|discriminate].
      specialize (H bytes mb x20 true (n2b (N.of_nat k))). unfold fuzz_parse_path_a in H.
      change (Nat.min (N.to_nat (b2n x20)) 32) with 32%nat in H. cbv zeta in H. rewrite Hb in H. cbn [bind fst] in H.
      apply bind_ok in H as (q & H1 & H). apply bind_ok in H as ([] & H2 & H). apply bind_ok in H as ([] & H3 & H).
      apply bind_ok in H as ([] & H4 & H).
      replace (Nat.min (N.to_nat (b2n (n2b (N.of_nat k)))) 8) with k in H.
      2:{ rewrite b2n_n2b, N.mod_small by lia. rewrite Nnat.Nat2N.id. lia. }
      unfold mutate_path in H. unfold path_letters in Et. rewrite Et in H. cbn [bind] in H. apply normalises_iff, H.
  - intros [Hc H] pb mb mc m mo. unfold fuzz_parse_path_a. cbv zeta.
    destruct (build_path_total A Hc pb (Nat.min (N.to_nat (b2n mc)) 32)) as (r & Hr). rewrite Hr. cbn [bind].
    destruct (H (fst r) (snd r)) as [Hp Ht]; [eapply build_path_input; [|exact Hr]; lia|].
    apply reparsed_iff in Hp as (q & Q1 & Q2 & Q3 & Q4). rewrite Q1. cbn [unwrap bind].
    apply str_eqb_iff in Q2. rewrite Q2. cbn [assert bind]. rewrite Q3. cbn [bind]. rewrite Q4. cbn [bind].
    destruct m; [|reflexivity].
    destruct (mutate_string_ok lossy path_letters (a_path_show A (fst r)) mb (Nat.min (N.to_nat (b2n mo)) 8)) as (t & Et);
      [discriminate|].
    unfold mutate_path. change (bytes_of "m/0123456789'hH") with path_letters. rewrite Et. cbn [bind].
    apply normalises_iff, Ht. eapply string_edited; [| |exact Et]; [discriminate|lia].
Qed.

(** ** C105: derive_path *)
(** A key survives being printed, parsed and printed again. *)
Definition prv_survives (A : Api32) (x : a_prv A) (t : str) : Prop :=
  exists p q y r,
    a_encode A x (into_version Xprv) = Ok p /\ a_show A p = Ok t /\ a_parse A t = Ok q /\
    a_try A q = Ok y /\ a_encode A y (into_version Xprv) = Ok r /\ a_show A r = Ok t.
Definition pub_survives (A : Api32) (x : a_pub A) (t : str) : Prop :=
  exists p q y r,
    a_encode_pub A x (into_version Xpub) = Ok p /\ a_show A p = Ok t /\ a_parse A t = Ok q /\
    a_try_pub A q = Ok y /\ a_encode_pub A y (into_version Xpub) = Ok r /\ a_show A r = Ok t.
Lemma roundtrip_xprv_iff A x t : roundtrip_xprv_a A x = Ok t <-> prv_survives A x t.
Proof.
  unfold roundtrip_xprv_a, prv_survives. split.
  - intros H. apply bind_ok in H as (p & H1 & H). apply bind_ok in H as (t' & H2 & H).
    apply bind_ok in H as (q & H3 & H). apply bind_ok in H as (y & H4 & H). apply bind_ok in H as (r & H5 & H).
    apply bind_ok in H as (t'' & H6 & H). apply bind_ok in H as (z & H7 & [= ->]).
    apply unwrap_inv in H1. apply unwrap_inv in H2. apply unwrap_inv in H3. apply unwrap_inv in H4.
    apply unwrap_inv in H5. apply unwrap_inv in H6. apply assert_inv, str_eqb_iff in H7. subst t''.
    exists p, q, y, r. auto 8.
  - intros (p & q & y & r & H1 & H2 & H3 & H4 & H5 & H6).
    rewrite H1. cbn [unwrap bind]. rewrite H2. cbn [unwrap bind]. rewrite H3. cbn [unwrap bind].
    rewrite H4. cbn [unwrap bind]. rewrite H5. cbn [unwrap bind]. rewrite H6. cbn [unwrap bind].
    rewrite str_same. reflexivity.
Qed.
Lemma roundtrip_xpub_iff A x t : roundtrip_xpub_a A x = Ok t <-> pub_survives A x t.
Proof.
  unfold roundtrip_xpub_a, pub_survives. split.
  - intros H. apply bind_ok in H as (p & H1 & H). apply bind_ok in H as (t' & H2 & H).
    apply bind_ok in H as (q & H3 & H). apply bind_ok in H as (y & H4 & H). apply bind_ok in H as (r & H5 & H).
    apply bind_ok in H as (t'' & H6 & H). apply bind_ok in H as (z & H7 & [= ->]).
    apply unwrap_inv in H1. apply unwrap_inv in H2. apply unwrap_inv in H3. apply unwrap_inv in H4.
    apply unwrap_inv in H5. apply unwrap_inv in H6. apply assert_inv, str_eqb_iff in H7. subst t''.
    exists p, q, y, r. auto 8.
  - intros (p & q & y & r & H1 & H2 & H3 & H4 & H5 & H6).
    rewrite H1. cbn [unwrap bind]. rewrite H2. cbn [unwrap bind]. rewrite H3. cbn [unwrap bind].
    rewrite H4. cbn [unwrap bind]. rewrite H5. cbn [unwrap bind]. rewrite H6. cbn [unwrap bind].
    rewrite str_same. reflexivity.
Qed.

(** What deriving one path under one seed has to satisfy. *)
Definition derived_checked (A : Api32) (m x : a_prv A) (p : list N) (f : bool) : Prop :=
  exists t u,
    prv_survives A x t /\ pub_survives A (a_public A x) u /\
    (exists q, a_path_parse A (a_path_show A p) = Ok q /\ a_path_show A q = a_path_show A p) /\
    (f = false -> exists y, a_derive_pub A (a_public A m) p = Ok y /\ pub_survives A y u) /\
    (f = true -> exists e, a_derive_pub A (a_public A m) p = Err e) /\
    (exists q, a_parse A t = Ok q /\ is_private (p_version q) = true) /\
    (exists q, a_parse A u = Ok q /\ is_public (p_version q) = true).
Definition derive_checked (A : Api32) (seed : list byte) (p : list N) (f : bool) : Prop :=
  a_new A seed <> Panic /\
  forall m, a_new A seed = Ok m ->
    a_derive A m p <> Panic /\
    (forall e, a_derive A m p = Err e -> f = false -> a_derive_pub A (a_public A m) p <> Panic) /\
    (forall x, a_derive A m p = Ok x -> derived_checked A m x p f).
Lemma derived_iff A m x p f :
  (let? xprv := roundtrip_xprv_a A x in
   let? xpub := roundtrip_xpub_a A (a_public A x) in
   let path_str := a_path_show A p in
   let? parsed_path := unwrap (a_path_parse A path_str) in
   let? _ := assert (str_eqb (a_path_show A parsed_path) path_str) in
   let? _ :=
     if negb f then
       let? derived_pub := unwrap (a_derive_pub A (a_public A m) p) in
       let? xpub_from_pub := roundtrip_xpub_a A derived_pub in
       assert (str_eqb xpub_from_pub xpub)
     else
       match a_derive_pub A (a_public A m) p with
       | Err _ => Ok tt
       | _ => Panic
       end in
   let? xprv_payload := unwrap (a_parse A xprv) in
   let? _ := assert (is_private (p_version xprv_payload)) in
   let? xpub_payload := unwrap (a_parse A xpub) in
   assert (is_public (p_version xpub_payload))) = @Ok Error unit tt <-> derived_checked A m x p f.
Proof.
  cbv zeta. unfold derived_checked. split.
  - intros H. apply bind_ok in H as (t & H1 & H). apply bind_ok in H as (u & H2 & H).
    apply bind_ok in H as (q & H3 & H). apply bind_ok in H as ([] & H4 & H). apply bind_ok in H as ([] & H5 & H).
    apply bind_ok in H as (q1 & H6 & H). apply bind_ok in H as ([] & H7 & H). apply bind_ok in H as (q2 & H8 & H).
    apply unwrap_inv in H3. apply unwrap_inv in H6. apply unwrap_inv in H8. apply assert_inv in H7. apply assert_inv in H.
    apply assert_inv, str_eqb_iff in H4. apply roundtrip_xprv_iff in H1. apply roundtrip_xpub_iff in H2.
    exists t, u. split; [exact H1|]. split; [exact H2|]. split; [eauto|]. split; [|split; [|split; eauto]].
    + intros ->. cbn [negb] in H5. apply bind_ok in H5 as (y & Y1 & H5). apply bind_ok in H5 as (u' & Y2 & Y3).
      apply unwrap_inv in Y1. apply roundtrip_xpub_iff in Y2. apply assert_inv, str_eqb_iff in Y3. subst u'. eauto.
    + intros ->. cbn [negb] in H5. destruct (a_derive_pub A (a_public A m) p) as [y|e|]; try discriminate. eauto.
  - intros (t & u & H1 & H2 & (q & H3 & H4) & H5 & H6 & (q1 & H7 & H8) & (q2 & H9 & H10)).
    apply roundtrip_xprv_iff in H1. apply roundtrip_xpub_iff in H2. rewrite H1. cbn [bind]. rewrite H2. cbn [bind].
    rewrite H3. cbn [unwrap bind]. rewrite H4, str_same. cbn [assert bind].
    apply bind_ok. exists tt. split.
    + destruct f; cbn [negb].
      * destruct (H6 eq_refl) as (e & ->). reflexivity.
      * destruct (H5 eq_refl) as (y & -> & Y). cbn [unwrap bind]. apply roundtrip_xpub_iff in Y. rewrite Y.
        cbn [bind]. rewrite str_same. reflexivity.
    + rewrite H7. cbn [unwrap bind]. rewrite H8. cbn [assert bind]. rewrite H9. cbn [unwrap bind]. rewrite H10. reflexivity.
Qed.

Lemma slice_short seed n : (n <= 64)%nat -> (length (bounded_slice seed n) <= 64)%nat.
Proof. intros H. unfold bounded_slice. rewrite firstn_length. lia. Qed.
Lemma slice_all seed : (length seed <= 64)%nat -> bounded_slice seed 64 = seed.
Proof. intros H. unfold bounded_slice. rewrite Nat.min_l by exact H. apply firstn_all. Qed.

Theorem C105_derive_path (A : Api32) :
  (forall seed path_bytes max_seed_len max_path_len,
    fuzz_derive_path_a A seed path_bytes max_seed_len max_path_len = Ok tt) <->
  makes_children A /\
  forall seed p f, (length seed <= 64)%nat -> path_input A p f -> derive_checked A seed p f.
Proof.
  split.
  - intros H. split.
    { apply total_children. intros bytes P. specialize (H [] bytes x40 x20). unfold fuzz_derive_path_a in H.
      change (Nat.min (N.to_nat (b2n x20)) 32) with 32%nat in H. cbv zeta in H. rewrite P in H. discriminate H. }
    intros seed p f Hs I. destruct (input_build_path A p f I) as (bytes & Hb).
    specialize (H seed bytes x40 x20). unfold fuzz_derive_path_a in H.
    change (Nat.min (N.to_nat (b2n x20)) 32) with 32%nat in H.
    change (Nat.min (N.to_nat (b2n x40)) 64) with 64%nat in H. cbv zeta in H.
    rewrite (slice_all seed Hs), Hb in H. cbn [bind fst snd] in H. unfold derive_checked.
    destruct (a_new A seed) as [m|e|]; [|split; [discriminate|intros ? [=]]|discriminate H].
    split; [discriminate|]. intros m' [= <-].
    destruct (a_derive A m p) as [x|e|]; [| |discriminate H].
    + split; [discriminate|]. split; [intros e [=]|]. intros x' [= <-]. apply derived_iff, H.
    + split; [discriminate|]. split; [|intros x [=]]. intros e' _ ->. cbn [negb] in H.
      destruct (a_derive_pub A (a_public A m) p); [discriminate|discriminate|discriminate H].
  - intros [Hc H] seed pb ms mp. unfold fuzz_derive_path_a. cbv zeta.
    destruct (build_path_total A Hc pb (Nat.min (N.to_nat (b2n mp)) 32)) as ([p f] & Hr). rewrite Hr. cbn [bind fst snd].
    set (sd := bounded_slice _ _).
    destruct (H sd p f) as [H1 H2].
    { apply slice_short. lia. }
    { apply (build_path_input A pb _ (p, f)) in Hr; [exact Hr|lia]. }
    destruct (a_new A sd) as [m|e|]; [|reflexivity|congruence].
    destruct (H2 m eq_refl) as (D1 & D2 & D3).
    destruct (a_derive A m p) as [x|e|]; [|destruct f; [reflexivity|]|congruence].
    + apply derived_iff, D3, eq_refl.
    + cbn [negb]. apply ignore_ok, (D2 e eq_refl eq_refl).
Qed.

(** ** C105: parse_xkey *)
(** One byte changed by exclusive or, chosen by two bytes; several such changes. *)
Inductive flip (p d : byte) : list byte -> list byte -> Prop :=
| flip_at u y v z :
    length u = (N.to_nat (b2n p) mod length (u ++ y :: v))%nat -> b2n z = N.lxor (b2n y) (b2n d) ->
    flip p d (u ++ y :: v) (u ++ z :: v).
Inductive flips : list byte -> list byte -> list byte -> Prop :=
| flips_done p t : flips [p] t t
| flips_step p d w t t' t'' : flip p d t t' -> flips (d :: w) t' t'' -> flips (p :: d :: w) t t''.
Definition flipped (t t' : list byte) : Prop := exists w, (1 <= length w <= 9)%nat /\ flips w t t'.

Lemma lxor_byte y d : N.lxor (b2n y) (b2n d) < 256.
Proof.
  pose proof (Byte.to_N_bounded y) as Y. pose proof (Byte.to_N_bounded d) as D. fold (b2n y) in Y. fold (b2n d) in D.
  destruct (N.eq_dec (N.lxor (b2n y) (b2n d)) 0) as [->|Z]; [lia|].
  change 256 with (2 ^ 8). apply N.log2_lt_pow2; [lia|].
  pose proof (N.log2_lxor (b2n y) (b2n d)) as X.
  assert (forall n, n <= 255 -> N.log2 n <= 7) as B by (intros n Hn; apply N.log2_le_mono in Hn; exact Hn).
  pose proof (B _ Y). pose proof (B _ D). lia.
Qed.
Lemma payload_flips bytes : bytes <> [] -> forall k t i r, t <> [] ->
  mutate_payload_loop bytes t i k = Ok r <-> flips (map (byte_at bytes) (seq i (S k))) t r.
Proof.
  intros Hb. induction k as [|k IH]; intros t i r Ht.
  - cbn [mutate_payload_loop seq map]. split.
    + intros [= <-]. constructor.
    + intros H. inversion H. reflexivity.
  - cbn [mutate_payload_loop]. rewrite !index_at by exact Hb. cbn [bind].
    change (seq i (S (S k))) with (i :: seq (S i) (S k)). cbn [map].
    change (map (byte_at bytes) (seq (S i) (S k))) with (byte_at bytes (S i) :: map (byte_at bytes) (seq (S (S i)) k)).
    replace (i + 1)%nat with (S i) by lia.
    set (p := byte_at bytes i). set (d := byte_at bytes (S i)). set (n := (N.to_nat (b2n p) mod length t)%nat).
    assert (Hn : (n < length t)%nat) by (apply Nat.mod_upper_bound; destruct t; [congruence|discriminate]).
    destruct (split_nth t n Hn) as (y & Y1 & Y2 & Y3).
    assert (NE : nth_error t n = Some y).
    { rewrite Y1, nth_error_app2 by lia. rewrite Y3, Nat.sub_diag. reflexivity. }
    unfold index. rewrite NE. cbn [bind]. unfold set_at.
    replace (n <? length t)%nat with true by (symmetry; apply Nat.ltb_lt; exact Hn).
    cbn [bind]. rewrite upd_split by exact Hn. set (z := n2b (N.lxor (b2n y) (b2n d))).
    assert (Hz : b2n z = N.lxor (b2n y) (b2n d)).
    { unfold z. rewrite b2n_n2b. apply N.mod_small, lxor_byte. }
    rewrite IH by (destruct (firstn n t); discriminate).
    change (map (byte_at bytes) (seq (S i) (S k))) with (d :: map (byte_at bytes) (seq (S (S i)) k)). split.
    + intros H. econstructor; [|exact H].
      pose proof (flip_at p d (firstn n t) y (skipn (S n) t) z) as Q. rewrite <- Y1 in Q. apply Q; [exact Y3|exact Hz].
    + intros H. inversion H as [|p0 d0 w0 t0 t' t'' F G]; subst. destruct F as [u y' v z' P Q].
      destruct (split_at u y' v n P) as (F1 & F2 & F3). rewrite F1, F3.
      assert (y' = y) as ->. { rewrite F2 in Y2. congruence. }
      assert (z = z') as ->; [|exact G]. rewrite <- (n2b_b2n z), <- (n2b_b2n z'). congruence.
Qed.
Lemma payload_total bytes : bytes <> [] -> forall k t i, t <> [] -> exists r, mutate_payload_loop bytes t i k = Ok r.
Proof.
  intros Hb. induction k as [|k IH]; intros t i Ht; cbn [mutate_payload_loop]; [eauto|].
  rewrite !index_at by exact Hb. cbn [bind]. set (n := (_ mod length t)%nat).
  assert (Hn : (n < length t)%nat) by (apply Nat.mod_upper_bound; destruct t; [congruence|discriminate]).
  destruct (@index_ok Error byte t n Hn) as (o & ->). cbn [bind]. unfold set_at.
  replace (n <? length t)%nat with true by (symmetry; apply Nat.ltb_lt; exact Hn). cbn [bind].
  apply IH. rewrite upd_split by exact Hn. destruct (firstn n t); discriminate.
Qed.
Lemma bytes_flipped t bytes k r : t <> [] -> (k <= 8)%nat -> mutate_payload_bytes t bytes k = Ok r -> flipped t r.
Proof.
  intros Ht Hk. unfold mutate_payload_bytes. destruct t as [|b0 t]; [congruence|]. cbn [is_empty orb].
  assert (D : flipped (b0 :: t) (b0 :: t)) by (exists [x00]; split; [cbn; lia|constructor]).
  destruct bytes as [|b bytes]; [intros [= <-]; exact D|].
  cbn [is_empty orb]. destruct (Nat.eqb_spec k 0) as [->|K]; [intros [= <-]; exact D|].
  intros H. apply payload_flips in H; [|discriminate|discriminate].
  eexists. split; [|exact H]. rewrite map_length, seq_length. lia.
Qed.
Lemma flipped_bytes t r : t <> [] -> flipped t r ->
  exists bytes k, (k <= 8)%nat /\ mutate_payload_bytes t bytes k = Ok r.
Proof.
  intros Ht (w & Hw & F). exists w, (length w - 1)%nat. split; [lia|]. unfold mutate_payload_bytes.
  destruct t as [|b0 t]; [congruence|]. destruct w as [|b w]; [cbn in Hw; lia|]. cbn [is_empty orb].
  destruct (Nat.eqb_spec (length (b :: w) - 1) 0) as [Z|Z].
  - destruct w; [|cbn in Z; lia]. inversion F. reflexivity.
  - apply payload_flips; [discriminate|discriminate|].
    replace (S (length (b :: w) - 1)) with (length (b :: w)) by (cbn; lia). rewrite own_window. exact F.
Qed.

(** The key read back from a payload can be printed and parsed again. *)
Definition rekeyed (A : Api32) (v : Version) (q : Payload) : Prop :=
  (is_private (p_version q) = true ->
    a_try A q <> Panic /\
    forall key, a_try A q = Ok key ->
      exists p t r, a_encode A key v = Ok p /\ a_show A p = Ok t /\ a_parse A t = Ok r /\
        is_private (p_version r) = true) /\
  (is_private (p_version q) = false -> is_public (p_version q) = true ->
    a_try_pub A q <> Panic /\
    forall key, a_try_pub A q = Ok key ->
      exists p t r, a_encode_pub A key v = Ok p /\ a_show A p = Ok t /\ a_parse A t = Ok r /\
        is_public (p_version r) = true).
(** The text of a payload parses, prints and parses again to the same version; changing
    bytes of the payload or characters of the text makes no parse panic. *)
Definition text_checked (A : Api32) (lossy : list byte -> str) (v : Version) (r : res Error Payload) : Prop :=
  exists p t q t' q',
    r = Ok p /\ a_show A p = Ok t /\ a_parse A t = Ok q /\ a_show A q = Ok t' /\ a_parse A t' = Ok q' /\
    p_version q' = p_version q /\ rekeyed A v q' /\
    (forall d d' t1, is_base58check d t -> length d = 78%nat -> flipped d d' -> is_base58check d' t1 ->
       a_parse A t1 <> Panic) /\
    (forall t1, edited lossy (map n2b alphabet58) t t1 -> a_parse A t1 <> Panic).
(** The versions the target chooses for private and for public keys. *)
Definition tested_prv : list KnownVersion := [Xprv; Yprv; Uprv; YprvShWsh; UprvShWsh].
Definition tested_pub : list KnownVersion := [Tpub; Zpub; Vpub; ZpubWsh; VpubWsh].
Definition xkey_checked (A : Api32) (lossy : list byte -> str) (seed : list byte) (p : list N) : Prop :=
  a_new A seed <> Panic /\
  forall m, a_new A seed = Ok m ->
    a_derive A m p <> Panic /\
    forall x, a_derive A m p = Ok x ->
      (forall k, In k tested_prv -> text_checked A lossy (into_version k) (a_encode A x (into_version k))) /\
      (forall k, In k tested_pub ->
         text_checked A lossy (into_version k) (a_encode_pub A (a_public A x) (into_version k))).

Lemma pick_tested s : exists k, pick_version s (N.land (b2n s) 1 =? 0) = Ok (into_version k) /\
  In k (if N.land (b2n s) 1 =? 0 then tested_prv else tested_pub).
Proof.
  exists (nth (N.to_nat (b2n s) mod 10) (if N.land (b2n s) 1 =? 0 then PRV else PUB) Xpub).
  destruct s; vm_compute; (split; [reflexivity|tauto]).
Qed.
Lemma tested_pick_prv k : In k tested_prv ->
  exists s, N.land (b2n s) 1 = 0 /\ pick_version s true = Ok (into_version k).
Proof.
  intros [<-|[<-|[<-|[<-|[<-|[]]]]]]; [exists x00|exists x02|exists x04|exists x06|exists x08]; split; reflexivity.
Qed.
Lemma tested_pick_pub k : In k tested_pub ->
  exists s, N.land (b2n s) 1 = 1 /\ pick_version s false = Ok (into_version k).
Proof.
  intros [<-|[<-|[<-|[<-|[<-|[]]]]]]; [exists x01|exists x03|exists x05|exists x07|exists x09]; split; reflexivity.
Qed.

Lemma version_eqb_iff v w : version_eqb v w = true <-> v = w.
Proof. split; [apply version_eqb_eq|]. intros ->. apply version_same. Qed.
Lemma rekeyed_iff A v q :
  (if is_private (p_version q) then
     match a_try A q with
     | Ok key =>
         let? q3 := unwrap (a_encode A key v) in
         let? encoded_key := unwrap (a_show A q3) in
         let? payload3 := unwrap (a_parse A encoded_key) in
         assert (is_private (p_version payload3))
     | Err _ => Ok tt
     | Panic => Panic
     end
   else if is_public (p_version q) then
     match a_try_pub A q with
     | Ok key =>
         let? q3 := unwrap (a_encode_pub A key v) in
         let? encoded_key := unwrap (a_show A q3) in
         let? payload3 := unwrap (a_parse A encoded_key) in
         assert (is_public (p_version payload3))
     | Err _ => Ok tt
     | Panic => Panic
     end
   else Ok tt) = @Ok Error unit tt <-> rekeyed A v q.
Proof.
  unfold rekeyed. destruct (is_private (p_version q)).
  - destruct (a_try A q) as [key|e|].
    + split.
      * intros H. apply bind_ok in H as (p & H1 & H). apply bind_ok in H as (t & H2 & H).
        apply bind_ok in H as (r & H3 & H). apply unwrap_inv in H1. apply unwrap_inv in H2. apply unwrap_inv in H3.
        apply assert_inv in H. split; [|discriminate]. intros _. split; [discriminate|].
        intros k' [= <-]. exists p, t, r. auto.
      * intros [H _]. destruct (H eq_refl) as [_ K]. destruct (K key eq_refl) as (p & t & r & -> & H2 & H3 & H4).
        cbn [unwrap bind]. rewrite H2. cbn [unwrap bind]. rewrite H3. cbn [unwrap bind]. rewrite H4. reflexivity.
    + split; [|reflexivity]. intros _. split; [|discriminate]. intros _. split; discriminate.
    + split; [discriminate|]. intros [H _]. destruct (H eq_refl). congruence.
  - destruct (is_public (p_version q)).
    2:{ split; [|reflexivity]. intros _. split; discriminate. }
    destruct (a_try_pub A q) as [key|e|].
    + split.
      * intros H. apply bind_ok in H as (p & H1 & H). apply bind_ok in H as (t & H2 & H).
        apply bind_ok in H as (r & H3 & H). apply unwrap_inv in H1. apply unwrap_inv in H2. apply unwrap_inv in H3.
        apply assert_inv in H. split; [discriminate|]. intros _ _. split; [discriminate|].
        intros k' [= <-]. exists p, t, r. auto.
      * intros [_ H]. destruct (H eq_refl eq_refl) as [_ K]. destruct (K key eq_refl) as (p & t & r & -> & H2 & H3 & H4).
        cbn [unwrap bind]. rewrite H2. cbn [unwrap bind]. rewrite H3. cbn [unwrap bind]. rewrite H4. reflexivity.
    + split; [|reflexivity]. intros _. split; [discriminate|]. intros _ _. split; discriminate.
    + split; [discriminate|]. intros [_ H]. destruct (H eq_refl eq_refl). congruence.
Qed.

Lemma decode_payload_iff t d : decode_payload t = Some d <-> is_base58check d t /\ length d = 78%nat.
Proof.
  unfold decode_payload. change 82%nat with KEY_PAYLOAD_WITH_CHECKSUM_LENGTH. split.
  - destruct (decode_check _ _) as [e|data] eqn:E; [discriminate|]. destruct (Nat.eqb_spec (length data) 78) as [N|N]; [|discriminate].
    intros [= <-]. apply decode_check_string in E as [E _]. auto.
  - intros [H N]. assert (E : decode_check (utf8 t) KEY_PAYLOAD_WITH_CHECKSUM_LENGTH = inr d).
    { apply decode_check_string. split; [exact H|lia]. }
    rewrite E, N. reflexivity.
Qed.
Lemma encode_payload_iff d t : encode_payload d = Some t <-> is_base58check d t.
Proof.
  unfold encode_payload. destruct (encode_check_spec d) as (s & E & B). rewrite E. split.
  - intros [= <-]. exact B.
  - intros H. f_equal. exact (base58_fun _ _ _ B H).
Qed.

(** The part of the target after the key is encoded. *)
Definition after_encode (A : Api32) (lossy : list byte -> str) (mutate_bytes : list byte) (version : Version)
    (r : res Error Payload) (mutate_payload mutate_encoded : bool) (ops : nat) : res Error unit :=
  let? q := unwrap r in
  let? encoded := unwrap (a_show A q) in
  let? payload := unwrap (a_parse A encoded) in
  let payload_version := p_version payload in
  let? encoded2 := unwrap (a_show A payload) in
  let? payload2 := unwrap (a_parse A encoded2) in
  let? _ := assert (version_eqb (p_version payload2) payload_version) in
  let? _ :=
    if is_private (p_version payload2) then
      match a_try A payload2 with
      | Ok key =>
          let? q3 := unwrap (a_encode A key version) in
          let? encoded_key := unwrap (a_show A q3) in
          let? payload3 := unwrap (a_parse A encoded_key) in
          assert (is_private (p_version payload3))
      | Err _ => Ok tt
      | Panic => Panic
      end
    else if is_public (p_version payload2) then
      match a_try_pub A payload2 with
      | Ok key =>
          let? q3 := unwrap (a_encode_pub A key version) in
          let? encoded_key := unwrap (a_show A q3) in
          let? payload3 := unwrap (a_parse A encoded_key) in
          assert (is_public (p_version payload3))
      | Err _ => Ok tt
      | Panic => Panic
      end
    else Ok tt in
  let? _ :=
    if mutate_payload then
      match decode_payload encoded with
      | Some payload_bytes =>
          let? payload_bytes' := mutate_payload_bytes payload_bytes mutate_bytes ops in
          match encode_payload payload_bytes' with
          | Some mutated => ignore (a_parse A mutated)
          | None => Ok tt
          end
      | None => Ok tt
      end
    else Ok tt in
  if mutate_encoded then
    let? mutated := mutate_base58 lossy encoded mutate_bytes ops in
    ignore (a_parse A mutated)
  else Ok tt.
Lemma after_checked A lossy v r :
  (forall mb mp me k, (k <= 8)%nat -> after_encode A lossy mb v r mp me k = Ok tt) <-> text_checked A lossy v r.
Proof.
  unfold text_checked. split.
  - intros H. pose proof (H [] false false 0%nat ltac:(lia)) as H0. unfold after_encode in H0. cbv zeta in H0.
    apply bind_ok in H0 as (p & H1 & H0). apply bind_ok in H0 as (t & H2 & H0). apply bind_ok in H0 as (q & H3 & H0).
    apply bind_ok in H0 as (t' & H4 & H0). apply bind_ok in H0 as (q' & H5 & H0). apply bind_ok in H0 as ([] & H6 & H0).
    apply bind_ok in H0 as ([] & H7 & _). apply unwrap_inv in H1. apply unwrap_inv in H2. apply unwrap_inv in H3.
    apply unwrap_inv in H4. apply unwrap_inv in H5. apply assert_inv in H6. pose proof H7 as H7'. apply rekeyed_iff in H7'.
    exists p, t, q, t', q'. repeat (split; [assumption || (apply version_eqb_iff; assumption)|]). split.
    + intros d d' t1 B L F B1 P.
      assert (Hd : d <> []) by (destruct d; [cbn in L; lia|discriminate]).
      destruct (flipped_bytes d d' Hd F) as (mb & k & Hk & M).
      specialize (H mb true false k Hk). unfold after_encode in H. cbv zeta in H.
      rewrite H1 in H. cbn [unwrap bind] in H. rewrite H2 in H. cbn [unwrap bind] in H. rewrite H3 in H.
      cbn [unwrap bind] in H. rewrite H4 in H. cbn [unwrap bind] in H. rewrite H5 in H. cbn [unwrap bind] in H.
      rewrite H6 in H. cbn [assert bind] in H. rewrite H7 in H. cbn [bind] in H.
      rewrite (proj2 (decode_payload_iff t d) (conj B L)) in H. rewrite M in H. cbn [bind] in H.
      rewrite (proj2 (encode_payload_iff d' t1) B1) in H. rewrite P in H. discriminate H.
    + intros t1 E P. apply edited_string in E as (mb & k & Hk & M); [|discriminate].
      specialize (H mb false true k Hk). unfold after_encode in H. cbv zeta in H.
      rewrite H1 in H. cbn [unwrap bind] in H. rewrite H2 in H. cbn [unwrap bind] in H. rewrite H3 in H.
      cbn [unwrap bind] in H. rewrite H4 in H. cbn [unwrap bind] in H. rewrite H5 in H. cbn [unwrap bind] in H.
      rewrite H6 in H. cbn [assert bind] in H. rewrite H7 in H. cbn [bind] in H.
      change (mutate_string lossy (map n2b alphabet58)) with (mutate_base58 lossy) in M.
      rewrite M in H. cbn [bind] in H. rewrite P in H. discriminate H.
  - intros (p & t & q & t' & q' & -> & H2 & H3 & H4 & H5 & H6 & H7 & H8 & H9) mb mp me k Hk.
    apply rekeyed_iff in H7. apply version_eqb_iff in H6. unfold after_encode. cbv zeta. cbn [unwrap bind].
    rewrite H2. cbn [unwrap bind]. rewrite H3. cbn [unwrap bind]. rewrite H4. cbn [unwrap bind].
    rewrite H5. cbn [unwrap bind]. rewrite H6. cbn [assert bind]. rewrite H7. cbn [bind].
    apply bind_ok. exists tt. split.
    + destruct mp; [|reflexivity]. destruct (decode_payload t) as [d|] eqn:D; [|reflexivity].
      apply decode_payload_iff in D as [B L]. assert (Hd : d <> []) by (destruct d; [cbn in L; lia|discriminate]).
      assert (exists d', mutate_payload_bytes d mb k = Ok d') as (d' & M).
      { unfold mutate_payload_bytes. destruct d as [|d0 d]; [congruence|]. destruct mb as [|b mb]; [eexists; reflexivity|].
        cbn [is_empty orb]. destruct (k =? 0)%nat; [eexists; reflexivity|]. apply payload_total; discriminate. }
      rewrite M. cbn [bind]. destruct (encode_payload d') as [t1|] eqn:T1; [|reflexivity].
      apply ignore_ok. apply encode_payload_iff in T1. apply (H8 d d' t1 B L); [|exact T1].
      eapply bytes_flipped; [exact Hd|exact Hk|exact M].
    + destruct me; [|reflexivity].
      destruct (mutate_string_ok lossy (map n2b alphabet58) t mb k) as (t1 & T1); [discriminate|].
      change (mutate_base58 lossy) with (mutate_string lossy (map n2b alphabet58)). rewrite T1. cbn [bind].
      apply ignore_ok, H9. eapply string_edited; [discriminate|exact Hk|exact T1].
Qed.

Theorem C105_parse_xkey (A : Api32) lossy :
  (forall seed path_bytes mutate_bytes max_seed_len max_children version_selector mutate_payload mutate_encoded mutate_ops,
    fuzz_parse_xkey_a A lossy seed path_bytes mutate_bytes max_seed_len max_children version_selector
      mutate_payload mutate_encoded mutate_ops = Ok tt) <->
  makes_children A /\
  forall seed p f, (length seed <= 64)%nat -> path_input A p f -> xkey_checked A lossy seed p.
Proof.
  split.
  - intros H. split.
    { apply total_children. intros bytes P. specialize (H [] bytes [] x40 x20 x00 false false x00). unfold fuzz_parse_xkey_a in H.
      change (Nat.min (N.to_nat (b2n x20)) 32) with 32%nat in H. cbv zeta in H. rewrite P in H. discriminate H. }
    intros seed p f Hs I. destruct (input_build_path A p f I) as (bytes & Hb).
    assert (K : forall mb vs mp me k, (k <= 8)%nat ->
      match a_new A seed with
      | Panic => Panic
      | Err _ => Ok tt
      | Ok m =>
        match a_derive A m p with
        | Panic => Panic
        | Err _ => Ok tt
        | Ok x =>
          let? version := pick_version vs (N.land (b2n vs) 1 =? 0) in
          after_encode A lossy mb version
            (if N.land (b2n vs) 1 =? 0 then a_encode A x version else a_encode_pub A (a_public A x) version) mp me k
        end
      end = Ok tt).
    { intros mb vs mp me k Hk. specialize (H seed bytes mb x40 x20 vs mp me (n2b (N.of_nat k))).
      unfold fuzz_parse_xkey_a in H. change (Nat.min (N.to_nat (b2n x20)) 32) with 32%nat in H.
      change (Nat.min (N.to_nat (b2n x40)) 64) with 64%nat in H. cbv zeta in H.
      rewrite (slice_all seed Hs), Hb in H. cbn [bind fst snd] in H.
      replace (Nat.min (N.to_nat (b2n (n2b (N.of_nat k)))) 8) with k in H.
      2:{ rewrite b2n_n2b, N.mod_small by lia. rewrite Nnat.Nat2N.id. lia. }
      unfold after_encode. cbv zeta. destruct (N.land (b2n vs) 1 =? 0); exact H. }
    unfold xkey_checked. destruct (a_new A seed) as [m|e|]; [|split; [discriminate|intros ? [=]]|].
    2:{ specialize (K [] x00 false false 0%nat ltac:(lia)). discriminate K. }
    split; [discriminate|]. intros m' [= <-]. destruct (a_derive A m p) as [x|e|]; [|split; [discriminate|intros ? [=]]|].
    2:{ specialize (K [] x00 false false 0%nat ltac:(lia)). discriminate K. }
    split; [discriminate|]. intros x' [= <-]. split; intros k Hk.
    + destruct (tested_pick_prv k Hk) as (s & S1 & S2). apply after_checked. intros mb mp me n Hn.
      specialize (K mb s mp me n Hn). rewrite S1 in K. change (0 =? 0) with true in K. rewrite S2 in K. exact K.
    + destruct (tested_pick_pub k Hk) as (s & S1 & S2). apply after_checked. intros mb mp me n Hn.
      specialize (K mb s mp me n Hn). rewrite S1 in K. change (1 =? 0) with false in K. rewrite S2 in K. exact K.
  - intros [Hc H] seed pb mb ms mc vs mp me mo.
    enough (K : match a_new A (bounded_slice seed (Nat.min (N.to_nat (b2n ms)) 64)) with
      | Panic => Panic
      | Err _ => Ok tt
      | Ok m =>
        let? ph := build_path_a A pb (Nat.min (N.to_nat (b2n mc)) 32) in
        match a_derive A m (fst ph) with
        | Panic => Panic
        | Err _ => Ok tt
        | Ok x =>
          let? version := pick_version vs (N.land (b2n vs) 1 =? 0) in
          after_encode A lossy mb version
            (if N.land (b2n vs) 1 =? 0 then a_encode A x version else a_encode_pub A (a_public A x) version) mp me
            (Nat.min (N.to_nat (b2n mo)) 8)
        end
      end = Ok tt).
    { unfold fuzz_parse_xkey_a. unfold after_encode in K. cbv zeta in *.
      destruct (build_path_total A Hc pb (Nat.min (N.to_nat (b2n mc)) 32)) as (r & Hr). rewrite Hr in *. cbn [bind] in *.
      destruct (N.land (b2n vs) 1 =? 0); exact K. }
    destruct (build_path_total A Hc pb (Nat.min (N.to_nat (b2n mc)) 32)) as (r & Hr). rewrite Hr. cbn [bind].
    set (sd := bounded_slice _ _). destruct (H sd (fst r) (snd r)) as [H1 H2].
    { apply slice_short. lia. }
    { eapply build_path_input; [|exact Hr]. lia. }
    destruct (a_new A sd) as [m|e|]; [|reflexivity|congruence].
    destruct (H2 m eq_refl) as (D1 & D2). destruct (a_derive A m (fst r)) as [x|e|]; [|reflexivity|congruence].
    destruct (D2 x eq_refl) as [P Q]. destruct (pick_tested vs) as (k & -> & I). cbn [bind].
    destruct (N.land (b2n vs) 1 =? 0).
    + apply after_checked; [apply P, I|lia].
    + apply after_checked; [apply Q, I|lia].
Qed.

(** ** C105: from_entropy and to_seed *)
Lemma bytes_eqb_iff a b : bytes_eqb a b = true <-> a = b.
Proof. apply bytes_eqb_eq. Qed.
Lemma legal_input e : legal_entropy_len (length e) -> exists i, entropy_input_wf i /\ as_slice i = e.
Proof.
  intros [H|[H|[H|[H|[H|[]]]]]]; [exists (In12 e)|exists (In15 e)|exists (In18 e)|exists (In21 e)|exists (In24 e)];
    split; cbn; congruence.
Qed.
Theorem C105_from_entropy (A : Api39) :
  (forall input, entropy_input_wf input -> fuzz_from_entropy_a A input = Ok tt) <->
  forall e, legal_entropy_len (length e) ->
    exists m n, a_from_entropy A e = Ok m /\ a_entropy A m = e /\
      a_from_phrase A (a_phrase A m) = Ok n /\ a_entropy A n = e /\ a_phrase A n = a_phrase A m.
Proof.
  split.
  - intros H e He. destruct (legal_input e He) as (i & Wi & Ei). specialize (H i Wi).
    unfold fuzz_from_entropy_a in H. cbv zeta in H. rewrite Ei in H.
    apply bind_ok in H as (m & H1 & H). apply bind_ok in H as ([] & H2 & H). apply bind_ok in H as (n & H3 & H).
    apply bind_ok in H as ([] & H4 & H). apply bind_ok in H as ([] & H5 & _).
    apply unwrap_inv in H1. apply unwrap_inv in H3. apply assert_inv, bytes_eqb_iff in H2.
    apply assert_inv, bytes_eqb_iff in H4. apply assert_inv, str_eqb_iff in H5. exists m, n. auto.
  - intros H i Wi. destruct (H (as_slice i) (input_legal i Wi)) as (m & n & H1 & H2 & H3 & H4 & H5).
    unfold fuzz_from_entropy_a. cbv zeta. rewrite H1. cbn [unwrap bind]. rewrite H2, bytes_refl. cbn [assert bind].
    rewrite H3. cbn [unwrap bind]. rewrite H4, H5, bytes_refl, str_refl. reflexivity.
Qed.
Theorem C105_to_seed (A : Api39) lossy :
  (forall input passphrase_bytes, entropy_input_wf input -> fuzz_to_seed_a A lossy input passphrase_bytes = Ok tt) <->
  forall e, legal_entropy_len (length e) ->
    exists m n, a_from_entropy A e = Ok m /\ a_from_phrase A (a_phrase A m) = Ok n /\
      forall b, a_to_seed A n (lossy b) = a_to_seed A m (lossy b).
Proof.
  split.
  - intros H e He. destruct (legal_input e He) as (i & Wi & Ei).
    assert (K : forall b, exists m n, a_from_entropy A e = Ok m /\ a_from_phrase A (a_phrase A m) = Ok n /\
      a_to_seed A n (lossy b) = a_to_seed A m (lossy b)).
    { intros b. specialize (H i b Wi). unfold fuzz_to_seed_a in H. cbv zeta in H. rewrite Ei in H.
      apply bind_ok in H as (m & H1 & H). apply bind_ok in H as (n & H2 & H). apply unwrap_inv in H1.
      apply unwrap_inv in H2. apply assert_inv, bytes_eqb_iff in H. exists m, n. auto. }
    destruct (K []) as (m & n & H1 & H2 & _). exists m, n. split; [exact H1|]. split; [exact H2|].
    intros b. destruct (K b) as (m' & n' & H3 & H4 & H5). rewrite H1 in H3. injection H3 as <-.
    rewrite H2 in H4. injection H4 as <-. exact H5.
  - intros H i b Wi. destruct (H (as_slice i) (input_legal i Wi)) as (m & n & H1 & H2 & H3).
    unfold fuzz_to_seed_a. cbv zeta. rewrite H1. cbn [unwrap bind]. rewrite H2. cbn [unwrap bind].
    rewrite H3, bytes_refl. reflexivity.
Qed.

(** ** C105: from_phrase *)
(** Every space of a text exchanged for whitespace that depends on where it stands. *)
Definition whitespace_at (i : nat) : str := nth (i mod 6) [[32]; [9]; [10]; [13]; [32; 32]; [0xA0]] [].
Definition messed (s t : str) : Prop :=
  exists ps, t = concat ps /\ length ps = length s /\
    forall i c, nth_error s i = Some c -> nth_error ps i = Some (if c =? 32 then whitespace_at i else [c]).
(** A phrase with its middle word exchanged for one that is in no list. *)
Inductive with_unknown (t : str) : str -> Prop :=
| unknown_empty : words_of t [] -> with_unknown t (lit "not_in_wordlist")
| unknown_middle u w v : words_of t (u ++ w :: v) -> length u = (length (u ++ w :: v) / 2)%nat ->
    with_unknown t (join [32] (u ++ lit "not_in_wordlist" :: v)).
(** A phrase with its last word exchanged for the next of the English list. *)
Inductive with_next (t : str) : str -> Prop :=
| next_empty : words_of t [] -> with_next t t
| next_word u w i x : words_of t (u ++ [w]) ->
    nth_error (lang_words (language_of BEnglish)) i = Some w ->
    nth_error (lang_words (language_of BEnglish)) (S i mod 2048) = Some x ->
    with_next t (join [32] (u ++ [x]))
| next_other u w : words_of t (u ++ [w]) -> ~ In w (lang_words (language_of BEnglish)) ->
    with_next t (join [32] (u ++ [lit "abandon"])).
Definition negative_checked (A : Api39) (t : str) : Prop :=
  (forall b, with_unknown t b -> a_from_phrase A b = Err (UnknownWord (lit "not_in_wordlist"))) /\
  (forall b, with_next t b ->
     a_validate A b = Err InvalidChecksum \/
     exists m, a_validate A b = Ok tt /\ a_from_phrase A b = Ok m /\ a_validate A (a_phrase A m) = Ok tt).
Definition phrase_checked (A : Api39) (s : str) : Prop :=
  a_validate A s <> Panic /\ a_from_phrase A s <> Panic /\
  forall m, a_from_phrase A s = Ok m ->
    a_phrase A m <> [] /\ a_validate A (a_phrase A m) = Ok tt /\
    (exists n, a_from_phrase A (a_phrase A m) = Ok n /\ a_phrase A n = a_phrase A m /\ a_entropy A n = a_entropy A m) /\
    negative_checked A (a_phrase A m).

Lemma mess_spec i s : exists ps, mess_from i s = concat ps /\ length ps = length s /\
  forall j c, nth_error s j = Some c ->
    nth_error ps j = Some (if c =? 32 then whitespace_at (N.to_nat i + j) else [c]).
Proof.
  revert i. induction s as [|c s IH]; intros i.
  - exists []. split; [reflexivity|]. split; [reflexivity|]. intros [|j] c; discriminate.
  - destruct (IH (i + 1)) as (ps & E & L & H). exists (mess_char i c :: ps). cbn [mess_from concat length]. rewrite E, L.
    split; [reflexivity|]. split; [reflexivity|]. intros [|j] d.
    + intros [= <-]. cbn [nth_error]. f_equal. unfold mess_char. destruct (c =? 32); [|reflexivity].
      rewrite Nat.add_0_r. unfold whitespace_at. replace (N.to_nat i mod 6)%nat with (N.to_nat (i mod 6))
        by (rewrite Nnat.N2Nat.inj_mod; reflexivity).
      assert (i mod 6 < 6) as M by (apply N.mod_lt; discriminate). revert M. generalize (i mod 6). intros r M.
      assert (r = 0 \/ r = 1 \/ r = 2 \/ r = 3 \/ r = 4 \/ r = 5) as [->|[->|[->|[->|[->| ->]]]]] by lia; reflexivity.
    + cbn [nth_error]. intros Hd. rewrite (H j d Hd). replace (N.to_nat i + S j)%nat with (N.to_nat (i + 1) + j)%nat by lia.
      reflexivity.
Qed.
Lemma messed_iff s t : messed s t <-> t = make_whitespace_mess s.
Proof.
  destruct (mess_spec 0 s) as (ps & E & L & H). unfold make_whitespace_mess. rewrite E. split.
  - intros (qs & -> & L' & H'). f_equal. apply nth_ext with (d := []) (d' := []); [congruence|].
    intros j Hj. assert (exists c, nth_error s j = Some c) as (c & Hc).
    { destruct (nth_error s j) eqn:N0; [eauto|]. apply nth_error_None in N0. lia. }
    rewrite (nth_error_nth qs j [] (H' j c Hc)), (nth_error_nth ps j [] (H j c Hc)). reflexivity.
  - intros ->. exists ps. auto.
Qed.
Lemma english_index w i : lang_index_of (language_of BEnglish) w = Some i <->
  nth_error (lang_words (language_of BEnglish)) (N.to_nat i) = Some w.
Proof. apply (lc_index_of _ _ (builtin_contract ucd15 BEnglish ucd15_std)). Qed.
Lemma unknown_iff t b : flip_some_words_to_unknown t = Ok b <-> with_unknown t b.
Proof.
  unfold flip_some_words_to_unknown. pose proof (words_of_split t) as W. revert W. generalize (split_whitespace t). intros ws W.
  destruct ws as [|w0 ws].
  - cbn [is_empty]. split.
    + intros [= <-]. apply unknown_empty, W.
    + intros H. inversion H as [|u w v W' L]; subst; [reflexivity|]. apply (words_of_fun _ _ _ W) in W'. destruct u; discriminate.
  - cbn [is_empty]. set (l := w0 :: ws) in *.
    assert (Hm : (length l / 2 <= length l - 1)%nat).
    { assert (length l / 2 < length l)%nat by (apply Nat.div_lt; cbn; lia). lia. }
    rewrite Nat.min_l by exact Hm. set (n := (length l / 2)%nat) in *. assert (Hn : (n < length l)%nat) by (cbn [l length] in *; lia).
    destruct (set_word_ok l n (lit "not_in_wordlist") Hn) as [-> _]. cbn [bind].
    destruct (split_nth l n Hn) as (y & Y1 & Y2 & Y3). split.
    + intros [= <-]. pose proof (unknown_middle t (firstn n l) y (skipn (S n) l)) as Q. rewrite <- Y1 in Q.
      exact (Q W Y3).
    + intros H. inversion H as [W'|u w v W' L']; subst.
      * apply (words_of_fun _ _ _ W) in W'. discriminate W'.
      * apply (words_of_fun _ _ _ W) in W'. assert (Pn : length u = n) by (unfold n; rewrite W'; exact L').
        destruct (split_at u w v n Pn) as (F1 & _ & F3). rewrite W', F1, F3. reflexivity.
Qed.
Lemma next_iff t b : flip_checksum_like t = Ok b <-> with_next t b.
Proof.
  pose proof (builtin_contract ucd15 BEnglish ucd15_std) as LC.
  unfold flip_checksum_like. pose proof (words_of_split t) as W. revert W. generalize (split_whitespace t). intros ws W.
  destruct ws as [|w1 ws1] using rev_ind; [|clear IHws1].
  - cbn [is_empty]. split.
    + intros [= <-]. apply next_empty, W.
    + intros H. destruct H as [W'|u w i x W' N1 N2|u w W' N1]; [reflexivity| |];
        apply (words_of_fun _ _ _ W) in W'; destruct u; discriminate.
  - rename w1 into w. rename ws1 into u.
    replace (is_empty (u ++ [w])) with false by (destruct u; reflexivity).
    rewrite app_length. cbn [length]. replace (length u + 1 - 1)%nat with (length u) by lia.
    rewrite nth_error_app2, Nat.sub_diag by lia. cbn [nth_error].
    assert (SW : forall x, set_word (u ++ [w]) (length u) x = Ok (u ++ [x])).
    { intros x. destruct (set_word_ok (u ++ [w]) (length u) x) as [-> _]; [rewrite app_length; cbn; lia|].
      destruct (split_at u w [] (length u) eq_refl) as (-> & _ & ->). reflexivity. }
    assert (INV : forall u' w', words_of t (u' ++ [w']) -> u' = u /\ w' = w).
    { intros u' w' W'. apply (words_of_fun _ _ _ W), app_inj_tail in W' as [-> ->]. auto. }
    destruct (lang_index_of (language_of BEnglish) w) as [i|] eqn:I.
    + pose proof I as I'. apply english_index in I'.
      assert (Hb : (i + 1) mod 2048 < 2048) by (apply N.mod_lt; discriminate).
      rewrite (lc_word_of _ _ LC _ Hb).
      replace (N.to_nat ((i + 1) mod 2048)) with (S (N.to_nat i) mod 2048)%nat.
      2:{ rewrite Nnat.N2Nat.inj_mod. f_equal; lia. }
      destruct (nth_error (lang_words (language_of BEnglish)) (S (N.to_nat i) mod 2048)) as [x|] eqn:X.
      2:{ exfalso. apply nth_error_None in X. pose proof (lc_count _ _ LC) as C0.
          assert (S (N.to_nat i) mod 2048 < 2048)%nat by (apply Nat.mod_upper_bound; discriminate). lia. }
      rewrite SW. cbn [bind]. split.
      * intros [= <-]. eapply next_word; eassumption.
      * intros H. inversion H as [W'|u' w' i' x' W' N1 N2|u' w' W' N1]; subst.
        -- apply (words_of_fun _ _ _ W) in W'. destruct u; discriminate.
        -- apply INV in W' as [-> ->]. assert (lang_index_of (language_of BEnglish) w = Some (N.of_nat i')) as K.
           { apply english_index. rewrite Nnat.Nat2N.id. exact N1. }
           rewrite I in K. injection K as ->. rewrite Nnat.Nat2N.id in X. congruence.
        -- apply INV in W' as [-> ->]. destruct N1. eapply nth_error_In. exact I'.
    + rewrite SW. cbn [bind]. split.
      * intros [= <-]. apply (next_other t u w W). intros K. apply In_nth_error in K as (n & K).
        assert (lang_index_of (language_of BEnglish) w = Some (N.of_nat n)); [|congruence].
        apply english_index. rewrite Nnat.Nat2N.id. exact K.
      * intros H. inversion H as [W'|u' w' i' x' W' N1 N2|u' w' W' N1]; subst.
        -- apply (words_of_fun _ _ _ W) in W'. destruct u; discriminate.
        -- apply INV in W' as [-> ->]. assert (lang_index_of (language_of BEnglish) w = Some (N.of_nat i')); [|congruence].
           apply english_index. rewrite Nnat.Nat2N.id. exact N1.
        -- apply INV in W' as [-> ->]. reflexivity.
Qed.
Lemma next_total t : exists b, with_next t b.
Proof.
  pose proof (words_of_split t) as W. revert W. generalize (split_whitespace t). intros ws W.
  destruct ws as [|w u _] using rev_ind; [exists t; apply next_empty, W|].
  destruct (in_dec (list_eq_dec N.eq_dec) w (lang_words (language_of BEnglish))) as [I|I].
  - apply In_nth_error in I as (i & I). pose proof (lc_count _ _ (builtin_contract ucd15 BEnglish ucd15_std)) as C0.
    destruct (nth_error (lang_words (language_of BEnglish)) (S i mod 2048)) as [x|] eqn:X.
    + eexists. eapply next_word; eassumption.
    + apply nth_error_None in X. assert (S i mod 2048 < 2048)%nat by (apply Nat.mod_upper_bound; discriminate). lia.
  - eexists. eapply next_other; eassumption.
Qed.
Lemma unknown_total t : exists b, with_unknown t b.
Proof.
  pose proof (words_of_split t) as W. revert W. generalize (split_whitespace t). intros ws W.
  destruct ws as [|w ws]; [eexists; apply unknown_empty, W|]. set (l := w :: ws) in *.
  assert (Hn : (length l / 2 < length l)%nat) by (apply Nat.div_lt; cbn; lia).
  destruct (split_nth l _ Hn) as (y & Y1 & Y2 & Y3).
  pose proof (unknown_middle t (firstn (length l / 2) l) y (skipn (S (length l / 2)) l)) as Q. rewrite <- Y1 in Q.
  eexists. exact (Q W Y3).
Qed.
Lemma negative_iff A t : fuzz_negative_a A t = Ok tt <-> negative_checked A t.
Proof.
  destruct (unknown_total t) as (b & Hb). destruct (next_total t) as (c & Hc).
  pose proof Hb as Hb'. pose proof Hc as Hc'. apply unknown_iff in Hb'. apply next_iff in Hc'.
  unfold fuzz_negative_a. rewrite Hb'. cbn [bind]. unfold negative_checked. split.
  - intros H. apply bind_ok in H as (e & H1 & H). apply bind_ok in H as ([] & H2 & H). rewrite Hc' in H. cbn [bind] in H.
    split.
    + intros b' B. apply unknown_iff in B. assert (b' = b) as -> by congruence.
      destruct (a_from_phrase A b) as [m|e'|]; try discriminate. injection H1 as ->.
      destruct e; try discriminate. apply assert_inv, str_eqb_iff in H2. subst. reflexivity.
    + intros c' B. apply next_iff in B. assert (c' = c) as -> by congruence.
      destruct (a_validate A c) as [[]|e'|]; [right|left|discriminate].
      * apply bind_ok in H as (m & H3 & H4). apply unwrap_inv in H3. apply unwrap_inv in H4. exists m. auto.
      * destruct e'; try discriminate. reflexivity.
  - intros [H1 H2]. rewrite (H1 b Hb). cbn [unwrap_err bind]. rewrite str_refl. cbn [assert bind].
    rewrite Hc'. cbn [bind]. destruct (H2 c Hc) as [->|(m & -> & -> & H3)]; [reflexivity|]. cbn [unwrap bind].
    rewrite H3. reflexivity.
Qed.

Theorem C105_from_phrase (A : Api39) lossy :
  (forall phrase_bytes do_negative messy_whitespace max_phrase_len, max_phrase_len < 2 ^ 16 ->
    fuzz_from_phrase_a A lossy phrase_bytes do_negative messy_whitespace max_phrase_len = Ok tt) <->
  forall b, N.of_nat (length b) <= 16384 ->
    phrase_checked A (lossy b) /\ forall t, messed (lossy b) t -> phrase_checked A t.
Proof.
  assert (K : forall s, (forall neg : bool,
    match a_validate A s with
    | Panic => Panic
    | _ =>
      match a_from_phrase A s with
      | Ok m =>
          let normalized := a_phrase A m in
          let? _ := assert (negb (is_empty normalized)) in
          let? _ := assert (match a_validate A normalized with Ok _ => true | _ => false end) in
          let? m2 := unwrap (a_from_phrase A normalized) in
          let? _ := assert (str_eqb (a_phrase A m2) normalized) in
          let? _ := assert (bytes_eqb (a_entropy A m2) (a_entropy A m)) in
          if neg then fuzz_negative_a A normalized else Ok tt
      | Err _ => match a_validate A s with Panic => Panic | _ => Ok tt end
      | Panic => Panic
      end
    end = Ok tt) <-> phrase_checked A s).
  { intros s. unfold phrase_checked. cbv zeta. split.
    - intros H. specialize (H true). cbn match in H.
      assert (a_validate A s <> Panic) as V by (intros E; rewrite E in H; discriminate H).
      destruct (a_from_phrase A s) as [m|e|].
      + split; [exact V|]. split; [discriminate|]. intros m' [= <-].
        assert (H' : (let? _ := assert (negb (is_empty (a_phrase A m))) in
          let? _ := assert (match a_validate A (a_phrase A m) with Ok _ => true | _ => false end) in
          let? m2 := unwrap (a_from_phrase A (a_phrase A m)) in
          let? _ := assert (str_eqb (a_phrase A m2) (a_phrase A m)) in
          let? _ := assert (bytes_eqb (a_entropy A m2) (a_entropy A m)) in
          fuzz_negative_a A (a_phrase A m)) = Ok tt).
        { destruct (a_validate A s); [exact H|exact H|congruence]. }
        clear H. apply bind_ok in H' as ([] & H1 & H). apply bind_ok in H as ([] & H2 & H).
        apply bind_ok in H as (n & H3 & H). apply bind_ok in H as ([] & H4 & H). apply bind_ok in H as ([] & H5 & H).
        apply assert_inv in H1. apply assert_inv in H2. apply unwrap_inv in H3. apply assert_inv, str_eqb_iff in H4.
        apply assert_inv, bytes_eqb_iff in H5. apply negative_iff in H.
        split; [intros E; rewrite E in H1; discriminate|]. split; [|split; [exists n; auto|exact H]].
        destruct (a_validate A (a_phrase A m)) as [[]|e|]; [reflexivity|discriminate|discriminate].
      + split; [exact V|]. split; [discriminate|]. intros m [=].
      + exfalso. destruct (a_validate A s); discriminate H.
    - intros (V & P & H) neg. destruct (a_from_phrase A s) as [m|e|]; [|destruct (a_validate A s); congruence|congruence].
      destruct (H m eq_refl) as (H1 & H2 & (n & H3 & H4 & H5) & H6). apply negative_iff in H6.
      replace (is_empty (a_phrase A m)) with false by (destruct (a_phrase A m); [congruence|reflexivity]).
      rewrite H2, H3. cbn [negb assert bind unwrap]. rewrite H4, H5, str_refl, bytes_refl. cbn [assert bind].
      rewrite H6. destruct (a_validate A s); [destruct neg; reflexivity|destruct neg; reflexivity|congruence]. }
  split.
  - intros H b Hb. assert (E : lossy_string lossy b (N.to_nat 16384) = lossy b).
    { unfold lossy_string. f_equal. apply firstn_all2. lia. }
    split.
    + apply K. intros neg. specialize (H b neg false 16384 eq_refl). unfold fuzz_from_phrase_a in H.
      change (N.to_nat (N.min (N.max 16384 1) (16 * 1024))) with (N.to_nat 16384) in H. cbv zeta in H. rewrite E in H. exact H.
    + intros t T. apply messed_iff in T as ->. apply K. intros neg. specialize (H b neg true 16384 eq_refl).
      unfold fuzz_from_phrase_a in H.
      change (N.to_nat (N.min (N.max 16384 1) (16 * 1024))) with (N.to_nat 16384) in H. cbv zeta in H. rewrite E in H. exact H.
  - intros H pb neg messy n _. unfold fuzz_from_phrase_a. set (k := N.to_nat _).
    assert (Hk : N.of_nat k <= 16384) by (unfold k; lia). clearbody k. unfold lossy_string.
    set (b := firstn _ pb). destruct (H b) as [H1 H2].
    { unfold b. rewrite firstn_length. lia. }
    cbv zeta. destruct messy; [apply (proj2 (K _)), H2, messed_iff, eq_refl|apply (proj2 (K _)), H1].
Qed.


(** ** The targets of the crate are the instances *)
Theorem C105_same dbg L U B lossy :
  (forall pb mb mc m mo,
    fuzz_parse_path_a (real_api dbg L) lossy pb mb mc m mo = fuzz_parse_path lossy pb mb mc m mo) /\
  (forall sd pb ms mp, fuzz_derive_path_a (real_api dbg L) sd pb ms mp = fuzz_derive_path dbg L sd pb ms mp) /\
  (forall sd pb mb ms mc v mp me mo,
    fuzz_parse_xkey_a (real_api dbg L) lossy sd pb mb ms mc v mp me mo =
    fuzz_parse_xkey dbg lossy L sd pb mb ms mc v mp me mo) /\
  (forall i, fuzz_from_entropy_a (real_api39 U B) i = fuzz_from_entropy U B i) /\
  (forall i pb, fuzz_to_seed_a (real_api39 U B) lossy i pb = fuzz_to_seed U B lossy i pb) /\
  (forall pb n m k, fuzz_from_phrase_a (real_api39 U B) lossy pb n m k = fuzz_from_phrase U lossy pb n m k).
Proof. repeat split; intros; reflexivity. Qed.

Print Assumptions C105_parse_path.
Print Assumptions C105_derive_path.
Print Assumptions C105_parse_xkey.
Print Assumptions C105_from_entropy.
Print Assumptions C105_to_seed.
Print Assumptions C105_from_phrase.
Print Assumptions C105_same.
