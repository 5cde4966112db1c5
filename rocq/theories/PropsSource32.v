(** C112: the text of the source of derivation paths, read by [RustSyntax] and run by [RustEval]. *)
From Coq Require Import Lia.
From Verif Require Import Base Str Error32 Path32 PathSpec32 PathProofs32 Mnemonic39 Props32 Props32r
  RustSyntax RustEval RustSource32 RustExec SourcePath SourcePath2.
From Coq Require Import List.
Import ListNotations.
Local Open Scope string_scope.
Local Open Scope N_scope.
Local Open Scope list_scope.

(** [p] is the program the three texts denote *)
Definition reads (p : list item) : Prop :=
  exists a b c, parse error32_rs = Some a /\ parse child_rs = Some b /\ parse path_rs = Some c /\ p = a ++ b ++ c.
Lemma error_read : parse error32_rs = Some error_items.
Proof. vm_cast_no_check (eq_refl (Some error_items)). Qed.
Lemma child_read : parse child_rs = Some child_items.
Proof. vm_cast_no_check (eq_refl (Some child_items)). Qed.
Lemma path_read : parse path_rs = Some path_items.
Proof. vm_cast_no_check (eq_refl (Some path_items)). Qed.
Lemma reads_prog p : reads p <-> p = prog.
Proof.
  unfold reads. rewrite error_read, child_read, path_read. split.
  - intros [a [b [c [[= <-] [[= <-] [[= <-] ->]]]]]]. reflexivity.
  - intros ->. repeat eexists.
Qed.
Theorem C112_source_read : exists! p, reads p.
Proof. exists prog. split; [apply reads_prog; reflexivity|]. intros q H. apply reads_prog in H. congruence. Qed.
Print Assumptions C112_source_read.

(** ** Values *)
Notation child c := (VRec "ChildNumber" [("0", VInt U32 c)]).
Notation path cs := (VRec "DerivationPath" [("children", VList (map (fun c => child c) cs))]).
Notation hardened_path cs := (VRec "HardenedDerivationPath" [("inner", path cs)]).
Notation rust_ok v := (VCon "Result" "Ok" [v]).
Notation rust_err v := (VCon "Result" "Err" [v]).
(** an error with this message and one entry of context *)
Notation path_err m k v :=
  (VRec "Error" [("kind", VCon "ErrorKind" "InvalidPath" []); ("message", VStr m);
                 ("context", VList [VTup [VStr k; VStr v]]); ("source", VCon "Option" "None" [])]).

Lemma depth6 D : (6 <= D)%nat -> exists d, D = S (S (S (S (S (S d))))).
Proof. intros H. exists (D - 6)%nat. lia. Qed.
Lemma children_inj a b : children a = children b -> a = b.
Proof.
  revert b; induction a as [|x a IH]; intros [|y b]; cbn [children map]; try discriminate; [reflexivity|].
  intros [= -> H]. f_equal. apply IH, H.
Qed.
(** every error of paths has this shape *)
Lemma component_shape s e : parse_child_component s = Err e -> exists m k v, e = with_context (err_new InvalidPath m) k v.
Proof.
  unfold parse_child_component.
  destruct (strip_suffix 39 s) as [t|]; [|destruct (strip_suffix 104 s) as [t|]; [|destruct (strip_suffix 72 s) as [t|]]];
  cbv beta iota zeta; unfold child_new;
  repeat match goal with
  | |- context [if ?c then _ else _] => destruct c
  | |- context [match ?c with Some _ => _ | None => _ end] => destruct c
  end; first [discriminate | intros [= <-]; repeat eexists].
Qed.
Lemma parts_shape s parts : forall cs e, parse_parts s cs parts = Err e -> exists m k v, e = with_context (err_new InvalidPath m) k v.
Proof.
  induction parts as [|t parts IH]; intros cs e; cbn [parse_parts]; [discriminate|].
  destruct (is_empty t); [intros [= <-]; repeat eexists|].
  destruct (parse_child_component t) as [c|er|] eqn:E; cbn [bind]; [apply IH| |discriminate].
  intros [= <-]. eapply component_shape, E.
Qed.
Lemma path_shape s e : path_parse s = Err e -> exists m k v, e = with_context (err_new InvalidPath m) k v.
Proof.
  unfold path_parse. destruct (is_empty s); [intros [= <-]; repeat eexists|].
  destruct (_ || _); [discriminate|]. destruct (is_empty _); [intros [= <-]; repeat eexists|]. apply parts_shape.
Qed.

(** ** One component *)
Theorem C112_child_grammar p B F D s :
  reads p -> (6 <= D)%nat ->
  (forall c, run B p F D "ChildNumber" "from_str" [VStr s] = inl (rust_ok (child c), [VStr s]) <-> spells_child s c) /\
  ((forall c, ~ spells_child s c) -> exists m k v,
     run B p F D "ChildNumber" "from_str" [VStr s] = inl (rust_err (path_err m k v), [VStr s])).
Proof.
  intros HP HD. apply reads_prog in HP. subst p. destruct (depth6 D HD) as [d ->].
  rewrite child_from_str_run. split.
  - intros c. rewrite <- component_iff. destruct (parse_child_component s) as [x|e|]; cbn [result];
      (split; [intros [=]; subst; try reflexivity|intros [=]; subst; reflexivity]).
  - intros H. destruct (parse_child_component s) as [x|e|] eqn:E.
    + apply component_iff in E. elim (H _ E).
    + destruct (component_shape _ _ E) as [m [k [v ->]]]. exists m, k, v. reflexivity.
    + elim (component_not_panic _ E).
Qed.
Print Assumptions C112_child_grammar.

(** The number is the index and the flag; the bytes are big-endian. *)
Theorem C112_child_number p B F D c :
  reads p -> (6 <= D)%nat -> c < 2 ^ 32 ->
  run B p F D "ChildNumber" "index" [child c] = inl (VInt U32 (c mod 2 ^ 31), [child c]) /\
  run B p F D "ChildNumber" "is_hardened" [child c] = inl (VBool (2 ^ 31 <=? c), [child c]) /\
  run B p F D "ChildNumber" "new" [VInt U32 (c mod 2 ^ 31); VBool (2 ^ 31 <=? c)]
    = inl (rust_ok (child c), [VInt U32 (c mod 2 ^ 31); VBool (2 ^ 31 <=? c)]) /\
  (forall h, 2 ^ 31 <= c -> exists m k v, run B p F D "ChildNumber" "new" [VInt U32 c; VBool h]
    = inl (rust_err (path_err m k v), [VInt U32 c; VBool h])) /\
  (exists bs, run B p F D "ChildNumber" "to_bytes" [child c] = inl (VBytes bs, [child c]) /\
     length bs = 4%nat /\ fold_left (fun a b => a * 256 + b2n b) bs 0 = c /\
     run B p F D "ChildNumber" "from_bytes" [VBytes bs] = inl (child c, [VBytes bs])).
Proof.
  intros HP HD Hc. apply reads_prog in HP. subst p. destruct (depth6 D HD) as [d ->].
  rewrite child_index_run, child_is_hardened_run, child_to_bytes_run, child_new_run.
  assert (HI : child_index c = c mod 2 ^ 31) by (unfold child_index; change 0x7FFFFFFF with (N.ones 31); apply N.land_ones).
  rewrite HI. split; [reflexivity|]. split; [reflexivity|]. split; [|split].
  - change (2 ^ 31) with 2147483648. unfold child_new, HARDENED_OFFSET, result.
    pose proof (N.mod_lt c 2147483648 ltac:(discriminate)).
    destruct (N.leb_spec 0x80000000 (c mod 2147483648)); [lia|].
    pose proof (N.div_mod c 2147483648 ltac:(discriminate)).
    change (2 ^ 32) with 4294967296 in Hc.
    destruct (N.leb_spec 2147483648 c) as [L|L].
    + assert (E : c / 2147483648 = 1).
      { assert (c / 2147483648 < 2) by (apply N.div_lt_upper_bound; lia).
        assert (1 <= c / 2147483648) by (apply N.div_le_lower_bound; lia). lia. }
      replace (c mod 2147483648 + 2147483648) with c by lia. reflexivity.
    + rewrite N.mod_small by lia. reflexivity.
  - intros h L. rewrite child_new_run. unfold child_new, HARDENED_OFFSET, result. change (2 ^ 31) with 0x80000000 in L.
    destruct (N.leb_spec 0x80000000 c); [|lia]. repeat eexists.
  - eexists. split; [reflexivity|]. unfold child_to_bytes, u32_to_be. split; [apply be_bytes_length|].
    assert (E : be_val (be_bytes 4 c) = c) by (rewrite be_val_be_bytes; apply N.mod_small; exact Hc).
    split; [|rewrite child_from_bytes_run; unfold child_from_bytes, u32_from_be; rewrite E; reflexivity].
    exact E.
Qed.
Print Assumptions C112_child_number.

(** ** Paths *)
Theorem C112_path_grammar p B F D s :
  reads p -> (6 <= D)%nat -> N.of_nat (length (utf8 s)) + 1 < 2 ^ b_usize_bits B ->
  (forall cs, run B p F D "DerivationPath" "from_str" [VStr s] = inl (rust_ok (path cs), [VStr s]) <-> spells_path s cs) /\
  ((forall cs, ~ spells_path s cs) -> exists m k v,
     run B p F D "DerivationPath" "from_str" [VStr s] = inl (rust_err (path_err m k v), [VStr s])).
Proof.
  intros HP HD HL. apply reads_prog in HP. subst p. destruct (depth6 D HD) as [d ->].
  rewrite path_parse_run by exact HL. split.
  - intros cs. rewrite <- path_parse_iff. destruct (path_parse s) as [x|e|]; cbn [result].
    + split; [intros [= H]; apply children_inj in H; subst; reflexivity|intros [=]; subst; reflexivity].
    + split; intros [=].
    + split; intros [=].
  - intros H. destruct (path_parse s) as [x|e|] eqn:E.
    + apply path_parse_iff in E. elim (H _ E).
    + destruct (path_shape _ _ E) as [m [k [v ->]]]. exists m, k, v. reflexivity.
    + elim (path_not_panic B F s E).
Qed.
Print Assumptions C112_path_grammar.

(** A rejected path names its first bad component and what is wrong with it. *)
Theorem C112_path_error p B F D s e :
  reads p -> (6 <= D)%nat -> N.of_nat (length (utf8 s)) + 1 < 2 ^ b_usize_bits B ->
  (s = [] /\ e = path_error (lit "derivation path is empty") (lit "path") []) \/
  (s <> [] /\ s <> lit "m" /\ s <> lit "M" /\
   exists prefix good c rest numbers,
     s = prefix ++ join (lit "/") (good ++ c :: rest) /\
     (prefix = lit "m/" \/ prefix = lit "M/" \/
      prefix = [] /\ forall t, s <> lit "m/" ++ t /\ s <> lit "M/" ++ t) /\
     Forall (Forall (fun x => x <> 47)) (good ++ c :: rest) /\
     Forall2 spells_child good numbers /\ component_fault s c e) ->
  exists k v, e_context e = [(k, v)] /\
    run B p F D "DerivationPath" "from_str" [VStr s] = inl (rust_err (path_err (e_message e) k v), [VStr s]).
Proof.
  intros HP HD HL H. apply C80_path_error in H. apply reads_prog in HP. subst p. destruct (depth6 D HD) as [d ->].
  rewrite path_parse_run by exact HL. rewrite H.
  destruct (path_shape _ _ H) as [m [k [v ->]]]. exists k, v. split; reflexivity.
Qed.
Print Assumptions C112_path_error.

(** [Display] writes the numbers in decimal, and the text parses back. *)
Definition component (c : N) : str := dec (c mod 2 ^ 31) ++ (if 2 ^ 31 <=? c then lit "'" else []).
Theorem C112_display p B F D cs s :
  reads p -> (6 <= D)%nat -> Forall (fun c => c < 2 ^ 32) cs ->
  let t := join (lit "/") (lit "m" :: map component cs) in
  run B p F D "DerivationPath" "fmt" [path cs; VStr s] = inl (rust_ok VUnit, [path cs; VStr (s ++ t)]) /\
  (N.of_nat (length (utf8 t)) + 1 < 2 ^ b_usize_bits B ->
   run B p F D "DerivationPath" "from_str" [VStr t] = inl (rust_ok (path cs), [VStr t])).
Proof.
  intros HP HD HC t. apply reads_prog in HP. subst p. destruct (depth6 D HD) as [d ->].
  assert (E : path_show cs = t).
  { unfold t, path_show. cbn [join]. 
    assert (G : forall l a, fold_left (fun out c => out ++ lit "/" ++ child_show c) l a
                = match map component l with [] => a | _ => a ++ lit "/" ++ join (lit "/") (map component l) end).
    { clear. intros l. induction l as [|c l IH]; intros a; [reflexivity|]. cbn [fold_left map]. rewrite IH.
      assert (EC : child_show c = component c).
      { unfold child_show, component, child_index, child_is_hardened. change 0x7FFFFFFF with (N.ones 31).
        rewrite N.land_ones. reflexivity. }
      rewrite EC. destruct (map component l) as [|x xs]; cbn [join]; [reflexivity|].
      rewrite <- !app_assoc. reflexivity. }
    rewrite G. destruct (map component cs); reflexivity. }
  split; [rewrite path_show_run, E; reflexivity|].
  intros HL. rewrite path_parse_run by exact HL. rewrite <- E, (proj2 C23_display_parses cs HC). reflexivity.
Qed.
Print Assumptions C112_display.

(** ** Hardened paths *)
Theorem C112_hardened p B F D s :
  reads p -> (6 <= D)%nat -> N.of_nat (length (utf8 s)) + 1 < 2 ^ b_usize_bits B ->
  (forall cs, run B p F D "HardenedDerivationPath" "from_str" [VStr s] = inl (rust_ok (hardened_path cs), [VStr s])
     <-> spells_path s cs /\ Forall (fun c => 2 ^ 31 <= c) cs) /\
  ((forall cs, ~ (spells_path s cs /\ Forall (fun c => 2 ^ 31 <= c) cs)) -> exists m k v,
     run B p F D "HardenedDerivationPath" "from_str" [VStr s] = inl (rust_err (path_err m k v), [VStr s])).
Proof.
  intros HP HD HL. apply reads_prog in HP. subst p. destruct (depth6 D HD) as [d ->].
  rewrite hpath_parse_run by exact HL. unfold hpath_parse.
  assert (T : forall l, (forall c, In c l -> 2 ^ 31 <= c) <-> find (fun c => negb (child_is_hardened c)) l = None).
  { intros l. split.
    - intros H. destruct (find _ l) as [c|] eqn:E; [|reflexivity]. apply find_some in E as [E1 E2].
      apply H in E1. unfold child_is_hardened, HARDENED_OFFSET in E2. apply Bool.negb_true_iff, N.leb_gt in E2.
      change (2 ^ 31) with 0x80000000 in E1. lia.
    - intros H c Hc. apply (find_none _ _ H) in Hc. apply Bool.negb_false_iff, N.leb_le in Hc. exact Hc. }
  split.
  - intros cs. rewrite <- path_parse_iff, Forall_forall, T. destruct (path_parse s) as [x|e|]; cbn [bind].
    + unfold hpath_try_from. destruct (find (fun c => negb (child_is_hardened c)) x) as [c|] eqn:EF; cbn [result hp_inner].
      * split; [intros [=]|intros [[= ->] H]; congruence].
      * split; [intros [= H]; apply children_inj in H; subst; auto|intros [[= ->] _]; reflexivity].
    + split; [intros [=]|intros [[=] _]].
    + split; [intros [=]|intros [[=] _]].
  - intros H. destruct (path_parse s) as [x|e|] eqn:E; cbn [bind].
    + unfold hpath_try_from. destruct (find (fun c => negb (child_is_hardened c)) x) as [c|] eqn:EF; cbn [result].
      * repeat eexists.
      * elim (H x). split; [apply path_parse_iff, E|]. apply Forall_forall, T, EF.
    + destruct (path_shape _ _ E) as [m [k [v ->]]]. exists m, k, v. reflexivity.
    + elim (path_not_panic B F s E).
Qed.
Print Assumptions C112_hardened.

(** The children of a hardened path are its children; a soft one, which parsing lets no path hold, is a panic with
    debug assertions only. *)
Theorem C112_hardened_children p B F D cs :
  reads p -> (6 <= D)%nat ->
  run B p F D "HardenedDerivationPath" "children" [hardened_path cs]
  = if b_debug B && negb (forallb (fun c => 2 ^ 31 <=? c) cs) then inr Panicked
    else inl (VList (map (fun c => VRec "HardenedChildNumber" [("0", child c)]) cs), [hardened_path cs]).
Proof.
  intros HP HD. apply reads_prog in HP. subst p. destruct (depth6 D HD) as [d ->].
  change (map (fun c => child c) cs) with (children cs).
  rewrite (hpath_children_run B F (S (S d)) cs). unfold hpath_children. cbn [hp_inner].
  assert (G : hchildren (E := Error) (b_debug B) cs
    = if b_debug B && negb (forallb (fun c => 2 ^ 31 <=? c) cs) then Panic else Ok (map mkHC cs)).
  { induction cs as [|c cs IH]; cbn [hchildren forallb map]; [rewrite Bool.andb_false_r; reflexivity|].
    unfold from_child_unchecked, child_is_hardened, HARDENED_OFFSET. change (2 ^ 31) with 0x80000000 in *.
    destruct (b_debug B), (0x80000000 <=? c); cbn [andb negb bind] in *; try reflexivity; rewrite IH;
      try (destruct (forallb _ cs); reflexivity); reflexivity. }
  rewrite G. destruct (_ && _); [reflexivity|]. rewrite map_map. reflexivity.
Qed.
Print Assumptions C112_hardened_children.

(** *** Concrete cases *)
Definition b64 : build := {| b_debug := true; b_usize_bits := 64 |}.
Example C112_case : reads prog /\
  run b64 prog 0 6 "DerivationPath" "from_str" [VStr (lit "M/+044h/7")]
  = inl (rust_ok (path [2147483692; 7]), [VStr (lit "M/+044h/7")]) /\
  run b64 prog 0 6 "HardenedDerivationPath" "from_str" [VStr (lit "m/1'/5")]
  = inl (rust_err (path_err (lit "expected hardened derivation path") (lit "child_index") (lit "5")), [VStr (lit "m/1'/5")]) /\
  run b64 prog 0 6 "HardenedDerivationPath" "children" [hardened_path [5]] = inr Panicked.
Proof. split; [apply reads_prog; reflexivity|]. vm_compute. repeat split. Qed.
