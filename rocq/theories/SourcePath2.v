(** Proofs that the functions of the text path/mod.rs, run by [RustEval], do what the model of derivation paths says. *)
From Coq Require Import Lia.
From Verif Require Import Base Str Error32 Path32 Mnemonic39 RustSyntax RustEval RustSource32 RustExec SourcePath.
From Coq Require Import List.
Import ListNotations.
Local Open Scope string_scope.
Local Open Scope N_scope.
Local Open Scope list_scope.

Section Runs.
Variable B : build.
Variable F : nat.

Ltac known_error := idtac;
  lazymatch goal with
  | |- run _ _ _ _ "Error" "new" _ = _ => apply error_new_run
  | |- run _ _ _ _ "Error" "with_context" [_; _; VStr _] = _ => apply context_str_run
  | |- run _ _ _ _ "Error" "with_context" [_; _; VInt _ _] = _ => apply context_int_run
  end.

(** ** Display *)
Local Notation shown_locals p s := [("f", VStr s); ("self", path_value p)].
Local Notation child_round d :=
  (for_round (fun e r => eval B prog F (enter B prog F (S (S (S d)))) false "DerivationPath" e r) (QBind "child")
     (EBlock [ETry (EMacro "write" [EPath ["f"]; EStr "/{child}"])] None)).
Lemma child_round_run d p s c :
  child_round d (child_value c) (shown_locals p s) = Val VUnit (shown_locals p (s ++ lit "/" ++ child_show c)).
Proof.
  unfold for_round; small. etransitivity; [ev prog ltac:(idtac; apply child_show_run)|].
  rewrite app_nil_r. reflexivity.
Qed.
Lemma children_round_run d p : forall cs s,
  each (children cs) (child_round d) (shown_locals p s)
  = Val VUnit (shown_locals p (fold_left (fun out c => out ++ lit "/" ++ child_show c) cs s)).
Proof.
  induction cs as [|c cs IH]; intros s; [reflexivity|]. cbn [children map fold_left].
  eapply each_more; [apply child_round_run|apply IH].
Qed.
Lemma show_acc (cs : list N) : forall s t,
  fold_left (fun out c => out ++ lit "/" ++ child_show c) cs (s ++ t)
  = s ++ fold_left (fun out c => out ++ lit "/" ++ child_show c) cs t.
Proof.
  induction cs as [|c cs IH]; intros s t; [reflexivity|]. cbn [fold_left].
  rewrite <- (app_assoc s t). apply IH.
Qed.
Lemma path_show_run d p s :
  run B prog F (S (S (S (S d)))) "DerivationPath" "fmt" [path_value p; VStr s]
  = inl (ok VUnit, [path_value p; VStr (s ++ path_show p)]).
Proof.
  unfold path_show. rewrite <- show_acc.
  runs prog ltac:(idtac; apply (children_round_run d p p)).
Qed.

(** ** Parsing *)
Local Notation slash_clo seen := (VClo "DerivationPath" [(QRef (QRef (QBind "b")), None)] (EBin PEqEq (EPath ["b"]) (EByte 47)) seen).
Local Notation ints l := (map (fun b => VInt U8 (b2n b)) l).
Lemma slashes_run d rest s : forall l,
  filter_list prog (enter B prog F (S d)) (slash_clo [("rest", VStr rest); ("path", VStr s)]) (ints l)
    [("rest", VStr rest); ("path", VStr s)]
  = Val (ints (filter (fun b => b2n b =? 47) l)) [("rest", VStr rest); ("path", VStr s)].
Proof.
  induction l as [|b l IH]; [reflexivity|]. cbn [map filter].
  erewrite filter_list_cons; [| ev prog fail | reflexivity | exact IH].
  destruct (b2n b =? 47); reflexivity.
Qed.
Local Notation part_locals cs rest s := [("children", VList (children cs)); ("rest", VStr rest); ("path", VStr s)].
Local Notation part_body :=
  (EBlock
     [EIf (EMethod (EPath ["part"]) "is_empty" [] [])
        (EBlock
           [EReturn (Some (ECall (EPath ["Err"])
              [EMethod (ECall (EPath ["Error"; "new"]) [EPath ["ErrorKind"; "InvalidPath"]; EStr "empty path component"])
                 "with_context" [] [EStr "path"; EPath ["path"]]]))] None)
        (ETuple []);
      EMethod (EPath ["children"]) "push" [] [ETry (EMethod (EPath ["part"]) "parse" [] [])]] None).
Local Notation part_round d :=
  (for_round (fun e r => eval B prog F (enter B prog F (S (S (S (S d))))) false "DerivationPath" e r) (QBind "part") part_body).
Lemma component_not_panic s : parse_child_component s <> Panic.
Proof.
  unfold parse_child_component.
  assert (H : forall n h, (if is_empty n then Err (with_context (err_new InvalidPath (lit "missing child index")) (lit "component") s)
     else match parse_u32 n with None => Err (with_context (err_new InvalidPath (lit "invalid child index")) (lit "component") s)
          | Some i => child_new i h end) <> Panic).
  { intros n h. destruct (is_empty n); [discriminate|]. destruct (parse_u32 n) as [i|]; [|discriminate].
    destruct (child_new_cases i h) as [[c E]|[e E]]; rewrite E; discriminate. }
  destruct (strip_suffix 39 s); [|destruct (strip_suffix 104 s); [|destruct (strip_suffix 72 s)]]; apply H.
Qed.
Lemma children_snoc cs c : children (cs ++ [c]) = children cs ++ [child_value c].
Proof. unfold children. rewrite map_app. reflexivity. Qed.
Lemma parts_run d rest s : forall parts cs,
  match parse_parts s cs parts with
  | Ok p => each (map VStr parts) (part_round d) (part_locals cs rest s) = Val VUnit (part_locals p rest s)
  | Err e => exists cs', each (map VStr parts) (part_round d) (part_locals cs rest s)
                         = Jump (Returned (err (error_value e))) (part_locals cs' rest s)
  | Panic => False
  end.
Proof.
  induction parts as [|t parts IH]; intros cs; cbn [parse_parts map]; [reflexivity|].
  destruct (is_empty t) eqn:E0.
  { exists cs. eapply each_eq; [unfold for_round; small; ev prog known_error|reflexivity]. }
  pose proof (child_from_str_run B F d t) as R.
  destruct (parse_child_component t) as [c|e|] eqn:E1; cbn [bind].
  - specialize (IH (cs ++ [c])). unfold result in R.
    assert (R1 : part_round d (VStr t) (part_locals cs rest s) = Val VUnit (part_locals (cs ++ [c]) rest s)).
    { rewrite children_snoc. unfold for_round; small. ev prog ltac:(idtac; exact R). }
    destruct (parse_parts s (cs ++ [c]) parts) as [p|e|]; [| |exact IH].
    + eapply each_more; [exact R1|exact IH].
    + destruct IH as [cs' IH]. exists cs'. eapply each_more; [exact R1|exact IH].
  - unfold result in R. exists cs. eapply each_eq; [unfold for_round; small; ev prog ltac:(idtac; exact R)|reflexivity].
  - elim (component_not_panic _ E1).
Qed.

Lemma strip_prefix_shorter p : forall s t, strip_prefix p s = Some t -> (length (utf8 t) <= length (utf8 s))%nat.
Proof.
  induction p as [|a p IH]; intros s t; cbn [strip_prefix]; [intros [= ->]; lia|].
  destruct s as [|b s]; [discriminate|]. destruct (a =? b); [|discriminate]. intros H. apply IH in H.
  unfold utf8 in *. cbn [flat_map]. rewrite app_length. lia.
Qed.
Lemma filter_shorter {A} (f : A -> bool) l : (length (filter f l) <= length l)%nat.
Proof. induction l as [|a l IH]; cbn [filter length]; [lia|]. destruct (f a); cbn [length]; lia. Qed.
(** from the place where [rest] is known *)
Ltac parse_rest d rest s E0 :=
  let R := fresh "R" in
  pose proof (parts_run d rest s (split_on (fun c => c =? 47) rest) []) as R; cbn [children map] in R;
  destruct (parse_parts s [] (split_on (fun c => c =? 47) rest)) as [p|e|] eqn:EP;
  [|destruct R as [cs' R]|elim R];
  unfold result; runs prog ltac:(idtac; first [exact R | apply slashes_run | known_error]).
Lemma path_parse_run d s : N.of_nat (length (utf8 s)) + 1 < 2 ^ b_usize_bits B ->
  run B prog F (S (S (S (S (S d))))) "DerivationPath" "from_str" [VStr s]
  = inl (result (fun p => path_value p) (path_parse s), [VStr s]).
Proof.
  intros HL. unfold path_parse.
  destruct (is_empty s) eqn:E0; [unfold result; runs prog known_error|].
  change (lit "m") with (codes "m"). change (lit "M") with (codes "M").
  destruct (str_eqb s (codes "m")) eqn:E1; [unfold result; runs prog known_error|].
  destruct (str_eqb s (codes "M")) eqn:E2; [unfold result; runs prog known_error|]. cbn [orb].
  change (lit "m/") with (codes "m/"). change (lit "M/") with (codes "M/").
  assert (HR : forall rest, (length (utf8 rest) <= length (utf8 s))%nat ->
    fit B Usize (N.of_nat (length (ints (filter (fun b => b2n b =? 47) (utf8 rest)))) + 1)
    = Got (VInt Usize (N.of_nat (length (ints (filter (fun b => b2n b =? 47) (utf8 rest)))) + 1))).
  { intros rest Hr. apply fit_ok. change (width B Usize) with (b_usize_bits B). rewrite map_length.
    pose proof (filter_shorter (fun b => b2n b =? 47) (utf8 rest)). lia. }
  destruct (strip_prefix (codes "m/") s) as [t|] eqn:E3; [|destruct (strip_prefix (codes "M/") s) as [t|] eqn:E4].
  - specialize (HR t (strip_prefix_shorter _ _ _ E3)). clear HL.
    destruct (is_empty t) eqn:E5; [unfold result; runs prog known_error|]. parse_rest d t s E0.
  - specialize (HR t (strip_prefix_shorter _ _ _ E4)). clear HL.
    destruct (is_empty t) eqn:E5; [unfold result; runs prog known_error|]. parse_rest d t s E0.
  - specialize (HR s (le_n _)). clear HL. rewrite E0. parse_rest d s s E0.
Qed.

(** ** Hardened paths *)
Local Notation soft_clo seen :=
  (VClo "HardenedDerivationPath" [(QBind "child", None)]
     (EUn PBang (EMethod (EPath ["child"]) "is_hardened" [] [])) seen).
Lemma find_run d p : forall cs,
  find_list prog (enter B prog F (S (S (S d)))) (soft_clo [("value", path_value p)]) (children cs) [("value", path_value p)]
  = Val (match find (fun c => negb (child_is_hardened c)) cs with Some c => some (child_value c) | None => none end)
      [("value", path_value p)].
Proof.
  induction cs as [|c cs IH]; [reflexivity|]. cbn [children map find].
  erewrite find_list_cons; [| ev prog ltac:(idtac; apply child_is_hardened_run) | reflexivity].
  destruct (child_is_hardened c); [exact IH|reflexivity].
Qed.
Lemma path_children_run d p :
  run B prog F (S d) "DerivationPath" "children" [path_value p] = inl (VList (children p), [path_value p]).
Proof. runs prog fail. Qed.
Lemma hpath_try_from_run d p :
  run B prog F (S (S (S (S d)))) "HardenedDerivationPath" "try_from" [path_value p]
  = inl (result (fun h => hpath_value (hp_inner h)) (hpath_try_from p), [path_value p]).
Proof.
  unfold hpath_try_from. pose proof (find_run d p p) as R.
  destruct (find _ p) as [c|]; unfold result; cbn [hp_inner];
    runs prog ltac:(idtac; first [exact R | apply path_children_run | apply child_index_run | known_error]).
Qed.
Lemma path_not_panic s : path_parse s <> Panic.
Proof.
  unfold path_parse. destruct (is_empty s); [discriminate|]. destruct (_ || _); [discriminate|].
  destruct (is_empty _); [discriminate|].
  match goal with |- parse_parts s [] (split_on _ ?rest) <> Panic =>
    pose proof (parts_run 0 rest s (split_on (fun c => c =? 47) rest) []) as R end.
  destruct (parse_parts _ _ _); [discriminate..|elim R].
Qed.
Lemma hpath_parse_run d s : N.of_nat (length (utf8 s)) + 1 < 2 ^ b_usize_bits B ->
  run B prog F (S (S (S (S (S (S d)))))) "HardenedDerivationPath" "from_str" [VStr s]
  = inl (result (fun h => hpath_value (hp_inner h)) (hpath_parse s), [VStr s]).
Proof.
  intros HL. unfold hpath_parse. pose proof (path_parse_run d s HL) as R. clear HL.
  destruct (path_parse s) as [p|e|] eqn:E; cbn [bind].
  - pose proof (hpath_try_from_run (S d) p) as R2. unfold result in R.
    runs prog ltac:(idtac; first [exact R | exact R2]).
  - unfold result in *. runs prog ltac:(idtac; exact R).
  - elim (path_not_panic s E).
Qed.
Lemma map_run d r : forall cs,
  map_list prog (enter B prog F (S (S (S d)))) (VFn ["HardenedChildNumber"; "from_child_unchecked"]) (children cs) r
  = match hchildren (E := Error) (b_debug B) cs with
    | Ok hs => Val (map (fun h => hchild_value (hc_child h)) hs) r
    | _ => Fault Panicked
    end.
Proof.
  induction cs as [|c cs IH]; [reflexivity|]. cbn [children map map_list hchildren].
  pose proof (unchecked_run B F d c) as R. unfold from_child_unchecked in *.
  assert (E : call_value prog (enter B prog F (S (S (S d)))) (VFn ["HardenedChildNumber"; "from_child_unchecked"]) (child_value c) r
    = if b_debug B && negb (child_is_hardened c) then Fault Panicked else Val (hchild_value c) r).
  { destruct (b_debug B && negb (child_is_hardened c)); ev prog ltac:(idtac; exact R). }
  rewrite E. destruct (b_debug B && negb (child_is_hardened c)); cbn [bind obind]; [reflexivity|].
  fold (children cs). rewrite IH. destruct (hchildren (b_debug B) cs); reflexivity.
Qed.
Lemma hpath_children_run d p :
  run B prog F (S (S (S (S d)))) "HardenedDerivationPath" "children" [hpath_value p]
  = match hpath_children (E := Error) (b_debug B) (mkHP p) with
    | Ok hs => inl (VList (map (fun h => hchild_value (hc_child h)) hs), [hpath_value p])
    | _ => inr Panicked
    end.
Proof.
  unfold hpath_children. cbn [hp_inner].
  pose proof (map_run d [("self", hpath_value p)] p) as R.
  destruct (hchildren (b_debug B) p) as [hs|e|]; runs prog ltac:(idtac; first [exact R | apply path_children_run]).
Qed.
End Runs.
