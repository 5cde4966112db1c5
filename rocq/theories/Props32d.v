(** Property theorems for the text forms of bip0032 errors (C73). *)
From Verif Require Import Base Str StrProofs Error32 Path32.

Lemma kind_name_end k k' r r' : kind_name k ++ 58 :: r = kind_name k' ++ 58 :: r' -> k = k' /\ r = r'.
Proof.
  intros E. assert (C : forall k, ~ In 58 (kind_name k)).
  { intros [| | | |] I; vm_compute in I; repeat (destruct I as [I|I]; [discriminate I|]); exact I. }
  apply cut_at in E as [E ->]; [|apply C..]. split; [|reflexivity].
  destruct k, k'; (reflexivity || (vm_compute in E; discriminate E)).
Qed.
(** C73: both text forms show the kind. *)
Theorem C73_kind e e' shows shows' :
  show_error e = show_error e' \/ debug_error shows e = debug_error shows' e' -> e_kind e = e_kind e'.
Proof.
  unfold show_error, debug_error. change (lit ": ") with (58 :: lit " ").
  intros [E|E]; cbn [app] in E; apply kind_name_end in E as [E _]; exact E.
Qed.
Print Assumptions C73_kind.

(** Message, context and source without line feeds, keys without colons. *)
Definition one_line (shows : Source -> str) (e : Error) : Prop :=
  ~ In 10 (e_message e) /\
  Forall (fun kv => ~ In 10 (fst kv) /\ ~ In 10 (snd kv) /\ ~ In 58 (fst kv)) (e_context e) /\
  match e_source e with Some s => ~ In 10 (shows s) | None => True end.

Lemma context_lines_inj c : forall c' r r',
  Forall (fun kv => ~ In 10 (fst kv) /\ ~ In 10 (snd kv) /\ ~ In 58 (fst kv)) c ->
  Forall (fun kv => ~ In 10 (fst kv) /\ ~ In 10 (snd kv) /\ ~ In 58 (fst kv)) c' ->
  hd 0 r <> 32 -> hd 0 r' <> 32 ->
  flat_map (fun kv => lit "    " ++ fst kv ++ lit ": " ++ snd kv ++ nl) c ++ r =
  flat_map (fun kv => lit "    " ++ fst kv ++ lit ": " ++ snd kv ++ nl) c' ++ r' -> c = c' /\ r = r'.
Proof.
  induction c as [|[k v] c IH]; intros [|[k' v'] c'] r r' F F' H H' E; cbn [flat_map fst snd app] in E.
  - auto.
  - exfalso. subst r. apply H. reflexivity.
  - exfalso. subst r'. apply H'. reflexivity.
  - inversion F as [|? ? (A1 & A2 & A3) G]; subst. inversion F' as [|? ? (B1 & B2 & B3) G']; subst. cbn [fst snd] in *.
    rewrite <- !app_assoc in E. apply app_inv_head in E. change (lit ": ") with (58 :: lit " ") in E. cbn [app] in E.
    apply cut_at in E as [-> E]; [|assumption..]. apply app_inv_head in E. unfold nl in E. cbn [app] in E.
    apply cut_at in E as [-> E]; [|assumption..].
    destruct (IH c' r r' G G' H H' E) as [-> ->]. auto.
Qed.
(** C73: the [Debug] text determines kind, message, every context entry and the text of the
    source, when these have no line feeds. *)
Theorem C73_debug shows e e' : one_line shows e -> one_line shows e' ->
  debug_error shows e = debug_error shows e' ->
  e_kind e = e_kind e' /\ e_message e = e_message e' /\ e_context e = e_context e' /\
  option_map shows (e_source e) = option_map shows (e_source e').
Proof.
  intros (M & C & S) (M' & C' & S') E. unfold debug_error in E.
  set (src := fun e => match e_source e with Some s => lit "Source: " ++ shows s ++ nl | None => [] end).
  set (T := fun e => (if is_empty (e_context e) then [] else lit "Context:" ++ nl ++
    flat_map (fun kv => lit "    " ++ fst kv ++ lit ": " ++ snd kv ++ nl) (e_context e)) ++ src e).
  assert (E1 : kind_name (e_kind e) ++ 58 :: lit " " ++ e_message e ++ 10 :: T e =
               kind_name (e_kind e') ++ 58 :: lit " " ++ e_message e' ++ 10 :: T e') by exact E.
  clear E. rename E1 into E. apply kind_name_end in E as [-> E]. apply app_inv_head in E.
  apply cut_at in E as [-> E]; [|assumption..]. unfold T in E.
  assert (HS : forall e, hd 0 (src e) <> 32 /\ hd 0 (src e) <> 67).
  { intros x. unfold src. destruct (e_source x); split; discriminate. }
  assert (K : e_context e = e_context e' /\ src e = src e').
  { destruct (e_context e) as [|kv c] eqn:Ec; destruct (e_context e') as [|kv' c'] eqn:Ec'; cbn [is_empty app] in E.
    - auto.
    - exfalso. apply (proj2 (HS e)). rewrite E. reflexivity.
    - exfalso. apply (proj2 (HS e')). rewrite <- E. reflexivity.
    - rewrite <- !app_assoc in E. do 2 apply app_inv_head in E.
      apply context_lines_inj in E; try assumption; apply HS. }
  destruct K as [-> K]. repeat (split; [reflexivity|]).
  unfold src in K. destruct (e_source e) as [s|], (e_source e') as [s'|]; cbn [option_map]; try discriminate K; [|reflexivity].
  apply app_inv_head in K. apply app_inv_tail in K. congruence.
Qed.
Print Assumptions C73_debug.
Example C73_case : let e := with_context (with_context (err_new InvalidDerivation (lit "invalid child private key"))
    (lit "child_index") (lit "7")) (lit "hardened") (lit "true") in
  one_line (fun _ => []) e /\ debug_error (fun _ => []) e =
    lit "InvalidDerivation: invalid child private key" ++ nl ++ lit "Context:" ++ nl ++
    lit "    child_index: 7" ++ nl ++ lit "    hardened: true" ++ nl.
Proof.
  cbv zeta. assert (N : forall c s, existsb (N.eqb c) s = false -> ~ In c s).
  { intros c s H I. assert (T : existsb (N.eqb c) s = true) by (apply existsb_exists; exists c; split; [exact I|apply N.eqb_refl]). congruence. }
  split; [|vm_compute; reflexivity]. split; [apply N; vm_compute; reflexivity|]. split; [|exact I].
  repeat constructor; apply N; vm_compute; reflexivity.
Qed.
(** Without that condition it does not: the parser puts the path into the context as it is, so
    a path with a line feed can print as an error with a source. *)
Theorem C73_forged_refuted : ~ forall shows path e e',
  path_parse path = Err e -> debug_error shows e = debug_error shows e' -> e_context e = e_context e'.
Proof.
  intros H.
  specialize (H (fun s => match s with SText t => t | _ => [] end) (lit "/" ++ nl ++ lit "Source: x")
    (with_context (err_new InvalidPath (lit "empty path component")) (lit "path") (lit "/" ++ nl ++ lit "Source: x"))
    {| e_kind := InvalidPath; e_message := lit "empty path component"; e_context := [(lit "path", lit "/")];
       e_source := Some (SText (lit "x")) |}).
  assert (E : e_context (with_context (err_new InvalidPath (lit "empty path component")) (lit "path") (lit "/" ++ nl ++ lit "Source: x")) =
    [(lit "path", lit "/")]) by (apply H; vm_compute; reflexivity).
  vm_compute in E. discriminate E.
Qed.
Print Assumptions C73_forged_refuted.
