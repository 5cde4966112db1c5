(** Proofs that the functions of the texts in [RustSource32], run by [RustEval], do what the model of derivation
    paths says. *)
From Coq Require Import Lia.
From Verif Require Import Base Str Error32 Path32 Mnemonic39 RustSyntax RustEval RustSource32 RustExec.
From Coq Require Import List.
Import ListNotations.
Local Open Scope string_scope.
Local Open Scope N_scope.
Local Open Scope list_scope.

Definition items (o : option (list item)) : list item := match o with Some l => l | None => [] end.
Definition error_items : list item := Eval vm_compute in items (parse error32_rs).
Definition child_items : list item := Eval vm_compute in items (parse child_rs).
Definition path_items : list item := Eval vm_compute in items (parse path_rs).
Definition prog : list item := Eval vm_compute in error_items ++ child_items ++ path_items.

(** ** Values of the model as values of the program *)
Definition kind_string (k : ErrorKind) : string :=
  match k with
  | InvalidPath => "InvalidPath" | InvalidPayload => "InvalidPayload" | InvalidVersion => "InvalidVersion"
  | InvalidKeyData => "InvalidKeyData" | InvalidDerivation => "InvalidDerivation"
  end.
Definition entry (kv : str * str) : value := VTup [VStr (fst kv); VStr (snd kv)].
(** an error without source *)
Definition error_value (e : Error) : value :=
  VRec "Error" [("kind", VCon "ErrorKind" (kind_string (e_kind e)) []); ("message", VStr (e_message e));
                ("context", VList (map entry (e_context e))); ("source", VCon "Option" "None" [])].
Notation child_value c := (VRec "ChildNumber" [("0", VInt U32 c)]).
Notation hchild_value c := (VRec "HardenedChildNumber" [("0", child_value c)]).
Definition children (p : list N) : list value := map (fun c => child_value c) p.
Notation path_value p := (VRec "DerivationPath" [("children", VList (children p))]).
Notation hpath_value p := (VRec "HardenedDerivationPath" [("inner", path_value p)]).
Definition result {A : Type} (f : A -> value) (r : res Error A) : value :=
  match r with Ok a => ok (f a) | Err e => err (error_value e) | Panic => VUnit end.

Section Runs.
Variable B : build.
Variable F : nat.

(** ** error.rs *)
Local Notation raw k m c s := (VRec "Error" [("kind", k); ("message", m); ("context", c); ("source", s)]).
Lemma error_new_run d k m :
  run B prog F (S d) "Error" "new" [VCon "ErrorKind" k []; VStr m]
  = inl (raw (VCon "ErrorKind" k []) (VStr m) (VList []) none, [VCon "ErrorKind" k []; VStr m]).
Proof. runs prog fail. Qed.
Lemma context_str_run d k m l s key v :
  run B prog F (S d) "Error" "with_context" [raw k m (VList l) s; VStr key; VStr v]
  = inl (raw k m (VList (l ++ [VTup [VStr key; VStr v]])) s,
         [raw k m (VList (l ++ [VTup [VStr key; VStr v]])) s; VStr key; VStr v]).
Proof. runs prog fail. Qed.
Lemma context_int_run d k m l s key v :
  run B prog F (S d) "Error" "with_context" [raw k m (VList l) s; VStr key; VInt U32 v]
  = inl (raw k m (VList (l ++ [VTup [VStr key; VStr (dec v)]])) s,
         [raw k m (VList (l ++ [VTup [VStr key; VStr (dec v)]])) s; VStr key; VInt U32 v]).
Proof. runs prog fail. Qed.

(** ** child.rs *)
Ltac known_error := idtac;
  lazymatch goal with
  | |- run _ _ _ _ "Error" "new" _ = _ => apply error_new_run
  | |- run _ _ _ _ "Error" "with_context" [_; _; VStr _] = _ => apply context_str_run
  | |- run _ _ _ _ "Error" "with_context" [_; _; VInt _ _] = _ => apply context_int_run
  end.
Lemma child_new_run d i h :
  run B prog F (S (S d)) "ChildNumber" "new" [VInt U32 i; VBool h]
  = inl (result (fun c => child_value c) (child_new i h), [VInt U32 i; VBool h]).
Proof.
  unfold child_new. destruct (HARDENED_OFFSET <=? i) eqn:E.
  - unfold result. unfold HARDENED_OFFSET in *. runs prog known_error.
  - unfold result. unfold HARDENED_OFFSET in *.
    assert (H : fit B U32 (i + 2147483648) = Got (VInt U32 (i + 2147483648))).
    { apply fit_ok. apply N.leb_gt in E. change (2 ^ width B U32) with 4294967296. lia. }
    destruct h; runs prog known_error.
Qed.
Lemma child_index_run d c :
  run B prog F (S (S d)) "ChildNumber" "index" [child_value c] = inl (VInt U32 (child_index c), [child_value c]).
Proof.
  assert (H : 2 ^ width B U32 - 1 - 2147483648 = 0x7FFFFFFF) by reflexivity.
  unfold child_index. runs prog fail.
Qed.
Lemma child_is_hardened_run d c :
  run B prog F (S (S d)) "ChildNumber" "is_hardened" [child_value c] = inl (VBool (child_is_hardened c), [child_value c]).
Proof. unfold child_is_hardened, HARDENED_OFFSET. runs prog fail. Qed.
Lemma child_from_bytes_run d b :
  run B prog F (S d) "ChildNumber" "from_bytes" [VBytes b] = inl (child_value (child_from_bytes b), [VBytes b]).
Proof. unfold child_from_bytes. runs prog fail. Qed.
Lemma child_to_bytes_run d c :
  run B prog F (S d) "ChildNumber" "to_bytes" [child_value c] = inl (VBytes (child_to_bytes c), [child_value c]).
Proof. unfold child_to_bytes. runs prog fail. Qed.
Lemma child_show_run d c s :
  run B prog F (S (S (S d))) "ChildNumber" "fmt" [child_value c; VStr s]
  = inl (ok VUnit, [child_value c; VStr (s ++ child_show c)]).
Proof.
  unfold child_show. pose proof (child_is_hardened_run d c) as R.
  destruct (child_is_hardened c) eqn:E.
  - etransitivity; [runs prog ltac:(idtac; first [apply child_index_run | exact R])|].
    rewrite app_nil_r, <- app_assoc. reflexivity.
  - etransitivity; [runs prog ltac:(idtac; first [apply child_index_run | exact R])|].
    reflexivity.
Qed.
(** [child_new] as its two cases *)
Lemma child_new_cases i h :
  (exists c, child_new i h = Ok c) \/ (exists e, child_new i h = Err e).
Proof. unfold child_new. destruct (HARDENED_OFFSET <=? i); [right|left]; eexists; reflexivity. Qed.
Lemma hchild_new_run d i :
  run B prog F (S (S (S d))) "HardenedChildNumber" "new" [VInt U32 i]
  = inl (result (fun h => hchild_value (hc_child h)) (hchild_new i), [VInt U32 i]).
Proof.
  unfold hchild_new. pose proof (child_new_run d i true) as R. unfold result in *.
  destruct (child_new_cases i true) as [[c E]|[e E]]; rewrite E in *; cbn [res_map hc_child]; clear E;
    runs prog ltac:(idtac; exact R).
Qed.
Lemma hchild_index_run d c :
  run B prog F (S (S (S d))) "HardenedChildNumber" "index" [hchild_value c] = inl (VInt U32 (hchild_index (mkHC c)), [hchild_value c]).
Proof. unfold hchild_index. cbn [hc_child]. runs prog ltac:(idtac; apply child_index_run). Qed.
Lemma hchild_to_bytes_run d c :
  run B prog F (S (S (S d))) "HardenedChildNumber" "to_bytes" [hchild_value c] = inl (VBytes (hchild_to_bytes (mkHC c)), [hchild_value c]).
Proof. unfold hchild_to_bytes. cbn [hc_child]. runs prog ltac:(idtac; apply child_to_bytes_run). Qed.
Lemma hchild_try_from_run d c :
  run B prog F (S (S (S d))) "HardenedChildNumber" "try_from" [child_value c]
  = inl (result (fun h => hchild_value (hc_child h)) (hchild_try_from c), [child_value c]).
Proof.
  unfold hchild_try_from, result. pose proof (child_is_hardened_run d c) as R.
  pose proof (child_is_hardened_run (S d) c) as R2.
  destruct (child_is_hardened c) eqn:E; runs prog ltac:(idtac; first [exact R | exact R2 | apply child_index_run | known_error]).
Qed.
(** the function of the debug assertion *)
Lemma unchecked_run d c :
  run B prog F (S (S (S d))) "HardenedChildNumber" "from_child_unchecked" [child_value c]
  = if b_debug B && negb (child_is_hardened c) then inr Panicked else inl (hchild_value c, [child_value c]).
Proof.
  pose proof (child_is_hardened_run d c) as R. pose proof (child_is_hardened_run (S d) c) as R2.
  destruct (b_debug B) eqn:Eb, (child_is_hardened c) eqn:E; cbn [andb negb];
    runs prog ltac:(idtac; first [exact R|exact R2]).
Qed.
Lemma component_run d s :
  run B prog F (S (S (S d))) "" "parse_child_component" [VStr s]
  = inl (result (fun c => child_value c) (parse_child_component s), [VStr s]).
Proof.
  unfold parse_child_component.
  destruct (strip_suffix 39 s) as [t|] eqn:E1; [|destruct (strip_suffix 104 s) as [t|] eqn:E2; [|destruct (strip_suffix 72 s) as [t|] eqn:E3]].
  1-3: destruct (is_empty t) eqn:E4;
    [|destruct (parse_u32 t) as [i|] eqn:E5; [pose proof (child_new_run d i true) as R; pose proof (child_new_run (S d) i true) as R2; unfold result in *; destruct (child_new_cases i true) as [[c E6]|[e E6]]; rewrite E6 in *; clear E6|]];
    unfold result; runs prog ltac:(idtac; first [exact R | exact R2 | known_error]).
  destruct (is_empty s) eqn:E4;
    [|destruct (parse_u32 s) as [i|] eqn:E5; [pose proof (child_new_run d i false) as R; pose proof (child_new_run (S d) i false) as R2; unfold result in *; destruct (child_new_cases i false) as [[c E6]|[e E6]]; rewrite E6 in *; clear E6|]];
    unfold result; runs prog ltac:(idtac; first [exact R | exact R2 | known_error]).
Qed.
Lemma child_from_str_run d s :
  run B prog F (S (S (S (S d)))) "ChildNumber" "from_str" [VStr s]
  = inl (result (fun c => child_value c) (parse_child_component s), [VStr s]).
Proof. runs prog ltac:(idtac; apply component_run). Qed.
End Runs.
