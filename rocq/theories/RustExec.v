(** Running the evaluator of [RustEval] step by step in proofs. *)
From Coq Require Import Lia.
From Verif Require Import Base Str Sha2 Language39 Mnemonic39 RustEval.
From Coq Require Import List.
Local Open Scope string_scope.
Local Open Scope N_scope.
Local Open Scope list_scope.

Lemma eval_eq B prog F en place owner e r :
  eval B prog F en place owner e r = eval_step B prog F en (eval B prog F en) place owner e r.
Proof. destruct e; reflexivity. Qed.
Lemma obind_eq {A C} (m m' : out A) (k : A -> env -> out C) o : m = m' -> obind m' k = o -> obind m k = o.
Proof. congruence. Qed.
Lemma obind_jump {A C} j r (k : A -> env -> out C) : obind (Jump j r) k = Jump j r.
Proof. reflexivity. Qed.
Lemma obind_fault {A C} f (k : A -> env -> out C) : obind (Fault f) k = Fault f.
Proof. reflexivity. Qed.
Lemma leave_eq {A} k (m m' : out A) o : m = m' -> leave k m' = o -> leave k m = o.
Proof. congruence. Qed.
Lemma enter_eq B prog F d owner b r : enter B prog F (S d) owner b r = eval B prog F (enter B prog F d) false owner b r.
Proof. reflexivity. Qed.
Lemma loop_eq n body r o m :
  body r = m ->
  match m with
  | Val true r' => loop n body r'
  | Val false r' => Val VUnit r'
  | Jump Broke r' => Val VUnit r'
  | Jump Continued r' => loop n body r'
  | Jump j r' => Jump j r'
  | Fault f => Fault f
  end = o -> loop (S n) body r = o.
Proof. cbn. intros -> H. exact H. Qed.
Lemma loop_more n body r r' o : body r = Val true r' -> loop n body r' = o -> loop (S n) body r = o.
Proof. cbn. intros -> H. exact H. Qed.
Lemma loop_end n body r r' : body r = Val false r' -> loop (S n) body r = Val VUnit r'.
Proof. cbn. intros ->. reflexivity. Qed.
Lemma each_more v items body r w r' o : body v r = Val w r' -> each items body r' = o -> each (v :: items) body r = o.
Proof. cbn. intros -> H. exact H. Qed.
Lemma each_eq v items body r o m :
  body v r = m ->
  match m with
  | Val _ r' => each items body r'
  | Jump Broke r' => Val VUnit r'
  | Jump Continued r' => each items body r'
  | Jump j r' => Jump j r'
  | Fault f => Fault f
  end = o -> each (v :: items) body r = o.
Proof. cbn. intros -> H. exact H. Qed.

Lemma stmts_cons ev evt t a l r : stmts ev evt t (a :: l) r = obind (ev a r) (fun _ r => stmts ev evt t l r).
Proof. reflexivity. Qed.
Lemma stmts_nil ev evt t r : stmts ev evt t [] r = match t with Some a => evt a r | None => Val VUnit r end.
Proof. reflexivity. Qed.
Lemma arms_cons ev v p b l r :
  arms ev v ((p, b) :: l) r =
  match match_pat p v with Some bs => leave (size r) (ev b (push_all bs r)) | None => arms ev v l r end.
Proof. reflexivity. Qed.
Lemma evals_nil ev r : evals ev [] r = Val [] r.
Proof. reflexivity. Qed.
Lemma fields_nil ev r : fields ev [] r = Val [] r.
Proof. reflexivity. Qed.
Lemma evals_cons ev a l r :
  evals ev (a :: l) r = obind (ev a r) (fun v r => obind (evals ev l r) (fun vs r => Val (v :: vs) r)).
Proof. reflexivity. Qed.
Lemma fields_cons ev f a l r :
  fields ev ((f, a) :: l) r = obind (ev a r) (fun v r => obind (fields ev l r) (fun vs r => Val ((f, v) :: vs) r)).
Proof. reflexivity. Qed.

(** a call of a function of the program whose run is known *)
Lemma run_body_eq en owner ps ret b seen self vs r0 m o :
  bind_params ps vs (match self with Some v => ("self", v) :: seen | None => seen end) = Some r0 ->
  en owner b r0 = m ->
  match m with
  | Val v r | Jump (Returned v) r =>
      inl (coerce_opt ret v, finals (size r0 - size seen) (size seen) r)
  | Jump _ _ => inr Stuck
  | Fault f => inr f
  end = o ->
  run_body en owner ps ret b seen self vs = o.
Proof. unfold run_body. intros -> -> H. exact H. Qed.
Lemma call_with_eq x y refs r o : x = y -> call_with y refs r = o -> call_with x refs r = o.
Proof. congruence. Qed.
Lemma run_method B prog F n t f d self args m :
  find_fn t f prog = Some d -> f_self d <> NoSelf ->
  run B prog F n t f (self :: args) = m ->
  run_body (enter B prog F n) t (f_params d) (Some (f_ret d)) (f_body d) [] (Some self) args = m.
Proof. unfold run. intros -> H. destruct (f_self d); congruence. Qed.
Lemma run_function B prog F n t f d args m :
  find_fn t f prog = Some d -> f_self d = NoSelf ->
  run B prog F n t f args = m ->
  run_body (enter B prog F n) t (f_params d) (Some (f_ret d)) (f_body d) [] None args = m.
Proof. unfold run. intros -> ->. auto. Qed.


Lemma method_eq B prog F n m s vs r v args d x o :
  deref s r = Some v -> derefs vs r = Some args -> find_fn (type_of v) m prog = Some d -> f_self d <> NoSelf ->
  run B prog F n (type_of v) m (v :: args) = x ->
  call_with x ((match f_self d with ByMut => s | _ => VUnit end) :: vs) r = o ->
  call_any_method prog (enter B prog F n) m s vs r = o.
Proof.
  intros H1 H2 H3 H4 H5 H6. unfold call_any_method, call_method. rewrite H1, H3, H2.
  rewrite (run_method _ _ _ _ _ _ _ _ _ _ H3 H4 H5). exact H6.
Qed.
Lemma builtin_eq B prog F n m s vs r v o :
  deref s r = Some v -> find_fn (type_of v) m prog = None -> find_fn (parsed m) "from_str" prog = None ->
  takes_fn vs = false -> call_builtin m s vs r = o ->
  call_any_method prog (enter B prog F n) m s vs r = o.
Proof. intros H1 H2 H3 H4 H5. unfold call_any_method. rewrite H1, H2, H3, H4. exact H5. Qed.
Lemma higher_eq B prog F n m s f r v o :
  deref s r = Some v -> find_fn (type_of v) m prog = None -> find_fn (parsed m) "from_str" prog = None ->
  takes_fn [f] = true -> call_higher prog (enter B prog F n) m v f r = o ->
  call_any_method prog (enter B prog F n) m s [f] r = o.
Proof. intros H1 H2 H3 H4 H5. unfold call_any_method. rewrite H1, H2, H3, H4. exact H5. Qed.
Lemma function_eq B prog F n owner p t f vs r args d x o :
  resolve owner p = [t; f] -> derefs vs r = Some args -> find_fn t f prog = Some d -> f_self d = NoSelf ->
  run B prog F n t f args = x ->
  call_with x vs r = o ->
  call_path prog (enter B prog F n) owner p vs r = o.
Proof.
  intros H1 H2 H3 H4 H5 H6. unfold call_path, call_fn. rewrite H1, H3, H2.
  rewrite (run_function _ _ _ _ _ _ _ _ _ H3 H4 H5). exact H6.
Qed.

Lemma function1_eq B prog F n owner p f v r args d x o :
  resolve owner p = [f] -> String.eqb f "Some" = false -> String.eqb f "Ok" = false -> String.eqb f "Err" = false ->
  find_struct f prog = None -> derefs [v] r = Some args -> find_fn "" f prog = Some d -> f_self d = NoSelf ->
  run B prog F n "" f args = x ->
  call_with x [v] r = o ->
  call_path prog (enter B prog F n) owner p [v] r = o.
Proof.
  intros H1 H01 H02 H03 H0 H2 H3 H4 H5 H6. unfold call_path, call_fn. rewrite H1, H01, H02, H03, H0, H3, H2.
  rewrite (run_function _ _ _ _ _ _ _ _ _ H3 H4 H5). exact H6.
Qed.

Lemma parse_eq B prog F n m s vs r v d x o :
  deref s r = Some v -> find_fn (type_of v) m prog = None -> find_fn (parsed m) "from_str" prog = Some d ->
  f_self d = NoSelf -> derefs [v] r = Some [v] -> run B prog F n (parsed m) "from_str" [v] = x ->
  call_with x [v] r = o ->
  call_any_method prog (enter B prog F n) m s vs r = o.
Proof.
  intros H1 H2 H3 H4 H5 H6 H7. unfold call_any_method, call_fn. rewrite H1, H2, H3, H5.
  rewrite (run_function _ _ _ _ _ _ _ _ _ H3 H4 H6). exact H7.
Qed.
Lemma shown_eq B prog F n v r t fs d s c ws w o :
  deref v r = Some (VRec t fs) -> find_fn t "fmt" prog = Some d -> f_self d <> NoSelf ->
  run B prog F n t "fmt" [VRec t fs; VStr []] = inl (VCon c "Ok" ws, [w; VStr s]) -> Val s r = o ->
  shown prog (enter B prog F n) v r = o.
Proof.
  intros H1 H2 H3 H4 H5. unfold shown. rewrite H1. cbn [type_of]. rewrite H2.
  rewrite (run_method _ _ _ _ _ _ _ _ _ _ H2 H3 H4). exact H5.
Qed.
Lemma find_list_cons prog en f v l r w r' b :
  call_value prog en f v r = Val w r' -> truth w r' = Some b ->
  find_list prog en f (v :: l) r = if b then Val (some v) r' else find_list prog en f l r'.
Proof. cbn [find_list]. intros -> H. cbn [obind]. rewrite H. destruct b; reflexivity. Qed.
Lemma filter_list_cons prog en f v l r w r' b ws r'' :
  call_value prog en f v r = Val w r' -> truth w r' = Some b -> filter_list prog en f l r' = Val ws r'' ->
  filter_list prog en f (v :: l) r = Val (if b then v :: ws else ws) r''.
Proof. cbn [filter_list]. intros -> H H2. cbn [obind]. rewrite H, H2. reflexivity. Qed.

(** everything but arithmetic, text and lists of unknown length *)
Ltac small :=
  cbv beta iota zeta delta
    [find_var read_level write_level field set_field take_step read_way put_step write_way read_place write_place
     deref size push_all snoc keep top_values finals coerce int_type coerce_opt coerce_like suffix_type type_of
     ity_eqb unify arith binop unop cast some none ok err from_opt from_prim builtin_fn builtin_method
     match_pat field_type param_name bind_params write_backs derefs items_of length_of usize
     coerce_fields make_struct resolve assign truth binop_in part index_part load check unop_in cast_in
     repeated try_value let_in items_in str_option is_callable takes_fn default_of default_fields append
     String.eqb Ascii.eqb Bool.eqb Nat.eqb Nat.add Nat.sub last orb andb negb
     variable global call_any call_builtin call_closure f_self f_params f_ret f_body].
(** facts about the arithmetic at hand, given as equations *)
Ltac facts :=
  repeat match goal with
  | H : ?a = _ |- _ =>
      match type of a with
      | bool => rewrite H | prim => rewrite H | N => rewrite H | nat => rewrite H
      | option _ => rewrite H
      end
  end.
(** to find the items of [p] *)
Ltac lookup p :=
  repeat match goal with
  | |- context [find_fn ?t ?f p] =>
      let d := eval vm_compute in (find_fn t f p) in change (find_fn t f p) with d
  | |- context [find_const ?t ?f p] =>
      let d := eval vm_compute in (find_const t f p) in change (find_const t f p) with d
  | |- context [upper_name ?t] =>
      let d := eval vm_compute in (upper_name t) in change (upper_name t) with d
  | |- context [pieces ?n ?t] =>
      let d := eval vm_compute in (pieces n t) in change (pieces n t) with d
  | |- context [find_struct ?t p] =>
      let d := eval vm_compute in (find_struct t p) in change (find_struct t p) with d
  end.
(** [known]: proves what a function of the program does *)
Ltac decided :=
  lazymatch goal with
  | |- Val _ _ = _ => idtac
  | |- Jump _ _ = _ => idtac
  | |- Fault _ = _ => idtac
  | |- obind _ _ = _ => idtac
  | |- leave _ _ = _ => idtac
  | |- arms _ _ _ _ = _ => idtac
  | |- eval _ _ _ _ _ _ _ _ = _ => idtac
  | |- _ => facts; small
  end.
Ltac settle p :=
  small; lookup p; small; decided;
  repeat match goal with
  | |- context [enter ?B ?q ?F (S ?d) ?o ?b []] =>
      rewrite (enter_eq B q F d o b []), (eval_eq B q F (enter B q F d) false o b []);
      cbv beta iota zeta delta [eval_step]; small; decided
  end.
Ltac finish :=
  lazymatch goal with
  | |- Val _ _ = _ => reflexivity
  | |- Jump _ _ = _ => reflexivity
  | |- Fault _ = _ => reflexivity
  | |- ?x = _ => idtac "stuck at" x; fail 1000
  end.
Ltac trace := idtac.
Ltac ev p known :=
  trace;
  lazymatch goal with
  | |- obind (Val ?a ?r) ?k = ?o => let t := eval cbv beta in (k a r) in change (t = o); ev p known
  | |- obind (Jump ?j ?r) ?k = ?o => apply obind_jump
  | |- obind (Fault ?f) ?k = ?o => apply obind_fault
  | |- obind ?m ?k = ?o => eapply obind_eq; [ev p known | ev p known]
  | |- leave ?k ?m = ?o => eapply leave_eq; [ev p known | cbv beta iota delta [leave]; small; reflexivity]
  | |- eval _ _ _ _ _ _ ?e _ = _ => rewrite eval_eq; cbv beta iota zeta delta [eval_step method_name ty_name String.append last]; ev p known
  | |- stmts _ _ _ (_ :: _) _ = _ => rewrite stmts_cons; cbv beta; ev p known
  | |- stmts _ _ _ [] _ = _ => rewrite stmts_nil; cbv beta iota; ev p known
  | |- evals _ (_ :: _) _ = _ => rewrite evals_cons; cbv beta; ev p known
  | |- evals _ [] _ = _ => apply evals_nil
  | |- fields _ (_ :: _) _ = _ => rewrite fields_cons; cbv beta; ev p known
  | |- fields _ [] _ = _ => apply fields_nil
  | |- arms _ _ (_ :: _) _ = _ => rewrite arms_cons; cbv beta; small; decided; ev p known
  | |- arms _ _ [] _ = _ => fail 1000 "no arm"
  | |- call_any_method _ (enter _ _ _ _) _ _ _ _ = _ =>
      first [ eapply method_eq; [small; reflexivity | small; reflexivity | small; lookup p; reflexivity | discriminate | small; facts; known | cbv beta iota delta [call_with]; small; reflexivity]
            | eapply builtin_eq; [small; reflexivity | small; lookup p; reflexivity | lookup p; reflexivity | small; reflexivity | settle p; finish]
            | facts; eapply higher_eq; [small; reflexivity | small; lookup p; reflexivity | lookup p; reflexivity | small; reflexivity | cbv beta iota zeta delta [call_higher]; small; decided; ev p known]
            | eapply parse_eq; [small; reflexivity | small; lookup p; reflexivity | lookup p; reflexivity | reflexivity | small; reflexivity | cbn [parsed String.eqb]; facts; known | cbv beta iota delta [call_with]; small; reflexivity] ]
  | |- call_value _ (enter _ _ _ _) (VFn _) _ _ = _ => cbv beta iota delta [call_value]; ev p known
  | |- call_value _ (enter _ _ _ _) (VClo _ _ _ _) _ _ = _ =>
      cbv beta iota delta [call_value]; small;
      eapply call_with_eq;
        [eapply run_body_eq; [small; reflexivity | rewrite enter_eq; ev p known | small; reflexivity] | cbv beta iota delta [call_with]; small; reflexivity]
  | |- map_list _ _ _ _ _ = _ => known
  | |- filter_list _ _ _ _ _ = _ => known
  | |- find_list _ _ _ _ _ = _ => known
  | |- format_in _ _ _ _ _ _ _ = _ => cbv beta iota zeta delta [format_in]; lookup p; cbv beta iota zeta delta [render]; ev p known
  | |- shown _ (enter _ _ _ _) _ _ = _ =>
      first [ eapply shown_eq; [small; reflexivity | lookup p; reflexivity | discriminate | known | reflexivity]
            | cbv beta iota zeta delta [shown]; settle p; finish ]
  | |- call_path _ (enter _ _ _ _) _ _ _ _ = _ =>
      first [ eapply function_eq; [small; reflexivity | small; reflexivity | lookup p; reflexivity | reflexivity | facts; known | cbv beta iota delta [call_with]; small; reflexivity]
            | eapply function1_eq; [small; reflexivity | reflexivity | reflexivity | reflexivity | lookup p; reflexivity | small; reflexivity | lookup p; reflexivity | reflexivity | facts; known | cbv beta iota delta [call_with]; small; reflexivity]
            | cbv beta iota delta [call_path]; settle p; finish ]
  | |- call_any _ _ _ _ _ _ = _ =>
      small;
      lazymatch goal with
      | |- call_path _ _ _ _ _ _ = _ => ev p known
      | |- call_with _ _ _ = _ =>
          eapply call_with_eq;
            [eapply run_body_eq; [small; reflexivity | rewrite enter_eq; ev p known | small; reflexivity] | cbv beta iota delta [call_with]; small; reflexivity]
      end
  | |- Val _ _ = _ => settle p; reflexivity
  | |- Jump _ _ = _ => settle p; reflexivity
  | |- Fault _ = _ => reflexivity
  | |- _ = _ =>
      settle p;
      lazymatch goal with
      | |- Val _ _ = _ => reflexivity
      | |- Jump _ _ = _ => reflexivity
      | |- Fault _ = _ => reflexivity
      | |- eval _ _ _ _ _ _ ?e _ = _ => ev p known
      | |- obind _ _ = _ => ev p known
      | |- leave _ _ = _ => ev p known
      | |- arms _ _ _ _ = _ => ev p known
      | |- ?x = _ => first [solve [known] | idtac "stuck at" x; fail 1000]
      end
  end.
(** [run] of a function whose body is to be evaluated *)
Ltac start p :=
  unfold run; lookup p; cbv beta iota delta [f_self f_params f_ret f_body];
  eapply run_body_eq; [small; reflexivity | rewrite enter_eq | ].
Ltac runs p known := start p; [ev p known | small; facts; reflexivity].
Lemma fit_ok B t n : n < 2 ^ width B t -> fit B t n = Got (VInt t n).
Proof. unfold fit. intros H. apply N.ltb_lt in H. rewrite H. reflexivity. Qed.
Lemma shift_ok B t n : n < width B t -> shift_by B t n = Some n.
Proof. unfold shift_by. intros H. apply N.ltb_lt in H. rewrite H. reflexivity. Qed.
