(** C91: derived [Debug] output determines the value. *)
From Verif Require Import Base Str FmtDebug FmtProofs Error32 Version32 Path32 Meta32 PathSpec32 PathProofs32
  Mnemonic39 Builtin39 Generate39 GenSpec39 GenProofs39 DebugImpls.

(** ** The trees of the impls are well-formed *)
Definition ident_b (s : str) : bool :=
  negb (is_empty s) &&
  forallb (fun c => ((48 <=? c) && (c <=? 57)) || ((65 <=? c) && (c <=? 90)) || ((97 <=? c) && (c <=? 122)) || (c =? 95)) s.
Lemma ident_b_ok s : ident_b s = true -> ident s.
Proof.
  unfold ident_b. rewrite andb_true_iff, forallb_forall. intros [N F]. split.
  - destruct s; [discriminate|discriminate].
  - rewrite Forall_forall. intros c I. apply F in I. unfold ident_char. lia.
Qed.
Lemma ident_dec n : ident (dec n).
Proof.
  destruct (dec_spec n) as (N0 & D & _). split; [exact N0|].
  eapply Forall_impl; [|exact D]. unfold is_digit, ident_char. intros a. lia.
Qed.
Ltac isident := apply ident_b_ok; vm_compute; reflexivity.
Lemma wf_dec n : wf (DRaw (dec n)).
Proof. constructor. left. apply ident_dec. Qed.
Lemma wf_name s : ident_b s = true -> wf (DRaw s).
Proof. intros H. constructor. left. apply ident_b_ok, H. Qed.
Lemma wf_tuple1 n d : ident_b n = true -> wf d -> wf (DTuple n [d]).
Proof. intros H W. constructor; [apply ident_b_ok, H|discriminate|]. repeat constructor. exact W. Qed.
Lemma wf_child c : wf (child_dbg c).
Proof. apply wf_tuple1; [reflexivity|apply wf_dec]. Qed.
Lemma wf_hchild h : wf (hchild_dbg h).
Proof. apply wf_tuple1; [reflexivity|apply wf_child]. Qed.
Lemma wf_path p : wf (path_dbg p).
Proof.
  constructor; [isident|discriminate| |]; (constructor; [|constructor]); cbn [fst snd]; [isident|].
  constructor. rewrite Forall_map. apply Forall_forall. intros c _. apply wf_child.
Qed.
Lemma wf_hpath p : wf (hpath_dbg p).
Proof.
  constructor; [isident|discriminate| |]; (constructor; [|constructor]); cbn [fst snd]; [isident|apply wf_path].
Qed.
Lemma wf_version v : wf (version_dbg v).
Proof. destruct v; (apply wf_tuple1; [reflexivity|apply wf_dec]). Qed.
Lemma wf_known k : wf (known_dbg k).
Proof. destruct k; apply wf_name; reflexivity. Qed.
Lemma wf_kind k : wf (kind_dbg k).
Proof. destruct k; apply wf_name; reflexivity. Qed.
Lemma wf_bytes b : wf (bytes_dbg b).
Proof. constructor. rewrite Forall_map. apply Forall_forall. intros x _. apply wf_dec. Qed.
Lemma wf_meta m : wf (meta_dbg m).
Proof.
  constructor; [isident|discriminate| |]; repeat (apply Forall_cons); try apply Forall_nil; cbn [fst snd];
    try isident; try apply wf_dec; apply wf_bytes.
Qed.
Lemma debug_str_line special w : ~ In 10 (debug_str special w).
Proof.
  unfold debug_str. intros I. rewrite !in_app_iff in I. destruct I as [[I|[]]|[I|[I|[]]]]; try discriminate I.
  apply in_flat_map in I as (c & _ & I). unfold escape_char in I.
  destruct (c =? 0); [destruct I as [I|[I|[]]]; discriminate I|].
  destruct (c =? 9); [destruct I as [I|[I|[]]]; discriminate I|].
  destruct (c =? 13); [destruct I as [I|[I|[]]]; discriminate I|].
  destruct (c =? 10) eqn:E10; [destruct I as [I|[I|[]]]; discriminate I|].
  destruct (c =? 34); [destruct I as [I|[I|[]]]; discriminate I|].
  destruct (c =? 92); [destruct I as [I|[I|[]]]; discriminate I|].
  destruct (special c).
  - rewrite !in_app_iff in I. destruct I as [I|[I|[I|[]]]]; [destruct I as [I|[I|[I|[]]]]; discriminate I| |discriminate I].
    unfold hex_min in I.
    destruct (hex_fuel_spec (S (N.to_nat (N.size c))) c []) as (ds & E & D & _).
    { rewrite Nat2N.inj_succ, N2Nat.id, N.pow_succ_r'. pose proof (N.size_gt c). lia. }
    { lia. }
    rewrite E, app_nil_r in I. clear E E10. induction D as [|ds v x d D IH Hx]; [destruct I|].
    apply in_app_iff in I as [I|[I|[]]]; [exact (IH I)|]. subst x. discriminate Hx.
  - destruct I as [I|[]]. lia.
Qed.
Lemma wf_error special e :
  match e with UnknownWord w => Forall (fun c => is_scalar c = true) w | _ => True end -> wf (error_dbg special e).
Proof.
  destruct e as [n|n|w|]; cbn [error_dbg]; intros H.
  - apply wf_tuple1; [reflexivity|apply wf_dec].
  - apply wf_tuple1; [reflexivity|apply wf_dec].
  - apply wf_tuple1; [reflexivity|]. constructor. right. split; [|apply debug_str_line].
    exists w. apply debug_str_spec, H.
  - apply wf_name. reflexivity.
Qed.
Lemma wf_count c : wf (count_dbg c).
Proof. destruct c; apply wf_name; reflexivity. Qed.
Lemma wf_mode c : wf (mode_dbg c).
Proof. destruct c; apply wf_name; reflexivity. Qed.
Lemma wf_builtin c : wf (builtin_dbg c).
Proof. destruct c; apply wf_name; reflexivity. Qed.

(** ** Trees determine values *)
Lemma raw_inj a b : DRaw a = DRaw b -> a = b. Proof. congruence. Qed.
Lemma child_dbg_inj c d : child_dbg c = child_dbg d -> c = d.
Proof. intros E. apply dec_inj. unfold child_dbg in E. congruence. Qed.
Lemma map_inj {A B : Type} (f : A -> B) (H : forall a b, f a = f b -> a = b) l : forall m, map f l = map f m -> l = m.
Proof.
  induction l as [|a l IH]; intros [|b m] E; try discriminate E; [reflexivity|].
  cbn in E. injection E as E1 E2. apply H in E1. apply IH in E2. congruence.
Qed.
Lemma path_dbg_inj p q : path_dbg p = path_dbg q -> p = q.
Proof.
  intros E. unfold path_dbg in E. assert (E' : map child_dbg p = map child_dbg q) by congruence.
  apply (map_inj _ child_dbg_inj) in E'. exact E'.
Qed.
Lemma bytes_dbg_inj a b : bytes_dbg a = bytes_dbg b -> a = b.
Proof.
  unfold bytes_dbg. intros E. apply (map_inj (fun x => DRaw (dec (b2n x)))); [|congruence].
  intros x y H. apply raw_inj, dec_inj in H. rewrite <- (n2b_b2n x), <- (n2b_b2n y), H. reflexivity.
Qed.

(** In both formats the [Debug] output of a value determines the value; [alt] is the [#] flag. *)
Theorem C91_bip0032 alt :
  (forall c d, debug alt (child_dbg c) = debug alt (child_dbg d) -> c = d) /\
  (forall c d, debug alt (hchild_dbg c) = debug alt (hchild_dbg d) -> c = d) /\
  (forall p q, debug alt (path_dbg p) = debug alt (path_dbg q) -> p = q) /\
  (forall p q, debug alt (hpath_dbg p) = debug alt (hpath_dbg q) -> p = q) /\
  (forall v w, debug alt (version_dbg v) = debug alt (version_dbg w) -> v = w) /\
  (forall k l, debug alt (known_dbg k) = debug alt (known_dbg l) -> k = l) /\
  (forall k l, debug alt (kind_dbg k) = debug alt (kind_dbg l) -> k = l) /\
  (forall m n, debug alt (meta_dbg m) = debug alt (meta_dbg n) -> m = n).
Proof.
  repeat apply conj.
  - intros c d E. apply debug_inj in E; [|apply wf_child..]. apply child_dbg_inj, E.
  - intros [c] [d] E. apply debug_inj in E; [|apply wf_hchild..]. unfold hchild_dbg in E. cbn [hc_child] in E.
    assert (E' : child_dbg c = child_dbg d) by congruence. apply child_dbg_inj in E'. congruence.
  - intros p q E. apply debug_inj in E; [|apply wf_path..]. apply path_dbg_inj, E.
  - intros [p] [q] E. apply debug_inj in E; [|apply wf_hpath..]. unfold hpath_dbg in E. cbn [hp_inner] in E.
    assert (E' : path_dbg p = path_dbg q) by congruence. apply path_dbg_inj in E'. congruence.
  - intros v w E. apply debug_inj in E; [|apply wf_version..]. destruct v, w; cbn [version_dbg] in E; try discriminate E;
      f_equal; apply dec_inj; congruence.
  - intros k l E. apply debug_inj in E; [|apply wf_known..]. destruct k, l; try reflexivity; discriminate E.
  - intros k l E. apply debug_inj in E; [|apply wf_kind..]. destruct k, l; try reflexivity; discriminate E.
  - intros [a b c d] [a' b' c' d'] E. apply debug_inj in E; [|apply wf_meta..].
    unfold meta_dbg in E. cbn [m_depth m_fingerprint m_child m_chain] in E.
    assert (E1 : dec (b2n a) = dec (b2n a')) by congruence.
    assert (E2 : bytes_dbg b = bytes_dbg b') by congruence.
    assert (E3 : dec c = dec c') by congruence.
    assert (E4 : bytes_dbg d = bytes_dbg d') by congruence.
    apply dec_inj in E1, E3. apply bytes_dbg_inj in E2, E4.
    rewrite <- (n2b_b2n a), <- (n2b_b2n a'), E1. congruence.
Qed.
Print Assumptions C91_bip0032.

Theorem C91_bip0039 alt special :
  (forall c d, debug alt (count_dbg c) = debug alt (count_dbg d) -> c = d) /\
  (forall c d, debug alt (mode_dbg c) = debug alt (mode_dbg d) -> c = d) /\
  (forall c d, debug alt (builtin_dbg c) = debug alt (builtin_dbg d) -> c = d) /\
  (forall e f,
     (forall w, e = UnknownWord w \/ f = UnknownWord w -> Forall (fun c => is_scalar c = true) w) ->
     debug alt (error_dbg special e) = debug alt (error_dbg special f) -> e = f).
Proof.
  repeat apply conj.
  - intros k l E. apply debug_inj in E; [|apply wf_count..]. destruct k, l; try reflexivity; discriminate E.
  - intros k l E. apply debug_inj in E; [|apply wf_mode..]. destruct k, l; try reflexivity; discriminate E.
  - intros k l E. apply debug_inj in E; [|apply wf_builtin..]. destruct k, l; try reflexivity; discriminate E.
  - intros e f H E. apply debug_inj in E.
    2:{ apply wf_error. destruct e; auto. }
    2:{ apply wf_error. destruct f; auto. }
    destruct e as [m|m|v|], f as [n|n|w|]; cbn [error_dbg] in E; try discriminate E;
      [f_equal; apply dec_inj; congruence|f_equal; apply dec_inj; congruence| |reflexivity]. f_equal.
    assert (L1 : str_literal (debug_str special v) v) by (apply debug_str_spec; auto).
    assert (L2 : str_literal (debug_str special w) w) by (apply debug_str_spec; auto).
    assert (E' : debug_str special v ++ [] = debug_str special w ++ []) by (rewrite !app_nil_r; congruence).
    apply (str_literal_fun _ _ _ _ _ _ L1 L2 E').
Qed.
Print Assumptions C91_bip0039.

(** The texts themselves.  [ErrorKind] prints the same with [{}] and [{:?}]; a language prints
    its feature name in camel case. *)
Definition kebab (s : str) : str :=
  match flat_map (fun c => if (65 <=? c) && (c <=? 90) then [45; c + 32] else [c]) s with
  | c :: r => if c =? 45 then r else c :: r
  | [] => []
  end.
Theorem C91_text :
  (forall c, debug false (child_dbg c) = lit "ChildNumber(" ++ dec c ++ lit ")") /\
  (forall c, debug false (hchild_dbg (mkHC c)) = lit "HardenedChildNumber(ChildNumber(" ++ dec c ++ lit "))") /\
  (forall p, debug false (path_dbg p) = lit "DerivationPath { children: [" ++
     join (lit ", ") (map (fun c => lit "ChildNumber(" ++ dec c ++ lit ")") p) ++ lit "] }") /\
  (forall p, debug false (hpath_dbg (mkHP p)) = lit "HardenedDerivationPath { inner: DerivationPath { children: [" ++
     join (lit ", ") (map (fun c => lit "ChildNumber(" ++ dec c ++ lit ")") p) ++ lit "] } }") /\
  (forall n, debug false (version_dbg (Public n)) = lit "Public(" ++ dec n ++ lit ")") /\
  (forall n, debug false (version_dbg (Private n)) = lit "Private(" ++ dec n ++ lit ")") /\
  (forall alt k, debug alt (kind_dbg k) = kind_name k) /\
  (forall alt b, kebab (debug alt (builtin_dbg b)) =
     match variant_feature b with Some f => f | None => lit "english" end) /\
  (forall alt c, exists ds, debug alt (count_dbg c) = lit "Words" ++ ds /\ ds = dec (word_count c)) /\
  (forall special n, debug false (error_dbg special (BadWordCount n)) = lit "BadWordCount(" ++ dec n ++ lit ")") /\
  (forall special n, debug false (error_dbg special (BadEntropyBitCount n)) = lit "BadEntropyBitCount(" ++ dec n ++ lit ")").
Proof.
  assert (CH : forall c, debug false (child_dbg c) = lit "ChildNumber(" ++ dec c ++ lit ")").
  { intros c. cbn. rewrite <- ?app_assoc. reflexivity. }
  assert (PA : forall p, debug false (path_dbg p) = lit "DerivationPath { children: [" ++
     join (lit ", ") (map (fun c => lit "ChildNumber(" ++ dec c ++ lit ")") p) ++ lit "] }").
  { intros p. rewrite debug_plain by apply wf_path.
    assert (M : map (show flat) (map child_dbg p) = map (fun c => lit "ChildNumber(" ++ dec c ++ lit ")") p).
    { rewrite map_map. apply map_ext. intros c. rewrite <- CH. symmetry. apply debug_plain, wf_child. }
    unfold path_dbg. cbn [show map join fst snd flat sep fin sopen sclose].
    change (map (show _)) with (map (show flat)). destruct p as [|c p]; [reflexivity|].
    cbn [map] in M |- *. rewrite M. cbn. rewrite <- ?app_assoc. reflexivity. }
  assert (HP : forall p, debug false (hpath_dbg (mkHP p)) =
    lit "HardenedDerivationPath { inner: " ++ debug false (path_dbg p) ++ lit " }").
  { intros p. cbn. rewrite <- ?app_assoc. reflexivity. }
  repeat apply conj.
  - exact CH.
  - intros c. cbn. rewrite <- ?app_assoc. reflexivity.
  - exact PA.
  - intros p. rewrite HP, PA. rewrite <- ?app_assoc. reflexivity.
  - intros n. cbn. rewrite <- ?app_assoc. reflexivity.
  - intros n. cbn. rewrite <- ?app_assoc. reflexivity.
  - intros [] []; reflexivity.
  - intros [] []; reflexivity.
  - intros [] []; (eexists; split; [reflexivity|reflexivity]).
  - intros special n. cbn. rewrite <- ?app_assoc. reflexivity.
  - intros special n. cbn. rewrite <- ?app_assoc. reflexivity.
Qed.
Print Assumptions C91_text.

(** [{:?}] of a value is one line, whatever the unknown word of the error is. *)
Theorem C91_one_line special :
  (forall c, ~ In 10 (debug false (child_dbg c))) /\ (forall p, ~ In 10 (debug false (path_dbg p))) /\
  (forall p, ~ In 10 (debug false (hpath_dbg p))) /\ (forall v, ~ In 10 (debug false (version_dbg v))) /\
  (forall e, ~ In 10 (debug false (error_dbg special e))).
Proof.
  assert (D : forall n, ~ In 10 (dec n)).
  { intros n. destruct (dec_spec n) as (_ & F & _). rewrite Forall_forall in F. intros I. apply F in I. unfold is_digit in I. lia. }
  assert (A : forall (x y : str), ~ In 10 x -> ~ In 10 y -> ~ In 10 (x ++ y)).
  { intros x y Hx Hy I. apply in_app_iff in I as [I|I]; auto. }
  assert (L : forall s, negb (existsb (fun c => c =? 10) s) = true -> ~ In 10 s).
  { intros s E I. apply negb_true_iff in E. assert (C : existsb (fun c => c =? 10) s = true); [|congruence].
    apply existsb_exists. exists 10. auto. }
  assert (J : forall p, ~ In 10 (join (lit ", ") (map (fun c => lit "ChildNumber(" ++ dec c ++ lit ")") p))).
  { induction p as [|c p IH]; [intros []|].
    assert (C : ~ In 10 (lit "ChildNumber(" ++ dec c ++ lit ")")).
    { apply A; [apply L; reflexivity|]. apply A; [apply D|apply L; reflexivity]. }
    destruct p; [exact C|]. cbn [map join]. apply A; [exact C|]. apply A; [apply L; reflexivity|exact IH]. }
  destruct C91_text as (T1 & _ & T3 & T4 & T5 & T6 & _ & _ & _ & T9 & T10).
  repeat apply conj.
  - intros c. rewrite T1. apply A; [apply L; reflexivity|]. apply A; [apply D|apply L; reflexivity].
  - intros p. rewrite T3. apply A; [apply L; reflexivity|]. apply A; [apply J|apply L; reflexivity].
  - intros [p]. rewrite T4. apply A; [apply L; reflexivity|]. apply A; [apply J|apply L; reflexivity].
  - intros [n|n]; [rewrite T5|rewrite T6]; (apply A; [apply L; reflexivity|]; apply A; [apply D|apply L; reflexivity]).
  - intros [n|n|w|]; [rewrite T9|rewrite T10| |].
    + apply A; [apply L; reflexivity|]. apply A; [apply D|apply L; reflexivity].
    + apply A; [apply L; reflexivity|]. apply A; [apply D|apply L; reflexivity].
    + assert (E : debug false (error_dbg special (UnknownWord w)) = lit "UnknownWord(" ++ debug_str special w ++ lit ")").
      { unfold error_dbg. cbn [debug]. rewrite <- ?app_assoc. reflexivity. }
      rewrite E. apply A; [apply L; reflexivity|]. apply A; [apply debug_str_line|apply L; reflexivity].
    + apply L. reflexivity.
Qed.
Print Assumptions C91_one_line.

Example C91_case :
  debug true (path_dbg [2147483692; 5]) =
    lit "DerivationPath {" ++ [10] ++ lit "    children: [" ++ [10] ++
    lit "        ChildNumber(" ++ [10] ++ lit "            2147483692," ++ [10] ++ lit "        )," ++ [10] ++
    lit "        ChildNumber(" ++ [10] ++ lit "            5," ++ [10] ++ lit "        )," ++ [10] ++
    lit "    ]," ++ [10] ++ lit "}" /\
  debug false (path_dbg [2147483692; 5]) = lit "DerivationPath { children: [ChildNumber(2147483692), ChildNumber(5)] }" /\
  debug true (path_dbg []) = lit "DerivationPath {" ++ [10] ++ lit "    children: []," ++ [10] ++ lit "}" /\
  debug true (error_dbg (fun _ => false) (UnknownWord (lit "a b"))) =
    lit "UnknownWord(" ++ [10] ++ lit "    " ++ [34] ++ lit "a b" ++ [34] ++ lit "," ++ [10] ++ lit ")" /\
  debug false (error_dbg (fun _ => false) (UnknownWord [97; 10; 34])) =
    lit "UnknownWord(" ++ [34; 97; 92; 110; 92; 34; 34] ++ lit ")".
Proof. repeat split; vm_compute; reflexivity. Qed.
