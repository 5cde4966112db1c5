(** C90: paths, child numbers and versions as values: comparison, defaults, conversions and
    concatenation. *)
From Verif Require Import Base Str Error32 Version32 Path32 PathSpec32 PathProofs32 Curve32 Meta32
  Payload32 XKey32 Slip10 Derive32 Props32 Props32k.

(** ** Comparison *)
Lemma slice_eqb_eq a : forall b, slice_eqb a b = true <-> a = b.
Proof.
  induction a as [|x a IH]; intros [|y b]; cbn [slice_eqb]; try (split; [discriminate|discriminate]).
  - split; reflexivity.
  - unfold child_eqb. rewrite andb_true_iff, N.eqb_eq, IH.
    split; [intros [-> ->]; reflexivity|intros [= -> ->]; auto].
Qed.
Lemma path_eqb_eq a b : path_eqb a b = true <-> a = b.
Proof.
  unfold path_eqb. rewrite andb_true_iff, Nat.eqb_eq, slice_eqb_eq.
  split; [tauto|intros ->; auto].
Qed.

Lemma child_show_inj c d : c < 2 ^ 32 -> d < 2 ^ 32 -> child_show c = child_show d -> c = d.
Proof.
  intros Hc Hd E. destruct C23_display_parses as [P _].
  pose proof (P c Hc) as H. rewrite E, (P d Hd) in H. congruence.
Qed.
Lemma path_show_inj p q : Forall (fun c => c < 2 ^ 32) p -> Forall (fun c => c < 2 ^ 32) q ->
  path_show p = path_show q -> p = q.
Proof.
  intros Hp Hq E. destruct C23_display_parses as [_ P].
  pose proof (P p Hp) as H. rewrite E, (P q Hq) in H. congruence.
Qed.

(** Child numbers, hardened child numbers and paths are equal exactly when they print the same,
    and child numbers exactly when their bytes are the same. *)
Theorem C90_path_equality :
  (forall c d, c < 2 ^ 32 -> d < 2 ^ 32 ->
     (child_eqb c d = true <-> child_show c = child_show d) /\
     (child_eqb c d = true <-> child_to_bytes c = child_to_bytes d) /\
     (child_eqb c d = true <-> child_index c = child_index d /\ child_is_hardened c = child_is_hardened d) /\
     u32_of_child c = child_index c + (if child_is_hardened c then 2 ^ 31 else 0)) /\
  (forall c d, hc_child c < 2 ^ 32 -> hc_child d < 2 ^ 32 ->
     (hchild_eqb c d = true <-> hchild_show c = hchild_show d) /\
     (hchild_eqb c d = true <-> child_of_hchild c = child_of_hchild d) /\
     child_show (child_of_hchild c) = hchild_show c) /\
  (forall p q, Forall (fun c => c < 2 ^ 32) p -> Forall (fun c => c < 2 ^ 32) q ->
     (path_eqb p q = true <-> path_show p = path_show q)) /\
  (forall p q, Forall (fun c => c < 2 ^ 32) (hp_inner p) -> Forall (fun c => c < 2 ^ 32) (hp_inner q) ->
     (hpath_eqb p q = true <-> hpath_show p = hpath_show q) /\
     (hpath_eqb p q = true <-> path_eqb (path_of_hpath p) (path_of_hpath q) = true) /\
     path_show (path_of_hpath p) = hpath_show p).
Proof.
  split; [|split; [|split]].
  - intros c d Hc Hd. unfold child_eqb. rewrite N.eqb_eq. split; [|split; [|split]].
    + split; [intros ->; reflexivity|apply child_show_inj; assumption].
    + split; [intros ->; reflexivity|]. intros E.
      destruct C22_child_numbers as (_ & _ & B).
      destruct (B c Hc) as (_ & H1 & _). destruct (B d Hd) as (_ & H2 & _). rewrite E in H1. congruence.
    + split; [intros ->; auto|]. intros [E1 E2].
      destruct (child_parts c Hc) as [P1 _]. destruct (child_parts d Hd) as [P2 _].
      rewrite P1, P2, E1, E2. reflexivity.
    + unfold u32_of_child. apply (child_parts c Hc).
  - intros [c] [d]. unfold hchild_eqb, hchild_show, child_of_hchild, child_eqb. cbn [hc_child]. intros Hc Hd.
    rewrite N.eqb_eq. split; [|split; reflexivity].
    split; [intros ->; reflexivity|apply child_show_inj; assumption].
  - intros p q Hp Hq. rewrite path_eqb_eq.
    split; [intros ->; reflexivity|apply path_show_inj; assumption].
  - intros [p] [q]. unfold hpath_eqb, hpath_show, path_of_hpath. cbn [hp_inner]. intros Hp Hq.
    split; [|split; reflexivity]. rewrite path_eqb_eq.
    split; [intros ->; reflexivity|apply path_show_inj; assumption].
Qed.
Print Assumptions C90_path_equality.

Example C90_equality_case :
  child_eqb 2147483648 0 = false /\ path_eqb [0; 2147483648] [0; 2147483648] = true /\
  path_eqb [0; 1] [0; 1; 2] = false /\ path_eqb [0; 1] [1; 0] = false /\
  hpath_eqb (mkHP [2147483649]) (mkHP [2147483649]) = true.
Proof. repeat split; reflexivity. Qed.

(** Versions are equal exactly when the kind and the four bytes are; the bytes and the printed
    form do not show the kind, so a public and a private version can print the same and are then
    not equal.  Known versions are equal exactly when their version bytes are. *)
Theorem C90_version_equality :
  (forall v w, as_u32 v < 2 ^ 32 -> as_u32 w < 2 ^ 32 ->
     (version_eqb v w = true <-> version_to_bytes v = version_to_bytes w /\ is_public v = is_public w) /\
     (version_eqb v w = true <-> version_show v = version_show w /\ is_private v = is_private w)) /\
  (forall n, version_eqb (version_public n) (version_private n) = false /\
     version_show (version_public n) = version_show (version_private n) /\
     version_to_bytes (version_public n) = version_to_bytes (version_private n)) /\
  (forall k l, (known_eqb k l = true <-> k = l) /\
     (known_eqb k l = true <-> version_eqb (into_version k) (into_version l) = true) /\
     (known_eqb k l = true <-> version_to_bytes (into_version k) = version_to_bytes (into_version l))) /\
  (forall k l, (kind_eq k l = true <-> k = l) /\ (kind_eq k l = true <-> kind_name k = kind_name l)).
Proof.
  assert (EQ : forall v w, version_eqb v w = true <-> v = w).
  { intros [v|v] [w|w]; cbn [version_eqb]; try (split; discriminate); rewrite N.eqb_eq;
      (split; [intros ->; reflexivity|intros [= ->]; reflexivity]). }
  assert (K : forall v w, as_u32 v = as_u32 w -> is_public v = is_public w -> v = w).
  { intros [v|v] [w|w]; cbn; intros E1 E2; try discriminate; congruence. }
  destruct C53_version_bytes as (_ & B & H).
  assert (U : forall v w, as_u32 v < 2 ^ 32 -> as_u32 w < 2 ^ 32 -> version_to_bytes v = version_to_bytes w ->
              as_u32 v = as_u32 w).
  { intros v w Hv Hw E. unfold version_to_bytes in E.
    assert (R : forall n, n < 2 ^ 32 -> u32_from_be (u32_to_be n) = n).
    { intros n Hn. destruct C22_child_numbers as (_ & _ & C). apply (C n Hn). }
    rewrite <- (R _ Hv), <- (R _ Hw), E. reflexivity. }
  split; [|split; [|split]].
  - intros v w Hv Hw. split; rewrite EQ.
    + split; [intros ->; auto|]. intros [E1 E2]. apply K; [apply U; assumption|exact E2].
    + split; [intros ->; auto|]. intros [E1 E2]. apply K.
      * destruct (H v Hv) as (d1 & S1 & L1 & _ & V1). destruct (H w Hw) as (d2 & S2 & L2 & _ & V2).
        rewrite S1, S2 in E1. apply app_inv_head in E1. congruence.
      * destruct (B v Hv) as (_ & -> & _). destruct (B w Hw) as (_ & -> & _). congruence.
  - intros n. repeat split; reflexivity.
  - intros k l.
    assert (EK : known_eqb k l = true <-> k = l).
    { split; [|intros ->; unfold known_eqb; apply N.eqb_refl].
      destruct k, l; intros E; try reflexivity; discriminate E. }
    destruct C27_known_versions as (KI & _ & _ & KF & KB & _). split; [exact EK|].
    split; rewrite EK; [rewrite EQ|]; (split; [intros ->; reflexivity|]).
    + apply KI.
    + intros E. apply U in E; [|apply KB..]. apply KF in E. pose proof (proj2 (KF _ l) eq_refl). congruence.
  - intros k l. split; (split; [|intros E; destruct k, l; try reflexivity; discriminate E]);
      destruct k, l; intros E; try reflexivity; discriminate E.
Qed.
Print Assumptions C90_version_equality.

Example C90_version_case :
  version_eqb XPUB (Private 0x0488B21E) = false /\ version_show XPUB = version_show (Private 0x0488B21E) /\
  known_eqb Xpub Zpub = false /\ kind_eq InvalidPath InvalidPath = true.
Proof. repeat split; reflexivity. Qed.

(** ** Concatenation *)
Lemma join_app (sep : str) (a b : list str) : a <> [] -> b <> [] ->
  join sep (a ++ b) = join sep a ++ sep ++ join sep b.
Proof.
  intros Ha Hb. induction a as [|x a IH]; [congruence|].
  destruct a as [|y a].
  - destruct b as [|z b]; [congruence|]. reflexivity.
  - cbn [app join] in *. rewrite IH by discriminate. rewrite <- !app_assoc. reflexivity.
Qed.

(** [Extend::extend] appends: the extended path prints as the first path followed by the second
    one without its leading m, and derivation along it is derivation along both, in this order. *)
Theorem C90_extend :
  (forall p q, path_show (path_extend p q) = path_show p ++ skipn 1 (path_show q)) /\
  (forall p q, hpath_try_from (path_extend p q) =
     match hpath_try_from p with
     | Ok h => match hpath_try_from q with Ok k => Ok (mkHP (path_extend (path_of_hpath h) (path_of_hpath k))) | r => r end
     | r => r
     end) /\
  (forall dbg (C : TweakCurve) (x : XPrv C) p q, xprv_derive_path dbg x (path_extend p q) =
     match xprv_derive_path dbg x p with Ok y => xprv_derive_path dbg y q | r => r end) /\
  (forall dbg (C : TweakCurve) (x : XPub C) p q, xpub_derive_path dbg x (path_extend p q) =
     match xpub_derive_path dbg x p with Ok y => xpub_derive_path dbg y q | r => r end) /\
  (forall p q r, path_extend (path_extend p q) r = path_extend p (path_extend q r)).
Proof.
  split; [|split; [|split; [|split]]].
  - intros p q. unfold path_extend. rewrite !path_show_eq.
    destruct p as [|c p]; [destruct q; reflexivity|]. destruct q as [|d q].
    + cbn [skipn]. rewrite !app_nil_r. reflexivity.
    + change ((c :: p) ++ d :: q) with (c :: (p ++ d :: q)). cbv beta iota.
      change (c :: p ++ d :: q) with ((c :: p) ++ d :: q).
      rewrite map_app, join_app by discriminate. rewrite <- !app_assoc. reflexivity.
  - intros p q. unfold path_extend, hpath_try_from.
    assert (F : forall (f : N -> bool) (a b : list N), find f (a ++ b) = match find f a with Some c => Some c | None => find f b end).
    { intros f a b. induction a as [|c a IH]; cbn; [reflexivity|]. destruct (f c); [reflexivity|exact IH]. }
    rewrite F. destruct (find _ p); [reflexivity|]. destruct (find _ q); reflexivity.
  - intros dbg C x p q. unfold path_extend. rewrite (proj1 (C39_path_composition dbg C 0)).
    destruct (xprv_derive_path dbg x p); reflexivity.
  - intros dbg C x p q. unfold path_extend.
    destruct (C39_path_composition dbg C 0) as (_ & _ & _ & P & _). rewrite P.
    destruct (xpub_derive_path dbg x p); reflexivity.
  - intros p q r. unfold path_extend. symmetry. apply app_assoc.
Qed.
Print Assumptions C90_extend.

(** A path text followed by a slash and a second path text without the leading m parses to the
    concatenation; with the leading m the result is not a path. *)
Theorem C90_parse_extend s t p q : path_parse s = Ok p -> path_parse t = Ok q ->
  ((forall u, t <> lit "m" ++ u) -> (forall u, t <> lit "M" ++ u) ->
     path_parse (s ++ lit "/" ++ t) = Ok (path_extend p q)) /\
  (forall u, t = lit "m" ++ u \/ t = lit "M" ++ u -> forall r, path_parse (s ++ lit "/" ++ t) <> Ok r).
Proof.
  intros Hs Ht. rewrite path_parse_iff in Hs, Ht.
  assert (HS : (s = lit "m" \/ s = lit "M") /\ p = [] \/
    exists prefix comps, (prefix = [] \/ prefix = lit "m/" \/ prefix = lit "M/") /\
      comps <> [] /\ s = prefix ++ join (lit "/") comps /\ Forall2 spells_child comps p) by exact Hs.
  split.
  - intros N1 N2. rewrite path_parse_iff. unfold path_extend.
    destruct Ht as [[[-> | ->] _]|(pre & comps & Hp & Hne & -> & F)].
    { elim (N1 []). reflexivity. }
    { elim (N2 []). reflexivity. }
    destruct Hp as [-> | [-> | ->]].
    2:{ elim (N1 (lit "/" ++ join (lit "/") comps)). reflexivity. }
    2:{ elim (N2 (lit "/" ++ join (lit "/") comps)). reflexivity. }
    cbn [app]. right. destruct HS as [[E ->]|(pre & cs & Hp & Hn & -> & F')].
    + exists (s ++ lit "/"), comps. repeat split; [|exact Hne| |exact F].
      * destruct E as [-> | ->]; auto.
      * rewrite <- app_assoc. reflexivity.
    + exists pre, (cs ++ comps). repeat split; [exact Hp| | |].
      * destruct cs; [congruence|discriminate].
      * rewrite join_app by assumption. rewrite <- !app_assoc. reflexivity.
      * apply Forall2_app; assumption.
  - intros u Hu r. rewrite path_parse_iff. intros H.
    assert (M : exists m w, (m = 109 \/ m = 77) /\ s ++ lit "/" ++ t = s ++ 47 :: m :: w).
    { destruct Hu as [-> | ->]; [exists 109, u|exists 77, u]; auto. }
    destruct M as (m & w & Hm & M). rewrite M in H. clear M Ht Hu.
    assert (NS : forall (l : list str) (cs : list N), Forall2 spells_child l cs -> ~ In m (join (lit "/") l)).
    { intros l cs F. induction F as [|x c l cs Hx F IH]; [intros []|].
      assert (Nx : ~ In m x).
      { intros I. destruct Hx as (i & h & (plus & ds & suf & -> & Hpl & _ & Hd & _ & _ & Hsuf) & _).
        apply in_app_or in I as [I|I].
        - destruct Hpl as [-> | ->]; [destruct I|]. destruct I as [I|[]]. destruct Hm as [-> | ->]; discriminate I.
        - apply in_app_or in I as [I|I].
          + rewrite Forall_forall in Hd. specialize (Hd _ I). unfold is_digit in Hd. destruct Hm; subst m; lia.
          + destruct h; [|subst suf; destruct I].
            destruct Hsuf as [-> | [-> | ->]]; destruct I as [I|[]]; destruct Hm; subst m; discriminate I. }
      destruct l as [|y l]; [exact Nx|]. cbn [join]. intros I. apply in_app_or in I as [I|I]; [exact (Nx I)|].
      apply in_app_or in I as [I|I]; [|exact (IH I)].
      destruct I as [I|[]]. destruct Hm; subst m; discriminate I. }
    destruct H as [[[E|E] _]|(pre & comps & Hp & Hne & E & F)].
    + destruct s as [|a s]; [destruct HS as [[[C|C] _]|(pr & cs & _ & Hn & C & F)]; try discriminate C|destruct s; discriminate E].
      destruct (join_head _ _ Hn F) as (d & v & J & _). rewrite J in C. destruct pr; discriminate C.
    + destruct s as [|a s]; [destruct HS as [[[C|C] _]|(pr & cs & _ & Hn & C & F)]; try discriminate C|destruct s; discriminate E].
      destruct (join_head _ _ Hn F) as (d & v & J & _). rewrite J in C. destruct pr; discriminate C.
    + assert (Hs0 : s <> []).
      { intros ->. destruct HS as [[[C|C] _]|(pr & cs & _ & Hn & C & F')]; try discriminate C.
        destruct (join_head _ _ Hn F') as (d & v & J & _). rewrite J in C. destruct pr; discriminate C. }
      apply (NS comps r F). 
      assert (I : In m (skipn 2 (s ++ 47 :: m :: w))).
      { destruct s as [|a [|b s]]; [congruence| |].
        - cbn. auto.
        - cbn [app skipn]. apply in_or_app. right. cbn. auto. }
      rewrite E in I. destruct Hp as [-> | [-> | ->]]; [|exact I|exact I].
      cbn [app] in I. rewrite <- (firstn_skipn 2 (join (lit "/") comps)). apply in_or_app. right. exact I.
Qed.
Print Assumptions C90_parse_extend.

(** The default path is the root. *)
Theorem C90_default :
  path_show path_default = lit "m" /\ path_parse (lit "m") = Ok path_default /\
  path_parse (lit "M") = Ok path_default /\
  hpath_parse (lit "m") = Ok hpath_default /\ hpath_show hpath_default = lit "m" /\
  path_of_hpath hpath_default = path_default /\
  (forall p, path_extend path_default p = p /\ path_extend p path_default = p) /\
  (forall dbg (C : TweakCurve) (x : XPrv C), xprv_derive_path dbg x path_default = Ok x) /\
  (forall dbg (C : TweakCurve) (x : XPub C), xpub_derive_path dbg x path_default = Ok x) /\
  (forall s h, hpath_parse s = Ok h -> path_parse s = Ok (path_of_hpath h)).
Proof.
  do 6 (split; [reflexivity|]). split; [|split; [|split]].
  - intros p. unfold path_extend, path_default. split; [reflexivity|apply app_nil_r].
  - reflexivity.
  - reflexivity.
  - intros s h. unfold hpath_parse. destruct (path_parse s) as [p|e|]; cbn [bind]; try discriminate.
    unfold hpath_try_from. destruct (find _ p); [discriminate|]. intros [= <-]. reflexivity.
Qed.
Print Assumptions C90_default.

Example C90_extend_case :
  path_extend [2147483692] [0; 5] = [2147483692; 0; 5] /\
  path_show (path_extend [2147483692] [0; 5]) = lit "m/44'/0/5" /\
  path_parse (lit "m/44h" ++ lit "/" ++ lit "0/5") = Ok (path_extend [2147483692] [0; 5]) /\
  path_parse (lit "m/44h" ++ lit "/" ++ lit "m/0") = Err {| e_kind := InvalidPath;
    e_message := lit "invalid child index"; e_context := [(lit "component", lit "m")]; e_source := None |}.
Proof. repeat split; reflexivity. Qed.
