(** Wrong implementations that every input of the fuzz targets accepts (C105). *)
From Verif Require Import Base Str StrProofs Sha2 Stream StreamProofs Unicode UnicodeTables UnicodeProofs Language39 Mnemonic39 Spec39
  Eqb39 Words_english Builtin39 LangSpec39 LangProofs MnemonicProofs Fuzz39.
From Verif Require Import Error32 Path32 PathSpec32 PathProofs32 Version32 Meta32 Payload32 Base58 Base58Spec Base58Proofs
  PayloadSpec32 PayloadProofs32 Curve32 XKey32 Eqb32 XKeySpec32 Cyclic32 Fuzz32 FuzzApi Props39 Props39f Props32f PropsFuzz.
Local Open Scope N_scope.

(** ** Wrong implementations that pass *)
(** All inputs of the three bip0032 targets, of the three bip0039 targets. *)
Definition passes32 (A : Api32) (lossy : list byte -> str) : Prop :=
  (forall pb mb mc m mo, fuzz_parse_path_a A lossy pb mb mc m mo = Ok tt) /\
  (forall sd pb ms mp, fuzz_derive_path_a A sd pb ms mp = Ok tt) /\
  (forall sd pb mb ms mc v mp me mo, fuzz_parse_xkey_a A lossy sd pb mb ms mc v mp me mo = Ok tt).
Definition passes39 (A : Api39) (lossy : list byte -> str) : Prop :=
  (forall i, entropy_input_wf i -> fuzz_from_entropy_a A i = Ok tt) /\
  (forall i pb, entropy_input_wf i -> fuzz_to_seed_a A lossy i pb = Ok tt) /\
  (forall pb n m k, k < 2 ^ 16 -> fuzz_from_phrase_a A lossy pb n m k = Ok tt).
Lemma real_passes32 dbg L lossy : ec_laws L -> passes32 (real_api dbg L) lossy.
Proof.
  intros HL. split; [|split].
  - exact (C59_fuzz_parse_path lossy).
  - exact (C60_fuzz_derive_path dbg L HL).
  - exact (C61_fuzz_parse_xkey dbg L HL lossy).
Qed.
Lemma real_passes39 U B lossy : ucd_std U -> valid_build B -> passes39 (real_api39 U B) lossy.
Proof.
  intros HU HB. split; [|split].
  - intros i. exact (C57_fuzz_from_entropy U B i HU HB).
  - intros i pb. exact (C57_fuzz_to_seed U B lossy i pb HU HB).
  - intros pb n m k _. exact (C58_fuzz_from_phrase U lossy pb n m k HU).
Qed.

Section Undetected32.
(** [R] is any implementation that passes, such as the crate's. *)
Context (R : Api32) (lossy : list byte -> str).

(** The nine versions no target prints a key with. *)
Definition untested : list KnownVersion :=
  [Tprv; Zprv; Vprv; ZprvWsh; VprvWsh; Ypub; Upub; YpubShWsh; UpubShWsh].
Definition skipped (v : Version) : bool := existsb (fun k => version_eqb v (into_version k)) untested.
Definition no_versions : Api32 := {|
  a_child_new := a_child_new R; a_index := a_index R; a_hardened := a_hardened R;
  a_child_show := a_child_show R; a_child_parse := a_child_parse R;
  a_path_show := a_path_show R; a_path_parse := a_path_parse R;
  a_prv := a_prv R; a_pub := a_pub R; a_new := a_new R; a_derive := a_derive R; a_public := a_public R;
  a_derive_pub := a_derive_pub R;
  a_encode := fun x v => if skipped v then Panic else a_encode R x v;
  a_encode_pub := fun x v => if skipped v then Panic else a_encode_pub R x v;
  a_show := a_show R; a_parse := a_parse R; a_try := a_try R; a_try_pub := a_try_pub R
|}.
(** An implementation that panics when it prints a key with one of them passes. *)
Lemma versions_undetected : passes32 R lossy ->
  passes32 no_versions lossy /\
  forall k, In k untested -> forall x y,
    a_encode no_versions x (into_version k) = Panic /\ a_encode_pub no_versions y (into_version k) = Panic.
Proof.
  intros HR.
  pose proof (proj1 (C105_parse_path R lossy) (proj1 HR)) as PATH.
  pose proof (proj1 (C105_derive_path R) (proj1 (proj2 HR))) as DERIVE.
  pose proof (proj1 (C105_parse_xkey R lossy) (proj2 (proj2 HR))) as XKEY.
  split.
  - split; [|split].
    + exact (proj1 HR).
    + apply C105_derive_path. exact DERIVE.
    + apply C105_parse_xkey. split; [exact (proj1 XKEY)|]. intros seed p f Hs I.
      destruct (proj2 XKEY seed p f Hs I) as [H1 H2]. split; [exact H1|]. intros m Hm.
      destruct (H2 m Hm) as [H3 H4]. split; [exact H3|]. intros x Hx. destruct (H4 x Hx) as [P Q].
      split; intros k Hk; [specialize (P k Hk)|specialize (Q k Hk)].
      * destruct Hk as [<-|[<-|[<-|[<-|[<-|[]]]]]]; exact P.
      * destruct Hk as [<-|[<-|[<-|[<-|[<-|[]]]]]]; exact Q.
  - intros k Hk x y. cbn [no_versions a_encode a_encode_pub].
    replace (skipped (into_version k)) with true; [auto|].
    destruct Hk as [<-|[<-|[<-|[<-|[<-|[<-|[<-|[<-|[<-|[]]]]]]]]]]; reflexivity.
Qed.

(** One that refuses every seed passes. *)
Definition no_seeds (e : Error) : Api32 := {|
  a_child_new := a_child_new R; a_index := a_index R; a_hardened := a_hardened R;
  a_child_show := a_child_show R; a_child_parse := a_child_parse R;
  a_path_show := a_path_show R; a_path_parse := a_path_parse R;
  a_prv := a_prv R; a_pub := a_pub R; a_new := fun _ => Err e; a_derive := a_derive R; a_public := a_public R;
  a_derive_pub := a_derive_pub R; a_encode := a_encode R; a_encode_pub := a_encode_pub R;
  a_show := a_show R; a_parse := a_parse R; a_try := a_try R; a_try_pub := a_try_pub R
|}.
Lemma rejecting_undetected e : passes32 R lossy ->
  passes32 (no_seeds e) lossy /\ forall seed, a_new (no_seeds e) seed = Err e.
Proof.
  intros HR.
  pose proof (proj1 (C105_parse_path R lossy) (proj1 HR)) as PATH.
  pose proof (proj1 (C105_derive_path R) (proj1 (proj2 HR))) as DERIVE.
  pose proof (proj1 (C105_parse_xkey R lossy) (proj2 (proj2 HR))) as XKEY.
  split; [|reflexivity]. split; [|split].
  - exact (proj1 HR).
  - apply C105_derive_path. split; [exact (proj1 DERIVE)|]. intros. split; [discriminate|]. intros m [=].
  - apply C105_parse_xkey. split; [exact (proj1 DERIVE)|]. intros. split; [discriminate|]. intros m [=].
Qed.

(** One that gives every seed the master key of the same seed passes. *)
Definition one_seed (s0 : list byte) : Api32 := {|
  a_child_new := a_child_new R; a_index := a_index R; a_hardened := a_hardened R;
  a_child_show := a_child_show R; a_child_parse := a_child_parse R;
  a_path_show := a_path_show R; a_path_parse := a_path_parse R;
  a_prv := a_prv R; a_pub := a_pub R; a_new := fun _ => a_new R s0; a_derive := a_derive R; a_public := a_public R;
  a_derive_pub := a_derive_pub R; a_encode := a_encode R; a_encode_pub := a_encode_pub R;
  a_show := a_show R; a_parse := a_parse R; a_try := a_try R; a_try_pub := a_try_pub R
|}.
Lemma seed_undetected s0 : passes32 R lossy -> (length s0 <= 64)%nat ->
  passes32 (one_seed s0) lossy /\ forall seed, a_new (one_seed s0) seed = a_new R s0.
Proof.
  intros HR H0.
  pose proof (proj1 (C105_parse_path R lossy) (proj1 HR)) as PATH.
  pose proof (proj1 (C105_derive_path R) (proj1 (proj2 HR))) as DERIVE.
  pose proof (proj1 (C105_parse_xkey R lossy) (proj2 (proj2 HR))) as XKEY.
  split; [|reflexivity]. split; [|split].
  - exact (proj1 HR).
  - apply C105_derive_path. split; [exact (proj1 DERIVE)|]. intros seed p f _ I. exact (proj2 DERIVE s0 p f H0 I).
  - apply C105_parse_xkey. split; [exact (proj1 XKEY)|]. intros seed p f _ I. exact (proj2 XKEY s0 p f H0 I).
Qed.

(** One that derives every path to where it started passes. *)
Definition no_steps (e : Error) : Api32 := {|
  a_child_new := a_child_new R; a_index := a_index R; a_hardened := a_hardened R;
  a_child_show := a_child_show R; a_child_parse := a_child_parse R;
  a_path_show := a_path_show R; a_path_parse := a_path_parse R;
  a_prv := a_prv R; a_pub := a_pub R; a_new := a_new R; a_derive := fun x _ => Ok x; a_public := a_public R;
  a_derive_pub := fun x p => if existsb (a_hardened R) p then Err e else Ok x;
  a_encode := a_encode R; a_encode_pub := a_encode_pub R;
  a_show := a_show R; a_parse := a_parse R; a_try := a_try R; a_try_pub := a_try_pub R
|}.
Lemma root_input : path_input R [] false.
Proof. exists []. split; [cbn; lia|]. split; constructor. Qed.
Lemma path_undetected e : passes32 R lossy ->
  (forall p f, path_input R p f -> f = existsb (a_hardened R) p) -> (forall x, a_derive R x [] = Ok x) ->
  passes32 (no_steps e) lossy /\
  forall x p, a_derive (no_steps e) x p = Ok x /\
    (Forall (fun c => a_hardened R c = false) p -> a_derive_pub (no_steps e) (a_public R x) p = Ok (a_public R x)).
Proof.
  intros HR FLAG ROOT.
  pose proof (proj1 (C105_parse_path R lossy) (proj1 HR)) as PATH.
  pose proof (proj1 (C105_derive_path R) (proj1 (proj2 HR))) as DERIVE.
  pose proof (proj1 (C105_parse_xkey R lossy) (proj2 (proj2 HR))) as XKEY.
  split.
  - split; [|split].
    + exact (proj1 HR).
    + apply C105_derive_path. split; [exact (proj1 DERIVE)|]. intros seed p f Hs I.
      destruct (proj2 DERIVE seed [] false Hs root_input) as [H1 H2]. split; [exact H1|]. intros m Hm.
      destruct (H2 m Hm) as (_ & _ & H3). destruct (H3 m (ROOT m)) as (t & u & T & U0 & _ & Y & _ & V1 & V2).
      split; [discriminate|]. split; [intros e0 [=]|]. intros x [= <-]. exists t, u.
      split; [exact T|]. split; [exact U0|]. split.
      { destruct (proj2 PATH p f I) as [(q & Q1 & Q2 & _) _]. exists q. split; [exact Q1|exact Q2]. }
      pose proof (FLAG p f I) as F. split; [|split; [|split; [exact V1|exact V2]]].
      * intros ->. exists (a_public R m). cbn [no_steps a_derive_pub]. rewrite <- F. split; [reflexivity|exact U0].
      * intros ->. exists e. cbn [no_steps a_derive_pub]. rewrite <- F. reflexivity.
    + apply C105_parse_xkey. split; [exact (proj1 XKEY)|]. intros seed p f Hs I.
      destruct (proj2 XKEY seed [] false Hs root_input) as [H1 H2]. split; [exact H1|]. intros m Hm.
      destruct (H2 m Hm) as (_ & H3). specialize (H3 m (ROOT m)). split; [discriminate|]. intros x [= <-]. exact H3.
  - intros x p. split; [reflexivity|]. intros F. cbn [no_steps a_derive_pub].
    replace (existsb (a_hardened R) p) with false; [reflexivity|]. symmetry.
    induction F as [|c p Hc F IH]; [reflexivity|]. cbn [existsb]. rewrite Hc. exact IH.
Qed.

(** One that panics on every path with a character outside "m/0123456789'hH" and on
    every key text with a character outside the Base58 alphabet passes. *)
Definition only (letters : str) (t : str) : bool := forallb (fun c => existsb (N.eqb c) letters) t.
Definition few_letters : Api32 := {|
  a_child_new := a_child_new R; a_index := a_index R; a_hardened := a_hardened R;
  a_child_show := a_child_show R; a_child_parse := a_child_parse R;
  a_path_show := a_path_show R;
  a_path_parse := fun t => if only (map b2n path_letters) t then a_path_parse R t else Panic;
  a_prv := a_prv R; a_pub := a_pub R; a_new := a_new R; a_derive := a_derive R; a_public := a_public R;
  a_derive_pub := a_derive_pub R; a_encode := a_encode R; a_encode_pub := a_encode_pub R;
  a_show := a_show R;
  a_parse := fun t => if only alphabet58 t then a_parse R t else Panic;
  a_try := a_try R; a_try_pub := a_try_pub R
|}.
Lemma only_iff letters t : only letters t = true <-> Forall (fun c => In c letters) t.
Proof.
  unfold only. rewrite forallb_forall, Forall_forall. split; intros H c I; specialize (H c I).
  - apply existsb_exists in H as (d & D & E). apply N.eqb_eq in E. subst. exact D.
  - apply existsb_exists. exists c. split; [exact H|apply N.eqb_refl].
Qed.
Lemma edit_letters alphabet a q c b b' : edit alphabet a q c b b' ->
  Forall (fun z => In z alphabet) b -> Forall (fun z => In z alphabet) b'.
Proof.
  intros E F. destruct E as [x Z X|u y v x Z X P|u y v x Z X P|u y v Z P|Z].
  - constructor; [eapply nth_error_In, X|constructor].
  - apply Forall_app in F as [F1 F2]. apply Forall_app. split; [exact F1|]. constructor; [eapply nth_error_In, X|exact F2].
  - apply Forall_app in F as [F1 F2]. inversion F2; subst. apply Forall_app. split; [exact F1|].
    constructor; [eapply nth_error_In, X|assumption].
  - apply Forall_app in F as [F1 F2]. inversion F2; subst. apply Forall_app. split; assumption.
  - exact F.
Qed.
Lemma edits_letters alphabet w b b' : edits alphabet w b b' ->
  Forall (fun z => In z alphabet) b -> Forall (fun z => In z alphabet) b'.
Proof. induction 1 as [|a q c w t t' t'' E H IH]; intros F; [exact F|]. apply IH. eapply edit_letters; eassumption. Qed.
Definition ascii_kept : Prop := forall b, Forall (fun z => b2n z < 128) b -> lossy b = map b2n b.
Lemma edited_letters alphabet s t : ascii_kept -> Forall (fun z => b2n z < 128) alphabet ->
  edited lossy alphabet s t -> only (map b2n alphabet) s = true -> only (map b2n alphabet) t = true.
Proof.
  intros HA FA [->|(w & b & _ & E & ->)] S; [exact S|]. apply only_iff in S. apply only_iff.
  assert (A8 : Forall (fun c => c < 128) s).
  { eapply Forall_impl; [|exact S]. intros c I. apply in_map_iff in I as (z & <- & I).
    rewrite Forall_forall in FA. apply FA, I. }
  rewrite (PathProofs32.utf8_ascii s A8) in E.
  assert (FB : Forall (fun z => In z alphabet) b).
  { eapply edits_letters; [exact E|]. apply Forall_forall. intros z I. apply in_map_iff in I as (c & <- & I).
    rewrite Forall_forall in S. specialize (S c I). apply in_map_iff in S as (z & <- & I'). rewrite n2b_b2n. exact I'. }
  rewrite HA.
  - apply Forall_forall. intros c I. apply in_map_iff in I as (z & <- & I). apply in_map.
    rewrite Forall_forall in FB. apply FB, I.
  - eapply Forall_impl; [|exact FB]. intros z I. rewrite Forall_forall in FA. apply FA, I.
Qed.
Lemma base58_letters d t : is_base58check d t -> only alphabet58 t = true.
Proof.
  intros (ds & F & _). apply only_iff. induction F as [|x c ds t H F IH]; constructor; [|exact IH].
  eapply nth_error_In. exact H.
Qed.
Lemma letters_undetected : passes32 R lossy -> ascii_kept ->
  (forall p, only (map b2n path_letters) (a_path_show R p) = true) ->
  (forall q t, a_show R q = Ok t -> only alphabet58 t = true) ->
  passes32 few_letters lossy /\
  (forall t, (exists c, In c t /\ ~ In c (map b2n path_letters)) -> a_path_parse few_letters t = Panic) /\
  (forall t, (exists c, In c t /\ ~ In c alphabet58) -> a_parse few_letters t = Panic).
Proof.
  intros HR HA SP SK.
  pose proof (proj1 (C105_parse_path R lossy) (proj1 HR)) as PATH.
  pose proof (proj1 (C105_derive_path R) (proj1 (proj2 HR))) as DERIVE.
  pose proof (proj1 (C105_parse_xkey R lossy) (proj2 (proj2 HR))) as XKEY.
  assert (PP : forall p, a_path_parse few_letters (a_path_show R p) = a_path_parse R (a_path_show R p)).
  { intros p. cbn [few_letters a_path_parse]. rewrite SP. reflexivity. }
  assert (KP : forall q t, a_show R q = Ok t -> a_parse few_letters t = a_parse R t).
  { intros q t H. cbn [few_letters a_parse]. rewrite (SK q t H). reflexivity. }
  split; [split; [|split]|split].
  - apply C105_parse_path. split; [exact (proj1 PATH)|]. intros p f I.
    destruct (proj2 PATH p f I) as [(q & Q1 & Q2 & Q3) H]. split.
    + exists q. split; [|split; [exact Q2|exact Q3]]. change (a_path_show few_letters p) with (a_path_show R p).
      rewrite PP. exact Q1.
    + intros t E. assert (O : only (map b2n path_letters) t = true).
      { apply (edited_letters path_letters (a_path_show R p) t HA); [|exact E|apply SP]. repeat constructor. }
      destruct (H t E) as [N1 N2]. unfold normalises. cbn [few_letters a_path_parse]. rewrite O. split; [exact N1|].
      intros q' Q'. destruct (N2 q' Q') as (B & r & R1 & R2). split; [exact B|]. exists r.
      change (a_path_show few_letters q') with (a_path_show R q'). cbn [few_letters a_path_show]. rewrite SP.
      split; [exact R1|exact R2].
  - assert (PS : forall x t, prv_survives R x t -> prv_survives few_letters x t).
    { intros x t (p & q & y & r & H1 & H2 & H3 & H4 & H5 & H6). exists p, q, y, r. rewrite (KP p t H2). auto 8. }
    assert (US : forall x t, pub_survives R x t -> pub_survives few_letters x t).
    { intros x t (p & q & y & r & H1 & H2 & H3 & H4 & H5 & H6). exists p, q, y, r. rewrite (KP p t H2). auto 8. }
    apply C105_derive_path. split; [exact (proj1 DERIVE)|]. intros seed p f Hs I.
    destruct (proj2 DERIVE seed p f Hs I) as [H1 H2]. split; [exact H1|]. intros m Hm.
    destruct (H2 m Hm) as (H3 & H4 & H5). split; [exact H3|]. split; [exact H4|]. intros x Hx.
    destruct (H5 x Hx) as (t & u & T & U0 & (q & Q1 & Q2) & Y & Z & V1 & V2). exists t, u.
    assert (KT : a_parse few_letters t = a_parse R t).
    { destruct T as (p0 & _ & _ & _ & _ & T & _). exact (KP p0 t T). }
    assert (KU : a_parse few_letters u = a_parse R u).
    { destruct U0 as (p0 & _ & _ & _ & _ & T0 & _). exact (KP p0 u T0). }
    split; [apply PS, T|]. split; [apply US, U0|]. split; [|split; [|split; [exact Z|]]].
    + exists q. change (a_path_show few_letters p) with (a_path_show R p). rewrite PP. split; [exact Q1|exact Q2].
    + intros F0. destruct (Y F0) as (y & Y1 & Y2). exists y. split; [exact Y1|apply US, Y2].
    + rewrite KT, KU. split; [exact V1|exact V2].
  - assert (RK : forall v q, rekeyed R v q -> rekeyed few_letters v q).
    { intros v q [H1 H2]. split.
      - intros P. destruct (H1 P) as [N1 N2]. split; [exact N1|]. intros key K. destruct (N2 key K) as (p & t & r & E1 & E2 & E3 & E4).
        exists p, t, r. rewrite (KP p t E2). auto.
      - intros P P'. destruct (H2 P P') as [N1 N2]. split; [exact N1|]. intros key K.
        destruct (N2 key K) as (p & t & r & E1 & E2 & E3 & E4). exists p, t, r. rewrite (KP p t E2). auto. }
    assert (TC : forall v r, text_checked R lossy v r -> text_checked few_letters lossy v r).
    { intros v r (p & t & q & t' & q' & H1 & H2 & H3 & H4 & H5 & H6 & H7 & H8 & H9).
      exists p, t, q, t', q'. rewrite (KP p t H2), (KP q t' H4).
      repeat (split; [first [assumption|exact (RK v q' H7)]|]). split.
      - intros d d' t1 B Ln Fl B1. cbn [few_letters a_parse]. rewrite (base58_letters d' t1 B1).
        exact (H8 d d' t1 B Ln Fl B1).
      - intros t1 E. cbn [few_letters a_parse].
        assert (O : only alphabet58 t1 = true).
        { change alphabet58 with (map b2n (map n2b alphabet58)).
          apply (edited_letters (map n2b alphabet58) t t1 HA); [|exact E|exact (SK p t H2)].
          apply Forall_forall. intros z I. apply in_map_iff in I as (c & <- & I).
          pose proof alphabet_ascii as AA. rewrite Forall_forall in AA. specialize (AA c I).
          rewrite b2n_n2b, N.mod_small by lia. lia. }
        rewrite O. exact (H9 t1 E). }
    apply C105_parse_xkey. split; [exact (proj1 XKEY)|]. intros seed p f Hs I.
    destruct (proj2 XKEY seed p f Hs I) as [H1 H2]. split; [exact H1|]. intros m Hm.
    destruct (H2 m Hm) as [H3 H4]. split; [exact H3|]. intros x Hx. destruct (H4 x Hx) as [P Q].
    split; intros k Hk; apply TC; [exact (P k Hk)|exact (Q k Hk)].
  - intros t (c & I & N0). cbn [few_letters a_path_parse]. destruct (only _ t) eqn:O; [|reflexivity].
    apply only_iff in O. rewrite Forall_forall in O. destruct (N0 (O c I)).
  - intros t (c & I & N0). cbn [few_letters a_parse]. destruct (only _ t) eqn:O; [|reflexivity].
    apply only_iff in O. rewrite Forall_forall in O. destruct (N0 (O c I)).
Qed.
End Undetected32.

Section Crate32.
Context (dbg : profile) (L : ECLib) (HL : ec_laws L) (lossy : list byte -> str).
Local Notation R := (real_api dbg L).

Theorem C105_undetected_versions :
  passes32 (no_versions R) lossy /\
  forall k, In k untested -> forall x y,
    a_encode (no_versions R) x (into_version k) = Panic /\ a_encode_pub (no_versions R) y (into_version k) = Panic.
Proof. apply versions_undetected, real_passes32, HL. Qed.
Theorem C105_undetected_rejecting e :
  passes32 (no_seeds R e) lossy /\ forall seed, a_new (no_seeds R e) seed = Err e.
Proof. apply rejecting_undetected, real_passes32, HL. Qed.
Theorem C105_undetected_seed s0 : (length s0 <= 64)%nat ->
  passes32 (one_seed R s0) lossy /\ forall seed, a_new (one_seed R s0) seed = a_new R s0.
Proof. apply seed_undetected, real_passes32, HL. Qed.
Theorem C105_undetected_path e :
  passes32 (no_steps R e) lossy /\
  forall x p, a_derive (no_steps R e) x p = Ok x /\
    (Forall (fun c => child_is_hardened c = false) p -> a_derive_pub (no_steps R e) (a_public R x) p = Ok (a_public R x)).
Proof.
  apply path_undetected; [apply real_passes32, HL| |reflexivity].
  intros p f I. destruct (input_build_path R p f I) as (bytes & H).
  destruct (build_path_ok bytes 32) as (q & K & _). change (build_path bytes 32) with (build_path_a R bytes 32) in K.
  rewrite H in K. injection K as -> ->. reflexivity.
Qed.
Theorem C105_undetected_letters : ascii_kept lossy ->
  passes32 (few_letters R) lossy /\
  (forall t, (exists c, In c t /\ ~ In c (map b2n path_letters)) -> a_path_parse (few_letters R) t = Panic) /\
  (forall t, (exists c, In c t /\ ~ In c alphabet58) -> a_parse (few_letters R) t = Panic).
Proof.
  intros HA. apply letters_undetected; [apply real_passes32, HL|exact HA| |].
  - intros p. cbn [real_api a_path_show]. apply only_iff. destruct (path_show_chars p) as (t & -> & F).
    constructor; [cbn; tauto|]. eapply Forall_impl; [|exact F]. cbn beta. intros x [D|[->| ->]]; [|cbn; tauto|cbn; tauto].
    unfold is_digit in D. assert (x = 48 \/ x = 49 \/ x = 50 \/ x = 51 \/ x = 52 \/ x = 53 \/ x = 54 \/ x = 55 \/ x = 56 \/ x = 57)
      by lia. cbn. intuition.
  - intros q t. cbn [real_api a_show]. unfold payload_show.
    destruct (serialize q) as [d|e|]; cbn [bind]; [|discriminate|discriminate].
    destruct (encode_check_spec d) as (t' & -> & B). intros [= <-]. exact (base58_letters d t' B).
Qed.
End Crate32.
Print Assumptions C105_undetected_versions.
Print Assumptions C105_undetected_rejecting.
Print Assumptions C105_undetected_seed.
Print Assumptions C105_undetected_path.
Print Assumptions C105_undetected_letters.

Section Undetected39.
Context (R : Api39) (lossy : list byte -> str).

(** One whose seeds are all the same passes. *)
Definition one_seed39 (k : list byte) : Api39 := {|
  a_mnemonic := a_mnemonic R; a_from_entropy := a_from_entropy R; a_from_phrase := a_from_phrase R;
  a_validate := a_validate R; a_phrase := a_phrase R; a_entropy := a_entropy R; a_to_seed := fun _ _ => k
|}.
(** One that reads the entropy backwards passes. *)
Definition backwards : Api39 := {|
  a_mnemonic := a_mnemonic R; a_from_entropy := fun e => a_from_entropy R (rev e); a_from_phrase := a_from_phrase R;
  a_validate := a_validate R; a_phrase := a_phrase R; a_entropy := fun m => rev (a_entropy R m);
  a_to_seed := a_to_seed R
|}.
(** One that refuses all whitespace but single spaces between the words passes. *)
Definition single_spaced (s : str) : bool := str_eqb s (join [32] (split_whitespace s)).
Definition strict (e : err39) : Api39 := {|
  a_mnemonic := a_mnemonic R; a_from_entropy := a_from_entropy R;
  a_from_phrase := fun s => if single_spaced s then a_from_phrase R s else Err e;
  a_validate := fun s => if single_spaced s then a_validate R s else Err e;
  a_phrase := a_phrase R; a_entropy := a_entropy R; a_to_seed := a_to_seed R
|}.

Lemma one_seed_undetected k : passes39 R lossy -> passes39 (one_seed39 k) lossy.
Proof.
  intros (P1 & P2 & P3). split; [|split].
  - apply C105_from_entropy. exact (proj1 (C105_from_entropy R) P1).
  - intros i pb Wi. revert i pb Wi. apply C105_to_seed. intros e He.
    destruct (proj1 (C105_from_entropy R) P1 e He) as (m & n & H1 & _ & H2 & _). exists m, n.
    split; [exact H1|]. split; [exact H2|reflexivity].
  - apply C105_from_phrase. exact (proj1 (C105_from_phrase R lossy) P3).
Qed.
Lemma backwards_undetected : passes39 R lossy -> passes39 backwards lossy.
Proof.
  intros (P1 & P2 & P3). split; [|split].
  - apply C105_from_entropy. intros e He.
    destruct (proj1 (C105_from_entropy R) P1 (rev e)) as (m & n & H1 & H2 & H3 & H4 & H5); [rewrite rev_length; exact He|].
    exists m, n. cbn [backwards a_from_entropy a_entropy a_from_phrase a_phrase]. rewrite H2, H4, rev_involutive. auto.
  - intros i pb Wi. revert i pb Wi. apply C105_to_seed. intros e He.
    destruct (proj1 (C105_to_seed R lossy) (fun i pb Wi => P2 i pb Wi) (rev e)) as (m & n & H); [rewrite rev_length; exact He|].
    exists m, n. exact H.
  - apply C105_from_phrase. pose proof (proj1 (C105_from_phrase R lossy) P3) as H.
    assert (K : forall s, phrase_checked R s -> phrase_checked backwards s).
    { intros s (V & F & G). split; [exact V|]. split; [exact F|]. intros m Hm.
      destruct (G m Hm) as (G1 & G2 & (n & G3 & G4 & G5) & G6). split; [exact G1|]. split; [exact G2|]. split; [|exact G6].
      exists n. split; [exact G3|]. split; [exact G4|]. cbn [backwards a_entropy]. rewrite G5. reflexivity. }
    intros b Hb. destruct (H b Hb) as [H1 H2]. split; [apply K, H1|]. intros t T. apply K, H2, T.
Qed.
Lemma joined_single ws : Forall (fun w => w <> [] /\ no_ws w) ws -> single_spaced (join [32] ws) = true.
Proof. intros F. unfold single_spaced. rewrite (split_join ws F). apply str_refl. Qed.
Lemma strict_undetected e :
  passes39 R lossy ->
  (forall x m, legal_entropy_len (length x) -> a_from_entropy R x = Ok m -> single_spaced (a_phrase R m) = true) ->
  (forall s m, a_from_phrase R s = Ok m -> single_spaced (a_phrase R m) = true) ->
  passes39 (strict e) lossy /\
  forall s, single_spaced s = false -> a_from_phrase (strict e) s = Err e /\ a_validate (strict e) s = Err e.
Proof.
  intros (P1 & P2 & P3) SE SF. split; [split; [|split]|].
  - apply C105_from_entropy. intros x Hx.
    destruct (proj1 (C105_from_entropy R) P1 x Hx) as (m & n & H1 & H2 & H3 & H4). exists m, n.
    cbn [strict a_from_entropy a_entropy a_from_phrase a_phrase]. rewrite (SE x m Hx H1). auto.
  - intros i pb Wi. revert i pb Wi. apply C105_to_seed. intros x Hx.
    destruct (proj1 (C105_to_seed R lossy) (fun i pb Wi => P2 i pb Wi) x Hx) as (m & n & H1 & H2 & H3).
    exists m, n. cbn [strict a_from_entropy a_from_phrase a_phrase]. rewrite (SE x m Hx H1). auto.
  - apply C105_from_phrase. pose proof (proj1 (C105_from_phrase R lossy) P3) as H.
    assert (K : forall s, phrase_checked R s -> phrase_checked (strict e) s).
    { intros s (V & F & G). unfold phrase_checked. cbn [strict a_validate a_from_phrase a_phrase a_entropy].
      split; [destruct (single_spaced s); [exact V|discriminate]|].
      split; [destruct (single_spaced s); [exact F|discriminate]|].
      intros m Hm. destruct (single_spaced s); [|discriminate Hm].
      destruct (G m Hm) as (G1 & G2 & (n & G3 & G4 & G5) & N1 & N2). pose proof (SF s m Hm) as SM. rewrite SM.
      split; [exact G1|]. split; [exact G2|]. split; [exists n; auto|]. split.
      - intros b B. cbn [strict a_from_phrase]. replace (single_spaced b) with true; [exact (N1 b B)|]. symmetry.
        destruct B as [W|u w v W _]; [reflexivity|]. apply joined_single. apply words_of_good in W.
        apply Forall_app in W as [W1 W2]. inversion W2; subst. apply Forall_app. split; [exact W1|].
        constructor; [exact bad_word_good|assumption].
      - intros b B. cbn [strict a_from_phrase a_validate a_phrase].
        assert (GOOD : forall i x, nth_error (lang_words (language_of BEnglish)) i = Some x -> x <> [] /\ no_ws x).
        { intros i x X. apply nth_error_In in X.
          pose proof (lc_words _ _ (builtin_contract ucd15 BEnglish ucd15_std)) as LW. rewrite Forall_forall in LW.
          destruct (LW x X) as (L1 & L2 & _). split; [exact L1|exact L2]. }
        assert (SB : single_spaced b = true).
        { destruct B as [W|u w i x W I X|u w W I].
          - unfold single_spaced in SM. exact SM.
          - apply joined_single. apply words_of_good in W. apply Forall_app in W as [W1 W2]. apply Forall_app.
            split; [exact W1|]. constructor; [exact (GOOD _ _ X)|constructor].
          - apply joined_single. apply words_of_good in W. apply Forall_app in W as [W1 W2]. apply Forall_app.
            split; [exact W1|]. constructor; [|constructor]. split; [discriminate|]. repeat constructor. }
        rewrite SB. destruct (N2 b B) as [E|(m' & E1 & E2 & E3)]; [left; exact E|right].
        exists m'. rewrite (SF b m' E2). auto. }
    intros b Hb. destruct (H b Hb) as [H1 H2]. split; [apply K, H1|]. intros t T. apply K, H2, T.
  - intros s H. cbn [strict a_from_phrase a_validate]. rewrite H. auto.
Qed.
End Undetected39.

Section Crate39.
Context (U : ucd) (B : build) (HU : ucd_std U) (HB : valid_build B) (lossy : list byte -> str).
Local Notation R := (real_api39 U B).
Theorem C105_undetected_seed39 k :
  passes39 (one_seed39 R k) lossy /\ forall m p, a_to_seed (one_seed39 R k) m p = k.
Proof. split; [apply one_seed_undetected, real_passes39; assumption|reflexivity]. Qed.
Theorem C105_undetected_backwards :
  passes39 (backwards R) lossy /\ forall e, a_from_entropy (backwards R) e = a_from_entropy R (rev e).
Proof. split; [apply backwards_undetected, real_passes39; assumption|reflexivity]. Qed.
Theorem C105_undetected_strict e :
  passes39 (strict R e) lossy /\
  forall s, (forall ws, s <> join [32] ws \/ ~ words_of s ws) ->
    a_from_phrase (strict R e) s = Err e /\ a_validate (strict R e) s = Err e.
Proof.
  assert (S1 : forall m, Props39.made U B (language_of BEnglish) m -> single_spaced (phrase m) = true).
  { intros m M. pose proof (builtin_contract U BEnglish HU) as LC.
    destruct (made_inv U B _ m (std_ok U HU) LC HB M) as (ws & F & _ & -> & _).
    apply joined_single, (in_good U _ LC), F. }
  destruct (strict_undetected R lossy e) as [P Q].
  - apply real_passes39; assumption.
  - intros x m Hx E. apply S1. apply (Props39.made_entropy U B (language_of BEnglish) x m); [|exact E].
    destruct Hx as [<-|[<-|[<-|[<-|[<-|[]]]]]]; destruct HB as [-> | ->]; reflexivity.
  - intros s m E. apply S1. exact (Props39.made_phrase U B (language_of BEnglish) s m E).
  - split; [exact P|]. intros s H. apply Q. destruct (single_spaced s) eqn:E; [|reflexivity].
    apply str_eqb_eq in E. destruct (H (split_whitespace s)) as [K|K]; [congruence|]. destruct K. apply words_of_split.
Qed.
End Crate39.
Print Assumptions C105_undetected_seed39.
Print Assumptions C105_undetected_backwards.
Print Assumptions C105_undetected_strict.

(** ** What one edit reaches *)
(** One edit of a text of 1 to 256 bytes puts any letter of the alphabet before or in
    place of any byte, or deletes any byte, and does nothing else. *)
Theorem C105_one_edit alphabet t t' :
  alphabet <> [] -> (length alphabet <= 256)%nat -> t <> [] -> (length t <= 256)%nat ->
  (exists a p c, edit alphabet a p c t t') <->
  exists u y v, t = u ++ y :: v /\
    (t' = u ++ v \/ exists x, In x alphabet /\ (t' = u ++ x :: y :: v \/ t' = u ++ x :: v)).
Proof.
  intros Ha La Ht Lt. split.
  - intros (a & p & c & E). destruct E as [x Z X|u y v x Z X P|u y v x Z X P|u y v Z P|Z]; try congruence;
      exists u, y, v; (split; [reflexivity|]); [right|right|left; reflexivity];
      exists x; (split; [eapply nth_error_In, X|auto]).
  - intros (u & y & v & -> & H). rewrite app_length in Lt. cbn [length] in Lt.
    assert (P : length u = (N.to_nat (b2n (n2b (N.of_nat (length u)))) mod length (u ++ y :: v))%nat).
    { rewrite b2n_n2b, N.mod_small by lia. rewrite Nnat.Nat2N.id, app_length. cbn [length].
      rewrite Nat.mod_small by lia. reflexivity. }
    assert (X : forall x, In x alphabet -> exists c, nth_error alphabet (N.to_nat (b2n c) mod length alphabet) = Some x).
    { intros x I. apply In_nth_error in I as (i & I). assert (i < length alphabet)%nat by (apply nth_error_Some; congruence).
      exists (n2b (N.of_nat i)). rewrite b2n_n2b, N.mod_small by lia. rewrite Nnat.Nat2N.id, Nat.mod_small by lia. exact I. }
    destruct H as [->|(x & I & [->| ->])].
    + exists x02, (n2b (N.of_nat (length u))), x00. apply edit_delete; [reflexivity|exact P].
    + destruct (X x I) as (c & Hc). exists x00, (n2b (N.of_nat (length u))), c. apply edit_insert; [reflexivity|exact Hc|exact P].
    + destruct (X x I) as (c & Hc). exists x01, (n2b (N.of_nat (length u))), c. apply edit_replace; [reflexivity|exact Hc|exact P].
Qed.
(** So one edit appends nothing: a byte added at the end repeats the last one. *)
Theorem C105_no_append alphabet a p c t z : t <> [] -> edit alphabet a p c t (t ++ [z]) -> last t z = z.
Proof.
  intros Ht E. remember (t ++ [z]) as t' eqn:Et.
  destruct E as [x Z X|u y v x Z X P|u y v x Z X P|u y v Z P|Z]; try congruence.
  - assert (K : x :: y :: v = (y :: v) ++ [z]).
    { rewrite <- app_assoc in Et. apply app_inv_head in Et. exact Et. }
    assert (last (u ++ y :: v) z = last (y :: v) z) as ->.
    { clear. induction u as [|a u IH]; [reflexivity|]. cbn [app]. destruct u; exact IH. }
    apply (f_equal (fun l => last l z)) in K. rewrite last_last in K. exact K.
  - exfalso. apply (f_equal (@length byte)) in Et. rewrite !app_length in Et. cbn in Et. lia.
  - exfalso. apply (f_equal (@length byte)) in Et. rewrite !app_length in Et. cbn in Et. lia.
Qed.
Print Assumptions C105_one_edit.
Print Assumptions C105_no_append.

(** ** Cases *)
(** A path of two children, an edit of its text, the crate among the implementations
    that pass, and texts on which the wrong ones differ from it. *)
Example C105_case dbg L : path_input (real_api dbg L) [44 + 2 ^ 31; 7] true.
Proof.
  exists [(44, true); (7, false)]. split; [cbn; lia|]. split; [repeat constructor|].
  apply (made_child _ 44 true [(7, false)] (44 + 2 ^ 31) [7] false); [reflexivity|].
  apply (made_child _ 7 false [] 7 [] false); [reflexivity|constructor].
Qed.
Example C105_case_edit : edits path_letters [x01; x02; x07; x00] (bytes_of "m/44'") (bytes_of "m/4'").
Proof.
  apply (edits_step _ x01 x02 x07 [x00] _ (bytes_of "m/54'")).
  - apply (edit_replace path_letters x01 x02 x07 (bytes_of "m/") x34 (bytes_of "4'") x35); reflexivity.
  - apply (edits_step _ x02 x07 x00 [] _ (bytes_of "m/4'")).
    + apply (edit_delete path_letters x02 x07 x00 (bytes_of "m/") x35 (bytes_of "4'")); reflexivity.
    + apply edits_done.
Qed.

Example C105_case_blind dbg :
  ec_laws Cyclic /\ passes32 (few_letters (real_api dbg Cyclic)) (map b2n) /\
  path_parse (lit "m/0 ") <> Panic /\ a_path_parse (few_letters (real_api dbg Cyclic)) (lit "m/0 ") = Panic.
Proof.
  assert (H : ec_laws Cyclic) by exact cyclic_laws.
  destruct (C105_undetected_letters dbg Cyclic H (map b2n)) as (P & _ & _); [intros b _; reflexivity|].
  split; [exact H|]. split; [exact P|]. split; [discriminate|reflexivity].
Qed.
Example C105_case39 :
  ucd_std ucd15 /\ valid_build b64 /\
  single_spaced (lit "zoo  zoo") = false /\ single_spaced (lit "zoo zoo") = true.
Proof. split; [exact ucd15_std|]. split; [exact b64_valid|]. split; reflexivity. Qed.
