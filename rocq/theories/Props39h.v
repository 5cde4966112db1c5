(** Property theorems for hashing and ordering under Cargo features (C103). *)
From Verif Require Import Base Str Language39 Mnemonic39 Builtin39 Generate39 GenSpec39 Compare39 Hash39 StreamProofs BitsProofs.

Lemma source_all b : In b source_order.
Proof. destruct b; cbn; tauto. Qed.
Lemma compiled_cfg req env b : cargo_env req env -> (compiled_variant env b = true <-> cfg_on req (variant_feature b)).
Proof.
  intros EV. unfold compiled_variant, cfg_on. destruct (variant_feature b) as [f|] eqn:F; [|tauto]. rewrite (EV (env_name f)). split.
  - intros (g & G & E). assert (g = f); [|subst; exact G].
    assert (H : In g (map fst feature_table)).
    { clear -G. inversion G as [? ? H|? g' gs H I J]; subst; [exact H|].
      cbn in I. repeat (destruct I as [I|I]; [injection I as <- <-; cbn in J; repeat (destruct J as [<-|J]; [cbn; tauto|]); destruct J|]). destruct I. }
    destruct b; cbn in F; try discriminate; injection F as <-; cbn in H;
      repeat (destruct H as [<-|H]; [first [reflexivity|exfalso; vm_compute in E; discriminate E]|]); destruct H.
  - intros G. exists f. auto.
Qed.

Lemma position_filter_gen (on : BuiltInLanguage -> bool) l a b :
  NoDup l -> In a l -> In b l -> on a = true -> on b = true ->
  (position a (filter on l) ?= position b (filter on l)) = (position a l ?= position b l).
Proof.
  intros N. induction N as [|x l NI N IH]; intros A B OA OB; [destruct A|]. cbn [filter position].
  destruct A as [<-|A], B as [<-|B].
  - rewrite !N.compare_refl. reflexivity.
  - rewrite OA. cbn [position]. destruct (language_dec x x) as [_|n]; [|elim (n eq_refl)].
    destruct (language_dec x b) as [->|D]; [contradiction|].
    transitivity Lt; [|symmetry]; apply N.compare_lt_iff; lia.
  - rewrite OB. cbn [position]. destruct (language_dec x x) as [_|n]; [|elim (n eq_refl)].
    destruct (language_dec x a) as [->|D]; [contradiction|].
    transitivity Gt; [|symmetry]; apply N.compare_gt_iff; lia.
  - destruct (language_dec x a) as [->|D]; [contradiction|]. destruct (language_dec x b) as [->|D']; [contradiction|].
    specialize (IH A B OA OB).
    assert (K : forall p q, (1 + p ?= 1 + q) = (p ?= q)) by (intros; destruct (N.compare_spec p q); [subst; apply N.compare_refl|apply N.compare_lt_iff; lia|apply N.compare_gt_iff; lia]).
    destruct (on x); cbn [position]; [destruct (language_dec x a); [contradiction|]; destruct (language_dec x b); [contradiction|]|]; rewrite ?K; exact IH.
Qed.
Lemma source_nodup : NoDup source_order.
Proof. unfold source_order. repeat (constructor; [intros I; cbn in I; intuition discriminate|]). constructor. Qed.
Lemma source_rank b : position b source_order = builtin_rank b.
Proof. destruct b; reflexivity. Qed.
Lemma ord_rank env a b : compiled_variant env a = true -> compiled_variant env b = true ->
  builtin_ord env a b = builtin_cmp a b.
Proof.
  intros A B. unfold builtin_ord, discriminant, compiled_variants, builtin_cmp. rewrite <- !source_rank.
  apply position_filter_gen; auto using source_nodup, source_all.
Qed.
Lemma rank_inj a b : builtin_rank a = builtin_rank b -> a = b.
Proof. destruct a, b; cbn; (reflexivity || discriminate). Qed.

Lemma position_at b x z : ~ In b x -> position b (x ++ b :: z) = N.of_nat (length x).
Proof.
  induction x as [|v x IH]; cbn [app position length]; intros N.
  - destruct (language_dec b b) as [_|n]; [reflexivity|elim (n eq_refl)].
  - destruct (language_dec v b) as [->|_]; [elim N; left; reflexivity|]. rewrite IH; [lia|]. intros I. apply N. right. exact I.
Qed.
Lemma position_before l a b : NoDup l -> In a l -> In b l ->
  (position a l < position b l <-> exists x y z, l = x ++ a :: y ++ b :: z).
Proof.
  intros N A B. split.
  - revert N A B. induction l as [|v l IH]; intros N A B; [destruct A|]. inversion N as [|? ? NI N']; subst. cbn [position].
    destruct (language_dec v a) as [Ea|D], (language_dec v b) as [Eb|D']; try lia.
    + intros _. destruct B as [B|B]; [elim (D' B)|]. apply in_split in B as (y & z & ->). exists [], y, z. subst. reflexivity.
    + intros L. destruct A as [A|A]; [elim (D A)|]. destruct B as [B|B]; [elim (D' B)|].
      destruct (IH N' A B) as (x & y & z & ->); [lia|]. exists (v :: x), y, z. reflexivity.
  - intros (x & y & z & ->). rewrite position_at.
    2:{ apply NoDup_remove_2 in N. intros I. apply N, in_app_iff. left. exact I. }
    replace (x ++ a :: y ++ b :: z) with ((x ++ a :: y) ++ b :: z) in * by (rewrite <- app_assoc; reflexivity).
    rewrite position_at; [rewrite app_length; cbn [length]; lia|].
    apply NoDup_remove_2 in N. intros I. apply N, in_app_iff. left. exact I.
Qed.

(** C103: two languages of a build are ordered as in the source, whatever else the build has. *)
Theorem C103_order req env req' env' a b :
  cargo_env req env -> cargo_env req' env' ->
  cfg_on req (variant_feature a) -> cfg_on req (variant_feature b) ->
  cfg_on req' (variant_feature a) -> cfg_on req' (variant_feature b) ->
  builtin_ord env a b = builtin_ord env' a b /\
  (builtin_ord env a b = Lt <-> exists x y z, x ++ a :: y ++ b :: z =
     [BEnglish; BChineseSimplified; BChineseTraditional; BCzech; BFrench; BItalian; BJapanese; BKorean; BPortuguese; BSpanish]) /\
  (builtin_ord env a b = Eq <-> a = b) /\
  builtin_ord env b a = CompOpp (builtin_ord env a b) /\
  forall c, cfg_on req (variant_feature c) -> builtin_ord env a b = Lt -> builtin_ord env b c = Lt -> builtin_ord env a c = Lt.
Proof.
  intros E E' A B A' B'. apply (compiled_cfg _ _ _ E) in A, B. apply (compiled_cfg _ _ _ E') in A', B'.
  rewrite !ord_rank by assumption. split; [reflexivity|]. unfold builtin_cmp. split; [|split; [|split]].
  - rewrite N.compare_lt_iff, <- !source_rank, position_before by auto using source_nodup, source_all.
    split; intros (x & y & z & H); exists x, y, z; symmetry; exact H.
  - rewrite N.compare_eq_iff. split; [apply rank_inj|intros ->; reflexivity].
  - apply N.compare_antisym.
  - intros c C. apply (compiled_cfg _ _ _ E) in C. rewrite !ord_rank by assumption. unfold builtin_cmp.
    rewrite !N.compare_lt_iff. lia.
Qed.
Print Assumptions C103_order.

Lemma position_bound b l : position b l <= N.of_nat (length l).
Proof. induction l as [|x l IH]; cbn [position length]; [lia|]. destruct (language_dec x b); lia. Qed.
Lemma isize_inj T n n' x x' : (1 <= pointer_bytes T)%nat -> n < 256 -> n' < 256 ->
  isize_bytes T n ++ x = isize_bytes T n' ++ x' -> n = n' /\ x = x'.
Proof.
  intros P Hn Hn' E. apply app_inv_length in E as [E ->].
  2:{ unfold isize_bytes. destruct (little_endian T); rewrite ?rev_length, !be_bytes_length; reflexivity. }
  split; [|reflexivity].
  assert (B : be_bytes (pointer_bytes T) n = be_bytes (pointer_bytes T) n').
  { unfold isize_bytes in E. destruct (little_endian T); [|exact E]. rewrite <- (rev_involutive (be_bytes _ n)), E. apply rev_involutive. }
  assert (W : 256 <= 256 ^ N.of_nat (pointer_bytes T)).
  { rewrite <- (N.pow_1_r 256) at 1. apply N.pow_le_mono_r; lia. }
  apply be_inj in B; lia.
Qed.
Lemma discriminant_small env b : discriminant env b < 256.
Proof.
  pose proof (position_bound b (compiled_variants env)) as P. unfold discriminant.
  assert (length (compiled_variants env) <= 10)%nat; [|lia].
  unfold compiled_variants. change 10%nat with (length source_order). generalize source_order. intros l.
  induction l as [|x l IH]; cbn [filter]; [lia|]. destruct (compiled_variant env x); cbn [length]; lia.
Qed.

(** C103: in one build, equal languages and counts feed equal bytes to a hasher, different ones
    different bytes, and what is hashed after them can be told apart. *)
Theorem C103_hash T req env a b x y :
  (1 <= pointer_bytes T)%nat -> cargo_env req env -> cfg_on req (variant_feature a) -> cfg_on req (variant_feature b) ->
  builtin_hash T env a ++ x = builtin_hash T env b ++ y <-> a = b /\ x = y.
Proof.
  intros P E A B. apply (compiled_cfg _ _ _ E) in A, B. split; [|intros [-> ->]; reflexivity].
  assert (IA : In a (compiled_variants env)) by (apply filter_In; split; [apply source_all|exact A]).
  assert (IB : In b (compiled_variants env)) by (apply filter_In; split; [apply source_all|exact B]).
  intros H. assert (K : discriminant env a = discriminant env b /\ x = y \/ a = b /\ x = y).
  { unfold builtin_hash in H. destruct (compiled_variants env) as [|v [|w l]] eqn:V; [destruct IA| |].
    - right. cbn in IA, IB, H. destruct IA as [<-|[]], IB as [<-|[]]. auto.
    - left. apply (isize_inj T); auto using discriminant_small. }
  destruct K as [[D X]|K]; [|exact K]. split; [|exact X].
  apply rank_inj. apply N.compare_eq_iff. change (builtin_cmp a b = Eq). rewrite <- (ord_rank env a b A B).
  unfold builtin_ord. rewrite D. apply N.compare_refl.
Qed.
Print Assumptions C103_hash.
Theorem C103_count_hash T c d x y : (1 <= pointer_bytes T)%nat ->
  count_hash T c ++ x = count_hash T d ++ y <-> c = d /\ x = y.
Proof.
  intros P. split; [|intros [-> ->]; reflexivity]. unfold count_hash. intros H.
  apply isize_inj in H as [H ->]; [|exact P|destruct c; reflexivity|destruct d; reflexivity].
  split; [|reflexivity]. destruct c, d; cbn in H; (reflexivity || discriminate).
Qed.
Print Assumptions C103_count_hash.

(** C103: the hash of a language is not the same in every build that has it: Spanish hashes as 9 with
    all languages and as 1 alone, English as nothing in a build of its own. *)
Definition env_of (fs : list str) (v : str) : bool := existsb (fun f => str_eqb (env_name f) v) fs.
Lemma env_of_ok fs : (forall f, enabled fs f <-> In f fs) -> cargo_env fs (env_of fs).
Proof.
  intros H v. unfold env_of. rewrite existsb_exists. split.
  - intros (f & I & E). apply str_eqb_eq in E. exists f. split; [apply H; exact I|exact E].
  - intros (f & I & E). exists f. split; [apply H; exact I|apply str_eqb_eq; exact E].
Qed.
Lemma leaf_features fs : (forall f, In f fs -> exists b, variant_feature b = Some f) -> forall f, enabled fs f <-> In f fs.
Proof.
  intros H f. split.
  - intros E. induction E as [f I _|f g gs E IH I J]; [exact I|]. exfalso. destruct (H f IH) as (b & V).
    destruct b; cbn in V; try discriminate; injection V as <-; cbn in I;
      repeat (destruct I as [I|I]; [first [discriminate I|injection I as <-; destruct J]|]); destruct I.
  - intros I. apply en_req; [exact I|]. destruct (H f I) as (b & V). destruct b; cbn in V; try discriminate; injection V as <-; cbn; tauto.
Qed.
Definition all_leaves : list str :=
  flat_map (fun b => match variant_feature b with Some f => [f] | None => [] end) source_order.
Lemma all_leaves_ok f : In f all_leaves -> exists b, variant_feature b = Some f.
Proof. unfold all_leaves. rewrite in_flat_map. intros (b & _ & I). exists b. destruct (variant_feature b); [destruct I as [->|[]]; reflexivity|destruct I]. Qed.
Definition x64 : target := {| little_endian := true; pointer_bytes := 8 |}.
Example C103_case : cargo_env [] (env_of []) /\ cargo_env [lit "spanish"] (env_of [lit "spanish"]) /\
  cargo_env all_leaves (env_of all_leaves) /\ (1 <= pointer_bytes x64)%nat /\
  cfg_on [lit "spanish"] (variant_feature BSpanish) /\ cfg_on all_leaves (variant_feature BSpanish) /\
  builtin_hash x64 (env_of []) BEnglish = [] /\
  builtin_hash x64 (env_of [lit "spanish"]) BEnglish = repeat x00 8 /\
  builtin_hash x64 (env_of [lit "spanish"]) BSpanish = x01 :: repeat x00 7 /\
  builtin_hash x64 (env_of all_leaves) BSpanish = x09 :: repeat x00 7 /\
  builtin_ord (env_of [lit "spanish"]) BEnglish BSpanish = Lt.
Proof.
  assert (S1 : forall f, enabled [lit "spanish"] f <-> In f [lit "spanish"]).
  { apply leaf_features. intros f [<-|[]]. exists BSpanish. reflexivity. }
  assert (A1 : forall f, enabled all_leaves f <-> In f all_leaves) by (apply leaf_features, all_leaves_ok).
  split; [apply env_of_ok, leaf_features; intros ? []|]. split; [apply env_of_ok, S1|]. split; [apply env_of_ok, A1|].
  split; [cbn; lia|]. split; [apply S1; left; reflexivity|]. split; [apply A1; vm_compute; tauto|].
  repeat split; vm_compute; reflexivity.
Qed.
Theorem C103_stable_hash_refuted :
  ~ forall req env req' env' b, cargo_env req env -> cargo_env req' env' ->
    cfg_on req (variant_feature b) -> cfg_on req' (variant_feature b) -> builtin_hash x64 env b = builtin_hash x64 env' b.
Proof.
  intros H. destruct C103_case as (_ & B & C & _ & D & E & _ & _ & F & G & _).
  specialize (H _ _ _ _ BSpanish B C D E). rewrite F, G in H. discriminate H.
Qed.
Print Assumptions C103_stable_hash_refuted.
