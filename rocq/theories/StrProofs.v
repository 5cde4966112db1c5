(** [split_whitespace] computes the words of a string; joining and splitting. *)
From Verif Require Import Base Str Spec39.

Definition no_ws (w : str) : Prop := Forall (fun c => is_ws c = false) w.

Lemma split_acc_nonws p cur w s : Forall (fun c => p c = false) w ->
  split_acc p cur (w ++ s) = split_acc p (rev w ++ cur) s.
Proof.
  intros F. revert cur. induction F as [|c w H F IH]; intros cur; cbn [app split_acc]; [reflexivity|].
  rewrite H, IH. cbn [rev]. rewrite <- app_assoc. reflexivity.
Qed.

Lemma sw_cons_ws c s : is_ws c = true -> split_whitespace (c :: s) = split_whitespace s.
Proof.
  intros H. unfold split_whitespace, split_on. cbn [split_acc]. rewrite H. reflexivity.
Qed.

Lemma sw_word w s : w <> [] -> no_ws w ->
  (s = [] \/ exists c s', s = c :: s' /\ is_ws c = true) ->
  split_whitespace (w ++ s) = w :: split_whitespace s.
Proof.
  intros Hw F Hs. unfold split_whitespace, split_on.
  rewrite split_acc_nonws by exact F. rewrite app_nil_r.
  destruct Hs as [->|[c [s' [-> Hc]]]].
  - cbn. rewrite rev_involutive. destruct w; [contradiction|reflexivity].
  - cbn [split_acc]. rewrite Hc, rev_involutive. cbn [filter].
    destruct w; [contradiction|]. cbn [is_empty negb rev filter]. reflexivity.
Qed.

Lemma split_words_of s ws : words_of s ws -> split_whitespace s = ws.
Proof.
  induction 1 as [|c s ws H W IH|w s ws Hw F Hs W IH].
  - reflexivity.
  - rewrite sw_cons_ws by exact H. exact IH.
  - rewrite sw_word by assumption. rewrite IH. reflexivity.
Qed.

(** Longest non-whitespace prefix. *)
Fixpoint span_word (s : str) : str * str :=
  match s with
  | [] => ([], [])
  | c :: s' => if is_ws c then ([], s) else let '(w, r) := span_word s' in (c :: w, r)
  end.

Lemma span_word_spec s w r : span_word s = (w, r) ->
  s = w ++ r /\ no_ws w /\ (r = [] \/ exists c s', r = c :: s' /\ is_ws c = true).
Proof.
  revert w r; induction s as [|c s IH]; intros w r E; cbn in E.
  - injection E as <- <-. repeat split; [constructor|left; reflexivity].
  - destruct (is_ws c) eqn:Ec.
    + injection E as <- <-. repeat split; [constructor|]. right. eauto.
    + destruct (span_word s) as [w' r'] eqn:E'. injection E as <- <-.
      destruct (IH _ _ eq_refl) as [H1 [H2 H3]]. subst. repeat split; [|exact H3].
      constructor; assumption.
Qed.

Lemma words_of_exists s : exists ws, words_of s ws.
Proof.
  remember (length s) as n eqn:Hn. assert (Hle : (length s <= n)%nat) by lia. clear Hn.
  revert s Hle. induction n as [|n IH]; intros s Hle.
  - destruct s; [|cbn in Hle; lia]. exists []. constructor.
  - destruct s as [|c s]; [exists []; constructor|].
    destruct (is_ws c) eqn:Ec.
    + destruct (IH s) as [ws Hws]; [cbn in Hle; lia|]. exists ws. apply wo_ws; assumption.
    + destruct (span_word (c :: s)) as [w r] eqn:E.
      pose proof (span_word_spec _ _ _ E) as [H1 [H2 H3]].
      assert (Hw : w <> []). { cbn in E. rewrite Ec in E. destruct (span_word s). congruence. }
      destruct (IH r) as [ws Hws].
      { apply (f_equal (@length N)) in H1. rewrite app_length in H1. cbn in H1, Hle.
        destruct w; [contradiction|]. cbn in H1. lia. }
      exists (w :: ws). rewrite H1. apply wo_word; assumption.
Qed.

Lemma words_of_split s : words_of s (split_whitespace s).
Proof. destruct (words_of_exists s) as [ws H]. rewrite (split_words_of s ws H). exact H. Qed.

Lemma words_of_fun s a b : words_of s a -> words_of s b -> a = b.
Proof. intros Ha Hb. apply split_words_of in Ha, Hb. congruence. Qed.

Lemma words_of_good s ws : words_of s ws -> Forall (fun w => w <> [] /\ no_ws w) ws.
Proof. induction 1; [constructor|assumption|]. constructor; [split|]; assumption. Qed.

Lemma join_cons sep w v ws : join sep (w :: v :: ws) = w ++ sep ++ join sep (v :: ws).
Proof. reflexivity. Qed.

Lemma words_of_join ws : Forall (fun w => w <> [] /\ no_ws w) ws -> words_of (join [32] ws) ws.
Proof.
  induction 1 as [|w ws [H1 H2] F IH]; [constructor|].
  destruct ws as [|v ws].
  - cbn [join]. rewrite <- (app_nil_r w) at 1. apply wo_word; [assumption|assumption|left; reflexivity|constructor].
  - rewrite join_cons. apply wo_word; [assumption|assumption| |].
    + right. cbn. eexists. eexists. split; reflexivity.
    + cbn [app]. apply wo_ws; [reflexivity|exact IH].
Qed.

Lemma split_join ws : Forall (fun w => w <> [] /\ no_ws w) ws -> split_whitespace (join [32] ws) = ws.
Proof. intros H. apply split_words_of. apply words_of_join. exact H. Qed.

(** Appending a word the way both loops do ([if !out.is_empty() { push(' ') }]). *)
Definition push_word (out w : str) : str := (if is_empty out then out else out ++ [32]) ++ w.

Lemma join_snoc sep ws w : ws <> [] -> join sep (ws ++ [w]) = join sep ws ++ sep ++ w.
Proof.
  induction ws as [|v ws IH]; intros H; [contradiction|].
  destruct ws as [|u ws].
  - reflexivity.
  - cbn [app]. rewrite !join_cons. rewrite <- (app_comm_cons ws [w] u) in *.
    rewrite IH by discriminate. rewrite <- !app_assoc. reflexivity.
Qed.

Lemma join_nonempty ws : ws <> [] -> Forall (fun w => w <> []) ws -> join [32] ws <> [].
Proof.
  intros H F. destruct F as [|w ws Hw F]; [contradiction|].
  destruct ws; [exact Hw|]. rewrite join_cons. destruct w; [contradiction|discriminate].
Qed.

Lemma push_word_join ws w : Forall (fun w => w <> []) ws ->
  push_word (join [32] ws) w = join [32] (ws ++ [w]).
Proof.
  intros F. unfold push_word. destruct ws as [|v ws].
  - reflexivity.
  - pose proof (join_nonempty (v :: ws) ltac:(discriminate) F) as Hne.
    destruct (join [32] (v :: ws)) as [|c l] eqn:E; [contradiction|].
    cbn [is_empty]. rewrite <- E. rewrite join_snoc by discriminate. rewrite <- app_assoc. reflexivity.
Qed.

Lemma fold_push_word ws : forall done, Forall (fun w => w <> []) (done ++ ws) ->
  fold_left push_word ws (join [32] done) = join [32] (done ++ ws).
Proof.
  induction ws as [|w ws IH]; intros done F; cbn [fold_left].
  - rewrite app_nil_r. reflexivity.
  - rewrite push_word_join by (apply Forall_app in F; tauto).
    rewrite IH by (rewrite <- app_assoc; exact F). rewrite <- app_assoc. reflexivity.
Qed.

Lemma fold_push_word_nil ws : Forall (fun w => w <> []) ws ->
  fold_left push_word ws [] = join [32] ws.
Proof. intros F. apply (fold_push_word ws [] F). Qed.

Lemma split_words_nonempty s : Forall (fun w => w <> []) (split_whitespace s).
Proof.
  eapply Forall_impl; [|apply (words_of_good s); apply words_of_split]. cbn. tauto.
Qed.

Lemma split_words_good s : Forall (fun w => w <> [] /\ no_ws w) (split_whitespace s).
Proof. apply (words_of_good s). apply words_of_split. Qed.

Lemma split_not_nil_nonempty s : split_whitespace s <> [] -> s <> [].
Proof. intros H ->. apply H. reflexivity. Qed.

(** Cutting at the first occurrence of a character. *)
Lemma cut_at (x : N) a : forall b r s, ~ In x a -> ~ In x b -> a ++ x :: r = b ++ x :: s -> a = b /\ r = s.
Proof.
  induction a as [|y a IH]; intros b r s Ha Hb E; destruct b as [|z b]; cbn [app] in *.
  - injection E as <-. auto.
  - injection E as <- _. exfalso. apply Hb. left. reflexivity.
  - injection E as -> _. exfalso. apply Ha. left. reflexivity.
  - injection E as <- E. apply IH in E as [-> ->]; auto; intros I; [apply Ha|apply Hb]; right; exact I.
Qed.
