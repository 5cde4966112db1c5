(** The generated sources: writing and reading their syntax. *)
From Verif Require Import Base Str StrProofs Utf8Proofs Language39 BuildScript39 LangSpec39 Builtin39 LangProofs
  Generate39 GenSpec39 PathSpec32 PathProofs32.

(** ** The syntax is unambiguous *)
Lemma hex_digits_fun ds : forall v v', hex_digits ds v -> hex_digits ds v' -> v = v'.
Proof.
  intros v v' H. revert v'. induction H as [|ds v c d H IH E]; intros v' H'.
  - inversion H' as [|? ? ? ? ? ? Q]; [reflexivity|]. destruct ds; discriminate.
  - inversion H' as [Q|ds' w c' d' K E' Q]; [destruct ds; discriminate|].
    apply app_inj_tail in Q as [-> ->]. rewrite (IH w K). congruence.
Qed.
Lemma hex_digits_chars ds v : hex_digits ds v -> ~ In 125 ds.
Proof.
  induction 1 as [|ds v c d H IH E]; [intros []|]. intros I. apply in_app_or in I as [I|[->|[]]]; [auto|discriminate].
Qed.
Lemma str_elem_head s c : str_elem s c -> exists h t, s = h :: t /\ h <> 34 /\ (h = 92 -> t <> []).
Proof.
  destruct 1; do 2 eexists; (split; [reflexivity|]); split; try discriminate; try assumption; intros; try discriminate.
  contradiction.
Qed.
Lemma str_elem_fun s c r s' c' r' : str_elem s c -> str_elem s' c' -> s ++ r = s' ++ r' -> s = s' /\ c = c' /\ r = r'.
Proof.
  intros H H' E.
  destruct H as [c H1 H2 H3| | | | | | | |h l a b Ha Hb Hlt|ds v D L V];
  destruct H' as [c' H1' H2' H3'| | | | | | | |h' l' a' b' Ha' Hb' Hlt'|ds' v' D' L' V'];
    cbn [app] in E; try discriminate E; try (injection E as -> E; auto; contradiction);
    try (exfalso; injection E as E _; congruence).
  all: try (injection E as E; auto).
  - subst. split; [reflexivity|]. split; [congruence|reflexivity].
  - rewrite <- !app_assoc in E. cbn [app] in E.
    apply cut_at in E as [-> ->]; [|eapply hex_digits_chars; eassumption..].
    split; [reflexivity|]. split; [eapply hex_digits_fun; eassumption|reflexivity].
Qed.
Lemma str_body_fun b v : str_body b v -> forall b' v' r r', str_body b' v' ->
  b ++ 34 :: r = b' ++ 34 :: r' -> b = b' /\ v = v' /\ r = r'.
Proof.
  induction 1 as [|s c t v E B IH]; intros b' v' r r' B' Q.
  - destruct B' as [|s' c' t' v' E' B'].
    + cbn [app] in Q. injection Q as ->. auto.
    + apply str_elem_head in E' as (h & u & -> & N & _). cbn [app] in Q. injection Q as Q _. congruence.
  - destruct B' as [|s' c' t' v' E' B'].
    + apply str_elem_head in E as (h & u & -> & N & _). cbn [app] in Q. injection Q as Q _. congruence.
    + rewrite <- !app_assoc in Q. destruct (str_elem_fun _ _ _ _ _ _ E E' Q) as (-> & -> & Q').
      destruct (IH _ _ _ _ B' Q') as (-> & -> & ->). auto.
Qed.
Lemma str_literal_fun L w L' w' r r' : str_literal L w -> str_literal L' w' -> L ++ r = L' ++ r' ->
  w = w' /\ r = r'.
Proof.
  intros [b v B] [b' v' B'] E. rewrite <- !app_assoc in E. cbn [app] in E. injection E as E.
  destruct (str_body_fun b v B b' v' _ _ B' E) as (_ & ? & ?). auto.
Qed.
Lemma array_items_fun t ws : array_items t ws -> forall t' ws' r r', array_items t' ws' ->
  t ++ 93 :: r = t' ++ 93 :: r' -> ws = ws' /\ r = r'.
Proof.
  induction 1 as [|L w t ws HL A IH]; intros t' ws' r r' A' E; destruct A' as [|L' w' t' ws' HL' A'].
  - cbn [app] in E. injection E as ->. auto.
  - exfalso. cbn [app] in E. discriminate E.
  - exfalso. cbn [app] in E. discriminate E.
  - rewrite <- !app_assoc in E. apply app_inv_head in E.
    destruct (str_literal_fun _ _ _ _ _ _ HL HL' E) as [-> E']. rewrite <- ?app_assoc in E'. do 2 apply app_inv_head in E'.
    destruct (IH _ _ _ _ A' E') as [-> ->]. auto.
Qed.
Lemma digits_end a b s t : Forall is_digit a -> Forall is_digit b -> a ++ 117 :: s = b ++ 117 :: t -> a = b /\ s = t.
Proof.
  intros A B. apply cut_at; intros I; [rewrite Forall_forall in A; apply A in I|rewrite Forall_forall in B; apply B in I];
    unfold is_digit in I; lia.
Qed.
Lemma map_items_fun t es : map_items t es -> forall t' es' r r', map_items t' es' ->
  t ++ 125 :: r = t' ++ 125 :: r' -> es = es' /\ r = r'.
Proof.
  induction 1 as [|L w ds t es HL N D V M IH]; intros t' es' r r' M' E; destruct M' as [|L' w' ds' t' es' HL' N' D' V' M'].
  - cbn [app] in E. injection E as ->. auto.
  - exfalso. cbn [app] in E. discriminate E.
  - exfalso. cbn [app] in E. discriminate E.
  - rewrite <- !app_assoc in E. apply app_inv_head in E.
    destruct (str_literal_fun _ _ _ _ _ _ HL HL' E) as [-> E']. rewrite <- ?app_assoc in E'. apply app_inv_head in E'.
    rewrite <- ?app_assoc in E'. change (lit "u16,") with (117 :: lit "16,") in E'. cbn [app] in E'.
    rewrite <- ?app_assoc in E'. cbn [app] in E'.
    apply digits_end in E' as [-> E']; [|assumption..].
    injection E' as E'. destruct (IH _ _ _ _ M' E') as [-> ->]. auto.
Qed.
Lemma compiles_inv text wl : compiles text wl -> exists c1 c2 t1 t2 ws es,
  ~ In 10 c1 /\ ~ In 10 c2 /\ array_items t1 ws /\ map_items t2 es /\
  wl = {| wl_words := ws; wl_index := es |} /\
  text = lit "//" ++ c1 ++ [10] ++ lit "//" ++ c2 ++ [10] ++ [10] ++
    lit "pub static WORDS: [&str; 2048] = [" ++ [10] ++ t1 ++ lit "];" ++ [10] ++ [10] ++
    lit "pub static INDEX: ::phf::Map<&'static str, u16> = ::phf::phf_map! {" ++ [10] ++ t2 ++
    lit "};" ++ [10] ++ [10] ++
    lit "pub static WORDLIST: crate::language::Wordlist = crate::language::Wordlist {" ++ [10] ++
    [9] ++ lit "words: &WORDS," ++ [10] ++ [9] ++ lit "index: &INDEX," ++ [10] ++ lit "};" ++ [10].
Proof. destruct 1 as [c1 c2 t1 t2 ws es N1 N2 A M _ _]. exists c1, c2, t1, t2, ws, es. repeat split; assumption. Qed.
Lemma compiles_fun text wl wl' : compiles text wl -> compiles text wl' -> wl = wl'.
Proof.
  intros H H'. apply compiles_inv in H as (c1 & c2 & t1 & t2 & ws & es & N1 & N2 & A & M & -> & E).
  apply compiles_inv in H' as (c1' & c2' & t1' & t2' & ws' & es' & N1' & N2' & A' & M' & -> & E').
  rewrite E in E'. clear E. rename E' into E.
  apply app_inv_head in E. cbn [app] in E.
  change (@app N [10]) with (@cons N 10) in *.
  apply cut_at in E as [-> E]; [|assumption..]. apply app_inv_head in E.
  apply cut_at in E as [-> E]; [|assumption..]. injection E as E.
  destruct (array_items_fun _ _ A _ _ _ _ A' E) as [-> E1]. injection E1 as E1.
  destruct (map_items_fun _ _ M _ _ _ _ M' E1) as [-> _]. reflexivity.
Qed.

(** ** What the script writes is in the syntax *)
Lemma hexl_val d : d < 16 -> hex_val (hexl d) = Some d.
Proof.
  intros H. unfold hexl, hex_val. destruct (d <? 10) eqn:E.
  - replace ((48 <=? 48 + d) && (48 + d <=? 57)) with true by lia. f_equal. lia.
  - replace ((48 <=? 87 + d) && (87 + d <=? 57)) with false by lia.
    replace ((97 <=? 87 + d) && (87 + d <=? 102)) with true by lia. f_equal. lia.
Qed.
Lemma hex_fuel_spec fuel : forall n acc, n < 2 ^ N.of_nat fuel -> (1 <= fuel)%nat ->
  exists ds, hex_fuel fuel n acc = ds ++ acc /\ hex_digits ds n /\ (1 <= length ds)%nat /\
    forall k, n < 16 ^ N.of_nat (S k) -> (length ds <= S k)%nat.
Proof.
  induction fuel as [|fuel IH]; intros n acc H F; [lia|]. cbn [hex_fuel]. cbv zeta.
  assert (M : n mod 16 < 16) by (apply N.mod_lt; discriminate).
  assert (DM : n = 16 * (n / 16) + n mod 16) by (apply N.div_mod; discriminate).
  destruct (n <? 16) eqn:S16.
  - exists [hexl (n mod 16)]. split; [reflexivity|]. split; [|split; [cbn; lia|intros; cbn; lia]].
    replace n with (16 * 0 + n mod 16) at 2 by (rewrite N.mod_small; lia).
    apply (hd_snoc [] 0); [constructor|apply hexl_val; exact M].
  - rewrite Nat2N.inj_succ, N.pow_succ_r' in H.
    destruct fuel as [|fuel]; [cbn in H; lia|].
    destruct (IH (n / 16) (hexl (n mod 16) :: acc)) as (ds & E & D & L1 & L2); [|lia|].
    + apply N.div_lt_upper_bound; [discriminate|]. lia.
    + exists (ds ++ [hexl (n mod 16)]). rewrite E, <- app_assoc. split; [reflexivity|]. split.
      * rewrite DM at 2. apply hd_snoc; [exact D|apply hexl_val; exact M].
      * rewrite app_length. cbn [length]. split; [lia|]. intros k Hk. destruct k as [|k].
        -- cbn in Hk. lia.
        -- assert (length ds <= S k)%nat; [|lia]. apply L2. apply N.div_lt_upper_bound; [discriminate|].
           rewrite <- N.pow_succ_r', <- Nat2N.inj_succ. exact Hk.
Qed.
Lemma escape_char_spec special c : is_scalar c = true -> str_elem (escape_char special c) c.
Proof.
  intros V. unfold escape_char.
  destruct (c =? 0) eqn:E0; [apply N.eqb_eq in E0 as ->; constructor|].
  destruct (c =? 9) eqn:E1; [apply N.eqb_eq in E1 as ->; constructor|].
  destruct (c =? 13) eqn:E2; [apply N.eqb_eq in E2 as ->; constructor|].
  destruct (c =? 10) eqn:E3; [apply N.eqb_eq in E3 as ->; constructor|].
  destruct (c =? 34) eqn:E4; [apply N.eqb_eq in E4 as ->; constructor|].
  destruct (c =? 92) eqn:E5; [apply N.eqb_eq in E5 as ->; constructor|].
  destruct (special c).
  - unfold hex_min. destruct (hex_fuel_spec (S (N.to_nat (N.size c))) c []) as (ds & E & D & L1 & L2).
    + rewrite Nat2N.inj_succ, N2Nat.id, N.pow_succ_r'. pose proof (N.size_gt c). lia.
    + lia.
    + rewrite E, app_nil_r. apply el_unicode; [exact D| |exact V]. split; [exact L1|]. apply (L2 5%nat).
      unfold is_scalar in V. cbn. lia.
  - apply el_plain; lia.
Qed.
Lemma debug_str_spec special w : Forall (fun c => is_scalar c = true) w -> str_literal (debug_str special w) w.
Proof.
  intros F. unfold debug_str. apply sl_body. induction F as [|c w V F IH]; [constructor|].
  cbn [flat_map]. apply sb_cons; [apply escape_char_spec; exact V|exact IH].
Qed.
Lemma words_lines_spec special ws : Forall (Forall (fun c => is_scalar c = true)) ws ->
  array_items (flat_map (words_line special) ws) ws.
Proof.
  induction 1 as [|w ws V F IH]; [constructor|]. cbn [flat_map]. unfold words_line at 1.
  rewrite <- !app_assoc. apply ai_cons; [apply debug_str_spec; exact V|exact IH].
Qed.
Lemma index_lines_spec special es : Forall (fun e => Forall (fun c => is_scalar c = true) (fst e) /\ snd e < 2 ^ 16) es ->
  map_items (flat_map (index_line special) es) es.
Proof.
  induction 1 as [|[w i] es [V B] F IH]; [constructor|]. cbn [fst snd] in *. cbn [flat_map]. unfold index_line at 1.
  cbn [fst snd]. rewrite <- !app_assoc. destruct (dec_spec i) as (D1 & D2 & D3). rewrite <- D3 at 2.
  apply mi_cons; [apply debug_str_spec; exact V|exact D1|exact D2|rewrite D3; exact B|exact IH].
Qed.
Lemma index_entries_keys ws : forall k, map fst (index_entries k ws) = ws.
Proof. induction ws as [|w ws IH]; intros k; cbn [index_entries map fst]; [reflexivity|]. rewrite IH. reflexivity. Qed.
Lemma index_entries_bound ws : forall k w i, In (w, i) (index_entries k ws) -> In w ws /\ i < k + N.of_nat (length ws).
Proof.
  induction ws as [|v ws IH]; intros k w i; cbn [index_entries]; [intros []|].
  intros [[= <- <-]|I]; [split; [left; reflexivity|cbn [length]; lia]|].
  apply IH in I as [I L]. split; [right; exact I|cbn [length]; lia].
Qed.
Lemma line_word_scalars p w : line_word p w -> Forall (fun c => is_scalar c = true) w.
Proof.
  intros (b & s & _ & _ & F & [->|[-> _]]); [apply Forall_app in F as [F _]|]; exact F.
Qed.
Lemma generated_scalars f wl : generate_one f = Ok wl -> Forall (Forall (fun c => is_scalar c = true)) (wl_words wl).
Proof.
  intros G. apply generate_one_ok in G as (ws & (ps & _ & F & _) & ->). cbn [wl_words].
  induction F as [|p w ps ws H F IH]; constructor; [eapply line_word_scalars; exact H|exact IH].
Qed.
Lemma source_compiles special name f wl : ~ In 10 name -> generate_one f = Ok wl ->
  compiles (source_text special name wl) wl.
Proof.
  intros NN G. pose proof (generated_scalars f wl G) as V.
  apply generate_one_ok in G as (ws & (ps & _ & _ & _ & ND & L) & ->). cbn [wl_words] in V.
  unfold source_text, header. cbn [wl_words wl_index].
  rewrite <- !app_assoc.
  change (lit "// AUTO-GENERATED by build.rs. DO NOT EDIT.") with (lit "//" ++ lit " AUTO-GENERATED by build.rs. DO NOT EDIT.").
  change (lit "// Source: ") with (lit "//" ++ lit " Source: "). rewrite <- !app_assoc.
  unfold WORDS_HEAD, WORDS_FOOT, INDEX_HEAD, INDEX_FOOT, WORDLIST_ITEM. rewrite <- !app_assoc.
  rewrite (app_assoc (lit " Source: ") name).
  apply compiles_file.
  - intros I. vm_compute in I. repeat (destruct I as [I|I]; [discriminate I|]). exact I.
  - intros I. apply in_app_or in I as [I|I]; [|contradiction].
    vm_compute in I. repeat (destruct I as [I|I]; [discriminate I|]). exact I.
  - apply words_lines_spec. exact V.
  - apply index_lines_spec. apply Forall_forall. intros [w i] I. cbn [fst snd].
    apply index_entries_bound in I as [I B]. split; [rewrite Forall_forall in V; apply V; exact I|].
    rewrite L in B. change (2 ^ 16) with 65536. lia.
  - exact L.
  - rewrite index_entries_keys. exact ND.
Qed.
