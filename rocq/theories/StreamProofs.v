(** Lemmas about the incremental hash interfaces of [Stream] (C85) and about the
    chaining structure of SHA-512 and HMAC (C86, C87). *)
From Verif Require Import Base Sha2 Stream.

(** ** Chunks *)
Lemma chunks_fuel_enough {A} k (f g : nat) (l : list A) : (0 < k)%nat ->
  (length l <= f)%nat -> (length l <= g)%nat -> chunks_fuel f k l = chunks_fuel g k l.
Proof.
  intros Hk. revert g l. induction f as [|f IH]; intros g l Hf Hg.
  - destruct l; [|cbn in Hf; lia]. destruct g; reflexivity.
  - destruct g as [|g]; [destruct l; [reflexivity|cbn in Hg; lia]|].
    destruct l as [|a l]; [reflexivity|]. cbn [chunks_fuel]. f_equal.
    apply IH; rewrite skipn_length; cbn [length] in *; lia.
Qed.
Lemma chunks_step {A} k (l : list A) : (0 < k)%nat -> l <> [] ->
  chunks k l = firstn k l :: chunks k (skipn k l).
Proof.
  intros Hk Hl. unfold chunks. destruct l as [|a l]; [contradiction|]. cbn [length chunks_fuel].
  f_equal. apply chunks_fuel_enough; [exact Hk| |reflexivity]. rewrite skipn_length. cbn [length]. lia.
Qed.
Lemma chunks_app {A} k (b l : list A) : (0 < k)%nat -> length b = k ->
  chunks k (b ++ l) = b :: chunks k l.
Proof.
  intros Hk Hb. rewrite chunks_step; [|exact Hk|destruct b; [cbn in Hb; lia|discriminate]].
  rewrite firstn_app, skipn_app, Hb, Nat.sub_diag, firstn_O, app_nil_r.
  rewrite firstn_all2 by lia. rewrite skipn_all2 by lia. reflexivity.
Qed.
Lemma chunks_blocks {A} k (B : list (list A)) (l : list A) : (0 < k)%nat ->
  Forall (fun b => length b = k) B -> chunks k (concat B ++ l) = B ++ chunks k l.
Proof.
  intros Hk H. induction H as [|b B Hb H IH]; [reflexivity|].
  cbn [concat app]. rewrite <- app_assoc, chunks_app by assumption. rewrite IH. reflexivity.
Qed.
Lemma chunks_whole {A} k (n : nat) (l : list A) : (0 < k)%nat -> length l = (n * k)%nat ->
  Forall (fun b => length b = k) (chunks k l) /\ concat (chunks k l) = l /\ length (chunks k l) = n.
Proof.
  intros Hk. revert l. induction n as [|n IH]; intros l H.
  - destruct l; [|discriminate]. repeat split; constructor.
  - assert (l <> []) by (intros ->; cbn in H; lia).
    rewrite chunks_step by assumption.
    destruct (IH (skipn k l)) as [IH1 [IH2 IH3]]; [rewrite skipn_length; lia|].
    repeat split.
    + constructor; [rewrite firstn_length; lia|exact IH1].
    + cbn [concat]. rewrite IH2. apply firstn_skipn.
    + cbn [length]. rewrite IH3. reflexivity.
Qed.

Lemma app_suffix {A} (a b c d : list A) : length b = length d -> a ++ b = c ++ d -> a = c /\ b = d.
Proof.
  intros H E. assert (length a = length c).
  { apply (f_equal (@length A)) in E. rewrite !app_length in E. lia. }
  revert c E H0. induction a as [|x a IH]; intros [|y c] E L; try discriminate L.
  - split; [reflexivity|exact E].
  - injection E as -> E. destruct (IH c E) as [-> ->]; [now injection L|]. split; reflexivity.
Qed.

(** ** The hasher *)
Section Core.
Context {St : Type} (bs lf : nat) (cf : St -> list byte -> St).
Hypothesis Hbs : (0 < bs)%nat.
Hypothesis Hlf : (lf < bs)%nat.

(** The one-shot form: padding as in FIPS 180-4. *)
Definition md_pad (m : list byte) : list byte :=
  let used := ((length m + 1 + lf) mod bs)%nat in
  m ++ [x80] ++ repeat x00 ((bs - used) mod bs) ++ be_bytes lf (8 * N.of_nat (length m)).
Definition md (iv : St) (m : list byte) : St := fold_left cf (chunks bs (md_pad m)) iv.

(** [h] has absorbed [m]. *)
Definition absorbed (iv : St) (m : list byte) (h : hasher St) : Prop :=
  exists B, Forall (fun b => length b = bs) B /\ m = concat B ++ h_buf h /\
    (length (h_buf h) < bs)%nat /\ h_state h = fold_left cf B iv /\ h_blocks h = N.of_nat (length B).

Lemma absorbed_new iv : absorbed iv [] (h_new iv).
Proof. clear Hlf. exists []. repeat split; [constructor|exact Hbs]. Qed.

Lemma absorbed_update iv m h d : absorbed iv m h -> absorbed iv (m ++ d) (h_update bs cf h d).
Proof.
  clear Hlf. intros [B [HB [-> [Hb [Hs Hn]]]]]. unfold h_update.
  destruct (Nat.ltb_spec (length d) (bs - length (h_buf h))) as [Hd|Hd].
  - exists B. cbn [set_buf h_buf h_state h_blocks]. rewrite <- app_assoc, app_length.
    repeat split; try assumption. lia.
  - assert (K : forall h' d' B', Forall (fun b => length b = bs) B' ->
              concat B ++ h_buf h ++ d = concat B' ++ d' ->
              h_state h' = fold_left cf B' iv -> h_blocks h' = N.of_nat (length B') ->
              absorbed iv ((concat B ++ h_buf h) ++ d)
                (set_buf (absorb cf h' (chunks bs (firstn (length d' / bs * bs) d')))
                   (skipn (length d' / bs * bs) d'))).
    { intros h' d' B' HB' E Es En. set (n := (length d' / bs)%nat).
      assert (Hdm := Nat.div_mod (length d') bs ltac:(lia)). fold n in Hdm.
      assert (Hm := Nat.mod_upper_bound (length d') bs ltac:(lia)).
      destruct (chunks_whole bs n (firstn (n * bs) d')) as [C1 [C2 C3]];
        [exact Hbs|rewrite firstn_length; lia|].
      exists (B' ++ chunks bs (firstn (n * bs) d')).
      cbn [set_buf absorb h_buf h_state h_blocks]. split; [apply Forall_app; split; assumption|].
      split.
      - rewrite <- app_assoc, E, concat_app, C2, <- app_assoc, firstn_skipn. reflexivity.
      - split; [rewrite skipn_length; lia|]. split.
        + rewrite Es. symmetry. apply fold_left_app.
        + rewrite En, app_length, Nnat.Nat2N.inj_add. reflexivity. }
    destruct (Nat.eqb_spec (length (h_buf h)) 0) as [Z|Z].
    + destruct (h_buf h) as [|? ?] eqn:Eb; [|discriminate].
      apply (K h d B); [assumption|reflexivity|assumption|assumption].
    + apply (K _ _ (B ++ [h_buf h ++ firstn (bs - length (h_buf h)) d])).
      * apply Forall_app. split; [assumption|]. constructor; [|constructor].
        rewrite app_length, firstn_length. lia.
      * rewrite concat_app. cbn [concat]. rewrite app_nil_r, <- !app_assoc, firstn_skipn. reflexivity.
      * cbn [absorb h_state fold_left]. rewrite Hs, fold_left_app. reflexivity.
      * cbn [absorb h_blocks length]. rewrite Hn, app_length, Nnat.Nat2N.inj_add. reflexivity.
Qed.

Lemma absorbed_updates iv m h ds : absorbed iv m h ->
  absorbed iv (m ++ concat ds) (fold_left (h_update bs cf) ds h).
Proof.
  revert m h. induction ds as [|d ds IH]; intros m h H; cbn [concat fold_left].
  - rewrite app_nil_r. exact H.
  - rewrite app_assoc. apply IH, absorbed_update, H.
Qed.

Lemma concat_blocks_length {A} (B : list (list A)) : Forall (fun b => length b = bs) B ->
  length (concat B) = (length B * bs)%nat.
Proof.
  induction 1 as [|b B Hb H IH]; [reflexivity|]. cbn [concat length].
  rewrite app_length, IH. lia.
Qed.

Lemma repeat_app' {A} (x : A) n m : repeat x (n + m) = repeat x n ++ repeat x m.
Proof. induction n; [reflexivity|]. cbn. rewrite IHn. reflexivity. Qed.

Lemma finalize_eq iv m h : absorbed iv m h -> h_finalize bs lf cf h = md iv m.
Proof.
  intros [B [HB [-> [Hb [Hs Hn]]]]]. unfold h_finalize, md, md_pad.
  set (pos := length (h_buf h)) in *.
  assert (HL : length (concat B ++ h_buf h) = (pos + length B * bs)%nat).
  { rewrite app_length, concat_blocks_length by exact HB. unfold pos. lia. }
  rewrite HL, Hn.
  replace (N.of_nat pos + N.of_nat bs * N.of_nat (length B)) with (N.of_nat (pos + length B * bs)) by lia.
  set (suffix := be_bytes lf (8 * N.of_nat (pos + length B * bs))).
  assert (Hsuf : length suffix = lf) by apply be_bytes_length.
  replace (pos + length B * bs + 1 + lf)%nat with (pos + 1 + lf + length B * bs)%nat by lia.
  rewrite Nat.mod_add by lia.
  rewrite <- app_assoc, chunks_blocks, fold_left_app, <- Hs by assumption.
  destruct (Nat.ltb_spec (bs - pos - 1) lf) as [H|H].
  - assert (E : ((bs - (pos + 1 + lf) mod bs) mod bs = (bs - pos - 1) + (bs - lf))%nat).
    { replace (pos + 1 + lf)%nat with ((pos + 1 + lf - bs) + 1 * bs)%nat by lia.
      rewrite Nat.mod_add, (Nat.mod_small (pos + 1 + lf - bs)) by lia.
      rewrite Nat.mod_small by lia. lia. }
    rewrite E, repeat_app'.
    replace (h_buf h ++ [x80] ++ (repeat x00 (bs - pos - 1) ++ repeat x00 (bs - lf)) ++ suffix)
      with ((h_buf h ++ [x80] ++ repeat x00 (bs - pos - 1)) ++ (repeat x00 (bs - lf) ++ suffix) ++ [])
      by (rewrite app_nil_r; repeat rewrite <- app_assoc; reflexivity).
    rewrite chunks_app; [|exact Hbs|rewrite !app_length, repeat_length; cbn [length]; fold pos; lia].
    rewrite chunks_app; [|exact Hbs|rewrite app_length, repeat_length, Hsuf; lia].
    reflexivity.
  - assert (E : ((bs - (pos + 1 + lf) mod bs) mod bs = bs - (pos + 1 + lf))%nat).
    { destruct (Nat.eq_dec (pos + 1 + lf) bs) as [Q|Q].
      - rewrite Q, Nat.mod_same, Nat.sub_0_r, Nat.mod_same by lia. lia.
      - rewrite (Nat.mod_small (pos + 1 + lf)) by lia. apply Nat.mod_small. lia. }
    rewrite E.
    replace (h_buf h ++ [x80] ++ repeat x00 (bs - (pos + 1 + lf)) ++ suffix)
      with ((h_buf h ++ [x80] ++ repeat x00 (bs - (pos + 1 + lf)) ++ suffix) ++ []) by apply app_nil_r.
    rewrite chunks_app; [|exact Hbs|rewrite !app_length, repeat_length, Hsuf; cbn [length]; fold pos; lia].
    cbn [fold_left chunks chunks_fuel length]. f_equal.
    replace (bs - pos - 1)%nat with ((bs - (pos + 1 + lf)) + lf)%nat by lia.
    rewrite repeat_app'.
    replace (h_buf h ++ [x80] ++ repeat x00 (bs - (pos + 1 + lf)) ++ repeat x00 lf)
      with ((h_buf h ++ [x80] ++ repeat x00 (bs - (pos + 1 + lf))) ++ repeat x00 lf)
      by (repeat rewrite <- app_assoc; reflexivity).
    rewrite firstn_app.
    assert (Q : length (h_buf h ++ [x80] ++ repeat x00 (bs - (pos + 1 + lf))) = (bs - lf)%nat)
      by (rewrite !app_length, repeat_length; cbn [length]; fold pos; lia).
    rewrite Q, Nat.sub_diag, firstn_O, app_nil_r, firstn_all2 by lia.
    repeat rewrite <- app_assoc. reflexivity.
Qed.

(** *** Padding *)
Lemma md_pad_length m : exists n, length (md_pad m) = (S n * bs)%nat.
Proof using Hbs Hlf.
  clear cf.
  unfold md_pad. rewrite !app_length, repeat_length, be_bytes_length. cbn [length].
  set (x := (length m + 1 + lf)%nat).
  assert (Hx : (length m + (1 + ((bs - x mod bs) mod bs + lf)) = x + (bs - x mod bs) mod bs)%nat)
    by (unfold x; lia).
  rewrite Hx. assert (D := Nat.div_mod x bs ltac:(lia)). assert (M := Nat.mod_upper_bound x bs ltac:(lia)).
  destruct (Nat.eq_dec (x mod bs) 0) as [Z|Z].
  - rewrite Z, Nat.sub_0_r, Nat.mod_same by lia.
    destruct (x / bs)%nat as [|n] eqn:Q; [unfold x in *; lia|]. exists n. lia.
  - rewrite (Nat.mod_small (bs - _)) by lia. exists (x / bs)%nat. lia.
Qed.
Lemma md_pad_suffix m : exists p, md_pad m = p ++ be_bytes lf (8 * N.of_nat (length m)).
Proof. eexists. unfold md_pad. rewrite !app_assoc. reflexivity. Qed.

Lemma be_inj n x y : x < 256 ^ N.of_nat n -> y < 256 ^ N.of_nat n -> be_bytes n x = be_bytes n y -> x = y.
Proof.
  intros Hx Hy E. apply (f_equal be_val) in E. rewrite !be_val_be_bytes in E.
  rewrite !N.mod_small in E by assumption. exact E.
Qed.

Lemma md_pad_inj m m' : length m = length m' -> md_pad m = md_pad m' -> m = m'.
Proof.
  intros L E. unfold md_pad in E. rewrite L in E.
  set (r := [x80] ++ _ ++ _) in E. apply app_suffix in E; [exact (proj1 E)|reflexivity].
Qed.

(** The last blocks agree only for messages of equal length. *)
Lemma md_last_length m m' B B' b :
  8 * N.of_nat (length m) < 256 ^ N.of_nat lf -> 8 * N.of_nat (length m') < 256 ^ N.of_nat lf ->
  length b = bs -> md_pad m = B ++ b -> md_pad m' = B' ++ b -> length m = length m'.
Proof.
  intros H H' Lb E E'. destruct (md_pad_suffix m) as [p Ep]. destruct (md_pad_suffix m') as [p' Ep'].
  rewrite Ep in E. rewrite Ep' in E'.
  rewrite <- (firstn_skipn (bs - lf) b), app_assoc in E, E'.
  assert (Ls : length (skipn (bs - lf) b) = lf) by (rewrite skipn_length; lia).
  apply app_suffix in E; [|rewrite be_bytes_length; lia].
  apply app_suffix in E'; [|rewrite be_bytes_length; lia].
  assert (Q := eq_trans (proj2 E) (eq_sym (proj2 E'))). apply be_inj in Q; [|assumption|assumption]. lia.
Qed.

Lemma md_blocks m : exists B b, chunks bs (md_pad m) = B ++ [b] /\ length b = bs /\ md_pad m = concat B ++ b.
Proof using Hbs Hlf.
  clear cf.
  destruct (md_pad_length m) as [n Hn]. destruct (chunks_whole bs (S n) (md_pad m) Hbs Hn) as [C1 [C2 C3]].
  destruct (exists_last (l := chunks bs (md_pad m))) as [B [b E]]; [intros Q; rewrite Q in C3; discriminate|].
  exists B, b. rewrite E in *. apply Forall_app in C1. destruct C1 as [_ C1].
  inversion C1; subst. repeat split; [assumption|]. rewrite <- C2, concat_app. cbn [concat].
  rewrite app_nil_r. reflexivity.
Qed.

(** *** Merkle-Damgard *)
Hypothesis St_dec : forall s s' : St, {s = s'} + {s <> s'}.

(** Two calls of the compression function with different arguments and the same result. *)
Definition calls_collide (x y : option (St * list byte)) : Prop :=
  match x, y with
  | Some (s, b), Some (s', b') => (s, b) <> (s', b') /\ cf s b = cf s' b'
  | _, _ => False
  end.
(** The call that takes block number [i], counted from the end. *)
Definition call_of (iv : St) (B : list (list byte)) (i : nat) : option (St * list byte) :=
  match nth_error (rev B) i with
  | Some b => Some (fold_left cf (firstn (length B - S i) B) iv, b)
  | None => None
  end.
Lemma call_of_last iv B b : call_of iv (B ++ [b]) 0 = Some (fold_left cf B iv, b).
Proof.
  unfold call_of. rewrite rev_app_distr. cbn [rev app nth_error]. rewrite app_length. cbn [length].
  replace (length B + 1 - 1)%nat with (length B) by lia.
  rewrite firstn_app, firstn_all, Nat.sub_diag, firstn_O, app_nil_r. reflexivity.
Qed.
Lemma call_of_next iv B b i : (i < length B)%nat -> call_of iv (B ++ [b]) (S i) = call_of iv B i.
Proof.
  intros H. unfold call_of. rewrite rev_app_distr. cbn [rev app nth_error].
  destruct (nth_error (rev B) i); [|reflexivity]. rewrite app_length. cbn [length].
  replace (length B + 1 - S (S i))%nat with (length B - S i)%nat by lia.
  rewrite firstn_app. replace (length B - S i - length B)%nat with 0%nat by lia.
  rewrite firstn_O, app_nil_r. reflexivity.
Qed.

Lemma fold_collision iv (B B' : list (list byte)) : length B = length B' ->
  fold_left cf B iv = fold_left cf B' iv -> B <> B' ->
  exists i, (i < length B)%nat /\ calls_collide (call_of iv B i) (call_of iv B' i).
Proof.
  revert B'. induction B as [|b B IH] using rev_ind; intros B' L E N.
  - destruct B'; [contradiction|discriminate].
  - destruct (exists_last (l := B')) as [B1 [b1 ->]]; [intros ->; rewrite app_length in L; cbn in L; lia|].
    rewrite !fold_left_app in E. cbn [fold_left] in E.
    rewrite !app_length in L. cbn [length] in L. assert (LB : length B = length B1) by lia.
    destruct (list_eq_dec Byte.byte_eq_dec b b1) as [Q|Q];
      [destruct (St_dec (fold_left cf B iv) (fold_left cf B1 iv)) as [Q'|Q']|].
    + subst b1. destruct (IH B1 LB Q') as [i [Hi Hc]]; [intros ->; apply N; reflexivity|].
      exists (S i). split; [rewrite app_length; cbn [length]; lia|].
      rewrite !call_of_next by lia. exact Hc.
    + exists 0%nat. split; [rewrite app_length; cbn [length]; lia|]. rewrite !call_of_last.
      split; [intros X; injection X as X _; exact (Q' X)|exact E].
    + exists 0%nat. split; [rewrite app_length; cbn [length]; lia|]. rewrite !call_of_last.
      split; [intros X; injection X as _ X; exact (Q X)|exact E].
Qed.

Lemma md_collision iv m m' :
  8 * N.of_nat (length m) < 256 ^ N.of_nat lf -> 8 * N.of_nat (length m') < 256 ^ N.of_nat lf ->
  m <> m' -> md iv m = md iv m' ->
  exists i, calls_collide (call_of iv (chunks bs (md_pad m)) i) (call_of iv (chunks bs (md_pad m')) i).
Proof.
  intros H H' N E. unfold md in E.
  destruct (md_blocks m) as [B [b [EB [Lb Ep]]]]. destruct (md_blocks m') as [B' [b' [EB' [Lb' Ep']]]].
  assert (D : length m = length m' -> exists i,
      calls_collide (call_of iv (chunks bs (md_pad m)) i) (call_of iv (chunks bs (md_pad m')) i)).
  { intros L. destruct (fold_collision iv (chunks bs (md_pad m)) (chunks bs (md_pad m'))) as [i [_ C]].
    - destruct (md_pad_length m) as [n Hn]. assert (Hn' : length (md_pad m') = (S n * bs)%nat).
      { rewrite <- Hn. unfold md_pad. rewrite <- L. rewrite !app_length, L. reflexivity. }
      destruct (chunks_whole bs (S n) _ Hbs Hn) as [_ [_ ->]].
      destruct (chunks_whole bs (S n) _ Hbs Hn') as [_ [_ ->]]. reflexivity.
    - exact E.
    - intros Q. apply N, (md_pad_inj m m' L).
      destruct (md_pad_length m) as [n Hn]. destruct (md_pad_length m') as [n' Hn'].
      destruct (chunks_whole bs (S n) _ Hbs Hn) as [_ [C _]].
      destruct (chunks_whole bs (S n') _ Hbs Hn') as [_ [C' _]].
      rewrite <- C, <- C', Q. reflexivity.
    - exists i. exact C. }
  rewrite EB, EB', !fold_left_app in E. cbn [fold_left] in E.
  destruct (list_eq_dec Byte.byte_eq_dec b b') as [Q|Q].
  - apply D. subst b'. exact (md_last_length m m' _ _ b H H' Lb Ep Ep').
  - exists 0%nat. rewrite EB, EB', !call_of_last.
    split; [intros X; injection X as _ X; exact (Q X)|exact E].
Qed.
End Core.

(** ** SHA-256 and SHA-512 *)
Lemma sha256_md m : sha256 m = words_out 4 (md 64 8 cf256 iv256 m).
Proof. reflexivity. Qed.
Lemma sha512_md m : sha512 m = words_out 8 (md 128 16 cf512 iv512 m).
Proof. reflexivity. Qed.

Lemma Sha256_stream_eq ds : Sha256_finalize (fold_left Sha256_update ds Sha256_new) = sha256 (concat ds).
Proof.
  rewrite sha256_md. unfold Sha256_finalize. f_equal. apply finalize_eq; [lia|lia|].
  change (concat ds) with ([] ++ concat ds).
  eapply absorbed_updates; try lia. eapply absorbed_new; lia.
Qed.
Lemma absorbed512 iv m h : absorbed 128 cf512 iv m h ->
  Sha512_finalize h = words_out 8 (md 128 16 cf512 iv m).
Proof. intros H. unfold Sha512_finalize. f_equal. apply finalize_eq; [lia|lia|exact H]. Qed.
Lemma Sha512_stream_eq ds : Sha512_finalize (fold_left Sha512_update ds Sha512_new) = sha512 (concat ds).
Proof.
  rewrite sha512_md. apply absorbed512.
  change (concat ds) with ([] ++ concat ds).
  eapply absorbed_updates; try lia. eapply absorbed_new; lia.
Qed.

(** ** HMAC *)
(** The block a key stands for. *)
Definition key_block (key : list byte) : list byte :=
  let k0 := if (128 <? length key)%nat then sha512 key else key in k0 ++ repeat x00 (128 - length k0).
Lemma hmac_eq key msg :
  hmac_sha512 key msg = sha512 (xor_pad 0x5c (key_block key) ++ sha512 (xor_pad 0x36 (key_block key) ++ msg)).
Proof. reflexivity. Qed.
Lemma key_block_length key : length (key_block key) = 128%nat.
Proof.
  unfold key_block. cbv zeta. rewrite app_length, repeat_length.
  destruct (Nat.ltb_spec 128 (length key)); [rewrite sha512_length; lia|lia].
Qed.
Lemma xor_pad_length c k : length (xor_pad c k) = length k.
Proof. apply map_length. Qed.
Lemma der_key_eq key : der_key key = key_block key.
Proof.
  unfold der_key, key_block. cbv zeta.
  assert (E : Sha512_finalize (Sha512_update Sha512_new key) = sha512 key).
  { rewrite <- (app_nil_r key) at 2. exact (Sha512_stream_eq [key]). }
  rewrite E. destruct (Nat.leb_spec (length key) 128); destruct (Nat.ltb_spec 128 (length key)); try lia; reflexivity.
Qed.
Lemma lxor_byte (b : byte) c : c < 256 -> N.lxor (b2n b) c < 256.
Proof.
  intros H. destruct (N.eq_dec (N.lxor (b2n b) c) 0) as [->|Z]; [lia|].
  change 256 with (2 ^ 8). apply N.log2_lt_pow2; [lia|].
  eapply N.le_lt_trans; [apply N.log2_lxor|].
  pose proof (Byte.to_N_bounded b) as B. fold (b2n b) in B.
  assert (G : forall x, x <= 255 -> N.log2 x < 8).
  { intros x Hx. destruct (N.eq_dec x 0) as [->|]; [reflexivity|]. apply N.log2_lt_pow2; [lia|]. cbn. lia. }
  apply N.max_lub_lt; apply G; lia.
Qed.
Lemma xor_pad_twice a b k : a < 256 -> b < 256 -> xor_pad b (xor_pad a k) = xor_pad (N.lxor a b) k.
Proof.
  intros Ha Hb. unfold xor_pad. rewrite map_map. apply map_ext. intros x.
  rewrite b2n_n2b, N.mod_small by (apply lxor_byte, Ha). rewrite N.lxor_assoc. reflexivity.
Qed.
Lemma xor_pad_0 k : xor_pad 0 k = k.
Proof.
  unfold xor_pad. rewrite <- (map_id k) at 2. apply map_ext. intros x. rewrite N.lxor_0_r. apply n2b_b2n.
Qed.
Lemma xor_pad_inj c k k' : c < 256 -> xor_pad c k = xor_pad c k' -> k = k'.
Proof.
  intros H E. rewrite <- (xor_pad_0 k), <- (xor_pad_0 k'), <- (N.lxor_nilpotent c), <- !xor_pad_twice by exact H.
  rewrite E. reflexivity.
Qed.

Lemma Hmac_new_inner key :
  absorbed 128 cf512 iv512 (xor_pad 0x36 (key_block key)) (hm_inner (Hmac_new key)).
Proof.
  unfold Hmac_new. cbv zeta. rewrite der_key_eq. cbn [hm_inner].
  exists [xor_pad 0x36 (key_block key)]. cbn [absorb h_new h_buf h_state h_blocks concat fold_left].
  rewrite !app_nil_r. repeat split; [|cbn [length]; lia].
  constructor; [rewrite xor_pad_length; apply key_block_length|constructor].
Qed.
Lemma Hmac_updates_inner key m0 m ds :
  absorbed 128 cf512 iv512 m0 (hm_inner m) -> hm_outer m = hm_outer (Hmac_new key) ->
  absorbed 128 cf512 iv512 (m0 ++ concat ds) (hm_inner (fold_left Hmac_update ds m)) /\
  hm_outer (fold_left Hmac_update ds m) = hm_outer (Hmac_new key).
Proof.
  revert m0 m. induction ds as [|d ds IH]; intros m0 m H O; cbn [fold_left concat].
  - rewrite app_nil_r. split; assumption.
  - rewrite app_assoc. apply IH; [|exact O]. cbn [Hmac_update hm_inner].
    eapply absorbed_update; try lia. exact H.
Qed.
Lemma Hmac_finalize_eq key msg m :
  absorbed 128 cf512 iv512 (xor_pad 0x36 (key_block key) ++ msg) (hm_inner m) ->
  hm_outer m = hm_outer (Hmac_new key) -> Hmac_finalize m = hmac_sha512 key msg.
Proof.
  intros H O. unfold Hmac_finalize. cbv zeta. rewrite hmac_eq.
  rewrite (absorbed512 _ _ _ H), <- sha512_md. set (inner := sha512 _).
  assert (LI : length inner = 64%nat) by apply sha512_length.
  rewrite (sha512_md (_ ++ inner)). apply absorbed512.
  exists [xor_pad 0x5c (key_block key)]. cbn [h_buf h_state h_blocks concat fold_left length].
  rewrite app_nil_r. repeat split.
  - constructor; [rewrite xor_pad_length; apply key_block_length|constructor].
  - lia.
  - rewrite O. unfold Hmac_new. cbv zeta. cbn [hm_outer]. rewrite der_key_eq, xor_pad_twice by reflexivity.
    rewrite <- N.lxor_assoc, N.lxor_nilpotent, N.lxor_0_l. reflexivity.
Qed.
Lemma Hmac_stream_eq key ds : Hmac_finalize (fold_left Hmac_update ds (Hmac_new key)) = hmac_sha512 key (concat ds).
Proof.
  destruct (Hmac_updates_inner key _ _ ds (Hmac_new_inner key) eq_refl) as [A O].
  apply (Hmac_finalize_eq key); assumption.
Qed.

(** ** PBKDF2 *)
Lemma Hmac_once key d : Hmac_finalize (Hmac_update (Hmac_new key) d) = hmac_sha512 key d.
Proof. rewrite <- (app_nil_r d) at 2. exact (Hmac_stream_eq key [d]). Qed.
Lemma xor_zeros n u : length u = n -> xor_bytes (repeat x00 n) u = u.
Proof.
  intros <-. induction u as [|b u IH]; [reflexivity|]. unfold xor_bytes in *. cbn [length repeat combine map fst snd].
  rewrite IH. f_equal. change (b2n x00) with 0. rewrite N.lxor_0_l. apply n2b_b2n.
Qed.
Lemma pbkdf2_rounds_eq key n s c :
  pbkdf2_rounds (Hmac_new key) n s c = pbkdf2_loop (hmac_sha512 key) n s c.
Proof.
  revert s c. induction n as [|n IH]; intros s c; [reflexivity|]. cbn [pbkdf2_rounds pbkdf2_loop]. cbv zeta.
  rewrite Hmac_once. apply IH.
Qed.
Lemma pbkdf2_stream_eq p s r : pbkdf2_stream p s r = pbkdf2_hmac_sha512 p s r 64.
Proof.
  unfold pbkdf2_hmac_sha512. change ((64 + 63) / 64)%nat with 1%nat. cbn [seq map concat].
  rewrite app_nil_r, firstn_all2 by (rewrite pbkdf2_block_length; lia).
  unfold pbkdf2_stream, pbkdf2_block. cbv zeta. rewrite pbkdf2_rounds_eq.
  assert (E : Hmac_finalize (Hmac_update (Hmac_update (Hmac_new p) s) (be_bytes 4 1)) = hmac_sha512 p (s ++ be_bytes 4 1)).
  { rewrite <- (app_nil_r (be_bytes 4 1)) at 2. exact (Hmac_stream_eq p [s; be_bytes 4 1]). }
  rewrite E. rewrite xor_zeros by apply hmac_sha512_length. reflexivity.
Qed.

(** ** Collisions *)
Definition words_below (w : N) (s : st8) : Prop :=
  let '(a, b, c, d, (e, f, g, h)) := s in Forall (fun x => x < 2 ^ w) [a; b; c; d; e; f; g; h].
Lemma words_out_inj n w s s' : 2 ^ w = 256 ^ N.of_nat n -> words_below w s -> words_below w s' ->
  words_out n s = words_out n s' -> s = s'.
Proof.
  intros W H H' E. destruct s as [[[[a b] c] d] [[[e f] g] h]]. destruct s' as [[[[a' b'] c'] d'] [[[e' f'] g'] h']].
  unfold words_below in H, H'. unfold words_out in E. rewrite W in H, H'.
  assert (G : forall l l' : list N, length l = length l' -> Forall (fun x => x < 256 ^ N.of_nat n) l ->
    Forall (fun x => x < 256 ^ N.of_nat n) l' -> concat (map (be_bytes n) l) = concat (map (be_bytes n) l') -> l = l').
  { induction l as [|x l IH]; intros [|y l'] L F F' Q; try discriminate L; [reflexivity|].
    inversion F; subst. inversion F'; subst. cbn [map concat] in Q.
    assert (P : be_bytes n x = be_bytes n y /\ concat (map (be_bytes n) l) = concat (map (be_bytes n) l')).
    { clear - Q. assert (Lx := be_bytes_length n x). assert (Ly := be_bytes_length n y).
      revert Q Lx Ly. generalize (be_bytes n x) (be_bytes n y). intros u v Q Lu Lv.
      split; [apply (f_equal (firstn n)) in Q|apply (f_equal (skipn n)) in Q].
      - rewrite !firstn_app, Lu, Lv, Nat.sub_diag, !firstn_O, !app_nil_r, !firstn_all2 in Q by lia. exact Q.
      - rewrite !skipn_app, Lu, Lv, Nat.sub_diag, (skipn_all2 u), (skipn_all2 v) in Q by lia. exact Q. }
    f_equal; [apply (be_inj n); [assumption|assumption|exact (proj1 P)]|].
    apply IH; [now injection L|assumption|assumption|exact (proj2 P)]. }
  apply G in E; [|reflexivity|assumption|assumption]. injection E as -> -> -> -> -> -> -> ->. reflexivity.
Qed.

Lemma land_ones_lt x w : N.land x (N.ones w) < 2 ^ w.
Proof. rewrite N.land_ones. apply N.mod_lt. apply N.pow_nonzero. discriminate. Qed.
Lemma compress_below w R1 R2 R3 S1 S2 S3 a1 a2 a3 b1 b2 b3 K s blk :
  words_below w (Sha2.compress w (N.ones w) R1 R2 R3 S1 S2 S3 a1 a2 a3 b1 b2 b3 K s blk).
Proof.
  unfold Sha2.compress. destruct s as [[[[a b] c] d] [[[e f] g] h]].
  destruct (rounds _ _ _ _ _ _ _ _ _ _ _ _ _ _ _ _ _) as [[[[a' b'] c'] d'] [[[e' f'] g'] h']].
  unfold words_below, wadd. repeat (apply Forall_cons; [apply land_ones_lt|]). constructor.
Qed.
Lemma cf512_below s b : words_below 64 (cf512 s b).
Proof. unfold cf512. change 0xffffffffffffffff with (N.ones 64). apply compress_below. Qed.
Lemma cf256_below s b : words_below 32 (cf256 s b).
Proof. unfold cf256. change 0xffffffff with (N.ones 32). apply compress_below. Qed.

Definition st8_dec (s s' : st8) : {s = s'} + {s <> s'}.
Proof. repeat decide equality. Defined.

Lemma md_below (bs lf : nat) (cf : st8 -> list byte -> st8) w iv m : (0 < bs)%nat -> (lf < bs)%nat ->
  (forall s b, words_below w (cf s b)) -> words_below w (md bs lf cf iv m).
Proof.
  intros Hb Hl H. unfold md. destruct (md_blocks bs lf Hb Hl m) as [B [b [-> _]]].
  rewrite fold_left_app. cbn [fold_left]. apply H.
Qed.

(** Calls of the compression function by position from the front. *)
Lemma call_of_front {St} (cf : St -> list byte -> St) iv B i s b : call_of cf iv B i = Some (s, b) ->
  exists j, nth_error B j = Some b /\ s = fold_left cf (firstn j B) iv.
Proof.
  unfold call_of. destruct (nth_error (rev B) i) as [x|] eqn:E; [|discriminate]. intros [= <- <-].
  assert (Hi : (i < length B)%nat).
  { rewrite <- rev_length. apply nth_error_Some. rewrite E. discriminate. }
  exists (length B - S i)%nat. split; [|reflexivity].
  rewrite nth_error_nth' with (d := []) by lia. rewrite <- E.
  rewrite nth_error_nth' with (d := []) by (rewrite rev_length; lia).
  rewrite rev_nth by lia. reflexivity.
Qed.
Lemma calls_collide_front {St} (cf : St -> list byte -> St) iv B B' i :
  calls_collide cf (call_of cf iv B i) (call_of cf iv B' i) ->
  exists j j' b b', nth_error B j = Some b /\ nth_error B' j' = Some b' /\
    (fold_left cf (firstn j B) iv, b) <> (fold_left cf (firstn j' B') iv, b') /\
    cf (fold_left cf (firstn j B) iv) b = cf (fold_left cf (firstn j' B') iv) b'.
Proof.
  destruct (call_of cf iv B i) as [[s b]|] eqn:E; [|intros []].
  destruct (call_of cf iv B' i) as [[s' b']|] eqn:E'; [|intros []]. intros [H1 H2].
  apply call_of_front in E. apply call_of_front in E'.
  destruct E as [j [E ->]]. destruct E' as [j' [E' ->]]. exists j, j', b, b'. repeat split; assumption.
Qed.

(** Key blocks *)
Lemma key_block_short k : (length k <= 128)%nat -> key_block k = k ++ repeat x00 (128 - length k).
Proof. intros H. unfold key_block. destruct (Nat.ltb_spec 128 (length k)); [lia|reflexivity]. Qed.
Lemma key_block_long k : (128 < length k)%nat -> key_block k = sha512 k ++ repeat x00 64.
Proof.
  intros H. unfold key_block. destruct (Nat.ltb_spec 128 (length k)); [|lia]. cbv zeta.
  rewrite sha512_length. reflexivity.
Qed.
Lemma app_prefix {A} (a b c d : list A) : length a = length c -> a ++ b = c ++ d -> a = c /\ b = d.
Proof.
  revert c. induction a as [|x a IH]; intros [|y c] L E; try discriminate L; [split; [reflexivity|exact E]|].
  cbn [app] in E. injection E as -> E. destruct (IH c) as [-> ->]; [now injection L|exact E|]. split; reflexivity.
Qed.
Lemma key_block_le k k' : (length k <= length k')%nat -> (length k' <= 128)%nat ->
  key_block k = key_block k' -> k' = k ++ repeat x00 (length k' - length k).
Proof.
  intros H H' E. rewrite !key_block_short in E by lia.
  replace (128 - length k)%nat with ((length k' - length k) + (128 - length k'))%nat in E by lia.
  rewrite repeat_app', app_assoc in E. symmetry in E. apply app_prefix in E; [exact (proj1 E)|].
  rewrite app_length, repeat_length. lia.
Qed.
Lemma key_block_eq k k' : length k = length k' -> (length k' <= 128)%nat -> key_block k = key_block k' -> k = k'.
Proof.
  intros L H E. apply key_block_le in E; [|lia|exact H]. rewrite L, Nat.sub_diag, app_nil_r in E. now symmetry.
Qed.
