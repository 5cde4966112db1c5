(** The shared contexts of bip0032/src/curve/secp256k1/backends/secp256k1.rs 33-69 under threads.

    With feature "std" the signing and the verification context are [static]s behind
    [std::sync::OnceLock]; without it every call makes a context of its own.  Threads run key
    operations as programs that call the two functions of the library that take a context.

    [OnceLock::get_or_init] is modelled after std's futex implementation of [Once]: an atomic word
    that is loaded with Acquire, taken with a compare-exchange (Acquire) and stored with Release.
    Parking is left out: a thread that finds the word RUNNING loads it again.  Memory is weak: an
    atomic word is the history of its values, a load may return any value not older than the last
    one the thread has seen, and a message carries to its Acquire readers what its Release writer
    knew.  A non-atomic access not ordered after the write of the value is a data race ([Raced]). *)
From Verif Require Import Base Str Error32 Path32 Meta32 Curve32 XKey32 XKeySpec32.

(** ** libsecp256k1 contexts *)

(** The blinding of [ecmult_gen]: k G is computed as (k + offset) G + point.  A verification context
    has no state of its own. *)
Record Context (L : ECLib) : Type := mkContext { cx_offset : N; cx_point : point L }.
Arguments mkContext {L}. Arguments cx_offset {L}. Arguments cx_point {L}.
Inductive kind : Type := Signing | Verification.
Definition kind_eqb (a b : kind) : bool :=
  match a, b with Signing, Signing | Verification, Verification => true | _, _ => false end.

(** [Secp256k1::signing_only] and [verification_only] with the random number they may take *)
Definition make_context (L : ECLib) (k : kind) (random : N) : Context L :=
  match k with
  | Signing =>
      let o := random mod order L in {| cx_offset := o; cx_point := pmul L (order L - o) (gen L) |}
  | Verification => {| cx_offset := 0; cx_point := infinity L |}
  end.
(** [PublicKey::from_secret_key] (109-111) *)
Definition from_secret_key {L : ECLib} (secp : Context L) (key : N) : point L :=
  padd L (pmul L ((key + cx_offset secp) mod order L) (gen L)) (cx_point secp).
(** [PublicKey::add_exp_tweak] (90-92) *)
Definition add_exp_tweak {L : ECLib} (secp : Context L) (key : point L) (t : N) : Source + point L :=
  let child := padd L key (pmul L t (gen L)) in
  if is_infinity L child then inl SSecpTweak else inr child.

(** ** Programs of a thread *)

Inductive prog (L : ECLib) (R : Type) : Type :=
| Ret (r : R)
| ToPublic (key : N) (k : point L -> prog L R)                                  (* 109-111 *)
| AddExpTweak (key : point L) (t : N) (k : Source + point L -> prog L R).        (* 90-92 *)
Arguments Ret {L R}. Arguments ToPublic {L R}. Arguments AddExpTweak {L R}.

Fixpoint pbind {L A B} (p : prog L A) (f : A -> prog L B) : prog L B :=
  match p with
  | Ret a => f a
  | ToPublic key k => ToPublic key (fun P => pbind (k P) f)
  | AddExpTweak key t k => AddExpTweak key t (fun r => pbind (k r) f)
  end.
Definition rbind {L E A B} (p : prog L (res E A)) (f : A -> prog L (res E B)) : prog L (res E B) :=
  pbind p (fun r => match r with Ok a => f a | Err e => Ret (Err e) | Panic => Ret Panic end).

(** What the next call is. *)
Definition call_kind {L R} (p : prog L R) : option kind :=
  match p with Ret _ => None | ToPublic _ _ => Some Signing | AddExpTweak _ _ _ => Some Verification end.
(** The closure given to [with_signing_context] or [with_verification_context] *)
Definition call {L R} (p : prog L R) (secp : Context L) : prog L R :=
  match p with
  | Ret r => Ret r
  | ToPublic key k => k (from_secret_key secp key)
  | AddExpTweak key t k => k (add_exp_tweak secp key t)
  end.

(** Without "std" (35-39, 54-58): a new context for every call. *)
Inductive runs_alone {L R} : prog L R -> R -> Prop :=
| alone_ret r : runs_alone (Ret r) r
| alone_call p k random r : call_kind p = Some k ->
    runs_alone (call p (make_context L k random)) r -> runs_alone p r.

(** ** With "std" *)

Inductive once_state : Type := Incomplete | Poisoned | Running | Complete.
(** A value of the atomic word, and whether reading it with Acquire orders the reader after the write
    of the value. *)
Record message : Type := mkMessage { ms_state : once_state; ms_written : bool }.
(** [OnceLock]: the word's history, oldest first, and the value *)
Record Cell (L : ECLib) : Type := mkCell { c_word : list message; c_value : option (Context L) }.
Arguments mkCell {L}. Arguments c_word {L}. Arguments c_value {L}.
Definition new_cell (L : ECLib) : Cell L := {| c_word := [mkMessage Incomplete false]; c_value := None |}.

(** Where a thread is in [get_or_init] *)
Inductive pc : Type :=
| Loading                                 (* the load of [get], of [is_completed] or of [call] *)
| Taking (found : once_state)             (* the compare-exchange *)
| Initialising                            (* in [Secp256k1::signing_only] or [verification_only] *)
| Storing                                 (* the value is written *)
| Reading                                 (* [get_unchecked] *)
| Panicked
| Raced.                                  (* undefined behaviour *)
(** The position in the word's history the thread has seen, and whether the write of the value
    happens before it *)
Record View : Type := mkView { v_seen : nat; v_written : bool }.

Definition after_load (s : once_state) : pc :=
  match s with Complete => Reading | Running => Loading | Incomplete | Poisoned => Taking s end.
Definition seen (j : nat) (m : message) (v : View) : View :=
  {| v_seen := j; v_written := v_written v || ms_written m |}.

(** One step of one thread in one call of [get_or_init]. *)
Inductive once_step {L} (k : kind) : Cell L -> pc -> View -> Cell L -> pc -> View -> Prop :=
| os_load c v j m : (v_seen v <= j)%nat -> nth_error (c_word c) j = Some m ->
    once_step k c Loading v c (after_load (ms_state m)) (seen j m v)
| os_lost c v s j m : (v_seen v <= j)%nat -> nth_error (c_word c) j = Some m ->     (* or spurious *)
    once_step k c (Taking s) v c (after_load (ms_state m)) (seen j m v)
| os_take c v older m : c_word c = older ++ [m] ->
    once_step k c (Taking (ms_state m)) v
      (mkCell (older ++ [m] ++ [mkMessage Running (ms_written m)]) (c_value c)) Initialising
      (seen (S (length older)) m v)
| os_made c v random : (c_value c = None \/ v_written v = true) ->
    once_step k c Initialising v
      (mkCell (c_word c) (Some (make_context L k random))) Storing (mkView (v_seen v) true)
| os_made_racing c v : ~ (c_value c = None \/ v_written v = true) ->
    once_step k c Initialising v c Raced v
| os_panic c v :
    once_step k c Initialising v
      (mkCell (c_word c ++ [mkMessage Poisoned (v_written v)]) (c_value c)) Panicked
      (mkView (length (c_word c)) (v_written v))
| os_store c v :
    once_step k c Storing v
      (mkCell (c_word c ++ [mkMessage Complete (v_written v)]) (c_value c)) Reading
      (mkView (length (c_word c)) (v_written v)).

Record Thread (L : ECLib) (R : Type) : Type :=
  mkThread { th_prog : prog L R; th_pc : pc; th_view : kind -> View }.
Arguments mkThread {L R}. Arguments th_prog {L R}. Arguments th_pc {L R}. Arguments th_view {L R}.
Record World (L : ECLib) (R : Type) : Type := mkWorld { w_cell : kind -> Cell L; w_threads : list (Thread L R) }.
Arguments mkWorld {L R}. Arguments w_cell {L R}. Arguments w_threads {L R}.

Definition upd {A} (f : kind -> A) (k : kind) (a : A) : kind -> A := fun k' => if kind_eqb k' k then a else f k'.

(** A thread's step on the [static] its next call needs. *)
Inductive thread_step {L R} : (kind -> Cell L) -> Thread L R -> (kind -> Cell L) -> Thread L R -> Prop :=
| ts_once cells t k c q v : call_kind (th_prog t) = Some k ->
    once_step k (cells k) (th_pc t) (th_view t k) c q v ->
    thread_step cells t (upd cells k c) (mkThread (th_prog t) q (upd (th_view t) k v))
| ts_read cells t k secp : call_kind (th_prog t) = Some k -> th_pc t = Reading ->
    v_written (th_view t k) = true -> c_value (cells k) = Some secp ->
    thread_step cells t cells (mkThread (call (th_prog t) secp) Loading (th_view t))
| ts_read_racing cells t k : call_kind (th_prog t) = Some k -> th_pc t = Reading ->
    v_written (th_view t k) = false \/ c_value (cells k) = None ->
    thread_step cells t cells (mkThread (th_prog t) Raced (th_view t)).

Inductive step {L R} : World L R -> World L R -> Prop :=
| step_thread cells before t after cells' t' : thread_step cells t cells' t' ->
    step (mkWorld cells (before ++ t :: after)) (mkWorld cells' (before ++ t' :: after)).
Inductive steps {L R} : World L R -> World L R -> Prop :=
| steps_none w : steps w w
| steps_more w1 w2 w3 : steps w1 w2 -> step w2 w3 -> steps w1 w3.

Definition start {L R} (programs : list (prog L R)) : World L R :=
  mkWorld (fun _ => new_cell L) (map (fun p => mkThread p Loading (fun _ => mkView 0 false)) programs).

(** ** Key operations as programs, for [Secp256k1FfiBackend] *)

(** secp256k1.rs 88-94 *)
Definition pub_add_tweak_p {L} (key : point L) (tweak : list byte) : prog L (Source + point L) :=
  match ffi_scalar L tweak with
  | inl e => Ret (inl e)
  | inr t => AddExpTweak key t Ret
  end.
(** private.rs 58-60 *)
Definition xprv_public_p {L} (x : XPrv (Secp256k1FfiBackend L)) : prog L (XPub (Secp256k1FfiBackend L)) :=
  ToPublic (xprv_key x) (fun P => Ret (@mkXPub (Secp256k1FfiBackend L) (xprv_meta x) P)).
(** private.rs 93-126 *)
Definition xprv_derive_child_p (dbg : profile) {L} (x : XPrv (Secp256k1FfiBackend L)) (child : N)
    : prog L (res Error (XPrv (Secp256k1FfiBackend L))) :=
  ToPublic (xprv_key x) (fun P =>
  let parent_public_bytes := compress L P in
  Ret (let? data := child_data x parent_public_bytes child in
       let? (il, ir) := hmac_sha512_split (m_chain (xprv_meta x)) data in
       match ffi_prv_add_tweak L (xprv_key x) il with
       | inl err =>
           raise (set_source dbg
                    (with_context
                       (with_context (err_new InvalidDerivation (lit "invalid child private key"))
                          (lit "child_index") (dec (child_index child)))
                       (lit "hardened") (show_bool (child_is_hardened child)))
                    err)
       | inr child_key =>
           Ok (@mkXPrv (Secp256k1FfiBackend L)
                 (child_meta (xprv_meta x) parent_public_bytes child ir) child_key)
       end)).
(** private.rs 129-135 *)
Fixpoint xprv_derive_path_p (dbg : profile) {L} (x : XPrv (Secp256k1FfiBackend L)) (path : list N)
    : prog L (res Error (XPrv (Secp256k1FfiBackend L))) :=
  match path with
  | [] => Ret (Ok x)
  | child :: rest => rbind (xprv_derive_child_p dbg x child) (fun y => xprv_derive_path_p dbg y rest)
  end.
(** public.rs 53-86 *)
Definition xpub_derive_child_p (dbg : profile) {L} (x : XPub (Secp256k1FfiBackend L)) (child : N)
    : prog L (res Error (XPub (Secp256k1FfiBackend L))) :=
  if child_is_hardened child then Ret (Err (hardened_public_error child))
  else
    let public_key_bytes := compress L (xpub_key x) in
    match hmac_sha512_split (m_chain (xpub_meta x)) (public_key_bytes ++ child_to_bytes child) with
    | Ok (il, ir) =>
        pbind (pub_add_tweak_p (xpub_key x) il) (fun r =>
        Ret match r with
            | inl err =>
                raise (set_source dbg
                         (with_context
                            (with_context (err_new InvalidDerivation (lit "invalid child public key"))
                               (lit "child_index") (dec (child_index child)))
                            (lit "hardened") (show_bool false))
                         err)
            | inr child_public =>
                Ok (@mkXPub (Secp256k1FfiBackend L)
                      (child_meta (xpub_meta x) public_key_bytes child ir) child_public)
            end)
    | Err e => Ret (Err e)
    | Panic => Ret Panic
    end.
(** public.rs 89-95 *)
Fixpoint xpub_derive_path_p (dbg : profile) {L} (x : XPub (Secp256k1FfiBackend L)) (path : list N)
    : prog L (res Error (XPub (Secp256k1FfiBackend L))) :=
  match path with
  | [] => Ret (Ok x)
  | child :: rest => rbind (xpub_derive_child_p dbg x child) (fun y => xpub_derive_path_p dbg y rest)
  end.
