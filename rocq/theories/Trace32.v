(** What an observer of branches and library calls sees of the derivation functions of bip0032
    (core/{mod,private,public}.rs and slip10.rs).

    The functions of [XKey32] and [Slip10] again, with a list of events beside the result: the value an
    [if] or [match] of the crate decides on, and each call into a library with the lengths of what it is
    given.  What the libraries do inside, and the compiler, are left out. *)
From Verif Require Import Base Str Sha2 Error32 Path32 Meta32 Curve32 XKey32 Slip10.

Inductive event32 : Type :=
| If (line value : N)                  (* a decision at this line of private.rs, public.rs or slip10.rs *)
| Cloned                               (* [self.clone()] *)
| ToPublic                             (* [CurvePrivateKey::to_public]: a multiplication by the secret *)
| Mac (key : nat) (updates : list nat) (* HMAC-SHA512: length of the key, of each [update] *)
| FromBytes                            (* [CurvePrivateKey::from_bytes] *)
| AddTweak                             (* [TweakableKey::add_tweak] *)
| Hash160 (len : nat).                 (* [key_fingerprint] of so many bytes *)
Definition trace32 := list event32.

Definition T32 (A : Type) : Type := (trace32 * A)%type.
(** [?] and [;] for results, and for the fuelled loops of [Slip10] *)
Definition rbind {A B : Type} (m : T32 (res Error A)) (f : A -> T32 (res Error B)) : T32 (res Error B) :=
  match m with
  | (t, Ok a) => let '(t', r) := f a in (t ++ t', r)
  | (t, Err e) => (t, Err e)
  | (t, Panic) => (t, Panic)
  end.
Definition orbind {A B : Type} (m : T32 (res Error A)) (f : A -> T32 (option (res Error B)))
    : T32 (option (res Error B)) :=
  match m with
  | (t, Ok a) => let '(t', r) := f a in (t ++ t', r)
  | (t, Err e) => (t, Some (Err e))
  | (t, Panic) => (t, Some Panic)
  end.
Definition say {A : Type} (e : event32) (m : T32 A) : T32 A := (e :: fst m, snd m).
Definition quietly {A : Type} (a : A) : T32 A := ([], a).
Definition b2v32 (b : bool) : N := if b then 1 else 0.
Notation "'let!' x := m 'in' k" := (rbind m (fun x => k))
  (at level 200, x pattern, m at level 100, k at level 200).

(** core/mod.rs 54-72; [updates] are what the closure feeds, in order *)
Definition split_t (key : list byte) (updates : list (list byte)) : T32 (res Error (list byte * list byte)) :=
  say (Mac (length key) (map (@length byte) updates)) (quietly (hmac_sha512_split key (concat updates))).

(** private.rs 32-55; line 40 *)
Definition xprv_new_t (dbg : profile) (C : Curve) (seed : list byte) : T32 (res Error (XPrv C)) :=
  let! (master_key, chain_code) := split_t (hmac_key C) [seed] in
  say FromBytes
  match prv_from_bytes C master_key with
  | inl err =>
      say (If 40 0) (quietly
        (raise (set_source dbg
               (with_context (err_new InvalidKeyData (lit "invalid master key derived from seed"))
                  (lit "seed_len") (dec (N.of_nat (length seed))))
               err)))
  | inr private_key => say (If 40 1) (quietly (Ok (mkXPrv (master_meta chain_code) private_key)))
  end.

(** private.rs 93-126; lines 98 and 110 *)
Definition xprv_derive_child_t (dbg : profile) {C : TweakCurve} (x : XPrv C) (child : N)
    : T32 (res Error (XPrv C)) :=
  say ToPublic
  (let parent_public_bytes := pub_to_bytes C (prv_to_public C (xprv_key x)) in
   say (If 98 (b2v32 (child_is_hardened child)))
   (let! (il, ir) :=
      if child_is_hardened child then
        let! data := quietly (put 1 33 (prv_to_bytes C (xprv_key x)) (zeros 37)) in
        let! data := quietly (put 33 37 (child_to_bytes child) data) in
        split_t (m_chain (xprv_meta x)) [data]
      else split_t (m_chain (xprv_meta x)) [parent_public_bytes; child_to_bytes child] in
    say AddTweak
    match prv_add_tweak C (xprv_key x) il with
    | inl err =>
        say (If 110 0) (quietly
          (raise (set_source dbg
               (with_context
                  (with_context (err_new InvalidDerivation (lit "invalid child private key"))
                     (lit "child_index") (dec (child_index child)))
                  (lit "hardened") (show_bool (child_is_hardened child)))
               err)))
    | inr child_key =>
        say (If 110 1)
          (say (Hash160 (length parent_public_bytes))
             (quietly (Ok (mkXPrv (child_meta (xprv_meta x) parent_public_bytes child ir) child_key))))
    end)).

(** private.rs 129-135; the loop of line 131 decides on whether a child is left *)
Fixpoint xprv_loop_t (dbg : profile) {C : TweakCurve} (x : XPrv C) (path : list N) : T32 (res Error (XPrv C)) :=
  match path with
  | [] => say (If 131 0) (quietly (Ok x))
  | child :: rest =>
      say (If 131 1) (let! y := xprv_derive_child_t dbg x child in xprv_loop_t dbg y rest)
  end.
Definition xprv_derive_path_t (dbg : profile) {C : TweakCurve} (x : XPrv C) (path : list N) : T32 (res Error (XPrv C)) :=
  say Cloned (xprv_loop_t dbg x path).

(** public.rs 53-86; lines 54 and 70 *)
Definition xpub_derive_child_t (dbg : profile) {C : TweakCurve} (x : XPub C) (child : N)
    : T32 (res Error (XPub C)) :=
  say (If 54 (b2v32 (child_is_hardened child)))
  (if child_is_hardened child then quietly (Err (hardened_public_error child))
   else
     let public_key_bytes := pub_to_bytes C (xpub_key x) in
     let! (il, ir) := split_t (m_chain (xpub_meta x)) [public_key_bytes; child_to_bytes child] in
     say AddTweak
     match pub_add_tweak C (xpub_key x) il with
     | inl err =>
         say (If 70 0) (quietly
           (raise (set_source dbg
                 (with_context
                    (with_context (err_new InvalidDerivation (lit "invalid child public key"))
                       (lit "child_index") (dec (child_index child)))
                    (lit "hardened") (show_bool false))
                 err)))
     | inr child_public =>
         say (If 70 1)
           (say (Hash160 (length public_key_bytes))
              (quietly (Ok (mkXPub (child_meta (xpub_meta x) public_key_bytes child ir) child_public))))
     end).
(** public.rs 89-95; line 91 *)
Fixpoint xpub_loop_t (dbg : profile) {C : TweakCurve} (x : XPub C) (path : list N) : T32 (res Error (XPub C)) :=
  match path with
  | [] => say (If 91 0) (quietly (Ok x))
  | child :: rest =>
      say (If 91 1) (let! y := xpub_derive_child_t dbg x child in xpub_loop_t dbg y rest)
  end.
Definition xpub_derive_path_t (dbg : profile) {C : TweakCurve} (x : XPub C) (path : list N) : T32 (res Error (XPub C)) :=
  say Cloned (xpub_loop_t dbg x path).

(** slip10.rs 58-89; lines 62 and 80 *)
Fixpoint slip10_master_t (dbg : profile) (fuel : nat) (C : Curve) (seed : list byte)
    : T32 (option (res Error (XPrv C))) :=
  match fuel with
  | O => quietly None
  | S fuel' =>
      orbind (split_t (hmac_key C) [seed]) (fun '(il, ir) =>
      say FromBytes
      match prv_from_bytes C il with
      | inr private_key => say (If 62 1) (quietly (Some (Ok (mkXPrv (master_meta ir) private_key))))
      | inl err =>
          say (If 62 0)
          (orbind (quietly (put 0 32 il (zeros 64))) (fun next =>
           orbind (quietly (put 32 64 ir next)) (fun next =>
           let seed' := [] ++ next in
           say (If 80 (b2v32 (is_empty seed')))
           (if is_empty seed' then
              quietly (Some (raise (set_source dbg
                        (err_new InvalidDerivation (lit "slip10 seed retry failed")) err)))
            else slip10_master_t dbg fuel' C seed'))))
      end)
  end.

(** The loops 107-136, 169-198 and 231-260 ([line] is 115, 177 or 239; [call] the construction of the key);
    after success [public_len] bytes are hashed *)
Fixpoint slip10_loop_t {K : Type} (line : N) (call : event32) (public_len : nat) (fuel : nat)
    (chain : list byte) (try_key : list byte -> Source + K) (child_bytes data : list byte)
    : T32 (option (res Error (K * list byte))) :=
  match fuel with
  | O => quietly None
  | S fuel' =>
      orbind (split_t chain [data]) (fun '(il, ir) =>
      say call
      match try_key il with
      | inr key => say (If line 1) (say (Hash160 public_len) (quietly (Some (Ok (key, ir)))))
      | inl _ =>
          say (If line 0)
          (orbind (quietly (retry_data ir child_bytes)) (fun retry =>
             slip10_loop_t line call public_len fuel' chain try_key child_bytes retry))
      end)
  end.
Definition omap_t {A B : Type} (f : A -> B) (m : T32 (option (res Error A))) : T32 (option (res Error B)) :=
  (fst m, omap f (snd m)).

(** slip10.rs 98-137 *)
Definition slip10_hardened_child_t (fuel : nat) {C : Curve} (x : XPrv C) (child : HardenedChildNumber)
    : T32 (option (res Error (XPrv C))) :=
  let child_bytes := hchild_to_bytes child in
  say ToPublic
  (let parent_public_bytes := pub_to_bytes C (prv_to_public C (xprv_key x)) in
   orbind (quietly (put 1 33 (prv_to_bytes C (xprv_key x)) (zeros 37))) (fun data =>
   orbind (quietly (put 33 37 child_bytes data)) (fun data =>
   omap_t (fun '(key, ir) =>
             mkXPrv (child_meta (xprv_meta x) parent_public_bytes (hc_child child) ir) key)
     (slip10_loop_t 115 FromBytes (length parent_public_bytes) fuel (m_chain (xprv_meta x))
        (prv_from_bytes C) child_bytes data)))).

(** slip10.rs 154-199; line 161 *)
Definition slip10_prv_child_t (fuel : nat) {C : TweakCurve} (x : XPrv C) (child : N)
    : T32 (option (res Error (XPrv C))) :=
  say ToPublic
  (let parent_public_bytes := pub_to_bytes C (prv_to_public C (xprv_key x)) in
   let child_bytes := child_to_bytes child in
   say (If 161 (b2v32 (child_is_hardened child)))
   (orbind (quietly (if child_is_hardened child
                     then put 1 33 (prv_to_bytes C (xprv_key x)) (zeros 37)
                     else put 0 33 parent_public_bytes (zeros 37))) (fun data =>
    orbind (quietly (put 33 37 child_bytes data)) (fun data =>
    omap_t (fun '(key, ir) =>
              mkXPrv (child_meta (xprv_meta x) parent_public_bytes child ir) key)
      (slip10_loop_t 177 AddTweak (length parent_public_bytes) fuel (m_chain (xprv_meta x))
         (prv_add_tweak C (xprv_key x)) child_bytes data))))).

(** slip10.rs 215-261; line 216 *)
Definition slip10_pub_child_t (fuel : nat) {C : TweakCurve} (x : XPub C) (child : N)
    : T32 (option (res Error (XPub C))) :=
  say (If 216 (b2v32 (child_is_hardened child)))
  (if child_is_hardened child then quietly (Some (Err (hardened_public_error child)))
   else
     let parent_public_bytes := pub_to_bytes C (xpub_key x) in
     let child_bytes := child_to_bytes child in
     orbind (quietly (put 0 33 parent_public_bytes (zeros 37))) (fun data =>
     orbind (quietly (put 33 37 child_bytes data)) (fun data =>
     omap_t (fun '(key, ir) =>
               mkXPub (child_meta (xpub_meta x) parent_public_bytes child ir) key)
       (slip10_loop_t 239 AddTweak (length parent_public_bytes) fuel (m_chain (xpub_meta x))
          (pub_add_tweak C (xpub_key x)) child_bytes data)))).
