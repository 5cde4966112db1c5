(** Model of bip0032/src/xkey/slip10.rs.

    The retry loops have no bound in the code.  The model runs [fuel] rounds;
    [None] means the loop is still running. *)
From Verif Require Import Base Str Error32 Path32 Meta32 Curve32 XKey32.

(** slip10.rs 58-89; [seed] is the loop variable. *)
Fixpoint slip10_master_loop (dbg : profile) (fuel : nat) (C : Curve) (seed : list byte)
    : option (res Error (XPrv C)) :=
  match fuel with
  | O => None
  | S fuel' =>
      match derive_master_key_parts seed (hmac_key C) with
      | Ok (il, ir) =>
          match prv_from_bytes C il with
          | inr private_key => Some (Ok (mkXPrv (master_meta ir) private_key))
          | inl err =>
              match put 0 32 il (zeros 64) with
              | Ok next =>
                  match put 32 64 ir next with
                  | Ok next =>
                      let seed' := [] ++ next in
                      if is_empty seed' then
                        Some (raise (set_source dbg
                                (err_new InvalidDerivation (lit "slip10 seed retry failed")) err))
                      else slip10_master_loop dbg fuel' C seed'
                  | Err e => Some (Err e)
                  | Panic => Some Panic
                  end
              | Err e => Some (Err e)
              | Panic => Some Panic
              end
          end
      | Err e => Some (Err e)
      | Panic => Some Panic
      end
  end.
(** slip10.rs 55-90 *)
Definition new_slip10 (dbg : profile) (fuel : nat) (C : Curve) (seed : list byte)
    : option (res Error (XPrv C)) := slip10_master_loop dbg fuel C seed.

(** slip10.rs 128-132, 190-194, 252-256: the data of the next round *)
Definition retry_data (ir child_bytes : list byte) : res Error (list byte) :=
  let? retry := put 0 1 [x01] (zeros 37) in
  let? retry := put 1 33 ir retry in
  put 33 37 child_bytes retry.

(** The loop shared by the three impls (107-136, 169-198, 231-260): [try] is the
    key construction ([from_bytes] or [add_tweak]). *)
Fixpoint slip10_loop {K : Type} (fuel : nat) (chain : list byte) (try_key : list byte -> Source + K)
    (child_bytes data : list byte) : option (res Error (K * list byte)) :=
  match fuel with
  | O => None
  | S fuel' =>
      match hmac_sha512_split chain data with
      | Ok (il, ir) =>
          match try_key il with
          | inr key => Some (Ok (key, ir))
          | inl _ =>
              match retry_data ir child_bytes with
              | Ok retry => slip10_loop fuel' chain try_key child_bytes retry
              | Err e => Some (Err e)
              | Panic => Some Panic
              end
          end
      | Err e => Some (Err e)
      | Panic => Some Panic
      end
  end.

(** [let? x := ..] before the loop, inside the fuelled computations *)
Definition obind {A B : Type} (r : res Error A) (k : A -> option (res Error B))
    : option (res Error B) :=
  match r with Ok a => k a | Err e => Some (Err e) | Panic => Some Panic end.
Definition omap {A B : Type} (f : A -> B) (o : option (res Error A)) : option (res Error B) :=
  option_map (res_map f) o.

(** slip10.rs 98-137 (hardened-only curves: ed25519) *)
Definition slip10_hardened_child (fuel : nat) {C : Curve} (x : XPrv C) (child : HardenedChildNumber)
    : option (res Error (XPrv C)) :=
  let child_bytes := hchild_to_bytes child in
  let parent_public_bytes := pub_to_bytes C (prv_to_public C (xprv_key x)) in
  obind (put 1 33 (prv_to_bytes C (xprv_key x)) (zeros 37)) (fun data =>
  obind (put 33 37 child_bytes data) (fun data =>
  omap (fun '(key, ir) =>
          mkXPrv (child_meta (xprv_meta x) parent_public_bytes (hc_child child) ir) key)
       (slip10_loop fuel (m_chain (xprv_meta x)) (prv_from_bytes C) child_bytes data))).

(** A loop over the path: [None] if any step is still running. *)
Fixpoint path_loop {X N' : Type} (step : X -> N' -> option (res Error X)) (x : X) (path : list N')
    : option (res Error X) :=
  match path with
  | [] => Some (Ok x)
  | c :: rest =>
      match step x c with
      | Some (Ok y) => path_loop step y rest
      | other => other
      end
  end.

(** slip10.rs 139-145 *)
Definition slip10_hardened_path (dbg : profile) (fuel : nat) {C : Curve} (x : XPrv C)
    (path : HardenedDerivationPath) : option (res Error (XPrv C)) :=
  obind (hpath_children dbg path) (path_loop (slip10_hardened_child fuel) x).

(** slip10.rs 154-199 *)
Definition slip10_prv_child (fuel : nat) {C : TweakCurve} (x : XPrv C) (child : N)
    : option (res Error (XPrv C)) :=
  let parent_public_bytes := pub_to_bytes C (prv_to_public C (xprv_key x)) in
  let child_bytes := child_to_bytes child in
  obind (if child_is_hardened child
         then put 1 33 (prv_to_bytes C (xprv_key x)) (zeros 37)
         else put 0 33 parent_public_bytes (zeros 37)) (fun data =>
  obind (put 33 37 child_bytes data) (fun data =>
  omap (fun '(key, ir) =>
          mkXPrv (child_meta (xprv_meta x) parent_public_bytes child ir) key)
       (slip10_loop fuel (m_chain (xprv_meta x)) (prv_add_tweak C (xprv_key x)) child_bytes data))).
(** slip10.rs 201-207 *)
Definition slip10_prv_path (fuel : nat) {C : TweakCurve} (x : XPrv C) (path : list N)
    : option (res Error (XPrv C)) := path_loop (slip10_prv_child fuel) x path.

(** slip10.rs 215-261 *)
Definition slip10_pub_child (fuel : nat) {C : TweakCurve} (x : XPub C) (child : N)
    : option (res Error (XPub C)) :=
  if child_is_hardened child then Some (Err (hardened_public_error child))
  else
    let parent_public_bytes := pub_to_bytes C (xpub_key x) in
    let child_bytes := child_to_bytes child in
    obind (put 0 33 parent_public_bytes (zeros 37)) (fun data =>
    obind (put 33 37 child_bytes data) (fun data =>
    omap (fun '(key, ir) =>
            mkXPub (child_meta (xpub_meta x) parent_public_bytes child ir) key)
         (slip10_loop fuel (m_chain (xpub_meta x)) (pub_add_tweak C (xpub_key x)) child_bytes data))).
(** slip10.rs 263-269 *)
Definition slip10_pub_path (fuel : nat) {C : TweakCurve} (x : XPub C) (path : list N)
    : option (res Error (XPub C)) := path_loop (slip10_pub_child fuel) x path.
