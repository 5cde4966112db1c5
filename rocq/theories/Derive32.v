(** Model of the derived comparison and [Default] impls and of the conversions of the path and
    version types of bip0032.  [ChildNumber] and [DerivationPath] are [N] and [list N] in
    [Path32], so [From<Vec<ChildNumber>>], [FromIterator], [AsRef], [children] and the two
    [IntoIterator] impls (path/mod.rs 25-48, 56-72) are the identity there. *)
From Verif Require Import Base Str Error32 Version32 Path32.

(** path/child.rs 6 and 78, derived [PartialEq] *)
Definition child_eqb (a b : N) : bool := a =? b.
Definition hchild_eqb (a b : HardenedChildNumber) : bool := child_eqb (hc_child a) (hc_child b).
(** path/mod.rs 20 and 134, derived [PartialEq]: slices are equal if their lengths and
    their elements are *)
Fixpoint slice_eqb (a b : list N) : bool :=
  match a, b with
  | [], [] => true
  | x :: a', y :: b' => child_eqb x y && slice_eqb a' b'
  | _, _ => false
  end.
Definition path_eqb (a b : list N) : bool := (length a =? length b)%nat && slice_eqb a b.
Definition hpath_eqb (a b : HardenedDerivationPath) : bool := path_eqb (hp_inner a) (hp_inner b).
(** path/mod.rs 20 and 134, derived [Default] *)
Definition path_default : list N := [].
Definition hpath_default : HardenedDerivationPath := mkHP path_default.
(** path/child.rs 65-75 *)
Definition child_of_hchild (h : HardenedChildNumber) : N := hc_child h.
Definition u32_of_child (c : N) : N := c.
(** path/mod.rs 127-131 *)
Definition path_of_hpath (h : HardenedDerivationPath) : list N := hp_inner h.

(** xkey/payload/version.rs 164 and error.rs 18, derived [PartialEq]: by the position of the
    variant *)
Definition known_rank (k : KnownVersion) : N :=
  match k with
  | Xpub => 0 | Xprv => 1 | Tpub => 2 | Tprv => 3
  | Ypub => 4 | Yprv => 5 | YpubShWsh => 6 | YprvShWsh => 7
  | Upub => 8 | Uprv => 9 | UpubShWsh => 10 | UprvShWsh => 11
  | Zpub => 12 | Zprv => 13 | ZpubWsh => 14 | ZprvWsh => 15
  | Vpub => 16 | Vprv => 17 | VpubWsh => 18 | VprvWsh => 19
  end.
Definition known_eqb (a b : KnownVersion) : bool := known_rank a =? known_rank b.
Definition kind_rank (k : ErrorKind) : N :=
  match k with
  | InvalidPath => 0 | InvalidPayload => 1 | InvalidVersion => 2 | InvalidKeyData => 3
  | InvalidDerivation => 4
  end.
Definition kind_eq (a b : ErrorKind) : bool := kind_rank a =? kind_rank b.
