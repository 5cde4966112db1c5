(** What a derivation path looks like, written without reference to the parser. *)
From Verif Require Import Base Str.

(** A decimal digit character and the number a digit string denotes. *)
Definition is_digit (c : N) : Prop := 48 <= c <= 57.
Definition digits_value (ds : str) : N := fold_left (fun a d => 10 * a + (d - 48)) ds 0.

(** [s] spells the child number with index [i] and hardened flag [h]: an optional
    plus sign, one or more digits denoting [i] below 2^31, and one of the suffixes
    ' h H exactly when [h]. *)
Definition spells (s : str) (i : N) (h : bool) : Prop :=
  exists plus ds suffix,
    s = plus ++ ds ++ suffix /\
    (plus = [] \/ plus = lit "+") /\
    ds <> [] /\ Forall is_digit ds /\ digits_value ds = i /\ i < 2 ^ 31 /\
    (if h then suffix = lit "'" \/ suffix = lit "h" \/ suffix = lit "H" else suffix = []).

(** The same, as the 32-bit child number. *)
Definition spells_child (s : str) (c : N) : Prop :=
  exists i h, spells s i h /\ c = i + (if h then 2 ^ 31 else 0).

(** [s] is a path with child numbers [cs]. *)
Definition spells_path (s : str) (cs : list N) : Prop :=
  ((s = lit "m" \/ s = lit "M") /\ cs = []) \/
  exists prefix comps,
    (prefix = [] \/ prefix = lit "m/" \/ prefix = lit "M/") /\
    comps <> [] /\ s = prefix ++ join (lit "/") comps /\
    Forall2 spells_child comps cs.
