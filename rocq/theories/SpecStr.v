(* Independent vocabulary for the string properties: patterns and addresses described
   by how a string can be cut into pieces. *)
From Verif Require Export Base.

Definition pct : ascii := "%"%char.
Definition starts (c : ascii) (v : bytes) : Prop := exists t, v = c :: t.
Definition finishes (c : ascii) (v : bytes) : Prop := exists t, v = t ++ [c].

(* The documented meaning of an entry of In's second argument. *)
Inductive pattern_matches (s : bytes) : bytes -> Prop :=
| pm_plain : ~ In pct s -> pattern_matches s s
| pm_prefix p t : ~ starts pct (p ++ [pct]) -> s = p ++ t -> pattern_matches s (p ++ [pct])
| pm_suffix p t : ~ finishes pct (pct :: p) -> s = t ++ p -> pattern_matches s (pct :: p)
| pm_infix p a b : s = a ++ p ++ b -> pattern_matches s (pct :: p ++ [pct]).

(* number of occurrences of a byte *)
Definition occurs (c : ascii) (s : bytes) : nat := count_occ ascii_dec s c.
