(* The order of answers, said on what is written to the connections only. *)
From Verif Require Export SpecOrder AnsModel.

(* what is written to connection k; to its message n; to its messages a .. a+m-1 *)
Definition block {B} (x : sent B) : B := match x with (_, _, b) => b end.
Definition on_conn {B} (k : nat) (x : sent B) : bool := match x with (k', _, _) => Nat.eqb k' k end.
Definition to_conn {B} (k : nat) (out : list (sent B)) : list B := map block (filter (on_conn k) out).
Definition to_msg {B} (k n : nat) (out : list (sent B)) : list B := map block (filter (of_msg k n) out).
Definition in_range {B} (k a m : nat) (x : sent B) : bool := match x with (k', i, _) => Nat.eqb k' k && Nat.leb a i && Nat.ltb i (a + m) end.
Definition to_range {B} (k a m : nat) (out : list (sent B)) : list B := map block (filter (in_range k a m) out).

(* l is as far as it goes l' *)
Definition begins_with {B} (l' l : list B) : Prop := exists rest, l' = l ++ rest.

(* the peer waits for its answers: a message of connection k is read only when those to all earlier ones
   have been written *)
Definition hears {B} (ans : nat -> nat -> list B) (k : nat) (y : asys B) (x : aact) : Prop :=
  x = ADo (AReader k) -> match nth_error (y_conns (a_sys y)) k with
                         | Some c => forall i, (i < k_read c)%nat -> to_msg k i (a_out y) = ans k i
                         | None => True end.
Inductive polite {B} (ans : nat -> nat -> list B) (k : nat) : asys B -> list aact -> asys B -> Prop :=
| polite_nil y : polite ans k y [] y
| polite_step y x y' l y'' : hears ans k y x -> astep ans y x = Some y' -> polite ans k y' l y'' -> polite ans k y (x :: l) y''.

(* nobody can take a step *)
Definition a_quiet {B} (ans : nat -> nat -> list B) (y : asys B) : Prop := forall x, astep ans y x = None.
