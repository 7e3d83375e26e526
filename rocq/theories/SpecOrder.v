(* When messages are handled, said on the log of beginnings and ends only. *)
From Coq Require Export Permutation.
From Verif Require Export SpecServer OrderModel.

(* messages a, a+1, ..., a+n-1 of connection k one after another *)
Definition turns (k a n : nat) : list lev := flat_map (fun i => [LBegin k i; LEnd k i]) (seq a n).
(* as far as it goes, one after another from a on *)
Definition one_by_one (k a : nat) (l : list lev) : Prop := exists n, l = turns k a n \/ l = turns k a n ++ [LBegin k (a + n)].

Definition of_conn (k : nat) (e : lev) : bool := match e with LBegin k' _ | LEnd k' _ => Nat.eqb k' k end.
(* messages a .. a+n-1 of connection k *)
Definition of_range (k a n : nat) (e : lev) : bool :=
  match e with LBegin k' i | LEnd k' i => Nat.eqb k' k && Nat.leb a i && Nat.ltb i (a + n) end.

(* how many messages a connection's events stand for *)
Definition messages (l : list sev) : nat := fold_right (fun e n => (count e + n)%nat) 0%nat l.

(* the peer waits: a message of connection k is read only when all earlier ones have been handled *)
Definition waits (k : nat) (s : sys) (a : actor) : Prop :=
  a = AReader k -> match nth_error (y_conns s) k with
                   | Some c => forall i, (i < k_read c)%nat -> In (LEnd k i) (y_log s)
                   | None => True end.
Inductive lockstep (k : nat) : sys -> list actor -> sys -> Prop :=
| lock_nil s : lockstep k s [] s
| lock_step s a s' l s'' : waits k s a -> ostep s a = Some s' -> lockstep k s' l s'' -> lockstep k s (a :: l) s''.

(* nobody can take a step *)
Definition all_quiet (s : sys) : Prop := forall a, ostep s a = None.
