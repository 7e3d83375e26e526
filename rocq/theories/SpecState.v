(* Data races on a connection's online state. *)
From Verif Require Export StateModel.

Definition state_write (i : sinstr) : Prop := match i with SSet => True | _ => False end.
Definition state_access (i : sinstr) : Prop := match i with SSet | SGet => True | _ => False end.
(* two goroutines are about to access the state, one of them to write it *)
Definition state_race (s : sstate) : Prop :=
  exists t1 t2 i1 i2 r1 r2, t1 <> t2 /\
    nth_error (ss_threads s) t1 = Some (i1 :: r1) /\ nth_error (ss_threads s) t2 = Some (i2 :: r2) /\
    state_write i1 /\ state_access i2.

(* every goroutine has finished its calls *)
Definition all_done (s : sstate) : Prop := forall p, In p (ss_threads s) -> p = [].
(* what a read must return: whether some set came before it (newest first) *)
Definition set_before (l : list sevent) : bool := existsb (fun e => match e with EvSet _ => true | _ => false end) l.

(* the accesses a call owes: true = it sets the state, false = it reads it *)
Definition owed (c : scall) : list bool :=
  match c with CClose => [true] | CIsOffline | CIsOnline => [false] | CPoolRef => [] end.
(* the accesses goroutine t has made, oldest first (the log is newest first) *)
Definition did (t : nat) (l : list sevent) : list bool :=
  flat_map (fun e => match e with EvSet u => if Nat.eqb t u then [true] else [] | EvGet u _ => if Nat.eqb t u then [false] else [] end) (rev l).
