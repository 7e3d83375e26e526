(* Data races: two goroutines are about to access the same variable, and one of them to write. *)
From Verif Require Export AccessModel.

Section Race.
  Context {X : Type}.
  Definition next_write (x : X) (p : acts X) : Prop := exists k, p = PWr x k.
  Definition next_access (x : X) (p : acts X) : Prop := exists k, p = PWr x k \/ p = PRd x k.
  Definition race (x : X) (m : mach X) : Prop :=
    exists t1 t2 p1 p2, t1 <> t2 /\ nth_error (mc_threads m) t1 = Some p1 /\ nth_error (mc_threads m) t2 = Some p2 /\
      next_write x p1 /\ next_access x p2.
  (* no race is ever reached *)
  Definition race_free (x : X) (ts : list (acts X)) : Prop := forall m, asteps (launch ts) m -> ~ race x m.
End Race.
