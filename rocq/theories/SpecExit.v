(* What leaving the process is to look like. *)
From Verif Require Export ExitModel.

Definition names (hs : list hook) : list nat := map h_name hs.
Definition no_panic (hs : list hook) : Prop := forall h, In h hs -> h_panics h = false.
(* no SIGKILL *)
Definition catchable (l : list pop) : Prop := ~ In (PSignal SigKill) l.
(* l2 begins with l1 *)
Definition begins {A} (l1 l2 : list A) : Prop := exists r, l2 = l1 ++ r.
