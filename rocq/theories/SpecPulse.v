(* The heartbeat example, in terms of the steps alone. *)
From Verif Require Export PulseModel SpecWatch SpecEnd.

(* the time after the steps (newest first), when a heartbeat last reached the channel and when the
   client last wrote one (0 if never) *)
Fixpoint clock (tr : list plab) : Z :=
  match tr with [] => 0 | HTick d :: p => clock p + d | _ :: p => clock p end.
Fixpoint arrived (tr : list plab) : Z :=
  match tr with [] => 0 | HArrive _ :: p => clock p | _ :: p => arrived p end.
Fixpoint written (tr : list plab) : Z :=
  match tr with [] => 0 | HWrite :: p => clock p | _ :: p => written p end.
