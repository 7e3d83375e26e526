(* What the graceful-exit example is to do. *)
From Verif Require Export GexModel.

(* the lines of both jobs *)
Definition both : list string := ["clear online cache"; "job2 done"]%string.
(* the process is over *)
Definition over (g : gex) : Prop := gx_main g = GReturned \/ pr_end (gx_proc g) <> None.
