(* What C107 talks about, said of runs of PanicModel. *)
From Verif Require Export PanicModel.

Inductive preach (f : conf) (k : kind) : pst -> Prop :=
| preach_init : preach f k (pinit f k)
| preach_step s i s' : preach f k s -> pstep f i s = Some s' -> preach f k s'.

(* nothing can happen any more *)
Definition complete (f : conf) (s : pst) : Prop := forall i, pstep f i s = None.

(* the call was made by goroutine i / by some goroutine, and whether it panicked *)
Definition called (s : pst) (i : nat) (a : act) (p : bool) : Prop := In (i, a, p) (p_tr s).
Definition made (s : pst) (a : act) : Prop := exists i p, In (i, a, p) (p_tr s).

(* goroutine i reads from connection n *)
Definition reads (s : pst) (i n : nat) (c : client) : Prop :=
  exists g, nth_error (p_gs s) i = Some g /\ (g_kind g = GRead n c \/ g_kind g = GReadRaw n c).

(* goroutine i has come to its end *)
Definition over (s : pst) (i : nat) : Prop := exists g, nth_error (p_gs s) i = Some g /\ g_over g = true.

Definition listening (k : kind) : Prop := (exists cs, k = GTcp cs) \/ (exists cs, k = GRaw cs) \/ (exists cs, k = GUdp cs).
