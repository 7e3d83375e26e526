(* Model of BeforeExit (tcpx.go:1118-1135) and of Defer and CloseChanel (utils.go:54-77).  No proofs
   in this file.  What os/signal does is taken from its documentation: after Notify the signals
   named are sent to the channel without blocking, so on an unbuffered channel one that finds nobody
   receiving is dropped, and they no longer end the process; nothing calls signal.Stop.  SIGKILL
   cannot be caught.  A hook returns, panics, or never returns (its goroutine takes no more steps);
   panic(nil) is left out here. *)
From Verif Require Export CtxModel.

Inductive signal_ := SigInt | SigTerm | SigQuit | SigKill.
(* a function given to BeforeExit *)
Record hook := Hook { h_name : nat; h_panics : bool }.

(* where the goroutine of one BeforeExit call stands: not begun; between Notify and the receive;
   receiving; calling the hooks; gone (after a recovered panic) *)
Inductive phase := BNew | BNotified | BWaiting | BRunning (left : list hook) | BGone.
Record waiter := Waiter { b_hooks : list hook; b_phase : phase }.
(* how the process ended *)
Inductive ending_ := ByExit | BySignal.
Record proc := Proc { pr_waiters : list waiter; pr_ran : list nat; pr_end : option ending_ }.

Inductive pop :=
| PCall (hs : list hook)      (* BeforeExit(hs...) *)
| PStep (i : nat)             (* the goroutine of call i takes a step *)
| PSignal (sg : signal_).     (* the process receives a signal *)

(* has Notify been called by this goroutine *)
Definition notified (w : waiter) : bool := match b_phase w with BNew => false | _ => true end.
(* one receives the signal if it is waiting *)
Definition wake (w : waiter) : waiter := match b_phase w with BWaiting => Waiter (b_hooks w) (BRunning (b_hooks w)) | _ => w end.

Definition pstep (p : proc) (o : pop) : option proc :=
  match pr_end p with
  | Some _ => None
  | None =>
      match o with
      | PCall hs => Some (Proc (pr_waiters p ++ [Waiter hs BNew]) (pr_ran p) None)
      | PSignal SigKill => Some (Proc (pr_waiters p) (pr_ran p) (Some BySignal))
      | PSignal _ =>
          if existsb notified (pr_waiters p)
          then Some (Proc (map wake (pr_waiters p)) (pr_ran p) None)
          else Some (Proc (pr_waiters p) (pr_ran p) (Some BySignal))             (* the default action *)
      | PStep i =>
          match nth_error (pr_waiters p) i with
          | Some (Waiter hs ph) =>
              let to ph' ran := Some (Proc (upd (pr_waiters p) i (Waiter hs ph')) ran None) in
              match ph with
              | BNew => to BNotified (pr_ran p)                                   (* 1126-1127 *)
              | BNotified => to BWaiting (pr_ran p)                               (* 1128 *)
              | BRunning (h :: l) =>
                  to (if h_panics h then BGone else BRunning l) (pr_ran p ++ [h_name h])   (* 1130-1132, 1121-1125 *)
              | BRunning [] => Some (Proc (pr_waiters p) (pr_ran p) (Some ByExit))         (* 1133 *)
              | BWaiting | BGone => None
              end
          | None => None
          end
      end
  end.

Definition proc0 : proc := Proc [] [] None.
(* oldest first *)
Fixpoint prun (p : proc) (l : list pop) : option proc :=
  match l with [] => Some p | o :: r => match pstep p o with Some p' => prun p' r | None => None end end.

(* A function call: it returns, or panics with a value; None is panic(nil), for which recover()
   returns nil although the panic stops (Go before 1.21; go.mod says 1.12). *)
Inductive outcome (V : Type) := Returns | Panics (v : option V).
Arguments Returns {V}. Arguments Panics {V} v.

Section Defer.
  Context {V : Type}.
  (* utils.go:54-67: the handlers called with the value, in order (by number), and how Defer ends.  A handler that
     panics leaves the deferred function; the panic then goes on to the caller. *)
  Fixpoint call_handlers (hs : list (V -> outcome V)) (v : V) (i : nat) : list (nat * V) * outcome V :=
    match hs with
    | [] => ([], Returns)
    | h :: r => match h v with
                | Returns => let (l, o) := call_handlers r v (S i) in ((i, v) :: l, o)
                | Panics e => ([(i, v)], Panics e)
                end
    end.
  Definition Defer (f : outcome V) (hs : list (V -> outcome V)) : list (nat * V) * outcome V :=
    match f with
    | Panics (Some v) => call_handlers hs v 0
    | _ => ([], Returns)
    end.
  (* utils.go:70-77 *)
  Definition CloseChanel (f : outcome V) : outcome V := Returns.
End Defer.
