(* Model of the graceful-exit example: examples/modules/graceful/graceful-exit/main.go:9-20, on
   ExitModel (BeforeExit, signals) and ListenModel (ListenAndServe).  No proofs in this file. *)
From Verif Require Export ExitModel ListenModel.

(* main.go:11-18: the two functions, by number, and the line each prints *)
Definition jobs : list hook := [Hook 1 false; Hook 2 false].
Definition line_of (n : nat) : string := match n with 1%nat => "clear online cache" | 2%nat => "job2 done" | _ => "" end.

(* where main is: before BeforeExit, before ListenAndServe, in it, returned (which ends the process) *)
Inductive gmain := GBegin | GPrepared | GListens | GReturned.
Record gex := Gex { gx_main : gmain; gx_proc : proc }.
Definition gex0 : gex := Gex GBegin proc0.

Inductive gop :=
| GMain (ok : bool)        (* the next step of main; [ok]: net.Listen succeeds, when it is called *)
| GLeft (y : why_left)     (* the accept loop is left (tcpx.go:517-524); here it can be for a failed Accept only *)
| GBack                    (* the goroutine of BeforeExit takes a step *)
| GSig (sg : signal_).     (* a signal arrives *)

(* ListenAndServe's result is dropped (main.go:19): main returns, with an error or without *)
Definition main_after (l : las) : gmain := match l with NeverReturns => GListens | _ => GReturned end.
(* NewTcpX(nil): no calls of the registration API *)
Definition listens (ok : bool) (left : option why_left) : las := fst (ListenAndServe (build []) None (str_bytes "tcp") ok left).

Definition with_proc (g : gex) (p : option proc) : option gex := match p with Some p' => Some (Gex (gx_main g) p') | None => None end.
Definition gxstep (g : gex) (o : gop) : option gex :=
  match gx_main g, pr_end (gx_proc g) with
  | GReturned, _ | _, Some _ => None
  | m, None =>
      match o with
      | GMain ok =>
          match m with
          | GBegin => match pstep (gx_proc g) (PCall jobs) with Some p => Some (Gex GPrepared p) | None => None end
          | GPrepared => Some (Gex (main_after (listens ok None)) (gx_proc g))
          | _ => None
          end
      | GLeft y => match m with GListens => Some (Gex (main_after (listens true (Some y))) (gx_proc g)) | _ => None end
      | GBack => with_proc g (pstep (gx_proc g) (PStep 0))
      | GSig sg => with_proc g (pstep (gx_proc g) (PSignal sg))
      end
  end.
(* oldest first *)
Fixpoint gxrun (g : gex) (l : list gop) : option gex :=
  match l with [] => Some g | o :: r => match gxstep g o with Some g' => gxrun g' r | None => None end end.
(* what the jobs have printed *)
Definition said (g : gex) : list string := map line_of (pr_ran (gx_proc g)).
