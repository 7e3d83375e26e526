(* Model of overlapping Stop, Start and Restart calls: tcpx.go:1140-1227 with the lock released
   between the steps.  The steps are those LifeModel.v takes together.  No proofs in this file.
   beforeStart functions of Restart are left out. *)
From Verif Require Export LifeModel.

(* where a call stands; [again]: it is Restart's Stop *)
Inductive cpc :=
| CTest (all again : bool)        (* 1142: the test of State() *)
| CState (all again : bool)       (* 1146: stopState *)
| CListeners (all again : bool)   (* 1149-1162 *)
| CSignal (again : bool)          (* 1165-1167, 1169-1188 *)
| CStartTest                      (* 1192 *)
| CRet (r : lret).
(* [cw_launched]: how often Start's loop over the records ran *)
Record callworld := CW { cw_life : life; cw_calls : list cpc; cw_launched : nat }.

Inductive callop :=
| CStop (all : bool) | CStart | CRestart (all : bool)    (* a goroutine makes the call *)
| CGo (i : nat)                                          (* call i takes its next step *)
| COpen.                                                 (* a server that was started sets the state, 499, 634, 671 *)

Definition after_stop (again : bool) : cpc := if again then CStartTest else CRet ROk.
Definition callstep (w : callworld) (o : callop) : option callworld :=
  let s := cw_life w in
  match o with
  | CStop all => Some (CW s (cw_calls w ++ [CTest all false]) (cw_launched w))
  | CRestart all => Some (CW s (cw_calls w ++ [CTest all true]) (cw_launched w))
  | CStart => Some (CW s (cw_calls w ++ [CStartTest]) (cw_launched w))
  | COpen => Some (CW (set_running s true) (cw_calls w) (cw_launched w))
  | CGo i =>
      let to s' p n := Some (CW s' (upd (cw_calls w) i p) n) in
      match nth_error (cw_calls w) i with
      | Some (CTest all again) => to s (if lf_running s then CState all again else CRet RErr) (cw_launched w)
      | Some (CState all again) => to (set_running s false) (CListeners all again) (cw_launched w)
      | Some (CListeners all again) =>
          to (set_listeners s (close_listeners (lf_props s) (lf_listeners s))) (if all then CSignal again else after_stop again) (cw_launched w)
      | Some (CSignal again) =>
          match closeAllConnection s with
          | (ROk, s') => to s' (after_stop again) (cw_launched w)
          | (r, s') => to s' (CRet r) (cw_launched w)
          end
      | Some CStartTest => if lf_running s then to s (CRet RErr) (cw_launched w) else to s (CRet ROk) (S (cw_launched w))
      | _ => None
      end
  end.
Fixpoint callrun (w : callworld) (l : list callop) : option callworld :=
  match l with [] => Some w | o :: r => match callstep w o with Some w' => callrun w' r | None => None end end.
