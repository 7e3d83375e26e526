(* What a call to send to a name may answer. *)
From Verif Require Export SendModel SpecLin.

(* the connection a message to name u in pool q goes to when nothing changes during the call *)
Definition target (w : pworld) (q : nat) (u : string) : option nat :=
  match GetClientPool w q u with
  | Some d => match nth_error (pw_conns w) d with Some kd => if pc_online kd then Some d else None | None => None end
  | None => None
  end.
(* d is given no name but u *)
Definition only_name (calls : list (list qcall)) (d : nat) (u : string) : Prop :=
  forall t v, In (QOnline d v) (nth t calls []) -> v = u.
(* the states of an execution from s1 to s2, newest first *)
Inductive path (s1 : qstate) : list qstate -> qstate -> Prop :=
| path_here : path s1 [s1] s1
| path_more l s s' t : path s1 l s -> qstep t s s' -> path s1 (s' :: l) s'.
