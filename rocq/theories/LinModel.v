(* Model of the calls on the client pool as several goroutines make them at the same time, one access
   to shared memory per step: context.go:131-141 Online, 163-173 Offline, 276-303 CloseConn,
   client-pool.go:23-49.  No proofs in this file.
   The memory is PoolModel's; the values of a call are those PoolModel computes in one step.  A
   critical section of the pool's lock holds one access to the map, so it is one step here (C80: no
   two of them overlap, and a goroutine never waits for ever outside Stop(true), C43, which is not in
   this model).  Connections are accepted and pools made before. *)
From Verif Require Export PoolModel.

Inductive qcall :=
| QOnline (c : nat) (u : string)
| QOffline (c : nat)
| QClose (c : nat)
| QGet (q : nat) (u : string).        (* GetClientPool of pool q, client-pool.go:29-33 *)
(* what a call gives back: an error or none, or the context found *)
Inductive qres := RRet (r : pret) | RCtx (d : option nat).

(* where a goroutine is inside a call; [closing]: inside the Offline of a CloseConn *)
Inductive qpc :=
| AtName (c : nat) (u : string)                              (* context.go:135 SetUsername *)
| AtSet (c : nat) (u : string) (q : nat)                     (* client-pool.go:26 *)
| AtSock (c : nat)                                           (* context.go:295, 298 *)
| AtEnd (c : nat)                                            (* context.go:279-283 *)
| AtRead (c : nat) (closing : bool)                          (* context.go:167 Username *)
| AtLook (c : nat) (closing : bool) (q : nat) (u : string)   (* client-pool.go:45 *)
| AtDel (c : nat) (closing : bool) (q : nat) (u : string)    (* client-pool.go:38 *)
| AtState (c : nat)                                          (* context.go:288-290 *)
| AtGet (q : nat) (u : string)                               (* client-pool.go:32 *)
| AtRet (r : qres).

(* what is checked before the first access; a connection that does not exist is no receiver of calls *)
Definition qbegin (w : pworld) (k : qcall) : qpc :=
  match k with
  | QGet q u => AtGet q u
  | QOnline c u =>
      if String.eqb u EmptyString then AtRet (RRet PErr) else
      match nth_error (pw_conns w) c with Some _ => AtName c u | None => AtRet (RRet PErr) end
  | QOffline c => match nth_error (pw_conns w) c with Some _ => AtRead c false | None => AtRet (RRet PErr) end
  | QClose c => match nth_error (pw_conns w) c with Some _ => AtSock c | None => AtRet (RRet PErr) end
  end.

(* Offline is through: CloseConn (286-290) goes on whatever Offline returned *)
Definition after_offline (c : nat) (closing : bool) (r : pret) : qpc := if closing then AtState c else AtRet (RRet r).

Definition with_sock (k : pconn) : pconn := PConn (pc_ref k) (pc_user k) (pc_online k) (pc_end k) true.
Definition with_end (k : pconn) : pconn := PConn (pc_ref k) (pc_user k) (pc_online k) true (pc_sock k).
Definition with_off (k : pconn) : pconn := PConn (pc_ref k) (pc_user k) false (pc_end k) (pc_sock k).

(* the next access; None: there is none *)
Definition qnext (w : pworld) (p : qpc) : option (qpc * pworld) :=
  let on c (f : pconn -> qpc * pworld) := match nth_error (pw_conns w) c with Some k => Some (f k) | None => None end in
  match p with
  | AtName c u => on c (fun k =>
      (match pc_ref k with Some q => AtSet c u q | None => AtRet (RRet PErr) end, set_conn w c (store_name k (VStr u))))
  | AtSet c u q => Some (AtRet (RRet POk), SetClientPool w q u c)
  | AtSock c => on c (fun k => (AtEnd c, set_conn w c (with_sock k)))
  | AtEnd c => on c (fun k => (match pc_ref k with Some _ => AtRead c true | None => AtState c end, set_conn w c (with_end k)))
  | AtRead c closing => on c (fun k =>
      (match pc_ref k with
       | None => after_offline c closing PErr
       | Some q => match pc_user k with
                   | None => after_offline c closing PErr
                   | Some (VStr u) => AtLook c closing q u
                   | Some _ => AtRet (RRet PPanic)
                   end
       end, w))
  | AtLook c closing q u =>
      Some (match GetClientPool w q u with Some _ => AtDel c closing q u | None => after_offline c closing POk end, w)
  | AtDel c closing q u => Some (after_offline c closing POk, DeleteFromClientPool w q u)
  | AtState c => on c (fun k => (AtRet (RRet POk), set_conn w c (with_off k)))
  | AtGet q u => Some (AtRet (RCtx (GetClientPool w q u)), w)
  | AtRet _ => None
  end.

(* what can be seen: goroutine t makes a call, and gets it back *)
Inductive qev := EInv (t : nat) (k : qcall) | ERes (t : nat) (k : qcall) (r : qres).
(* a goroutine: the call it is in, and the calls it has still to make *)
Record qthread := QT { qt_in : option (qcall * qpc); qt_todo : list qcall }.
Record qstate := QS { qs_world : pworld; qs_threads : list qthread; qs_log : list qev }.   (* newest event first *)
Definition qstart (w : pworld) (calls : list (list qcall)) : qstate := QS w (map (QT None) calls) [].

(* one step of goroutine t *)
Inductive qstep (t : nat) : qstate -> qstate -> Prop :=
| q_call w ts lg k cs : nth_error ts t = Some (QT None (k :: cs)) ->
    qstep t (QS w ts lg) (QS w (upd ts t (QT (Some (k, qbegin w k)) cs)) (EInv t k :: lg))
| q_go w ts lg k p cs p' w' : nth_error ts t = Some (QT (Some (k, p)) cs) -> qnext w p = Some (p', w') ->
    qstep t (QS w ts lg) (QS w' (upd ts t (QT (Some (k, p')) cs)) lg)
| q_return w ts lg k r cs : nth_error ts t = Some (QT (Some (k, AtRet r)) cs) ->
    qstep t (QS w ts lg) (QS w (upd ts t (QT None cs)) (ERes t k r :: lg)).
Inductive qsteps : qstate -> qstate -> Prop :=
| qs_refl s : qsteps s s
| qs_more s s' s'' t : qsteps s s' -> qstep t s' s'' -> qsteps s s''.
