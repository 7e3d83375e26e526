(* Model of the client pool (client-pool.go) and of the context calls that use it.  No proofs in
   this file.
   A connection stands for all contexts of one TCP connection: they share poolRef, recvEnd,
   userState (pointers copied by copyContext, context.go:79-104) and the username stored in
   PerConnectionContext.  A datagram's context is a connection of its own here (NewUDPContext
   makes its own userState, recvEnd and store); its socket is shared, see LifeModel.v.  ShareModel.v has the
   contexts one by one; C129_one_record shows that this comes to the same.
   Each call is one step of a history; a history is any interleaving of calls. *)
From Verif Require Export CtxModel.

Record pconn := PConn {
  pc_ref : option nat;      (* ctx.poolRef, context.go:50; None = nil *)
  pc_user : option cval;    (* the value under "tcpx-username" *)
  pc_online : bool;         (* *userState == CONTEXT_ONLINE, context.go:61 *)
  pc_end : bool;            (* recvEnd closed, context.go:54 *)
  pc_sock : bool            (* Conn closed *)
}.

(* client-pool.go:9-12: a pool maps names to contexts; here to connections *)
Definition cpool := list (string * nat).

Record pworld := PW {
  pw_conns : list pconn;
  pw_pools : list cpool;
  pw_cur : option nat      (* tcpx.pool when tcpx.builtInPool, tcpx.go:70-71 *)
}.
Definition pworld0 : pworld := PW [] [] None.

Definition pool_at (w : pworld) (p : nat) : cpool := nth p (pw_pools w) [].
Definition set_conn (w : pworld) (c : nat) (k : pconn) : pworld := PW (upd (pw_conns w) c k) (pw_pools w) (pw_cur w).
Definition set_pool (w : pworld) (p : nat) (m : cpool) : pworld := PW (pw_conns w) (upd (pw_pools w) p m) (pw_cur w).

(* client-pool.go:23-27, 29-33, 35-39 *)
Definition SetClientPool (w : pworld) (p : nat) (u : string) (c : nat) : pworld := set_pool w p (aset u c (pool_at w p)).
Definition GetClientPool (w : pworld) (p : nat) (u : string) : option nat := aget u (pool_at w p).
Definition DeleteFromClientPool (w : pworld) (p : nat) (u : string) : pworld := set_pool w p (adel u (pool_at w p)).
(* client-pool.go:44-49 *)
Definition PoolOffline (w : pworld) (p : nat) (u : string) : pworld :=
  match GetClientPool w p u with
  | Some _ => DeleteFromClientPool w p u
  | None => w
  end.

(* what a call returns *)
Inductive pret := POk | PErr | PPanic.

(* context.go:390-392 SetUsername, and any other store under that key *)
Definition store_name (k : pconn) (v : cval) : pconn := PConn (pc_ref k) (Some v) (pc_online k) (pc_end k) (pc_sock k).

(* context.go:131-141 Online *)
Definition Online (w : pworld) (c : nat) (k : pconn) (u : string) : pret * pworld :=
  if String.eqb u EmptyString then (PErr, w) else
  let w1 := set_conn w c (store_name k (VStr u)) in
  match pc_ref k with
  | None => (PErr, w1)
  | Some p => (POk, SetClientPool w1 p u c)
  end.

(* context.go:163-173 Offline; Username (370-376) asserts the stored value to string *)
Definition Offline (w : pworld) (k : pconn) : pret * pworld :=
  match pc_ref k with
  | None => (PErr, w)
  | Some p =>
      match pc_user k with
      | None => (PErr, w)
      | Some (VStr u) => (POk, PoolOffline w p u)
      | Some _ => (PPanic, w)
      end
  end.

(* context.go:276-303 CloseConn: the socket is closed, then the deferred function closes recvEnd
   (closing twice is recovered by CloseChanel, utils.go:70-77), calls Offline when poolRef is set,
   and last sets userState.  The error of Conn.Close is not modelled. *)
Definition CloseConn (w : pworld) (c : nat) (k : pconn) : pret * pworld :=
  let k1 := PConn (pc_ref k) (pc_user k) (pc_online k) true true in
  let w1 := set_conn w c k1 in
  match (match pc_ref k with None => (POk, w1) | Some _ => Offline w1 k1 end) with
  | (PPanic, w2) => (PPanic, w2)
  | (_, w2) => (POk, set_conn w2 c (PConn (pc_ref k) (pc_user k) false true true))
  end.

(* context.go:645-660 SendToUsername: result, connections written to (by Reply, one Write) *)
Definition SendToUsername (w : pworld) (k : pconn) (u : string) : pret * list nat :=
  match pc_ref k with
  | None => (PErr, [])
  | Some p =>
      match GetClientPool w p u with
      | None => (PErr, [])
      | Some d =>
          match nth_error (pw_conns w) d with
          | None => (PErr, [])                   (* cannot happen: pools hold existing contexts *)
          | Some kd => if pc_online kd then (POk, [d]) else (PErr, [])
          end
      end
  end.

(* context.go:590-605 IsOffline / IsOnline *)
Definition IsOffline (k : pconn) : bool := negb (pc_online k).

(* calls of a history.  [PWithPool yes] = tcpx.go:119-123; [PNewPool] = the replacement of the pool
   by Stop(true), tcpx.go:1185; [PAccept] = a new connection, tcpx.go:531-535. *)
Inductive pop :=
| PWithPool (yes : bool)
| PNewPool
| PAccept
| POnline (c : nat) (u : string)
| POffline (c : nat)
| PClose (c : nat)
| PStoreName (c : nat) (v : cval).

Definition pon (c : nat) (w : pworld) (f : pconn -> pret * pworld) : pret * pworld :=
  match nth_error (pw_conns w) c with Some k => f k | None => (PErr, w) end.

Definition pstep (o : pop) (w : pworld) : pret * pworld :=
  match o with
  | PWithPool true => (POk, PW (pw_conns w) (pw_pools w ++ [[]]) (Some (List.length (pw_pools w))))
  | PWithPool false => (POk, PW (pw_conns w) (pw_pools w) None)
  | PNewPool =>
      (POk, match pw_cur w with
            | Some _ => PW (pw_conns w) (pw_pools w ++ [[]]) (Some (List.length (pw_pools w)))
            | None => w
            end)
  | PAccept => (POk, PW (pw_conns w ++ [PConn (pw_cur w) None true false false]) (pw_pools w) (pw_cur w))
  | POnline c u => pon c w (fun k => Online w c k u)
  | POffline c => pon c w (fun k => Offline w k)
  | PClose c => pon c w (fun k => CloseConn w c k)
  | PStoreName c v => pon c w (fun k => (POk, set_conn w c (store_name k v)))
  end.

(* newest call first *)
Fixpoint prun (h : list pop) : pworld :=
  match h with [] => pworld0 | o :: p => snd (pstep o (prun p)) end.

(* ------------------------------------------------------------------ *)
(* tcpx.go:1169-1188 closeAllConnection without signals, against the pool's lock.
   Threads run instruction lists; one step is one instruction of one thread.  sync.RWMutex:
   Lock waits until nobody holds it, RLock waits until no writer holds it; nothing is reentrant.
   (A waiting writer also stops new readers in Go; leaving that out only allows more steps.)
   Connections are only those accepted with this pool or without any; usernames are strings. *)
Inductive mutex := MFree | MWrite (t : nat) | MRead (n : nat).

Record lconn := LConn { lc_ref : bool; lc_name : option string; lc_off : bool }.

Inductive instr :=
| ILock | IUnlock | IRLock | IRUnlock
| ISet (u : string) (c : nat)        (* cp.Clients[u] = c *)
| IDel (u : string)                  (* delete(cp.Clients, u) *)
| ILookup (u : string)               (* v := cp.Clients[u], result sent to the caller *)
| IGetDel (u : string)               (* ctx := cp.Clients[u]; after RUnlock, delete u if ctx != nil *)
| IName (c : nat) (u : string)       (* ctx.SetUsername(u) *)
| ISock (c : nat)                    (* ctx.Conn.Close() *)
| IEnd (c : nat)                     (* close(ctx.recvEnd) *)
| IOff (c : nat)                     (* ctx.Offline() *)
| IState (c : nat)                   (* ctx.L.Lock(); *userState = CONTEXT_OFFLINE; ctx.L.Unlock(): one step, for the lock itself see StateModel *)
| IRange.                            (* for k := range oldPool.Clients { CloseConn; delete } *)

(* the methods as instruction lists *)
Definition prog_set u c := [ILock; ISet u c; IUnlock].                            (* client-pool.go:23-27 *)
Definition prog_get u := [IRLock; ILookup u; IRUnlock].                           (* client-pool.go:29-33, 53-59 *)
Definition prog_del u := [ILock; IDel u; IUnlock].                                (* client-pool.go:35-39 *)
Definition prog_online c u := IName c u :: prog_set u c.                          (* context.go:131-141 *)
Definition prog_closeconn c := [ISock c; IEnd c; IOff c; IState c].               (* context.go:276-303 *)
Definition prog_closer := [ILock; IRange; IUnlock].                               (* tcpx.go:1176-1182 *)

Record lstate := LS {
  ls_pool : cpool;
  ls_lock : mutex;
  ls_conns : list lconn;
  ls_threads : list (list instr);
  ls_log : list (nat * nat)          (* (thread, connection) of every Conn.Close, newest first *)
}.

(* the bodies of the range loop, in the order the map is visited *)
Definition range_body (m : cpool) (ks : list string) : list instr :=
  flat_map (fun k => match aget k m with Some c => prog_closeconn c ++ [IDel k] | None => [] end) ks.

Definition set_thread (s : lstate) t p : lstate := LS (ls_pool s) (ls_lock s) (ls_conns s) (upd (ls_threads s) t p) (ls_log s).

(* step of thread t; its program is the first instruction followed by [r] *)
Inductive lact : nat -> lstate -> lstate -> Prop :=
| l_lock s t r : nth_error (ls_threads s) t = Some (ILock :: r) -> ls_lock s = MFree ->
    lact t s (LS (ls_pool s) (MWrite t) (ls_conns s) (upd (ls_threads s) t r) (ls_log s))
| l_unlock s t r : nth_error (ls_threads s) t = Some (IUnlock :: r) -> ls_lock s = MWrite t ->
    lact t s (LS (ls_pool s) MFree (ls_conns s) (upd (ls_threads s) t r) (ls_log s))
| l_rlock_free s t r : nth_error (ls_threads s) t = Some (IRLock :: r) -> ls_lock s = MFree ->
    lact t s (LS (ls_pool s) (MRead 1) (ls_conns s) (upd (ls_threads s) t r) (ls_log s))
| l_rlock s t r n : nth_error (ls_threads s) t = Some (IRLock :: r) -> ls_lock s = MRead n ->
    lact t s (LS (ls_pool s) (MRead (S n)) (ls_conns s) (upd (ls_threads s) t r) (ls_log s))
| l_runlock s t r n : nth_error (ls_threads s) t = Some (IRUnlock :: r) -> ls_lock s = MRead (S n) ->
    lact t s (LS (ls_pool s) (match n with O => MFree | _ => MRead n end) (ls_conns s) (upd (ls_threads s) t r) (ls_log s))
| l_set s t r u c : nth_error (ls_threads s) t = Some (ISet u c :: r) ->
    lact t s (LS (aset u c (ls_pool s)) (ls_lock s) (ls_conns s) (upd (ls_threads s) t r) (ls_log s))
| l_del s t r u : nth_error (ls_threads s) t = Some (IDel u :: r) ->
    lact t s (LS (adel u (ls_pool s)) (ls_lock s) (ls_conns s) (upd (ls_threads s) t r) (ls_log s))
| l_lookup s t r u : nth_error (ls_threads s) t = Some (ILookup u :: r) -> lact t s (set_thread s t r)
| l_getdel s t r u : nth_error (ls_threads s) t = Some (IGetDel u :: r) ->
    lact t s (set_thread s t (match aget u (ls_pool s) with
                             | Some _ => IRUnlock :: prog_del u ++ r
                             | None => IRUnlock :: r
                             end))
| l_name s t r c u k : nth_error (ls_threads s) t = Some (IName c u :: r) -> nth_error (ls_conns s) c = Some k ->
    lact t s (LS (ls_pool s) (ls_lock s) (upd (ls_conns s) c (LConn (lc_ref k) (Some u) (lc_off k))) (upd (ls_threads s) t r) (ls_log s))
| l_sock s t r c : nth_error (ls_threads s) t = Some (ISock c :: r) ->
    lact t s (LS (ls_pool s) (ls_lock s) (ls_conns s) (upd (ls_threads s) t r) ((t, c) :: ls_log s))
| l_end s t r c : nth_error (ls_threads s) t = Some (IEnd c :: r) -> lact t s (set_thread s t r)
| l_off s t r c k : nth_error (ls_threads s) t = Some (IOff c :: r) -> nth_error (ls_conns s) c = Some k ->
    (* client-pool.go:44-49: GetClientPool, then DeleteFromClientPool *)
    lact t s (set_thread s t (match lc_ref k, lc_name k with
                             | true, Some n => IRLock :: IGetDel n :: r
                             | _, _ => r
                             end))
| l_state s t r c k : nth_error (ls_threads s) t = Some (IState c :: r) -> nth_error (ls_conns s) c = Some k ->
    lact t s (LS (ls_pool s) (ls_lock s) (upd (ls_conns s) c (LConn (lc_ref k) (lc_name k) true)) (upd (ls_threads s) t r) (ls_log s))
| l_range s t r ks : nth_error (ls_threads s) t = Some (IRange :: r) ->
    NoDup ks -> (forall u, In u ks <-> ahas u (ls_pool s) = true) ->
    lact t s (set_thread s t (range_body (ls_pool s) ks ++ r)).

Definition lstep (s s' : lstate) : Prop := exists t, lact t s s'.

Inductive lsteps : lstate -> lstate -> Prop :=
| ls_refl s : lsteps s s
| ls_more s s1 s2 : lsteps s s1 -> lstep s1 s2 -> lsteps s s2.
