(* Model of a connection's online state: the int behind userState and the lock ctx.L, both shared by
   all copies of the connection's context (context.go:87, 100), with any number of goroutines that
   close the connection or ask for its state: CloseConn's deferred part (context.go:288-290),
   IsOffline and IsOnline (590-605), GetPoolRef (662-666).  These are the only uses of ctx.L and of
   userState after NewContext.  No proofs in this file.
   sync.RWMutex as in PoolModel: Lock waits until nobody holds it, RLock until no writer holds it. *)
From Verif Require Export PoolModel.

Inductive sinstr :=
| SLock | SUnlock | SRLock | SRUnlock
| SSet                               (* *(ctx.userState) = CONTEXT_OFFLINE *)
| SGet                               (* reads *(ctx.userState), the result goes to the log *)
| SPool.                             (* reads ctx.poolRef *)

Inductive scall := CClose | CIsOffline | CIsOnline | CPoolRef.
(* the calls as instruction lists; Unlock and RUnlock are deferred to the end.  What CloseConn does
   before (closing the socket and recvEnd, Offline) is in PoolModel *)
Definition sprog (c : scall) : list sinstr :=
  match c with
  | CClose => [SLock; SSet; SUnlock]
  | CIsOffline | CIsOnline => [SRLock; SGet; SRUnlock]
  | CPoolRef => [SRLock; SPool; SRUnlock]
  end.

(* [ss_off]: *userState = CONTEXT_OFFLINE.  [ss_log]: sets and reads that happened, newest first *)
Inductive sevent := EvSet (t : nat) | EvGet (t : nat) (off : bool).
Record sstate := SS { ss_off : bool; ss_lock : mutex; ss_threads : list (list sinstr); ss_log : list sevent }.

(* each goroutine makes its calls one after another; NewContext leaves the state online *)
Definition sstart (calls : list (list scall)) : sstate := SS false MFree (map (flat_map sprog) calls) [].

Inductive sact : nat -> sstate -> sstate -> Prop :=
| s_lock s t r : nth_error (ss_threads s) t = Some (SLock :: r) -> ss_lock s = MFree ->
    sact t s (SS (ss_off s) (MWrite t) (upd (ss_threads s) t r) (ss_log s))
| s_unlock s t r : nth_error (ss_threads s) t = Some (SUnlock :: r) -> ss_lock s = MWrite t ->
    sact t s (SS (ss_off s) MFree (upd (ss_threads s) t r) (ss_log s))
| s_rlock_free s t r : nth_error (ss_threads s) t = Some (SRLock :: r) -> ss_lock s = MFree ->
    sact t s (SS (ss_off s) (MRead 1) (upd (ss_threads s) t r) (ss_log s))
| s_rlock s t r n : nth_error (ss_threads s) t = Some (SRLock :: r) -> ss_lock s = MRead n ->
    sact t s (SS (ss_off s) (MRead (S n)) (upd (ss_threads s) t r) (ss_log s))
| s_runlock s t r n : nth_error (ss_threads s) t = Some (SRUnlock :: r) -> ss_lock s = MRead (S n) ->
    sact t s (SS (ss_off s) (match n with O => MFree | _ => MRead n end) (upd (ss_threads s) t r) (ss_log s))
| s_set s t r : nth_error (ss_threads s) t = Some (SSet :: r) ->
    sact t s (SS true (ss_lock s) (upd (ss_threads s) t r) (EvSet t :: ss_log s))
| s_get s t r : nth_error (ss_threads s) t = Some (SGet :: r) ->
    sact t s (SS (ss_off s) (ss_lock s) (upd (ss_threads s) t r) (EvGet t (ss_off s) :: ss_log s))
| s_pool s t r : nth_error (ss_threads s) t = Some (SPool :: r) ->
    sact t s (SS (ss_off s) (ss_lock s) (upd (ss_threads s) t r) (ss_log s)).

Inductive ssteps : sstate -> sstate -> Prop :=
| ss_refl s : ssteps s s
| ss_more s s1 s2 t : ssteps s s1 -> sact t s1 s2 -> ssteps s s2.
