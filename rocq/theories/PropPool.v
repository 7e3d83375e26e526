(* Property theorems: The client pool: who SendToUsername reaches, closing a connection, Stop(true) (C39-C43)..
   Each is closed by the lemma of the same name in PoolProofs.v. *)
From Verif Require Export PoolProofs.
From Verif Require Import Demo.

(* C39: for every history of calls, a message sent by any connection s to a name is written to at
   most one connection, and that one is the latest to have gone online under the name in the
   sender's pool and was never closed.  Hypothesis: only strings are stored as names. *)
Theorem C39_send_latest_only : forall h s k u r ws,
  string_names h -> nth_error (pw_conns (prun h)) s = Some k ->
  SendToUsername (prun h) k u = (r, ws) -> ws <> [] ->
  exists d q, ws = [d] /\ r = POk /\ pool_of h s = Some q /\ last_online h q u = Some d /\
    is_conn h d = true /\ pool_of h d = Some q /\ was_closed h d = false.
Proof. exact p_C39_send_latest_only. Qed.
Print Assumptions C39_send_latest_only.

(* C39 needs its hypothesis: PerConnectionContext is an exported field, so a handler can store a
   number under the reserved key.  CloseConn then panics before it marks the user offline and a
   closed connection is still reached. *)
Theorem C39_nonstring_name_refuted : exists h s k u d,
  nth_error (pw_conns (prun h)) s = Some k /\ SendToUsername (prun h) k u = (POk, [d]) /\ was_closed h d = true.
Proof. exact p_C39_nonstring_name_refuted. Qed.
Print Assumptions C39_nonstring_name_refuted.

Example C39_case :
  let h := [POnline 2 "u"; PClose 0; POnline 1 "v"; POnline 0 "u"; PAccept; PAccept; PAccept; PWithPool true] in
  string_names h /\ match nth_error (pw_conns (prun h)) 1 with
    Some k => SendToUsername (prun h) k "u" = (POk, [2%nat]) /\ SendToUsername (prun h) k "w" = (PErr, []) | None => False end.
Proof. split; [intros c v H; simpl in H; repeat (destruct H as [H|H]; [discriminate|]); destruct H|vm_compute; auto]. Qed.

(* The pool's content after any history: an entry for u exists exactly when nobody holding that
   name in that pool went Offline or was closed since the last Online(u), and it is that caller.
   Example: C40_case. *)
Theorem C40_pool_content : forall h q u, (q < pools_made h)%nat ->
  GetClientPool (prun h) q u = if dropped_since h q u then None else last_online h q u.
Proof. exact p_C40_pool_content. Qed.
Print Assumptions C40_pool_content.

(* C40, the part that holds: if moreover no *other* connection that still carries the name u went
   offline or was closed since, the user is reached. *)
Theorem C40_online_reachable_partial : forall h s k q u c,
  string_names h -> nth_error (pw_conns (prun h)) s = Some k -> pool_of h s = Some q ->
  last_online h q u = Some c -> was_closed h c = false -> dropped_since h q u = false ->
  SendToUsername (prun h) k u = (POk, [c]).
Proof. exact p_C40_online_reachable_partial. Qed.
Print Assumptions C40_online_reachable_partial.

(* C40 as stated is false.  Whenever a name moves from a connection c0 to a new connection c, and
   then c0 is closed or goes offline (still carrying the name), the name is unreachable although
   its latest owner c is open and did nothing - for every earlier history and every later sender.
   Example: C40_case. *)
Theorem C40_online_reachable_refuted : forall h q u c0 c o s k,
  (o = POffline c0 \/ o = PClose c0) ->
  pool_of h c0 = Some q -> pool_of h c = Some q -> c0 <> c -> u <> ""%string -> was_closed h c = false ->
  pool_of h s = Some q -> s <> c0 ->
  nth_error (pw_conns (prun (o :: POnline c u :: POnline c0 u :: h))) s = Some k ->
  let h' := o :: POnline c u :: POnline c0 u :: h in
  last_online h' q u = Some c /\ was_closed h' c = false /\ SendToUsername (prun h') k u = (PErr, []).
Proof. exact p_C40_online_reachable_refuted. Qed.
Print Assumptions C40_online_reachable_refuted.

(* a reconnect: connection 0 is "u", the client reconnects as 1, then the server notices that 0 is dead *)
Example C40_case :
  let h := [PClose 0; POnline 1 "u"; POnline 0 "u"; PAccept; PAccept; PAccept; PWithPool true] in
  match nth_error (pw_conns (prun h)) 2 with
  | Some k => SendToUsername (prun h) k "u" = (PErr, []) /\ SendToUsername (prun (tl h)) k "u" = (POk, [1%nat])
  | None => False end.
Proof. vm_compute. auto. Qed.

(* C41: closing an accepted connection after any history of calls (including earlier closes) does
   not panic; afterwards the socket is closed, it is offline and its pool has no entry for its name.
   Example: C41_case. *)
Theorem C41_closeconn : forall h c, string_names h -> is_conn h c = true ->
  exists w k, pstep (PClose c) (prun h) = (POk, w) /\ nth_error (pw_conns w) c = Some k /\
    IsOffline k = true /\ pc_sock k = true /\ pc_end k = true /\
    (forall q n, pool_of h c = Some q -> name_of h c = Some (VStr n) -> GetClientPool w q n = None) /\
    (forall d, d <> c -> nth_error (pw_conns w) d = nth_error (pw_conns (prun h)) d).
Proof. exact p_C41_closeconn. Qed.
Print Assumptions C41_closeconn.

(* C41 idempotence: closing again right away changes nothing at all.
   Example: C41_case. *)
Theorem C41_idempotent : forall h c, string_names h -> is_conn h c = true ->
  pstep (PClose c) (prun (PClose c :: h)) = (POk, prun (PClose c :: h)).
Proof. exact p_C41_idempotent. Qed.
Print Assumptions C41_idempotent.

(* Without the hypothesis on names, CloseConn panics and the user stays "online" for ever. *)
Theorem C41_nonstring_name_refuted : forall h c q v,
  pool_of h c = Some q -> name_of h c = Some v -> (forall n, v <> VStr n) ->
  fst (pstep (PClose c) (prun h)) = PPanic /\
  match nth_error (pw_conns (prun h)) c, nth_error (pw_conns (prun (PClose c :: h))) c with
  | Some k, Some k' => pc_online k' = pc_online k | _, _ => False end.
Proof. exact p_C41_nonstring_name_refuted. Qed.
Print Assumptions C41_nonstring_name_refuted.

Example C41_nonstring_case : let h := [PStoreName 0 (VOther 5); POnline 0 "u"; PAccept; PWithPool true] in
  pool_of h 0 = Some 0%nat /\ name_of h 0 = Some (VOther 5) /\ fst (pstep (PClose 0) (prun h)) = PPanic.
Proof. vm_compute. auto. Qed.

Example C41_case :
  let h := [PClose 0; PClose 0; POnline 1 "v"; POnline 0 "u"; PAccept; PAccept; PWithPool true] in
  match pstep (PClose 0) (prun h) with
  | (POk, w) => GetClientPool w 0 "u" = None /\ GetClientPool w 0 "v" = Some 1%nat /\ map IsOffline (pw_conns w) = [true; false]
  | _ => False end.
Proof. vm_compute. auto. Qed.

(* C42: Online with the empty name is an error and leaves everything as it was.
   Example: C42_case. *)
Theorem C42_online_empty : forall w c k, nth_error (pw_conns w) c = Some k -> pstep (POnline c "") w = (PErr, w).
Proof. exact p_C42_online_empty. Qed.
Print Assumptions C42_online_empty.

(* ... and the empty name is in no pool, whatever happened. *)
Theorem C42_never_pooled : forall h q, GetClientPool (prun h) q "" = None.
Proof. exact p_C42_never_pooled. Qed.
Print Assumptions C42_never_pooled.

Example C42_case : nth_error (pw_conns (prun [POnline 0 "u"; PAccept; PWithPool true])) 0 <> None.
Proof. vm_compute. discriminate. Qed.

(* C43 as stated is false: once the goroutine of Stop(true) has the lock of a non-empty pool and
   starts its loop, then in every continuation, whatever the other goroutines do, it never ends, it
   closes at most one connection, the lock is never released, and every goroutine that wants the
   pool (Online, Offline, SendToUsername, CloseConn of a named connection) waits for ever.
   Example: C43_case. *)
Theorem C43_stop_true_refuted : forall s0 s t r,
  lock_start s0 -> lsteps s0 s ->
  nth_error (ls_threads s) t = Some (IRange :: r) -> ls_lock s = MWrite t -> ls_pool s <> [] ->
  forall s', lsteps s s' ->
    ls_lock s' = MWrite t /\ (exists i p, nth_error (ls_threads s') t = Some (i :: p)) /\
    (closed_by t (ls_log s') <= S (closed_by t (ls_log s)))%nat /\
    forall s'', lstep s' s'' -> forall n i p, nth_error (ls_threads s') n = Some (i :: p) -> i = ILock \/ i = IRLock ->
      nth_error (ls_threads s'') n = Some (i :: p).
Proof. exact p_C43_stop_true_refuted. Qed.
Print Assumptions C43_stop_true_refuted.

(* C43, the part that holds: with an empty pool the goroutine finishes and frees the lock. *)
Theorem C43_empty_pool_partial : forall s t,
  nth_error (ls_threads s) t = Some [IRange; IUnlock] -> ls_lock s = MWrite t -> ls_pool s = [] ->
  exists s', lsteps s s' /\ ls_lock s' = MFree /\ nth_error (ls_threads s') t = Some [].
Proof. exact p_C43_empty_pool_partial. Qed.
Print Assumptions C43_empty_pool_partial.

Example C43_empty_case : let s := LS [] (MWrite 1) [] [[]; [IRange; IUnlock]] [] in
  nth_error (ls_threads s) 1 = Some [IRange; IUnlock] /\ ls_lock s = MWrite 1 /\ ls_pool s = [].
Proof. auto. Qed.

(* the hypotheses of the refutation are met: one connection online, then Stop(true) takes the lock *)
Example C43_case : exists s, lock_start demo_lock /\ lsteps demo_lock s /\
  nth_error (ls_threads s) 1 = Some [IRange; IUnlock] /\ ls_lock s = MWrite 1 /\ ls_pool s <> [].
Proof.
  eexists. split; [apply demo_lock_start|]. split; [|shelve].
  eapply ls_more; [eapply ls_more; [eapply ls_more; [eapply ls_more; [eapply ls_more; [apply ls_refl|]|]|]|]|].
  - exists 0%nat. eapply (l_name _ 0%nat); reflexivity.
  - exists 0%nat. eapply (l_lock _ 0%nat); reflexivity.
  - exists 0%nat. eapply (l_set _ 0%nat); reflexivity.
  - exists 0%nat. eapply (l_unlock _ 0%nat); reflexivity.
  - exists 1%nat. eapply (l_lock _ 1%nat); reflexivity.
  Unshelve. split; [reflexivity|split; [reflexivity|discriminate]].
Qed.
