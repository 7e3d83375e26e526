(* Property theorems. Each is closed by the lemma of the same name in LinProofs.v. *)
From Verif Require Export LinProofs.

(* Calls of Online, Offline, CloseConn and GetClientPool made by any number of goroutines at the same
   time act as if each were made at one instant between its beginning and its end, provided no
   connection is given a name while another call on it is going on: there is an order of these
   instants in which the calls, made one after another, give the same results; and once all have
   returned, the memory is the one they leave.
   Missing: without the condition it is false (C119_overlap_refuted).
   Example: C119_case. *)
Theorem C119_linearizable_partial : forall h calls s, qsteps (qstart (prun h) calls) s -> apart (qs_log s) ->
  exists w, linearizes (prun h) (qs_log s) w /\ (returned s -> qs_world s = w).
Proof. exact p_C119_linearizable_partial. Qed.
Print Assumptions C119_linearizable_partial.

(* ... so the memory left is one that the calls leave when made in some order, one after another.
   Example: C119_case. *)
Theorem C119_final_partial : forall h calls s, qsteps (qstart (prun h) calls) s -> apart (qs_log s) -> returned s ->
  exists l, some_order calls l /\ qs_world s = prun (flat_map call_op (map snd l) ++ h).
Proof. exact p_C119_final_partial. Qed.
Print Assumptions C119_final_partial.

(* It is enough that a connection that gets a name from one goroutine is used by no other goroutine.
   Example: C119_case. *)
Theorem C119_own_connections : forall h calls s, own_conns calls -> qsteps (qstart (prun h) calls) s ->
  exists w, linearizes (prun h) (qs_log s) w /\ (returned s -> qs_world s = w).
Proof. exact p_C119_own_connections. Qed.
Print Assumptions C119_own_connections.

(* Without the condition it fails: CloseConn of a connection that is online as u, made while the
   connection is being given the name v, leaves both names registered though the connection is
   closed; made one after the other, in either order, the two calls never leave both.
   Example: C119_overlap_case. *)
Theorem C119_overlap_refuted : forall h c k q u v, nth_error (pw_conns (prun h)) c = Some k -> pc_ref k = Some q -> pc_user k = Some (VStr u) ->
  GetClientPool (prun h) q u = Some c -> GetClientPool (prun h) q v = None -> v <> ""%string ->
  exists s, qsteps (qstart (prun h) [[QOnline c v]; [QClose c]]) s /\ returned s /\
    GetClientPool (qs_world s) q u = Some c /\ GetClientPool (qs_world s) q v = Some c /\
    (exists k', nth_error (pw_conns (qs_world s)) c = Some k' /\ pc_sock k' = true) /\
    ~ linearizes (prun h) (qs_log s) (qs_world s).
Proof. exact p_C119_overlap_refuted. Qed.
Print Assumptions C119_overlap_refuted.

(* No call ever blocks or gets lost: while a goroutine has not made all its calls and got them back,
   it has a step, whatever the others do (the pool's lock being free, LinModel.v).
   Example: C119_case. *)
Theorem C119_no_call_is_lost : forall h calls s t x, qsteps (qstart (prun h) calls) s -> nth_error (qs_threads s) t = Some x -> x <> QT None [] ->
  exists s', qstep t s s'.
Proof. exact p_C119_no_call_is_lost. Qed.
Print Assumptions C119_no_call_is_lost.

(* two connections in one pool, the second online as "y" *)
Example C119_case : let h := [POnline 1 "y"; PAccept; PAccept; PWithPool true] in
  let calls := [[QOnline 0 "y"; QClose 0]; [QOffline 1; QGet 0 "y"]] in
  own_conns calls /\
  exists s, qsteps (qstart (prun h) calls) s /\ returned s /\ apart (qs_log s) /\
    qs_log s = [ERes 1 (QGet 0 "y") (RCtx None); ERes 0 (QClose 0) (RRet POk); EInv 1 (QGet 0 "y"); EInv 0 (QClose 0);
      ERes 1 (QOffline 1) (RRet POk); ERes 0 (QOnline 0 "y") (RRet POk); EInv 1 (QOffline 1); EInv 0 (QOnline 0 "y")] /\
    GetClientPool (prun h) 0 "y" = Some 1%nat.
Proof.
  intros h calls.
  assert (O : own_conns calls).
  { intros t t' c u k N I1 I2. unfold calls in *. destruct t as [|[|t]]; cbn in I1; [| |destruct t; destruct I1].
    - destruct I1 as [I1|[I1|[]]]; inversion I1; subst. destruct t' as [|[|t']]; [congruence| |destruct t'; destruct I2]. destruct I2 as [<-|[<-|[]]]; cbn; congruence.
    - destruct I1 as [I1|[I1|[]]]; inversion I1. }
  split; [exact O|].
  assert (R := qexec_steps [0;0;1;1;1;1;0;0;1;0;0;0;0;1;0;0;0;0;0;1;1]%nat _ _ (qs_refl (qstart (prun h) calls))).
  eexists. split; [exact R|]. split; [|split; [eapply own_apart; eauto|vm_compute; split; reflexivity]].
  intros [|[|t]] x; vm_compute; intros X; inversion X; try reflexivity. destruct t; discriminate.
Qed.

Example C119_overlap_case : let h := [POnline 0 "x"; PAccept; PWithPool true] in
  nth_error (pw_conns (prun h)) 0 = Some (PConn (Some 0%nat) (Some (VStr "x")) true false false) /\
  GetClientPool (prun h) 0 "x" = Some 0%nat /\ GetClientPool (prun h) 0 "y" = None.
Proof. vm_compute. repeat split. Qed.
