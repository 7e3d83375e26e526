(* Property theorems. Each is closed by the lemma of the same name in DirectProofs.v. *)
From Verif Require Export DirectProofs.

(* C131: what a pool holds after any calls, direct or not, is what the history says: the context of the
   last call that put one there, unless it was taken out since.
   Example: C131_case. *)
Theorem C131_content : forall h q u e, d_sane h -> (q < d_made h)%nat -> (holds h q u e <-> aget u (dpool_at (drun h) q) = e).
Proof. exact p_C131_content. Qed.
Print Assumptions C131_content.

(* C131: GetClientPool returns a context exactly when the pool holds it, and nil both for nothing and
   for nil; a name counts as online exactly when something is held, also nil.
   Example: C131_lookup_case. *)
Theorem C131_lookup : forall h q u, d_sane h -> (q < d_made h)%nat ->
  (forall c, dGet (drun h) q u = Some c <-> holds h q u (Some (Some c))) /\
  (dIsOnline (drun h) q u = true <-> exists x, holds h q u (Some x)).
Proof. exact p_C131_lookup. Qed.
Print Assumptions C131_lookup.

(* C131: a send by name succeeds, and writes to one connection, exactly when the sender's pool holds a
   context of it under the name and it has not been closed; otherwise nothing is written.  Stale
   entries, also those the application put there itself, never receive anything.
   Example: C131_send_case. *)
Theorem C131_send : forall h c k u, d_sane h -> d_string_names h -> nth_error (dw_conns (drun h)) c = Some k ->
  (forall d, dSendToUsername (drun h) k u = (POk, [d]) <-> exists q, d_pool h c = Some q /\ holds h q u (Some (Some d)) /\ ~ d_closed h d) /\
  ((forall d, dSendToUsername (drun h) k u <> (POk, [d])) -> dSendToUsername (drun h) k u = (PErr, [])).
Proof. exact p_C131_send. Qed.
Print Assumptions C131_send.

(* C131: closing a connection leaves no context under its own name in its own pool, whoever put it there.
   Example: C131_close_case. *)
Theorem C131_close_partial : forall h q u c x, d_pool h c = Some q -> d_name h c = Some (VStr u) ->
  holds (DIndirect (PClose c) :: h) q u (Some x) -> x = None.
Proof. exact p_C131_close_partial. Qed.
Print Assumptions C131_close_partial.

(* C131, refuted: closing a connection does not take out every entry that names it.  Under a name the
   application put it under itself, it stays in the pool, and the name counts as online. *)
Theorem C131_stale_refuted : ~ forall h q u c, d_sane h -> d_string_names h -> d_closed h c -> dGet (drun h) q u <> Some c.
Proof. exact p_C131_stale_refuted. Qed.
Print Assumptions C131_stale_refuted.

(* C131, refuted: the pool's Offline does not take every name out: one that holds nil stays, and counts
   as online, until DeleteFromClientPool. *)
Theorem C131_nil_refuted : (~ forall h q u, d_sane h -> (q < d_made h)%nat -> dIsOnline (drun (DOffline q u :: h)) q u = false) /\
  (forall h q u, dIsOnline (drun (DDelete q u :: h)) q u = false).
Proof. exact p_C131_nil_refuted. Qed.
Print Assumptions C131_nil_refuted.

(* C131: an Offline through the pool removes a name that holds a context, and nothing else.
   Example: C131_offline_case. *)
Theorem C131_offline : forall h q u q' u', d_sane h -> (q < d_made h)%nat -> (q' < d_made h)%nat ->
  aget u' (dpool_at (drun (DOffline q u :: h)) q') =
    (if Nat.eqb q' q && String.eqb u u' then match dGet (drun h) q u with Some _ => None | None => aget u (dpool_at (drun h) q) end
     else aget u' (dpool_at (drun h) q')).
Proof. exact p_C131_offline. Qed.
Print Assumptions C131_offline.

(* C131: the empty name, which the connections' Online refuses, can be put into a pool directly.
   Example: C131_lookup_case. *)
Theorem C131_empty : forall h q c, d_sane h -> (q < d_made h)%nat -> d_conn h c = true ->
  dGet (drun (DSet q "" (Some c) :: h)) q "" = Some c /\ forall q' c', puts h q' "" (Some c') (DIndirect (POnline c' "")) -> False.
Proof. exact p_C131_empty. Qed.
Print Assumptions C131_empty.

(* C131: without direct calls the pools are those of PoolModel: same connections, same entries, same
   results of a send.
   Example: C131_same_case. *)
Theorem C131_conservative : forall h,
  dw_conns (drun (map DIndirect h)) = pw_conns (prun h) /\ dw_pools (drun (map DIndirect h)) = map embed (pw_pools (prun h)) /\
  dw_cur (drun (map DIndirect h)) = pw_cur (prun h) /\
  (forall k u, dSendToUsername (drun (map DIndirect h)) k u = SendToUsername (prun h) k u).
Proof. exact p_C131_conservative. Qed.
Print Assumptions C131_conservative.

Example C131_case :
  let h := [DSet 0%nat "b" (Some 0%nat); DIndirect (POnline 0%nat "a"); DIndirect PAccept; DIndirect (PWithPool true)] in
  d_sane h /\ d_made h = 1%nat /\ holds h 0%nat "b" (Some (Some 0%nat)) /\ holds h 0%nat "a" (Some (Some 0%nat)) /\ holds (DOffline 0%nat "a" :: h) 0%nat "a" None.
Proof.
  cbn zeta. split; [|split; [reflexivity|]].
  - repeat (apply sane_cons; [|cbn; auto]); apply sane_nil.
  - assert (A : holds [DSet 0%nat "b" (Some 0%nat); DIndirect (POnline 0%nat "a"); DIndirect PAccept; DIndirect (PWithPool true)] 0%nat "a" (Some (Some 0%nat))).
    { apply ho_same; [apply ho_put; right; exists 0%nat; repeat split; auto; discriminate| | |discriminate].
      - intros x [(X & _)|(c & _ & X & _)]; discriminate.
      - intros [X|(c & [X|X] & _)]; discriminate. }
    split; [|split; [exact A|eapply ho_take; [left; reflexivity|exact A]]].
    apply ho_put. left. split; auto. intros c X. inversion X. reflexivity.
Qed.

Example C131_lookup_case :
  let h := [DSet 0%nat "b" None; DSet 0%nat "" (Some 0%nat); DIndirect (POnline 0%nat "a"); DIndirect PAccept; DIndirect (PWithPool true)] in
  dGet (drun h) 0%nat "a" = Some 0%nat /\ dGet (drun h) 0%nat "" = Some 0%nat /\ dGet (drun h) 0%nat "b" = None /\ dIsOnline (drun h) 0%nat "b" = true /\ dIsOnline (drun h) 0%nat "c" = false.
Proof. repeat split. Qed.

Example C131_send_case :
  let h := [DSet 0%nat "b" (Some 0%nat); DIndirect (POnline 0%nat "a"); DIndirect PAccept; DIndirect PAccept; DIndirect (PWithPool true)] in
  let k := PConn (Some 0%nat) None true false false in
  dSendToUsername (drun h) k "b" = (POk, [0%nat]) /\ dGet (drun (DIndirect (PClose 0%nat) :: h)) 0%nat "b" = Some 0%nat /\
  dSendToUsername (drun (DIndirect (PClose 0%nat) :: h)) k "b" = (PErr, []).
Proof. repeat split. Qed.

Example C131_close_case :
  let h := [DSet 0%nat "a" (Some 1%nat); DIndirect (POnline 0%nat "a"); DIndirect PAccept; DIndirect PAccept; DIndirect (PWithPool true)] in
  dGet (drun h) 0%nat "a" = Some 1%nat /\ dIsOnline (drun (DIndirect (PClose 0%nat) :: h)) 0%nat "a" = false /\
  dIsOnline (drun [DIndirect (PClose 0%nat); DSet 0%nat "a" None; DIndirect (POnline 0%nat "a"); DIndirect PAccept; DIndirect (PWithPool true)]) 0%nat "a" = true.
Proof. repeat split. Qed.

Example C131_offline_case :
  let h := [DSet 0%nat "b" (Some 0%nat); DIndirect (POnline 0%nat "a"); DIndirect PAccept; DIndirect (PWithPool true)] in
  dGet (drun (DOffline 0%nat "a" :: h)) 0%nat "a" = None /\ dGet (drun (DOffline 0%nat "a" :: h)) 0%nat "b" = Some 0%nat.
Proof. repeat split. Qed.

Example C131_same_case :
  dw_pools (drun (map DIndirect [POnline 0%nat "a"; PAccept; PWithPool true])) = [[("a"%string, Some 0%nat)]].
Proof. reflexivity. Qed.
