(* Property theorems. Each is closed by the lemma of the same name in ShareProofs.v. *)
From Verif Require Export ShareProofs.

(* C129: after any calls on any contexts, a context answers as its connection does in the model with one
   record per connection: the calls return the same, the state and the name are the same, and a message
   for a user goes to the same connection.
   Example: C129_case. *)
Theorem C129_one_record : forall h i c b, nth_error (contexts h) i = Some (c, b) ->
  exists x k, nth_error (sw_ctxs (shrun h)) i = Some x /\ nth_error (pw_conns (prun (presence h))) c = Some k /\
  s_conn x = c /\
  (forall u, fst (sstep (SOnline i u) (shrun h)) = fst (pstep (POnline c u) (prun (presence h)))) /\
  fst (sstep (SOffline i) (shrun h)) = fst (pstep (POffline c) (prun (presence h))) /\
  fst (sstep (SClose i) (shrun h)) = fst (pstep (PClose c) (prun (presence h))) /\
  s_username (shrun h) x = pc_user k /\ s_is_online (shrun h) x = pc_online k /\
  (forall u, s_send (shrun h) x u = SendToUsername (prun (presence h)) k u).
Proof. exact p_C129_one_record. Qed.
Print Assumptions C129_one_record.

(* It does not matter which context of a connection a call is made on: two histories that differ only
   in that leave every connection's contexts with the same state, the same name and the same answers,
   whoever asks.  Missing: stores per request, see C129_request_store_refuted.
   Example: C129_case. *)
Theorem C129_interchangeable_partial : forall h h' i i' c, alike_all h h' -> belongs h i c -> belongs h' i' c ->
  exists x x', nth_error (sw_ctxs (shrun h)) i = Some x /\ nth_error (sw_ctxs (shrun h')) i' = Some x' /\
  (forall u, fst (sstep (SOnline i u) (shrun h)) = fst (sstep (SOnline i' u) (shrun h'))) /\
  fst (sstep (SOffline i) (shrun h)) = fst (sstep (SOffline i') (shrun h')) /\
  fst (sstep (SClose i) (shrun h)) = fst (sstep (SClose i') (shrun h')) /\
  s_username (shrun h) x = s_username (shrun h') x' /\ s_is_online (shrun h) x = s_is_online (shrun h') x' /\
  (forall u, s_send (shrun h) x u = s_send (shrun h') x' u).
Proof. exact p_C129_interchangeable_partial. Qed.
Print Assumptions C129_interchangeable_partial.

(* A store per request is where the contexts differ: made on a message's context it is a store for the
   whole connection and can rename the user, made on the context OnConnect was given it is not.
   Example: C129_case. *)
Theorem C129_request_store_refuted : forall h i j c v, nth_error (contexts h) i = Some (c, true) -> nth_error (contexts h) j = Some (c, false) ->
  exists x y, nth_error (sw_ctxs (shrun h)) i = Some x /\ nth_error (sw_ctxs (shrun h)) j = Some y /\
  (forall z, z = x \/ z = y -> s_username (shrun (SSetReq i k_username v :: h)) z = Some v) /\
  (forall z, z = x \/ z = y -> s_username (shrun (SSetReq j k_username v :: h)) z = s_username (shrun h) z).
Proof. exact p_C129_request_store_refuted. Qed.
Print Assumptions C129_request_store_refuted.

Example C129_case : let h := [SOnline 1 "ann"; SMessage 0; SAccept; SMessage 0; SAccept; SWithPool true] in
  let h' := [SOnline 0 "ann"; SMessage 0; SAccept; SMessage 0; SAccept; SWithPool true] in
  alike_all h h' /\ contexts h = [(0, false); (0, true); (1, false); (0, true)]%nat /\
  (exists x, nth_error (sw_ctxs (shrun h)) 2 = Some x /\ s_send (shrun h) x "ann" = (POk, [0%nat])) /\
  (exists y, nth_error (sw_ctxs (shrun (SClose 3 :: h))) 2 = Some y /\ s_send (shrun (SClose 3 :: h)) y "ann" = (PErr, [])).
Proof.
  cbv zeta. split; [|split; [reflexivity|split; (eexists; split; [reflexivity|reflexivity])]].
  constructor; [|apply (al_online _ _ 1 0 0); [exists true|exists false]; reflexivity].
  constructor; [|apply (al_message _ _ 0 0 0); exists false; reflexivity].
  constructor; [|apply al_same; exact I]. constructor; [|apply (al_message _ _ 0 0 0); exists false; reflexivity].
  constructor; [|apply al_same; exact I]. constructor; [constructor|apply al_same; exact I].
Qed.
