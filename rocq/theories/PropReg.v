(* Property theorems. Each is closed by the lemma of the same name in RegProofs.v. *)
From Verif Require Export RegProofs.

(* C86 is false: a call made after the server was started takes effect like any other, and
   requests are served by what it registered - for every configuration and every call. *)
Theorem C86_unlocked_refuted : forall h o rt, exists s,
  msteps (mrun0 (regs (rev h) ++ [MServe; MReg o])) s /\ r_serving s = true /\ idle s /\ r_mux s = build (o :: h) /\
  exists s', msteps s s' /\ chosen s' 0 rt (plan_of rt (build (o :: h))).
Proof. exact p_C86_unlocked_refuted. Qed.
Print Assumptions C86_unlocked_refuted.

Example C86_case : refused (OAdd 7 [] (User 1)) [OAdd 5 [] (User 0)] = false /\
  plan_of (ById 7) (build [OAdd 5 [] (User 0)]) = Unrouted /\
  plan_of (ById 7) (build [OAdd 7 [] (User 1); OAdd 5 [] (User 0)]) = RunChain [User 1].
Proof. repeat split. Qed.

(* C87, the part that holds: when all registration calls precede the start of the server (refused
   ones included), no execution has a data race and every request chooses exactly what the
   finished configuration says.
   Example: C87_case. *)
Theorem C87_before_serve_partial : forall h s, msteps (mrun0 (regs (rev h) ++ [MServe])) s ->
  ~ reg_race s /\ forall i rt p, chosen s i rt p -> p = plan_of rt (build h).
Proof. exact p_C87_before_serve_partial. Qed.
Print Assumptions C87_before_serve_partial.

(* ... and no request ever gets stuck choosing
   Example: C87_case. *)
Theorem C87_progress_partial : forall h s i rt q, msteps (mrun0 (regs (rev h) ++ [MServe])) s ->
  nth_error (r_reqs s) i = Some (rt, q) -> exists s', msteps s s' /\ chosen s' i rt (plan_of rt (build h)).
Proof. exact p_C87_progress_partial. Qed.
Print Assumptions C87_progress_partial.

Example C87_case : exists s, msteps (mrun0 (regs [OUse "a" (User 1); OAdd 5 [] (User 2)] ++ [MServe])) s /\
  chosen s 0 (ById 5) (RunChain [User 1; User 2]) /\ chosen s 1 (ByURL "x") Unrouted.
Proof.
  set (h := [OAdd 5 [] (User 2); OUse "a" (User 1)]).
  pose proof (to_serve h []) as V. change (rev h) with [OUse "a" (User 1); OAdd 5 [] (User 2)] in V.
  pose proof (m_request (MR (build h) KFree [] [] true []) (ById 5) eq_refl) as V1. cbn [r_mux r_lock r_prog r_calls r_serving r_reqs app] in V1.
  pose proof (m_request (MR (build h) KFree [] [] true [(ById 5, QStart (ById 5))]) (ByURL "x") eq_refl) as V2. cbn [r_mux r_lock r_prog r_calls r_serving r_reqs app] in V2.
  destruct (finish (MR (build h) KFree [] [] true [(ById 5, QStart (ById 5)); (ByURL "x", QStart (ByURL "x"))]) 0 (ById 5) (QStart (ById 5)) ltac:(discriminate) eq_refl) as (s1 & W1 & C1 & M1 & L1 & J1).
  specialize (J1 1%nat ltac:(discriminate)) as J. destruct (finish s1 1 _ _ L1 J) as (s2 & W2 & C2 & _ & _ & J2).
  exists s2. split; [|split].
  - eapply ms_trans; [exact (ms_snoc _ _ _ (ms_snoc _ _ _ V V1) V2)|]. eapply ms_trans; eassumption.
  - unfold chosen in *. rewrite J2 by discriminate. exact C1.
  - rewrite M1 in C2. exact C2.
Qed.

(* C87, what the lock is good for, with any calls at any time: the map of URL anchors is never read
   and written at once, nor is the map of id anchors unless RewriteHeartBeatHandler is called, which
   deletes from it without the lock ...
   Example: C87_lock_case. *)
Theorem C87_anchor_maps_partial : forall cs s, msteps (mrun0 cs) s ->
  ~ race_on LUrlIds s /\ ((forall id f, ~ In (MReg (ORewrite id f)) cs) -> ~ race_on LIds s).
Proof. exact p_C87_anchor_maps_partial. Qed.
Print Assumptions C87_anchor_maps_partial.

(* ... and nobody waits for it for ever: whatever has been called and asked so far, the calls can all
   return and the requests all choose, after which the lock is free
   Example: C87_lock_case. *)
Theorem C87_no_deadlock_partial : forall cs s, msteps (mrun0 cs) s -> exists s', msteps s s' /\ idle s' /\ all_chosen s' /\ r_lock s' = KFree.
Proof. exact p_C87_no_deadlock_partial. Qed.
Print Assumptions C87_no_deadlock_partial.

(* a request inside the lock and a call waiting for it *)
Example C87_lock_case : exists s p, msteps (mrun0 (regs [OAny "x" [User 1]] ++ [MServe; MReg (OAny "y" [User 2])])) s /\
  r_lock s = KRead 1 /\ r_prog s = MLock :: p /\ exists rt q, r_reqs s = [(rt, q)] /\ qreads q = [LUrlIds].
Proof.
  do 2 eexists. split.
  - eapply ms_trans; [apply (in_flight [OAny "x" [User 1]] _ (ByURL "x"))|]. do 4 (eapply ms_more; [apply req1; reflexivity|]).
    eapply ms_more; [apply call1|]. do 2 (eapply ms_more; [apply acc1; reflexivity|]). apply ms_refl.
  - split; [reflexivity|]. split; [reflexivity|]. do 2 eexists. split; reflexivity.
Qed.

(* C87 is false while a handler is being registered: whatever the configuration and the (accepted)
   AddHandler call, a request for that id can read the handler map at the moment the call writes
   it (the request's side takes no lock) ...
   Example: C87_crash_case. *)
Theorem C87_race_refuted : forall h id ms f, refused (OAdd id ms f) h = false -> onmessage h = None ->
  exists s, msteps (mrun0 (regs (rev h) ++ [MServe; MReg (OAdd id ms f)])) s /\ reg_race s.
Proof. exact p_C87_race_refuted. Qed.
Print Assumptions C87_race_refuted.

(* ... and, even if that did no harm, it can find the handler but no anchor for it and panic, on a
   goroutine that nothing recovers (tcpx.go:602, 703), although the request would have been
   answered "handler not found" before the call and handled after it.
   Example: C87_crash_case. *)
Theorem C87_crash_refuted : forall h id ms f, refused (OAdd id ms f) h = false -> onmessage h = None ->
  (id = beat_id h -> beat_through h = true) -> (id = auth_id h -> auth_through h = true) ->
  (exists s, msteps (mrun0 (regs (rev h) ++ [MServe; MReg (OAdd id ms f)])) s /\ chosen s 0 (ById id) PlanPanic) /\
  plan_of (ById id) (build h) = Unrouted /\ exists l, plan_of (ById id) (build (OAdd id ms f :: h)) = RunChain (l ++ [f]).
Proof. exact p_C87_crash_refuted. Qed.
Print Assumptions C87_crash_refuted.

(* a registration in the middle of serving that meets all hypotheses *)
Example C87_crash_case : let h := [OGlobal [User 9]; OAdd 5 [] (User 0)] in
  refused (OAdd 7 [User 3] (User 1)) h = false /\ onmessage h = None /\ 7 <> beat_id h /\ 7 <> auth_id h /\
  plan_of (ById 7) (build (OAdd 7 [User 3] (User 1) :: h)) = RunChain [User 9; User 3; User 1].
Proof. repeat split; discriminate. Qed.

(* C87, the table of accesses the race statements rest on: whatever the configuration, a registering
   step changes only the locations it is said to write, and what it writes and whether it panics
   depends only on those it is said to access (and on the atomic counter).
   Example: C87_footprint_case. *)
Theorem C87_footprint : forall o m, Forall keeps_to (prog o m).
Proof. exact p_C87_footprint. Qed.
Print Assumptions C87_footprint.

(* The same table for requests: the next step of a request is determined by the locations it is said
   to read (and the lock), and each of those really matters.
   Example: C87_footprint_case. *)
Theorem C87_reads : forall q,
  (forall m m' l, (forall x, In x (qreads q) -> same_at x m m') -> qstep m l q = qstep m' l q) /\
  (forall x, In x (qreads q) -> matters q x).
Proof. exact p_C87_reads. Qed.
Print Assumptions C87_reads.

(* And each location a registering step is said to write is one it can change; only Use of no global
   middleware stores what was there.
   Example: C87_footprint_case. *)
Theorem C87_writes : forall o m i x, o <> OGlobal [] -> In i (prog o m) -> writes i x -> changes i x.
Proof. exact p_C87_writes. Qed.
Print Assumptions C87_writes.

Example C87_footprint_case : List.length (prog (OAdd 5 [User 1] (User 2)) new_mux) = 10%nat /\
  writes (MAcc [LHandlers] [LHandlers] (AddHandleFunc 5 (User 2))) LHandlers /\ qreads (QHb 5 (User 1)) = [LHb; LAuth].
Proof. repeat split; cbn; auto. Qed.
