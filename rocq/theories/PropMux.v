(* Property theorems. Each is closed by the lemma of the same name in MuxProofs.v. *)
From Verif Require Export MuxProofs.

Theorem C24_api_reduces_to_single_calls : forall h, exists q, api_build h = build q.
Proof. exact p_C24_api_reduces_to_single_calls. Qed.
Print Assumptions C24_api_reduces_to_single_calls.

(* C24.  Exactly, for every history of calls, refused (panicking) ones included: what runs for
   an id.  Own middlewares are those of the first AddHandler for the id that gave any.
   Example: C24_example. *)
Theorem C24_chain_exact : forall h id, onmessage h = None ->
  plan_of (ById id) (build h) =
  match serving id h with
  | None => Unrouted
  | Some r =>
      if (id =? beat_id h) && negb (beat_through h) then Direct (r_fn r)
      else if (id =? auth_id h) && negb (auth_through h) then Direct (r_fn r)
      else RunChain (globals h ++ covering effectively_covered r h ++ own id h ++ [r_fn r])
  end.
Proof. exact p_C24_chain_exact. Qed.
Print Assumptions C24_chain_exact.

(* C24 as claimed, where own middlewares are those given in the call that registered the
   handler: when no call was refused and the heartbeat handler never rewritten. *)
Theorem C24_chain_partial : forall h id ms f p l, onmessage h = None -> no_refusal h -> existsb rewrites h = false ->
  h = l ++ OAdd id ms f :: p -> Some id <> configured_beat h -> Some id <> configured_auth h -> id <> 0 ->
  exists r, r_fn r = f /\ r_before r = p /\ r_after r = l /\
    plan_of (ById id) (build h) = RunChain (globals h ++ covering effectively_covered r h ++ ms ++ [f]).
Proof. exact p_C24_chain_partial. Qed.
Print Assumptions C24_chain_partial.

Example C24_example :
  let h := [OUnUse "m"; OGlobal [User 3]; OAdd 7 [User 5; User 6] (User 8); OUse "m" (User 2); OGlobal [User 1]]%nat in
  no_refusal h /\ existsb rewrites h = false /\
  plan_of (ById 7) (build h) = RunChain [User 1; User 3; User 2; User 5; User 6; User 8]%nat.
Proof. repeat split. Qed.

(* C24 fails after rewriting the heartbeat handler: removeHandler keeps the id's own middlewares,
   and they run for the next handler registered with that id, in a history without refusals. *)
Theorem C24_stale_own_middleware_refuted : exists h id f p,
  onmessage h = None /\ no_refusal h /\ h = OAdd id [] f :: p /\
  plan_of (ById id) (build h) = RunChain [User 1; f]%nat /\ f <> User 1%nat.
Proof. exact p_C24_stale_own_middleware_refuted. Qed.
Print Assumptions C24_stale_own_middleware_refuted.

(* C24 also fails after a refused AddHandler whose panic was recovered: the refused call's
   middlewares run before the old handler. *)
Theorem C24_refused_call_leaks_middleware_refuted : exists p id f,
  plan_of (ById id) (build p) = RunChain [f] /\
  refused (OAdd id [User 1%nat] (User 2%nat)) p = true /\
  plan_of (ById id) (build (OAdd id [User 1%nat] (User 2%nat) :: p)) = RunChain [User 1%nat; f].
Proof. exact p_C24_refused_call_leaks_middleware_refuted. Qed.
Print Assumptions C24_refused_call_leaks_middleware_refuted.

(* C25.  Exactly when an anchor middleware runs for a handler: its key was in use when the
   handler was registered, and either that was the key's first Use or the key has been UnUse'd
   since.  Same for url patterns. *)
Theorem C25_coverage_exact : forall h, onmessage h = None ->
  (forall id, plan_of (ById id) (build h) = spec_plan effectively_covered h id) /\
  (forall u, plan_of (ByURL u) (build h) = spec_url_plan effectively_covered h u).
Proof. exact p_C25_coverage_exact. Qed.
Print Assumptions C25_coverage_exact.

(* C25 as claimed, when no key is Use'd again after an UnUse. *)
Theorem C25_coverage_partial : forall h, onmessage h = None -> no_reuse h ->
  (forall id, plan_of (ById id) (build h) = spec_plan covered h id) /\
  (forall u, plan_of (ByURL u) (build h) = spec_url_plan covered h u).
Proof. exact p_C25_coverage_partial. Qed.
Print Assumptions C25_coverage_partial.

Example C25_example :
  let h := [OAdd 3 [] (User 30); OUnUse "a"; OAdd 2 [] (User 20); OUse "b" (User 101); OAdd 1 [] (User 10); OUse "a" (User 100)]%nat in
  no_reuse h /\ plan_of (ById 1) (build h) = RunChain [User 100; User 10]%nat /\
  plan_of (ById 2) (build h) = RunChain [User 100; User 101; User 20]%nat /\
  plan_of (ById 3) (build h) = RunChain [User 101; User 30]%nat.
Proof. repeat split. Qed.

(* C25 is false in general: after Use, UnUse, Use again (all accepted), a handler registered
   then does not get the middleware; the claim says it should. *)
Theorem C25_reuse_refuted : exists h id, no_refusal h /\ onmessage h = None /\
  plan_of (ById id) (build h) <> spec_plan covered h id /\
  plan_of (ById id) (build h) = RunChain [User 10%nat] /\
  spec_plan covered h id = RunChain [User 100; User 10]%nat.
Proof. exact p_C25_reuse_refuted. Qed.
Print Assumptions C25_reuse_refuted.

(* C26.  As claimed when no key is Use'd again after an UnUse: the functions that run for a
   handler are the ones given to the Use calls in force when it was registered. *)
Theorem C26_given_function_partial : forall h id r k f, no_reuse h -> serving id h = Some r ->
  In (k, f) (first_uses h) -> effectively_covered k r = true -> latest_use k (r_before r) = Some f.
Proof. exact p_C26_given_function_partial. Qed.
Print Assumptions C26_given_function_partial.

Example C26_example : let h := [OUnUse "a"; OAdd 1 [] (User 10); OUse "b" (User 5); OUse "a" (User 4)]%nat in
  no_reuse h /\ exists r, serving 1 h = Some r /\ In ("a"%string, User 4%nat) (first_uses h) /\ effectively_covered "a" r = true.
Proof. repeat split. eexists. repeat split. now left. Qed.

(* C26 is false: a function given to a later Use of the same key is dropped. *)
Theorem C26_later_function_dropped_refuted : exists h id r, no_refusal h /\ onmessage h = None /\
  serving id h = Some r /\ latest_use "a" (r_before r) = Some (User 200%nat) /\ in_use "a" (r_before r) = true /\
  plan_of (ById id) (build h) = RunChain [User 100; User 10]%nat.
Proof. exact p_C26_later_function_dropped_refuted. Qed.
Print Assumptions C26_later_function_dropped_refuted.

(* C27 *)
Theorem C27_one_handler_per_id : forall h id ms f,
  (forall g, aget id (m_handlers (build h)) = Some g ->
     snd (step (OAdd id ms f) (build h)) = true /\
     aget id (m_handlers (fst (step (OAdd id ms f) (build h)))) = Some g) /\
  (snd (step (OAdd id ms f) (build h)) = false ->
     aget id (m_handlers (fst (step (OAdd id ms f) (build h)))) = Some f) /\
  (forall i, i <> id -> aget i (m_handlers (fst (step (OAdd id ms f) (build h)))) = aget i (m_handlers (build h))) /\
  (forall r, serving id h = Some r -> aget id (m_handlers (build h)) = Some (r_fn r)).
Proof. exact p_C27_one_handler_per_id. Qed.
Print Assumptions C27_one_handler_per_id.

Example C27_example : let h := [OAdd 1 [] (User 10)]%nat in
  aget 1 (m_handlers (build h)) = Some (User 10) /\ snd (step (OAdd 1 [] (User 11)) (build h)) = true /\
  snd (step (OAdd 2 [] (User 11)) (build h)) = false.
Proof. repeat split. Qed.

(* C28.  In every state reachable through the API, refused calls included. *)
Theorem C28_no_missing_anchor : forall (h : list api) rt,
  plan_of rt (api_build h) <> PlanPanic /\ checkPrepare (api_build h) = true.
Proof. exact p_C28_no_missing_anchor. Qed.
Print Assumptions C28_no_missing_anchor.

Example C28_example : let h := [AUse [UKey "a"; UFn (User 1); UKey "a"; UFn (User 2); UOther]; ACall (OAdd 1 [User 2] (User 3)); AUse [UKey "a"; UFn (User 1); UKey "a"; UFn (User 2)]; ACall (OAdd 1 [] (User 3)); ACall (OBeat true false 1)]%nat in
  snd (api_step (ACall (OAdd 1 [] (User 3))) (api_build [ACall (OBeat true false 1)])) = true /\
  plan_of (ById 1) (api_build h) = Direct Beat.
Proof. repeat split. Qed.

(* C29, for ids other than 0 that are not the configured heartbeat or auth id. *)
Theorem C29_globals_first_partial : forall h id, onmessage h = None -> id <> 0 ->
  Some id <> configured_beat h -> Some id <> configured_auth h -> serving id h <> None ->
  exists rest, plan_of (ById id) (build h) = RunChain (globals h ++ rest).
Proof. exact p_C29_globals_first_partial. Qed.
Print Assumptions C29_globals_first_partial.

Example C29_example : let h := [OAdd 4 [] (User 2); OGlobal [User 1]; OBeat true false 3]%nat in
  4 <> 0 /\ Some 4 <> configured_beat h /\ Some 4 <> configured_auth h /\ serving 4 h <> None /\
  plan_of (ById 4) (build h) = RunChain [User 1; User 2]%nat.
Proof. repeat split; discriminate. Qed.

(* C29 is false for id 0 when heartbeat or auth is not configured: the unset id is 0. *)
Theorem C29_id_zero_refuted : exists h, onmessage h = None /\ configured_beat h = None /\ configured_auth h = None /\
  globals h = [User 1%nat] /\ plan_of (ById 0) (build h) = Direct (User 2%nat).
Proof. exact p_C29_id_zero_refuted. Qed.
Print Assumptions C29_id_zero_refuted.

(* C30.  Exactly what runs for a pattern registered by one Any call. *)
Theorem C30_any_exact : forall h u l after before, onmessage h = None -> l <> [] ->
  h = after ++ OAny u l :: before ->
  (forall l', ~ In (OAny u l') before) -> (forall l', ~ In (OAny u l') after) ->
  exists r, r_before r = before /\ r_after r = after /\
    plan_of (ByURL u) (build h) =
    RunChain (globals h ++ covering effectively_covered r h ++ (if (1 <? List.length l)%nat then l ++ l else l)).
Proof. exact p_C30_any_exact. Qed.
Print Assumptions C30_any_exact.

(* C30 as claimed, for one handler. *)
Theorem C30_any_once_partial : forall h u f after before, onmessage h = None ->
  h = after ++ OAny u [f] :: before ->
  (forall l', ~ In (OAny u l') before) -> (forall l', ~ In (OAny u l') after) ->
  exists r, r_before r = before /\ r_after r = after /\
    plan_of (ByURL u) (build h) = RunChain (globals h ++ covering effectively_covered r h ++ [f]).
Proof. exact p_C30_any_once_partial. Qed.
Print Assumptions C30_any_once_partial.

Example C30_example : let h := [OUnUse "m"; OAny "/login/" [User 4]; OUse "m" (User 2); OGlobal [User 1]]%nat in
  plan_of (ByURL "/login/") (build h) = RunChain [User 1; User 2; User 4]%nat.
Proof. reflexivity. Qed.

(* C30 is false for two handlers: both run twice. *)
Theorem C30_twice_refuted : exists h u f g, h = [OAny u [f; g]] /\ f <> g /\
  plan_of (ByURL u) (build h) = RunChain [f; g; f; g].
Proof. exact p_C30_twice_refuted. Qed.
Print Assumptions C30_twice_refuted.

(* C31 *)
Theorem C31_onmessage_replaces_routing : forall h f rt, onmessage h = Some f ->
  plan_of rt (build h) = RunChain (globals h ++ map snd (first_uses h) ++ [f]).
Proof. exact p_C31_onmessage_replaces_routing. Qed.
Print Assumptions C31_onmessage_replaces_routing.

Example C31_example : let h := [OUnUse "a"; OOnMessage (Some (User 9)); OAdd 1 [] (User 3); OUse "b" (User 2); OUse "a" (User 1); OGlobal [User 7]]%nat in
  onmessage h = Some (User 9) /\ plan_of (ById 1) (build h) = RunChain [User 7; User 1; User 2; User 9]%nat.
Proof. repeat split. Qed.

(* C32.  Misuse panics; in every reachable state UnUse count <= Use count <= UnUse count + 1 for
   every key, in the map and in the slice.
   Example: C32_example. *)
Theorem C32_misuse_rejected : forall h k f,
  (in_use k h = true -> snd (step (OUse k f) (build h)) = true) /\
  (in_use k h = false -> snd (step (OUnUse k) (build h)) = true) /\
  (in_use k h = false -> snd (step (OUse k f) (build h)) = false) /\
  (in_use k h = true -> snd (step (OUnUse k) (build h)) = false).
Proof. exact p_C32_misuse_rejected. Qed.
Print Assumptions C32_misuse_rejected.

(* Example: C32_example. *)
Theorem C32_bad_arguments_rejected : forall l m,
  (Nat.odd (List.length l) = true -> snd (Use l m) = true) /\
  (forall n x, nth_error l n = Some x ->
     (Nat.even n = true /\ (forall k, x <> UKey k)) \/ (Nat.odd n = true /\ (forall f, x <> UFn f)) ->
     snd (Use l m) = true).
Proof. exact p_C32_bad_arguments_rejected. Qed.
Print Assumptions C32_bad_arguments_rejected.

Theorem C32_windows_well_formed : forall (h : list api) a,
  In a (m_anchors (api_build h)) \/ (exists k, aget k (m_amap (api_build h)) = Some a) ->
  (List.length (a_ends a) <= List.length (a_starts a) <= List.length (a_ends a) + 1)%nat.
Proof. exact p_C32_windows_well_formed. Qed.
Print Assumptions C32_windows_well_formed.

Example C32_example : let h := [AUnUse ["a"%string; "a"%string]; AUse [UKey "a"; UFn (User 1); UKey "b"; UFn (User 2); UKey "a"; UFn (User 3)]]%nat in
  snd (api_step (AUnUse ["a"; "a"]%string) (api_build (tl h))) = true /\
  map (fun a => (a_starts a, a_ends a)) (m_anchors (api_build h)) = [([2], [5]); ([3], [])].
Proof. repeat split. Qed.

(* C33.  When RewriteHeartBeatHandler(id, f) returns: id has handler f, the previous heartbeat id
   (if another) is not routed, and every other id is handled exactly as before. *)
Theorem C33_rewrite_moves_heartbeat : forall h id f, onmessage h = None ->
  snd (step (ORewrite id f) (build h)) = false ->
  let m := fst (step (ORewrite id f) (build h)) in
  aget id (m_handlers m) = Some f /\
  plan_of (ById id) m = (if beat_through h && ((negb (id =? auth_id h)) || auth_through h)
    then RunChain (globals h ++ covering effectively_covered (Reg f h []) h ++ own id h ++ [f]) else Direct f) /\
  (beat_id h <> id -> plan_of (ById (beat_id h)) m = Unrouted) /\
  (forall i, i <> id -> i <> beat_id h -> plan_of (ById i) m = plan_of (ById i) (build h)).
Proof. exact p_C33_rewrite_moves_heartbeat. Qed.
Print Assumptions C33_rewrite_moves_heartbeat.

Example C33_example : let h := [OAdd 4 [] (User 4); OBeat true false 1392]%nat in
  snd (step (ORewrite 7 (User 7)) (build h)) = false /\ beat_id h = 1392 /\
  plan_of (ById 1392) (fst (step (ORewrite 7 (User 7)) (build h))) = Unrouted /\
  plan_of (ById 7) (fst (step (ORewrite 7 (User 7)) (build h))) = Direct (User 7)%nat.
Proof. repeat split. Qed.

(* Outside the claim: when id already has a handler the call panics half-way, leaving the old
   heartbeat id unrouted and the existing handler of id outside the middlewares.
   Example: C33_half_done_case. *)
Theorem C33_refused_rewrite_is_half_done : forall h id f r, onmessage h = None -> serving id h = Some r -> id <> beat_id h ->
  beat_through h = false ->
  let m := fst (step (ORewrite id f) (build h)) in
  snd (step (ORewrite id f) (build h)) = true /\ plan_of (ById (beat_id h)) m = Unrouted /\
  plan_of (ById id) m = Direct (r_fn r).
Proof. exact p_C33_refused_rewrite_is_half_done. Qed.
Print Assumptions C33_refused_rewrite_is_half_done.

Example C33_half_done_case : let h := [OAdd 4 [] (User 4); OBeat true false 1392]%nat in
  onmessage h = None /\ (exists r, serving 4 h = Some r /\ r_fn r = User 4%nat) /\ 4 <> beat_id h /\ beat_through h = false /\
  plan_of (ById 1392) (fst (step (ORewrite 4 (User 7)) (build h))) = Unrouted.
Proof. cbv zeta. split; [reflexivity|]. split; [eexists; split; reflexivity|]. split; [vm_compute; discriminate|]. split; reflexivity. Qed.
