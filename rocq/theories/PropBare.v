(* Property theorems. Each is closed by the lemma of the same name in BareProofs.v. *)
From Verif Require Export BareProofs.

(* C132: for fewer than 2^31 - 2 calls on the server alone, with NewTcpX's Mux, this is MuxModel: the same
   configuration after every call, and the same calls panic.
   Example: C132_same_case. *)
Theorem C132_conservative : forall h o, Z.of_nat (List.length h) < two31 - 2 ->
  xbuild (map XSrv h) = TX (build h) true false /\ snd (xstep (XSrv o) (xbuild (map XSrv h))) = snd (step o (build h)).
Proof. exact p_C132_conservative. Qed.
Print Assumptions C132_conservative.

(* C132: a middleware put to use before n calls of CurrentAnchorIndex and the registration of a handler: it
   runs for the handler as long as the int32 counter has not wrapped around.
   Example: C132_wrap_case. *)
Theorem C132_wrap : forall n k f id g, id <> 0 ->
  xplan (ById id) (xbuild (XSrv (OAdd id [] g) :: repeat XTick n ++ [XSrv (OUse k f)])) = RunChain (if 2 <=? to_int32 (Z.of_nat n + 3) then [f; g] else [g]).
Proof. exact p_C132_wrap. Qed.
Print Assumptions C132_wrap.

(* C132, refuted: a middleware in use is not run for every handler registered later: after about 2^31
   indices the counter is negative. *)
Theorem C132_wrap_refuted : ~ forall n k f id g, id <> 0 ->
  xplan (ById id) (xbuild (XSrv (OAdd id [] g) :: repeat XTick n ++ [XSrv (OUse k f)])) = RunChain [f; g].
Proof. exact p_C132_wrap_refuted. Qed.
Print Assumptions C132_wrap_refuted.

(* C132: in any configuration that ListenAndServe's check lets pass, and that has no OnMessage, choosing
   the handlers of a request panics exactly when its id or pattern has handlers but no index, as after
   AddHandleFunc or Mux.Any alone.
   Example: C132_panic_case. *)
Theorem C132_panics : forall t, xcheckPrepare t = true -> m_onmsg (t_m t) = None ->
  (forall id, xplan (ById id) t = PlanPanic <-> id_unindexed (t_m t) id) /\
  (forall u, xplan (ByURL u) t = PlanPanic <-> url_unindexed (t_m t) u).
Proof. exact p_C132_panics. Qed.
Print Assumptions C132_panics.

(* C132, refuted without the check: an anchor added to the mux after ListenAndServe, whose ranges do not
   fit together, makes requests panic that have a handler and an index. *)
Theorem C132_unchecked_refuted : ~ forall t id, t_nil t = false -> m_onmsg (t_m t) = None -> xplan (ById id) t = PlanPanic -> id_unindexed (t_m t) id.
Proof. exact p_C132_unchecked_refuted. Qed.
Print Assumptions C132_unchecked_refuted.

(* C132, refuted: a handler registered with AddHandleFunc of the mux is not served, nor are those of
   Mux.Any: a request for it panics. *)
Theorem C132_bare_refuted :
  (~ forall h id f, snd (xstep (XFunc id f) (xbuild h)) = false -> xplan (ById id) (xbuild (XFunc id f :: h)) <> PlanPanic) /\
  (~ forall h p l, snd (xstep (XAny p l) (xbuild h)) = false -> xplan (ByURL p) (xbuild (XAny p l :: h)) <> PlanPanic).
Proof. exact p_C132_bare_refuted. Qed.
Print Assumptions C132_bare_refuted.

(* C132: AddHandleFunc, CurrentAnchorIndex and AddMessageIDAnchor in turn are AddHandler with one handler.
   Example: C132_by_hand_case. *)
Theorem C132_by_hand : forall t id f, t_nil t = false -> by_hand id f t = xstep (XSrv (OAdd id [] f)) t.
Proof. exact p_C132_by_hand. Qed.
Print Assumptions C132_by_hand.

(* C132: a url pattern registered through the mux runs its handlers once, however many they are; the
   server's Any runs two or more of them twice (C30).
   Example: C132_url_case. *)
Theorem C132_url_once : forall t p l sel, t_nil t = false -> t_allow t = true -> m_onmsg (t_m t) = None ->
  aget p (m_urls (t_m t)) = None -> aget p (m_urlids (t_m t)) = None -> select_anchors (m_anchors (t_m t)) (index32 (t_m t)) = Ok sel ->
  snd (url_by_hand p l t) = false /\ xplan (ByURL p) (fst (url_by_hand p l t)) = RunChain (m_globals (t_m t) ++ sel ++ l).
Proof. exact p_C132_url_once. Qed.
Print Assumptions C132_url_once.

(* C132: while AllowAdd is false no message id gets a handler: those there are afterwards were there before.
   Example: C132_locked_case. *)
Theorem C132_locked_partial : forall l h id f, t_nil (xbuild h) = false -> stays_locked l ->
  aget id (m_handlers (t_m (xbuild (l ++ XAllow false :: h)))) = Some f -> aget id (m_handlers (t_m (xbuild h))) = Some f.
Proof. exact p_C132_locked_partial. Qed.
Print Assumptions C132_locked_partial.

(* C132, refuted: with AllowAdd false the server's Any neither refuses nor obeys.  Two or more handlers
   become a route; one handler becomes none, without a panic, and takes the pattern: the Any that is tried
   again once AllowAdd is true panics.
   Example: C132_locked_any_case. *)
Theorem C132_locked_any_refuted : forall t p f g l, t_nil t = false -> t_allow t = false -> m_onmsg (t_m t) = None ->
  aget p (m_urls (t_m t)) = None -> aget p (m_urlids (t_m t)) = None -> forallb check_valid (m_anchors (t_m t)) = true ->
  (snd (xstep (XSrv (OAny p (f :: g :: l))) t) = false /\
   exists sel, xplan (ByURL p) (fst (xstep (XSrv (OAny p (f :: g :: l))) t)) = RunChain (m_globals (t_m t) ++ sel ++ f :: g :: l)) /\
  (snd (xstep (XSrv (OAny p [f])) t) = false /\ xplan (ByURL p) (fst (xstep (XSrv (OAny p [f])) t)) = Unrouted /\
   snd (xstep (XSrv (OAny p [f])) (fst (xstep (XAllow true) (fst (xstep (XSrv (OAny p [f])) t))))) = true).
Proof. exact p_C132_locked_any_refuted. Qed.
Print Assumptions C132_locked_any_refuted.

(* C132, refuted: an AddHandler refused because AllowAdd is false cannot simply be tried again: its
   middlewares stayed, so that it panics, and a handler without middlewares of its own gets them.
   Example: C132_leftover_case. *)
Theorem C132_leftover_refuted : forall t id m0 ms f, t_nil t = false -> t_allow t = false -> aget id (m_self (t_m t)) = None ->
  snd (xstep (XSrv (OAdd id (m0 :: ms) f)) t) = true /\
  aget id (m_self (t_m (fst (xstep (XSrv (OAdd id (m0 :: ms) f)) t)))) = Some (m0 :: ms) /\
  snd (xstep (XSrv (OAdd id (m0 :: ms) f)) (fst (xstep (XAllow true) (fst (xstep (XSrv (OAdd id (m0 :: ms) f)) t))))) = true.
Proof. exact p_C132_leftover_refuted. Qed.
Print Assumptions C132_leftover_refuted.

(* C132: with a nil Mux, Use, UseGlobal and AddHandler with one handler start with a new Mux (as does
   HeartBeatMode or WithAuth, through AddHandler), whose AllowAdd is true; UnUse, Any, AddHandler with
   middlewares, RewriteHeartBeatHandler and every method of the mux panic and change nothing; nothing can
   be listened on.
   Example: C132_nil_case. *)
Theorem C132_nil : forall t, t_nil t = true -> exists m', emptied (t_m t) m' /\
  (forall k f, xstep (XSrv (OUse k f)) t = xstep (XSrv (OUse k f)) (TX m' true false)) /\
  (forall l, xstep (XSrv (OGlobal l)) t = xstep (XSrv (OGlobal l)) (TX m' true false)) /\
  (forall id f, xstep (XSrv (OAdd id [] f)) t = xstep (XSrv (OAdd id [] f)) (TX m' true false)) /\
  (forall k p l id m0 ms f, xstep (XSrv (OUnUse k)) t = (t, true) /\ xstep (XSrv (OAny p l)) t = (t, true) /\
     xstep (XSrv (OAdd id (m0 :: ms) f)) t = (t, true) /\ xstep (XSrv (ORewrite id f)) t = (t, true)) /\
  (forall o, match o with XSrv _ | XNil => False | _ => True end -> xstep o t = (t, true)) /\
  xcheckPrepare t = false.
Proof. exact p_C132_nil. Qed.
Print Assumptions C132_nil.

(* C132: srv.Mux = nil leaves a server without a mux and with all else as it was; AllowAdd = b on a mux
   sets that and nothing else.
   Example: C132_nil_case. *)
Theorem C132_assign : forall t, 
  (snd (xstep XNil t) = false /\ t_nil (fst (xstep XNil t)) = true /\ emptied (t_m t) (t_m (fst (xstep XNil t)))) /\
  (forall b, t_nil t = false -> xstep (XAllow b) t = (TX (t_m t) b false, false)).
Proof. exact p_C132_assign. Qed.
Print Assumptions C132_assign.

(* C132: AddMessageIDSelfMiddleware panics exactly when the id has middlewares already; without middlewares
   it changes nothing; otherwise the id has them, in order, and nothing else changes.  Followed by
   AddHandler with one handler, it is AddHandler with middlewares.
   Example: C132_self_case. *)
Theorem C132_self : forall t id l, t_nil t = false ->
  (snd (xstep (XSelf id l) t) = true <-> aget id (m_self (t_m t)) <> None) /\
  (aget id (m_self (t_m t)) = None ->
     (l = [] -> xstep (XSelf id l) t = (t, false)) /\
     (l <> [] -> (forall id', aget id' (m_self (t_m (fst (xstep (XSelf id l) t)))) = if id' =? id then Some l else aget id' (m_self (t_m t))) /\
                 t_m (fst (xstep (XSelf id l) t)) = set_self (m_self (t_m (fst (xstep (XSelf id l) t)))) (t_m t)) /\
     forall f, xthen (xstep (XSelf id l) t) (fun t1 => xstep (XSrv (OAdd id [] f)) t1) = xstep (XSrv (OAdd id l f)) t).
Proof. exact p_C132_self. Qed.
Print Assumptions C132_self.

Example C132_same_case : xbuild (map XSrv [OAdd 7 [] (User 2); OUse "m" (User 1)]) = TX (build [OAdd 7 [] (User 2); OUse "m" (User 1)]) true false /\
  xplan (ById 7) (xbuild (map XSrv [OAdd 7 [] (User 2); OUse "m" (User 1)])) = RunChain [User 1; User 2].
Proof. split; reflexivity. Qed.

Example C132_wrap_case : to_int32 (10 + 3) = 13 /\ to_int32 (two31 - 3 + 3) = - two31 /\
  xplan (ById 7) (xbuild (XSrv (OAdd 7 [] (User 2)) :: repeat XTick 10 ++ [XSrv (OUse "m" (User 1))])) = RunChain [User 1; User 2].
Proof. repeat split. Qed.

Example C132_panic_case : let t := xbuild [XFunc 7 (User 1); XAny "u" [User 2]; XSrv (OAdd 8 [] (User 3))] in
  xcheckPrepare t = true /\ id_unindexed (t_m t) 7 /\ url_unindexed (t_m t) "u" /\ xplan (ById 7) t = PlanPanic /\ xplan (ByURL "u") t = PlanPanic /\ xplan (ById 8) t = RunChain [User 3].
Proof.
  cbn zeta. split; [reflexivity|]. split; [split; [discriminate|split; [intros [(X & _)|(X & _)]; discriminate|reflexivity]]|]. split; [split; [discriminate|reflexivity]|]. repeat split.
Qed.

Example C132_by_hand_case : by_hand 7 (User 1) new_tx = xstep (XSrv (OAdd 7 [] (User 1))) new_tx /\ snd (by_hand 7 (User 1) new_tx) = false /\ xplan (ById 7) (fst (by_hand 7 (User 1) new_tx)) = RunChain [User 1].
Proof. repeat split. Qed.

Example C132_url_case : xplan (ByURL "u") (fst (url_by_hand "u" [User 1; User 2] new_tx)) = RunChain [User 1; User 2] /\
  xplan (ByURL "u") (xbuild [XSrv (OAny "u" [User 1; User 2])]) = RunChain [User 1; User 2; User 1; User 2].
Proof. repeat split. Qed.

Example C132_locked_case : let t := xbuild ([XSrv (OAdd 8 [] (User 2)); XFunc 9 (User 3)] ++ XAllow false :: [XSrv (OAdd 7 [] (User 1))]) in
  aget 7 (m_handlers (t_m t)) = Some (User 1) /\ aget 8 (m_handlers (t_m t)) = None /\ aget 9 (m_handlers (t_m t)) = None.
Proof. repeat split. Qed.

Example C132_nil_case : xplan (ById 7) (xbuild [XSrv (OAdd 7 [] (User 1)); XNil; XSrv (OAdd 8 [] (User 2))]) = RunChain [User 1] /\
  xplan (ById 8) (xbuild [XSrv (OAdd 7 [] (User 1)); XNil; XSrv (OAdd 8 [] (User 2))]) = Unrouted /\
  xplan (ById 8) (xbuild [XSrv (OAdd 7 [User 3] (User 1)); XNil; XSrv (OAdd 8 [] (User 2))]) = PlanPanic.
Proof. repeat split. Qed.

Example C132_locked_any_case : let t := xbuild [XAllow false] in
  t_nil t = false /\ t_allow t = false /\ xplan (ByURL "u") t = Unrouted /\
  xplan (ByURL "u") (xbuild [XSrv (OAny "u" [User 1; User 2]); XAllow false]) = RunChain [User 1; User 2] /\
  xplan (ByURL "u") (xbuild [XSrv (OAny "u" [User 1]); XAllow false]) = Unrouted.
Proof. repeat split. Qed.

Example C132_leftover_case :
  xplan (ById 7) (xbuild [XSrv (OAdd 7 [] (User 3)); XAllow true; XSrv (OAdd 7 [User 1] (User 2)); XAllow false]) = RunChain [User 1; User 3] /\
  snd (xstep (XSrv (OAdd 7 [User 1] (User 2))) (xbuild [XAllow true; XSrv (OAdd 7 [User 1] (User 2)); XAllow false])) = true.
Proof. repeat split. Qed.

Example C132_self_case : let t := xbuild [XSrv (OAdd 7 [] (User 2)); XSelf 7 [User 1]] in
  xplan (ById 7) t = RunChain [User 1; User 2] /\ snd (xstep (XSelf 7 []) t) = true /\ snd (xstep (XSelf 8 []) t) = false.
Proof. vm_compute. repeat split. Qed.

(* C132: while a server has no mux every request panics, except a message whose id or type cannot be read, which is logged, if there is
   no OnMessage.
   Example: C132_nil_case. *)
Theorem C132_nil_requests : forall t r, t_nil t = true ->
  (xplan r t = Unrouted <-> m_onmsg (t_m t) = None /\ r = ByNothing) /\ (xplan r t = PlanPanic <-> ~ (m_onmsg (t_m t) = None /\ r = ByNothing)).
Proof. exact p_C132_nil_requests. Qed.
Print Assumptions C132_nil_requests.
