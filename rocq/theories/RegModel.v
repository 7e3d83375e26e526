(* Model of registering while serving: one goroutine makes the registration calls of TcpX one after
   another and starts the server at some point; requests choose their chains concurrently
   (handleMiddleware, handleOnMessage, handleMessageIDHandlers, handleURLPatternHandlers,
   tcpx.go:853-992).  Every access to a field of Mux or TcpX is a step of its own, with the lock
   mux.Mutex as the code takes it.  No proofs in this file.
   Simplifications: one goroutine registers; the atomic counter indexSeed is one step; reading a
   slice (GlobalMiddlewares, MiddlewareAnchors) is one step; urlMux.urlPatternMux and urlRouteInfo,
   accessed together, count as one location, and so do the heartbeat settings and the auth settings. *)
From Verif Require Export MuxModel.

Inductive loc := LHandlers | LSelf | LIds | LGlobals | LAnchors | LAMap | LUrls | LUrlIds | LHb | LAuth | LOnMsg.

(* steps of the registering goroutine *)
Inductive mi :=
| MLock                                                   (* mux.Mutex.Lock() *)
| MUnlock                                                 (* the deferred mux.Mutex.Unlock() *)
| MAcc (rd wr : list loc) (eff : mux -> out).             (* reads and writes these locations; may panic *)

Definition mtick : mi := MAcc [] [] (fun m => ok (tick m)).     (* mux.go:98-100 *)
Definition mpanic : mi := MAcc [] [] bad.
Definition locked (ls : list loc) (eff : mux -> out) : list mi := [MLock; MAcc ls ls eff; MUnlock].

(* tcpx.go:329-344 AddHandler; the anchor's index is the value the counter has got *)
Definition prog_add (id : Z) (ms : list hdl) (f : hdl) : list mi :=
  (match ms with [] => [] | _ => locked [LSelf] (AddSelf id ms) end) ++
  locked [LHandlers] (AddHandleFunc id f) ++ [mtick] ++
  locked [LIds] (fun m => AddMessageIDAnchor id (m_seed m) m).

(* the steps of a call made when the mux is [m] (only this goroutine changes it) *)
Definition prog (o : op) (m : mux) : list mi :=
  match o with
  | OUse k f =>
      (* tcpx.go:281-291: the anchor map is read without the lock; for a key it has, it is also
         written without the lock, else AddMiddlewareAnchor (mux.go:140-156) takes it *)
      MAcc [LAMap] [] ok :: mtick ::
      match aget k (m_amap m) with
      | Some a =>
          match callUse a (next_index m) with
          | None => [mpanic]
          | Some a' => [MAcc [] [LAMap] (fun m => ok (set_anchors (m_anchors m) (aset k a' (m_amap m)) m))]
          end
      | None =>
          match callUse (Anchor k f [] []) (next_index m) with
          | None => [mpanic]
          | Some a' => locked [LAMap; LAnchors] (fun m => ok (add_anchor a' m))
          end
      end
  | OUnUse k =>
      (* tcpx.go:309-315, mux.go:159-183 *)
      match aget k (m_amap m) with
      | None => [MAcc [LAMap] [] bad]
      | Some a =>
          MAcc [LAMap] [] ok :: mtick ::
          match callUnUse a (next_index m) with
          | None => [mpanic]
          | Some a' => locked [LAMap; LAnchors] (replace_middleware a')
          end
      end
  | OGlobal l => locked [LGlobals] (UseGlobal l)                       (* mux.go:232-236 *)
  | OAdd id ms f => prog_add id ms f
  | OAny p l =>
      (* tcpx.go:346-362, mux.go:72-81, url-mux.go:41-70: no lock for the handlers *)
      match l with
      | [] => [mpanic]
      | _ =>
          let add := MAcc [LUrls] [LUrls] (fun m => ok (AddURLPatternHandler p l m)) in
          (if (1 <? List.length l)%nat then [add; add] else [add]) ++ [mtick] ++
          locked [LUrlIds] (fun m => AddURLAnchor p (m_seed m) m)
      end
  | OBeat on thr id =>
      MAcc [] [LHb] (fun m => ok (set_hb on id thr m)) :: (if on then prog_add id [] Beat else [])
  | ORewrite id f =>
      (* tcpx.go:239-251: two deletes without the lock *)
      MAcc [LHb] [LHandlers] (fun m => ok (set_handlers (adel (m_hb_id m) (m_handlers m)) m)) ::
      MAcc [LHb] [LIds] (fun m => ok (set_ids (adel (m_hb_id m) (m_ids m)) m)) ::
      MAcc [] [LHb] (fun m => ok (set_hb (m_hb_on m) id (m_hb_through m) m)) :: prog_add id [] f
  | OAuth yes thr id f =>
      MAcc [] [LAuth] (fun m => ok (set_auth yes id thr m)) :: (if yes then prog_add id [] f else [])
  | OOnMessage f => [MAcc [] [LOnMsg] (fun m => ok (set_onmsg f m))]
  end.

(* what the registering goroutine does: calls, and starting the server *)
Inductive mcall := MReg (o : op) | MServe.

(* where a request's goroutine stands; [c] = ctx.handlers so far *)
Inductive qpc :=
| QStart (rt : routing)                                   (* 854, 859, 864 *)
| QOnG | QOnA (c : list hdl) | QOnF (c : list hdl)        (* handleOnMessage 878, 879, 882 *)
| QId (id : Z)                                            (* 897 *)
| QHb (id : Z) (f : hdl)                                  (* 902, 907 *)
| QG (id : Z) (f : hdl)                                   (* 917 *)
| QLock (id : Z) (f : hdl) (c : list hdl)                 (* mux.go:104 *)
| QIx (id : Z) (f : hdl) (c : list hdl)                   (* mux.go:107 *)
| QUnlock (id : Z) (f : hdl) (c : list hdl) (i : Z)       (* mux.go:105 *)
| QAn (id : Z) (f : hdl) (c : list hdl) (i : Z)           (* 929-934 *)
| QSelf (id : Z) (f : hdl) (c : list hdl)                 (* 937 *)
| QUrl (u : string)                                       (* 955 *)
| QUG (u : string) (hs : list hdl)                        (* 975 *)
| QULock (u : string) (hs c : list hdl)                   (* mux.go:115 *)
| QUIx (u : string) (hs c : list hdl)                     (* mux.go:118 *)
| QUUnlock (u : string) (hs c : list hdl) (i : Z)
| QUAn (u : string) (hs c : list hdl) (i : Z)             (* 979-984 *)
| QDone (p : plan).

Inductive rlock := KFree | KWrite | KRead (n : nat).       (* KRead n: n > 0 readers *)

(* a step of a request: the mux it sees, the lock before; None = it has to wait or is done *)
Definition rlock_in (l : rlock) : option rlock :=
  match l with KFree => Some (KRead 1) | KRead n => Some (KRead (S n)) | KWrite => None end.
Definition rlock_out (l : rlock) : rlock :=
  match l with KRead (S (S n)) => KRead (S n) | _ => KFree end.

Definition qstep (m : mux) (l : rlock) (q : qpc) : option (qpc * rlock) :=
  match q with
  | QStart rt =>
      Some (match m_onmsg m with
            | Some _ => QOnG
            | None => match rt with ById id => QId id | ByURL u => QUrl u | ByNothing => QDone Unrouted end
            end, l)
  | QOnG => Some (QOnA (m_globals m), l)
  | QOnA c => Some (QOnF (c ++ map a_fn (m_anchors m)), l)
  | QOnF c => Some (QDone (match m_onmsg m with Some f => RunChain (c ++ [f]) | None => PlanPanic end), l)
  | QId id => Some (match aget id (m_handlers m) with None => QDone Unrouted | Some f => QHb id f end, l)
  | QHb id f =>
      Some (if (id =? m_hb_id m) && negb (m_hb_through m) then QDone (Direct f)
            else if (id =? m_auth_id m) && negb (m_auth_through m) then QDone (Direct f)
            else QG id f, l)
  | QG id f => Some (QLock id f (m_globals m), l)
  | QLock id f c => match rlock_in l with Some l' => Some (QIx id f c, l') | None => None end
  | QIx id f c =>
      match aget id (m_ids m) with
      | None => Some (QDone PlanPanic, rlock_out l)             (* the deferred RUnlock runs *)
      | Some i => Some (QUnlock id f c i, l)
      end
  | QUnlock id f c i => Some (QAn id f c i, rlock_out l)
  | QAn id f c i =>
      Some (match select_anchors (m_anchors m) i with Ok a => QSelf id f (c ++ a) | _ => QDone PlanPanic end, l)
  | QSelf id f c =>
      Some (QDone (RunChain (c ++ (match aget id (m_self m) with Some s => s | None => [] end) ++ [f])), l)
  | QUrl u => Some (match aget u (m_urls m) with None => QDone Unrouted | Some hs => QUG u hs end, l)
  | QUG u hs => Some (QULock u hs (m_globals m), l)
  | QULock u hs c => match rlock_in l with Some l' => Some (QUIx u hs c, l') | None => None end
  | QUIx u hs c =>
      match aget u (m_urlids m) with
      | None => Some (QDone PlanPanic, rlock_out l)
      | Some i => Some (QUUnlock u hs c i, l)
      end
  | QUUnlock u hs c i => Some (QUAn u hs c i, rlock_out l)
  | QUAn u hs c i =>
      Some (QDone (match select_anchors (m_anchors m) i with Ok a => RunChain (c ++ a ++ hs) | _ => PlanPanic end), l)
  | QDone _ => None
  end.

(* the locations the request's next step reads *)
Definition qreads (q : qpc) : list loc :=
  match q with
  | QStart _ | QOnF _ => [LOnMsg]
  | QOnG | QG _ _ | QUG _ _ => [LGlobals]
  | QOnA _ | QAn _ _ _ _ | QUAn _ _ _ _ => [LAnchors]
  | QId _ => [LHandlers]
  | QHb _ _ => [LHb; LAuth]
  | QIx _ _ _ => [LIds]
  | QSelf _ _ _ => [LSelf]
  | QUrl _ => [LUrls]
  | QUIx _ _ _ => [LUrlIds]
  | QLock _ _ _ | QUnlock _ _ _ _ | QULock _ _ _ | QUUnlock _ _ _ _ | QDone _ => []
  end.

Record mrun := MR {
  r_mux : mux; r_lock : rlock;
  r_prog : list mi;            (* the rest of the call under way *)
  r_calls : list mcall;        (* the calls still to come *)
  r_serving : bool;
  r_reqs : list (routing * qpc) }.
Definition mrun0 (cs : list mcall) : mrun := MR new_mux KFree [] cs false [].

Definition setq (s : mrun) (i : nat) (q : routing * qpc) : list (routing * qpc) :=
  firstn i (r_reqs s) ++ q :: skipn (S i) (r_reqs s).

Inductive mstep : mrun -> mrun -> Prop :=
| m_call s o cs : r_prog s = [] -> r_calls s = MReg o :: cs ->
    mstep s (MR (r_mux s) (r_lock s) (prog o (r_mux s)) cs (r_serving s) (r_reqs s))
| m_serve s cs : r_prog s = [] -> r_calls s = MServe :: cs ->
    mstep s (MR (r_mux s) (r_lock s) [] cs true (r_reqs s))
| m_lock s p : r_prog s = MLock :: p -> r_lock s = KFree ->
    mstep s (MR (r_mux s) KWrite p (r_calls s) (r_serving s) (r_reqs s))
| m_unlock s p : r_prog s = MUnlock :: p ->
    mstep s (MR (r_mux s) KFree p (r_calls s) (r_serving s) (r_reqs s))
| m_acc s rd wr eff p : r_prog s = MAcc rd wr eff :: p ->
    (* a panic ends the call: the deferred Unlock runs, the caller recovers and goes on *)
    mstep s (MR (fst (eff (r_mux s))) (r_lock s)
               (if snd (eff (r_mux s)) then (match r_lock s with KWrite => [MUnlock] | _ => [] end) else p)
               (r_calls s) (r_serving s) (r_reqs s))
| m_request s rt : r_serving s = true ->
    mstep s (MR (r_mux s) (r_lock s) (r_prog s) (r_calls s) (r_serving s) (r_reqs s ++ [(rt, QStart rt)]))
| m_req s i rt q q' l' : nth_error (r_reqs s) i = Some (rt, q) -> qstep (r_mux s) (r_lock s) q = Some (q', l') ->
    mstep s (MR (r_mux s) l' (r_prog s) (r_calls s) (r_serving s) (setq s i (rt, q'))).

Inductive msteps : mrun -> mrun -> Prop :=
| ms_refl s : msteps s s
| ms_more s s1 s2 : mstep s s1 -> msteps s1 s2 -> msteps s s2.
