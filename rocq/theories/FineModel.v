(* Model of the routing of the messages of one TCP connection with every Load and Store of the
   connection's map as a step of its own (context.go:682-730, 765-784; tcpx.go:565-605,
   853-871, 994-999).  CtxModel has whole calls instead.  No proofs in this file.
   The contexts of all messages of a connection have the same PerRequestContext, the connection's map
   (context.go:79-104), so there is one map here.
   Left out: Reset, which gives a context a map of its own (called after the handlers, tcpx.go:944, 991);
   OnMessage, which is not routed; a panic ends only its goroutine here (in fact it ends the program). *)
From Verif Require Export CtxModel.

Inductive obs :=
| ORouter (s : gslice) (t : string)      (* RouterType, called for message s, returned t *)
| OURL (s : gslice) (r : res string)     (* GetURLPattern, called for message s *)
| ORouted (s : gslice) (r : routing)     (* message s goes to the handlers of r *)
| OPanic (s : gslice).

(* what a goroutine does with the map *)
Inductive prog :=
| PStop
| PLoad (k : ckey) (go : option cval -> prog)
| PStore (k : ckey) (v : cval) (go : prog)
| PSay (o : obs) (go : prog).

(* the calls of a handler, or of another goroutine of the application that has a message's context:
   GetCtxPerRequest, SetCtxPerRequest, RouterType, GetURLPattern (context.go:412-418, 682-688, 769-784) *)
Inductive hprog :=
| HEnd
| HGet (k : ckey) (go : option cval -> hprog)
| HSet (k : ckey) (v : cval) (go : hprog)
| HRouter (go : string -> hprog)
| HURL (go : res string -> hprog).

Record fmsg := FMsg { fm_stream : gslice; fm_handler : routing -> hprog }.

(* a goroutine: the messages it handles one after the other (tcpx.go:565-605; one unless it is a
   pipelined batch, 994-999), or calls of the application *)
Inductive gor := GMessages (l : list fmsg) | GApp (s : gslice) (p : hprog).

Section Fine.
  Context (hc : hcodec).

  (* context.go:682-688 RouterType, 691-730 routerType, 765-767 setRouterType *)
  Definition RouterTypeP (s : gslice) (go : string -> prog) : prog :=
    PLoad k_router (fun c =>
      match c with
      | Some (VStr t) => PSay (ORouter s t) (go t)
      | _ => match own_router_type hc s with
             | Ok t => PStore k_router (VStr t) (PSay (ORouter s t) (go t))
             | _ => PSay (OPanic s) PStop
             end
      end).

  (* context.go:769-784 GetURLPattern *)
  Definition GetURLPatternP (s : gslice) (go : res string -> prog) : prog :=
    PLoad k_url (fun c =>
      match c with
      | Some (VStr p) => PSay (OURL s (Ok p)) (go (Ok p))
      | _ => match URLPatternOf hc s with
             | Ok p => PStore k_url (VStr p) (PSay (OURL s (Ok p)) (go (Ok p)))
             | Err e => PSay (OURL s (Err (EWrap e))) (go (Err (EWrap e)))
             | Panic => PSay (OPanic s) PStop
             end
      end).

  Fixpoint callsP (s : gslice) (p : hprog) (go : prog) : prog :=
    match p with
    | HEnd => go
    | HGet k f => PLoad k (fun v => callsP s (f v) go)
    | HSet k v p' => PStore k v (callsP s p' go)
    | HRouter f => RouterTypeP s (fun t => callsP s (f t) go)
    | HURL f => GetURLPatternP s (fun r => callsP s (f r) go)
    end.

  (* tcpx.go:853-871 handleMiddleware, 890-895, 948-953; the handlers only run if there is an address *)
  Definition handleMiddlewareP (m : fmsg) (go : prog) : prog :=
    let s := fm_stream m in
    let routed r := PSay (ORouted s r) (match r with ByNothing => go | _ => callsP s (fm_handler m r) go end) in
    RouterTypeP s (fun t1 =>
      if String.eqb t1 MESSAGEID then
        match MessageIDOf s with
        | Ok id => routed (ById id)
        | Err _ => routed ByNothing
        | Panic => PSay (OPanic s) PStop
        end
      else
        RouterTypeP s (fun t2 =>
          if String.eqb t2 URLPATTERN then
            match URLPatternOf hc s with
            | Ok u => routed (ByURL u)
            | Err _ => routed ByNothing
            | Panic => PSay (OPanic s) PStop
            end
          else RouterTypeP s (fun _ => routed ByNothing))).   (* 869: the type is logged *)

  (* tcpx.go:994-999 handlePipe *)
  Fixpoint handlePipeP (l : list fmsg) : prog :=
    match l with [] => PStop | m :: l' => handleMiddlewareP m (handlePipeP l') end.

  Definition gorP (g : gor) : prog :=
    match g with GMessages l => handlePipeP l | GApp s p => callsP s p PStop end.

  (* the map, the goroutines, what they observed (newest first) *)
  Record fstate := FS { fs_map : smap; fs_gors : list prog; fs_log : list (nat * obs) }.
  Definition fstart (m : smap) (gs : list gor) : fstate := FS m (map gorP gs) [].

  (* goroutine i takes a step *)
  Definition fstep (i : nat) (st : fstate) : fstate :=
    match nth_error (fs_gors st) i with
    | Some (PLoad k f) => FS (fs_map st) (upd (fs_gors st) i (f (aget k (fs_map st)))) (fs_log st)
    | Some (PStore k v p) => FS (aset k v (fs_map st)) (upd (fs_gors st) i p) (fs_log st)
    | Some (PSay o p) => FS (fs_map st) (upd (fs_gors st) i p) ((i, o) :: fs_log st)
    | _ => st
    end.
  (* a schedule: who takes the next step *)
  Fixpoint frun (sched : list nat) (st : fstate) : fstate :=
    match sched with [] => st | i :: l => frun l (fstep i st) end.
End Fine.
