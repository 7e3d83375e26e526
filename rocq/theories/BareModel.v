(* Model of the mux of a server used directly (tcpx.go:41 Mux is an exported field): the exported methods
   of Mux beside those of TcpX, with AllowAdd (mux.go:33), a Mux that is nil, and the index counter as the
   int32 it is.  mux.go:72-236, tcpx.go:125-136, 200-251, 257-362.  No proofs in this file.
   What a configuration does with a request is MuxModel's [plan_of].  Calls are made one after another.
   The index ranges of an anchor are values: an application that appends to the ranges of an anchor it
   got from the mux may share an array with it, which is not represented.  The exported maps and slices of
   Mux are changed through the methods only. *)
From Verif Require Export MuxModel.

(* [t_m] also has the fields of TcpX that routing reads; those stay when the Mux is replaced.
   [t_nil]: tcpx.Mux == nil, [t_m] then has an empty mux. *)
Record tx := TX { t_m : mux; t_allow : bool; t_nil : bool }.
(* tcpx.go:108-116 *)
Definition new_tx : tx := TX new_mux true false.

(* mux.go:52-69 NewMux in place of the old one *)
Definition fresh (m : mux) : mux :=
  Mux 1 [] [] [] [] [] [] [] [] (m_hb_on m) (m_hb_id m) (m_hb_through m) (m_auth_on m) (m_auth_id m) (m_auth_through m) (m_onmsg m).
(* "if tcpx.Mux == nil { tcpx.Mux = NewMux() }": tcpx.go:258-260, 321-323, 338-340 *)
Definition ensure (t : tx) : tx := if t_nil t then TX (fresh (t_m t)) true false else t.

Definition xout : Type := tx * bool.
Definition xok (t : tx) : xout := (t, false).
Definition xbad (t : tx) : xout := (t, true).
Definition xthen (o : xout) (k : tx -> xout) : xout := if snd o then o else k (fst o).
(* a method of Mux called on tcpx.Mux: with a nil Mux the first access of a field panics *)
Definition on_mux (f : mux -> out) (t : tx) : xout :=
  if t_nil t then xbad t else let (m, b) := f (t_m t) in (TX m (t_allow t) (t_nil t), b).

(* mux.go:98-100: int32 addition wraps *)
Definition index32 (m : mux) : Z := to_int32 (m_seed m + 1).
Definition tick32 (m : mux) : mux := set_seed (index32 m) m.

(* mux.go:84-95 *)
Definition xAddHandleFunc (id : Z) (f : hdl) (t : tx) : xout :=
  if t_nil t then xbad t else if t_allow t then on_mux (AddHandleFunc id f) t else xbad t.
(* mux.go:72-81; an error is no panic *)
Definition xMuxAny (p : string) (l : list hdl) (t : tx) : xout :=
  if t_nil t then xbad t else if t_allow t then on_mux (fun m => ok (AddURLPatternHandler p l m)) t else xok t.
(* mux.go:216-229; without handlers nothing is stored *)
Definition xAddSelf (id : Z) (l : list hdl) (t : tx) : xout :=
  on_mux (fun m => if ahas id (m_self m) then bad m else match l with [] => ok m | _ => ok (set_self (aset id l (m_self m)) m) end) t.
(* mux.go:98-100 with 186-198, as in tcpx.go:342-343 *)
Definition xAnchorID (id : Z) (t : tx) : xout := on_mux (fun m => AddMessageIDAnchor id (index32 m) (tick32 m)) t.
(* mux.go:98-100 with 201-213, as in tcpx.go:360-361 *)
Definition xAnchorURL (p : string) (t : tx) : xout := on_mux (fun m => AddURLAnchor p (index32 m) (tick32 m)) t.

(* tcpx.go:329-344, at least one handler *)
Definition xAddHandler (id : Z) (ms : list hdl) (f : hdl) (t : tx) : xout :=
  xthen (match ms with [] => xok t | _ => xAddSelf id ms t end) (fun t =>
  xthen (xAddHandleFunc id f (ensure t)) (fun t => xAnchorID id t)).
(* tcpx.go:346-362; the error of Mux.Any is dropped *)
Definition xAny (p : string) (l : list hdl) (t : tx) : xout :=
  match l with
  | [] => xbad t
  | _ =>
      xthen (if (1 <? List.length l)%nat then on_mux (fun m => ok (AddURLPatternHandler p l m)) t else xok t) (fun t =>
      xthen (xMuxAny p l t) (fun t => xAnchorURL p t))
  end.
(* tcpx.go:272-291 for one pair *)
Definition xuse1 (k : string) (f : hdl) (m : mux) : out :=
  match callUse (match aget k (m_amap m) with Some a => a | None => Anchor k f [] [] end) (index32 m) with
  | None => bad (tick32 m)
  | Some a' =>
      let m' := tick32 m in
      if ahas k (m_amap m) then ok (set_anchors (m_anchors m') (aset k a' (m_amap m')) m') else ok (add_anchor a' m')
  end.
(* tcpx.go:309-315 for one key *)
Definition xunuse1 (k : string) (m : mux) : out :=
  match aget k (m_amap m) with
  | None => bad m
  | Some a =>
      match callUnUse a (index32 m) with
      | None => bad (tick32 m)
      | Some a' => replace_middleware a' (tick32 m)
      end
  end.

(* the fields of TcpX are set whatever the Mux is *)
Definition x_fields (f : mux -> mux) (t : tx) : tx := TX (f (t_m t)) (t_allow t) (t_nil t).

(* MuxModel's calls *)
Definition x_op (o : op) (t : tx) : xout :=
  match o with
  | OUse k f => on_mux (xuse1 k f) (ensure t)
  | OUnUse k => on_mux (xunuse1 k) t
  | OGlobal l => on_mux (UseGlobal l) (ensure t)
  | OAdd id ms f => xAddHandler id ms f t
  | OAny p l => xAny p l t
  | OBeat on thr id => let t := x_fields (set_hb on id thr) t in if on then xAddHandler id [] Beat t else xok t
  | ORewrite id f =>
      (* tcpx.go:239-251: delete of a field of a nil Mux panics before HeartBeatMessageID is set *)
      xthen (on_mux (fun m => ok (removeHandler (m_hb_id m) m)) t) (fun t =>
      xAddHandler id [] f (x_fields (fun m => set_hb (m_hb_on m) id (m_hb_through m) m) t))
  | OAuth yes thr id f => let t := x_fields (set_auth yes id thr) t in if yes then xAddHandler id [] f t else xok t
  | OOnMessage f => xok (x_fields (set_onmsg f) t)
  end.

Inductive xop :=
| XSrv (o : op)                         (* a call on the server *)
| XAllow (b : bool)                     (* srv.Mux.AllowAdd = b *)
| XNil                                  (* srv.Mux = nil, also a TcpX that is no NewTcpX *)
| XFunc (id : Z) (f : hdl)              (* srv.Mux.AddHandleFunc(id, f) *)
| XTick                                 (* srv.Mux.CurrentAnchorIndex() *)
| XAnchorID (id i : Z)                  (* srv.Mux.AddMessageIDAnchor(NewMessageIDAnchor(id, i)) *)
| XAnchorURL (p : string) (i : Z)       (* srv.Mux.AddURLAnchor(NewUrlPatternAnchor(p, i)) *)
| XAny (p : string) (l : list hdl)      (* srv.Mux.Any(p, l...) *)
| XSelf (id : Z) (l : list hdl)         (* srv.Mux.AddMessageIDSelfMiddleware(id, l...) *)
| XGlobal (l : list hdl)                (* srv.Mux.AddGlobalMiddleware(l...) *)
| XMiddle (a : anchor)                  (* srv.Mux.AddMiddlewareAnchor(a) *)
| XReplace (a : anchor).                (* srv.Mux.ReplaceMiddlewareAnchor(a) *)

Definition xstep (o : xop) (t : tx) : xout :=
  match o with
  | XSrv o => x_op o t
  | XAllow b => if t_nil t then xbad t else xok (TX (t_m t) b (t_nil t))
  | XNil => xok (TX (fresh (t_m t)) (t_allow t) true)
  | XFunc id f => xAddHandleFunc id f t
  | XTick => on_mux (fun m => ok (tick32 m)) t
  | XAnchorID id i => on_mux (AddMessageIDAnchor id i) t
  | XAnchorURL p i => on_mux (AddURLAnchor p i) t
  | XAny p l => xMuxAny p l t
  | XSelf id l => xAddSelf id l t
  | XGlobal l => on_mux (UseGlobal l) t
  | XMiddle a => on_mux (fun m => ok (add_anchor a m)) t
  | XReplace a => on_mux (replace_middleware a) t
  end.

(* the newest call first; panics are recovered *)
Fixpoint xbuild (h : list xop) : tx :=
  match h with [] => new_tx | o :: p => fst (xstep o (xbuild p)) end.

(* tcpx.go:853-992 for a request: with a nil Mux the first use of it panics.  A message whose id or type
   cannot be read is logged before that, as in MuxModel. *)
Definition xplan (r : routing) (t : tx) : plan :=
  if t_nil t then match m_onmsg (t_m t), r with None, ByNothing => Unrouted | _, _ => PlanPanic end else plan_of r (t_m t).
(* tcpx.go:388-394; false = panic *)
Definition xcheckPrepare (t : tx) : bool := negb (t_nil t) && checkPrepare (t_m t).
