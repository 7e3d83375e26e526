(* Model of the mux, the registration API of TcpX and the choice of the chain for a request:
   mux.go, anchor.go, url-mux.go, tcpx.go:125-362, 388-394, 853-992.  No proofs in this file. *)
From Verif Require Export Base.

(* a handler or middleware function, by identity.  [Beat] is the function literal the library
   registers itself in HeartBeatMode/HeartBeatModeDetail (tcpx.go:207-210, 227-230).
   nil functions are not represented. *)
Inductive hdl := User (n : nat) | Beat.

(* anchor.go:34-43 MiddlewareAnchor (the call-site info used in panic texts is in WhereModel.v) *)
Record anchor := Anchor { a_key : string; a_fn : hdl; a_starts : list Z; a_ends : list Z }.

(* mux.go:25-49 Mux and url-mux.go:20-30 URLMux, and the fields of TcpX that routing reads
   (tcpx.go:37-96).  AllowAdd is true and readOnly/panicOnExistRouting false throughout (UrlMuxModel.v has them): the
   library has no TcpX method that changes them.  The exported fields of Mux are taken to be
   changed through the TcpX API only.
   m_seed is int32 in the code and wraps after 2^31 registrations; here it is unbounded (BareModel.v has the wrap). *)
Record mux := Mux {
  m_seed : Z;
  m_handlers : list (Z * hdl);
  m_globals : list hdl;
  m_self : list (Z * list hdl);
  m_anchors : list anchor;                  (* MiddlewareAnchors, in first-Use order *)
  m_amap : list (string * anchor);          (* MiddlewareAnchorMap *)
  m_ids : list (Z * Z);                     (* MessageIDAnchorMap: id -> AnchorIndex *)
  m_urls : list (string * list hdl);        (* urlMux.urlPatternMux *)
  m_urlids : list (string * Z);             (* urlMux.URLAnchorMap *)
  m_hb_on : bool; m_hb_id : Z; m_hb_through : bool;
  m_auth_on : bool; m_auth_id : Z; m_auth_through : bool;
  m_onmsg : option hdl }.

(* tcpx.go:108-116 NewTcpX, mux.go:52-69 NewMux *)
Definition new_mux : mux :=
  Mux 1 [] [] [] [] [] [] [] [] false 0 false false 0 false None.

Definition set_seed x m := Mux x (m_handlers m) (m_globals m) (m_self m) (m_anchors m) (m_amap m) (m_ids m) (m_urls m) (m_urlids m) (m_hb_on m) (m_hb_id m) (m_hb_through m) (m_auth_on m) (m_auth_id m) (m_auth_through m) (m_onmsg m).
Definition set_handlers x m := Mux (m_seed m) x (m_globals m) (m_self m) (m_anchors m) (m_amap m) (m_ids m) (m_urls m) (m_urlids m) (m_hb_on m) (m_hb_id m) (m_hb_through m) (m_auth_on m) (m_auth_id m) (m_auth_through m) (m_onmsg m).
Definition set_globals x m := Mux (m_seed m) (m_handlers m) x (m_self m) (m_anchors m) (m_amap m) (m_ids m) (m_urls m) (m_urlids m) (m_hb_on m) (m_hb_id m) (m_hb_through m) (m_auth_on m) (m_auth_id m) (m_auth_through m) (m_onmsg m).
Definition set_self x m := Mux (m_seed m) (m_handlers m) (m_globals m) x (m_anchors m) (m_amap m) (m_ids m) (m_urls m) (m_urlids m) (m_hb_on m) (m_hb_id m) (m_hb_through m) (m_auth_on m) (m_auth_id m) (m_auth_through m) (m_onmsg m).
Definition set_anchors x y m := Mux (m_seed m) (m_handlers m) (m_globals m) (m_self m) x y (m_ids m) (m_urls m) (m_urlids m) (m_hb_on m) (m_hb_id m) (m_hb_through m) (m_auth_on m) (m_auth_id m) (m_auth_through m) (m_onmsg m).
Definition set_ids x m := Mux (m_seed m) (m_handlers m) (m_globals m) (m_self m) (m_anchors m) (m_amap m) x (m_urls m) (m_urlids m) (m_hb_on m) (m_hb_id m) (m_hb_through m) (m_auth_on m) (m_auth_id m) (m_auth_through m) (m_onmsg m).
Definition set_urls x m := Mux (m_seed m) (m_handlers m) (m_globals m) (m_self m) (m_anchors m) (m_amap m) (m_ids m) x (m_urlids m) (m_hb_on m) (m_hb_id m) (m_hb_through m) (m_auth_on m) (m_auth_id m) (m_auth_through m) (m_onmsg m).
Definition set_urlids x m := Mux (m_seed m) (m_handlers m) (m_globals m) (m_self m) (m_anchors m) (m_amap m) (m_ids m) (m_urls m) x (m_hb_on m) (m_hb_id m) (m_hb_through m) (m_auth_on m) (m_auth_id m) (m_auth_through m) (m_onmsg m).
Definition set_hb on id thr m := Mux (m_seed m) (m_handlers m) (m_globals m) (m_self m) (m_anchors m) (m_amap m) (m_ids m) (m_urls m) (m_urlids m) on id thr (m_auth_on m) (m_auth_id m) (m_auth_through m) (m_onmsg m).
Definition set_auth on id thr m := Mux (m_seed m) (m_handlers m) (m_globals m) (m_self m) (m_anchors m) (m_amap m) (m_ids m) (m_urls m) (m_urlids m) (m_hb_on m) (m_hb_id m) (m_hb_through m) on id thr (m_onmsg m).
Definition set_onmsg x m := Mux (m_seed m) (m_handlers m) (m_globals m) (m_self m) (m_anchors m) (m_amap m) (m_ids m) (m_urls m) (m_urlids m) (m_hb_on m) (m_hb_id m) (m_hb_through m) (m_auth_on m) (m_auth_id m) (m_auth_through m) x.

(* Every API call gives the state it leaves behind and whether it panicked (the caller may
   recover the panic and go on with that state). *)
Definition out : Type := mux * bool.
Definition ok (m : mux) : out := (m, false).
Definition bad (m : mux) : out := (m, true).
(* sequencing: a panic ends the call *)
Definition andthen (o : out) (k : mux -> out) : out :=
  if snd o then o else k (fst o).

(* mux.go:98-100 CurrentAnchorIndex: atomic.AddInt32(&indexSeed, 1) *)
Definition next_index (m : mux) : Z := m_seed m + 1.
Definition tick (m : mux) : mux := set_seed (m_seed m + 1) m.

(* anchor.go:45-56 callUse; None = panic *)
Definition callUse (a : anchor) (i : Z) : option anchor :=
  if (List.length (a_ends a) <? List.length (a_starts a))%nat then None
  else Some (Anchor (a_key a) (a_fn a) (a_starts a ++ [i]) (a_ends a)).
(* anchor.go:58-69 callUnUse *)
Definition callUnUse (a : anchor) (i : Z) : option anchor :=
  if (List.length (a_starts a) <=? List.length (a_ends a))%nat then None
  else Some (Anchor (a_key a) (a_fn a) (a_starts a) (a_ends a ++ [i])).

(* mux.go:140-156 AddMiddlewareAnchor *)
Definition add_anchor (a : anchor) (m : mux) : mux :=
  if ahas (a_key a) (m_amap m) then m
  else set_anchors (m_anchors m ++ [a]) (aset (a_key a) a (m_amap m)) m.

(* the loop of mux.go:176-182: replace the first entry with the key *)
Fixpoint replace_anchor (a : anchor) (l : list anchor) : list anchor :=
  match l with
  | [] => []
  | x :: r => if String.eqb (a_key x) (a_key a) then a :: r else x :: replace_anchor a r
  end.
(* mux.go:159-183 ReplaceMiddlewareAnchor *)
Definition replace_middleware (a : anchor) (m : mux) : out :=
  if ahas (a_key a) (m_amap m)
  then ok (set_anchors (replace_anchor a (m_anchors m)) (aset (a_key a) a (m_amap m)) m)
  else bad m.

(* tcpx.go:272-291, the body of Use for one (key, function) pair.  An existing key's entry is
   a copy, the copy is extended and stored in the map only; the given function is dropped. *)
Definition use1 (k : string) (f : hdl) (m : mux) : out :=
  match aget k (m_amap m) with
  | Some a =>
      let m' := tick m in
      match callUse a (next_index m) with
      | None => bad m'
      | Some a' => ok (set_anchors (m_anchors m') (aset k a' (m_amap m')) m')
      end
  | None =>
      let m' := tick m in
      match callUse (Anchor k f [] []) (next_index m) with
      | None => bad m'
      | Some a' => ok (add_anchor a' m')
      end
  end.

(* arguments of Use are interface{} values *)
Inductive uarg := UKey (k : string) | UFn (f : hdl) | UOther.
(* tcpx.go:257-293 Use *)
Fixpoint use_pairs (l : list uarg) (m : mux) : out :=
  match l with
  | UKey k :: UFn f :: r => andthen (use1 k f m) (use_pairs r)
  | [] => ok m
  | _ => bad m                             (* a failed type assertion *)
  end.
Definition Use (l : list uarg) (m : mux) : out :=
  if Nat.even (List.length l) then use_pairs l m else bad m.

(* tcpx.go:309-315, the body of UnUse for one key *)
Definition unuse1 (k : string) (m : mux) : out :=
  match aget k (m_amap m) with
  | None => bad m
  | Some a =>
      let m' := tick m in
      match callUnUse a (next_index m) with
      | None => bad m'
      | Some a' => replace_middleware a' m'
      end
  end.
(* tcpx.go:306-316 UnUse *)
Fixpoint UnUse (ks : list string) (m : mux) : out :=
  match ks with
  | [] => ok m
  | k :: r => andthen (unuse1 k m) (UnUse r)
  end.

(* tcpx.go:320-325, mux.go:232-236 *)
Definition UseGlobal (l : list hdl) (m : mux) : out := ok (set_globals (m_globals m ++ l) m).

(* mux.go:84-95 AddHandleFunc *)
Definition AddHandleFunc (id : Z) (f : hdl) (m : mux) : out :=
  if ahas id (m_handlers m) then bad m else ok (set_handlers (aset id f (m_handlers m)) m).
(* mux.go:186-198 AddMessageIDAnchor *)
Definition AddMessageIDAnchor (id i : Z) (m : mux) : out :=
  if ahas id (m_ids m) then bad m else ok (set_ids (aset id i (m_ids m)) m).
(* mux.go:216-229 AddMessageIDSelfMiddleware, called with a non-empty list *)
Definition AddSelf (id : Z) (l : list hdl) (m : mux) : out :=
  if ahas id (m_self m) then bad m else ok (set_self (aset id l (m_self m)) m).

(* tcpx.go:329-344 AddHandler(id, ms..., f); AddHandler(id) with no handler panics at once and
   changes nothing (add_handler_nil). *)
Definition AddHandler (id : Z) (ms : list hdl) (f : hdl) (m : mux) : out :=
  andthen (match ms with [] => ok m | _ => AddSelf id ms m end) (fun m =>
  andthen (AddHandleFunc id f m) (fun m =>
  AddMessageIDAnchor id (next_index m) (tick m))).
Definition add_handler_nil (m : mux) : out := bad m.

(* url-mux.go:41-70 AddURLPatternHandler with readOnly = panicOnExistRouting = false.
   append may reuse the caller's backing array: the list is the same after the call, but can change when the
   caller goes on using its slice (SliceModel.v; not when the call lists the handlers). *)
Definition AddURLPatternHandler (p : string) (l : list hdl) (m : mux) : mux :=
  match aget p (m_urls m) with
  | Some h => set_urls (aset p (h ++ l) (m_urls m)) m
  | None => set_urls (aset p l (m_urls m)) m
  end.
(* mux.go:201-213 AddURLAnchor *)
Definition AddURLAnchor (p : string) (i : Z) (m : mux) : out :=
  if ahas p (m_urlids m) then bad m else ok (set_urlids (aset p i (m_urlids m)) m).
(* tcpx.go:346-362 Any *)
Definition Any (p : string) (l : list hdl) (m : mux) : out :=
  match l with
  | [] => bad m
  | _ =>
      let m := if (1 <? List.length l)%nat then AddURLPatternHandler p l m else m in
      let m := AddURLPatternHandler p l m in
      AddURLAnchor p (next_index m) (tick m)
  end.

(* tcpx.go:200-213 HeartBeatMode (through = false, id = 1392), 220-233 HeartBeatModeDetail *)
Definition HeartBeatModeDetail (on through : bool) (id : Z) (m : mux) : out :=
  let m := set_hb on id through m in
  if on then AddHandler id [] Beat m else ok m.
Definition DEFAULT_HEARTBEAT_MESSAGEID : Z := 1392.
Definition HeartBeatMode (on : bool) (m : mux) : out :=
  HeartBeatModeDetail on false DEFAULT_HEARTBEAT_MESSAGEID m.

(* tcpx.go:248-251 removeHandler: handler and anchor, not the handler's own middlewares *)
Definition removeHandler (id : Z) (m : mux) : mux :=
  set_ids (adel id (m_ids m)) (set_handlers (adel id (m_handlers m)) m).
(* tcpx.go:239-244 RewriteHeartBeatHandler *)
Definition RewriteHeartBeatHandler (id : Z) (f : hdl) (m : mux) : out :=
  let m := removeHandler (m_hb_id m) m in
  AddHandler id [] f (set_hb (m_hb_on m) id (m_hb_through m) m).

(* tcpx.go:125-136 WithAuthDetail *)
Definition WithAuthDetail (yes through : bool) (id : Z) (f : hdl) (m : mux) : out :=
  let m := set_auth yes id through m in
  if yes then AddHandler id [] f m else ok m.

(* the API calls, Use and UnUse taking one pair / one key each *)
Inductive op :=
| OUse (k : string) (f : hdl)
| OUnUse (k : string)
| OGlobal (l : list hdl)
| OAdd (id : Z) (ms : list hdl) (f : hdl)
| OAny (p : string) (l : list hdl)
| OBeat (on through : bool) (id : Z)
| ORewrite (id : Z) (f : hdl)
| OAuth (yes through : bool) (id : Z) (f : hdl)
| OOnMessage (f : option hdl).             (* srv.OnMessage = f *)

Definition step (o : op) (m : mux) : out :=
  match o with
  | OUse k f => Use [UKey k; UFn f] m
  | OUnUse k => UnUse [k] m
  | OGlobal l => UseGlobal l m
  | OAdd id ms f => AddHandler id ms f m
  | OAny p l => Any p l m
  | OBeat on thr id => HeartBeatModeDetail on thr id m
  | ORewrite id f => RewriteHeartBeatHandler id f m
  | OAuth yes thr id f => WithAuthDetail yes thr id f m
  | OOnMessage f => ok (set_onmsg f m)
  end.

(* a configuration: the calls made so far, the newest first; panics are recovered *)
Fixpoint build (h : list op) : mux :=
  match h with
  | [] => new_mux
  | o :: p => fst (step o (build p))
  end.

(* anchor.go:97-120 Contains.  [windows] is the loop over closed windows; index out of range
   is a panic. *)
Fixpoint windows (starts ends : list Z) (i : Z) : res bool :=
  match ends, starts with
  | [], _ => Ok false
  | e :: es, s :: ss => if (s <=? i) && (i <=? e) then Ok true else windows ss es i
  | _ :: _, [] => Panic
  end.
Definition Contains (a : anchor) (i : Z) : res bool :=
  if (List.length (a_starts a) =? List.length (a_ends a))%nat
  then windows (a_starts a) (a_ends a) i
  else match rev (a_starts a) with
       | [] => Panic                        (* AnchorStartIndexRange[-1] *)
       | s :: _ => if s <=? i then Ok true else windows (a_starts a) (a_ends a) i
       end.

(* tcpx.go:918-934, 976-984: the anchors that contain the index, in slice order *)
Fixpoint select_anchors (l : list anchor) (i : Z) : res (list hdl) :=
  match l with
  | [] => Ok []
  | a :: r =>
      b <- Contains a i ;;
      rest <- select_anchors r i ;;
      Ok (if b then a_fn a :: rest else rest)
  end.

(* What handling a request does with handlers. *)
Inductive plan :=
| Unrouted                    (* logged, nothing runs *)
| Direct (f : hdl)            (* handler(ctx), no chain *)
| RunChain (l : list hdl)     (* ctx.handlers = l; ctx.Next() *)
| PlanPanic.                  (* panic while choosing *)

(* tcpx.go:874-887 handleOnMessage, given tcpx.OnMessage = f *)
Definition plan_onmessage (f : hdl) (m : mux) : plan :=
  RunChain (m_globals m ++ map a_fn (m_anchors m) ++ [f]).

(* tcpx.go:890-945 handleMessageIDHandlers, after the message id was read *)
Definition plan_id (id : Z) (m : mux) : plan :=
  match aget id (m_handlers m) with
  | None => Unrouted
  | Some f =>
      if (id =? m_hb_id m) && negb (m_hb_through m) then Direct f
      else if (id =? m_auth_id m) && negb (m_auth_through m) then Direct f
      else match aget id (m_ids m) with
           | None => PlanPanic                    (* mux.go:103-112 *)
           | Some i =>
               match select_anchors (m_anchors m) i with
               | Ok l =>
                   RunChain (m_globals m ++ l
                             ++ match aget id (m_self m) with Some s => s | None => [] end
                             ++ [f])
               | _ => PlanPanic
               end
           end
  end.

(* tcpx.go:948-992 handleURLPatternHandlers, after the url pattern was read *)
Definition plan_url (p : string) (m : mux) : plan :=
  match aget p (m_urls m) with
  | None => Unrouted
  | Some hs =>
      match aget p (m_urlids m) with
      | None => PlanPanic                         (* mux.go:114-123 *)
      | Some i =>
          match select_anchors (m_anchors m) i with
          | Ok l => RunChain (m_globals m ++ l ++ hs)
          | _ => PlanPanic
          end
      end
  end.

(* tcpx.go:853-871 handleMiddleware: how the message says it is to be routed (its router type
   and id / pattern, see RequestModel.v), and the resulting plan *)
Inductive routing := ById (id : Z) | ByURL (u : string) | ByNothing.
Definition plan_of (r : routing) (m : mux) : plan :=
  match m_onmsg m with
  | Some f => plan_onmessage f m
  | None =>
      match r with
      | ById id => plan_id id m
      | ByURL u => plan_url u m
      | ByNothing => Unrouted
      end
  end.

(* the API as called by users: Use and UnUse with whole argument lists, AddHandler without
   handlers, HeartBeatMode *)
Inductive api :=
| AUse (l : list uarg)
| AUnUse (ks : list string)
| AAddNothing (id : Z)
| AHeartBeatMode (on : bool)
| ACall (o : op).
Definition api_step (a : api) (m : mux) : out :=
  match a with
  | AUse l => Use l m
  | AUnUse ks => UnUse ks m
  | AAddNothing _ => add_handler_nil m
  | AHeartBeatMode on => HeartBeatMode on m
  | ACall o => step o m
  end.
Fixpoint api_build (h : list api) : mux :=
  match h with
  | [] => new_mux
  | a :: p => fst (api_step a (api_build p))
  end.

(* tcpx.go:388-394 checkPrepare with anchor.go:122-128; false = panic *)
Definition check_valid (a : anchor) : bool :=
  (List.length (a_starts a) =? List.length (a_ends a))%nat
  || (List.length (a_starts a) =? List.length (a_ends a) + 1)%nat.
Definition checkPrepare (m : mux) : bool := forallb check_valid (m_anchors m).
