(* Model of context.go's stores, router type and replies: which sync.Map every context points
   to, what each call loads and stores.  No proofs in this file
   except that keys have decidable equality.
   Every load and store of a sync.Map is one atomic step, so a history is any interleaving of
   the calls of all goroutines; calls that make several accesses (RouterType, GetURLPattern,
   HeartBeatChan) are one step here.  The races of the first two are in FineModel.v, those of
   HeartBeatChan in WatchModel.v. *)
From Verif Require Export WireModel MuxModel.

(* keys and values are interface{}: a string, a channel, or something else *)
Inductive ckey := KStr (s : string) | KOther (n : nat).
Inductive cval := VStr (s : string) | VChan (n : nat) | VOther (n : nat).
Definition ckeqb (a b : ckey) : bool :=
  match a, b with
  | KStr s, KStr t => String.eqb s t
  | KOther n, KOther m => Nat.eqb n m
  | _, _ => false
  end.
Lemma ckeqb_eq a b : ckeqb a b = true <-> a = b.
Proof.
  destruct a, b; simpl; split; intros H; try discriminate.
  - apply String.eqb_eq in H. congruence.
  - inversion H. apply String.eqb_refl.
  - apply Nat.eqb_eq in H. congruence.
  - inversion H. apply Nat.eqb_refl.
Qed.
#[global] Instance EqK_ckey : EqK ckey := {| keqb := ckeqb; keqb_eq := ckeqb_eq |}.

(* a *sync.Map is a reference into the heap *)
Definition smap := list (ckey * cval).
Definition heap := list (nat * smap).
Definition hp (H : heap) (r : nat) : smap := match aget r H with Some m => m | None => [] end.
Definition Load (H : heap) (r : nat) (k : ckey) : option cval := aget k (hp H r).
Definition Store (H : heap) (r : nat) (k : ckey) (v : cval) : heap := aset r (aset k v (hp H r)) H.

(* context.go:25-75, the fields used here.  [c_pc] = PerConnectionContext (None = nil),
   [c_pr] = PerRequestContext, [c_tcp] = (Conn != nil); a context without Conn has Addr and
   PacketConn (NewUDPContext). *)
Record ctx := Ctx { c_tcp : bool; c_pc : option nat; c_pr : nat; c_stream : gslice }.

(* the contexts created so far, in order, and the heap of maps; [w_next] = first unused
   map reference; [w_chans] = HeartBeatChan calls so far *)
Record world := World { w_ctxs : list ctx; w_heap : heap; w_next : nat; w_chans : nat }.
Definition world0 : world := World [] [] 0 0.

Definition nostream : gslice := of_bytes [].

(* context.go:177-193 NewContext *)
Definition NewContext (w : world) : world :=
  World (w_ctxs w ++ [Ctx true (Some (w_next w)) (S (w_next w)) nostream]) (w_heap w) (S (S (w_next w))) (w_chans w).

(* context.go:203-220 NewUDPContext, then ctx.Stream = s (tcpx.go:691) *)
Definition NewUDPContext (s : gslice) (w : world) : world :=
  World (w_ctxs w ++ [Ctx false None (w_next w) s]) (w_heap w) (S (w_next w)) (w_chans w).

Fixpoint upd {A} (l : list A) (i : nat) (a : A) : list A :=
  match l, i with
  | [], _ => []
  | _ :: l', O => a :: l'
  | x :: l', S i' => x :: upd l' i' a
  end.

(* tcpx.go:566 ctx.Stream = s, then context.go:79-104 copyContext: the copy's
   PerRequestContext is the original's PerConnectionContext.  (A nil PerConnectionContext can
   not happen here: only TCP connection contexts are copied with a stream.) *)
Definition set_stream (c : ctx) (s : gslice) : ctx := Ctx (c_tcp c) (c_pc c) (c_pr c) s.
Definition copyContext (c : ctx) : ctx :=
  Ctx (c_tcp c) (c_pc c) (match c_pc c with Some r => r | None => c_pr c end) (c_stream c).
Definition read_message (x : nat) (c : ctx) (s : gslice) (w : world) : world :=
  World (upd (w_ctxs w) x (set_stream c s) ++ [copyContext (set_stream c s)]) (w_heap w) (w_next w) (w_chans w).

(* context.go:243-254 ConnectionProtocolType() == "udp" *)
Definition is_udp (c : ctx) : bool := negb (c_tcp c).

Definition set_heap (w : world) (H : heap) : world := World (w_ctxs w) H (w_next w) (w_chans w).

(* context.go:412-418 *)
Definition SetCtxPerRequest (c : ctx) (k : ckey) (v : cval) (w : world) : world :=
  set_heap w (Store (w_heap w) (c_pr c) k v).
Definition GetCtxPerRequest (c : ctx) (k : ckey) (w : world) : option cval := Load (w_heap w) (c_pr c) k.

(* context.go:395-401 setCtxPerConn; None = nil pointer dereference *)
Definition setCtxPerConn (c : ctx) (k : ckey) (v : cval) (w : world) : option world :=
  if is_udp c then Some (SetCtxPerRequest c k v w)
  else match c_pc c with
       | Some r => Some (set_heap w (Store (w_heap w) r k v))
       | None => None
       end.
(* context.go:354-366 SetCtxPerConn *)
Definition reserved (k : ckey) : bool :=
  match k with KStr s => prefix "tcpx-" s | KOther _ => false end.
Definition SetCtxPerConn (c : ctx) (k : ckey) (v : cval) (w : world) : option world :=
  if reserved k then None else setCtxPerConn c k v w.
(* context.go:405-410 GetCtxPerConn; on a tcp context PerConnectionContext is never nil *)
Definition GetCtxPerConn (c : ctx) (k : ckey) (w : world) : option cval :=
  if is_udp c then GetCtxPerRequest c k w
  else match c_pc c with Some r => Load (w_heap w) r k | None => None end.

(* context.go:390-392 SetUsername, 370-376 Username (a non-string value panics) *)
Definition k_username : ckey := KStr "tcpx-username".
Definition SetUsername (c : ctx) (u : string) (w : world) : option world :=
  setCtxPerConn c k_username (VStr u) w.
Definition Username (c : ctx) (w : world) : res (option string) :=
  match GetCtxPerConn c k_username w with
  | None => Ok None
  | Some (VStr u) => Ok (Some u)
  | Some _ => Panic
  end.

(* context.go:621-636 HeartBeatChan: the channel and the new world.  A channel is named by the call
   that made it: [w_chans] counts the calls so far. *)
Definition k_heart : ckey := KStr "tcpx-heart-beat-channel".
Definition HeartBeatChan (c : ctx) (w : world) : option (nat * world) :=
  let n := w_chans w in
  let w1 := World (w_ctxs w) (w_heap w) (w_next w) (S n) in
  match GetCtxPerConn c k_heart w with
  | Some (VChan m) => Some (m, w1)
  | _ => match setCtxPerConn c k_heart (VChan n) w1 with
         | Some w' => Some (n, w')
         | None => None
         end
  end.

Section Codec.
  Context (hc : hcodec).

  (* context.go:701-729: the router type written in the message itself *)
  Definition own_router_type (s : gslice) : res string :=
    if glen s =? 0 then Ok MESSAGEID else
    match HeaderOf hc s with
    | Panic => Panic
    | Err _ => Ok MESSAGEID
    | Ok header =>
        if Nat.eqb (hlen header) 0 then Ok MESSAGEID else
        match hget HEADER_ROUTER_KEY header with
        | None => Ok MESSAGEID
        | Some (JStr t) => if String.eqb t MESSAGEID then Ok MESSAGEID else Ok t
        | Some _ => Ok MESSAGEID
        end
    end.

  (* context.go:691-730 routerType: value and whether it was cached *)
  Definition k_router : ckey := KStr "router_type".
  Definition routerType (c : ctx) (w : world) : res (string * bool) :=
    match GetCtxPerRequest c k_router w with
    | Some (VStr t) => Ok (t, true)
    | _ => t <- own_router_type (c_stream c) ;; Ok (t, false)
    end.
  (* context.go:682-688 RouterType; the receiver is a copy of the context, the map is shared *)
  Definition RouterType (c : ctx) (w : world) : res string * world :=
    match routerType c w with
    | Ok (t, true) => (Ok t, w)
    | Ok (t, false) => (Ok t, set_heap w (Store (w_heap w) (c_pr c) k_router (VStr t)))
    | Err e => (Err e, w)
    | Panic => (Panic, w)
    end.

  (* context.go:769-784 GetURLPattern *)
  Definition k_url : ckey := KStr "url_pattern".
  Definition GetURLPattern (c : ctx) (w : world) : res string * world :=
    match GetCtxPerRequest c k_url w with
    | Some (VStr p) => (Ok p, w)
    | _ =>
        match URLPatternOf hc (c_stream c) with
        | Ok p => (Ok p, set_heap w (Store (w_heap w) (c_pr c) k_url (VStr p)))
        | Err e => (Err (EWrap e), w)
        | Panic => (Panic, w)
        end
    end.

  (* tcpx.go:853-871 handleMiddleware (OnMessage == nil), 890-895, 948-953: the routing of the
     context's message.  RouterType is called again for the second test and for the log line. *)
  Definition route (c : ctx) (w : world) : res routing * world :=
    match RouterType c w with
    | (Ok t, w1) =>
        if String.eqb t MESSAGEID then
          (match MessageIDOf (c_stream c) with
           | Ok id => Ok (ById id)
           | Err _ => Ok ByNothing                 (* logged *)
           | Panic => Panic
           end, w1)
        else
          match RouterType c w1 with
          | (Ok t', w2) =>
              if String.eqb t' URLPATTERN then
                (match URLPatternOf hc (c_stream c) with
                 | Ok u => Ok (ByURL u)
                 | Err _ => Ok ByNothing
                 | Panic => Panic
                 end, w2)
              else (Ok ByNothing, w2)
          | (Err e, w2) => (Err e, w2)
          | (Panic, w2) => (Panic, w2)
          end
    | (Err e, w1) => (Err e, w1)
    | (Panic, w1) => (Panic, w1)
    end.

  (* context.go:574-582 Reset, as far as the stores are concerned *)
  Definition Reset (x : nat) (c : ctx) (w : world) : world :=
    World (upd (w_ctxs w) x (Ctx (c_tcp c) (c_pc c) (w_next w) (c_stream c))) (w_heap w) (S (w_next w)) (w_chans w).

  (* the calls a history consists of; contexts are named by order of creation.  [CRead x s] is
     only issued by the server loop, on the context NewContext made. *)
  Inductive cop :=
  | CAccept
  | CDatagram (s : gslice)
  | CRead (x : nat) (s : gslice)
  | CSetConn (x : nat) (k : ckey) (v : cval)
  | CSetReq (x : nat) (k : ckey) (v : cval)
  | CSetUser (x : nat) (u : string)
  | CRouter (x : nat)
  | CURL (x : nat)
  | CReset (x : nat)
  | CHeart (x : nat).

  (* a call on a context that does not exist changes nothing; a panicking call changes nothing *)
  Definition on (x : nat) (w : world) (f : ctx -> world) : world :=
    match nth_error (w_ctxs w) x with Some c => f c | None => w end.
  Definition orsame (w : world) (o : option world) : world := match o with Some w' => w' | None => w end.

  Definition cstep (o : cop) (w : world) : world :=
    match o with
    | CAccept => NewContext w
    | CDatagram s => NewUDPContext s w
    | CRead x s => on x w (fun c => if c_tcp c then read_message x c s w else w)
    | CSetConn x k v => on x w (fun c => orsame w (SetCtxPerConn c k v w))
    | CSetReq x k v => on x w (fun c => SetCtxPerRequest c k v w)
    | CSetUser x u => on x w (fun c => orsame w (SetUsername c u w))
    | CRouter x => on x w (fun c => snd (RouterType c w))
    | CURL x => on x w (fun c => snd (GetURLPattern c w))
    | CReset x => on x w (fun c => Reset x c w)
    | CHeart x => on x w (fun c => match HeartBeatChan c w with Some (_, w') => w' | None => w end)
    end.

  (* newest call first *)
  Fixpoint crun (h : list cop) : world :=
    match h with [] => world0 | o :: p => cstep o (crun p) end.
End Codec.

(* ------------------------------------------------------------------ *)
(* Replies *)

Section Reply.
  Context {V : Type} (E : env V).

  (* context.go:505-521 replyBuf: result and the buffers written; [werr] = error of
     Conn.Write / PacketConn.WriteTo *)
  Definition replyBuf (werr : option gerr) (buf : bytes) : res unit * list bytes :=
    (match werr with None => Ok tt | Some e => Err (EWrap e) end, [buf]).

  Definition send (werr : option gerr) (wrap : bool) (r : res bytes) : res unit * list bytes :=
    match r with
    | Ok buf => let (o, ws) := replyBuf werr buf in ((if wrap then rwrap o else o), ws)
    | Err e => (Err (EWrap e), [])
    | Panic => (Panic, [])
    end.

  (* context.go:421-429 Reply; [mar] = ctx.Packx.Marshaller (never nil, packx.go:30-32) *)
  Definition Reply (mar : marshaller V) (id : Z) (src : option V) (hs : list header) (werr : option gerr) :=
    send werr false (PackxPack E mar id src hs).

  (* context.go:464-488 commonReply *)
  Definition commonReply (mar : marshaller V) (name : string) (id : Z) (src : option V) (hs : list header) (werr : option gerr)
    : res unit * list bytes :=
    if negb (String.eqb (m_name mar) name) then
      match GetMarshallerByMarshalName E name with
      | Ok m => send werr true (PackxPack E m id src hs)
      | Err e => (Err (EWrap e), [])
      | Panic => (Panic, [])
      end
    else send werr false (PackxPack E mar id src hs).

  (* context.go:436-462 *)
  Definition ctxJSON mar := commonReply mar "json".
  Definition ctxXML mar := commonReply mar "xml".
  Definition ctxTOML mar := commonReply mar "toml".
  Definition ctxYAML mar := commonReply mar "yaml".
  Definition ctxProtoBuf mar := commonReply mar "protobuf".

  (* context.go:490-502 commonReplyWithMarshaller (431-433 ReplyWithMarshaller) *)
  Definition ReplyWithMarshaller (mo : option (marshaller V)) (id : Z) (src : option V) (hs : list header) (werr : option gerr) :=
    send werr true (PackxPack E (or_json E mo) id src hs).

  (* context.go:733-746 JSONURLPattern, 750-765 ProtobufURLPattern *)
  Definition reply_url (m : marshaller V) (c : ctx) (src : option V) (werr : option gerr) (w : world)
    : (res unit * list bytes) * world :=
    match GetURLPattern (e_hdr E) c w with
    | (Ok p, w') => (send werr true (MessagePack E (NewURLPatternMessage p src) (Some m)), w')
    | (Err e, w') => ((Err (EWrap e), []), w')
    | (Panic, w') => ((Panic, []), w')
    end.
  Definition JSONURLPattern := reply_url (JsonMarshaller E).
  Definition ProtobufURLPattern := reply_url (ProtobufMarshaller E).
End Reply.
