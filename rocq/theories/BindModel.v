(* Model of what handlers and small clients use on top of the wire functions: context.go:347-349
   (Bind), 609-617 (BindWithMarshaller, RawStream), 658-660 (SendToConn); pack-type.go:71-86;
   utils.go:201-222 (TCPCallOnceJSON); and of what OnConnect leaves in the connection's context
   (tcpx.go:537-539, context.go:79-104).  No proofs in this file. *)
From Verif Require Export ServerModel ClientModel.

Section Bind.
  Context {V : Type} (E : env V).

  (* packx.go:81-83 Packx.Unpack; [mar] = packx.Marshaller *)
  Definition PackxUnpack (mar : marshaller V) (stream : gslice) (dest : option V) : res (message V) :=
    UnpackWithMarshaller E stream dest (Some mar).
  (* packx.go:28-36 NewPackx *)
  Definition NewPackx (mo : option (marshaller V)) : marshaller V := or_json E mo.

  (* context.go:347-349 Bind, [mar] = ctx.Packx.Marshaller; 609-611 BindWithMarshaller *)
  Definition Bind (mar : marshaller V) (c : ctx) (dest : option V) : res (message V) := PackxUnpack mar (c_stream c) dest.
  Definition BindWithMarshaller (c : ctx) (dest : option V) (mo : option (marshaller V)) : res (message V) :=
    PackxUnpack (NewPackx mo) (c_stream c) dest.
  (* context.go:615-617 *)
  Definition RawStream (c : ctx) : res gslice := BodyBytesOf (c_stream c).

  (* context.go:658-660 SendToConn: a Reply on the other context, [mar] its marshaller *)
  Definition SendToConn (mar : marshaller V) (id : Z) (src : option V) (hs : list header) (werr : option gerr) :=
    Reply E mar id src hs werr.

  (* pack-type.go:71-78, 80-86 *)
  Definition PackTypeURLPattern (pt : gslice) : res string := rwrap (URLPatternOf (e_hdr E) pt).
  Definition PackTypeMessageID (pt : gslice) : res Z := rwrap (MessageIDOf pt).

  (* utils.go:201-222 TCPCallOnceJSON.  Once connected the deferred Close always runs, last.
     [derr], [werr]: the errors of dialling and of Write; a short Write without an error is not
     noticed (one Write call, count ignored). *)
  Inductive nev := NDial | NWrite (b : bytes) | NClose.
  Definition TCPCallOnceJSON (messageID : Z) (data : option V) (derr werr : option gerr) : res unit * list nev :=
    match derr with
    | Some e => (Err (EWrap e), [NDial])
    | None =>
        match PackWithMarshaller E (Msg (to_int32 messageID) None data) (Some (JsonMarshaller E)) with
        | Err e => (Err (EWrap e), [NDial; NClose])
        | Panic => (Panic, [NDial; NClose])
        | Ok buf => (match werr with Some e => Err (EWrap e) | None => Ok tt end, [NDial; NWrite buf; NClose])
        end
    end.
End Bind.

(* tcpx.go:537-539: OnConnect is handed the connection's own context, which has no handlers and
   offset -1 (context.go:177-193); copyContext (context.go:95) gives every request of the
   connection the offset OnConnect left.  None: OnConnect panicked. *)
Definition connected_offset (acts : list act) : option Z :=
  match exec (fun o => run_from o (Chain [] (fun _ => []))) acts (-1) with
  | Some (_, Returned, o) => Some o
  | _ => None
  end.
