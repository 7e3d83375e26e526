(* Client-side helpers: PipeJSON, WriteJSON, WriteConn, write, the Python client.
   No proofs in this file. *)
From Verif Require Export WireModel JsonModel.

(* ------------------------------------------------------------------ *)
(* utils.go:99-116 WriteConn and utils.go:265-286 write *)

(* One conn.Write(buf) call: how many bytes of [buf] the connection took and the
   error it returned. *)
Record wres := W { w_n : nat; w_err : option gerr }.

Inductive wout := WDone (r : res unit) | WBlocked.   (* WBlocked: no further Write result available *)

(* The loop passes the whole buffer again on every iteration (utils.go:102, 275-276:
   [slice] is reset to buf at the top of the loop).  Result: outcome and the bytes the
   connection accepted so far. *)
Fixpoint write_loop (wrap : gerr -> gerr) (buf : bytes) (sum : nat) (ws : list wres) : wout * bytes :=
  match ws with
  | [] => (WBlocked, [])
  | W n e :: ws' =>
      let took := firstn n buf in
      match e with
      | Some x => (WDone (Err (wrap x)), took)
      | None =>
          if Nat.leb (List.length buf) (sum + n) then (WDone (Ok tt), took)
          else let (o, rest) := write_loop wrap buf (sum + n) ws' in (o, took ++ rest)
      end
  end.

(* utils.go:104-109: io.EOF is returned unchanged, anything else wrapped *)
Definition eof_or_wrap (e : gerr) : gerr := match e with EEOF => EEOF | _ => EWrap e end.

Definition WriteConn (buf : bytes) (ws : list wres) : wout * bytes :=
  write_loop eof_or_wrap buf 0 ws.

Definition write_ (buf : bytes) (ws : list wres) : wout * bytes :=
  match buf with
  | [] => (WDone (Ok tt), [])
  | _ => write_loop (fun e => e) buf 0 ws
  end.

(* ------------------------------------------------------------------ *)
(* utils.go:146-199 PipeJSON *)

Section Pipe.
  Context {V : Type} (E : env V).

  (* an element of args ...interface{}: a Go int (with the same value seen as a message
     body), a value of another type, or nil *)
  Inductive garg := GInt (z : Z) (v : V) | GVal (v : V) | GNil.

  Definition arg_body (a : garg) : option V :=
    match a with GInt _ v => Some v | GVal v => Some v | GNil => None end.

  (* utils.go:172: fmt.Sprintf("enable;%d", num) *)
  Definition pipe_marker (num : Z) : string := String.append "enable;" (itoa num).

  (* utils.go:160-190, from index i; [first] is i == 0.  A nil args[i] makes
     reflect.TypeOf(args[i]).Name() panic (utils.go:163). *)
  Fixpoint pipe_loop (num : Z) (first : bool) (args : list garg) : res bytes :=
    match args with
    | a :: b :: rest =>
        match a with
        | GInt messageID _ =>
            let h := if first then Some [(PIPED, JStr (pipe_marker num))] else None in
            buf <- rwrap (PackWithMarshaller E (Msg (to_int32 messageID) h (arg_body b)) (Some (JsonMarshaller E))) ;;
            more <- pipe_loop num false rest ;;
            Ok (buf ++ more)
        | GVal _ => Err (EMsg "wrong type")
        | GNil => Panic
        end
    | _ => Ok []
    end.

  (* Result of the call and the list of buffers passed to conn.Write; [werr] is the error
     conn.Write returns. *)
  Definition PipeJSON (args : list garg) (werr : option gerr) : res unit * list bytes :=
    match args with
    | [] => (Ok tt, [])
    | _ =>
      if negb (Z.of_nat (List.length args) mod 2 =? 0) then (Err (EMsg "iligal args"), []) else
      let num := Z.of_nat (List.length args) / 2 in
      match pipe_loop num true args with
      | Ok allBuf =>
          if blen allBuf =? 0 then (Ok tt, [])
          else (match werr with None => Ok tt | Some e => Err (EWrap e) end, [allBuf])
      | Err e => (Err e, [])
      | Panic => (Panic, [])
      end
    end.

  (* utils.go:124-140 WriteJSON *)
  Definition WriteJSON (messageID : Z) (src : option V) (werr : option gerr) : res unit * list bytes :=
    match PackWithMarshaller E (Msg messageID None src) (Some (JsonMarshaller E)) with
    | Ok buf => (match werr with None => Ok tt | Some e => Err (EWrap e) end, [buf])
    | Err e => (Err (EWrap e), [])
    | Panic => (Panic, [])
    end.
End Pipe.
Arguments GInt {V}. Arguments GVal {V}. Arguments GNil {V}.

(* ------------------------------------------------------------------ *)
(* all-language-clients/python/protocol.py; the body/header serializers are outside: [pack]
   starts from header and body bytes, [unpack] stops at header and body bytes. *)

(* int.to_bytes(4, 'big'): OverflowError (None) for negative or too large numbers *)
Definition py_to_bytes4 (z : Z) : option bytes :=
  if (0 <=? z) && (z <? 2 ^ 32)
  then Some [byte_of (z / 2 ^ 24); byte_of (z / 2 ^ 16); byte_of (z / 2 ^ 8); byte_of z] else None.

(* int.from_bytes(b, 'big') *)
Definition py_from_bytes (b : bytes) : Z := fold_left (fun a c => a * 256 + code c) b 0.

(* data[lo:hi] and data[lo:] for non-negative bounds *)
Definition py_slice (b : bytes) (lo hi : nat) : bytes := skipn lo (firstn hi b).

(* protocol.py:17-39 *)
Definition py_pack (id : Z) (header body : bytes) : option bytes :=
  match py_to_bytes4 id, py_to_bytes4 (blen header), py_to_bytes4 (blen body) with
  | Some i, Some h, Some b =>
      let packet := i ++ h ++ b ++ header ++ body in
      match py_to_bytes4 (blen packet) with
      | Some l => Some (l ++ packet)
      | None => None
      end
  | _, _, _ => None
  end.

(* protocol.py:41-51: id, header, body *)
Definition py_unpack (data : bytes) : Z * bytes * bytes :=
  let packet := skipn 4 data in
  let header_length := Z.to_nat (py_from_bytes (py_slice packet 4 8)) in
  let body_length := Z.to_nat (py_from_bytes (py_slice packet 8 12)) in
  (py_from_bytes (py_slice packet 0 4),
   py_slice data 16 (16 + header_length),
   py_slice data (16 + header_length) (16 + header_length + body_length)).
