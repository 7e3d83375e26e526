(* Model of the Python client, all-language-clients/python/protocol.py and test.py.  A Python
   exception is [Err]; its class is kept in the message.  No proofs in this file.
   Simplifications: json.dumps / json.loads and the protobuf methods are parameters (they are
   Python's, not the repository's), and so is decoding the body as utf-8, which is part of
   [y_loads].  The response object of unpack is not represented: ParseFromString clears it first,
   so the result depends on the bytes alone. *)
From Verif Require Export ReaderModel.

(* What the client is linked against.  H: headers, B: bodies.  None: the call raises. *)
Record pyenv (H B : Type) := PyEnv {
  y_header : H -> option bytes;     (* bytes(json.dumps(header), 'utf-8') *)
  y_dumps : B -> option bytes;      (* bytes(json.dumps(body), 'utf-8') *)
  y_loads : bytes -> option B;      (* json.loads(_body.decode('utf-8')) *)
  y_ser : B -> option bytes;        (* body.SerializeToString() *)
  y_parse : bytes -> option B       (* response.ParseFromString(_body) *)
}.
Arguments PyEnv {H B}. Arguments y_header {H B}. Arguments y_dumps {H B}. Arguments y_loads {H B}.
Arguments y_ser {H B}. Arguments y_parse {H B}.

(* protocol.py:4-7 TCPXMessage; id is None until set.  A packed message carries a header object,
   an unpacked one the header's bytes (protocol.py:45). *)
Record pymsg (H B : Type) := PyMsg { ym_id : option Z; ym_header : H; ym_body : B }.
Arguments PyMsg {H B}. Arguments ym_id {H B}. Arguments ym_header {H B}. Arguments ym_body {H B}.

(* Python: x.to_bytes(4, 'big'), unsigned *)
Definition to_bytes4 (x : Z) : res bytes :=
  if (0 <=? x) && (x <? two32) then Ok (map (fun k => byte_of (x / 256 ^ k)) [3; 2; 1; 0])
  else Err (EMsg "OverflowError").

(* Python: int.from_bytes(b, 'big'), unsigned; 0 for no bytes *)
Definition from_bytes (b : bytes) : Z := fold_left (fun a c => 256 * a + code c) b 0.

(* Python: b[lo:hi] for 0 <= lo, hi: bounds beyond the end are the end *)
Definition pyslice (b : bytes) (lo hi : Z) : bytes :=
  let lo := Z.to_nat (Z.min lo (blen b)) in
  let hi := Z.to_nat (Z.min hi (blen b)) in
  firstn (hi - lo) (skipn lo b).

Definition raised {A} (what : string) (x : option A) : res A :=
  match x with Some a => Ok a | None => Err (EMsg what) end.

Section Client.
  Context {H B : Type} (E : pyenv H B).

  (* protocol.py:20-25 *)
  Definition py_body (serializer : string) (body : B) : res bytes :=
    if String.eqb serializer "json" then raised "TypeError" (y_dumps E body)
    else if String.eqb serializer "protobuf" then raised "EncodeError" (y_ser E body)
    else Err (EMsg "serializer only support json, protobuf").

  (* protocol.py:15-36 pack *)
  Definition py_pack (serializer : string) (m : pymsg H B) : res bytes :=
    _body <- py_body serializer (ym_body m) ;;
    id <- raised "AttributeError" (ym_id m) ;;
    _id <- to_bytes4 id ;;
    _header <- raised "TypeError" (y_header E (ym_header m)) ;;
    _header_length <- to_bytes4 (blen _header) ;;
    _body_length <- to_bytes4 (blen _body) ;;
    let _packet := _id ++ _header_length ++ _body_length ++ _header ++ _body in
    _length <- to_bytes4 (blen _packet) ;;
    Ok (_length ++ _packet).

  (* protocol.py:48-55 *)
  Definition py_load (serializer : string) (_body : bytes) : res B :=
    if String.eqb serializer "json" then raised "ValueError" (y_loads E _body)
    else if String.eqb serializer "protobuf" then raised "DecodeError" (y_parse E _body)
    else Err (EMsg "serializer only support json, protobuf").

  (* protocol.py:38-56 unpack *)
  Definition py_unpack (serializer : string) (data : bytes) : res (pymsg bytes B) :=
    let _packet := skipn 4 data in
    let _header_length := from_bytes (pyslice _packet 4 8) in
    let _body_length := from_bytes (pyslice _packet 8 12) in
    let id := from_bytes (pyslice _packet 0 4) in
    let header := pyslice data 16 (16 + _header_length) in
    let _body := pyslice data (16 + _header_length) (16 + _header_length + _body_length) in
    body <- py_load serializer _body ;;
    Ok (PyMsg (Some id) header body).

  (* Python: socket.recv(k) on a stream socket, k > 0: the bytes that are there, at most k of them;
     no bytes when the peer has closed.  (An event of no bytes is no arrival on a socket.) *)
  Fixpoint py_recv (k : nat) (r : reader) : rdres bytes * reader :=
    match r with
    | [] => (RdBlocked, [])
    | RData [] :: r' => py_recv k r'
    | RData bs :: r' =>
        (RdOk (firstn k bs), if (List.length bs <=? k)%nat then r' else RData (skipn k bs) :: r')
    | RDataFail (c :: cs) e :: r' =>
        (RdOk (firstn k (c :: cs)),
         if (List.length (c :: cs) <=? k)%nat then RFail e :: r' else RDataFail (skipn k (c :: cs)) e :: r')
    | RFail EEOF :: _ | RDataFail [] EEOF :: _ => (RdOk [], r)
    | RFail e :: _ | RDataFail [] e :: _ => (RdErr e, r)
    end.

  (* test.py:27-37, 62-76: pack, send, receive at most 1024 bytes, unpack.  socket.send may take
     only the first [n] bytes; its result is not looked at.  Result: the bytes given to the
     connection, and what unpack returns. *)
  Definition py_exchange (serializer : string) (n : nat) (m : pymsg H B) (r : reader)
    : bytes * rdres (pymsg bytes B) :=
    match py_pack serializer m with
    | Ok packed_data =>
        (firstn n packed_data,
         match fst (py_recv 1024 r) with
         | RdOk receive_data => rd_of_res (py_unpack serializer receive_data)
         | RdErr e => RdErr e
         | RdPanic => RdPanic
         | RdBlocked => RdBlocked
         end)
    | Err e => ([], RdErr e)
    | Panic => ([], RdPanic)
    end.
End Client.
