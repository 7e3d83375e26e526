(* The say-hello example from end to end: examples/sayHello/client/main.go, the two exchanges of
   all-language-clients/python/test.py, and what the server of HelloModel writes.  No proofs in this file. *)
From Verif Require Export HelloModel ProtoModel PyModel ShowModel.

(* the values packed and decoded: a Go string (a *string as destination) and a protobuf message *)
Inductive hv := HStr (s : string) | HPb (m : pbmsg).
(* encoding/json as in JsonModel, protobuf as in ProtoModel; ProtobufMarshaller refuses what is no
   proto.Message (marshaller.go:91-106).  JSON of a protobuf message and the other formats do not occur. *)
Definition say_json (v : hv) : res bytes := match v with HStr s => Ok (enc (JStr s)) | HPb _ => Err (EMsg "unused") end.
Definition say_unjson (src : bytes) (dest : option hv) : res hv :=
  match dest with
  | Some (HStr old) =>
      match parse_value (S (List.length src)) src with
      | Some (v, r) =>
          match skip_ws r, v with
          | [], JNull => Ok (HStr old)
          | [], JStr s => Ok (HStr s)
          | _, _ => Err (EMsg "json: error")
          end
      | None => Err (EMsg "json: syntax error")
      end
  | _ => Err (EMsg "unused")
  end.
Definition not_proto : string := "protobuf marshaller requires src realize proto.Message".
Definition say_proto_enc (v : hv) : res bytes := match v with HPb m => pb_marshal m | HStr _ => Err (EMsg not_proto) end.
Definition say_proto_dec (src : bytes) (dest : option hv) : res hv :=
  match dest with Some (HPb _) => m <- pb_unmarshal src ;; Ok (HPb m) | _ => Err (EMsg not_proto) end.
Definition say_env : env hv :=
  let no := fun _ => Err (EMsg "unused") in let no2 := fun _ _ => Err (EMsg "unused") in
  Env json_hdr say_json say_unjson no no2 no no2 no no2 say_proto_enc say_proto_dec.
Definition say_mar := JsonMarshaller say_env.      (* server/main.go:15, client/main.go:14 *)

(* server/main.go:130-147, 150-167, 170-187, 203-210: what the reply with id n writes.  An error of the
   connection is printed only; writing succeeds here. *)
Definition hello_reply (n : Z) : list bytes :=
  if n =? eReply 2 then snd (Reply say_env say_mar 2 (Some (HStr "hello")) [] None)
  else if n =? eReply 4 then snd (Reply say_env say_mar 4 (Some (HStr "bye")) [] None)
  else if n =? eReply 6 then snd (Reply say_env say_mar 6 (Some (HStr "my name is tcpx")) [] None)
  else if n =? eReply 12 then snd (ctxProtoBuf say_env say_mar 12 (Some (HPb (PbMsg (str_bytes "hello,I am tcpx") []))) [] None)
  else [].
Definition hello_writes (tr : list ev) : list bytes := flat_map (fun e => match e with EEff n => hello_reply n | _ => [] end) tr.
(* a message handled by the server *)
Definition say_handles (c : ctx) (w : world) := hello_handles say_env (HStr "") (HPb (PbMsg [] [])) c w.

(* client/main.go:72-83: the block that is written a thousand times, for any text instead of "hello,I am
   client xiao ming" *)
Definition say_header : header := Some [("api"%string, JStr "/tcpx/client1/")].
Definition say_packs (text : string) : res bytes := PackxPack say_env say_mar 5 (Some (HStr text)) [say_header].
(* client/main.go:23-37, [n] times around the loop: the messages printed.  Every error is a panic of a
   goroutine, which ends the process. *)
Fixpoint say_shows (n : nat) (r : reader) : list (message hv) * standing :=
  match n with
  | O => ([], Going)
  | S n' =>
      match FirstBlockOf r with
      | (RdBlocked, _) => ([], Waiting)
      | (RdErr _, _) | (RdPanic, _) => ([], Crashed)
      | (RdOk buf, r') =>
          match PackxUnpack say_env say_mar (of_bytes buf) (Some (HStr "")) with
          | Ok m => let '(l, s) := say_shows n' r' in (m :: l, s)
          | _ => ([], Crashed)
          end
      end
  end.

(* test.py:16-18, 52-54: the header, as json.dumps writes it *)
Definition py_header : bytes := str_bytes "{" ++ cDQ :: str_bytes "header" ++ cDQ :: str_bytes ": " ++ cDQ :: str_bytes "/tcpx/client1" ++ cDQ :: str_bytes "}".
(* json.dumps of a string: only characters that are written as they are *)
Definition py_plain (c : ascii) : bool := (31 <? code c) && (code c <? 127) && negb (Ascii.eqb c cDQ) && negb (Ascii.eqb c cBS).
(* what test.py is linked against: json and protobuf read and write what the Go side does *)
Definition say_py : pyenv unit hv := PyEnv (fun _ => Some py_header)
  (fun v => match v with HStr s => if forallb py_plain (str_bytes s) then Some (cDQ :: str_bytes s ++ [cDQ]) else None | HPb _ => None end)
  (fun b => match say_unjson b (Some (HStr "")) with Ok v => Some v | _ => None end)
  (fun v => match v with HPb m => match pb_marshal m with Ok b => Some b | _ => None end | HStr _ => None end)
  (fun b => match pb_unmarshal b with Ok m => Some (HPb m) | _ => None end).
(* test.py:6-34 with any text for 'hello', 36-73 with any user name for 'young' *)
Definition py_json_msg (text : string) : pymsg unit hv := PyMsg (Some 5) tt (HStr text).
Definition py_proto_msg (name : bytes) : pymsg unit hv := PyMsg (Some 11) tt (HPb (PbMsg name [])).
