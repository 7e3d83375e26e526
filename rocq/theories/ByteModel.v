(* Model of the my-marshal example: examples/modules/my-marshal/marshaller/marshaller.go:5-17,
   server/main.go:10-57 and client/main.go:17-50.  No proofs in this file. *)
From Verif Require Export BindModel.

(* what an interface{} or a pointer's target may hold, as far as the marshaller can tell *)
Inductive bval := BBytes (b : bytes) | BOther.

(* marshaller.go:7-9: reflect.Value.Bytes panics on what is not a slice of bytes *)
Definition byte_marshal (v : bval) : res bytes := match v with BBytes b => Ok b | BOther => Panic end.
(* marshaller.go:10-14: Elem of a nil interface panics, Set panics when the target has another
   type (a target of interface type, which takes the bytes, is not modelled) *)
Definition byte_unmarshal (data : bytes) (dest : option bval) : res bval :=
  match dest with Some (BBytes _) => Ok (BBytes data) | _ => Panic end.
(* marshaller.go:15-17 *)
Definition ByteMarshaller : marshaller bval := MK "ByteMarshaller" byte_marshal byte_unmarshal.

(* what a handler does: print the id and the bytes of its variable [message], print an error, panic *)
Inductive said := Said (id : Z) (message : bytes) | SaidError | Died.
Definition bytes_in (v : option bval) : bytes := match v with Some (BBytes b) => b | _ => [] end.

Section Handlers.
  Context (E : env bval).
  Definition says (r : res (message bval)) : said :=
    match r with Ok mi => Said (msg_id mi) (bytes_in (msg_body mi)) | Err _ => SaidError | Panic => Died end.
  (* server/main.go:14-22; the variable starts as nil, srv.Packx has the ByteMarshaller (13) *)
  Definition handler22 (c : ctx) : said := says (Bind E ByteMarshaller c (Some (BBytes []))).
  (* server/main.go:24-32; packx, line 10 *)
  Definition handler23 (c : ctx) : said := says (PackxUnpack E (NewPackx E (Some ByteMarshaller)) (c_stream c) (Some (BBytes []))).
  (* server/main.go:34-53 *)
  Definition handler24 (c : ctx) : said :=
    match MessageIDOf (c_stream c) with
    | Panic => Died
    | Err _ => SaidError
    | Ok id =>
        match BodyBytesOf (c_stream c) with
        | Panic => Died
        | Err _ => SaidError
        | Ok raw =>
            match byte_unmarshal (gbytes raw) (Some (BBytes [])) with
            | Ok v => Said id (bytes_in (Some v))
            | Err _ => SaidError
            | Panic => Died
            end
        end
    end.
  (* client/main.go:17-22, 30-34, 42-46 *)
  Definition client_packs (id : Z) (body : bval) : res bytes :=
    PackWithMarshaller E (Msg id None (Some body)) (Some ByteMarshaller).
End Handlers.

(* server/main.go:12-54, the calls newest first *)
Definition byte_server : mux := build [OAdd 24 [] (User 24); OAdd 23 [] (User 23); OAdd 22 [] (User 22)].
Definition byte_handler (E : env bval) (h : hdl) (c : ctx) : option said :=
  match h with User 22 => Some (handler22 E c) | User 23 => Some (handler23 E c) | User 24 => Some (handler24 c) | _ => None end.
