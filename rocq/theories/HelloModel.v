(* Model of the say-hello server, examples/sayHello/server/main.go:15-214.  No proofs in this file. *)
From Verif Require Export WatchModel.
From Verif Require Export BindModel ListenModel.

(* functions: 100 = MiddlewareGlobal, 101, 102, 103 = Middleware1, 2, 3, 1 = SayHello, 3 = SayGoodBye, 5 = SayName,
   11 = SayHelloProtobuf, 20 = the heartbeat handler.  main.go:27-53, the calls newest first;
   HeartBeatMode is HeartBeatModeDetail with id 1392 and no middlewares (tcpx.go:200-213). *)
Definition hello_server : mux := build [
  OAdd 11 [] (User 11); OAdd 5 [User 103] (User 5); OAdd 3 [] (User 3); OUnUse "middleware2"; OAdd 1 [] (User 1);
  OGlobal [User 100]; OUse "middleware2" (User 102); OUse "middleware1" (User 101); ORewrite 20 (User 20);
  OBeat true false DEFAULT_HEARTBEAT_MESSAGEID].

(* what can be seen of the functions: the line a function prints that has the number n is AEff n;
   the reply with message id n is AEff (1000 + n); AEff 0 is the error SayHelloProtobuf prints *)
Definition eReply (n : Z) : Z := 1000 + n.
Section Hello.
  Context {V : Type} (E : env V) (zero zero_pb : V).
  (* main.go:130-147, 150-167, 170-187; srv.Packx is JSON (16); the reply's body is a fixed string,
     which always has an encoding; an error of writing it is printed only *)
  Definition say (c : ctx) (n reply : Z) : list act :=
    match Bind E (JsonMarshaller E) c (Some zero) with
    | Ok _ => [AEff n; AEff (eReply reply)]
    | Err _ | Panic => [APanic]
    end.
  (* main.go:190-214 *)
  Definition say_proto (c : ctx) : list act :=
    match BindWithMarshaller E c (Some zero_pb) (Some (ProtobufMarshaller E)) with
    | Ok _ => [AEff 11; AEff (eReply 12)]
    | Err _ => [AEff 0]
    | Panic => [APanic]
    end.
  Definition hello_behave (c : ctx) (h : hdl) : list act :=
    match h with
    | User 1 => say c 1 2
    | User 3 => say c 3 4
    | User 5 => say c 5 6
    | User 11 => say_proto c
    | User n => [AEff (Z.of_nat n)]       (* 35-37, 215-229: one line printed *)
    | Beat => []
    end.
  (* OnConnect (83-85) does not touch the context's offset *)
  Definition hello_handles (c : ctx) (w : world) := handleMiddleware (e_hdr E) hello_server (hello_behave c) (-1) c w.
End Hello.

(* the goroutines of main (56-78): does the goroutine with this network end the process? *)
Definition hello_listens (network : string) (ok : bool) (left : option why_left) : bool :=
  match fst (ListenAndServe hello_server None (str_bytes network) ok left) with
  | ReturnsErr | PanicsOut => true      (* panic(e) in a goroutine of main *)
  | ReturnsNil | NeverReturns => false
  end.

(* how often RecvHeartBeat is called while a routed message is handled: only tcpx's own handler calls
   it, none of the functions of main.go does *)
Definition beats_in (p : plan) : nat :=
  match p with
  | RunChain l => List.length (filter (fun h => match h with Beat => true | _ => false end) l)
  | Direct Beat => 1
  | _ => 0
  end.
(* main.go:27: the heartbeat interval, in nanoseconds *)
Definition hello_interval : Z := 5 * 1000000000.
