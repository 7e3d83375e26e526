(* The repository's own tests, replayed in the model: what they assert (or print) is what the model
   computes.  Nothing else depends on this file; it says something about the model, not about the
   code.  Tests of sleeping, of the machine's network or of the formats other than JSON are left out. *)
From Verif Require Import JsonModel ReaderModel MuxModel ChainModel StrModel ExitModel LoopModel BindModel LogModel.

(* bodies are JSON values, encoded and decoded as the headers are *)
Definition unjson (b : bytes) (d : option jv) : res jv :=
  match d with
  | None => Err (EMsg "nil dest")
  | Some _ => match parse_value (S (List.length b)) b with Some (v, []) => Ok v | _ => Err (EMsg "syntax") end
  end.
Definition jenv : env jv :=
  let e := fun v => Ok (enc v) in Env json_hdr e unjson e unjson e unjson e unjson e unjson.
Definition opened (r : res bytes) : gslice := match r with Ok b => of_bytes b | _ => of_bytes [] end.
Local Open Scope string_scope.

(* message_test.go:9-34: a body, and none *)
Example TestMessage_Packet :
  PackWithMarshaller jenv (Msg 1 None (Some (JStr "hi"))) None =
    Ok (map byte_of [0;0;0;20; 0;0;0;1; 0;0;0;4; 0;0;0;4] ++ str_bytes "null" ++ enc (JStr "hi"))%list /\
  PackWithMarshaller jenv (Msg 1 None None) None = Ok (map byte_of [0;0;0;16; 0;0;0;1; 0;0;0;4; 0;0;0;0] ++ str_bytes "null")%list.
Proof. split; vm_compute; reflexivity. Qed.

(* message_test.go:37-74: unpacked without an error, with a body and without *)
Example TestMessage_Unpack :
  UnpackWithMarshaller jenv (opened (PackWithMarshaller jenv (Msg 1 None (Some (JStr "hi"))) None)) (Some (JStr "")) None = Ok (Msg 1 None (Some (JStr "hi"))) /\
  UnpackWithMarshaller jenv (opened (PackWithMarshaller jenv (Msg 1 None None) None)) (Some (JStr "")) None = Ok (Msg 1 None (Some (JStr ""))).
Proof. split; vm_compute; reflexivity. Qed.

(* message_test.go:84-112 *)
Example TestMessage_Get_Set :
  let m := Msg 1 (Some [("api", JStr "/tcpx/test/")]) (Some (JStr "hello")) in
  MessageGet m "api" = Some (JStr "/tcpx/test/") /\
  (exists m', MessageSet m "api" (JStr "/tcpx/test/2/") = Ok m' /\ MessageGet m' "api" = Some (JStr "/tcpx/test/2/")) /\
  MessageGet (Msg 0 None (@None jv)) "example_nil" = None.
Proof. split; [reflexivity|]. split; [eexists; split; reflexivity|reflexivity]. Qed.

(* packx_test.go:15-82: a header given to Pack comes back, and so does the body *)
Example TestTCPx_Packx_Property :
  let body := JObj [("username", JStr "packx"); ("age", JInt 24)] in
  let buf := opened (PackxPack jenv (JsonMarshaller jenv) 1 (Some body) [Some [("note", JStr "this is a map note")]]) in
  MessageIDOf buf = Ok 1 /\ HeaderLengthOf buf = Ok 29 /\ BodyLengthOf buf = Ok 29 /\
  rbind (HeaderBytesOf buf) (fun s => Ok (gbytes s)) = Ok (enc (JObj [("note", JStr "this is a map note")])) /\
  rbind (BodyBytesOf buf) (fun s => Ok (gbytes s)) = Ok (enc body) /\
  UnpackWithMarshaller jenv buf (Some JNull) (Some (JsonMarshaller jenv)) =
    Ok (Msg 1 (Some [("note", JStr "this is a map note")]) (Some (JObj [("username", JStr "packx"); ("age", JNum 24)]))).
Proof. vm_compute. repeat split; reflexivity. Qed.

(* packx_test.go:84-107 *)
Example TestPackx_PackWithBody :
  rbind (BodyBytesOf (opened (PackxPackWithBody jenv 1 (map byte_of [1;2;3;4;5]) []))) (fun s => Ok (gbytes s)) = Ok (map byte_of [1;2;3;4;5]).
Proof. vm_compute. reflexivity. Qed.

(* packx_test.go:108-262, the json part; the other names reach the other encoders *)
Example TestPackWithMarshallerName :
  (forall n, In n ["json"; "xml"; "toml"; "tml"; "yaml"; "yml"; "protobuf"; "proto"] ->
    UnpackWithMarshallerName jenv (opened (PackWithMarshallerName jenv (Msg 1 None (Some (JStr "hello"))) n)) (Some (JStr "")) n = Ok (Msg 1 None (Some (JStr "hello")))) /\
  (exists e, PackWithMarshallerName jenv (Msg 1 None (Some (JStr "hello"))) "xxx" = Err e).
Proof.
  split; [|eexists; reflexivity]. intros n H. cbn [In] in H. repeat (destruct H as [<-|H]; [vm_compute; reflexivity|]). destruct H.
Qed.

(* packx_test.go:280-291: two bytes for a buffer of ten *)
Example TestReadUntilNumber : fst (readUntil 10 [RData (map byte_of [1; 2]); RFail EEOF]) = RdErr EEOF.
Proof. reflexivity. Qed.

(* marshaller_test.go:76-123 *)
Example TestGetMarshallerByMarshalName :
  (forall n, In n ["json"; "xml"; "toml"; "yaml"; "protobuf"] -> exists m, GetMarshallerByMarshalName jenv n = Ok m /\ m_name m = n) /\
  (exists e, GetMarshallerByMarshalName jenv "xxx" = Err e).
Proof.
  split; [|eexists; reflexivity]. intros n H. cbn [In] in H. repeat (destruct H as [<-|H]; [eexists; split; reflexivity|]). destruct H.
Qed.

(* tcpx_test.go:50-117: global 1, anchor 2, own middleware 3, the handler 4 *)
Example TestTcpX_TCP_Middleware :
  plan_of (ById 1) (build [OAdd 1 [User 3] (User 4); OUse "anchor1" (User 2); OGlobal [User 1]; OOnMessage None]) = RunChain [User 1; User 2; User 3; User 4].
Proof. vm_compute. reflexivity. Qed.

(* tcpx_test.go:121-193: 2 is jumped by UnUse *)
Example TestTcpX_UDP_Middleware_UnUse :
  plan_of (ById 2) (build [OAdd 2 [User 3] (User 4); OUnUse "anchor1"; OUse "anchor1" (User 2); OGlobal [User 1]; OOnMessage None]) = RunChain [User 1; User 3; User 4].
Proof. vm_compute. reflexivity. Qed.

(* tcpx_test.go:196-272 (commented out there): anchor2 aborts, the rest does not run *)
Definition abort_test : chain := Chain [1; 2; 3; 4; 5]%nat (fun i => match i with 2 => [ANext] | 3 => [AAbort] | _ => [] end%nat).
Example TestTcpX_KCP_Middleware_Abort_Next :
  exists off, run_chain abort_test = Some ([EEnter 1; EEnter 2; EEnter 3; EAbort], Returned, off).
Proof. eexists. vm_compute. reflexivity. Qed.

(* tcpx_test.go:274-348: OnMessage runs instead of handlers, after the middlewares *)
Example TestTcpX_OnMessage :
  plan_of (ById 1) (build [OUse "anchor1" (User 2); OGlobal [User 1]; OOnMessage (Some (User 9))]) = RunChain [User 1; User 2; User 9].
Proof. vm_compute. reflexivity. Qed.

(* tcpx_test.go:428-465: both middlewares run before HandleRaw *)
Example TestHandleRaw :
  raw_funcs (build [OUse "middle-1" (User 2); OGlobal [User 1]]) (Some (User 9)) = [Some (User 1); Some (User 2); Some (User 9)].
Proof. vm_compute. reflexivity. Qed.

(* tcpx_test.go:537-626 prints only; with the comments it has one expects 1 2 3 4 for id 2 and 1 3 4
   for id 1 *)
Example TestTcpX_TCP_AnchorMiddleware :
  let m := build (rev [OOnMessage None; OGlobal [User 1]; OUse "anchor1" (User 2); OAdd 2 [User 3] (User 4); OUnUse "anchor1";
                       OUse "anchor1" (User 2); OUnUse "anchor1"; OAdd 1 [User 3] (User 4)]) in
  plan_of (ById 2) m = RunChain [User 1; User 2; User 3; User 4] /\ plan_of (ById 1) m = RunChain [User 1; User 3; User 4].
Proof. split; vm_compute; reflexivity. Qed.

(* util_test.go:8-14 *)
Example TestIn :
  In_ (str_bytes "ipskzk") [str_bytes "ip%"] = Ok true /\ In_ (str_bytes "ipskzk") [str_bytes "%ip%"] = Ok true /\
  In_ (str_bytes "kjlk;lip") [str_bytes "%ip"] = Ok true /\ In_ (str_bytes "kjlk;lip") [str_bytes "%ip%"] = Ok true.
Proof. vm_compute. auto. Qed.

(* util_test.go:20-28: the handler gets the panic's value and nothing leaves Defer *)
Example TestDefer : Defer (Panics (Some 1%nat)) [fun _ => Returns] = ([(0%nat, 1%nat)], Returns).
Proof. reflexivity. Qed.

(* context_test.go:13-34, 329-348: which contexts are udp *)
Example TestNewContext :
  let w := NewUDPContext nostream (NewContext world0) in
  map is_udp (w_ctxs w) = [false; true].
Proof. reflexivity. Qed.

(* context_test.go:36-58: the name is bound as it was packed *)
Example TestContext_Bind_JSON :
  let payload := JObj [("Username", JStr "tcpx")] in
  Bind jenv (NewPackx jenv (Some (JsonMarshaller jenv)))
    (Ctx true (Some 0%nat) 1 (opened (PackxPack jenv (JsonMarshaller jenv) 1 (Some payload) []))) (Some JNull) =
  Ok (Msg 1 (Some []) (Some payload)).
Proof. vm_compute. reflexivity. Qed.

(* context_test.go:85-94 *)
Example TestContext_CtxPerConnPerRequest :
  let w := NewContext world0 in
  exists c w1, w_ctxs w = [c] /\ SetCtxPerConn c (KStr "username") (VStr "tcpx") w = Some w1 /\
    GetCtxPerConn c (KStr "username") w1 = Some (VStr "tcpx") /\
    GetCtxPerRequest c (KStr "password") (SetCtxPerRequest c (KStr "password") (VStr "123") w1) = Some (VStr "123").
Proof. eexists. eexists. repeat split; vm_compute; reflexivity. Qed.

(* context_test.go:96-252: what the client unpacks from the one block that Reply and JSON write *)
Definition unpacked (r : res unit * list bytes) : res (message jv) :=
  match r with (Ok tt, [b]) => PackxUnpack jenv (JsonMarshaller jenv) (of_bytes b) (Some (JStr "")) | _ => Panic end.
Example TestContext_Reply_JSON :
  let src := Some (JStr "hello, I'm server") in
  unpacked (Reply jenv (JsonMarshaller jenv) 10086 src [] None) = Ok (Msg 10086 (Some []) src) /\
  unpacked (ctxJSON jenv (JsonMarshaller jenv) 10086 src [] None) = Ok (Msg 10086 (Some []) src).
Proof. split; vm_compute; reflexivity. Qed.

(* log_test.go:17-29: printed in debug mode, not in release mode, printed again after SetLogMode(DEBUG) *)
Example TestLog_Println :
  let deco := fun s => s in
  Println deco lg0 ["test-case logger hello"] = [Stdout "test-case logger hello"] /\
  Println deco (SetLogMode RELEASE lg0) ["test-case hello"] = [] /\
  Println deco (SetLogMode DEBUG (SetLogFlags 40 (SetLogMode RELEASE lg0))) ["global logger hello"] = [Stdout "global logger hello"].
Proof. repeat split; vm_compute; reflexivity. Qed.
