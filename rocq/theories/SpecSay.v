(* What it means for the say-hello server to answer a message.  No proofs in this file. *)
From Verif Require Export SayModel SpecHello SpecProto SpecPy.

(* the answers, by message id: their id and body.  The protobuf answer: the tag of field 1, the length
   fifteen, the text. *)
Definition answer_to (id : Z) : option (Z * bytes) :=
  if id =? 1 then Some (2, cDQ :: str_bytes "hello" ++ [cDQ])
  else if id =? 3 then Some (4, cDQ :: str_bytes "bye" ++ [cDQ])
  else if id =? 5 then Some (6, cDQ :: str_bytes "my name is tcpx" ++ [cDQ])
  else if id =? 11 then Some (12, byte_of 10 :: byte_of 15 :: str_bytes "hello,I am tcpx")
  else None.
(* the body is one the handler of this id accepts *)
Definition acceptable (id : Z) (body : bytes) : Prop :=
  body = [] \/ (if id =? 11 then exists m, SpecProto.reads_as body m else exists v, say_unjson body (Some (HStr "")) = Ok v).
(* s is a well-formed message routed by its id *)
Definition request (s : gslice) (id : Z) (body : bytes) : Prop :=
  gwf s /\ is_int32 id /\ blen (gbytes s) < 2 ^ 31 /\
  exists hdr hd, frame_layout id hdr body (gbytes s) /\ hunmarshal json_hdr hdr = Ok hd /\ asked_type hd = "MESSAGE_ID"%string.
(* the context cx is that of a message of connection c, on which only messages routed by id are sent *)
Definition message_on (h : list cop) (c : nat) (cx : ctx) : Prop :=
  exists x, nth_error (w_ctxs (crun json_hdr h)) x = Some cx /\ nth_error (born h) x = Some (Req c) /\ was_reset h x = false /\
  leaves_alone h c (KStr "router_type") /\ forall s, read_on h c s -> exists id body, request s id body.
(* b is the frame of an answer in JSON: an id and a text *)
Definition says (b : bytes) (id : Z) (text : string) : Prop :=
  is_int32 id /\ blen b < 2 ^ 31 /\ forallb py_plain (str_bytes text) = true /\ frame_layout id (str_bytes "{}") (cDQ :: str_bytes text ++ [cDQ]) b.
(* a text of ASCII characters *)
Definition ascii_text (text : string) : Prop := Forall (fun c => code c < 128) (str_bytes text).
(* blanks between JSON tokens *)
Definition spaces (b : bytes) : Prop := Forall (fun c => In (code c) [32; 9; 10; 13]) b.
