(* A whole message's way, from the sender's call to the handlers: what it means for a stream to be
   a message, for a connection to be uniform, for a plan to be carried out. *)
From Verif Require Export SpecServer SpecCtx SpecMux SpecChain SpecWire SpecHeader BindModel.

(* the bytes of s are one well-formed message with this id and this decoded header *)
Definition is_message (hc : hcodec) (s : gslice) (id : Z) (hd : header) : Prop :=
  gwf s /\ is_int32 id /\ blen (gbytes s) < 2 ^ 31 /\
  exists hdr body, frame_layout id hdr body (gbytes s) /\ hunmarshal hc hdr = Ok hd.

(* the router type a header asks for *)
Definition asked_type (hd : header) : string :=
  match hget "Router-Type" hd with Some (JStr t) => t | _ => "MESSAGE_ID"%string end.

(* s was read on TCP connection c *)
Definition read_on (h : list cop) (c : nat) (s : gslice) : Prop :=
  exists later earlier x, h = later ++ CRead x s :: earlier /\ conn_of earlier x = Some c.

(* no handler of connection c stores under key k *)
Definition leaves_alone (h : list cop) (c : nat) (k : ckey) : Prop :=
  forall o x, In o h -> subject o = Some x -> conn_of h x = Some c -> names_key k o = false.

(* the handlers a routing is to run *)
Definition planned (q : list op) (rt : routing) : plan :=
  match rt with
  | ById id => spec_plan effectively_covered q id
  | ByURL u => spec_url_plan effectively_covered q u
  | ByNothing => Unrouted
  end.

(* carrying out a plan shows tr and ends as st *)
Inductive performs (behave : hdl -> list act) : plan -> list ev -> status -> Prop :=
| performs_nothing : performs behave Unrouted [] Returned
| performs_direct f tr st rest : gin_body (fun _ => []) (behave f) [] tr st rest -> performs behave (Direct f) tr st
| performs_chain l tr st rest : gin_chain (fun i => behave (nth i l Beat)) (seq 0 (List.length l)) tr st rest ->
    performs behave (RunChain l) tr st.

(* a chain short enough for the Abort mark *)
Definition not_too_long (p : plan) : Prop :=
  match p with RunChain l => Z.of_nat (List.length l) <= 2019 | _ => True end.

(* a sent message and its bytes; [lim] = the receiver's limit *)
Definition sent {V} (E : env V) (lim : Z) (m : message V * option (marshaller V)) (b : bytes) : Prop :=
  PackWithMarshaller E (fst m) (snd m) = Ok b /\ blen b < 2 ^ 31 /\ within lim b /\
  is_int32 (msg_id (fst m)) /\ hdr_roundtrips (e_hdr E) (msg_header (fst m)) /\
  hget "[tcpx-buffer-in-serial]" (msg_header (fst m)) = None.

(* a handler given context c gets message m back, whatever it decodes into *)
Definition received {V} (E : env V) (m : message V * option (marshaller V)) (c : ctx) : Prop :=
  forall d0, (forall v, msg_body (fst m) = Some v ->
      body_roundtrips (match snd m with Some x => x | None => JsonMarshaller E end) v (Some d0)) ->
  exists m', BindWithMarshaller E c (Some d0) (snd m) = Ok m' /\
    msg_id m' = msg_id (fst m) /\ header_eq (msg_header (fst m)) (msg_header m') /\
    (msg_body m' = msg_body (fst m) \/ (msg_body m' = Some d0 /\ body_encoding E (snd m) (msg_body (fst m)) [])).

(* the number of Next calls of a handler body that neither aborts nor panics *)
Definition next_calls (acts : list act) : Z :=
  Z.of_nat (List.length (filter (fun a => match a with ANext | ANextRec => true | _ => false end) acts)).
