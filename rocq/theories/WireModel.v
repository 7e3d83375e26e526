(* Model of packx.go, message.go, marshaller.go, pack-type.go, header helpers of utils.go.
   No proofs in this file. *)
From Verif Require Export Base.

(* ------------------------------------------------------------------ *)
(* Go slices of bytes *)

(* A []byte value: [gs_arr] = the bytes of the backing array from the slice's
   first element up to its capacity, [gs_len] = len(s).  cap(s) = length gs_arr.
   (Aliasing between slices is not represented: no modelled function writes
   through a slice it did not allocate itself.) *)
Record gslice := GS { gs_arr : bytes; gs_len : nat }.

(* a slice whose capacity equals its length *)
Definition of_bytes (b : bytes) : gslice := GS b (List.length b).
(* the bytes a reader of the slice sees *)
Definition gbytes (s : gslice) : bytes := firstn (gs_len s) (gs_arr s).
Definition glen (s : gslice) : Z := Z.of_nat (gs_len s).
Definition gcap (s : gslice) : Z := Z.of_nat (List.length (gs_arr s)).
(* invariant of every Go slice *)
Definition gwf (s : gslice) : Prop := (gs_len s <= List.length (gs_arr s))%nat.

(* Go language: s[lo:hi].  Panics unless 0 <= lo <= hi <= cap(s); may extend
   beyond len(s) up to cap(s). *)
Definition gsub (s : gslice) (lo hi : Z) : res gslice :=
  if (0 <=? lo) && (lo <=? hi) && (hi <=? gcap s)
  then Ok (GS (skipn (Z.to_nat lo) (gs_arr s)) (Z.to_nat (hi - lo)))
  else Panic.

(* encoding/binary BigEndian.Uint32: panics (b[3]) when len(b) < 4, reads b[0..3]. *)
Definition uint32_of (s : gslice) : res Z :=
  match gbytes s with
  | b0 :: b1 :: b2 :: b3 :: _ =>
      Ok (Z.lor (code b3) (Z.lor (Z.shiftl (code b2) 8)
            (Z.lor (Z.shiftl (code b1) 16) (Z.shiftl (code b0) 24))))
  | _ => Panic
  end.

(* encoding/binary BigEndian.PutUint32 into a fresh make([]byte,4). *)
Definition put_uint32 (v : Z) : bytes :=
  [ byte_of (Z.shiftr v 24); byte_of (Z.shiftr v 16); byte_of (Z.shiftr v 8); byte_of v ].

(* ------------------------------------------------------------------ *)
(* Headers and messages *)

(* Values that occur in a header map (map[string]interface{}).  [JInt] is a Go
   integer value (before encoding), [JNum] a float64 holding an integer (what
   json.Unmarshal produces).  Non-integral numbers are not represented. *)
Inductive jv : Type :=
| JNull
| JBool (b : bool)
| JInt (z : Z)
| JNum (z : Z)
| JStr (s : string)
| JArr (l : list jv)
| JObj (m : list (string * jv)).

(* map[string]interface{}: [None] is the nil map. *)
Definition header := option (list (string * jv)).

(* h[k] on a possibly nil map *)
Definition hget (k : string) (h : header) : option jv :=
  match h with None => None | Some m => aget k m end.
(* len(h) *)
Definition hlen (h : header) : nat :=
  match h with None => O | Some m => List.length m end.

(* encoding/json on headers: json.Marshal(h) and, into a nil map variable,
   json.Unmarshal(b, &h).  The functions are a parameter of the model; JsonModel.v
   supplies a concrete implementation. *)
Record hcodec := HC {
  hmarshal : header -> res bytes;
  hunmarshal : bytes -> res header
}.

(* marshaller.go:13-17.  [V] is the type of body values.  Unmarshal(data, dest):
   [dest] is None for a nil interface, otherwise the value dest points to; the
   result is the new content of *dest. *)
Record marshaller (V : Type) := MK {
  m_name : string;
  m_marshal : V -> res bytes;
  m_unmarshal : bytes -> option V -> res V
}.
Arguments MK {V}. Arguments m_name {V}. Arguments m_marshal {V}. Arguments m_unmarshal {V}.

(* message.go:7-11.  Body : interface{}, None = nil. *)
Record message (V : Type) := Msg {
  msg_id : Z;
  msg_header : header;
  msg_body : option V
}.
Arguments Msg {V}. Arguments msg_id {V}. Arguments msg_header {V}. Arguments msg_body {V}.

(* The environment the library is linked against: the five encoders. *)
Record env (V : Type) := Env {
  e_hdr : hcodec;
  e_json : V -> res bytes;   e_unjson : bytes -> option V -> res V;
  e_xml : V -> res bytes;    e_unxml : bytes -> option V -> res V;
  e_toml : V -> res bytes;   e_untoml : bytes -> option V -> res V;
  e_yaml : V -> res bytes;   e_unyaml : bytes -> option V -> res V;
  e_proto : V -> res bytes;  e_unproto : bytes -> option V -> res V
}.
Arguments Env {V}. Arguments e_hdr {V}.
Arguments e_json {V}. Arguments e_unjson {V}. Arguments e_xml {V}. Arguments e_unxml {V}.
Arguments e_toml {V}. Arguments e_untoml {V}. Arguments e_yaml {V}. Arguments e_unyaml {V}.
Arguments e_proto {V}. Arguments e_unproto {V}.

(* header-const-key.go:4-9, router-type.go:4-7, tcpx.go:25-31, messageID constants *)
Definition HEADER_ROUTER_KEY : string := "Router-Type".
Definition HEADER_ROUTER_VALUE : string := "Router-Pattern-Value".
Definition MESSAGEID : string := "MESSAGE_ID".
Definition URLPATTERN : string := "URL_PATTERN".
Definition PIPED : string := "[tcpx-buffer-in-serial]".
Definition DEFAULT_HEARTBEAT_MESSAGEID : Z := 1392.
Definition DEFAULT_AUTH_MESSAGEID : Z := 1393.

(* ------------------------------------------------------------------ *)
(* Stream accessors, packx.go *)

(* packx.go:175-181 LengthOf *)
Definition LengthOf (s : gslice) : res Z :=
  if glen s <? 4 then Err (EMsg "stream < 4") else
  sub <- gsub s 0 4 ;; v <- uint32_of sub ;; Ok (to_int32 v).

(* packx.go:159-165 MessageIDOf *)
Definition MessageIDOf (s : gslice) : res Z :=
  if glen s <? 8 then Err (EMsg "stream < 8") else
  sub <- gsub s 4 8 ;; v <- uint32_of sub ;; Ok (to_int32 v).

(* packx.go:189-195 HeaderLengthOf *)
Definition HeaderLengthOf (s : gslice) : res Z :=
  if glen s <? 12 then Err (EMsg "stream < 12") else
  sub <- gsub s 8 12 ;; v <- uint32_of sub ;; Ok (to_int32 v).

(* packx.go:203-209 BodyLengthOf *)
Definition BodyLengthOf (s : gslice) : res Z :=
  if glen s <? 16 then Err (EMsg "stream < 16") else
  sub <- gsub s 12 16 ;; v <- uint32_of sub ;; Ok (to_int32 v).

(* packx.go:217-227 HeaderBytesOf: the length check is in int (64 bit), the
   slice bound 16+headerLen is computed in int32. *)
Definition HeaderBytesOf (s : gslice) : res gslice :=
  headerLen <- HeaderLengthOf s ;;
  if glen s <? 16 + headerLen then Err (EMsg "stream < 16+headerLen") else
  gsub s 16 (to_int32 (16 + headerLen)).

(* packx.go:235-246 HeaderOf *)
Definition HeaderOf (hc : hcodec) (s : gslice) : res header :=
  headerBytes <- rwrap (HeaderBytesOf s) ;;
  rwrap (hunmarshal hc (gbytes headerBytes)).

(* packx.go:254-268 BodyBytesOf: check in int, slice bounds in int32. *)
Definition BodyBytesOf (s : gslice) : res gslice :=
  headerLen <- HeaderLengthOf s ;;
  bodyLen <- BodyLengthOf s ;;
  if glen s <? 16 + headerLen + bodyLen then Err (EMsg "stream < 16+headerLen+bodyLen") else
  gsub s (to_int32 (16 + headerLen)) (to_int32 (to_int32 (16 + headerLen) + bodyLen)).

(* packx.go:139-149 FirstBlockOfBytes: length stays uint32, int(length) is 64 bit *)
Definition FirstBlockOfBytes (s : gslice) : res gslice :=
  if glen s <? 16 then Err (EMsg "require buffer >= 16") else
  sub <- gsub s 0 4 ;; length <- uint32_of sub ;;
  if glen s <? 4 + length then Err (EMsg "require buffer >= 4+length") else
  gsub s 0 (4 + length).

(* utils.go:225-244 headerGetString: value, exist, error *)
Definition headerGetString (h : header) (k : string) : res (string * bool) :=
  if Nat.eqb (hlen h) 0 then Ok (EmptyString, false) else
  match hget k h with
  | None => Ok (EmptyString, false)
  | Some (JStr s) => Ok (s, true)
  | Some _ => Err (EMsg "key exist but is not a string type")
  end.

(* packx.go:567-577 URLPatternOf *)
Definition URLPatternOf (hc : hcodec) (s : gslice) : res string :=
  h <- rwrap (HeaderOf hc s) ;;
  sv <- rwrap (headerGetString h HEADER_ROUTER_VALUE) ;; Ok (fst sv).

(* packx.go:579-590 RouteTypeOf *)
Definition RouteTypeOf (hc : hcodec) (s : gslice) : res string :=
  h <- rwrap (HeaderOf hc s) ;;
  sv <- rwrap (headerGetString h HEADER_ROUTER_KEY) ;; Ok (fst sv).

(* ------------------------------------------------------------------ *)
(* Marshallers by name *)

Section Marshallers.
  Context {V : Type} (E : env V).

  (* marshaller.go:36-47 *)
  Definition JsonMarshaller : marshaller V := MK "json" (e_json E) (e_unjson E).
  (* marshaller.go:49-60 *)
  Definition XmlMarshaller : marshaller V := MK "xml" (e_xml E) (e_unxml E).
  (* marshaller.go:62-73 *)
  Definition YamlMarshaller : marshaller V := MK "yaml" (e_yaml E) (e_unyaml E).
  (* marshaller.go:75-86 *)
  Definition TomlMarshaller : marshaller V := MK "toml" (e_toml E) (e_untoml E).
  (* marshaller.go:88-110; a value that is not a proto.Message is e_proto's error *)
  Definition ProtobufMarshaller : marshaller V := MK "protobuf" (e_proto E) (e_unproto E).

  (* marshaller.go:19-34; Go switch on strings *)
  Definition GetMarshallerByMarshalName (n : string) : res (marshaller V) :=
    if String.eqb n "json" then Ok JsonMarshaller
    else if String.eqb n "xml" then Ok XmlMarshaller
    else if String.eqb n "toml" || String.eqb n "tml" then Ok TomlMarshaller
    else if String.eqb n "yaml" || String.eqb n "yml" then Ok YamlMarshaller
    else if String.eqb n "protobuf" || String.eqb n "proto" then Ok ProtobufMarshaller
    else Err (EMsg "unknown marshalName").

  (* the nil check at packx.go:30-32, 288-290, 359-361 *)
  Definition or_json (m : option (marshaller V)) : marshaller V :=
    match m with Some x => x | None => JsonMarshaller end.

  (* ---------------------------------------------------------------- *)
  (* Packing *)

  (* packx.go:311-326 (and 528-543): the concatenation of the fields *)
  Definition assemble (messageID : Z) (headerBuf bodyBuf : bytes) : bytes :=
    let messageIDBuf := put_uint32 (to_uint32 messageID) in
    let headerLengthBuf := put_uint32 (to_uint32 (blen headerBuf)) in
    let bodyLengthBuf := put_uint32 (to_uint32 (blen bodyBuf)) in
    let content := messageIDBuf ++ headerLengthBuf ++ bodyLengthBuf ++ headerBuf ++ bodyBuf in
    let lengthBuf := put_uint32 (to_uint32 (blen content)) in
    lengthBuf ++ content.

  (* packx.go:287-327 PackWithMarshaller *)
  Definition PackWithMarshaller (m : message V) (mo : option (marshaller V)) : res bytes :=
    let mar := or_json mo in
    headerBuf <- hmarshal (e_hdr E) (msg_header m) ;;
    bodyBuf <- match msg_body m with
               | None => Ok []
               | Some v => m_marshal mar v
               end ;;
    Ok (assemble (msg_id m) headerBuf bodyBuf).

  (* packx.go:513-544 PackWithMarshallerAndBody *)
  Definition PackWithMarshallerAndBody (m : message V) (body : bytes) : res bytes :=
    headerBuf <- hmarshal (e_hdr E) (msg_header m) ;;
    Ok (assemble (msg_id m) headerBuf body).

  (* packx.go:330-347 PackWithMarshallerName *)
  Definition PackWithMarshallerName (m : message V) (n : string) : res bytes :=
    if String.eqb n "json" then PackWithMarshaller m (Some JsonMarshaller)
    else if String.eqb n "xml" then PackWithMarshaller m (Some XmlMarshaller)
    else if String.eqb n "toml" || String.eqb n "tml" then PackWithMarshaller m (Some TomlMarshaller)
    else if String.eqb n "yaml" || String.eqb n "yml" then PackWithMarshaller m (Some YamlMarshaller)
    else if String.eqb n "protobuf" || String.eqb n "proto" then PackWithMarshaller m (Some ProtobufMarshaller)
    else Err (EMsg "only accept [...]").

  (* packx.go:45-49 / 59-63: for each header map, for each pair, header[k1] = v1.
     Go iterates a map in unspecified order; keys of one map are distinct, so the
     resulting lookups do not depend on it. *)
  Definition merge_one (acc : list (string * jv)) (v : header) : list (string * jv) :=
    fold_left (fun a kv => aset (fst kv) (snd kv) a) (match v with Some m => m | None => [] end) acc.
  Definition merge_headers (hs : list header) : list (string * jv) :=
    fold_left merge_one hs [].

  (* packx.go:40-51 Packx.Pack; the receiver's Marshaller is [mar] *)
  Definition PackxPack (mar : marshaller V) (messageID : Z) (src : option V) (headers : list header) : res bytes :=
    match headers with
    | [] => PackWithMarshaller (Msg messageID (Some []) src) (Some mar)
    | _ => PackWithMarshaller (Msg messageID (Some (merge_headers headers)) src) (Some mar)
    end.

  (* packx.go:54-65 Packx.PackWithBody *)
  Definition PackxPackWithBody (messageID : Z) (body : bytes) (headers : list header) : res bytes :=
    match headers with
    | [] => PackWithMarshallerAndBody (Msg messageID (Some []) None) body
    | _ => PackWithMarshallerAndBody (Msg messageID (Some (merge_headers headers)) None) body
    end.

  (* packx.go:593-599 Pack *)
  Definition Pack (messageID : Z) (h : header) (src : option V) (mo : option (marshaller V)) : res bytes :=
    PackWithMarshaller (Msg messageID h src) mo.

  (* packx.go:557-565 PackStuff: panics on error *)
  Definition PackStuff (messageID : Z) : res bytes :=
    match PackWithMarshallerAndBody (Msg messageID None None) [] with
    | Ok b => Ok b
    | _ => Panic
    end.

  (* packx.go:546-554 PackHeartbeat *)
  Definition PackHeartbeat : res bytes := PackStuff DEFAULT_HEARTBEAT_MESSAGEID.

  (* message.go:34-36 Message.Pack *)
  Definition MessagePack (m : message V) (mo : option (marshaller V)) : res bytes :=
    PackWithMarshaller m mo.

  (* ---------------------------------------------------------------- *)
  (* Unpacking *)

  (* packx.go:389-393: Body = reflect.Indirect(reflect.ValueOf(dest)).Interface();
     on a nil dest this is Interface() of the zero Value, which panics. *)
  Definition indirect (dest : option V) : res (option V) :=
    match dest with Some v => Ok (Some v) | None => Panic end.

  (* packx.go:358-394 UnpackWithMarshaller.  All length arithmetic is uint32;
     slice expressions may reach into the capacity of the argument.
     Result: the message and the final content of *dest. *)
  Definition UnpackWithMarshaller (stream : gslice) (dest : option V) (mo : option (marshaller V))
    : res (message V) :=
    let mar := or_json mo in
    s04 <- gsub stream 0 4 ;; length <- uint32_of s04 ;;
    stream <- gsub stream 0 (to_uint32 (length + 4)) ;;
    s48 <- gsub stream 4 8 ;; messageID <- uint32_of s48 ;;
    s812 <- gsub stream 8 12 ;; headerLength <- uint32_of s812 ;;
    s1216 <- gsub stream 12 16 ;; bodyLength <- uint32_of s1216 ;;
    hdr <- (if headerLength =? 0 then Ok None
            else sh <- gsub stream 16 (to_uint32 (16 + headerLength)) ;;
                 hunmarshal (e_hdr E) (gbytes sh)) ;;
    dest' <- (if bodyLength =? 0 then Ok dest
              else sb <- gsub stream (to_uint32 (16 + headerLength))
                                     (to_uint32 (to_uint32 (16 + headerLength) + bodyLength)) ;;
                   v <- m_unmarshal mar (gbytes sb) dest ;; Ok (Some v)) ;;
    body <- indirect dest' ;;
    Ok (Msg (to_int32 messageID) hdr body).

  (* packx.go:397-414 UnpackWithMarshallerName *)
  Definition UnpackWithMarshallerName (stream : gslice) (dest : option V) (n : string) : res (message V) :=
    if String.eqb n "json" then UnpackWithMarshaller stream dest (Some JsonMarshaller)
    else if String.eqb n "xml" then UnpackWithMarshaller stream dest (Some XmlMarshaller)
    else if String.eqb n "toml" || String.eqb n "tml" then UnpackWithMarshaller stream dest (Some TomlMarshaller)
    else if String.eqb n "yaml" || String.eqb n "yml" then UnpackWithMarshaller stream dest (Some YamlMarshaller)
    else if String.eqb n "protobuf" || String.eqb n "proto" then UnpackWithMarshaller stream dest (Some ProtobufMarshaller)
    else Err (EMsg "only accept [...]").

  (* pack-type.go:14-24 (and the same shape at 26-66) PackType.Bind* with the
     corresponding decoder *)
  Definition PackTypeBind (unm : bytes -> option V -> res V) (pt : gslice) (dest : option V) : res V :=
    body <- rwrap (BodyBytesOf pt) ;; rwrap (unm (gbytes body) dest).

  (* ---------------------------------------------------------------- *)
  (* message.go *)

  (* message.go:13-22 NewMessage *)
  Definition NewMessage (messageID : Z) (src : option V) : message V :=
    Msg messageID (Some [(HEADER_ROUTER_KEY, JStr MESSAGEID); (HEADER_ROUTER_VALUE, JInt messageID)]) src.

  (* message.go:23-32 NewURLPatternMessage *)
  Definition NewURLPatternMessage (urlPattern : string) (src : option V) : message V :=
    Msg 0 (Some [(HEADER_ROUTER_KEY, JStr URLPATTERN); (HEADER_ROUTER_VALUE, JStr urlPattern)]) src.

  (* message.go:42-47 Get; a missing key and a nil value are both None / Some JNull resp. *)
  Definition MessageGet (m : message V) (k : string) : option jv :=
    match msg_header m with
    | None => None
    | Some h => aget k h
    end.

  (* message.go:52-54 Set: assignment into a nil map panics *)
  Definition MessageSet (m : message V) (k : string) (v : jv) : res (message V) :=
    match msg_header m with
    | None => Panic
    | Some h => Ok (Msg (msg_id m) (Some (aset k v h)) (msg_body m))
    end.
End Marshallers.

(* request.go:22-28 Request.Set on the header field alone *)
Definition RequestSet (h : header) (k : string) (v : jv) : header :=
  match h with
  | None => Some (aset k v [])
  | Some m => Some (aset k v m)
  end.
