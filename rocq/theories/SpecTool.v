(* What the stream checker and the pack-detail programs are expected to do. *)
From Verif Require Export SpecHeader ToolModel JsonModel.

(* the bytes are exactly one message of the format, whose header and body decode; [user] is the value
   decoded into *)
Definition is_packed {V} (E : env V) (f : format) (user : V) (bs : bytes) (m : message V) : Prop :=
  exists hdr body v, frame_layout (msg_id m) hdr body bs /\ is_int32 (msg_id m) /\
    hunmarshal (e_hdr E) hdr = Ok (msg_header m) /\
    m_unmarshal (format_marshaller E f) body (Some user) = Ok v /\ msg_body m = Some v.

(* the user value of a format *)
Definition user_of {V} (u : users) (f : format) : V :=
  match f with FJson => u_json u | FXml => u_xml u | FToml => u_toml u | FYaml => u_yaml u | FProtobuf => u_proto u end.

(* what the checker really asks of the bytes: sixteen of them, the length field not beyond the end,
   and header and body where the other two fields say, of which an empty one is not looked at *)
Definition loose {V} (E : env V) (f : format) (user : V) (bs : bytes) (m : message V) : Prop :=
  16 <= blen bs /\ (field bs 0 + 4) mod 2 ^ 32 <= blen bs /\ msg_id m = signed (field bs 4) /\
  exists hdr body rest, skipn 16 bs = hdr ++ body ++ rest /\ blen hdr = field bs 8 /\ blen body = field bs 12 /\
    (if blen hdr =? 0 then msg_header m = None else hunmarshal (e_hdr E) hdr = Ok (msg_header m)) /\
    (if blen body =? 0 then msg_body m = Some user else exists v, m_unmarshal (format_marshaller E f) body (Some user) = Ok v /\ msg_body m = Some v).

(* the message the pack-detail programs print, taken from their comments: pack-detail/xml/encode/main.go:56,
   yaml 54, toml 54, protobuf 55, and the arrays of the decode programs (json: decode/main.go:11-12) *)
Definition detail_docs : list (format * list Z) :=
  [(FJson, [0; 0; 0; 45; 0; 0; 0; 1; 0; 0; 0; 14; 0; 0; 0; 19; 123; 34; 97; 117; 116; 104; 34; 58; 34; 97; 98; 99; 34; 125; 123; 34; 117; 115; 101; 114; 110; 97;
            109; 101; 34; 58; 34; 116; 99; 112; 120; 34; 125]);
   (FXml, [0; 0; 0; 64; 0; 0; 0; 1; 0; 0; 0; 14; 0; 0; 0; 38; 123; 34; 97; 117; 116; 104; 34; 58; 34; 97; 98; 99; 34; 125; 60; 120; 109; 108; 62; 60; 117; 115;
           101; 114; 95; 110; 97; 109; 101; 62; 116; 99; 112; 120; 60; 47; 117; 115; 101; 114; 95; 110; 97; 109; 101; 62; 60; 47; 120; 109; 108; 62]);
   (FYaml, [0; 0; 0; 42; 0; 0; 0; 1; 0; 0; 0; 14; 0; 0; 0; 16; 123; 34; 97; 117; 116; 104; 34; 58; 34; 97; 98; 99; 34; 125;
            117; 115; 101; 114; 95; 110; 97; 109; 101; 58; 32; 116; 99; 112; 120; 10]);
   (FToml, [0; 0; 0; 45; 0; 0; 0; 1; 0; 0; 0; 14; 0; 0; 0; 19; 123; 34; 97; 117; 116; 104; 34; 58; 34; 97; 98; 99; 34; 125;
            117; 115; 101; 114; 95; 110; 97; 109; 101; 32; 61; 32; 34; 116; 99; 112; 120; 34; 10]);
   (FProtobuf, [0; 0; 0; 32; 0; 0; 0; 1; 0; 0; 0; 14; 0; 0; 0; 6; 123; 34; 97; 117; 116; 104; 34; 58; 34; 97; 98; 99; 34; 125; 10; 4; 116; 99; 112; 120])].
(* what the encoders of the formats make of the user "tcpx" *)
Definition detail_body (f : format) : bytes :=
  str_bytes match f with
  | FJson => "{""username"":""tcpx""}"
  | FXml => "<xml><user_name>tcpx</user_name></xml>"
  | FYaml => "user_name: tcpx" ++ String (ascii_of_nat 10) EmptyString
  | FToml => "user_name = ""tcpx""" ++ String (ascii_of_nat 10) EmptyString
  | FProtobuf => String (ascii_of_nat 10) (String (ascii_of_nat 4) "tcpx")
  end%string.
