(* What clients built on the library's helpers send, and what they read back. *)
From Verif Require Export SpecEnd.

(* what a client's connection sees of a one-shot call that gets as far as sending: one message *)
Definition one_message {V} (E : env V) (id : Z) (data : option V) (b : bytes) : Prop :=
  exists hdr body, hmarshal (e_hdr E) None = Ok hdr /\ body_encoding E (Some (format_marshaller E FJson)) data body /\
    (blen b - 4 < 2 ^ 32 -> frame_layout id hdr body b).

(* there is no such message: header or body does not encode *)
Definition cannot_encode {V} (E : env V) (data : option V) : Prop :=
  ~ exists hdr body, hmarshal (e_hdr E) None = Ok hdr /\ body_encoding E (Some (format_marshaller E FJson)) data body.

(* ... and what a client's call then gives: the encoder's own panic, or its error, wrapped once *)
Definition encoding_failed {V} (E : env V) (data : option V) (r : res unit) : Prop :=
  match hmarshal (e_hdr E) None with
  | Err e => r = Err (EWrap e)
  | Panic => r = Panic
  | Ok _ => match data with
            | Some v => match e_json E v with Err e => r = Err (EWrap e) | Panic => r = Panic | Ok _ => False end
            | None => False
            end
  end.

(* a reply a handler gave with one of the five helpers, and the bytes written: format, id, value, headers *)
Record reply := Rp { rp_fmt : format; rp_id : Z; rp_hs : list header }.
Inductive replied {V} (E : env V) : reply * option V -> bytes -> Prop :=
| replied_with mar f name helper id src hs b :
    In (f, name, helper) [(FJson, "json"%string, ctxJSON E); (FXml, "xml"%string, ctxXML E); (FToml, "toml"%string, ctxTOML E);
                          (FYaml, "yaml"%string, ctxYAML E); (FProtobuf, "protobuf"%string, ctxProtoBuf E)] ->
    (m_name mar = name -> mar = format_marshaller E f) ->
    helper mar id src hs None = (Ok tt, [b]) -> blen b < 2 ^ 31 -> is_int32 id ->
    replied E (Rp f id hs, src) b.

(* the decoder of a format *)
Definition decoder {V} (E : env V) (f : format) : bytes -> option V -> res V := m_unmarshal (format_marshaller E f).

(* what the client finds in a block it received: the id, and the value when it decodes it as that format *)
Definition reads_back {V} (E : env V) (p : reply * option V) (b : bytes) : Prop :=
  PackTypeMessageID (of_bytes b) = Ok (rp_id (fst p)) /\
  (forall v d0 bs, snd p = Some v -> m_marshal (format_marshaller E (rp_fmt (fst p))) v = Ok bs -> m_unmarshal (format_marshaller E (rp_fmt (fst p))) bs (Some d0) = Ok v ->
     PackTypeBind (decoder E (rp_fmt (fst p))) (of_bytes b) (Some d0) = Ok v) /\
  exists m, carries m (rp_hs (fst p)) /\
    (hdr_roundtrips (e_hdr E) (Some m) -> exists h', HeaderOf (e_hdr E) (of_bytes b) = Ok h' /\ header_eq (Some m) h').
