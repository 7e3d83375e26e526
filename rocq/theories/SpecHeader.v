(* When two header values are the same JSON value, and the laws assumed of encoders. *)
From Verif Require Export SpecWire WireModel.

(* Equality of JSON values as a receiver sees them: a Go integer and the float64 with
   the same value are the same JSON number; object entries are unordered. *)
Inductive jeq : jv -> jv -> Prop :=
| jeq_null : jeq JNull JNull
| jeq_bool b : jeq (JBool b) (JBool b)
| jeq_int z a : (a = JInt z \/ a = JNum z) -> jeq (JInt z) a
| jeq_num z a : (a = JInt z \/ a = JNum z) -> jeq (JNum z) a
| jeq_str s : jeq (JStr s) (JStr s)
| jeq_arr l l' : Forall2 jeq l l' -> jeq (JArr l) (JArr l')
| jeq_obj m m' :
    (forall k v, aget k m = Some v -> exists v', aget k m' = Some v' /\ jeq v v') ->
    (forall k, aget k m = None -> aget k m' = None) ->
    jeq (JObj m) (JObj m').

(* Same header: both nil, or the same keys with the same JSON values. *)
Definition header_eq (h h' : header) : Prop :=
  match h, h' with
  | None, None => True
  | Some m, Some m' => jeq (JObj m) (JObj m')
  | _, _ => False
  end.

(* The law assumed of encoding/json for one header value: what Marshal produces is
   non-empty and Unmarshal gives back the same JSON value. *)
Definition hdr_roundtrips (hc : hcodec) (h : header) : Prop :=
  exists b h', hmarshal hc h = Ok b /\ b <> [] /\ hunmarshal hc b = Ok h' /\ header_eq h h'.

(* The law assumed of a body marshaller for one value and destination. *)
Definition body_roundtrips {V} (mar : marshaller V) (v : V) (dest : option V) : Prop :=
  forall bs, m_marshal mar v = Ok bs -> bs <> [] -> m_unmarshal mar bs dest = Ok v.

(* the key/value pairs of a header map; a nil map has none *)
Definition entries_of (h : header) : list (string * jv) :=
  match h with Some m => m | None => [] end.

(* h holds what the given maps say, later ones winning; Go maps have no duplicate keys *)
Definition carries (h : list (string * jv)) (hs : list header) : Prop :=
  Forall (fun m => NoDup (map fst (entries_of m))) hs -> forall k, aget k h = last_mention k (map entries_of hs).

(* the formats of the documentation and the names that select them *)
Inductive format := FJson | FXml | FToml | FYaml | FProtobuf.
Definition documented_names : list (string * format) :=
  [("json", FJson); ("xml", FXml); ("toml", FToml); ("tml", FToml); ("yaml", FYaml); ("yml", FYaml);
   ("protobuf", FProtobuf); ("proto", FProtobuf)]%string.
Definition format_marshaller {V} (E : env V) (f : format) : marshaller V :=
  match f with
  | FJson => MK "json" (e_json E) (e_unjson E)
  | FXml => MK "xml" (e_xml E) (e_unxml E)
  | FToml => MK "toml" (e_toml E) (e_untoml E)
  | FYaml => MK "yaml" (e_yaml E) (e_unyaml E)
  | FProtobuf => MK "protobuf" (e_proto E) (e_unproto E)
  end.

(* what a message's body looks like on the wire: nothing for a nil body, otherwise the
   encoding by the given marshaller, json when none is given *)
Definition body_encoding {V} (E : env V) (mo : option (marshaller V)) (v : option V) (bs : bytes) : Prop :=
  match v, mo with
  | None, _ => bs = []
  | Some x, Some mar => m_marshal mar x = Ok bs
  | Some x, None => e_json E x = Ok bs
  end.
