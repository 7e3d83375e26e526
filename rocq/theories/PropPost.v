(* Property theorems. Each is closed by the lemma of the same name in PostProofs.v. *)
From Verif Require Export PostProofs.

(* C136: the order of the members, the case of their names, further members and the language they were
   written in make no difference: the stream checked is the one whose base64 text was posted, with at most
   two bytes of room behind it, under the name posted.
   Example: C136_case. *)
Theorem C136_any_client : forall m b s name, Forall (fun kv => ascii_str (fst kv) = true /\ jvalid (snd kv) = true) m ->
  str_bytes s = b64_encode b -> only_value "stream" m (JStr s) -> only_value "marshal_name" m (JStr name) ->
  exists spare, (spare <= 2)%nat /\ bind_param (object_text m) = Some (json_slice b spare, name).
Proof. exact p_C136_any_client. Qed.
Print Assumptions C136_any_client.

(* C136: what the Go client posts is read back as it was: the bytes packed and the name.
   Example: C136_client_case. *)
Theorem C136_posted : forall b name, ascii_str name = true ->
  exists spare, (spare <= 2)%nat /\ bind_param (param_json (Some b) name) = Some (json_slice b spare, name).
Proof. exact p_C136_posted. Qed.
Print Assumptions C136_posted.

(* C136: a user posted by the Go client in any documented format, under any of its names, is answered with
   200 and the message: id 1, no header entries, and the user, given a format that reads back what it
   writes.
   Example: C136_client_case. *)
Theorem C136_passes_partial : forall V (E : env V) u name f user body, In (name, f) documented_names ->
  hdr_roundtrips (e_hdr E) (Some []) -> body_roundtrips (format_marshaller E f) user (Some (user_of u f)) ->
  client_posts E (format_marshaller E f) name user = Ok body -> blen body < 2 ^ 32 ->
  exists m, serves_post E u body = Answers 200 (Some m) /\ msg_id m = 1 /\ header_eq (Some []) (msg_header m) /\
    (msg_body m = Some user \/ (msg_body m = Some (user_of u f) /\ body_encoding E (Some (format_marshaller E f)) (Some user) [])).
Proof. exact p_C136_passes_partial. Qed.
Print Assumptions C136_passes_partial.

(* C136: the protobuf client end to end: every user name that is UTF-8 can be posted, and is answered with 200
   and the message packed.
   Example: C136_client_case. *)
Theorem C136_protobuf : forall t, utf8_text t -> blen t < 2 ^ 30 -> exists body m,
  client_posts user_env (ProtobufMarshaller user_env) "protobuf" (PbMsg t []) = Ok body /\
  serves_post user_env empty_users body = Answers 200 (Some m) /\ msg_id m = 1 /\ header_eq (Some []) (msg_header m) /\ msg_body m = Some (PbMsg t []).
Proof. exact p_C136_protobuf. Qed.
Print Assumptions C136_protobuf.

(* C136, not what the documentation leads to expect: a name given twice, even in different letters, is no
   error, and the last one counts.
   Example: C136_case. *)
Theorem C136_last_counts : forall m k s b st name, Forall (fun kv => ascii_str (fst kv) = true /\ jvalid (snd kv) = true) m -> ascii_str k = true ->
  bind_param (object_text m) = Some (st, name) -> spells "stream" k -> str_bytes s = b64_encode b ->
  exists spare, bind_param (object_text (m ++ [(k, JStr s)])) = Some (json_slice b spare, name).
Proof. exact p_C136_last_counts. Qed.
Print Assumptions C136_last_counts.

(* C136: what is answered with 400 without looking at any stream: a member of one of the two names that is
   neither text nor null, a stream that is no base64, and no name at all.
   Example: C136_case. *)
Theorem C136_rejects : forall V (E : env V) u m, Forall (fun kv => ascii_str (fst kv) = true /\ jvalid (snd kv) = true) m ->
  (exists k v, In (k, v) m /\ (spells "stream" k \/ spells "marshal_name" k) /\ v <> JNull /\ forall s, v <> JStr s) \/
  (exists k s, In (k, JStr s) m /\ spells "stream" k /\ forall b, b64_decode (str_bytes s) <> Ok b) \/
  (forall k v, In (k, v) m -> ~ spells "marshal_name" k) ->
  serves_post E u (object_text m) = Answers 400 None.
Proof. exact p_C136_rejects. Qed.
Print Assumptions C136_rejects.

(* C136: a body that is no object is an error, except null, which is a stream of no bytes and no name.
   Example: C136_no_object_case. *)
Theorem C136_no_object : forall w t x, blank w -> (forall r, t <> cLB :: r) -> (forall c r, t = c :: r -> ~ In (code c) [32; 9; 10; 13]) ->
  (bind_param (w ++ t) = Some x <-> x = (json_slice [] 0, ""%string) /\ exists w', blank w' /\ t = str_bytes "null" ++ w').
Proof. exact p_C136_no_object. Qed.
Print Assumptions C136_no_object.

Example C136_no_object_case : blank (str_bytes " ") /\ bind_param (str_bytes " null ") = Some (json_slice [] 0, ""%string) /\ bind_param (str_bytes " nul") = None /\ bind_param (str_bytes " ""null""") = None /\
  bind_param (str_bytes " null null") = None.
Proof. split; [repeat constructor|]. vm_compute. repeat split. Qed.

(* a post with the members the other way round, in other letters and with one more; a stream given twice; a
   stream that is a number, one that is no base64 ("A"), no name *)
Example C136_case : let t := b64_encode (str_bytes "abcd") in let s := string_of_list_ascii t in
  let m := [("Marshal_NAME", JStr "json"); ("extra", JArr [JNum 1]); ("STREAM", JStr s)]%string in
  Forall (fun kv => ascii_str (fst kv) = true /\ jvalid (snd kv) = true) m /\ str_bytes s = t /\
  bind_param (object_text m) = Some (json_slice (str_bytes "abcd") 2, "json"%string) /\
  bind_param (object_text (m ++ [("stream", JStr "AAAA")]%string)) = Some (json_slice (map byte_of [0; 0; 0]) 0, "json"%string) /\
  map (fun m => serves_post user_env empty_users (object_text m)) [[("stream", JNum 1)]; [("stream", JStr "A"); ("marshal_name", JStr "json")]; [("stream", JStr s)]]%string = repeat (Answers 400 None) 3 /\
  bind_param (str_bytes " null ") = Some (json_slice [] 0, ""%string) /\ bind_param (str_bytes "[]") = None /\ bind_param (str_bytes "{} 1") = None /\
  bind_param (cLB :: cDQ :: byte_of 197 :: byte_of 191 :: str_bytes "tream" ++ [cDQ; cCL; cDQ; "A"; "A"; "A"; "A"; cDQ; cRB]%char) = Some (json_slice (map byte_of [0; 0; 0]) 0, ""%string).
Proof. cbv zeta. split; [repeat constructor|]. vm_compute. repeat split. Qed.

(* the client of main: the user "tcpx" *)
Example C136_client_case : exists body, client_posts user_env (ProtobufMarshaller user_env) "protobuf" (PbMsg (str_bytes "tcpx") []) = Ok body /\
  body = str_bytes "{""stream"":""AAAAFAAAAAEAAAACAAAABnt9CgR0Y3B4"",""marshal_name"":""protobuf""}" /\
  serves_post user_env empty_users body = Answers 200 (Some (Msg 1 (Some []) (Some (PbMsg (str_bytes "tcpx") [])))).
Proof. eexists. split; [vm_compute; reflexivity|]. split; vm_compute; reflexivity. Qed.

(* C136: which members of a post are read: those whose key counts as stream or as marshal_name; any other changes nothing.
   Example: C136_keys_case. *)
Theorem C136_keys : forall p key v,
  (names_field "stream" key = true <-> counts_as (str_bytes "stream") (str_bytes key)) /\
  (names_field "marshal_name" key = true <-> counts_as (str_bytes "marshal_name") (str_bytes key)) /\
  (~ counts_as (str_bytes "stream") (str_bytes key) -> ~ counts_as (str_bytes "marshal_name") (str_bytes key) -> read_member p key v = Some p).
Proof. exact p_C136_keys. Qed.
Print Assumptions C136_keys.

Example C136_keys_case : names_field "stream" (string_of_list_ascii (byte_of 197 :: byte_of 191 :: str_bytes "TReam")) = true /\
  names_field "stream" (string_of_list_ascii (byte_of 196 :: byte_of 191 :: str_bytes "TReam")) = false /\ names_field "marshal_name" "marshalName" = false.
Proof. vm_compute. repeat split. Qed.
