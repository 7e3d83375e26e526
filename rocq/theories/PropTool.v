(* Property theorems: C109, C110: the stream checker and the pack-detail programs.
   Each is closed by the lemma of the same name in ToolProofs.v. *)
From Verif Require Export ToolProofs.
From Verif Require Import Demo.

(* C109, the part that holds.  A stream packed by the library in the named format is answered with
   200 and the message packed, whatever capacity the decoded slice has behind it.
   Example: C109_case. *)
Theorem C109_packed_passes_partial : forall V (E : env V) u name f (m : message V) bs spare,
  In (name, f) documented_names -> is_int32 (msg_id m) -> hdr_roundtrips (e_hdr E) (msg_header m) ->
  (forall v, msg_body m = Some v -> body_roundtrips (format_marshaller E f) v (Some (user_of u f))) ->
  PackWithMarshaller E m (Some (format_marshaller E f)) = Ok bs -> blen bs < 2 ^ 32 ->
  exists m', stream_check E u (Some (json_slice bs spare, name)) = Answers 200 (Some m') /\
    msg_id m' = msg_id m /\ header_eq (msg_header m) (msg_header m') /\
    (msg_body m' = msg_body m \/ (msg_body m' = Some (user_of u f) /\ body_encoding E (Some (format_marshaller E f)) (msg_body m) [])).
Proof. exact p_C109_packed_passes_partial. Qed.
Print Assumptions C109_packed_passes_partial.

(* C109: the same for streams of clients in other languages, which need only be exactly one message.
   Example: C109_wellformed_case. *)
Theorem C109_wellformed_passes_partial : forall V (E : env V) u name f (m : message V) bs spare,
  In (name, f) documented_names -> is_packed E f (user_of u f) bs m -> blen bs < 2 ^ 32 ->
  (forall h, hunmarshal (e_hdr E) [] <> Ok h) ->
  (forall v, m_unmarshal (format_marshaller E f) [] (Some (user_of u f)) = Ok v -> v = user_of u f) ->
  stream_check E u (Some (json_slice bs spare, name)) = Answers 200 (Some m).
Proof. exact p_C109_wellformed_passes_partial. Qed.
Print Assumptions C109_wellformed_passes_partial.

(* C109: exactly which streams are answered with 200.  [loose] is less than being a message: see the
   refutation below.
   Example: C109_wellformed_case. *)
Theorem C109_passes_iff_partial : forall V (E : env V) u name f bs spare (m : message V),
  In (name, f) documented_names -> blen bs + Z.of_nat spare < 2 ^ 32 ->
  (stream_check E u (Some (json_slice bs spare, name)) = Answers 200 (Some m) <->
   loose E f (user_of u f) (bs ++ repeat (byte_of 0) spare) m).
Proof. exact p_C109_passes_iff_partial. Qed.
Print Assumptions C109_passes_iff_partial.

(* C109: exactly which streams get no answer at all, given decoders that do not panic.
   Example: C109_wellformed_case. *)
Theorem C109_no_answer_iff_partial : forall V (E : env V) u name f bs spare,
  In (name, f) documented_names -> blen bs + Z.of_nat spare < 2 ^ 32 ->
  (forall x, hunmarshal (e_hdr E) x <> Panic) -> (forall x d, m_unmarshal (format_marshaller E f) x d <> Panic) ->
  let a := bs ++ repeat (byte_of 0) spare in
  (stream_check E u (Some (json_slice bs spare, name)) = NoAnswer <->
   blen a < 16 \/ blen a < (field a 0 + 4) mod 2 ^ 32 \/ blen a < 16 + field a 8 \/
   (blen a < 16 + field a 8 + field a 12 /\
    (field a 8 = 0 \/ exists h, hunmarshal (e_hdr E) (slice a 16 (Z.to_nat (16 + field a 8))) = Ok h))).
Proof. exact p_C109_no_answer_iff_partial. Qed.
Print Assumptions C109_no_answer_iff_partial.

(* C109: a body that is not JSON and a name that is not documented are answered with 400, and no
   stream is answered with anything but 200 with a message or 400 without.
   Example: C109_case. *)
Theorem C109_rejects : forall V (E : env V) u,
  stream_check E u None = Answers 400 None /\
  (forall s name, (forall f, ~ In (name, f) documented_names) -> stream_check E u (Some (s, name)) = Answers 400 None) /\
  (forall p, stream_check E u p = NoAnswer \/ stream_check E u p = Answers 400 None \/ exists m, stream_check E u p = Answers 200 (Some m)).
Proof. exact p_C109_rejects. Qed.
Print Assumptions C109_rejects.

(* C109 is false.  Streams that are no message pass, and a stream shorter than sixteen bytes, or one
   with a length field beyond its end, is not answered at all. *)
Theorem C109_checks_refuted : exists (E : env string) u,
  (forall m, ~ is_packed E FJson (u_json u) junk_stream m) /\
  (exists m, stream_check E u (Some (json_slice junk_stream 0, "json"%string)) = Answers 200 (Some m)) /\
  (forall m, ~ is_packed E FJson (u_json u) lying_stream m) /\
  (exists m, stream_check E u (Some (json_slice lying_stream 0, "json"%string)) = Answers 200 (Some m)) /\
  (forall m, ~ is_packed E FJson (u_json u) cut_stream m) /\
  (exists m, stream_check E u (Some (json_slice cut_stream 1, "json"%string)) = Answers 200 (Some m)) /\
  (forall bs name f, (List.length bs < 16)%nat -> In (name, f) documented_names -> stream_check E u (Some (json_slice bs 0, name)) = NoAnswer) /\
  stream_check E u (Some (json_slice (be4 100 ++ skipn 4 (demo_block 7 "hi")) 0, "json"%string)) = NoAnswer.
Proof. exact p_C109_checks_refuted. Qed.
Print Assumptions C109_checks_refuted.

(* a message in each of the formats is accepted, as XML read as JSON it is answered with 400 *)
Example C109_case :
  (exists m, stream_check demo_env demo_users (Some (json_slice (demo_block 7 "hi") 2, "json"%string)) = Answers 200 (Some m) /\
     msg_id m = 7 /\ msg_body m = Some "hi"%string) /\
  stream_check demo_env demo_users (Some (json_slice (demo_block 7 "hi") 2, "xml"%string)) = Answers 400 None /\
  stream_check demo_env demo_users (Some (json_slice (demo_block 7 "hi") 2, "text"%string)) = Answers 400 None.
Proof. split; [eexists; split; [vm_compute; reflexivity|split; reflexivity]|]. split; vm_compute; reflexivity. Qed.

(* ... and the hypotheses of the general theorems hold of it *)
Example C109_wellformed_case :
  (exists m, is_packed demo_env FJson ""%string (demo_block 7 "hi") m) /\ blen (demo_block 7 "hi") + 2 < 2 ^ 32 /\
  (forall h, hunmarshal (e_hdr demo_env) [] <> Ok h) /\
  (forall v, m_unmarshal (format_marshaller demo_env FJson) [] (Some ""%string) = Ok v -> v = ""%string).
Proof.
  split; [|split; [vm_compute; reflexivity|split; [intros h; vm_compute; discriminate|intros v; vm_compute; discriminate]]].
  exists (demo_msg 7 "hi").
  destruct demo_layout as (hdr & body & HL & Hh & Hb).
  exists hdr, body, "hi"%string. split; [exact HL|]. split; [vm_compute; split; congruence|]. split; [exact Hh|]. split; [exact Hb|reflexivity].
Qed.

(* C110.  For every id, header and payload the hand-written encoders print what the library packs,
   which is the documented layout.
   Example: C110_case. *)
Theorem C110_encode_is_pack : forall V (E : env V) f id hdr payload b,
  (detail_encode E (m_marshal (format_marshaller E f)) id hdr payload = Ok b <->
   PackWithMarshaller E (Msg id hdr payload) (Some (format_marshaller E f)) = Ok b) /\
  (detail_encode E (m_marshal (format_marshaller E f)) id hdr payload = Ok b -> blen b < 2 ^ 32 ->
   exists hb bb, hmarshal (e_hdr E) hdr = Ok hb /\ body_encoding E (Some (format_marshaller E f)) payload bb /\ frame_layout id hb bb b).
Proof. exact p_C110_encode_is_pack. Qed.
Print Assumptions C110_encode_is_pack.

(* C110, the decoders: of a message in a slice that starts with it they print the length, the id as an
   unsigned number, the two lengths, and header and body if these decode; otherwise nil and the zero value.
   Example: C110_case. *)
Theorem C110_decode_inverts_partial : forall V (E : env V) f (zero : V) id hdr body bs extra s,
  frame_layout id hdr body bs -> blen bs < 2 ^ 32 -> gs_arr s = bs ++ extra ->
  hunmarshal (e_hdr E) hdr <> Panic -> m_unmarshal (format_marshaller E f) body (Some zero) <> Panic ->
  exists d, detail_decode E (m_unmarshal (format_marshaller E f)) zero s = Ok d /\
    d_length d = blen bs - 4 /\ d_id d = id mod 2 ^ 32 /\ d_headerLength d = blen hdr /\ d_bodyLength d = blen body /\
    (forall h, hunmarshal (e_hdr E) hdr = Ok h -> d_header d = h) /\
    (forall v, m_unmarshal (format_marshaller E f) body (Some zero) = Ok v -> d_body d = v) /\
    (forall e, hunmarshal (e_hdr E) hdr = Err e -> d_header d = None) /\
    (forall e, m_unmarshal (format_marshaller E f) body (Some zero) = Err e -> d_body d = zero).
Proof. exact p_C110_decode_inverts_partial. Qed.
Print Assumptions C110_decode_inverts_partial.

(* C110: the arrays in the programs' comments and decoders are what the encoders print for id 1, the
   header {"auth":"abc"} and the body given. *)
Theorem C110_documented_bytes : forall f bs, In (f, bs) detail_docs ->
  exists V (E : env V) v, e_hdr E = json_hdr /\ m_marshal (format_marshaller E f) v = Ok (detail_body f) /\
    detail_encode E (m_marshal (format_marshaller E f)) 1 (Some [("auth"%string, JStr "abc")]) (Some v) = Ok (map byte_of bs).
Proof. exact p_C110_documented_bytes. Qed.
Print Assumptions C110_documented_bytes.

(* C110 is false of the decoders: a negative id is printed as a large positive one, and a header or a
   body that does not decode is printed as an empty one, without a word. *)
Theorem C110_decode_refuted :
  (exists bs d, PackWithMarshaller demo_env (demo_msg (-1) "hi") None = Ok bs /\
     detail_decode demo_env (tag_dec "j") ""%string (of_bytes bs) = Ok d /\ d_id d = 4294967295) /\
  (exists bs d, PackWithMarshaller demo_env (demo_msg 1 "hi") (Some (XmlMarshaller demo_env)) = Ok bs /\
     detail_decode demo_env (tag_dec "j") ""%string (of_bytes bs) = Ok d /\ d_body d = ""%string).
Proof. exact p_C110_decode_refuted. Qed.
Print Assumptions C110_decode_refuted.

(* the programs on the id, header and payload they have *)
Example C110_case : exists b d,
  detail_encode demo_env (tag_enc "j") 1 (Some [("auth"%string, JStr "abc")]) (Some "tcpx"%string) = Ok b /\
  detail_decode demo_env (tag_dec "j") ""%string (of_bytes b) = Ok d /\
  d_id d = 1 /\ d_headerLength d = 14 /\ d_header d = Some [("auth"%string, JStr "abc")] /\ d_body d = "tcpx"%string.
Proof. eexists _, _. split; [vm_compute; reflexivity|]. split; [vm_compute; reflexivity|]. repeat split. Qed.
