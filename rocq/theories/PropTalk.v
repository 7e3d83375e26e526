(* Property theorems: Small clients: one-shot calls, and reading replies (C92, C93)..
   Each is closed by the lemma of the same name in TalkProofs.v. *)
From Verif Require Export TalkProofs.
From Verif Require Import Demo.

(* C92, the part that holds: for an id in int32 range.  Dialling fails: nothing is written and
   there is nothing to close.  Otherwise the connection is closed, last, whatever happens, and
   before that exactly one message with the given id and data is written - or nothing, with an
   error (or the encoder's own panic), exactly when header or data do not encode.
   nil is returned exactly when the write succeeded, and otherwise the write's error, wrapped.  Missing: ids outside int32.
   Example: C92_case. *)
Theorem C92_call_once_partial : forall {V} (E : env V) id data derr werr, is_int32 id ->
  match TCPCallOnceJSON E id data derr werr with
  | (r, [NDial]) => exists e, derr = Some e /\ r = Err (EWrap e)
  | (r, [NDial; NClose]) => derr = None /\ cannot_encode E data /\ encoding_failed E data r
  | (r, [NDial; NWrite b; NClose]) => derr = None /\ one_message E id data b /\ r = match werr with None => Ok tt | Some e => Err (EWrap e) end
  | _ => False
  end.
Proof. exact @p_C92_call_once_partial. Qed.
Print Assumptions C92_call_once_partial.

(* C92 for WriteJSON: one write of one message, or none.
   Example: C92_case. *)
Theorem C92_write_json : forall {V} (E : env V) id data werr, is_int32 id ->
  match WriteJSON E id data werr with
  | (r, []) => cannot_encode E data /\ encoding_failed E data r
  | (r, [b]) => one_message E id data b /\ r = match werr with None => Ok tt | Some e => Err (EWrap e) end
  | _ => False
  end.
Proof. exact @p_C92_write_json. Qed.
Print Assumptions C92_write_json.

(* C92, the other end: however the bytes arrive, a server whose limit admits the message
   dispatches exactly it, and then sees the connection end.
   Example: C92_case. *)
Theorem C92_server_dispatches_one : forall {V} (E : env V) lim id data b en r hb, is_int32 id ->
  TCPCallOnceJSON E id data None None = (Ok tt, [NDial; NWrite b; NClose]) ->
  blen b < 2 ^ 31 -> within lim b -> hmarshal (e_hdr E) None = Ok hb -> hb <> [] -> hunmarshal (e_hdr E) hb = Ok None ->
  segmentation b en r ->
  serve_reads (e_hdr E) lim r = ([SDispatch b], at_end en) /\
  forall c, c_stream c = of_bytes b -> received E (Msg id None data, Some (JsonMarshaller E)) c.
Proof. exact @p_C92_server_dispatches_one. Qed.
Print Assumptions C92_server_dispatches_one.

Example C92_case : exists b, TCPCallOnceJSON demo_env 5 (Some "hi"%string) None None = (Ok tt, [NDial; NWrite b; NClose]) /\
  WriteJSON demo_env 5 (Some "hi"%string) (Some EEOF) = (Err (EWrap EEOF), [b]) /\
  blen b < 2 ^ 31 /\ within 100 b /\ (exists hb, hmarshal json_hdr None = Ok hb /\ hb <> [] /\ hunmarshal json_hdr hb = Ok None) /\
  segmentation b (Fails EEOF) [RData (firstn 7 b); RData (skipn 7 b); RFail EEOF] /\
  TCPCallOnceJSON demo_env 5 (Some "hi"%string) (Some EEOF) None = (Err (EWrap EEOF), [NDial]).
Proof.
  eexists. split; [vm_compute; reflexivity|]. split; [vm_compute; reflexivity|]. split; [vm_compute; reflexivity|].
  split; [intros _; vm_compute; discriminate|]. split; [|split; [|reflexivity]].
  - eexists. split; [vm_compute; reflexivity|]. split; [discriminate|vm_compute; reflexivity].
  - split; [unfold plain; repeat constructor|split; vm_compute; reflexivity].
Qed.

(* C92 is false for other ids: TCPCallOnceJSON takes an int and sends its low 32 bits, so the
   message goes to another id's handler, and nil is returned. *)
Theorem C92_wide_id_refuted : forall {V} (E : env V) id data b werr, ~ is_int32 id ->
  TCPCallOnceJSON E id data None werr = (Ok tt, [NDial; NWrite b; NClose]) -> blen b < 2 ^ 31 ->
  exists other, other <> id /\ is_int32 other /\ one_message E other data b /\ MessageIDOf (of_bytes b) = Ok other.
Proof. exact @p_C92_wide_id_refuted. Qed.
Print Assumptions C92_wide_id_refuted.

Example C92_wide_id_case : ~ is_int32 (2 ^ 32 + 5) /\
  TCPCallOnceJSON demo_env (2 ^ 32 + 5) (Some "hi"%string) None None = TCPCallOnceJSON demo_env 5 (Some "hi"%string) None None.
Proof. split; [unfold is_int32, two31; lia|vm_compute; reflexivity]. Qed.

(* C93, the part that holds: replies given with ctx.JSON/XML/TOML/YAML/ProtoBuf, one after another,
   arrive - over any segmentation - as exactly these blocks in this order, and from each the client
   (Recv, PackType.MessageID, PackType.Bind.., HeaderOf) gets the id, the headers and the value of
   the reply, given that the format's encoder and decoder round-trip on that value.
   (A context marshaller that takes a built-in's name must be the built-in one.)
   Missing: replies without a value, see C93_no_value_refuted. *)
Theorem C93_replies_read_back_partial : forall {V} (E : env V) ps bs rest en r, Forall2 (replied E) ps bs ->
  segmentation (concat bs ++ rest) en r ->
  (exists r', recv FirstBlockOf (List.length ps) r = (bs, RdOk tt, r') /\ segmentation rest en r') /\ Forall2 (reads_back E) ps bs.
Proof. exact @p_C93_replies_read_back_partial. Qed.
Print Assumptions C93_replies_read_back_partial.

Example C93_case : exists b1 b2,
  replied demo_env (Rp FYaml 9 [Some [("k"%string, JInt 1)]], Some "v"%string) b1 /\
  replied demo_env (Rp FJson (-2) [], Some "w"%string) b2 /\
  recv FirstBlockOf 2 (map (fun c => RData [c]) (b1 ++ b2)) = ([b1; b2], RdOk tt, []) /\
  PackTypeBind (decoder demo_env FYaml) (of_bytes b1) (Some EmptyString) = Ok "v"%string /\
  HeaderOf json_hdr (of_bytes b1) = Ok (Some [("k"%string, JNum 1)]).
Proof.
  eexists _, _. split; [|split; [|split; [|split]]].
  - eapply (replied_with demo_env (JsonMarshaller demo_env) FYaml "yaml" (ctxYAML demo_env)); [cbn; tauto|discriminate|vm_compute; reflexivity|vm_compute; reflexivity|split; vm_compute; congruence].
  - eapply (replied_with demo_env (JsonMarshaller demo_env) FJson "json" (ctxJSON demo_env)); [cbn; tauto|reflexivity|vm_compute; reflexivity|vm_compute; reflexivity|split; vm_compute; congruence].
  - vm_compute. reflexivity.
  - vm_compute. reflexivity.
  - vm_compute. reflexivity.
Qed.

(* C93 is false for a reply without a value (src = nil): it is sent with an empty body, which the
   client hands to the decoder; a decoder that rejects the empty input - JSON's does - fails. *)
Theorem C93_no_value_refuted : forall {V} (E : env V) p b d0 e, replied E (p, None) b ->
  decoder E (rp_fmt p) [] d0 = Err e -> PackTypeBind (decoder E (rp_fmt p)) (of_bytes b) d0 = Err (EWrap e).
Proof. exact @p_C93_no_value_refuted. Qed.
Print Assumptions C93_no_value_refuted.

Example C93_no_value_case : exists b e, replied demo_env (Rp FJson 9 [], None) b /\ decoder demo_env FJson [] (Some EmptyString) = Err e.
Proof.
  eexists _, _. split; [|reflexivity].
  eapply (replied_with demo_env (JsonMarshaller demo_env) FJson "json" (ctxJSON demo_env)); [cbn; tauto|reflexivity|vm_compute; reflexivity|vm_compute; reflexivity|split; vm_compute; congruence].
Qed.

(* C93 for pattern replies: the client of ctx.JSONURLPattern / ctx.ProtobufURLPattern reads the
   pattern the handler's context reports, and the value. *)
Theorem C93_pattern_replies : forall {V} (E : env V) f helper c src w w' b p,
  (f = FJson /\ helper = JSONURLPattern E) \/ (f = FProtobuf /\ helper = ProtobufURLPattern E) ->
  fst (GetURLPattern (e_hdr E) c w) = Ok p -> helper c src None w = ((Ok tt, [b]), w') -> blen b < 2 ^ 31 ->
  hdr_roundtrips (e_hdr E) (Some [("Router-Type"%string, JStr "URL_PATTERN"); ("Router-Pattern-Value"%string, JStr p)]) ->
  PackTypeURLPattern E (of_bytes b) = Ok p /\
  forall v d0 bs, src = Some v -> m_marshal (format_marshaller E f) v = Ok bs -> decoder E f bs (Some d0) = Ok v ->
    PackTypeBind (decoder E f) (of_bytes b) (Some d0) = Ok v.
Proof. exact @p_C93_pattern_replies. Qed.
Print Assumptions C93_pattern_replies.

Example C93_pattern_case : let c := Ctx true (Some 0%nat) 0%nat (of_bytes (url_block_of "/login/")) in
  fst (GetURLPattern json_hdr c world0) = Ok "/login/"%string /\
  hdr_roundtrips json_hdr (Some [("Router-Type"%string, JStr "URL_PATTERN"); ("Router-Pattern-Value"%string, JStr "/login/")]) /\
  exists b w bs, JSONURLPattern demo_env c (Some "v"%string) None world0 = ((Ok tt, [b]), w) /\ blen b < 2 ^ 31 /\
    m_marshal (format_marshaller demo_env FJson) "v"%string = Ok bs /\ decoder demo_env FJson bs (Some ""%string) = Ok "v"%string /\
    PackTypeURLPattern demo_env (of_bytes b) = Ok "/login/"%string.
Proof.
  cbv zeta. split; [vm_compute; reflexivity|]. split; [apply json_hdr_roundtrips; reflexivity|].
  eexists _, _, _. split; [vm_compute; reflexivity|]. split; [vm_compute; reflexivity|]. split; [vm_compute; reflexivity|]. split; vm_compute; reflexivity.
Qed.
