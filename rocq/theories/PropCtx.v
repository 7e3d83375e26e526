(* Property theorems: Contexts: the two stores, router type, URL pattern, reply helpers..
   Each is closed by the lemma of the same name in CtxProofs.v. *)
From Verif Require Export CtxProofs.
From Verif Require Import Demo.

(* C34, exactly: the router type used for a message is the string its request storage holds under
   router_type, else the one in its own bytes (see C34_own_type_partial, C34_sticky_refuted).
   Example: C34_sticky_case, C34_own_case. *)
Theorem C34_router_type_exact : forall hc h x c, nth_error (w_ctxs (crun hc h)) x = Some c ->
  exists s, req_slot h x = Some s /\
    fst (RouterType hc c (crun hc h)) =
      match val hc h s (KStr "router_type") with
      | Some (VStr t) => Ok t
      | _ => own_router_type hc (stream_of h x)
      end.
Proof. exact p_C34_router_type_exact. Qed.
Print Assumptions C34_router_type_exact.

(* C34, the part that holds: a message whose request storage holds no string under router_type
   (nothing routed before on that connection, or a datagram) is routed as its own header asks.
   Missing for the full claim: later messages of a TCP connection, see C34_sticky_refuted.
   Example: C34_own_case, C34_layout_case. *)
Theorem C34_own_type_partial : forall hc h x c s id hdr body hd,
  nth_error (w_ctxs (crun hc h)) x = Some c -> req_slot h x = Some s ->
  is_string (val hc h s (KStr "router_type")) = false ->
  is_int32 id -> frame_layout id hdr body (gbytes (stream_of h x)) -> blen (gbytes (stream_of h x)) < 2 ^ 31 ->
  gwf (stream_of h x) -> hunmarshal hc hdr = Ok hd ->
  fst (route hc c (crun hc h)) = Ok (asked_routing hd id).
Proof. exact p_C34_own_type_partial. Qed.
Print Assumptions C34_own_type_partial.

(* C34 for datagrams: whatever else happened, including earlier routing of the same datagram.
   Example: C34_own_case, C34_layout_case. *)
Theorem C34_datagram_own_type : forall hc h x c id hdr body hd,
  nth_error (w_ctxs (crun hc h)) x = Some c -> nth_error (born h) x = Some Gram ->
  (forall o, In o h -> subject o = Some x -> names_key (KStr "router_type") o = false) ->
  is_int32 id -> frame_layout id hdr body (gbytes (stream_of h x)) -> blen (gbytes (stream_of h x)) < 2 ^ 31 ->
  gwf (stream_of h x) -> hunmarshal hc hdr = Ok hd ->
  fst (route hc c (crun hc h)) = Ok (asked_routing hd id).
Proof. exact p_C34_datagram_own_type. Qed.
Print Assumptions C34_datagram_own_type.

(* C34 is false for TCP: the type found for one message y of a connection decides the routing of
   every later message x of that connection, whatever x's own header says (until a handler
   stores under the key router_type itself or x is Reset). *)
Theorem C34_sticky_refuted : forall hc h h2 c y cy t x cx id hdr body hd,
  let h' := h2 ++ CRouter y :: h in
  nth_error (w_ctxs (crun hc h)) y = Some cy -> nth_error (born h) y = Some (Req c) -> was_reset h y = false ->
  fst (RouterType hc cy (crun hc h)) = Ok t ->
  existsb (names_key (KStr "router_type")) h2 = false ->
  nth_error (w_ctxs (crun hc h')) x = Some cx -> nth_error (born h') x = Some (Req c) -> was_reset h' x = false ->
  is_int32 id -> frame_layout id hdr body (gbytes (stream_of h' x)) -> blen (gbytes (stream_of h' x)) < 2 ^ 31 ->
  gwf (stream_of h' x) -> hunmarshal hc hdr = Ok hd ->
  fst (RouterType hc cx (crun hc h')) = Ok t /\
  fst (route hc cx (crun hc h')) = Ok (routing_by t hd id).
Proof. exact p_C34_sticky_refuted. Qed.
Print Assumptions C34_sticky_refuted.

(* An id-routed message followed by a URL-routed one on the same connection: the second is routed
   by its id, not by its pattern. *)
Example C34_sticky_case : exists cx,
  nth_error (w_ctxs (crun json_hdr [CRead 0 (of_bytes url_block); CRouter 1; CRead 0 (of_bytes id_block); CAccept])) 2 = Some cx /\
  asked_routing (Some [("Router-Type"%string, JStr "URL_PATTERN"); ("Router-Pattern-Value"%string, JStr "/x/")]) 0 = ByURL "/x/" /\
  HeaderOf json_hdr (c_stream cx) = Ok (Some [("Router-Type"%string, JStr "URL_PATTERN"); ("Router-Pattern-Value"%string, JStr "/x/")]) /\
  fst (route json_hdr cx (crun json_hdr [CRead 0 (of_bytes url_block); CRouter 1; CRead 0 (of_bytes id_block); CAccept])) = Ok (ById 0).
Proof. eexists. split; [reflexivity|]. split; [reflexivity|]. split; vm_compute; reflexivity. Qed.

(* the same message arriving first, or as a datagram, is routed by its pattern *)
Example C34_own_case : exists cx cy,
  let h := [CDatagram (of_bytes url_block); CRead 0 (of_bytes url_block); CAccept] in
  nth_error (w_ctxs (crun json_hdr h)) 1 = Some cx /\ nth_error (w_ctxs (crun json_hdr h)) 2 = Some cy /\
  nth_error (born h) 2 = Some Gram /\
  is_string (val json_hdr h (SConn 0) (KStr "router_type")) = false /\
  fst (route json_hdr cx (crun json_hdr h)) = Ok (ByURL "/x/") /\
  fst (route json_hdr cy (crun json_hdr h)) = Ok (ByURL "/x/").
Proof. eexists. eexists. cbv zeta. split; [reflexivity|]. split; [reflexivity|]. split; [reflexivity|]. split; [reflexivity|]. split; vm_compute; reflexivity. Qed.

(* the layout hypotheses of C34 and C35 on a concrete message *)
Example C34_layout_case : exists hdr body hd, frame_layout 0 hdr body url_block /\ hunmarshal json_hdr hdr = Ok hd /\
  asked_routing hd 0 = ByURL "/x/" /\ asked_pattern hd = Some "/x/"%string /\ blen url_block < 2 ^ 31 /\ gwf (of_bytes url_block).
Proof.
  set (n := Z.to_nat (be_val (firstn 4 (skipn 8 url_block)))). exists (firstn n (skipn 16 url_block)), (skipn n (skipn 16 url_block)). eexists. split.
  - exists (firstn 4 url_block), (firstn 4 (skipn 4 url_block)), (firstn 4 (skipn 8 url_block)), (firstn 4 (skipn 12 url_block)).
    do 4 (split; [reflexivity|]). vm_compute. auto 10.
  - split; [vm_compute; reflexivity|]. split; [reflexivity|]. split; [reflexivity|]. split; [reflexivity|]. apply gwf_of_bytes.
Qed.

(* C35, exactly: the pattern a context reports.
   Example: C35_case. *)
Theorem C35_pattern_exact : forall hc h x c, nth_error (w_ctxs (crun hc h)) x = Some c ->
  exists s, req_slot h x = Some s /\
    fst (GetURLPattern hc c (crun hc h)) =
      match val hc h s (KStr "url_pattern") with
      | Some (VStr t) => Ok t
      | _ => rwrap (URLPatternOf hc (stream_of h x))
      end.
Proof. exact p_C35_pattern_exact. Qed.
Print Assumptions C35_pattern_exact.

(* C35, the reply: JSONURLPattern and ProtobufURLPattern write one block, whose header carries the
   pattern GetURLPattern reports, with id 0; on failure they write nothing.
   Example: C35_case. *)
Theorem C35_reply_carries_reported_pattern : forall {V} (E : env V) c src werr w fmt reply,
  (fmt = FJson /\ reply = JSONURLPattern E) \/ (fmt = FProtobuf /\ reply = ProtobufURLPattern E) ->
  match fst (GetURLPattern (e_hdr E) c w), fst (reply c src werr w) with
  | Ok p, (r, [b]) =>
      (blen b - 4 < 2 ^ 32 -> exists hdr body,
        hmarshal (e_hdr E) (Some [("Router-Type"%string, JStr "URL_PATTERN"); ("Router-Pattern-Value"%string, JStr p)]) = Ok hdr /\
        body_encoding E (Some (format_marshaller E fmt)) src body /\ frame_layout 0 hdr body b) /\
      write_outcome werr r
  | Ok p, (r, ws) => ws = [] /\ r = match MessagePack E (NewURLPatternMessage p src) (Some (format_marshaller E fmt)) with Err e => Err (EWrap e) | _ => Panic end
  | Err e, (r, ws) => ws = [] /\ r = Err (EWrap e)
  | Panic, (r, ws) => ws = [] /\ r = Panic
  end.
Proof. exact @p_C35_reply_carries_reported_pattern. Qed.
Print Assumptions C35_reply_carries_reported_pattern.

(* C35, the part that holds: when no pattern was stored on the connection before, the reported
   pattern is the one in the request's own header.  Missing: later requests of the same TCP
   connection.
   Example: C35_own_case, C34_layout_case. *)
Theorem C35_own_pattern_partial : forall hc h x c s id hdr body hd,
  nth_error (w_ctxs (crun hc h)) x = Some c -> req_slot h x = Some s ->
  is_string (val hc h s (KStr "url_pattern")) = false ->
  is_int32 id -> frame_layout id hdr body (gbytes (stream_of h x)) -> blen (gbytes (stream_of h x)) < 2 ^ 31 ->
  gwf (stream_of h x) -> hunmarshal hc hdr = Ok hd ->
  match asked_pattern hd with
  | Some u => fst (GetURLPattern hc c (crun hc h)) = Ok u
  | None => exists e, fst (GetURLPattern hc c (crun hc h)) = Err e
  end.
Proof. exact p_C35_own_pattern_partial. Qed.
Print Assumptions C35_own_pattern_partial.

(* C35 for datagrams.
   Example: C35_own_case, C34_layout_case. *)
Theorem C35_datagram_own_pattern : forall hc h x c id hdr body hd u,
  nth_error (w_ctxs (crun hc h)) x = Some c -> nth_error (born h) x = Some Gram ->
  (forall o, In o h -> subject o = Some x -> names_key (KStr "url_pattern") o = false) ->
  is_int32 id -> frame_layout id hdr body (gbytes (stream_of h x)) -> blen (gbytes (stream_of h x)) < 2 ^ 31 ->
  gwf (stream_of h x) -> hunmarshal hc hdr = Ok hd -> asked_pattern hd = Some u ->
  fst (GetURLPattern hc c (crun hc h)) = Ok u.
Proof. exact p_C35_datagram_own_pattern. Qed.
Print Assumptions C35_datagram_own_pattern.

(* C35 is false for TCP: once a pattern was reported for one request of a connection, every later
   request of that connection reports, and is replied to with, that first pattern. *)
Theorem C35_sticky_refuted : forall hc h h2 c y cy u x cx,
  let h' := h2 ++ CURL y :: h in
  nth_error (w_ctxs (crun hc h)) y = Some cy -> nth_error (born h) y = Some (Req c) -> was_reset h y = false ->
  fst (GetURLPattern hc cy (crun hc h)) = Ok u ->
  existsb (names_key (KStr "url_pattern")) h2 = false ->
  nth_error (w_ctxs (crun hc h')) x = Some cx -> nth_error (born h') x = Some (Req c) -> was_reset h' x = false ->
  fst (GetURLPattern hc cx (crun hc h')) = Ok u.
Proof. exact p_C35_sticky_refuted. Qed.
Print Assumptions C35_sticky_refuted.

Example C35_case :
  let h := [CRead 0 (of_bytes url_block2); CURL 1; CRead 0 (of_bytes url_block); CAccept] in
  match nth_error (w_ctxs (crun json_hdr h)) 2 with
  | Some cx =>
      URLPatternOf json_hdr (stream_of h 2) = Ok "/y/"%string /\
      fst (GetURLPattern json_hdr cx (crun json_hdr h)) = Ok "/x/"%string /\
      match fst (JSONURLPattern demo_env cx (Some "r"%string) None (crun json_hdr h)) with
      | (Ok tt, [b]) => URLPatternOf json_hdr (of_bytes b) = Ok "/x/"%string
      | _ => False
      end
  | None => False
  end.
Proof. vm_compute. auto. Qed.

Example C35_own_case : exists cx cy,
  let h := [CDatagram (of_bytes url_block2); CRead 0 (of_bytes url_block); CAccept] in
  nth_error (w_ctxs (crun json_hdr h)) 1 = Some cx /\ nth_error (w_ctxs (crun json_hdr h)) 2 = Some cy /\
  is_string (val json_hdr h (SConn 0) (KStr "url_pattern")) = false /\
  fst (GetURLPattern json_hdr cx (crun json_hdr h)) = Ok "/x/"%string /\
  fst (GetURLPattern json_hdr cy (crun json_hdr h)) = Ok "/y/"%string.
Proof. eexists. eexists. cbv zeta. split; [reflexivity|]. split; [reflexivity|]. split; [reflexivity|]. split; vm_compute; reflexivity. Qed.

(* C36, the part that holds: a datagram's per-request values (and those of any context whose
   per-request storage is its own, e.g. after Reset) are changed only by calls on itself.
   Missing: requests of one TCP connection, see C36_tcp_shared_refuted.
   Example: C36_case. *)
Theorem C36_private_isolated_partial : forall hc h o x c c' k,
  nth_error (w_ctxs (crun hc h)) x = Some c -> nth_error (w_ctxs (crun hc (o :: h))) x = Some c' ->
  req_slot h x = Some (SPriv x) -> subject o <> Some x ->
  GetCtxPerRequest c' k (crun hc (o :: h)) = GetCtxPerRequest c k (crun hc h).
Proof. exact p_C36_private_isolated_partial. Qed.
Print Assumptions C36_private_isolated_partial.

(* Datagrams always have private storage.
   Example: C36_case. *)
Theorem C36_datagram_private : forall h x, nth_error (born h) x = Some Gram -> req_slot h x = Some (SPriv x).
Proof. exact p_C36_datagram_private. Qed.
Print Assumptions C36_datagram_private.

(* C36 across connections: calls on contexts of other connections, or on datagrams, change nothing.
   Example: C36_cross_case. *)
Theorem C36_cross_connection : forall hc h o x c cn c' k,
  nth_error (w_ctxs (crun hc h)) x = Some c -> nth_error (w_ctxs (crun hc (o :: h))) x = Some c' ->
  conn_of h x = Some cn -> (forall y, subject o = Some y -> conn_of h y <> Some cn) ->
  GetCtxPerRequest c' k (crun hc (o :: h)) = GetCtxPerRequest c k (crun hc h) /\
  GetCtxPerConn c' k (crun hc (o :: h)) = GetCtxPerConn c k (crun hc h).
Proof. exact p_C36_cross_connection. Qed.
Print Assumptions C36_cross_connection.

(* C36 is false for TCP: what one request stores with SetCtxPerRequest, every other request of the
   connection reads, and GetCtxPerConn reads it too. *)
Theorem C36_tcp_shared_refuted : forall hc h cn x y v k cx,
  nth_error (born h) x = Some (Req cn) -> nth_error (born h) y = Some (Req cn) -> was_reset h x = false -> was_reset h y = false ->
  nth_error (w_ctxs (crun hc (CSetReq y k v :: h))) x = Some cx ->
  GetCtxPerRequest cx k (crun hc (CSetReq y k v :: h)) = Some v /\ GetCtxPerConn cx k (crun hc (CSetReq y k v :: h)) = Some v.
Proof. exact p_C36_tcp_shared_refuted. Qed.
Print Assumptions C36_tcp_shared_refuted.

Example C36_case : exists cx cd,
  let h := [CSetReq 1 (KStr "k") (VOther 7); CDatagram (of_bytes id_block); CRead 0 (of_bytes id_block); CRead 0 (of_bytes id_block); CAccept] in
  nth_error (w_ctxs (crun json_hdr h)) 2 = Some cx /\ nth_error (w_ctxs (crun json_hdr h)) 3 = Some cd /\
  nth_error (born h) 1 = Some (Req 0) /\ nth_error (born h) 2 = Some (Req 0) /\ req_slot h 3 = Some (SPriv 3) /\
  GetCtxPerRequest cx (KStr "k") (crun json_hdr h) = Some (VOther 7) /\
  GetCtxPerRequest cd (KStr "k") (crun json_hdr h) = None.
Proof. eexists. eexists. cbv zeta. split; [vm_compute; reflexivity|]. split; [vm_compute; reflexivity|]. vm_compute. auto 9. Qed.

Example C36_cross_case : let h := [CAccept; CRead 0 (of_bytes id_block); CAccept] in
  conn_of h 1 = Some 0%nat /\ conn_of h 2 = Some 2%nat /\ subject (CSetReq 2 (KStr "k") (VOther 1)) = Some 2%nat.
Proof. vm_compute. auto. Qed.

(* C37: GetCtxPerConn on any context of a connection returns the value most recently stored for
   that connection by the per-connection setters, through any of its contexts; nothing else
   matters.  Missing for the full claim: keys that are also used with SetCtxPerRequest, and the two
   keys the library itself uses as caches (see C37_overwritten_refuted).
   Example: C37_case. *)
Theorem C37_last_write_partial : forall hc h x c cn k,
  nth_error (w_ctxs (crun hc h)) x = Some c -> conn_of h x = Some cn ->
  existsb (request_sets k) h = false -> k <> KStr "router_type" -> k <> KStr "url_pattern" ->
  GetCtxPerConn c k (crun hc h) = last_conn_store h cn k.
Proof. exact p_C37_last_write_partial. Qed.
Print Assumptions C37_last_write_partial.

(* C37, read after write with no condition on the key: the value just stored is read back through
   every context of the connection.
   Example: C37_case. *)
Theorem C37_read_own_write : forall hc h x y cx cn k v,
  conn_of h x = Some cn -> conn_of h y = Some cn -> reserved k = false ->
  nth_error (w_ctxs (crun hc (CSetConn y k v :: h))) x = Some cx ->
  GetCtxPerConn cx k (crun hc (CSetConn y k v :: h)) = Some v.
Proof. exact p_C37_read_own_write. Qed.
Print Assumptions C37_read_own_write.

(* C37, no leak: on every history, also those with SetCtxPerRequest and the cache keys, a call on a
   context that is not of connection cn leaves all its values alone.
   Example: C36_cross_case. *)
Theorem C37_no_leak : forall hc h o x c cn c' k,
  nth_error (w_ctxs (crun hc h)) x = Some c -> nth_error (w_ctxs (crun hc (o :: h))) x = Some c' ->
  conn_of h x = Some cn -> (forall y, subject o = Some y -> conn_of h y <> Some cn) ->
  GetCtxPerConn c' k (crun hc (o :: h)) = GetCtxPerConn c k (crun hc h).
Proof. exact p_C37_no_leak. Qed.
Print Assumptions C37_no_leak.

(* C37 is false when a request handler stores under the same key with SetCtxPerRequest, and for the
   keys router_type and url_pattern: SetCtxPerConn's value is then silently replaced. *)
Theorem C37_overwritten_refuted : forall hc h cn x y v v' k cx, reserved k = false ->
  nth_error (born h) x = Some (Req cn) -> nth_error (born h) y = Some (Req cn) -> was_reset h y = false ->
  nth_error (w_ctxs (crun hc (CSetReq y k v' :: CSetConn x k v :: h))) x = Some cx ->
  last_conn_store (CSetReq y k v' :: CSetConn x k v :: h) cn k = Some v /\
  GetCtxPerConn cx k (crun hc (CSetReq y k v' :: CSetConn x k v :: h)) = Some v'.
Proof. exact p_C37_overwritten_refuted. Qed.
Print Assumptions C37_overwritten_refuted.

Example C37_case : exists cx,
  let h := [CSetConn 4 (KStr "k") (VOther 9); CRead 3 (of_bytes id_block); CAccept; CSetConn 2 (KStr "k") (VOther 8); CSetConn 1 (KStr "k") (VOther 7); CRead 0 (of_bytes id_block); CRead 0 (of_bytes id_block); CAccept] in
  nth_error (w_ctxs (crun json_hdr h)) 1 = Some cx /\ conn_of h 1 = Some 0%nat /\ conn_of h 4 = Some 3%nat /\
  existsb (request_sets (KStr "k")) h = false /\ last_conn_store h 0 (KStr "k") = Some (VOther 8) /\
  GetCtxPerConn cx (KStr "k") (crun json_hdr h) = Some (VOther 8).
Proof. eexists. cbv zeta. split; [vm_compute; reflexivity|]. vm_compute. auto 9. Qed.

Example C37_overwritten_case : exists cx,
  let h := [CRouter 1; CSetConn 1 (KStr "router_type") (VOther 8); CSetReq 2 (KStr "k") (VOther 3); CSetConn 1 (KStr "k") (VOther 7); CRead 0 (of_bytes id_block); CRead 0 (of_bytes id_block); CAccept] in
  nth_error (w_ctxs (crun json_hdr h)) 1 = Some cx /\
  GetCtxPerConn cx (KStr "k") (crun json_hdr h) = Some (VOther 3) /\
  GetCtxPerConn cx (KStr "router_type") (crun json_hdr h) = Some (VStr "MESSAGE_ID").
Proof. eexists. cbv zeta. split; [reflexivity|]. split; vm_compute; reflexivity. Qed.

(* C47, one channel: whatever happens between - messages read, values stored, other calls of
   HeartBeatChan, Reset - the handler of any message of a connection is given the channel the
   connection's watcher was given, unless a handler stores under the library's own key with
   SetCtxPerRequest.
   Example: C47_channel_case. *)
Theorem C47_one_channel_partial : forall hc h h2 cn x y cx cy n,
  let h' := h2 ++ CHeart y :: h in
  nth_error (w_ctxs (crun hc h)) y = Some cy -> conn_of h y = Some cn -> option_map fst (HeartBeatChan cy (crun hc h)) = Some n ->
  existsb (request_sets (KStr "tcpx-heart-beat-channel")) h2 = false ->
  nth_error (w_ctxs (crun hc h')) x = Some cx -> conn_of h' x = Some cn ->
  option_map fst (HeartBeatChan cx (crun hc h')) = Some n.
Proof. exact p_C47_one_channel_partial. Qed.
Print Assumptions C47_one_channel_partial.

(* C47, a channel of its own: two connections are never given the same channel.
   Example: C47_channel_case. *)
Theorem C47_channels_apart_partial : forall hc h h2 cn dn x y cx cy n m,
  let h' := h2 ++ CHeart y :: h in
  nth_error (w_ctxs (crun hc h)) y = Some cy -> conn_of h y = Some cn -> option_map fst (HeartBeatChan cy (crun hc h)) = Some n ->
  existsb (request_sets (KStr "tcpx-heart-beat-channel")) h' = false ->
  nth_error (w_ctxs (crun hc h')) x = Some cx -> conn_of h' x = Some dn -> option_map fst (HeartBeatChan cx (crun hc h')) = Some m ->
  cn <> dn -> n <> m.
Proof. exact p_C47_channels_apart_partial. Qed.
Print Assumptions C47_channels_apart_partial.

(* C47 is false when a handler stores under that key with SetCtxPerRequest, which no check
   prevents: the next call makes a second channel, and the watcher keeps waiting on the first. *)
Theorem C47_channel_replaced_refuted : forall hc h cn x y v cx cx' n,
  existsb (request_sets (KStr "tcpx-heart-beat-channel")) h = false -> is_chan (Some v) = false ->
  conn_of h x = Some cn -> nth_error (born h) y = Some (Req cn) -> was_reset h y = false ->
  nth_error (w_ctxs (crun hc h)) x = Some cx -> option_map fst (HeartBeatChan cx (crun hc h)) = Some n ->
  let h' := CSetReq y (KStr "tcpx-heart-beat-channel") v :: CHeart x :: h in
  nth_error (w_ctxs (crun hc h')) x = Some cx' ->
  exists m, option_map fst (HeartBeatChan cx' (crun hc h')) = Some m /\ m <> n.
Proof. exact p_C47_channel_replaced_refuted. Qed.
Print Assumptions C47_channel_replaced_refuted.

(* a watcher's channel, another message of the connection, and a second connection; then the
   handler that overwrites the key *)
Example C47_channel_case : let k := KStr "tcpx-heart-beat-channel" in
  let h := [CRead 0 (of_bytes id_block); CAccept; CAccept] in
  let h' := [CRead 0 (of_bytes id_block); CHeart 1] ++ CHeart 0 :: h in
  map (fun x => option_map (fun c => option_map fst (HeartBeatChan c (crun json_hdr h'))) (nth_error (w_ctxs (crun json_hdr h')) x)) [0%nat; 1%nat; 2%nat; 3%nat]
    = [Some (Some 0%nat); Some (Some 1%nat); Some (Some 0%nat); Some (Some 0%nat)] /\
  map (conn_of h') [0%nat; 1%nat; 2%nat; 3%nat] = [Some 0%nat; Some 1%nat; Some 0%nat; Some 0%nat] /\
  existsb (request_sets k) h' = false /\
  option_map (fun c => option_map fst (HeartBeatChan c (crun json_hdr (CSetReq 2 k (VOther 7) :: h')))) (nth_error (w_ctxs (crun json_hdr h')) 0) = Some (Some 2%nat).
Proof. vm_compute. auto 9. Qed.

(* C38: SetCtxPerConn panics exactly for string keys starting with "tcpx-", changing nothing then
   (the step of the history is the identity); every other key is stored and read back.
   Example: C38_case. *)
Theorem C38_reserved_keys : forall hc h x c k v, nth_error (w_ctxs (crun hc h)) x = Some c ->
  ((exists t, k = KStr (String.append "tcpx-" t)) -> SetCtxPerConn c k v (crun hc h) = None) /\
  ((forall t, k <> KStr (String.append "tcpx-" t)) ->
     exists w', SetCtxPerConn c k v (crun hc h) = Some w' /\ GetCtxPerConn c k w' = Some v /\
       (forall k', k' <> k -> GetCtxPerConn c k' w' = GetCtxPerConn c k' (crun hc h))).
Proof. exact p_C38_reserved_keys. Qed.
Print Assumptions C38_reserved_keys.

(* The guard is not complete: the other public setter, SetCtxPerRequest, called in a request of a
   TCP connection replaces the connection's reserved values, e.g. its username; with a value that is no string, Username
   then panics in every request of that connection. *)
Theorem C38_per_request_setter_overwrites : forall hc h cn x y v cx,
  nth_error (born h) x = Some (Req cn) -> nth_error (born h) y = Some (Req cn) -> was_reset h y = false ->
  nth_error (w_ctxs (crun hc (CSetReq y (KStr "tcpx-username") v :: h))) x = Some cx ->
  Username cx (crun hc (CSetReq y (KStr "tcpx-username") v :: h)) = match v with VStr u => Ok (Some u) | _ => Panic end.
Proof. exact p_C38_per_request_setter_overwrites. Qed.
Print Assumptions C38_per_request_setter_overwrites.

Example C38_case : exists c, nth_error (w_ctxs (crun json_hdr [CRead 0 (of_bytes id_block); CAccept])) 1 = Some c /\
  SetCtxPerConn c (KStr "tcpx-username") (VOther 1) (crun json_hdr [CRead 0 (of_bytes id_block); CAccept]) = None /\
  SetCtxPerConn c (KStr "tcpx") (VOther 1) (crun json_hdr [CRead 0 (of_bytes id_block); CAccept]) <> None /\
  Username c (crun json_hdr [CSetReq 1 (KStr "tcpx-username") (VStr "eve"); CRead 0 (of_bytes id_block); CSetUser 0 "bob"; CAccept]) = Ok (Some "eve"%string).
Proof. eexists. split; [reflexivity|]. split; [reflexivity|]. split; [discriminate|reflexivity]. Qed.

(* C68: the five reply helpers write exactly one block, or nothing when encoding fails.  The block's
   body is encoded by the context's own marshaller when that has the announced name and by the
   built-in one of that name otherwise.  What is returned is nil, the error of the write, or the one of
   packing; errors come wrapped.
   Example: C68_case. *)
Theorem C68_reply_helpers : forall {V} (E : env V) mar f name reply id src hs werr,
  In (f, name, reply) [(FJson, "json"%string, ctxJSON E); (FXml, "xml"%string, ctxXML E); (FToml, "toml"%string, ctxTOML E);
                       (FYaml, "yaml"%string, ctxYAML E); (FProtobuf, "protobuf"%string, ctxProtoBuf E)] ->
  let m := if String.eqb (m_name mar) name then mar else format_marshaller E f in
  match reply mar id src hs werr with
  | (r, [b]) =>
      (blen b - 4 < 2 ^ 32 -> exists h hdr body, carries h hs /\ hmarshal (e_hdr E) (Some h) = Ok hdr /\ body_encoding E (Some m) src body /\ frame_layout id hdr body b) /\
      write_outcome werr r
  | (r, []) =>
      match PackxPack E m id src hs with Ok _ => False | Err e => r = Err (EWrap e) | Panic => r = Panic end
  | _ => False
  end.
Proof. exact @p_C68_reply_helpers. Qed.
Print Assumptions C68_reply_helpers.

(* C68 for Reply and ReplyWithMarshaller, whose marshaller is the context's, resp. the argument. *)
Theorem C68_reply : forall {V} (E : env V) mar mo id src hs werr m reply,
  (m = mar /\ reply = Reply E mar id src hs werr) \/
  (m = match mo with Some x => x | None => format_marshaller E FJson end /\ reply = ReplyWithMarshaller E mo id src hs werr) ->
  match reply with
  | (r, [b]) =>
      (blen b - 4 < 2 ^ 32 -> exists h hdr body, carries h hs /\ hmarshal (e_hdr E) (Some h) = Ok hdr /\ body_encoding E (Some m) src body /\ frame_layout id hdr body b) /\
      write_outcome werr r
  | (r, []) =>
      match PackxPack E m id src hs with Ok _ => False | Err e => r = Err (EWrap e) | Panic => r = Panic end
  | _ => False
  end.
Proof. exact @p_C68_reply. Qed.
Print Assumptions C68_reply.

(* C68: how often the error of the connection is wrapped on its way to the caller: once, and once more
   where a marshaller other than the context's is used and in the url helpers; an error of packing
   once.
   Example: C68_wraps_case. *)
Theorem C68_wraps : forall {V} (E : env V) mar mo id src hs e,
  (forall b, PackxPack E mar id src hs = Ok b -> fst (Reply E mar id src hs (Some e)) = Err (EWrap e)) /\
  (forall b, PackxPack E (match mo with Some x => x | None => format_marshaller E FJson end) id src hs = Ok b -> fst (ReplyWithMarshaller E mo id src hs (Some e)) = Err (EWrap (EWrap e))) /\
  (forall f name reply b, In (f, name, reply) [(FJson, "json"%string, ctxJSON E); (FXml, "xml"%string, ctxXML E); (FToml, "toml"%string, ctxTOML E);
                       (FYaml, "yaml"%string, ctxYAML E); (FProtobuf, "protobuf"%string, ctxProtoBuf E)] ->
     PackxPack E (if String.eqb (m_name mar) name then mar else format_marshaller E f) id src hs = Ok b ->
     fst (reply mar id src hs (Some e)) = Err (if String.eqb (m_name mar) name then EWrap e else EWrap (EWrap e))) /\
  (forall m reply c w p w', (m = JsonMarshaller E /\ reply = JSONURLPattern E) \/ (m = ProtobufMarshaller E /\ reply = ProtobufURLPattern E) ->
     (forall b, GetURLPattern (e_hdr E) c w = (Ok p, w') -> MessagePack E (NewURLPatternMessage p src) (Some m) = Ok b -> fst (reply c src (Some e) w) = (Err (EWrap (EWrap e)), [b])) /\
     (forall e', GetURLPattern (e_hdr E) c w = (Err e', w') -> fst (reply c src (Some e) w) = (Err (EWrap e'), [])) /\
     (forall e', GetURLPattern (e_hdr E) c w = (Ok p, w') -> MessagePack E (NewURLPatternMessage p src) (Some m) = Err e' -> fst (reply c src (Some e) w) = (Err (EWrap e'), []))).
Proof. exact @p_C68_wraps. Qed.
Print Assumptions C68_wraps.

Example C68_wraps_case :
  fst (ctxYAML demo_env (JsonMarshaller demo_env) 9 (Some "v"%string) [] (Some EEOF)) = Err (EWrap (EWrap EEOF)) /\
  fst (ctxJSON demo_env (JsonMarshaller demo_env) 9 (Some "v"%string) [] (Some EEOF)) = Err (EWrap EEOF).
Proof. split; vm_compute; reflexivity. Qed.

Example C68_case :
  match ctxYAML demo_env (JsonMarshaller demo_env) 9 (Some "v"%string) [Some [("k"%string, JInt 1)]] None with
  | (Ok tt, [b]) => match BodyBytesOf (of_bytes b) with Ok r => gbytes r = str_bytes "yv" | _ => False end
  | _ => False
  end /\
  match ctxYAML demo_env (JsonMarshaller demo_env) 9 (Some "v"%string) [] (Some EEOF) with (Err _, [_]) => True | _ => False end.
Proof. vm_compute. auto. Qed.
