(* Property theorems: A message's whole way: sent, received, routed, handled (C69-C72)..
   Each is closed by the lemma of the same name in EndProofs.v. *)
From Verif Require Export EndProofs.
From Verif Require Import Demo.

(* C69: messages packed by a client, written one after the other, cut up anyhow on the way: the
   server hands on exactly those messages, in order, and a handler that binds one gets back the id,
   the header and the body that were sent. *)
Theorem C69_delivered_as_sent : forall {V} (E : env V) lim ms bs en r,
  Forall2 (sent E lim) ms bs -> segmentation (concat bs) en r ->
  serve_reads (e_hdr E) lim r = (map SDispatch bs, at_end en) /\
  Forall2 (fun m b => forall c, c_stream c = of_bytes b -> received E m c) ms bs.
Proof. exact @p_C69_delivered_as_sent. Qed.
Print Assumptions C69_delivered_as_sent.

Example C69_example :
  Forall2 (sent demo_env 100) [(demo_msg 5 "a", None); (NewURLPatternMessage "/x/" (Some "b"%string), Some (JsonMarshaller demo_env))] [id_block; url_block] /\
  segmentation (concat [id_block; url_block]) (Fails EEOF)
    [RData (firstn 21 (concat [id_block; url_block])); RData (skipn 21 (concat [id_block; url_block])); RFail EEOF] /\
  (forall d v, body_roundtrips (JsonMarshaller demo_env) v (Some d)).
Proof.
  assert (S1 : sent demo_env 100 (demo_msg 5 "a", None) id_block).
  { split; [vm_compute; reflexivity|]. split; [vm_compute; reflexivity|]. split; [intros _; vm_compute; congruence|].
    split; [split; vm_compute; congruence|]. split; [apply json_hdr_roundtrips; reflexivity|reflexivity]. }
  assert (S2 : sent demo_env 100 (NewURLPatternMessage "/x/" (Some "b"%string), Some (JsonMarshaller demo_env)) url_block).
  { split; [vm_compute; reflexivity|]. split; [vm_compute; reflexivity|]. split; [intros _; vm_compute; congruence|].
    split; [split; vm_compute; congruence|]. split; [apply json_hdr_roundtrips; reflexivity|reflexivity]. }
  split; [auto|]. split; [split; [repeat constructor|split; vm_compute; reflexivity]|].
  intros d v bs H _. injection H as <-. unfold JsonMarshaller, demo_env, tag_dec, m_unmarshal, e_unjson, str_bytes.
  rewrite Ascii.eqb_refl, string_of_list_ascii_of_string. reflexivity.
Qed.

(* C70: on a connection all of whose messages carry the same router type, whatever the handlers of
   all connections do meanwhile (except storing under the key router_type on this one), every
   message is routed by its own header.
   Example: C70_example. *)
Theorem C70_routed_by_own_header : forall hc h x c cx t id hd,
  nth_error (w_ctxs (crun hc h)) x = Some cx -> nth_error (born h) x = Some (Req c) -> was_reset h x = false ->
  (forall s, read_on h c s -> exists id' hd', is_message hc s id' hd' /\ asked_type hd' = t) ->
  leaves_alone h c (KStr "router_type") -> is_message hc (stream_of h x) id hd ->
  fst (route hc cx (crun hc h)) = Ok (asked_routing hd id).
Proof. exact p_C70_routed_by_own_header. Qed.
Print Assumptions C70_routed_by_own_header.

(* C70, the handling: such a message runs exactly the handlers the configuration plans for its
   routing, in gin's order.
   Example: C70_example. *)
Theorem C70_handled_as_planned : forall hc q behave h x c cx t id hd, onmessage q = None ->
  nth_error (w_ctxs (crun hc h)) x = Some cx -> nth_error (born h) x = Some (Req c) -> was_reset h x = false ->
  (forall s, read_on h c s -> exists id' hd', is_message hc s id' hd' /\ asked_type hd' = t) ->
  leaves_alone h c (KStr "router_type") -> is_message hc (stream_of h x) id hd ->
  not_too_long (planned q (asked_routing hd id)) ->
  exists tr st, handleMiddleware hc (build q) behave (-1) cx (crun hc h) = Some (tr, st) /\
    performs behave (planned q (asked_routing hd id)) tr st.
Proof. exact p_C70_handled_as_planned. Qed.
Print Assumptions C70_handled_as_planned.

(* C70 in terms of what was sent: id, header and configuration alone decide what runs. *)
Theorem C70_sent_and_handled : forall {V} (E : env V) q behave lim h x c cx t ms bs m b, onmessage q = None ->
  Forall2 (sent E lim) ms bs -> Forall (fun m => asked_type (msg_header (fst m)) = t) ms ->
  (forall s, read_on h c s -> gwf s /\ In (gbytes s) bs) -> leaves_alone h c (KStr "router_type") ->
  nth_error (w_ctxs (crun (e_hdr E) h)) x = Some cx -> nth_error (born h) x = Some (Req c) -> was_reset h x = false ->
  sent E lim m b -> gbytes (stream_of h x) = b ->
  not_too_long (planned q (asked_routing (msg_header (fst m)) (msg_id (fst m)))) ->
  received E m cx /\
  exists tr st, handleMiddleware (e_hdr E) (build q) behave (-1) cx (crun (e_hdr E) h) = Some (tr, st) /\
    performs behave (planned q (asked_routing (msg_header (fst m)) (msg_id (fst m)))) tr st.
Proof. exact @p_C70_sent_and_handled. Qed.
Print Assumptions C70_sent_and_handled.

(* two connections; on connection 0 two messages asking for ids, on connection 2 a message asking
   for a pattern and a handler that stores under router_type *)
Example C70_example :
  let h := [CRouter 4; CRead 0 (of_bytes (demo_block 6 "z")); CSetReq 3 (KStr "router_type") (VStr "x"); CRouter 3;
            CRead 2 (of_bytes url_block); CAccept; CRouter 1; CRead 0 (of_bytes id_block); CAccept] in
  let q := [OAdd 6 [User 7] (User 8); OUse "k" (User 3); OGlobal [User 1]]%nat in
  exists cx hd, onmessage q = None /\ nth_error (w_ctxs (crun json_hdr h)) 4 = Some cx /\ nth_error (born h) 4 = Some (Req 0%nat) /\
    was_reset h 4 = false /\
    (forall s, read_on h 0 s -> exists id' hd', is_message json_hdr s id' hd' /\ asked_type hd' = "MESSAGE_ID"%string) /\
    leaves_alone h 0 (KStr "router_type") /\ is_message json_hdr (stream_of h 4) 6 hd /\
    planned q (asked_routing hd 6) = RunChain [User 1; User 3; User 7; User 8]%nat.
Proof.
  cbv zeta. eexists. exists (Some [("Router-Type"%string, JStr "MESSAGE_ID")]). split; [reflexivity|]. split; [reflexivity|]. split; [reflexivity|]. split; [reflexivity|].
  assert (M1 : is_message json_hdr (of_bytes id_block) 5 (Some [("Router-Type"%string, JStr "MESSAGE_ID")])).
  { split; [apply gwf_of_bytes|]. split; [split; vm_compute; congruence|]. rewrite gbytes_of_bytes. split; [vm_compute; reflexivity|].
    destruct (p_C01_pack_layout _ demo_env (demo_msg 5 "a") None id_block) as (hdr & body & A & B & C); [vm_compute; reflexivity|vm_compute; reflexivity|].
    exists hdr, body. split; [exact C|]. vm_compute in A. injection A as <-. vm_compute. reflexivity. }
  assert (M2 : is_message json_hdr (of_bytes (demo_block 6 "z")) 6 (Some [("Router-Type"%string, JStr "MESSAGE_ID")])).
  { split; [apply gwf_of_bytes|]. split; [split; vm_compute; congruence|]. rewrite gbytes_of_bytes. split; [vm_compute; reflexivity|].
    destruct (p_C01_pack_layout _ demo_env (demo_msg 6 "z") None (demo_block 6 "z")) as (hdr & body & A & B & C); [vm_compute; reflexivity|vm_compute; reflexivity|].
    exists hdr, body. split; [exact C|]. vm_compute in A. injection A as <-. vm_compute. reflexivity. }
  split. { intros s (l & e & x & E & C). do 9 (destruct l as [|? l]; [cbn [app] in E; inversion E; subst; cbn in C; try discriminate C; eauto|cbn [app] in E; injection E as _ E]). destruct l; discriminate. }
  split. { intros o x I. cbn in I. repeat (destruct I as [<-|I]; [cbn; intros Sx Cx; try reflexivity; try discriminate; inversion Sx; subst; cbn in Cx; discriminate|]). destruct I. }
  split; [exact M2|reflexivity].
Qed.

(* C71: one datagram.  Whatever follows the frame in the datagram is dropped, the handler binds
   what was sent, and the datagram's own header decides what runs. *)
Theorem C71_datagram_handled_as_sent : forall {V} (E : env V) size m b extra,
  sent E 0 m b -> blen b <= Z.of_nat size ->
  exists s, serve_udp size [b ++ extra] = ([s], true) /\ gbytes s = b /\
    (forall c, c_stream c = s -> received E m c) /\
    forall q behave h x cx, onmessage q = None ->
      nth_error (w_ctxs (crun (e_hdr E) h)) x = Some cx -> nth_error (born h) x = Some Gram -> stream_of h x = s ->
      (forall o, In o h -> subject o = Some x -> names_key (KStr "router_type") o = false) ->
      not_too_long (planned q (asked_routing (msg_header (fst m)) (msg_id (fst m)))) ->
      exists tr st, handleMiddleware (e_hdr E) (build q) behave (-1) cx (crun (e_hdr E) h) = Some (tr, st) /\
        performs behave (planned q (asked_routing (msg_header (fst m)) (msg_id (fst m)))) tr st.
Proof. exact @p_C71_datagram_handled_as_sent. Qed.
Print Assumptions C71_datagram_handled_as_sent.

Example C71_example : sent demo_env 0 (demo_msg 5 "a", None) id_block /\ blen id_block <= Z.of_nat 4096 /\
  exists s cx, serve_udp 4096 [id_block ++ str_bytes "junk"] = ([s], true) /\
    nth_error (w_ctxs (crun json_hdr [CDatagram s; CAccept])) 1 = Some cx /\ nth_error (born [CDatagram s; CAccept]) 1 = Some Gram /\
    planned [OAdd 5 [] (User 8)] (asked_routing (msg_header (demo_msg 5 "a")) 5) = RunChain [User 8%nat].
Proof.
  assert (S1 : sent demo_env 0 (demo_msg 5 "a", None) id_block).
  { split; [vm_compute; reflexivity|]. split; [vm_compute; reflexivity|]. split; [intros H; discriminate H|].
    split; [split; vm_compute; congruence|]. split; [apply json_hdr_roundtrips; reflexivity|reflexivity]. }
  split; [exact S1|]. split; [vm_compute; congruence|].
  destruct (C71_datagram_handled_as_sent demo_env 4096 _ id_block (str_bytes "junk") S1) as (s & E & _); [vm_compute; congruence|].
  exists s. eexists. split; [exact E|]. split; [reflexivity|]. split; reflexivity.
Qed.

(* C72, what holds: an OnConnect that calls neither Next nor Abort leaves every request of the
   connection its complete chain (offset -1, the case of C70).
   Example: C72_examples. *)
Theorem C72_connect_untouched_partial : forall acts, next_calls acts = 0 -> ~ In AAbort acts -> ~ In APanic acts ->
  connected_offset acts = Some (-1).
Proof. exact p_C72_connect_untouched_partial. Qed.
Print Assumptions C72_connect_untouched_partial.

(* C72 is false: after an OnConnect that called Next k times every request of that connection
   skips its first k handlers;
   Example: C72_examples. *)
Theorem C72_next_in_onconnect_refuted : forall acts behave l, ~ In AAbort acts -> ~ In APanic acts ->
  Z.of_nat (List.length l) <= 2019 ->
  exists off tr st rest, connected_offset acts = Some off /\ run_plan behave off (RunChain l) = Some (tr, st) /\
    gin_chain (fun i => behave (nth i l Beat)) (skipn (Z.to_nat (next_calls acts)) (seq 0 (List.length l))) tr st rest.
Proof. exact p_C72_next_in_onconnect_refuted. Qed.
Print Assumptions C72_next_in_onconnect_refuted.

(* and after one that called Abort none of its requests runs any handler of a chain, while the
   heartbeat and auth handlers that bypass the chain still run. *)
Theorem C72_abort_in_onconnect_refuted : forall acts off behave, In AAbort acts -> connected_offset acts = Some off ->
  (forall l, run_plan behave off (RunChain l) = Some ([], Returned)) /\
  (forall f, exists tr st, run_plan behave off (Direct f) = Some (tr, st) /\ performs behave (Direct f) tr st).
Proof. exact p_C72_abort_in_onconnect_refuted. Qed.
Print Assumptions C72_abort_in_onconnect_refuted.

Example C72_examples :
  connected_offset [AEff 1; AEff 2] = Some (-1) /\ next_calls [AEff 1; AEff 2] = 0 /\
  connected_offset [ANext; AEff 1; ANextRec] = Some 1 /\
  run_plan (fun _ => [AEff 1]) 1 (RunChain [User 1; User 2; User 3]%nat) = Some ([EEnter 2; EEff 1], Returned) /\
  connected_offset [AEff 1; AAbort] = Some 2019.
Proof. repeat split. Qed.

(* C68 for SendToConn, which replies on another connection's context, with that one's marshaller.
   Example: C03_raw_stream_case. *)
Theorem C68_send_to_conn : forall {V} (E : env V) mar id src hs werr,
  match SendToConn E mar id src hs werr with
  | (r, [b]) =>
      (blen b - 4 < 2 ^ 32 -> exists h hdr body, carries h hs /\ hmarshal (e_hdr E) (Some h) = Ok hdr /\ body_encoding E (Some mar) src body /\ frame_layout id hdr body b) /\
      write_outcome werr r
  | (r, []) =>
      match PackxPack E mar id src hs with Ok _ => False | Err e => r = Err (EWrap e) | Panic => r = Panic end
  | _ => False
  end.
Proof. exact @p_C68_send_to_conn. Qed.
Print Assumptions C68_send_to_conn.

(* C03 for RawStream: in a handler it gives the body of the message being handled, as sent. *)
Theorem C03_raw_stream : forall c id hdr body b, is_int32 id -> frame_layout id hdr body b -> blen b < 2 ^ 31 ->
  gwf (c_stream c) -> gbytes (c_stream c) = b -> exists r, RawStream c = Ok r /\ gbytes r = body.
Proof. exact p_C03_raw_stream. Qed.
Print Assumptions C03_raw_stream.

Example C03_raw_stream_case : let c := Ctx true (Some 0%nat) 0%nat (of_bytes (demo_block (-7) "hello")) in
  (exists hdr body, frame_layout (-7) hdr body (gbytes (c_stream c)) /\ blen (gbytes (c_stream c)) < 2 ^ 31 /\ gwf (c_stream c)) /\
  (exists r, RawStream c = Ok r /\ gbytes r = str_bytes "jhello") /\
  match SendToConn demo_env (JsonMarshaller demo_env) 9 (Some "v"%string) [] (Some EEOF) with (Err (EWrap EEOF), [_]) => True | _ => False end.
Proof.
  cbv zeta. split; [|split; [eexists; split; vm_compute; reflexivity|vm_compute; exact I]].
  destruct (p_C01_pack_layout _ demo_env (demo_msg (-7) "hello") None (demo_block (-7) "hello")) as (hdr & body & _ & _ & H); [vm_compute; reflexivity|vm_compute; reflexivity|].
  exists hdr, body. split; [exact H|]. split; [vm_compute; reflexivity|apply gwf_of_bytes].
Qed.

(* C03: a message with a header that cannot be decoded is reported by UnPackFromReader as an error, not
   a panic, and is read completely: the next call finds the next message.
   Example: C03_bad_header_case. *)
Theorem C03_bad_header : forall hc id hdr body b e rest en r,
  is_int32 id -> frame_layout id hdr body b -> blen b < 2 ^ 31 -> hdr <> [] -> hunmarshal hc hdr = Err e ->
  segmentation (b ++ rest) en r ->
  exists e' r', UnPackFromReader hc r = (RdErr e', r') /\ segmentation rest en r'.
Proof. exact p_C03_bad_header. Qed.
Print Assumptions C03_bad_header.

(* a header that is no object, then nothing *)
Example C03_bad_header_case : let b := map byte_of [0;0;0;17; 0;0;0;7; 0;0;0;1; 0;0;0;4; 91; 116;114;117;101] in
  (exists e, hunmarshal json_hdr [byte_of 91] = Err e) /\
  exists e, fst (UnPackFromReader json_hdr [RData (firstn 5 b); RData (skipn 5 b)]) = RdErr e.
Proof. vm_compute. split; eexists; reflexivity. Qed.

(* C18: a message with a decodable header whose pipeline marker is neither absent nor of the form
   "<word>;<number>" is not handled and ends the connection with an error; only a marker of null panics
   (reflect.TypeOf(nil).Name()), which the goroutine recovers from (tcpx.go:554) and ends all the same.
   Example: C18_bad_marker_case. *)
Theorem C18_bad_marker : forall hc lim b hdr hd rest en r, frame lim b -> header_text b hdr -> hunmarshal hc hdr = Ok hd ->
  (forall o, ~ asks hd o) -> segmentation (b ++ rest) en r ->
  (hget "[tcpx-buffer-in-serial]" hd <> Some JNull -> serve_reads hc lim r = ([], SEnded)) /\
  (hget "[tcpx-buffer-in-serial]" hd = Some JNull -> serve_reads hc lim r = ([], SPanicked)).
Proof. exact p_C18_bad_marker. Qed.
Print Assumptions C18_bad_marker.

(* a marker that is a number, and one that is null *)
Example C18_bad_marker_case : let bl (t : string) := assemble 7 (str_bytes t) [] in
  serve_reads json_hdr 0 [RData (bl "{""[tcpx-buffer-in-serial]"":5}"%string)] = ([], SEnded) /\
  serve_reads json_hdr 0 [RData (bl "{""[tcpx-buffer-in-serial]"":null}"%string)] = ([], SPanicked) /\
  (exists hd, hunmarshal json_hdr (str_bytes "{""[tcpx-buffer-in-serial]"":null}") = Ok hd /\ hget "[tcpx-buffer-in-serial]" hd = Some JNull /\ forall o, ~ asks hd o).
Proof.
  split; [vm_compute; reflexivity|]. split; [vm_compute; reflexivity|]. eexists. split; [vm_compute; reflexivity|]. split; [reflexivity|].
  intros o A. inversion A; discriminate.
Qed.
