(* Property theorems: The servers' receive loops and the handling goroutines (C18, C20, C49, C56-C61)..
   Each is closed by the lemma of the same name in ServerProofs.v. *)
From Verif Require Export ServerProofs.
From Verif Require Import Demo.

(* C56.  Any sequence of well-formed messages, however segmented: exactly those are handed on, byte
   for byte, once each and in order; then the loop waits for more or ends with the connection. *)
Theorem C56_every_message_once : forall hc lim msgs en r, Forall (plain_message hc lim) msgs -> segmentation (concat msgs) en r ->
  serve_reads hc lim r = (map SDispatch msgs, at_end en).
Proof. exact p_C56_every_message_once. Qed.
Print Assumptions C56_every_message_once.

Example C56_example : Forall (plain_message json_hdr 100) [id_block; url_block; id_block] /\
  segmentation (concat [id_block; url_block; id_block]) (Fails EEOF)
    [RData (firstn 3 (concat [id_block; url_block; id_block])); RData (skipn 3 (concat [id_block; url_block; id_block])); RFail EEOF].
Proof.
  assert (M1 : plain_message json_hdr 100 id_block).
  { split; [split; [repeat split; vm_compute; congruence|intros _; vm_compute; congruence]|]. eexists. eexists. split; [split; [vm_compute; congruence|split; [vm_compute; reflexivity|split; [vm_compute; congruence|reflexivity]]]|].
    split; [vm_compute; reflexivity|]. apply asks_nothing. reflexivity. }
  assert (M2 : plain_message json_hdr 100 url_block).
  { split; [split; [repeat split; vm_compute; congruence|intros _; vm_compute; congruence]|]. eexists. eexists. split; [split; [vm_compute; congruence|split; [vm_compute; reflexivity|split; [vm_compute; congruence|reflexivity]]]|].
    split; [vm_compute; reflexivity|]. apply asks_nothing. reflexivity. }
  split; [auto|]. split; [repeat constructor|split; vm_compute; reflexivity].
Qed.

(* C57, the part that holds: whatever the stream starts with - ordinary messages and complete
   batches - is handed on part by part in order; at the first thing that is no acceptable frame the
   goroutine stops (a panic there is recovered, tcpx.go:555-560), and nothing behind it is handed on.
   Missing: a batch with a malformed frame inside, see C57_malformed_in_batch_refuted. *)
Theorem C57_contained_partial : forall hc lim parts evs rest en r,
  Forall2 (part hc lim) parts evs -> (exists s, fault hc lim en rest s) -> segmentation (concat parts ++ rest) en r ->
  exists s, serve_reads hc lim r = (evs, s) /\ fault hc lim en rest s.
Proof. exact p_C57_contained_partial. Qed.
Print Assumptions C57_contained_partial.

Example C57_example : Forall2 (part json_hdr 100) [id_block] [SDispatch id_block] /\ fault json_hdr 100 StaysOpen (be4 101 ++ id_block) SEnded.
Proof.
  split; [|apply fault_long; vm_compute; congruence]. constructor; [|constructor]. apply part_message.
  split; [split; [repeat split; vm_compute; congruence|intros _; vm_compute; congruence]|]. eexists. eexists. split; [split; [vm_compute; congruence|split; [vm_compute; reflexivity|split; [vm_compute; congruence|reflexivity]]]|].
  split; [vm_compute; reflexivity|]. apply asks_nothing. reflexivity.
Qed.

(* ... and every stream is of that form, unless it comes to a batch that is not complete or has an
   unacceptable frame inside. *)
Theorem C57_every_stream : forall hc lim bs en, exists parts evs rest,
  bs = concat parts ++ rest /\ Forall2 (part hc lim) parts evs /\
  ((exists s, fault hc lim en rest s) \/
   (exists b more n, rest = b ++ more /\ batch_head hc lim b n /\ 2 <= n <= 2 ^ 45)).
Proof. exact p_C57_every_stream. Qed.
Print Assumptions C57_every_stream.

(* a message followed by a frame over the limit: one part and the fault *)
Example C57_every_example : let bs := id_block ++ be4 101 ++ url_block in exists rest,
  bs = concat [id_block] ++ rest /\ Forall2 (part json_hdr 100) [id_block] [SDispatch id_block] /\ fault json_hdr 100 StaysOpen rest SEnded.
Proof.
  exists (be4 101 ++ url_block). split; [cbn [concat]; rewrite app_nil_r; reflexivity|]. split; [|apply fault_long; vm_compute; congruence]. constructor; [|constructor]. apply part_message.
  split; [split; [repeat split; vm_compute; congruence|intros _; vm_compute; congruence]|]. eexists. eexists. split; [split; [vm_compute; congruence|split; [vm_compute; reflexivity|split; [vm_compute; congruence|reflexivity]]]|].
  split; [vm_compute; reflexivity|]. apply asks_nothing. reflexivity.
Qed.

(* C57, exactly, for every stream and every segmentation of it: what is handed on and how the
   goroutine ends up, batches that are cut short or hold an unacceptable frame included.
   Example: C57_exact_case. *)
Theorem C57_exact : forall hc lim bs en r, segmentation bs en r ->
  stream_served hc lim en bs (fst (serve_reads hc lim r)) (snd (serve_reads hc lim r)).
Proof. exact p_C57_exact. Qed.
Print Assumptions C57_exact.

(* C57: the segmentation does not matter, also when the stream is malformed.
   Example: C57_exact_case. *)
Theorem C57_segmentation_free : forall hc lim bs en r1 r2, segmentation bs en r1 -> segmentation bs en r2 ->
  serve_reads hc lim r1 = serve_reads hc lim r2.
Proof. exact p_C57_segmentation_free. Qed.
Print Assumptions C57_segmentation_free.

Example C57_exact_case : broken_batch json_hdr 100 (pipe_block "enable;3" "a") [id_block] 3 /\ overlong 100 (be4 200 ++ url_block) /\
  serve_reads json_hdr 100 [RData (pipe_block "enable;3" "a" ++ id_block); RData (be4 200 ++ url_block)] =
    ([SPipe [pipe_block "enable;3" "a"; id_block] 1; SDispatch url_block], SWaiting) /\
  serve_reads json_hdr 100 [RData (pipe_block "enable;3" "a"); RData (id_block ++ be4 200 ++ url_block)] =
    ([SPipe [pipe_block "enable;3" "a"; id_block] 1; SDispatch url_block], SWaiting).
Proof.
  split; [|split; [|split; vm_compute; reflexivity]].
  - split.
    + split; [split; [repeat split; vm_compute; congruence|intros _; vm_compute; congruence]|]. eexists. eexists. split; [split; [vm_compute; congruence|split; [vm_compute; reflexivity|split; [vm_compute; congruence|reflexivity]]]|].
      split; [vm_compute; reflexivity|]. eapply asks_batch; [reflexivity|reflexivity|apply reads_Atoi; reflexivity].
    + split; [|cbn; lia]. constructor; [|constructor]. split; [split; [|split]|]; vm_compute; auto; discriminate.
  - split; [|split]; vm_compute; auto; discriminate.
Qed.

(* C57 is false for batches: a frame over the limit inside a batch ends the batch only.  Its length
   prefix is skipped, and reading goes on in the middle of it: what follows is handed on as if it
   were a message.  (The handlers of the unfinished batch then meet a nil context, C59.) *)
Theorem C57_malformed_in_batch_refuted : forall hc lim b n pre m en r,
  batch_head hc lim b n -> 2 <= n <= 2 ^ 45 -> 0 < lim -> List.length pre = 4%nat -> to_int32 lim < signed (field pre 0) -> plain_message hc lim m ->
  segmentation (b ++ pre ++ m) en r ->
  serve_reads hc lim r = ([SPipe [b] (n - 1); SDispatch m], at_end en).
Proof. exact p_C57_malformed_in_batch_refuted. Qed.
Print Assumptions C57_malformed_in_batch_refuted.

Example C57_refuted_example : batch_head json_hdr 100 (pipe_block "enable;3" "a") 3 /\ List.length (be4 200) = 4%nat /\ to_int32 100 < signed (field (be4 200) 0) /\
  plain_message json_hdr 100 id_block.
Proof.
  split; [|split; [reflexivity|split; [vm_compute; reflexivity|]]].
  - split; [split; [repeat split; vm_compute; congruence|intros _; vm_compute; congruence]|]. eexists. eexists. split; [split; [vm_compute; congruence|split; [vm_compute; reflexivity|split; [vm_compute; congruence|reflexivity]]]|].
    split; [vm_compute; reflexivity|]. eapply asks_batch; [reflexivity|reflexivity|apply reads_Atoi; reflexivity].
  - split; [split; [repeat split; vm_compute; congruence|intros _; vm_compute; congruence]|]. eexists. eexists. split; [split; [vm_compute; congruence|split; [vm_compute; reflexivity|split; [vm_compute; congruence|reflexivity]]]|].
    split; [vm_compute; reflexivity|]. apply asks_nothing. reflexivity.
Qed.

(* C18.  What PipeJSON sends for n messages (C17_pipejson_writes) arrives as one batch: the n blocks,
   in order, are handed to one goroutine (no nil contexts among them), and the loop goes on with
   what follows.  The marker header must survive encoding/json (json_hdr_roundtrips proves that it does). *)
Theorem C18_batch_received : forall {V} (E : env V) ps blocks lim rest en r, ps <> [] -> Z.of_nat (List.length ps) <= 2 ^ 45 ->
  batch E (Z.of_nat (List.length ps)) ps blocks ->
  hdr_roundtrips (e_hdr E) (Some [("[tcpx-buffer-in-serial]"%string, JStr (String.append "enable;" (itoa (Z.of_nat (List.length ps)))))]) ->
  Forall (fun b => blen b < 2 ^ 31 /\ within lim b) blocks ->
  segmentation (concat blocks ++ rest) en r ->
  List.length blocks = List.length ps /\
  exists r', segmentation rest en r' /\
    serve_reads (e_hdr E) lim r = (SPipe blocks 0 :: fst (serve_reads (e_hdr E) lim r'), snd (serve_reads (e_hdr E) lim r')).
Proof. exact @p_C18_batch_received. Qed.
Print Assumptions C18_batch_received.

Example C18_example : exists blocks,
  batch demo_env 2 [(5, Some "hello"); (-1, None)]%string blocks /\ Forall (fun b => blen b < 2 ^ 31 /\ within 100 b) blocks /\
  hdr_roundtrips json_hdr (Some [("[tcpx-buffer-in-serial]", JStr "enable;2")]%string) /\
  PipeJSON demo_env [GInt 5 "5"; GVal "hello"; GInt (-1) "-1"; GNil]%string None = (Ok tt, [concat blocks]) /\
  serve_reads json_hdr 100 [RData (concat blocks ++ id_block)] = ([SPipe blocks 0; SDispatch id_block], SWaiting).
Proof.
  exists [assemble 5 (str_bytes "{""[tcpx-buffer-in-serial]"":""enable;2""}") (str_bytes "jhello"); assemble (-1) (str_bytes "null") []].
  split; [split; [|constructor; [|constructor]]; eexists; eexists; (split; [vm_compute; reflexivity|]); (split; [vm_compute; reflexivity|]); (split; [vm_compute; reflexivity|]); intros _; apply assemble_layout; vm_compute; reflexivity|].
  split; [repeat constructor; vm_compute; congruence|].
  split; [eexists; eexists; split; [vm_compute; reflexivity|split; [discriminate|split; [vm_compute; reflexivity|]]]|].
  - constructor; intros k; cbn [aget]; destruct (keqb k "[tcpx-buffer-in-serial]"%string); intros; try discriminate; auto. inversion H; subst. eexists. split; [reflexivity|constructor].
  - split; vm_compute; reflexivity.
Qed.

(* C18, both ends together: what PipeJSON is given as pairs arrives as one batch of as many messages,
   each with the id and the value of its pair. *)
Theorem C18_piped_arrives : forall {V} (E : env V) args w lim rest en r, PipeJSON E args None = (Ok tt, [w]) -> Z.of_nat (List.length args) <= 2 ^ 45 ->
  hdr_roundtrips (e_hdr E) (Some [("[tcpx-buffer-in-serial]"%string, JStr (String.append "enable;" (itoa (Z.of_nat (List.length args / 2)))))]) ->
  blen w < 2 ^ 31 -> within lim w -> segmentation (w ++ rest) en r ->
  exists ps blocks r', pairing arg_id arg_val ps args /\ batch E (Z.of_nat (List.length ps)) ps blocks /\ List.length blocks = List.length ps /\ concat blocks = w /\
    segmentation rest en r' /\ serve_reads (e_hdr E) lim r = (SPipe blocks 0 :: fst (serve_reads (e_hdr E) lim r'), snd (serve_reads (e_hdr E) lim r')).
Proof. exact @p_C18_piped_arrives. Qed.
Print Assumptions C18_piped_arrives.

Example C18_piped_example : exists w, PipeJSON demo_env [GInt 5 "5"; GVal "hello"; GInt (-1) "-1"; GNil]%string None = (Ok tt, [w]) /\ blen w < 2 ^ 31 /\ within 100 w /\
  hdr_roundtrips json_hdr (Some [("[tcpx-buffer-in-serial]", JStr "enable;2")]%string).
Proof.
  eexists. split; [vm_compute; reflexivity|]. split; [vm_compute; reflexivity|]. split; [intros _; vm_compute; congruence|]. eexists. eexists. split; [vm_compute; reflexivity|split; [discriminate|split; [vm_compute; reflexivity|]]].
  constructor; intros k; cbn [aget]; destruct (keqb k "[tcpx-buffer-in-serial]"%string); intros; try discriminate; auto. inversion H; subst. eexists. split; [reflexivity|constructor].
Qed.

(* C18, handling: the goroutine handles the blocks one after another, in order, as long as no
   handler panics. *)
Theorem C18_handled_in_order : forall hc m behave off cs ts,
  Forall2 (fun cw t => handleMiddleware hc m behave off (fst cw) (snd cw) = Some (t, Returned)) cs ts ->
  handlePipe hc m behave off (map Some cs) = Some (concat ts, Returned).
Proof. exact p_C18_handled_in_order. Qed.
Print Assumptions C18_handled_in_order.

Example C18_handled_example : let m := build [OAdd 5 [] (User 1)]%nat in
  let behave := fun h => match h with User n => [AEff (Z.of_nat n)] | Beat => [] end in
  let w := crun json_hdr [CRead 0 (of_bytes id_block); CRead 0 (of_bytes id_block); CAccept] in
  match nth_error (w_ctxs w) 1, nth_error (w_ctxs w) 2 with
  | Some c1, Some c2 => handlePipe json_hdr m behave (-1) [Some (c1, w); Some (c2, w)] = Some ([EEnter 0; EEff 1; EEnter 0; EEff 1], Returned)
  | _, _ => False
  end.
Proof. vm_compute. reflexivity. Qed.

(* C58 is false of TCP with encoding/json headers: a frame whose header length is 0 makes the server
   drop the connection, whatever its id and body, because no JSON value is empty. *)
Theorem C58_empty_header_refuted : forall hc lim id body b rest en r e, hunmarshal hc [] = Err e ->
  frame_layout id [] body b -> blen b < 2 ^ 31 -> within lim b -> segmentation (b ++ rest) en r ->
  serve_reads hc lim r = ([], SEnded).
Proof. exact p_C58_empty_header_refuted. Qed.
Print Assumptions C58_empty_header_refuted.

Example C58_example : exists e, hunmarshal json_hdr [] = Err e /\ frame_layout 3 [] (str_bytes "x") (assemble 3 [] (str_bytes "x")) /\
  serve_reads json_hdr 0 [RData (assemble 3 [] (str_bytes "x") ++ id_block)] = ([], SEnded).
Proof. eexists. split; [vm_compute; reflexivity|]. split; [apply assemble_layout; vm_compute; reflexivity|vm_compute; reflexivity]. Qed.

(* C58, the part that holds: with a header codec that reads the empty text as some header without
   the pipeline marker, such a frame is handed on like any other. *)
Theorem C58_empty_header_partial : forall hc lim id body b hd, hunmarshal hc [] = Ok hd -> hget "[tcpx-buffer-in-serial]" hd = None ->
  frame_layout id [] body b -> blen b < 2 ^ 31 -> within lim b -> plain_message hc lim b.
Proof. exact p_C58_empty_header_partial. Qed.
Print Assumptions C58_empty_header_partial.

Example C58_partial_example : plain_message (HC (fun _ => Ok []) (fun _ => Ok None)) 0 (assemble 3 [] (str_bytes "x")).
Proof.
  apply (p_C58_empty_header_partial _ 0 3 (str_bytes "x") _ None); auto; [apply assemble_layout; vm_compute; reflexivity|vm_compute; reflexivity|]. intros X. inversion X.
Qed.

(* C59, the part that holds, for handlers that do not panic and a configuration made with the API:
   whatever bytes a client sends, handling an ordinary TCP message never panics; handling a complete
   batch does not if the header lengths inside make sense; and handling a datagram does not if its
   header length makes sense.  Missing: the inputs of the two refutations below. *)
Theorem C59_survives_partial : forall hc lim r h behave off, panic_free behave -> -1 <= off ->
  (forall b c w, In (SDispatch b) (fst (serve_reads hc lim r)) -> c_stream c = of_bytes b ->
     exists t, handleMiddleware hc (api_build h) behave off c w = Some (t, Returned)) /\
  (forall l cs, In (SPipe l 0) (fst (serve_reads hc lim r)) -> (forall x, hunmarshal hc x <> Panic) -> Forall sane_header_length (tl l) ->
     map (fun cw => c_stream (fst cw)) cs = map of_bytes l ->
     exists t, handlePipe hc (api_build h) behave off (map Some cs) = Some (t, Returned)) /\
  (forall size ds s c w, In s (fst (serve_udp size ds)) -> (forall x, hunmarshal hc x <> Panic) -> sane_header_length (gbytes s) -> c_stream c = s ->
     exists t, handleMiddleware hc (api_build h) behave off c w = Some (t, Returned)).
Proof. exact p_C59_survives_partial. Qed.
Print Assumptions C59_survives_partial.

Example C59_example :
  In (SDispatch id_block) (fst (serve_reads json_hdr 100 [RData id_block])) /\
  In (SPipe [pipe_block "enable;2" "a"; id_block] 0) (fst (serve_reads json_hdr 100 [RData (pipe_block "enable;2" "a" ++ id_block)])) /\
  Forall sane_header_length (tl [pipe_block "enable;2" "a"; id_block]) /\
  panic_free (fun h => match h with User n => [AEff (Z.of_nat n); ANext; AAbort] | Beat => [] end).
Proof.
  split; [vm_compute; auto|]. split; [vm_compute; auto|]. split; [constructor; [right; vm_compute; split; congruence|constructor]|].
  intros [n|] H; cbn in H; intuition discriminate.
Qed.

(* C59 is false (1): a client announces a batch of n >= 2 messages and closes after the first; the
   goroutine handling the batch meets a nil context and panics, and nothing recovers there: for
   every configuration, every handler, every codec. *)
Theorem C59_truncated_batch_refuted : forall hc lim b n e r m behave off c w,
  batch_head hc lim b n -> 2 <= n <= 2 ^ 45 -> segmentation b (Fails e) r -> -1 <= off ->
  serve_reads hc lim r = ([SPipe [b] (n - 1)], SEnded) /\
  exists t, handlePipe hc m behave off (Some (c, w) :: repeat None (Z.to_nat (n - 1))) = Some (t, Panicked).
Proof. exact p_C59_truncated_batch_refuted. Qed.
Print Assumptions C59_truncated_batch_refuted.

Example C59_truncated_example : batch_head json_hdr 100 (pipe_block "enable;2" "a") 2 /\
  serve_reads json_hdr 100 [RData (pipe_block "enable;2" "a"); RFail EEOF] = ([SPipe [pipe_block "enable;2" "a"] 1], SEnded).
Proof.
  split; [|vm_compute; reflexivity].
  split; [split; [repeat split; vm_compute; congruence|intros _; vm_compute; congruence]|]. eexists. eexists. split; [split; [vm_compute; congruence|split; [vm_compute; reflexivity|split; [vm_compute; congruence|reflexivity]]]|].
  split; [vm_compute; reflexivity|]. eapply asks_batch; [reflexivity|reflexivity|apply reads_Atoi; reflexivity].
Qed.

(* C59 is false (2): one UDP datagram with a negative header length makes the goroutine handling it
   panic, whatever handlers are registered (no OnMessage), because the router type is looked up in
   the header. *)
Theorem C59_datagram_refuted : forall hc size d m behave off c w,
  m_onmsg m = None -> 16 <= 4 + field d 0 -> 4 + field d 0 <= blen d <= Z.of_nat size -> signed (field d 8) < 0 ->
  (forall t, GetCtxPerRequest c (KStr "router_type") w <> Some (VStr t)) ->
  exists s, serve_udp size [d] = ([s], true) /\ (c_stream c = s -> handleMiddleware hc m behave off c w = Some ([], Panicked)).
Proof. exact p_C59_datagram_refuted. Qed.
Print Assumptions C59_datagram_refuted.

Example C59_datagram_example : let d := be4 12 ++ be4 1 ++ be4 (-1) ++ be4 0 in
  16 <= 4 + field d 0 /\ 4 + field d 0 <= blen d <= Z.of_nat 4096 /\ signed (field d 8) < 0.
Proof. vm_compute. intuition congruence. Qed.

(* C58 does hold for datagrams: such a frame is handed on and routed by its message id. *)
Theorem C58_datagram : forall hc size id body b c w e, hunmarshal hc [] = Err e -> is_int32 id ->
  frame_layout id [] body b -> blen b < 2 ^ 31 -> blen b <= Z.of_nat size ->
  (forall t, GetCtxPerRequest c (KStr "router_type") w <> Some (VStr t)) ->
  exists s, serve_udp size [b] = ([s], true) /\ gbytes s = b /\ (c_stream c = s -> fst (route hc c w) = Ok (ById id)).
Proof. exact p_C58_datagram. Qed.
Print Assumptions C58_datagram.

Example C58_datagram_example : exists e, hunmarshal json_hdr [] = Err e /\ frame_layout 3 [] (str_bytes "x") (assemble 3 [] (str_bytes "x")) /\
  map gbytes (fst (serve_udp 4096 [assemble 3 [] (str_bytes "x") ++ str_bytes "trailing"])) = [assemble 3 [] (str_bytes "x")].
Proof. eexists. split; [vm_compute; reflexivity|]. split; [apply assemble_layout; vm_compute; reflexivity|vm_compute; reflexivity]. Qed.

(* C60, exactly: of each datagram the first size bytes arrive; if they start with a complete frame
   of at least 16 bytes, exactly that frame is handed on; no datagram affects another.
   Example: C60_example. *)
Theorem C60_datagrams_exact : forall size ds,
  snd (serve_udp size ds) = true /\ map gbytes (fst (serve_udp size ds)) = flat_map (fun d => first_frame (firstn size d)) ds.
Proof. exact p_C60_datagrams_exact. Qed.
Print Assumptions C60_datagrams_exact.

(* C60 as claimed, for datagrams that fit the receive buffer.  Missing: larger ones.
   Example: C60_example. *)
Theorem C60_datagrams_partial : forall size ds, Forall (fun d => blen d <= Z.of_nat size) ds ->
  snd (serve_udp size ds) = true /\ map gbytes (fst (serve_udp size ds)) = flat_map first_frame ds.
Proof. exact p_C60_datagrams_partial. Qed.
Print Assumptions C60_datagrams_partial.

Example C60_example : Forall (fun d => blen d <= Z.of_nat 4096) [id_block ++ str_bytes "zz"; str_bytes "junk"; url_block] /\
  flat_map first_frame [id_block ++ str_bytes "zz"; str_bytes "junk"; url_block] = [id_block; url_block].
Proof. split; [repeat constructor; vm_compute; congruence|vm_compute; reflexivity]. Qed.

(* C60 is false for a complete frame larger than the buffer: it is dropped. *)
Theorem C60_large_datagram_refuted : forall size d, Z.of_nat size < 4 + field d 0 -> 4 + field d 0 <= blen d -> (4 <= size)%nat -> 16 <= blen d ->
  first_frame d <> [] /\ serve_udp size [d] = ([], true).
Proof. exact p_C60_large_datagram_refuted. Qed.
Print Assumptions C60_large_datagram_refuted.

Example C60_large_example : Z.of_nat 20 < 4 + field id_block 0 /\ 4 + field id_block 0 <= blen id_block /\ serve_udp 20 [id_block; be4 12 ++ be4 1 ++ be4 0 ++ be4 0] <> ([], true).
Proof. vm_compute. intuition congruence. Qed.

(* C61.  For every accepted connection: OnConnect once, first; then only messages are handed on; when
   reading ends - the peer closes, the transport fails, the input is refused, reading panics -
   OnClose and then CloseConn, each once and last; while reading goes on, neither.  (An unset
   callback is not called.)  OnConnect itself must not panic, see C61_onconnect_panic. *)
Theorem C61_callbacks : forall hc lim onConnect onClose rs, onConnect <> Set_ true ->
  exists l, accept_loop hc lim onConnect onClose rs = (l, true) /\
  Forall2 (fun r evs => exists msgs ends, Forall hands_on msgs /\
     evs = (match onConnect with Unset => [] | Set_ _ => [SConnect] end) ++ msgs ++ ends /\
     (ends = [] \/ ends = (match onClose with Unset => [] | Set_ _ => [SOnClose] end) ++ [SCloseConn]) /\
     (forall e, plain r -> SpecReader.ends r = Fails e -> ends <> [])) rs l.
Proof. exact p_C61_callbacks. Qed.
Print Assumptions C61_callbacks.

Example C61_example : Set_ false <> Set_ true /\
  accept_loop json_hdr 0 (Set_ false) (Set_ true) [[RData id_block; RFail EEOF]; [RData id_block]; [RData (be4 (-1))]] =
  ([[SConnect; SDispatch id_block; SOnClose; SCloseConn]; [SConnect; SDispatch id_block]; [SConnect; SOnClose; SCloseConn]], true).
Proof. split; [congruence|vm_compute; reflexivity]. Qed.

(* ... and reading that ended by refusing the input, or by a panic, counts as ended too. *)
Theorem C61_close_on_fault : forall hc lim panics parts evs rest en s r, Forall2 (part hc lim) parts evs -> fault hc lim en rest s -> s <> SWaiting ->
  segmentation (concat parts ++ rest) en r -> connection hc lim (Set_ panics) r = evs ++ [SOnClose; SCloseConn].
Proof. exact p_C61_close_on_fault. Qed.
Print Assumptions C61_close_on_fault.

Example C61_fault_example : fault json_hdr 0 StaysOpen (be4 (-1)) SPanicked /\ connection json_hdr 0 (Set_ false) [RData (be4 (-1))] = [SOnClose; SCloseConn].
Proof. split; [|vm_compute; reflexivity]. apply fault_negative; [vm_compute; congruence|vm_compute; reflexivity|intros X; inversion X]. Qed.

(* A panicking OnConnect ends ListenAndServeTCP: the connection is neither read nor closed, and no
   further connection is accepted. *)
Theorem C61_onconnect_panic : forall hc lim onClose r rs, accept_loop hc lim (Set_ true) onClose (r :: rs) = ([[SConnect]], false).
Proof. exact p_C61_onconnect_panic. Qed.
Print Assumptions C61_onconnect_panic.

Example C61_panic_example : accept_loop json_hdr 0 (Set_ true) (Set_ false) [[RData id_block; RFail EEOF]; [RData id_block]] = ([[SConnect]], false) /\
  accept_loop json_hdr 0 Unset (Set_ false) [[RData id_block; RFail EEOF]; [RData id_block]] = ([[SDispatch id_block; SOnClose; SCloseConn]; [SDispatch id_block]], true).
Proof. split; vm_compute; reflexivity. Qed.

(* C49 is false: whether authentication is on is never looked at when a message is handled, so every
   registered handler runs for the first message of a connection, before any RecvAuthPass. *)
Theorem C49_auth_not_consulted_refuted : forall hc m behave off c w on,
  handleMiddleware hc (set_auth on (m_auth_id m) (m_auth_through m) m) behave off c w = handleMiddleware hc m behave off c w.
Proof. exact p_C49_auth_not_consulted_refuted. Qed.
Print Assumptions C49_auth_not_consulted_refuted.

Example C49_example : let m := build [OAdd 5 [] (User 1); OAuth true false 9 (User 2)]%nat in
  let behave := fun h => match h with User n => [AEff (Z.of_nat n)] | Beat => [] end in
  configured_auth [OAdd 5 [] (User 1); OAuth true false 9 (User 2)]%nat = Some 9 /\
  serve_reads json_hdr 0 [RData id_block] = ([SDispatch id_block], SWaiting) /\
  let w := crun json_hdr [CRead 0 (of_bytes id_block); CAccept] in
  exists c, nth_error (w_ctxs w) 1 = Some c /\ handleMiddleware json_hdr m behave (-1) c w = Some ([EEnter 0; EEff 1], Returned).
Proof. cbv zeta. split; [reflexivity|]. split; [vm_compute; reflexivity|]. eexists. split; [vm_compute; reflexivity|vm_compute; reflexivity]. Qed.

(* C20.  Every successful reply is one Write of one block, and net.Conn's Write is atomic; so whatever
   interleaving w of the handlers' writes happens, a client reading the connection, however it is
   segmented, receives exactly the blocks of w in that order. *)
Theorem C20_replies_never_mixed : forall {V} (E : env V) handlers w lim rest en r,
  Forall (handler_writes E) handlers -> merge handlers w ->
  Forall (fun b => blen b - 4 < 2 ^ 31 /\ within lim b) w -> segmentation (concat w ++ rest) en r ->
  exists r', recv (FirstBlockOfLimitMaxByte lim) (List.length w) r = (w, RdOk tt, r') /\ segmentation rest en r'.
Proof. exact @p_C20_replies_never_mixed. Qed.
Print Assumptions C20_replies_never_mixed.

Example C20_example : exists b1 b2 b3,
  Forall (handler_writes demo_env) [[b1; b2]; [b3]] /\ merge [[b1; b2]; [b3]] [b1; b3; b2] /\ b1 <> b2 /\ b1 <> b3 /\
  Forall (fun b => blen b - 4 < 2 ^ 31 /\ within 0 b) [b1; b3; b2].
Proof.
  exists (hd [] (snd (Reply demo_env (JsonMarshaller demo_env) 1 (Some "a"%string) [] None))),
    (hd [] (snd (ctxXML demo_env (JsonMarshaller demo_env) 2 (Some "b"%string) [] None))),
    (hd [] (snd (ctxJSON demo_env (JsonMarshaller demo_env) 3 (Some "c"%string) [] None))).
  split.
  - constructor; [|constructor; [|constructor]].
    + apply (one_more demo_env [_] [_]); [apply (by_Reply _ (JsonMarshaller demo_env) 1 (Some "a"%string) []); vm_compute; reflexivity|].
      apply (one_more demo_env [_] []); [apply (by_XML _ (JsonMarshaller demo_env) 2 (Some "b"%string) []); vm_compute; reflexivity|apply no_reply].
    + apply (one_more demo_env [_] []); [apply (by_JSON _ (JsonMarshaller demo_env) 3 (Some "c"%string) []); vm_compute; reflexivity|apply no_reply].
  - split; [|split; [vm_compute; discriminate|split; [vm_compute; discriminate|]]].
    2: { constructor; [|constructor; [|constructor; [|constructor]]]; (split; [vm_compute; reflexivity|intros X; inversion X]). }
    apply (merge_pick [] _ _ [_]). apply (merge_pick [_] _ _ []). apply (merge_pick [] _ _ [_]). apply merge_nil. repeat constructor.
Qed.
