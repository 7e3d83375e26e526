(* Property theorems: Client-side helpers..
   Each is closed by the lemma of the same name in ClientProofs.v. *)
From Verif Require Export ClientProofs.
From Verif Require Import Demo.

(* C17.  Whatever the arguments and whatever conn.Write answers: either nothing is written and
   the result is an error (nil for no arguments, a panic for a nil id), or the arguments are
   int/value pairs and exactly one Write happens, of the concatenation of one block per pair, the
   marker carrying the number of pairs. *)
Theorem C17_pipejson_all_or_nothing_partial : forall {V} (E : env V) args werr r ws, PipeJSON E args werr = (r, ws) ->
  (ws = [] /\ (args = [] /\ r = Ok tt \/ args <> [] /\ (r = Panic \/ exists e, r = Err e))) \/
  (exists ps blocks, pairing arg_id arg_val ps args /\ ps <> [] /\
     batch E (Z.of_nat (List.length ps)) ps blocks /\ ws = [concat blocks] /\
     r = match werr with None => Ok tt | Some e => Err (EWrap e) end).
Proof. exact @p_C17_pipejson_all_or_nothing_partial. Qed.
Print Assumptions C17_pipejson_all_or_nothing_partial.

Example C17_example : exists b1 b2, PipeJSON demo_env [GInt 5 "5"; GVal "hello"; GInt (-1) "-1"; GNil]%string None = (Ok tt, [b1 ++ b2]) /\
  MessageIDOf (of_bytes b1) = Ok 5 /\ HeaderOf json_hdr (of_bytes b1) = Ok (Some [("[tcpx-buffer-in-serial]", JStr "enable;2")]%string) /\
  MessageIDOf (of_bytes b2) = Ok (-1) /\ HeaderOf json_hdr (of_bytes b2) = Ok None.
Proof.
  exists (assemble 5 (str_bytes "{""[tcpx-buffer-in-serial]"":""enable;2""}") (str_bytes "jhello")),
         (assemble (-1) (str_bytes "null") []).
  repeat split; vm_compute; reflexivity.
Qed.

(* Completeness: when all values encode, the batch is written. *)
Theorem C17_pipejson_writes : forall {V} (E : env V) ps args werr, pairing arg_id arg_val ps args -> ps <> [] ->
  (exists hb, hmarshal (e_hdr E) (Some [("[tcpx-buffer-in-serial]"%string, JStr (String.append "enable;" (itoa (Z.of_nat (List.length ps)))))]) = Ok hb) ->
  (exists hb, hmarshal (e_hdr E) None = Ok hb) ->
  (forall z v, In (z, Some v) ps -> exists bb, e_json E v = Ok bb) ->
  exists blocks, batch E (Z.of_nat (List.length ps)) ps blocks /\
    PipeJSON E args werr = (match werr with None => Ok tt | Some e => Err (EWrap e) end, [concat blocks]).
Proof. exact @p_C17_pipejson_writes. Qed.
Print Assumptions C17_pipejson_writes.

Example C17_writes_example : pairing arg_id arg_val [(5, Some "hello"); (-1, None)]%string [GInt 5 "5"; GVal "hello"; GInt (-1) "-1"; GNil]%string /\
  (forall z v, In (z, Some v) [(5, Some "hello"); (-1, None)]%string -> exists bb, e_json demo_env v = Ok bb).
Proof.
  split; [|intros; eexists; reflexivity].
  constructor; [eexists; reflexivity|reflexivity|]. constructor; [eexists; reflexivity|reflexivity|]. constructor.
Qed.

(* What is missing from C17: a nil interface in an id position panics instead of returning an error. *)
Theorem C17_pipejson_nil_id_refuted : forall {V} (E : env V) b werr, PipeJSON E [GNil; b] werr = (Panic, []).
Proof. exact @p_C17_pipejson_nil_id_refuted. Qed.
Print Assumptions C17_pipejson_nil_id_refuted.

Example C17_nil_id_example : PipeJSON demo_env [GNil; GVal "x"%string] None = (Panic, []).
Proof. reflexivity. Qed.

(* C19 for a connection that honours the io.Writer contract (as every net.Conn does): nil exactly
   when the whole buffer was accepted once; on error a prefix of it was. *)
Theorem C19_writeconn_once_partial : forall buf ws, Forall (fun w => writer_contract buf (w_n w) (w_err w)) ws ->
  (match WriteConn buf ws with
   | (WDone (Ok _), sent) => sent = buf
   | (WDone (Err _), sent) => prefix_of sent buf
   | (WDone Panic, _) => False
   | (WBlocked, sent) => sent = [] end) /\
  (match write_ buf ws with
   | (WDone (Ok _), sent) => sent = buf
   | (WDone (Err _), sent) => prefix_of sent buf
   | (WDone Panic, _) => False
   | (WBlocked, sent) => sent = [] end).
Proof. exact p_C19_writeconn_once_partial. Qed.
Print Assumptions C19_writeconn_once_partial.

Example C19_example : writer_contract (str_bytes "abc") 3 None /\ writer_contract (str_bytes "abc") 1 (Some (EIO 5)) /\
  WriteConn (str_bytes "abc") [W 3 None] = (WDone (Ok tt), str_bytes "abc") /\
  WriteConn (str_bytes "abc") [W 1 (Some (EIO 5))] = (WDone (Err (EWrap (EIO 5))), str_bytes "a") /\
  WriteConn (str_bytes "abc") [W 0 (Some EEOF)] = (WDone (Err EEOF), []).
Proof. unfold writer_contract. simpl. repeat split; try lia; try discriminate. Qed.

(* Without that contract the claim is false: the retry loop re-sends the buffer from its start. *)
Theorem C19_writeconn_short_write_refuted : exists buf ws sent,
  WriteConn buf ws = (WDone (Ok tt), sent) /\ sent <> buf /\ write_ buf ws = (WDone (Ok tt), sent).
Proof. exact p_C19_writeconn_short_write_refuted. Qed.
Print Assumptions C19_writeconn_short_write_refuted.

(* What the loops do on any connection: every Write is offered the buffer from its first byte, so
   the bytes transmitted are a concatenation of prefixes of it.
   Example: C19_exact_example. *)
Theorem C19_writeconn_exact : forall buf ws r sent, WriteConn buf ws = (WDone (Ok r), sent) ->
  exists ns rest, ws = map (fun n => W n None) ns ++ rest /\ sent = concat (map (fun n => firstn n buf) ns) /\
    (List.length buf <= fold_right Nat.add O ns)%nat.
Proof. exact p_C19_writeconn_exact. Qed.
Print Assumptions C19_writeconn_exact.

(* The same for write: an empty buffer is not written at all.
   Example: C19_exact_example. *)
Theorem C19_write_exact : forall buf ws r sent, write_ buf ws = (WDone (Ok r), sent) ->
  buf = [] /\ sent = [] \/ buf <> [] /\
  exists ns rest, ws = map (fun n => W n None) ns ++ rest /\ sent = concat (map (fun n => firstn n buf) ns) /\
    (List.length buf <= fold_right Nat.add O ns)%nat /\
    forall ns' n, ns = ns' ++ [n] -> (fold_right Nat.add O ns' < List.length buf)%nat.
Proof. exact p_C19_write_exact. Qed.
Print Assumptions C19_write_exact.

(* ... and the error returned is the one Write gave: io.EOF as it is, any other wrapped. *)
Theorem C19_error_reported : forall buf ws e sent, WriteConn buf ws = (WDone (Err e), sent) ->
  exists ns n x rest, ws = map (fun n => W n None) ns ++ W n (Some x) :: rest /\ sent = concat (map (fun n => firstn n buf) (ns ++ [n])) /\
    (x = EEOF /\ e = EEOF \/ x <> EEOF /\ e = EWrap x).
Proof. exact p_C19_error_reported. Qed.
Print Assumptions C19_error_reported.

Example C19_error_example : WriteConn (str_bytes "abcd") [W 1 None; W 2 (Some (EIO 7)); W 9 None] = (WDone (Err (EWrap (EIO 7))), str_bytes "aab").
Proof. reflexivity. Qed.

Example C19_exact_example : WriteConn (str_bytes "abcd") [W 3 None; W 2 None] = (WDone (Ok tt), str_bytes "abcab") /\
  write_ (str_bytes "abcd") [W 3 None; W 2 None; W 9 None] = (WDone (Ok tt), str_bytes "abcab").
Proof. split; reflexivity. Qed.

(* C66, packing: for every id Python accepts that is also a Go id, and any header and body bytes,
   both produce the same bytes. *)
Theorem C66_python_pack_partial : forall id header body, 0 <= id < 2 ^ 31 -> 12 + blen header + blen body < 2 ^ 32 ->
  py_pack id header body = Some (assemble id header body).
Proof. exact p_C66_python_pack_partial. Qed.
Print Assumptions C66_python_pack_partial.

Example C66_example : 12 + blen (str_bytes "{}") + blen (str_bytes "[1]") < 2 ^ 32 /\
  py_pack 7 (str_bytes "{}") (str_bytes "[1]") = Some (assemble 7 (str_bytes "{}") (str_bytes "[1]")) /\
  py_unpack (assemble 7 (str_bytes "{}") (str_bytes "[1]")) = (7, str_bytes "{}", str_bytes "[1]").
Proof. repeat split; vm_compute; reflexivity. Qed.

(* C66, unpacking: on a block with the documented layout Python recovers header and body bytes,
   and the id modulo 2^32 (hence the id itself when it is not negative). *)
Theorem C66_python_unpack_partial : forall id hdr body block, frame_layout id hdr body block -> blen block < 2 ^ 32 ->
  py_unpack block = (id mod 2 ^ 32, hdr, body).
Proof. exact p_C66_python_unpack_partial. Qed.
Print Assumptions C66_python_unpack_partial.

Example C66_unpack_example : exists block, frame_layout (-3) (str_bytes "null") (str_bytes "x") block /\ blen block < 2 ^ 32 /\
  py_unpack block = (4294967293, str_bytes "null", str_bytes "x").
Proof.
  exists (assemble (-3) (str_bytes "null") (str_bytes "x")). split; [apply assemble_layout; vm_compute; reflexivity|].
  split; vm_compute; reflexivity.
Qed.

(* Negative ids: Python refuses to pack any, and misreads every one Go sends. *)
Theorem C66_python_negative_ids_refuted : forall id hdr body, - 2 ^ 31 <= id < 0 -> 12 + blen hdr + blen body < 2 ^ 32 - 4 ->
  py_pack id hdr body = None /\ (exists i, py_unpack (assemble id hdr body) = (i, hdr, body) /\ i <> id).
Proof. exact p_C66_python_negative_ids_refuted. Qed.
Print Assumptions C66_python_negative_ids_refuted.

Example C66_negative_example : py_pack (-3) (str_bytes "null") (str_bytes "x") = None /\
  py_unpack (assemble (-3) (str_bytes "null") (str_bytes "x")) = (4294967293, str_bytes "null", str_bytes "x").
Proof. split; vm_compute; reflexivity. Qed.

(* C67.  On a message with a header map, Set then Get behave like a map; Get never panics (it is
   total) and is nil for a message without header. *)
Theorem C67_get_set_partial : forall {V} (m : message V) k v,
  (forall h, msg_header m = Some h -> exists m', MessageSet m k v = Ok m' /\ MessageGet m' k = Some v /\
     (forall k', k' <> k -> MessageGet m' k' = MessageGet m k') /\ msg_id m' = msg_id m /\ msg_body m' = msg_body m) /\
  (msg_header m = None -> forall k', MessageGet m k' = None).
Proof. exact @p_C67_get_set_partial. Qed.
Print Assumptions C67_get_set_partial.

Example C67_example : exists m', MessageSet (NewMessage 3 (Some "b"%string)) "k" (JInt 1) = Ok m' /\
  MessageGet m' "k" = Some (JInt 1) /\ MessageGet m' "Router-Type" = Some (JStr "MESSAGE_ID").
Proof. eexists. repeat split. Qed.

(* Set on a message without header map (Message{} literals, unpacked messages without header)
   panics. *)
Theorem C67_set_nil_header_refuted : forall {V} (m : message V) k v, msg_header m = None -> MessageSet m k v = Panic.
Proof. exact @p_C67_set_nil_header_refuted. Qed.
Print Assumptions C67_set_nil_header_refuted.

Example C67_nil_example : MessageSet (Msg 3 None (Some "b"%string)) "k" JNull = Panic.
Proof. reflexivity. Qed.

(* Request.Set, by contrast, creates the map. *)
Theorem C67_request_set : forall h k v, hget k (RequestSet h k v) = Some v /\ (forall k', k' <> k -> hget k' (RequestSet h k v) = hget k' h).
Proof. exact p_C67_request_set. Qed.
Print Assumptions C67_request_set.

Example C67_request_example : hget "k" (RequestSet None "k" (JInt 1)) = Some (JInt 1).
Proof. reflexivity. Qed.
