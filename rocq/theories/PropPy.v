(* Property theorems. Each is closed by the lemma of the same name in PyProofs.v. *)
From Verif Require Export PyProofs.

(* C133: what pack writes is a frame of the documented layout, and it writes one exactly when the id is an unsigned 32-bit number and everything fits. *)
Theorem C133_pack : forall H B (E : pyenv H B) s m,
  (forall d, py_pack E s m = Ok d -> exists id hb bb, ym_id m = Some id /\ y_header E (ym_header m) = Some hb /\ writes E s (ym_body m) bb /\ 0 <= id < 2 ^ 32 /\ frame_layout id hb bb d) /\
  (forall id hb bb, ym_id m = Some id -> y_header E (ym_header m) = Some hb -> writes E s (ym_body m) bb ->
     ((exists d, py_pack E s m = Ok d) <-> 0 <= id < 2 ^ 32 /\ 12 + blen hb + blen bb < 2 ^ 32)).
Proof. exact p_C133_pack. Qed.
Print Assumptions C133_pack.

(* C133: a message with an id below 2^31 and of less than 2^31 bytes is read by the Go side as it was sent, however the stream is cut up. *)
Theorem C133_received_partial : forall H B (E : pyenv H B) s m d id hb bb hc h rest en r,
  py_pack E s m = Ok d -> ym_id m = Some id -> y_header E (ym_header m) = Some hb -> writes E s (ym_body m) bb ->
  id < 2 ^ 31 -> blen d < 2 ^ 31 -> hunmarshal hc hb = Ok h -> segmentation (d ++ rest) en r ->
  exists r', UnPackFromReader hc r = (RdOk (id, h, bb), r') /\ segmentation rest en r'.
Proof. exact p_C133_received_partial. Qed.
Print Assumptions C133_received_partial.

Example C133_received_case :
  exists d, py_pack digits_env "json" (PyMsg (Some 5) (str_bytes "null") (str_bytes "12")) = Ok d /\ blen d = 22 /\
    fst (FirstBlockOf [RData (firstn 3 d); RData (skipn 3 d)]) = RdOk d /\ MessageIDOf (of_bytes d) = Ok 5.
Proof. eexists. split; [vm_compute; reflexivity|]. repeat split; vm_compute; reflexivity. Qed.

(* C133: an id from 2^31 on is packed without complaint and arrives as another, negative one. *)
Theorem C133_high_id_refuted : (forall H B (E : pyenv H B) s m d id, py_pack E s m = Ok d -> ym_id m = Some id -> 2 ^ 31 <= id -> MessageIDOf (of_bytes d) = Ok (id - 2 ^ 32)) /\
  exists m d, py_pack digits_env "json" m = Ok d /\ ym_id m = Some (2 ^ 31) /\ MessageIDOf (of_bytes d) = Ok (- 2 ^ 31).
Proof. exact p_C133_high_id_refuted. Qed.
Print Assumptions C133_high_id_refuted.

(* C133: the client cannot send a negative id, which the Go side can. *)
Theorem C133_negative_refuted : (forall H B (E : pyenv H B) s m id, ym_id m = Some id -> id < 0 -> exists e, py_pack E s m = Err e) /\
  (forall V (G : env V) id h src mo, is_int32 id -> forall b, Pack G id h src mo = Ok b -> blen b < 2 ^ 31 -> MessageIDOf (of_bytes b) = Ok id).
Proof. exact p_C133_negative_refuted. Qed.
Print Assumptions C133_negative_refuted.

Example C133_negative_case : py_pack digits_env "json" (PyMsg (Some (-1)) (str_bytes "null") (str_bytes "12")) = Err (EMsg "OverflowError").
Proof. reflexivity. Qed.

(* C133: of a frame, whatever follows it, unpack returns the unsigned id, the header's bytes and the body its serializer reads; it raises only when the serializer does. *)
Theorem C133_unpack : forall H B (E : pyenv H B) s id hdr body b extra, frame_layout id hdr body b ->
  (forall v, reads E s body v -> py_unpack E s (b ++ extra) = Ok (PyMsg (Some (id mod 2 ^ 32)) hdr v)) /\
  ((forall v, ~ reads E s body v) -> exists e, py_unpack E s (b ++ extra) = Err e).
Proof. exact p_C133_unpack. Qed.
Print Assumptions C133_unpack.

Example C133_unpack_case :
  py_unpack digits_env "json" (assemble 7 (str_bytes "{}") (str_bytes "12") ++ str_bytes "xyz") = Ok (PyMsg (Some 7) (str_bytes "{}") (str_bytes "12")).
Proof. vm_compute. reflexivity. Qed.

(* C133: a negative id the Go side sends comes back as another one. *)
Theorem C133_negative_back_refuted : (forall H B (E : pyenv H B) s id hdr body b extra m, frame_layout id hdr body b -> - 2 ^ 31 <= id < 0 -> py_unpack E s (b ++ extra) = Ok m -> ym_id m = Some (id + 2 ^ 32)) /\
  exists b m, frame_layout (-1) (str_bytes "null") (str_bytes "12") b /\ py_unpack digits_env "json" b = Ok m /\ ym_id m = Some 4294967295.
Proof. exact p_C133_negative_back_refuted. Qed.
Print Assumptions C133_negative_back_refuted.

(* C133: unpack inverts pack, except that the header comes back as its bytes. *)
Theorem C133_roundtrip : forall H B (E : pyenv H B) s m d extra bb v, py_pack E s m = Ok d -> writes E s (ym_body m) bb -> reads E s bb v ->
  exists hb, y_header E (ym_header m) = Some hb /\ py_unpack E s (d ++ extra) = Ok (PyMsg (ym_id m) hb v).
Proof. exact p_C133_roundtrip. Qed.
Print Assumptions C133_roundtrip.

Example C133_roundtrip_case : exists d, py_pack digits_env "protobuf" (PyMsg (Some 3000000000) (str_bytes "{}") (str_bytes "ab")) = Ok d /\
  py_unpack digits_env "protobuf" d = Ok (PyMsg (Some 3000000000) (str_bytes "{}") (str_bytes "ab")).
Proof. eexists. split; vm_compute; reflexivity. Qed.

(* C133: of a frame cut after n bytes unpack makes a message as long as its serializer reads what is left of the body: nothing else notices. *)
Theorem C133_cut : forall H B (E : pyenv H B) s id hdr body b n v, frame_layout id hdr body b -> (16 <= n)%nat ->
  reads E s (firstn (n - (16 + List.length hdr)) body) v ->
  py_unpack E s (firstn n b) = Ok (PyMsg (Some (id mod 2 ^ 32)) (firstn (n - 16) hdr) v).
Proof. exact p_C133_cut. Qed.
Print Assumptions C133_cut.

(* C133: so cut data can be taken for another message; the Go side refuses the same bytes. *)
Theorem C133_cut_refuted : exists b d v, frame_layout 5 (str_bytes "null") (str_bytes "12") b /\ d = firstn 21 b /\
  py_unpack digits_env "json" b = Ok (PyMsg (Some 5) (str_bytes "null") (str_bytes "12")) /\
  py_unpack digits_env "json" d = Ok (PyMsg (Some 5) (str_bytes "null") v) /\ v = str_bytes "1" /\
  (exists e, BodyBytesOf (of_bytes d) = Err e) /\ (exists e, FirstBlockOfBytes (of_bytes d) = Err e).
Proof. exact p_C133_cut_refuted. Qed.
Print Assumptions C133_cut_refuted.

(* C133: one exchange: everything taken by send, the reply at most 1024 bytes long and total_bytes together: the server is given the message and the client the reply, whatever arrives with it. *)
Theorem C133_exchange_partial : forall H B (E : pyenv H B) s n m d id hdr body b extra r v,
  py_pack E s m = Ok d -> (List.length d <= n)%nat -> frame_layout id hdr body b -> (List.length b <= 1024)%nat -> reads E s body v ->
  py_exchange E s n m (RData (b ++ extra) :: r) = (d, RdOk (PyMsg (Some (id mod 2 ^ 32)) hdr v)).
Proof. exact p_C133_exchange_partial. Qed.
Print Assumptions C133_exchange_partial.

Example C133_exchange_case :
  snd (py_exchange digits_env "json" 100 (PyMsg (Some 5) (str_bytes "null") (str_bytes "12")) [RData (assemble 6 (str_bytes "{}") (str_bytes "345"))]) =
  RdOk (PyMsg (Some 6) (str_bytes "{}") (str_bytes "345")).
Proof. vm_compute. reflexivity. Qed.

(* C133: recv takes at most k bytes from the front of what arrives, leaves the rest, and returns none of it only
   when there is nothing to come.
   Example: C133_recv_case. *)
Theorem C133_recv : forall k r, (0 < k)%nat ->
  match py_recv k r with
  | (RdOk p, r') => (List.length p <= k)%nat /\ total_bytes r = p ++ total_bytes r' /\ (p = [] -> total_bytes r = [])
  | (RdErr _, r') | (RdBlocked, r') => total_bytes r = [] /\ total_bytes r' = []
  | (RdPanic, _) => False
  end.
Proof. exact p_C133_recv. Qed.
Print Assumptions C133_recv.

Example C133_recv_case : py_recv 2 [RData []; RDataFail (str_bytes "abc") EEOF] = (RdOk (str_bytes "ab"), [RDataFail (str_bytes "c") EEOF]).
Proof. reflexivity. Qed.

(* C133: a reply of 1025 bytes, a reply in two segments, and two replies at once: the client returns another number for the first two, and of the two replies only the first. *)
Theorem C133_reply_refuted :
  (exists m b v, List.length b = 1025%nat /\ frame_layout 6 (repeat "x"%char 1007) (str_bytes "12") b /\
     snd (py_exchange digits_env "json" 100 m [RData b]) = RdOk (PyMsg (Some 6) (repeat "x"%char 1007) v) /\ v = str_bytes "1") /\
  (exists m b v, frame_layout 6 (str_bytes "{}") (str_bytes "12") b /\
     snd (py_exchange digits_env "json" 100 m [RData (firstn 19 b); RData (skipn 19 b)]) = RdOk (PyMsg (Some 6) (str_bytes "{}") v) /\ v = str_bytes "1") /\
  (exists m b1 b2, frame_layout 6 (str_bytes "{}") (str_bytes "1") b1 /\ frame_layout 7 (str_bytes "{}") (str_bytes "2") b2 /\
     snd (py_exchange digits_env "json" 100 m [RData (b1 ++ b2)]) = RdOk (PyMsg (Some 6) (str_bytes "{}") (str_bytes "1")) /\
     snd (py_recv 1024 [RData (b1 ++ b2)]) = []).
Proof. exact p_C133_reply_refuted. Qed.
Print Assumptions C133_reply_refuted.

(* C133: a connection the server has closed looks like a message with id 0 to a client whose serializer reads no bytes at all, as protobuf does. *)
Theorem C133_closed_refuted : (forall H B (E : pyenv H B) s n m d v r, py_pack E s m = Ok d -> reads E s [] v -> py_exchange E s n m (RFail EEOF :: r) = (firstn n d, RdOk (PyMsg (Some 0) [] v))) /\
  exists m, snd (py_exchange digits_env "protobuf" 100 m [RFail EEOF]) = RdOk (PyMsg (Some 0) [] []).
Proof. exact p_C133_closed_refuted. Qed.
Print Assumptions C133_closed_refuted.

(* C133: a frame without a body, as the Go side packs a nil one, makes the json client raise, json.loads refusing no bytes. *)
Theorem C133_nil_body_refuted : forall H B (E : pyenv H B) V (G : env V) id h mo b, y_loads E [] = None ->
  Pack G id h None mo = Ok b -> blen b < 2 ^ 32 -> exists e, py_unpack E "json" b = Err e.
Proof. exact p_C133_nil_body_refuted. Qed.
Print Assumptions C133_nil_body_refuted.

Example C133_nil_body_case : y_loads digits_env [] = None /\ py_unpack digits_env "json" (assemble 1 (str_bytes "null") []) = Err (EMsg "ValueError").
Proof. split; vm_compute; reflexivity. Qed.

(* C133: what send does not take is never sent; the server then waits for the rest. *)
Theorem C133_short_send_refuted : exists m d, py_pack digits_env "json" m = Ok d /\ fst (py_exchange digits_env "json" 10 m []) = firstn 10 d /\ firstn 10 d <> d /\
  forall r, segmentation (firstn 10 d) StaysOpen r -> fst (FirstBlockOf r) = RdBlocked.
Proof. exact p_C133_short_send_refuted. Qed.
Print Assumptions C133_short_send_refuted.

(* C133 agrees with the model of C66, which starts from the header's and the body's bytes and stops there. *)
Theorem C133_extends : forall H B (E : pyenv H B) s,
  (forall m id hb bb, ym_id m = Some id -> y_header E (ym_header m) = Some hb -> writes E s (ym_body m) bb ->
     py_pack E s m = match ClientModel.py_pack id hb bb with Some d => Ok d | None => Err (EMsg "OverflowError") end) /\
  (forall d, py_unpack E s d = let '(i, h, b) := ClientModel.py_unpack d in rbind (py_load E s b) (fun v => Ok (PyMsg (Some i) h v))).
Proof. exact p_C133_extends. Qed.
Print Assumptions C133_extends.

Example C133_extends_case : ClientModel.py_pack 5 (str_bytes "null") (str_bytes "12") = Some (assemble 5 (str_bytes "null") (str_bytes "12")).
Proof. vm_compute. reflexivity. Qed.
