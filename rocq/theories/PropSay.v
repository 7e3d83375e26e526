(* Property theorems. Each is closed by the lemma of the same name in SayProofs.v. *)
From Verif Require Export SayProofs.

(* C135: the server answers.  A message with id 1, 3, 5 or 11 and a body its handler accepts is
   answered with exactly one frame, whose id, header and body are those of the table; a body it does not
   accept gets nothing, and neither does any other id.
   Example: C135_case. *)
Theorem C135_answered : forall h c cx id body, message_on h c cx -> request (c_stream cx) id body ->
  exists tr st, say_handles cx (crun json_hdr h) = Some (tr, st) /\
  match answer_to id with
  | Some (rid, rbody) =>
      (acceptable id body -> st = Returned /\ exists b, hello_writes tr = [b] /\ frame_layout rid (str_bytes "{}") rbody b) /\
      (~ acceptable id body -> hello_writes tr = [] /\ (id <> 11 -> st = Panicked))
  | None => hello_writes tr = [] /\ st = Returned
  end.
Proof. exact p_C135_answered. Qed.
Print Assumptions C135_answered.

(* C135: what the Go client shows.  However the answers arrive in pieces, it prints every one with its id
   and text, in order, and goes on with what follows.
   Example: C135_client_case. *)
Theorem C135_received : forall bs ms rest en r n, Forall2 (fun b m => says b (fst m) (snd m)) bs ms ->
  segmentation (concat bs ++ rest) en r ->
  exists r', segmentation rest en r' /\
  say_shows (List.length bs + n) r =
    (map (fun m => Msg (fst m) (Some []) (Some (HStr (snd m)))) ms ++ fst (say_shows n r'), snd (say_shows n r')).
Proof. exact p_C135_received. Qed.
Print Assumptions C135_received.

(* C135, refuted: the client does not survive its server: when the connection ends, with an error or
   without, its process ends in a panic, whatever it has shown before; while it stays open it waits.
   Example: C135_client_case. *)
Theorem C135_outlives_refuted : forall bs ms en r n, Forall2 (fun b m => says b (fst m) (snd m)) bs ms -> segmentation (concat bs) en r -> (List.length bs < n)%nat ->
  say_shows n r = (map (fun m => Msg (fst m) (Some []) (Some (HStr (snd m)))) ms, match en with StaysOpen => Waiting | Fails _ => Crashed end).
Proof. exact p_C135_outlives_refuted. Qed.
Print Assumptions C135_outlives_refuted.

(* C135: what the Go client sends.  For every text of ASCII characters the block is a message with id 5
   that the server's handler accepts, and however many of them are written and however they arrive,
   the server handles each of them once.
   Example: C135_case. *)
Theorem C135_sent : forall t, ascii_text t -> 6 * blen (str_bytes t) < 2 ^ 31 - 1000 -> exists b body, say_packs t = Ok b /\
  (forall s, gwf s -> gbytes s = b -> request s 5 body) /\ acceptable 5 body /\
  forall n en r, segmentation (concat (repeat b n)) en r -> serve_reads json_hdr 0 r = (map SDispatch (repeat b n), at_end en).
Proof. exact p_C135_sent. Qed.
Print Assumptions C135_sent.

(* C135: the Go client's whole exchange.  It writes its block n times; whatever happens to the connections
   meanwhile, and however the n answers arrive, it shows n times the server's name and waits.
   Example: C135_case, C135_client_case. *)
Theorem C135_exchange : forall t b (handled : list (list cop * nat * ctx)) trs r, ascii_text t -> 6 * blen (str_bytes t) < 2 ^ 31 - 1000 -> say_packs t = Ok b ->
  Forall2 (fun k tr => let '(h, c, cx) := k in message_on h c cx /\ gwf (c_stream cx) /\ gbytes (c_stream cx) = b /\ exists st, say_handles cx (crun json_hdr h) = Some (tr, st)) handled trs ->
  segmentation (concat (flat_map hello_writes trs)) StaysOpen r ->
  say_shows (S (List.length handled)) r = (repeat (Msg 6 (Some []) (Some (HStr "my name is tcpx"))) (List.length handled), Waiting).
Proof. exact p_C135_exchange. Qed.
Print Assumptions C135_exchange.

(* C135: the Python client's JSON exchange.  For every text of printable ASCII without quotes and backslashes: it packs a message the
   server answers; if the answer arrives in one piece, with anything behind it, the client gets id 6,
   the empty header and the server's name.
   Example: C135_case. *)
Theorem C135_python_json_partial : forall t, forallb py_plain (str_bytes t) = true -> blen (str_bytes t) < 2 ^ 31 - 2000 ->
  exists d, PyModel.py_pack say_py "json" (py_json_msg t) = Ok d /\
  forall h c cx tr st, message_on h c cx -> gwf (c_stream cx) -> gbytes (c_stream cx) = d -> say_handles cx (crun json_hdr h) = Some (tr, st) ->
  exists b, hello_writes tr = [b] /\ forall n extra r, (List.length d <= n)%nat ->
  PyModel.py_exchange say_py "json" n (py_json_msg t) (RData (b ++ extra) :: r) = (d, RdOk (PyMsg (Some 6) (str_bytes "{}") (HStr "my name is tcpx"))).
Proof. exact p_C135_python_json_partial. Qed.
Print Assumptions C135_python_json_partial.

(* C135: the same with protobuf: every user name that is UTF-8 is answered with id 12 and the greeting.
   Example: C135_case. *)
Theorem C135_python_protobuf_partial : forall name, utf8_text name -> blen name < 2 ^ 31 - 2000 ->
  exists d, PyModel.py_pack say_py "protobuf" (py_proto_msg name) = Ok d /\
  forall h c cx tr st, message_on h c cx -> gwf (c_stream cx) -> gbytes (c_stream cx) = d -> say_handles cx (crun json_hdr h) = Some (tr, st) ->
  exists b, hello_writes tr = [b] /\ forall n extra r, (List.length d <= n)%nat ->
  PyModel.py_exchange say_py "protobuf" n (py_proto_msg name) (RData (b ++ extra) :: r) = (d, RdOk (PyMsg (Some 12) (str_bytes "{}") (HPb (PbMsg (str_bytes "hello,I am tcpx") [])))).
Proof. exact p_C135_python_protobuf_partial. Qed.
Print Assumptions C135_python_protobuf_partial.

(* a client greets twice on one connection; the answer to the second message has 35 bytes; the Python
   client's two messages *)
Example C135_case : exists b cx tr, say_packs "hi" = Ok b /\
  message_on [CRead 0 (of_bytes b); CRead 0 (of_bytes b); CAccept] 0 cx /\ request (c_stream cx) 5 (enc (JStr "hi")) /\ acceptable 5 (enc (JStr "hi")) /\
  say_handles cx (crun json_hdr [CRead 0 (of_bytes b); CRead 0 (of_bytes b); CAccept]) = Some (tr, Returned) /\ map (fun w => List.length w) (hello_writes tr) = [35%nat] /\
  (exists d, PyModel.py_pack say_py "json" (py_json_msg "hello") = Ok d /\ List.length d = 50%nat) /\
  (exists d, PyModel.py_pack say_py "protobuf" (py_proto_msg (str_bytes "young")) = Ok d /\ List.length d = 50%nat) /\ utf8_text (str_bytes "young").
Proof.
  destruct (say_packs "hi") as [b| |] eqn:E; try (vm_compute in E; discriminate E). pose proof (say_case_msg b E) as R.
  destruct (nth_error (w_ctxs (crun json_hdr [CRead 0 (of_bytes b); CRead 0 (of_bytes b); CAccept])) 2) as [cx|] eqn:N; [|discriminate N].
  assert (G : c_stream cx = of_bytes b) by (cbn in N; injection N as <-; reflexivity).
  assert (M : message_on [CRead 0 (of_bytes b); CRead 0 (of_bytes b); CAccept] 0 cx).
  { exists 2%nat. split; [exact N|]. split; [reflexivity|]. split; [reflexivity|]. split.
    - intros o x I. destruct I as [<-|[<-|[<-|[]]]]; reflexivity.
    - intros s I. apply say_read_on in I. subst s. eauto. }
  assert (A : acceptable 5 (enc (JStr "hi"))) by (right; cbn [Z.eqb Pos.eqb]; eexists; vm_compute; reflexivity).
  rewrite <- G in R. destruct (p_C135_answered _ 0 cx 5 _ M R) as (tr & st & H & X). destruct X as [X _]. destruct (X A) as (-> & rb & W & L).
  exists b, cx, tr. split; [reflexivity|]. split; [exact M|]. split; [exact R|]. split; [exact A|]. split; [exact H|]. rewrite W.
  split; [cbn [map]; pose proof (layout_len _ _ _ _ L) as Y; unfold blen in Y; cbn in Y; f_equal; lia|].
  split; [eexists; split; vm_compute; reflexivity|]. split; [eexists; split; vm_compute; reflexivity|]. apply p_C134_utf8. vm_compute. reflexivity.
Qed.

(* two answers arrive in two pieces; the second ends the connection *)
Example C135_client_case : let b := assemble 6 (str_bytes "{}") (cDQ :: str_bytes "my name is tcpx" ++ [cDQ]) in let a := assemble 4 (str_bytes "{}") (cDQ :: str_bytes "bye" ++ [cDQ]) in
  Forall2 (fun b m => says b (fst m) (snd m)) [b; a] [(6, "my name is tcpx"%string); (4, "bye"%string)] /\
  segmentation (concat [b; a]) (Fails EEOF) [RData (firstn 40 (b ++ a)); RData (skipn 40 (b ++ a)); RFail EEOF] /\
  say_shows 3 [RData (firstn 40 (b ++ a)); RData (skipn 40 (b ++ a)); RFail EEOF] =
    ([Msg 6 (Some []) (Some (HStr "my name is tcpx")); Msg 4 (Some []) (Some (HStr "bye"))], Crashed).
Proof.
  cbv zeta. split; [|split; [split; [repeat constructor|split; vm_compute; reflexivity]|vm_compute; reflexivity]].
  assert (X : forall id t, is_int32 id -> blen (str_bytes t) < 1000 -> forallb py_plain (str_bytes t) = true -> says (assemble id (str_bytes "{}") (cDQ :: str_bytes t ++ [cDQ])) id t).
  { intros id t I L P. assert (Lb : blen (cDQ :: str_bytes t ++ [cDQ]) = blen (str_bytes t) + 2) by (change (blen (cDQ :: str_bytes t ++ [cDQ])) with (blen ([cDQ] ++ str_bytes t ++ [cDQ])); rewrite !blen_app; change (blen [cDQ]) with 1; lia).
    assert (F : frame_layout id (str_bytes "{}") (cDQ :: str_bytes t ++ [cDQ]) (assemble id (str_bytes "{}") (cDQ :: str_bytes t ++ [cDQ]))) by (apply assemble_layout; rewrite Lb; change (blen (str_bytes "{}")) with 2; lia).
    split; [exact I|]. split; [rewrite (layout_len _ _ _ _ F), Lb; change (blen (str_bytes "{}")) with 2; lia|]. split; [exact P|exact F]. }
  constructor; [|constructor; [|constructor]]; apply X; try (vm_compute; reflexivity); unfold is_int32, two31; cbn [fst]; lia.
Qed.

(* C135: which bodies the handlers that bind a text accept: a JSON string with blanks around it is read as that text, null leaves what was there, and
   nothing may follow; whatever begins in another way is an error.
   Example: C135_text_case. *)
Theorem C135_text : forall w w' old v, spaces w ->
  (forall t, ascii_text t -> (say_unjson (w ++ enc (JStr t) ++ w') (Some (HStr old)) = Ok v <-> v = HStr t /\ spaces w')) /\
  (say_unjson (w ++ str_bytes "null" ++ w') (Some (HStr old)) = Ok v <-> v = HStr old /\ spaces w') /\
  (forall c r, ~ In (code c) [32; 9; 10; 13] -> c <> cDQ -> c <> "n"%char -> exists e, say_unjson (w ++ c :: r) (Some (HStr old)) = Err e) /\
  (exists e, say_unjson w (Some (HStr old)) = Err e).
Proof. exact p_C135_text. Qed.
Print Assumptions C135_text.

Example C135_text_case : spaces (str_bytes " ") /\ ascii_text "hi" /\ say_unjson (str_bytes " ""hi"" ") (Some (HStr "")) = Ok (HStr "hi") /\
  say_unjson (str_bytes " null ") (Some (HStr "old")) = Ok (HStr "old") /\ (exists e, say_unjson (str_bytes " ""hi"" x") (Some (HStr "")) = Err e) /\ (exists e, say_unjson (str_bytes " 12") (Some (HStr "")) = Err e).
Proof. split; [repeat constructor|]. split; [repeat constructor|]. split; [vm_compute; reflexivity|]. split; [vm_compute; reflexivity|]. split; eexists; vm_compute; reflexivity. Qed.
