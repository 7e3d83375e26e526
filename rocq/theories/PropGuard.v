(* Property theorems: C111, C112: the servers of the middleware examples.
   Each is closed by the lemma of the same name in GuardProofs.v. *)
From Verif Require Export GuardProofs.
From Verif Require Import Demo.

(* C111.  Whatever bytes arrive, in whatever state the connection is, on both servers: the login
   handler is entered only when the message's header carries the key.
   Example: C111_case. *)
Theorem C111_login_guarded : forall V (E : env V) zero m c w tr st,
  m = anchor_server \/ m = router_server -> gwf (c_stream c) ->
  guard_handles E zero m c w = Some (tr, st) ->
  In (EEnter 1) tr \/ In (EEff ePrintLogin) tr \/ In (EEff eToken) tr ->
  has_key (e_hdr E) (gbytes (c_stream c)).
Proof. exact p_C111_login_guarded. Qed.
Print Assumptions C111_login_guarded.

(* C111: what a login request, routed by its id, is answered with: exactly one reply.
   Example: C111_case. *)
Theorem C111_login_answered_partial : forall V (E : env V) zero m c w hd,
  m = anchor_server \/ m = router_server -> is_message (e_hdr E) (c_stream c) 1 hd ->
  fst (route (e_hdr E) c w) = Ok (ById 1) -> Bind E (JsonMarshaller E) c (Some zero) <> Panic ->
  exists tr, guard_handles E zero m c w = Some (tr, Returned) /\
    (hget "Authorization" hd = Some (JStr "a client secret key") ->
       (forall x, Bind E (JsonMarshaller E) c (Some zero) = Ok x -> replies tr = [eToken]) /\
       (forall e, Bind E (JsonMarshaller E) c (Some zero) = Err e -> replies tr = [eBadBody]) /\ In (EEff ePrintAfter) tr) /\
    (hget "Authorization" hd = None -> replies tr = [eMissing] /\ ~ In (EEff ePrintAfter) tr) /\
    (forall v, hget "Authorization" hd = Some v -> v <> JStr "a client secret key" -> replies tr = [eInvalid] /\ ~ In (EEff ePrintAfter) tr).
Proof. exact p_C111_login_answered_partial. Qed.
Print Assumptions C111_login_answered_partial.

(* C111: naming the middleware with Use or giving it to AddHandler makes no difference. *)
Theorem C111_same_servers : forall V (E : env V) zero c w, guard_handles E zero anchor_server c w = guard_handles E zero router_server c w.
Proof. exact p_C111_same_servers. Qed.
Print Assumptions C111_same_servers.

(* C111 is false in one respect: after a message routed by URL pattern on the same connection a login
   request with the right key is not answered at all. *)
Theorem C111_every_login_answered_refuted :
  let h := CRead 0 (of_bytes (login_block key_header)) :: rev (reads [url_block] 1) ++ [CAccept] in
  exists c, nth_error (w_ctxs (crun json_hdr h)) 2 = Some c /\
    gbytes (c_stream c) = login_block key_header /\ has_key json_hdr (login_block key_header) /\
    guard_handles demo_env ""%string anchor_server c (crun json_hdr h) = Some ([], Returned).
Proof. exact p_C111_every_login_answered_refuted. Qed.
Print Assumptions C111_every_login_answered_refuted.

(* with the key, with another key, and without *)
Example C111_case :
  let h hd := [CRead 0 (of_bytes (login_block hd)); CAccept] in
  let run hd := match nth_error (w_ctxs (crun json_hdr (h hd))) 1 with Some c => guard_handles demo_env ""%string anchor_server c (crun json_hdr (h hd)) | None => None end in
  run key_header = Some ([EEnter 0; EEnter 1; EEff ePrintLogin; EEff eToken; EEff ePrintAfter], Returned) /\
  run [("Authorization"%string, JStr "guess")] = Some ([EEnter 0; EEff eInvalid; EAbort], Returned) /\
  run [("authorization"%string, JStr "a client secret key")] = Some ([EEnter 0; EEff eMissing; EAbort], Returned).
Proof. vm_compute. repeat split. Qed.

(* C112, the part that holds, for fewer than 2^31 requests with id 3, under every schedule: no request
   is answered twice; a request is told a number between 1 and the number of such requests; numbers
   never go down from one reply to the next; and when all is done every such request has been
   answered and the last reply told their number.
   Example: C112_case. *)
Theorem C112_count_partial : forall l s, krun l cst0 = Some s -> Z.of_nat (times_asked l) < 2 ^ 31 ->
  NoDup (map fst (k_replies s)) /\
  (forall g v, In (g, v) (k_replies s) -> 1 <= v <= Z.of_nat (times_asked l)) /\
  StronglySorted Z.le (map snd (k_replies s)) /\
  (Forall (fun t => t = []) (k_todo s) ->
     List.length (k_replies s) = times_asked l /\ k_times s = Z.of_nat (times_asked l) /\
     forall r g v, k_replies s = r ++ [(g, v)] -> v = Z.of_nat (times_asked l)).
Proof. exact p_C112_count_partial. Qed.
Print Assumptions C112_count_partial.

(* C112 is false in three ways: requests with other ids are not counted; two requests may be told the
   same number, and none the one below; and the 2^31st request is told a negative number. *)
Theorem C112_count_refuted :
  (forall l, (forall id, In (KArrive id) l -> id <> 3) -> forall s, krun l cst0 = Some s -> k_times s = 0) /\
  (exists s, krun [KArrive 3; KArrive 3; KStep 0; KStep 1; KStep 0; KStep 1] cst0 = Some s /\ k_replies s = [(0%nat, 2); (1%nat, 2)]) /\
  (exists l s g, krun l cst0 = Some s /\ Z.of_nat (times_asked l) = 2 ^ 31 /\ In (g, - 2 ^ 31) (k_replies s)).
Proof. exact p_C112_count_refuted. Qed.
Print Assumptions C112_count_refuted.

(* three requests, one of another id *)
Example C112_case : exists s, krun [KArrive 3; KStep 0; KArrive 5; KArrive 3; KStep 0; KStep 2; KStep 2] cst0 = Some s /\
  k_replies s = [(0%nat, 1); (2%nat, 2)] /\ Forall (fun t => t = []) (k_todo s).
Proof. eexists. split; [vm_compute; reflexivity|]. split; [reflexivity|]. cbn. repeat constructor. Qed.
