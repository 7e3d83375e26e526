(* Property theorems: Heartbeat and authentication messages reach their handlers (C91)..
   Each is closed by the lemma of the same name in BeatProofs.v. *)
From Verif Require Export BeatProofs.
From Verif Require Import Demo.

(* C91, the part that holds.  After a call that asks for messages with an id (HeartBeatModeDetail(true, ..),
   WithAuthDetail(true, ..)), found the id free, with no RewriteHeartBeatHandler since: on a TCP
   connection all of whose messages ask for the same router type, whose handlers leave
   "router_type" alone, and with OnMessage unset, every message with that id asking for id routing
   runs the installed handler - whatever middlewares are in the way, provided none of the
   configured functions aborts or panics.  Missing: OnMessage, connections whose messages ask for
   different types, see the refutations below. *)
Theorem C91_reaches_handler_partial : forall hc q q1 q2 o id f behave n h x c cx hd,
  q = q2 ++ o :: q1 -> asks_for id o f -> refused o q1 = false -> (forall i g, ~ In (ORewrite i g) q2) -> onmessage q = None ->
  nth_error (w_ctxs (crun hc h)) x = Some cx -> nth_error (born h) x = Some (Req c) -> was_reset h x = false ->
  (forall s, read_on h c s -> exists id' hd', is_message hc s id' hd' /\ asked_type hd' = "MESSAGE_ID"%string) ->
  leaves_alone h c (KStr "router_type") -> is_message hc (stream_of h x) id hd ->
  not_too_long (planned q (ById id)) ->
  steady behave Beat -> (forall o' g, In o' q -> In g (given o') -> steady behave g) ->
  In (AEff n) (behave f) ->
  exists tr, handleMiddleware hc (build q) behave (-1) cx (crun hc h) = Some (tr, Returned) /\ In (EEff n) tr.
Proof. exact p_C91_reaches_handler_partial. Qed.
Print Assumptions C91_reaches_handler_partial.

Example C91_example : let q := [OGlobal [User 1]; OBeat true true 1392; OUse "log" (User 2)]%nat in
  let behave := fun f => match f with Beat => [AEff 7] | User 1 => [AEff 1; ANext] | _ => [AEff 2] end%nat in
  let h := [CRouter 2; CRead 0 (of_bytes (demo_block 1392 "beat")); CRouter 1; CRead 0 (of_bytes id_block); CAccept] in
  exists cx, nth_error (w_ctxs (crun json_hdr h)) 2 = Some cx /\ onmessage q = None /\
    refused (OBeat true true 1392) [OUse "log" (User 2)]%nat = false /\
    steady behave Beat /\ (forall o' g, In o' q -> In g (given o') -> steady behave g) /\
    planned q (ById 1392) = RunChain [User 1; User 2; Beat]%nat /\
    handleMiddleware json_hdr (build q) behave (-1) cx (crun json_hdr h) =
      Some ([EEnter 0; EEff 1; EEnter 1; EEff 2; EEnter 2; EEff 7]%nat, Returned).
Proof.
  cbv zeta. eexists. split; [reflexivity|]. split; [reflexivity|]. split; [reflexivity|]. split; [split; cbn; intuition discriminate|].
  split; [|split; vm_compute; reflexivity]. intros o' g H J. cbn in H. destruct H as [<-|[<-|[<-|[]]]]; cbn in J; destruct J as [<-|[]] || destruct J; split; cbn; intuition discriminate.
Qed.

(* C91 is false once OnMessage is set: OnMessage takes the place of all routing, so the handler
   installed for heartbeats (or for authentication) runs for no message at all, over TCP or UDP -
   its effect never shows, unless the user's own functions produce it. *)
Theorem C91_onmessage_refuted : forall hc q q1 q2 o id f g behave n off cx w,
  q = q2 ++ o :: q1 -> asks_for id o f -> onmessage q = Some g -> -1 <= off ->
  In (AEff n) (behave f) -> only_for behave q id n ->
  exists tr st, handleMiddleware hc (build q) behave off cx w = Some (tr, st) /\ ~ In (EEff n) tr.
Proof. exact p_C91_onmessage_refuted. Qed.
Print Assumptions C91_onmessage_refuted.

Example C91_onmessage_case : let q := [OOnMessage (Some (User 3)); OBeat true false 1392; OUse "log" (User 2)]%nat in
  let behave := fun f => match f with Beat => [AEff 7] | User n => [AEff (Z.of_nat n)] end in
  let h := [CRead 0 (of_bytes (demo_block 1392 "beat")); CAccept] in
  exists cx, nth_error (w_ctxs (crun json_hdr h)) 1 = Some cx /\ onmessage q = Some (User 3)%nat /\ only_for behave q 1392 7 /\
    handleMiddleware json_hdr (build q) behave (-1) cx (crun json_hdr h) = Some ([EEnter 0; EEff 2; EEnter 1; EEff 3]%nat, Returned).
Proof.
  cbv zeta. eexists. split; [reflexivity|]. split; [reflexivity|]. split; [|vm_compute; reflexivity].
  intros o g H J N. cbn in H. destruct H as [<-|[<-|[<-|[]]]]; cbn in J; destruct J as [<-|[]] || destruct J; cbn; intuition discriminate.
Qed.

(* C91 is false on a connection where a message routed by URL pattern was routed before: from then
   on heartbeats (and every other message asking for id routing) are looked up as patterns, and run
   nothing at all - unless the empty pattern has handlers. *)
Theorem C91_after_url_refuted : forall hc q q1 q2 o id f behave off h h2 c y cy x cx hd,
  let h' := h2 ++ CRouter y :: h in
  q = q2 ++ o :: q1 -> asks_for id o f -> onmessage q = None -> url_serving "" q = None ->
  nth_error (w_ctxs (crun hc h)) y = Some cy -> nth_error (born h) y = Some (Req c) -> was_reset h y = false ->
  fst (RouterType hc cy (crun hc h)) = Ok "URL_PATTERN"%string ->
  existsb (names_key (KStr "router_type")) h2 = false ->
  nth_error (w_ctxs (crun hc h')) x = Some cx -> nth_error (born h') x = Some (Req c) -> was_reset h' x = false ->
  is_message hc (stream_of h' x) id hd -> hget "Router-Pattern-Value" hd = None ->
  handleMiddleware hc (build q) behave off cx (crun hc h') = Some ([], Returned).
Proof. exact p_C91_after_url_refuted. Qed.
Print Assumptions C91_after_url_refuted.

Example C91_after_url_case : let q := [OAny "/x/" [User 4]; OBeat true false 1392]%nat in
  let behave := fun f => match f with Beat => [AEff 7] | User n => [AEff (Z.of_nat n)] end in
  let beat := CRead 0 (of_bytes (demo_block 1392 "beat")) in
  let url := CRead 0 (of_bytes url_block) in
  exists c1 c2,
    nth_error (w_ctxs (crun json_hdr [beat; CAccept])) 1 = Some c1 /\
    handleMiddleware json_hdr (build q) behave (-1) c1 (crun json_hdr [beat; CAccept]) = Some ([EEff 7], Returned) /\
    nth_error (w_ctxs (crun json_hdr [beat; CRouter 1; url; CAccept])) 2 = Some c2 /\
    handleMiddleware json_hdr (build q) behave (-1) c2 (crun json_hdr [beat; CRouter 1; url; CAccept]) = Some ([], Returned).
Proof. cbv zeta. eexists _, _. split; [reflexivity|]. split; [vm_compute; reflexivity|]. split; [reflexivity|]. vm_compute; reflexivity. Qed.
