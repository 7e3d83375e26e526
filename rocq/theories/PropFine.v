(* Property theorems: Routing with every access of the connection's map as a step (C130)..
   Each is closed by the lemma of the same name in FineProofs.v. *)
From Verif Require Export FineProofs.
From Verif Require Import Demo.

(* the messages of the examples *)
Example C130_messages :
  is_message json_hdr (of_bytes url_block) 0 (Some [("Router-Type"%string, JStr "URL_PATTERN"); ("Router-Pattern-Value"%string, JStr "/x/")]) /\
  is_message json_hdr (of_bytes url_block2) 0 (Some [("Router-Type"%string, JStr "URL_PATTERN"); ("Router-Pattern-Value"%string, JStr "/y/")]) /\
  is_message json_hdr (of_bytes id_block) 5 (Some [("Router-Type"%string, JStr "MESSAGE_ID")]).
Proof.
  split; [|split].
  - split; [apply gwf_of_bytes|]. split; [split; vm_compute; congruence|]. rewrite gbytes_of_bytes. split; [vm_compute; reflexivity|].
    destruct (p_C01_pack_layout _ demo_env (NewURLPatternMessage "/x/" (Some "b"%string)) (Some (JsonMarshaller demo_env)) url_block) as (hdr & body & A & B & C); [vm_compute; reflexivity|vm_compute; reflexivity|].
    exists hdr, body. split; [exact C|]. vm_compute in A. injection A as <-. vm_compute. reflexivity.
  - split; [apply gwf_of_bytes|]. split; [split; vm_compute; congruence|]. rewrite gbytes_of_bytes. split; [vm_compute; reflexivity|].
    destruct (p_C01_pack_layout _ demo_env (NewURLPatternMessage "/y/" (Some "b"%string)) (Some (JsonMarshaller demo_env)) url_block2) as (hdr & body & A & B & C); [vm_compute; reflexivity|vm_compute; reflexivity|].
    exists hdr, body. split; [exact C|]. vm_compute in A. injection A as <-. vm_compute. reflexivity.
  - split; [apply gwf_of_bytes|]. split; [split; vm_compute; congruence|]. rewrite gbytes_of_bytes. split; [vm_compute; reflexivity|].
    destruct (p_C01_pack_layout _ demo_env (demo_msg 5 "a") None id_block) as (hdr & body & A & B & C); [vm_compute; reflexivity|vm_compute; reflexivity|].
    exists hdr, body. split; [exact C|]. vm_compute in A. injection A as <-. vm_compute. reflexivity.
Qed.

(* three goroutines: one message, a batch of two, a call of the application; their handlers call
   GetURLPattern and store something *)
Example C130_uniform_case :
  let h := fun _ : routing => HURL (fun _ => HSet (KStr "a") (VOther 1) (HRouter (fun _ => HEnd))) in
  let gs := [GMessages [FMsg (of_bytes url_block) h]; GMessages [FMsg (of_bytes url_block2) h; FMsg (of_bytes url_block) h];
             GApp (of_bytes url_block2) (HRouter (fun _ => HEnd))] in
  all_of_type json_hdr gs "URL_PATTERN" /\ app_leaves gs (KStr "router_type") /\
  let st := frun ([0; 1; 2; 0; 1; 2; 0; 1; 2; 0; 1; 0; 1; 0] ++ repeat 1 40)%nat (fstart json_hdr [] gs) in
  In (0%nat, ORouted (of_bytes url_block) (ByURL "/x/")) (fs_log st) /\ In (1%nat, ORouted (of_bytes url_block2) (ByURL "/y/")) (fs_log st) /\
  In (1%nat, OURL (of_bytes url_block) (Ok "/y/"%string)) (fs_log st).
Proof.
  destruct C130_messages as (Mx & My & _). cbv zeta. split; [|split].
  - intros s (g & Hg & Hs). cbn in Hg. destruct Hg as [<-|[<-|[<-|[]]]].
    + destruct Hs as (m & [<-|[]] & <-). do 2 eexists. split; [exact Mx|reflexivity].
    + destruct Hs as (m & [<-|[<-|[]]] & <-); do 2 eexists; (split; [first [exact Mx|exact My]|reflexivity]).
    + subst s. do 2 eexists. split; [exact My|reflexivity].
  - intros v (g & Hg & Hs). cbn in Hg. destruct Hg as [<-|[<-|[<-|[]]]].
    + destruct Hs as (m & r & [<-|[]] & Hs). cbn in Hs. inversion Hs as [| | | |? ? Q]; subst. inversion Q as [|? ? ? Q'| | |]; subst. inversion Q' as [| | |? ? Q''|]; subst. inversion Q''.
    + destruct Hs as (m & r & [<-|[<-|[]]] & Hs); cbn in Hs; inversion Hs as [| | | |? ? Q]; subst; inversion Q as [|? ? ? Q'| | |]; subst; inversion Q' as [| | |? ? Q''|]; subst; inversion Q''.
    + inversion Hs as [| | |? ? Q|]; subst. inversion Q.
  - vm_compute. repeat split; repeat (first [left; reflexivity|right]).
Qed.

(* the connection already has the type URL_PATTERN; a message that asks for an id is routed by pattern *)
Example C130_settled_case :
  let gs := [GMessages [FMsg (of_bytes url_block) (fun _ => HEnd)]; GMessages [FMsg (of_bytes id_block) (fun _ => HEnd)]] in
  aget (KStr "router_type") [(KStr "router_type", VStr "URL_PATTERN")] = Some (VStr "URL_PATTERN") /\
  all_messages json_hdr gs /\ app_leaves gs (KStr "router_type") /\
  In (1%nat, ORouted (of_bytes id_block) (ByURL "")) (fs_log (frun (repeat 1 9)%nat (fstart json_hdr [(KStr "router_type", VStr "URL_PATTERN")] gs))) /\
  In (ORouted (of_bytes id_block) (ByURL "")) (in_turn json_hdr gs []).
Proof.
  destruct C130_messages as (Mx & _ & Mi). cbv zeta. split; [reflexivity|]. split; [|split; [|split]].
  - intros s (g & Hg & Hs). cbn in Hg. destruct Hg as [<-|[<-|[]]]; destruct Hs as (m & [<-|[]] & <-); eauto.
  - intros v (g & Hg & Hs). cbn in Hg. destruct Hg as [<-|[<-|[]]]; destruct Hs as (m & r & [<-|[]] & Hs); inversion Hs.
  - vm_compute. repeat (first [left; reflexivity|right]).
  - vm_compute. repeat (first [left; reflexivity|right]).
Qed.

(* C130: on a connection all of whose messages ask for the same router type, where the application
   stores nothing under router_type, every call of RouterType gives that type and every message goes
   where its own header says, however the accesses of all goroutines interleave.
   Example: C130_uniform_case. *)
Theorem C130_uniform_partial : forall hc gs t sched, all_of_type hc gs t -> app_leaves gs (KStr "router_type") ->
  forall i o, In (i, o) (fs_log (frun sched (fstart hc [] gs))) ->
  match o with
  | ORouter _ t' => t' = t
  | ORouted s r => forall id hd, is_message hc s id hd -> r = asked_routing hd id
  | OURL _ _ => True
  | OPanic _ => False
  end.
Proof. exact p_C130_uniform_partial. Qed.
Print Assumptions C130_uniform_partial.

(* C130: once a router type is stored for the connection, it decides for all messages that come later,
   whatever type they ask for: no interleaving of their accesses changes it.
   Example: C130_settled_case. *)
Theorem C130_settled_partial : forall hc m gs t sched, aget (KStr "router_type") m = Some (VStr t) ->
  all_messages hc gs -> app_leaves gs (KStr "router_type") ->
  let st := frun sched (fstart hc m gs) in
  aget (KStr "router_type") (fs_map st) = Some (VStr t) /\
  forall i o, In (i, o) (fs_log st) ->
  match o with
  | ORouter _ t' => t' = t
  | ORouted s r => forall id hd, is_message hc s id hd -> r = routing_by t hd id
  | OURL _ _ => True
  | OPanic _ => False
  end.
Proof. exact p_C130_settled_partial. Qed.
Print Assumptions C130_settled_partial.

(* C130, in general: a router type or pattern a call gives comes from the map as it was, from the header
   of a message of the connection, or from the application; the id or pattern the handlers are looked up
   by is always that of the message itself; and a message goes nowhere only if its pattern is not a
   string or two types that do not lead anywhere were found for it.
   Example: C130_dropped_case. *)
Theorem C130_sources : forall hc m gs sched, all_messages hc gs ->
  forall i o, In (i, o) (fs_log (frun sched (fstart hc m gs))) ->
  match o with
  | ORouter _ t => type_source hc m gs t
  | OURL _ (Ok u) => pattern_source hc m gs u
  | OURL s (Err _) => forall id hd, is_message hc s id hd -> asked_pattern hd = None
  | OURL _ Panic => False
  | OPanic _ => False
  | ORouted s r => forall id hd, is_message hc s id hd ->
      match r with
      | ById id' => id' = id /\ type_source hc m gs "MESSAGE_ID"
      | ByURL u => asked_pattern hd = Some u /\ type_source hc m gs "URL_PATTERN"
      | ByNothing => (asked_pattern hd = None /\ type_source hc m gs "URL_PATTERN") \/
          exists t1 t2, type_source hc m gs t1 /\ type_source hc m gs t2 /\ t1 <> "MESSAGE_ID"%string /\ t2 <> "URL_PATTERN"%string
      end
  end.
Proof. exact p_C130_sources. Qed.
Print Assumptions C130_sources.

(* C130 is false as soon as two types are in use: the first two messages of a connection, one asking for
   URL_PATTERN and one for MESSAGE_ID, both of which every server knows; yet the first is dropped as of
   unexpected type, because its calls of RouterType differ.
   Example: C130_dropped_case. *)
Theorem C130_two_types_refuted : forall hc a b ida hda idb hdb,
  is_message hc (fm_stream a) ida hda -> asked_type hda = "URL_PATTERN"%string ->
  is_message hc (fm_stream b) idb hdb -> asked_type hdb = "MESSAGE_ID"%string ->
  exists sched, fs_log (frun sched (fstart hc [] [GMessages [a]; GMessages [b]])) =
    [(0%nat, ORouted (fm_stream a) ByNothing); (0%nat, ORouter (fm_stream a) "MESSAGE_ID"); (0%nat, ORouter (fm_stream a) "MESSAGE_ID");
     (0%nat, ORouter (fm_stream a) "URL_PATTERN")].
Proof. exact p_C130_two_types_refuted. Qed.
Print Assumptions C130_two_types_refuted.

(* a message that asks for a pattern and one that asks for an id; every goroutine runs to its end *)
Example C130_dropped_case :
  let gs := [GMessages [FMsg (of_bytes url_block) (fun _ => HEnd)]; GMessages [FMsg (of_bytes id_block) (fun _ => HEnd)]] in
  all_messages json_hdr gs /\
  let st := frun [0; 1; 0; 0; 1; 0; 0; 0; 0; 0; 1; 1]%nat (fstart json_hdr [] gs) in
  In (0%nat, ORouted (of_bytes url_block) ByNothing) (fs_log st) /\ In (1%nat, ORouted (of_bytes id_block) (ById 5)) (fs_log st) /\
  fs_gors st = [PStop; PStop].
Proof.
  destruct C130_messages as (Mx & _ & Mi). cbv zeta. split.
  - intros s (g & Hg & Hs). cbn in Hg. destruct Hg as [<-|[<-|[]]]; destruct Hs as (m & [<-|[]] & <-); eauto.
  - vm_compute. repeat split; repeat (first [left; reflexivity|right]).
Qed.

(* C130 if nothing overlaps: the first message of the connection decides for all of them.
   Example: C130_settled_case. *)
Theorem C130_first_decides_partial : forall hc m l gs id hd, is_message hc (fm_stream m) id hd ->
  all_messages hc (GMessages (m :: l) :: gs) -> app_leaves (GMessages (m :: l) :: gs) (KStr "router_type") ->
  forall o, In o (in_turn hc (GMessages (m :: l) :: gs) []) ->
  match o with
  | ORouter _ t' => t' = asked_type hd
  | ORouted s r => forall id' hd', is_message hc s id' hd' -> r = routing_by (asked_type hd) hd' id'
  | OURL _ _ => True
  | OPanic _ => False
  end.
Proof. exact p_C130_first_decides_partial. Qed.
Print Assumptions C130_first_decides_partial.

(* Running alone is one of the schedules. *)
Theorem C130_alone_scheduled : forall i p st, nth_error (fs_gors st) i = Some p -> exists n,
  frun (repeat i n) st = FS (snd (alone p (fs_map st))) (upd (fs_gors st) i PStop) (rev (map (fun o => (i, o)) (fst (alone p (fs_map st)))) ++ fs_log st).
Proof. exact p_C130_alone_scheduled. Qed.
Print Assumptions C130_alone_scheduled.

(* Running alone is what CtxModel has as one step: the same routing, and the same map afterwards. *)
Theorem C130_alone_route : forall hc c w,
  let '(l, m) := alone (handleMiddlewareP hc (FMsg (c_stream c) (fun _ => HEnd)) PStop) (hp (w_heap w) (c_pr c)) in
  m = hp (w_heap (snd (route hc c w))) (c_pr c) /\
  match fst (route hc c w) with
  | Ok r => exists l', l = l' ++ [ORouted (c_stream c) r]
  | _ => exists l', l = l' ++ [OPanic (c_stream c)]
  end.
Proof. exact p_C130_alone_route. Qed.
Print Assumptions C130_alone_route.
