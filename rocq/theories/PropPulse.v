(* Property theorems: C125: the heartbeat example..
   Each is closed by the lemma of the same name in PulseProofs.v. *)
From Verif Require Export PulseProofs.
From Verif Require Import Demo.

(* C125: the heartbeat is 20 bytes whatever the environment; however many are sent and however they
   are cut up, each is handed on; and on a connection that carries nothing but messages routed by id, the
   server plans to run the library's own handler for it, and no middleware. *)
Theorem C125_beats : forall {V} (E : env V), e_hdr E = json_hdr ->
  exists b, pulse_packs E = Ok b /\ blen b = 20 /\
    (forall n en r, segmentation (concat (repeat b n)) en r -> serve_reads json_hdr 0 r = (repeat (SDispatch b) n, at_end en)) /\
    (forall h x c cx, nth_error (w_ctxs (crun json_hdr h)) x = Some cx -> nth_error (born h) x = Some (Req c) -> was_reset h x = false ->
      (forall s, read_on h c s -> exists id hd, is_message json_hdr s id hd /\ asked_type hd = "MESSAGE_ID"%string) ->
      leaves_alone h c (KStr "router_type") -> gwf (stream_of h x) -> gbytes (stream_of h x) = b ->
      exists rt, fst (route json_hdr cx (crun json_hdr h)) = Ok rt /\ plan_of rt pulse_server = Direct Beat).
Proof. exact @p_C125_beats. Qed.
Print Assumptions C125_beats.

(* C125: while the client runs, and if its sleep, its lateness and the heartbeat's way together take
   less than three of the server's intervals, the connection is never reported lost.
   Example: C125_case. *)
Theorem C125_kept_partial : forall P I J L D tr s, 0 < I -> 0 <= D -> 0 <= P -> 0 <= J -> 0 <= L -> P + J + L < 3 * I ->
  pulses P I J L D tr s -> ~ In HKill tr -> ws_loss (pl_watch s) = None.
Proof. exact p_C125_kept_partial. Qed.
Print Assumptions C125_kept_partial.

(* C125: a client that is gone is noticed: unless the watcher left for another reason, the loss is
   reported at most three intervals (and the watcher's own delays) after the time the last heartbeat
   took at most; and not before three intervals after it was written, unless one is still on its way.
   Example: C125_case. *)
Theorem C125_noticed : forall P I J L D tr s, 0 < I -> 0 <= D -> 0 <= P -> 0 <= J -> 0 <= L -> pulses P I J L D tr s ->
  (~ In (HWatch LQuit) tr -> ws_loss (pl_watch s) = None -> clock tr <= written tr + L + 3 * I + 4 * D) /\
  (forall s', ptrans P I J L D (HWatch LExpire) s s' -> ws_loss (pl_watch s') <> ws_loss (pl_watch s) ->
    ws_loss (pl_watch s') = Some (clock tr) /\ (pl_air s = [] -> written tr + 3 * I <= clock tr) /\ clock tr <= written tr + L + 3 * I + 4 * D).
Proof. exact p_C125_noticed. Qed.
Print Assumptions C125_noticed.

(* C125: the bound is exact: when these times may add up to three intervals, a client that never
   misses a heartbeat can be disconnected all the same.
   Example: C125_case. *)
Theorem C125_late_refuted : forall P I J L D, 0 < I -> 0 < P -> 0 <= J -> 0 <= L -> 3 * I <= P + J + L ->
  exists tr s, pulses P I J L D tr s /\ ~ In HKill tr /\ ws_loss (pl_watch s) = Some (3 * I).
Proof. exact p_C125_late_refuted. Qed.
Print Assumptions C125_late_refuted.

(* the example's 10 s, a heartbeat 3 s on its way, written at 10 s and taken at 13 s, after the timer of
   the first select has fired once; then the client ends and is reported lost at 43 s *)
Example C125_case : exists tr s, pulses 10 10 1 5 0 tr s /\ ~ In HKill tr /\ ws_loss (pl_watch s) = None /\ clock tr = 13 /\
  exists tr' s', pulses 10 10 1 5 0 (tr' ++ HKill :: tr) s' /\ ~ In (HWatch LQuit) (tr' ++ HKill :: tr) /\ ws_loss (pl_watch s') = Some 43.
Proof.
  exists [HWatch LEnter; HArrive 10; HTick 3; HWatch LEnter; HWatch LExpire; HWrite; HTick 10; HWatch LEnter; HWatch LEnter; HArrive 0; HWrite]. eexists.
  match goal with |- pulses _ _ _ _ _ ?t ?st /\ _ => assert (R : pulses 10 10 1 5 0 t st) end.
  { econstructor; [econstructor; [econstructor; [econstructor; [econstructor; [econstructor; [econstructor; [econstructor; [econstructor; [econstructor; [econstructor; [constructor|]|]|]|]|]|]|]|]|]|]|].
    - apply (p_write 10 10 1 5 0 wst0 0 1 []). cbn. lia.
    - eapply (p_arrive 10 10 1 5 0 wst0 _ _ [] 0 []). constructor.
    - apply p_watch; [auto|]. constructor.
    - apply p_watch; [auto|]. apply t_enter.
    - apply p_tick; [apply t_tick_wait; lia|intros lo hi X; injection X as <- <-; cbn; lia|constructor].
    - apply (p_write 10 10 1 5 0 (WS (0 + 10) (PWait (0 + 10)) 0 false None) 10 11 []). cbn. lia.
    - apply p_watch; [auto|]. apply (t_expire 10 0 10). lia.
    - apply p_watch; [auto|]. apply t_enter.
    - apply p_tick; [apply t_tick_wait; lia|intros lo hi X; injection X as <- <-; cbn; lia|repeat constructor; cbn; lia].
    - eapply (p_arrive 10 10 1 5 0 _ _ _ [] 10 []). constructor.
    - apply p_watch; [auto|]. apply t_enter. }
  split; [exact R|]. split; [cbn; intuition discriminate|]. split; [reflexivity|]. split; [reflexivity|].
  exists [HWatch LExpire; HTick 10; HWatch LEnter; HWatch LExpire; HTick 10; HWatch LEnter; HWatch LExpire; HTick 10]. eexists. split; [|split; [cbn; intuition discriminate|]].
  - cbn [app]. econstructor; [econstructor; [econstructor; [econstructor; [econstructor; [econstructor; [econstructor; [econstructor; [econstructor; [exact R|]|]|]|]|]|]|]|]|].
    + apply p_kill.
    + apply p_tick; [apply t_tick_wait; lia|discriminate|constructor].
    + apply p_watch; [auto|]. apply (t_expire 10 0 23). lia.
    + apply p_watch; [auto|]. apply t_enter.
    + apply p_tick; [apply t_tick_wait; lia|discriminate|constructor].
    + apply p_watch; [auto|]. apply (t_expire 10 0 33). lia.
    + apply p_watch; [auto|]. apply t_enter.
    + apply p_tick; [apply t_tick_wait; lia|discriminate|constructor].
    + apply p_watch; [auto|]. apply (t_loss 10 0 43). lia.
  - reflexivity.
Qed.
