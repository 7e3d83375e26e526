(* Property theorems: C128: the tls example..
   Each is closed by the lemma of the same name in TlsProofs.v. *)
From Verif Require Export TlsProofs.
From Verif Require Import Demo.

(* C128, listening: the example's server never listens in clear; it listens, encrypted, exactly when its
   two files load and the port is free, and otherwise it panics. *)
Theorem C128_never_clear : forall loads ok left,
  snd (tls_main loads ok left) <> Some InClear /\
  (snd (tls_main loads ok left) = Some Encrypted <-> loads = true /\ ok = true) /\
  (fst (tls_main loads ok left) = PanicsOut <-> loads = false \/ ok = false).
Proof. exact p_C128_never_clear. Qed.
Print Assumptions C128_never_clear.

(* C128, a client's run: every client writes the same bytes; from however many clients and in whatever
   pieces they come, the server hands on one message from each and closes the connection.
   Example: C128_case. *)
Theorem C128_one_message_each : forall {V} (E : env V), e_hdr E = json_hdr ->
  exists b, tls_client E = Ok b /\
  forall rs, Forall (fun r => exists e, segmentation b (Fails e) r) rs ->
    accept_loop json_hdr 0 Unset Unset rs = (repeat [SDispatch b; SCloseConn] (List.length rs), true).
Proof. exact @p_C128_one_message_each. Qed.
Print Assumptions C128_one_message_each.

(* C128, the handling: whatever else the server does meanwhile, the message of a client's connection runs
   the example's handler once, and nothing else.
   Example: C128_case. *)
Theorem C128_one_login : forall {V} (E : env V) b h x c cx, e_hdr E = json_hdr -> tls_client E = Ok b ->
  nth_error (w_ctxs (crun json_hdr h)) x = Some cx -> nth_error (born h) x = Some (Req c) -> was_reset h x = false ->
  (forall s, read_on h c s -> gwf s /\ gbytes s = b) -> leaves_alone h c (KStr "router_type") ->
  handleMiddleware json_hdr tls_server tls_behave (-1) cx (crun json_hdr h) = Some ([EEnter 0; EEff 1], Returned).
Proof. exact @p_C128_one_login. Qed.
Print Assumptions C128_one_login.

(* two clients; the goroutine of the second's message runs first *)
Example C128_case : exists b, tls_client demo_env = Ok b /\ e_hdr demo_env = json_hdr /\
  (exists r, segmentation b (Fails EEOF) r /\ (1 < List.length r)%nat) /\
  let h := [CRouter 3; CRead 1 (of_bytes b); CRead 0 (of_bytes b); CAccept; CAccept] in
  exists cx, nth_error (w_ctxs (crun json_hdr h)) 2 = Some cx /\ nth_error (born h) 2 = Some (Req 0) /\ was_reset h 2 = false /\
    (forall s, read_on h 0 s -> gwf s /\ gbytes s = b) /\ leaves_alone h 0 (KStr "router_type").
Proof.
  eexists. split; [vm_compute; reflexivity|]. split; [reflexivity|]. split.
  - match goal with |- exists r, segmentation ?b _ r /\ _ => exists [RData (firstn 7 b); RData (skipn 7 b); RFail EEOF] end.
    split; [|cbn; lia]. split; [repeat constructor|split; vm_compute; reflexivity].
  - cbv zeta. eexists. split; [vm_compute; reflexivity|]. split; [reflexivity|]. split; [reflexivity|]. split.
    + intros s (l & p & y & H & _). assert (I : In (CRead y s) (l ++ CRead y s :: p)) by (apply in_or_app; right; left; reflexivity). rewrite <- H in I.
      destruct I as [X|[X|[X|[X|[X|[]]]]]]; try discriminate X; injection X as _ <-; (split; [apply gwf_of_bytes|reflexivity]).
    + intros o y I _ _. repeat (destruct I as [<-|I]; [reflexivity|]). destruct I.
Qed.
