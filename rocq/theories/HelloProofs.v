(* C118: the say-hello server *)
From Verif Require Export WatchProofs.
From Verif Require Export SpecHello ServerProofs Demo.

Lemma hello_plan r : plan_of r hello_server =
  match r with
  | ById id =>
      if id =? 1 then RunChain [User 100; User 101; User 102; User 1]
      else if id =? 3 then RunChain [User 100; User 101; User 3]
      else if id =? 5 then RunChain [User 100; User 101; User 103; User 5]
      else if id =? 11 then RunChain [User 100; User 101; User 11]
      else if id =? 20 then Direct (User 20)
      else Unrouted
  | _ => Unrouted
  end.
Proof.
  destruct r as [id|u|]; [|reflexivity|reflexivity].
  let v := eval vm_compute in hello_server in change hello_server with v.
  unfold plan_of. cbn -[Z.eqb]. unfold plan_id. cbn -[Z.eqb].
  destruct (Z.eqb_spec id 1) as [->|]; [reflexivity|]. destruct (Z.eqb_spec id 3) as [->|]; [reflexivity|].
  destruct (Z.eqb_spec id 5) as [->|]; [reflexivity|]. destruct (Z.eqb_spec id 11) as [->|]; [reflexivity|].
  destruct (Z.eqb_spec id 20) as [->|]; reflexivity.
Qed.

Lemma hello_eq {V} (E : env V) zero zero_pb c w : hello_handles E zero zero_pb c w =
  match fst (route (e_hdr E) c w) with
  | Ok rt => run_plan (hello_behave E zero zero_pb c) (-1) (plan_of rt hello_server)
  | _ => Some ([], Panicked)
  end.
Proof. unfold hello_handles, handleMiddleware. replace (m_onmsg hello_server) with (@None hdl) by (vm_compute; reflexivity). reflexivity. Qed.

Lemma hello_run1 {V} (E : env V) z zp c : run_plan (hello_behave E z zp c) (-1) (RunChain [User 100; User 101; User 102; User 1]) =
  Some match Bind E (JsonMarshaller E) c (Some z) with
  | Ok _ => ([EEnter 0; EEff 100; EEnter 1; EEff 101; EEnter 2; EEff 102; EEnter 3; EEff 1; EEff 1002], Returned)
  | _ => ([EEnter 0; EEff 100; EEnter 1; EEff 101; EEnter 2; EEff 102; EEnter 3], Panicked)
  end.
Proof. unfold hello_behave, say. destruct (Bind E (JsonMarshaller E) c (Some z)); reflexivity. Qed.
Lemma hello_run3 {V} (E : env V) z zp c : run_plan (hello_behave E z zp c) (-1) (RunChain [User 100; User 101; User 3]) =
  Some match Bind E (JsonMarshaller E) c (Some z) with
  | Ok _ => ([EEnter 0; EEff 100; EEnter 1; EEff 101; EEnter 2; EEff 3; EEff 1004], Returned)
  | _ => ([EEnter 0; EEff 100; EEnter 1; EEff 101; EEnter 2], Panicked)
  end.
Proof. unfold hello_behave, say. destruct (Bind E (JsonMarshaller E) c (Some z)); reflexivity. Qed.
Lemma hello_run5 {V} (E : env V) z zp c : run_plan (hello_behave E z zp c) (-1) (RunChain [User 100; User 101; User 103; User 5]) =
  Some match Bind E (JsonMarshaller E) c (Some z) with
  | Ok _ => ([EEnter 0; EEff 100; EEnter 1; EEff 101; EEnter 2; EEff 103; EEnter 3; EEff 5; EEff 1006], Returned)
  | _ => ([EEnter 0; EEff 100; EEnter 1; EEff 101; EEnter 2; EEff 103; EEnter 3], Panicked)
  end.
Proof. unfold hello_behave, say. destruct (Bind E (JsonMarshaller E) c (Some z)); reflexivity. Qed.
Lemma hello_run11 {V} (E : env V) z zp c : run_plan (hello_behave E z zp c) (-1) (RunChain [User 100; User 101; User 11]) =
  Some match BindWithMarshaller E c (Some zp) (Some (ProtobufMarshaller E)) with
  | Ok _ => ([EEnter 0; EEff 100; EEnter 1; EEff 101; EEnter 2; EEff 11; EEff 1012], Returned)
  | Err _ => ([EEnter 0; EEff 100; EEnter 1; EEff 101; EEnter 2; EEff 0], Returned)
  | Panic => ([EEnter 0; EEff 100; EEnter 1; EEff 101; EEnter 2], Panicked)
  end.
Proof. unfold hello_behave, say_proto. destruct (BindWithMarshaller E c (Some zp) (Some (ProtobufMarshaller E))); reflexivity. Qed.

Lemma p_C118_answers_partial : forall V (E : env V) zero zero_pb c w rt tr st,
  fst (route (e_hdr E) c w) = Ok rt -> hello_handles E zero zero_pb c w = Some (tr, st) ->
  (forall id before reply, rt = ById id -> In (id, before, reply) hello_table ->
     (forall m, (if id =? 11 then BindWithMarshaller E c (Some zero_pb) (Some (ProtobufMarshaller E)) else Bind E (JsonMarshaller E) c (Some zero)) = Ok m ->
        seen tr = before ++ [id; eReply reply] /\ st = Returned) /\
     (exists more, seen tr = before ++ more)) /\
  (rt = ById 20 -> seen tr = [20] /\ st = Returned) /\
  ((forall id, rt = ById id -> ~ In id [1; 3; 5; 11; 20]) -> tr = [] /\ st = Returned).
Proof.
  intros V E z zp c w rt tr st Hr Hh. rewrite hello_eq, Hr, hello_plan in Hh. split; [|split].
  - intros id before reply -> Hin. cbn [hello_table In] in Hin.
    destruct Hin as [H|[H|[H|[H|[]]]]]; injection H as <- <- <-; cbn [Z.eqb Pos.eqb] in Hh |- *.
    + rewrite hello_run1 in Hh. injection Hh as Hh. destruct (Bind E (JsonMarshaller E) c (Some z)); injection Hh as <- <-;
        (split; [intros m Hm; try discriminate Hm; split; reflexivity|eexists; cbn; reflexivity]).
    + rewrite hello_run3 in Hh. injection Hh as Hh. destruct (Bind E (JsonMarshaller E) c (Some z)); injection Hh as <- <-;
        (split; [intros m Hm; try discriminate Hm; split; reflexivity|eexists; cbn; reflexivity]).
    + rewrite hello_run5 in Hh. injection Hh as Hh. destruct (Bind E (JsonMarshaller E) c (Some z)); injection Hh as <- <-;
        (split; [intros m Hm; try discriminate Hm; split; reflexivity|eexists; cbn; reflexivity]).
    + rewrite hello_run11 in Hh. injection Hh as Hh. destruct (BindWithMarshaller E c (Some zp) (Some (ProtobufMarshaller E))); injection Hh as <- <-;
        (split; [intros m Hm; try discriminate Hm; split; reflexivity|eexists; cbn; reflexivity]).
  - intros ->. cbn [Z.eqb Pos.eqb] in Hh. vm_compute in Hh. injection Hh as <- <-. split; reflexivity.
  - intros Hn. destruct rt as [id|u|].
    + specialize (Hn id eq_refl). cbn [In] in Hn.
      destruct (Z.eqb_spec id 1); [exfalso; apply Hn; auto|]. destruct (Z.eqb_spec id 3); [exfalso; apply Hn; auto|].
      destruct (Z.eqb_spec id 5); [exfalso; apply Hn; auto|]. destruct (Z.eqb_spec id 11); [exfalso; apply Hn; auto|].
      destruct (Z.eqb_spec id 20); [exfalso; apply Hn; auto 6|]. injection Hh as <- <-. split; reflexivity.
    + injection Hh as <- <-. split; reflexivity.
    + injection Hh as <- <-. split; reflexivity.
Qed.

Lemma p_C118_malformed_refuted : forall V (E : env V) zero zero_pb c w id e,
  In id [1; 3; 5] -> fst (route (e_hdr E) c w) = Ok (ById id) -> Bind E (JsonMarshaller E) c (Some zero) = Err e ->
  exists tr, hello_handles E zero zero_pb c w = Some (tr, Panicked).
Proof.
  intros V E z zp c w id e Hin Hr Hb. rewrite hello_eq, Hr, hello_plan.
  destruct Hin as [<-|[<-|[<-|[]]]]; cbn [Z.eqb Pos.eqb].
  - rewrite hello_run1, Hb. eexists; reflexivity.
  - rewrite hello_run3, Hb. eexists; reflexivity.
  - rewrite hello_run5, Hb. eexists; reflexivity.
Qed.

Lemma p_C118_kcp_refuted : forall ok left,
  hello_listens "kcp" ok left = true /\ hello_listens "tcp" ok left = negb ok /\ hello_listens "udp" ok left = negb ok.
Proof. intros [|] [left|]; repeat split; reflexivity. Qed.

Lemma no_beats tr : beats_of tr = 0%nat -> last_beat tr = 0.
Proof.
  induction tr as [|l tr IH]; [reflexivity|]. unfold beats_of in *. cbn [filter]. destruct l; cbn [List.length last_beat]; intros H; try (apply IH; exact H). discriminate.
Qed.

Lemma p_C118_heartbeat_refuted : forall D messages tr s, 0 <= D -> wruns hello_interval D tr s ->
  (beats_of tr <= list_sum (map (fun rt => beats_in (plan_of rt hello_server)) messages))%nat ->
  m_hb_on hello_server = true /\ (ws_loss s <> None \/ In LQuit tr \/ time_of tr <= 15 * 1000000000 + 4 * D).
Proof.
  intros D messages tr s HD Hr Hb. split; [vm_compute; reflexivity|].
  assert (Z0 : list_sum (map (fun rt => beats_in (plan_of rt hello_server)) messages) = 0%nat).
  { clear Hb. induction messages as [|rt messages IH]; [reflexivity|]. cbn [map list_sum fold_right]. unfold list_sum in IH. rewrite IH.
    rewrite hello_plan. destruct rt as [id|u|]; [|reflexivity|reflexivity].
    destruct (id =? 1); [reflexivity|]. destruct (id =? 3); [reflexivity|]. destruct (id =? 5); [reflexivity|].
    destruct (id =? 11); [reflexivity|]. destruct (id =? 20); reflexivity. }
  rewrite Z0 in Hb. assert (L0 : last_beat tr = 0) by (apply no_beats; lia).
  destruct (ws_loss s) as [t|] eqn:EL; [left; discriminate|right].
  assert (QD : In LQuit tr \/ ~ In LQuit tr).
  { clear. induction tr as [|l tr [H|H]]; [right; intros []|left; right; exact H|].
    destruct l; try (right; intros [X|X]; [discriminate|exact (H X)]). left; left; reflexivity. }
  destruct QD as [HQ|HQ]; [left; exact HQ|right].
  pose proof (p_C45_noticed hello_interval D tr s) as HN. assert (HI : hello_interval = 5000000000) by reflexivity. rewrite L0 in HN.
  specialize (HN ltac:(unfold hello_interval; lia) HD Hr HQ EL). lia.
Qed.
