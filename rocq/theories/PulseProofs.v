(* C125: the heartbeat example. *)
From Verif Require Export SpecPulse WatchProofs EndProofs JsonFacts.
From Verif Require Import Demo.

Lemma pulse_plan : plan_of (ById 1392) pulse_server = Direct Beat.
Proof. vm_compute. reflexivity. Qed.

Lemma p_C125_beats : forall {V} (E : env V), e_hdr E = json_hdr ->
  exists b, pulse_packs E = Ok b /\ blen b = 20 /\
    (forall n en r, segmentation (concat (repeat b n)) en r -> serve_reads json_hdr 0 r = (repeat (SDispatch b) n, at_end en)) /\
    (forall h x c cx, nth_error (w_ctxs (crun json_hdr h)) x = Some cx -> nth_error (born h) x = Some (Req c) -> was_reset h x = false ->
      (forall s, read_on h c s -> exists id hd, is_message json_hdr s id hd /\ asked_type hd = "MESSAGE_ID"%string) ->
      leaves_alone h c (KStr "router_type") -> gwf (stream_of h x) -> gbytes (stream_of h x) = b ->
      exists rt, fst (route json_hdr cx (crun json_hdr h)) = Ok rt /\ plan_of rt pulse_server = Direct Beat).
Proof.
  intros V E He. set (b := assemble 1392 (str_bytes "null") []). assert (P : pulse_packs E = Ok b) by (unfold pulse_packs, PackWithMarshaller; rewrite He; reflexivity).
  exists b. split; [exact P|]. split; [reflexivity|].
  assert (S : SpecEnd.sent E 0 (Msg 1392 None None, None) b).
  { split; [exact P|]. split; [vm_compute; reflexivity|]. split; [intros X; lia|]. split; [split; vm_compute; congruence|]. split; [rewrite He; apply json_hdr_roundtrips; reflexivity|reflexivity]. }
  split.
  - intros n en r Hs. assert (F : Forall2 (SpecEnd.sent E 0) (repeat (Msg 1392 None None, None) n) (repeat b n)) by (clear - S; induction n; constructor; auto).
    destruct (p_C69_delivered_as_sent E 0 _ _ en r F Hs) as (R & _). rewrite He in R. rewrite R. f_equal. clear. induction n; cbn [repeat map]; congruence.
  - intros h x c cx Hx Hb Hr Hu Hl Hw Hg. destruct (sent_is_message E 0 _ b (stream_of h x) S Hw Hg) as (hd & M & Q). rewrite He in M. cbn [fst msg_id msg_header] in *.
    pose proof (p_C70_routed_by_own_header json_hdr h x c cx _ _ _ Hx Hb Hr Hu Hl M) as R. eexists. split; [exact R|]. destruct hd; [contradiction|]. apply pulse_plan.
Qed.

(* the watcher's part of the steps *)
Definition wpart (l : plab) : list wlab :=
  match l with HTick d => [LTick d] | HArrive _ => [LBeat] | HWatch l => [l] | _ => [] end.
Section P.
  Context (P I J L D : Z) (HI : 0 < I) (HD : 0 <= D) (HP : 0 <= P) (HJ : 0 <= J) (HL : 0 <= L).
  Lemma pulses_watch tr s : pulses P I J L D tr s ->
    exists wtr, wruns I D wtr (pl_watch s) /\ time_of wtr = clock tr /\ last_beat wtr = arrived tr /\ (In LQuit wtr -> In (HWatch LQuit) tr).
  Proof using.
    induction 1 as [|l tr s s' _ (wtr & R & T & B & Q) Tr]; [exists []; repeat split; [constructor|auto]|].
    destruct Tr; cbn [pl_watch clock arrived] in *.
    - exists (LTick d :: wtr). split; [econstructor; eauto|]. cbn [time_of last_beat]. split; [lia|]. split; [exact B|]. intros [X|X]; [discriminate|right; auto].
    - exists wtr. split; [exact R|]. split; [auto|]. split; [auto|]. intros X; right; auto.
    - exists (LBeat :: wtr). split; [econstructor; eauto|]. cbn [time_of last_beat]. split; [auto|]. split; [auto|]. intros [X|X]; [discriminate|right; auto].
    - exists (l :: wtr). split; [econstructor; eauto|]. assert (K : time_of (l :: wtr) = time_of wtr /\ last_beat (l :: wtr) = last_beat wtr) by (destruct H as [-> |[-> | ->]]; auto).
      destruct K as (-> & ->). split; [auto|]. split; [auto|]. intros [-> |X]; [left; auto|right; auto].
    - exists wtr. split; [exact R|]. split; [auto|]. split; [auto|]. intros X; right; auto.
  Qed.
  Lemma clock_now tr s : pulses P I J L D tr s -> ws_now (pl_watch s) = clock tr /\ arrived tr <= clock tr.
  Proof using HI HD. intros R. destruct (pulses_watch tr s R) as (wtr & W & T & B & _). destruct (timed_inv I D wtr _ HI HD W) as (E & LB & _). rewrite <- T, <- B. auto. Qed.
  Lemma wtrans_done l w w' : wtrans I D l w w' -> ws_phase w = WatchModel.PDone -> ws_phase w' = WatchModel.PDone.
  Proof using. destruct 1; cbn [ws_phase]; intros; auto; discriminate. Qed.
  Lemma air_inv tr s : pulses P I J L D tr s ->
    Forall (fun t => t <= clock tr) (pl_air s) /\ (ws_phase (pl_watch s) <> WatchModel.PDone -> Forall (fun t => clock tr <= t + L) (pl_air s)) /\
    written tr <= clock tr /\ 0 <= clock tr /\ (forall lo hi, pl_client s = Some (lo, hi) -> clock tr <= hi <= clock tr + P + J) /\
    (pl_air s = [] -> written tr <= arrived tr).
  Proof using HI HD HP HJ HL.
    intros R. induction R as [|l tr s s' R (A & B & C & Z0 & F & G) T]; [cbn; repeat split; try lia; try constructor; intros; inversion H; subst; lia|].
    destruct (clock_now tr s R) as (N & LB). destruct T; cbn [pl_air pl_watch pl_client clock written arrived] in *.
    - assert (0 <= d) by (inversion H; subst; auto). split; [eapply Forall_impl; [|exact A]; cbn; intros; lia|]. split.
      + intros X. rewrite <- N. apply H1. intros Y. apply X. eapply wtrans_done; eauto.
      + split; [lia|]. split; [lia|]. split; [|exact G]. intros lo hi X. specialize (F lo hi X). specialize (H0 lo hi X). lia.
    - rewrite N in *. split; [apply Forall_app; split; [exact A|repeat constructor; lia]|]. split; [intros X; apply Forall_app; split; [auto|repeat constructor; lia]|].
      split; [lia|]. split; [lia|]. split; [|intros X; destruct air; discriminate]. intros lo' hi' X. injection X as <- <-. lia.
    - apply Forall_app in A as (A1 & A2). inversion A2; subst. split; [apply Forall_app; auto|]. split.
      + intros X. assert (Y : ws_phase w <> WatchModel.PDone) by (intros Y; apply X; eapply wtrans_done; eauto). specialize (B Y). apply Forall_app in B as (B1 & B2). inversion B2; subst. apply Forall_app; auto.
      + split; [auto|]. split; [auto|]. split; [auto|]. intros _. lia.
    - split; [auto|]. split; [intros X; apply B; intros Y; apply X; eapply wtrans_done; eauto|]. auto.
    - split; [auto|]. split; [auto|]. split; [auto|]. split; [auto|]. split; [discriminate|auto].
  Qed.
  Lemma due_inv tr s : pulses P I J L D tr s -> ~ In HKill tr ->
    (exists lo hi, pl_client s = Some (lo, hi) /\ (pl_air s = [] -> hi <= arrived tr + P + J)) /\
    (pl_air s <> [] -> Exists (fun t => t <= arrived tr + P + J) (pl_air s)).
  Proof using HI HD HP HJ HL.
    intros R. induction R as [|l tr s s' R IH T]; intros K; [cbn; split; [exists 0, J; split; [auto|lia]|congruence]|].
    destruct IH as ((lo & hi & Hc & G) & X); [intros Y; apply K; right; exact Y|]. destruct (clock_now tr s R) as (N & LB). destruct (air_inv tr s R) as (A & _ & _ & Z0 & F & _).
    destruct T; cbn [pl_air pl_watch pl_client arrived] in *.
    - split; [exists lo, hi; auto|exact X].
    - injection Hc as <- <-. split; [eexists; eexists; split; [reflexivity|destruct air; discriminate]|]. intros _. destruct air as [|t air]; [|apply Exists_app; left; apply X; discriminate].
      specialize (F _ _ eq_refl). specialize (G eq_refl). rewrite N. repeat constructor. lia.
    - split; [exists lo, hi; split; [auto|]; intros _; specialize (F _ _ Hc); lia|]. intros Y. destruct (a ++ b) as [|t' r] eqn:E; [contradiction|]. constructor.
      assert (In t' (a ++ t :: b)). { assert (In t' (a ++ b)) by (rewrite E; left; reflexivity). apply in_app_iff in H0. apply in_app_iff. cbn. tauto. }
      rewrite Forall_forall in A. specialize (A _ H0). lia.
    - split; [exists lo, hi; auto|exact X].
    - exfalso. apply K. left. reflexivity.
  Qed.
End P.

Lemma p_C125_kept_partial : forall P I J L D tr s, 0 < I -> 0 <= D -> 0 <= P -> 0 <= J -> 0 <= L -> P + J + L < 3 * I ->
  pulses P I J L D tr s -> ~ In HKill tr -> ws_loss (pl_watch s) = None.
Proof.
  intros P I J L D tr s HI HD HP HJ HL Lt R. induction R as [|l tr s s' R IH T]; intros K; [reflexivity|]. assert (K' : ~ In HKill tr) by (intros Y; apply K; right; exact Y). specialize (IH K').
  destruct (pulses_watch P I J L D tr s R) as (wtr & W & Tm & B & _). destruct (air_inv P I J L D HI HD HP HJ HL tr s R) as (_ & Dl & _ & _ & F & _).
  destruct (due_inv P I J L D HI HD HP HJ HL tr s R K') as ((lo & hi & Hc & G) & X).
  destruct T; cbn [pl_watch pl_air pl_client] in *; auto.
  - inversion H; subst; auto.
  - inversion H; subst; auto.
  - destruct H as [-> |[-> | ->]]; [|inversion H0; subst; auto|inversion H0; subst; auto].
    destruct (ws_loss w') eqn:Lw; [|reflexivity]. exfalso. assert (Ne : ws_loss w' <> ws_loss w) by congruence.
    destruct (p_C45_loss_time I D wtr w w' HI HD W H0 Ne) as (_ & Y & _). rewrite Tm, B in Y.
    assert (Ph : ws_phase w <> WatchModel.PDone) by (inversion H0; subst; cbn; discriminate). specialize (Dl Ph). destruct air as [|t air].
    + specialize (G eq_refl). specialize (F _ _ Hc). lia.
    + specialize (X ltac:(discriminate)). apply Exists_exists in X as (t' & I' & X). rewrite Forall_forall in Dl. specialize (Dl _ I'). lia.
Qed.

Lemma p_C125_noticed : forall P I J L D tr s, 0 < I -> 0 <= D -> 0 <= P -> 0 <= J -> 0 <= L -> pulses P I J L D tr s ->
  (~ In (HWatch LQuit) tr -> ws_loss (pl_watch s) = None -> clock tr <= written tr + L + 3 * I + 4 * D) /\
  (forall s', ptrans P I J L D (HWatch LExpire) s s' -> ws_loss (pl_watch s') <> ws_loss (pl_watch s) ->
    ws_loss (pl_watch s') = Some (clock tr) /\ (pl_air s = [] -> written tr + 3 * I <= clock tr) /\ clock tr <= written tr + L + 3 * I + 4 * D).
Proof.
  intros P I J L D tr s HI HD HP HJ HL R. destruct (pulses_watch P I J L D tr s R) as (wtr & W & Tm & B & Q). destruct (air_inv P I J L D HI HD HP HJ HL tr s R) as (_ & _ & _ & _ & _ & Em).
  assert (Al : forall tr s, pulses P I J L D tr s -> ws_phase (pl_watch s) <> WatchModel.PDone -> 0 <= written tr /\ arrived tr <= written tr + L /\ Forall (fun t => t <= written tr) (pl_air s)).
  { clear - HI HD HP HJ HL. intros tr s R. induction R as [|l tr s s' R IH T]; intros Ph; [cbn; repeat split; try lia; constructor|].
    destruct (clock_now P I J L D HI HD tr s R) as (N & _). destruct (air_inv P I J L D HI HD HP HJ HL tr s R) as (_ & Dl & Wr & Z0 & _).
    destruct T; cbn [pl_watch pl_air written arrived] in *.
    - apply IH. intros Y. apply Ph. eapply wtrans_done; eauto.
    - specialize (IH Ph) as (A & C & F). rewrite N. split; [lia|]. split; [lia|]. apply Forall_app. split; [eapply Forall_impl; [|exact F]; cbn; intros; lia|repeat constructor; lia].
    - assert (Y : ws_phase w <> WatchModel.PDone) by (intros Y; apply Ph; eapply wtrans_done; eauto). specialize (IH Y) as (A & C & F). specialize (Dl Y).
      apply Forall_app in F as (F1 & F2). inversion F2; subst. apply Forall_app in Dl as (_ & D2). inversion D2; subst. split; [lia|]. split; [lia|]. apply Forall_app; auto.
    - apply IH. intros Y. apply Ph. eapply wtrans_done; eauto.
    - auto. }
  split.
  - intros NQ Ls. assert (Ph : ws_phase (pl_watch s) <> WatchModel.PDone).
    { assert (X : forall wtr w, wruns I D wtr w -> ~ In LQuit wtr -> ws_loss w = None -> ws_phase w <> WatchModel.PDone).
      { clear. intros wtr w R. induction R as [|l tr w w' R IH T]; intros NQ Ls; [discriminate|]. assert (NQ' : ~ In LQuit tr) by (intros X; apply NQ; right; exact X).
        destruct T; cbn [ws_loss ws_phase] in *; try discriminate; auto. exfalso. apply NQ. left. reflexivity. }
      apply (X wtr); auto. }
    destruct (Al tr s R Ph) as (_ & C & _). assert (NQ' : ~ In LQuit wtr) by auto. pose proof (p_C45_noticed I D wtr _ HI HD W NQ' Ls). lia.
  - intros s' T Ne. inversion T as [| | |? w w' cl air _ H2 |]; subst. cbn [pl_watch pl_air] in *. destruct (p_C45_loss_time I D wtr w w' HI HD W H2 Ne) as (A & C). rewrite Tm, B in *.
    assert (Ph : ws_phase w <> WatchModel.PDone) by (inversion H2; subst; cbn; discriminate). destruct (Al tr _ R Ph) as (_ & F & _). split; [auto|]. split; [intros E; specialize (Em E); lia|lia].
Qed.

Section Tight.
  Context (P I J L D T3 : Z) (HP : 0 < P) (HJ : 0 <= J) (HL : 0 <= L).
  Lemma pass k : forall tr now n dl lo hi air, pulses P I J L D tr (Pulse (WS now (PWait dl) n false None) (Some (lo, hi)) air) -> ~ In HKill tr ->
    now <= hi -> now <= dl -> dl <= T3 -> lo <= hi -> T3 - L <= hi -> Forall (fun t => T3 - L <= t) air -> dl - hi <= Z.of_nat k * P ->
    exists tr' lo' hi' air', pulses P I J L D tr' (Pulse (WS dl (PWait dl) n false None) (Some (lo', hi')) air') /\ ~ In HKill tr' /\
      dl <= hi' /\ lo' <= hi' /\ T3 - L <= hi' /\ Forall (fun t => T3 - L <= t) air'.
  Proof using HP HJ HL.
    assert (Adv : forall tr now n dl lo hi air e, pulses P I J L D tr (Pulse (WS now (PWait dl) n false None) (Some (lo, hi)) air) ->
      now <= e -> e <= hi -> e <= dl -> dl <= T3 -> Forall (fun t => T3 - L <= t) air -> pulses P I J L D (HTick (e - now) :: tr) (Pulse (WS e (PWait dl) n false None) (Some (lo, hi)) air)).
    { intros tr now n dl lo hi air e R H1 H2 H3 H4 A. econstructor; [exact R|]. apply p_tick.
      - replace (WS e (PWait dl) n false None) with (WS (now + (e - now)) (PWait dl) n false None) by (f_equal; lia). constructor; lia.
      - intros lo' hi' X. injection X as <- <-. cbn [ws_now]. lia.
      - intros _. eapply Forall_impl; [|exact A]. cbn. intros. lia. }
    induction k as [|k IH]; intros tr now n dl lo hi air R K H1 H2 H3 H4 H5 A M.
    - exists (HTick (dl - now) :: tr), lo, hi, air. split; [apply Adv; auto; lia|]. split; [intros [X|X]; [discriminate|auto]|]. repeat split; auto; lia.
    - destruct (Z.le_gt_cases dl hi).
      + exists (HTick (dl - now) :: tr), lo, hi, air. split; [apply Adv; auto; lia|]. split; [intros [X|X]; [discriminate|auto]|]. repeat split; auto; lia.
      + assert (R1 := Adv tr now n dl lo hi air hi R ltac:(lia) ltac:(lia) ltac:(lia) H3 A).
        assert (R2 := pl_step P I J L D HWrite _ _ _ R1 (p_write P I J L D (WS hi (PWait dl) n false None) lo hi air H4)). cbn [ws_now] in R2.
        apply (IH _ _ _ _ _ _ _ R2); try lia; [intros [X|[X|X]]; [discriminate|discriminate|auto]|]. apply Forall_app. split; [exact A|repeat constructor; lia].
  Qed.
End Tight.

Lemma p_C125_late_refuted : forall P I J L D, 0 < I -> 0 < P -> 0 <= J -> 0 <= L -> 3 * I <= P + J + L ->
  exists tr s, pulses P I J L D tr s /\ ~ In HKill tr /\ ws_loss (pl_watch s) = Some (3 * I).
Proof.
  intros P I J L D HI HP HJ HL Lt.
  assert (R0 : pulses P I J L D [HWatch LEnter; HWatch LEnter; HArrive 0; HWrite] (Pulse (WS 0 (PWait (0 + I)) 0 false None) (Some (0 + P, 0 + P + J)) [])).
  { econstructor; [econstructor; [econstructor; [econstructor; [constructor|]|]|]|].
    - apply (p_write P I J L D wst0 0 J []). cbn. lia.
    - apply (p_arrive P I J L D wst0 (WS 0 (PBusy 0) 0 true None) _ [] 0 []). constructor.
    - apply p_watch; [auto|]. constructor.
    - apply p_watch; [auto|]. constructor. }
  assert (B : forall a, exists k, a <= Z.of_nat k * P) by (intros a; exists (Z.to_nat a); nia).
  destruct (B (0 + I - (0 + P + J))) as (k1 & M1).
  destruct (pass P I J L D (3 * I) HP HJ HL k1 _ _ _ _ _ _ _ R0) as (t1 & lo1 & hi1 & a1 & R1 & K1 & Q1 & O1 & H1 & A1); try lia; [intros [X|[X|[X|[X|[]]]]]; discriminate|constructor|].
  assert (S1 : pulses P I J L D (HWatch LEnter :: HWatch LExpire :: t1) (Pulse (WS (0 + I) (PWait (0 + I + I)) (0 + 1) false None) (Some (lo1, hi1)) a1)).
  { econstructor; [econstructor; [exact R1|apply p_watch; [auto|apply t_expire; lia]]|]. apply p_watch; [auto|apply t_enter]. }
  destruct (B (0 + I + I - hi1)) as (k2 & M2).
  destruct (pass P I J L D (3 * I) HP HJ HL k2 _ _ _ _ _ _ _ S1) as (t2 & lo2 & hi2 & a2 & R2 & K2 & Q2 & O2 & H2 & A2); try lia; [intros [X|[X|X]]; [discriminate|discriminate|auto]|exact A1|].
  assert (S2 : pulses P I J L D (HWatch LEnter :: HWatch LExpire :: t2) (Pulse (WS (0 + I + I) (PWait (0 + I + I + I)) (0 + 1 + 1) false None) (Some (lo2, hi2)) a2)).
  { econstructor; [econstructor; [exact R2|apply p_watch; [auto|apply t_expire; lia]]|]. apply p_watch; [auto|apply t_enter]. }
  destruct (B (0 + I + I + I - hi2)) as (k3 & M3).
  destruct (pass P I J L D (3 * I) HP HJ HL k3 _ _ _ _ _ _ _ S2) as (t3 & lo3 & hi3 & a3 & R3 & K3 & Q3 & O3 & H3 & A3); try lia; [intros [X|[X|X]]; [discriminate|discriminate|auto]|exact A2|].
  exists (HWatch LExpire :: t3), (Pulse (WS (0 + I + I + I) WatchModel.PDone (0 + 1 + 1 + 1) false (Some (0 + I + I + I))) (Some (lo3, hi3)) a3).
  split; [econstructor; [exact R3|apply p_watch; [auto|apply t_loss; lia]]|]. split; [intros [X|X]; [discriminate|auto]|]. cbn [pl_watch ws_loss]. f_equal. lia.
Qed.
