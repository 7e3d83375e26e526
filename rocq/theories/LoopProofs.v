(* The listening goroutines (C73-C77). NODEMO *)
From Verif Require Export SpecLoop SpecLife SpecChain BaseFacts CtxFacts ChainFacts ChainProofs LifeProofs.
From Verif Require SpecListen ListenProofs.

Definition loop_after (s : loops) (o : loop_op) (i : nat) (l : lloop) : lloop :=
  match o with
  | VFill j => if Nat.eqb j i then set_pc l QOpen else l
  | VOpen j => if Nat.eqb j i then set_pc l QTop else l
  | VCheck j => if Nat.eqb j i then (if lp_running s then set_pc l QRead else leave l) else l
  | VConn j => if Nat.eqb j i then set_pc l (if udp_kind (ll_kind l) then QTop else QGot) else l
  | VFail j eof => if Nat.eqb j i then (if udp_kind (ll_kind l) && negb eof then set_pc l QTop else leave l) else l
  | VServe j p => if Nat.eqb j i then (if p then leave l else set_pc l QTop) else l
  | VSock j => if Nat.eqb j i then shut l else l
  | VStopClose _ => if existsb (fun p => stop_closes (p_network p) && Nat.eqb (p_listener p) i) (lp_props s) then shut l else l
  | _ => l
  end.

Lemma shut_recorded_nth ps : forall ls i, nth_error (shut_recorded ps ls) i =
  match nth_error ls i with
  | Some l => Some (if existsb (fun p => stop_closes (p_network p) && Nat.eqb (p_listener p) i) ps then shut l else l)
  | None => None
  end.
Proof.
  induction ps as [|p ps IH]; intros ls i; cbn [shut_recorded fold_left existsb].
  - destruct (nth_error ls i); reflexivity.
  - unfold shut_recorded in IH. rewrite IH. destruct (stop_closes (p_network p)); cbn [andb orb]; [|reflexivity].
    destruct (nth_error ls (p_listener p)) as [l|] eqn:E.
    + rewrite nth_upd, Nat.eqb_sym. destruct (Nat.eqb (p_listener p) i) eqn:X; cbn [orb]; [|reflexivity].
      apply Nat.eqb_eq in X. subst i. rewrite E. f_equal. destruct (existsb _ ps); reflexivity.
    + destruct (Nat.eqb (p_listener p) i) eqn:X; cbn [orb]; [|reflexivity]. apply Nat.eqb_eq in X. subst i. rewrite E. reflexivity.
Qed.

Lemma upd_one (ls : list lloop) j l l' i : nth_error ls j = Some l ->
  nth_error (upd ls j l') i = match nth_error ls i with Some x => Some (if Nat.eqb j i then l' else x) | None => None end.
Proof.
  intros H. rewrite nth_upd, Nat.eqb_sym. destruct (Nat.eqb j i) eqn:X.
  - apply Nat.eqb_eq in X. subst i. rewrite H. reflexivity.
  - destruct (nth_error ls i); reflexivity.
Qed.

(* the effect of a step on loop i *)
Lemma vstep_loop ex s o s' : vstep ex s o s' -> forall i l, nth_error (lp_loops s) i = Some l ->
  nth_error (lp_loops s') i = Some (loop_after s o i l).
Proof.
  intros V i l H. destruct V; cbn [lp_loops set_loop loop_after]; auto;
    try (rewrite (upd_one _ _ _ _ _ H0), H; destruct (Nat.eqb i0 i) eqn:X; [apply Nat.eqb_eq in X; subst i0; replace l0 with l by congruence|]; reflexivity).
  - rewrite nth_error_app1; auto. apply nth_error_Some. congruence.
  - rewrite shut_recorded_nth, H. reflexivity.
Qed.

(* and what it needs of the loop whose step it is *)
Lemma vstep_own ex s o s' i : vstep ex s o s' -> own_step i o = true -> exists l, nth_error (lp_loops s) i = Some l /\
  match o with
  | VFill _ => ll_pc l = QFill
  | VOpen _ => ll_pc l = QOpen
  | VCheck _ => ll_pc l = QTop
  | VConn _ => ll_pc l = QRead /\ ll_open l = true
  | VFail _ _ => ll_pc l = QRead
  | VServe _ _ => ll_pc l = QGot
  | _ => False
  end.
Proof. intros V O. destruct V; cbn [own_step] in O; try discriminate; apply Nat.eqb_eq in O; subst; eauto. Qed.

Lemma vstep_length ex s o s' : vstep ex s o s' -> (List.length (lp_loops s) <= List.length (lp_loops s'))%nat.
Proof.
  intros V. destruct V; cbn [lp_loops set_loop]; rewrite ?upd_length; auto.
  - rewrite app_length. lia.
  - clear. assert (E : forall i, nth_error (lp_loops s) i <> None -> nth_error (shut_recorded (lp_props s) (lp_loops s)) i <> None).
    { intros i H. rewrite shut_recorded_nth. destruct (nth_error (lp_loops s) i); congruence. }
    destruct (le_lt_dec (List.length (lp_loops s)) (List.length (shut_recorded (lp_props s) (lp_loops s)))) as [|L]; auto. exfalso.
    apply (E (List.length (shut_recorded (lp_props s) (lp_loops s)))); [apply nth_error_Some; lia|apply nth_error_None; lia].
Qed.

(* a loop that is not there yet *)
Lemma vstep_new ex s o s' i : vstep ex s o s' -> nth_error (lp_loops s) i = None ->
  nth_error (lp_loops s') i = None \/ exists k nw ad, nth_error (lp_loops s') i = Some (LL k nw ad true QFill) /\ taken ex s nw ad = false.
Proof.
  intros V H. destruct V; cbn [lp_loops set_loop]; auto;
    try (left; rewrite (upd_one _ _ _ _ _ H0), H; reflexivity).
  - destruct (Nat.eq_dec i (List.length (lp_loops s))) as [->|N].
    + right. exists k, nw, ad. split; [|auto]. rewrite nth_error_app2, Nat.sub_diag; auto.
    + left. apply nth_error_None. apply nth_error_None in H. rewrite app_length. cbn. lia.
  - left. rewrite shut_recorded_nth, H. reflexivity.
Qed.

Lemma vstep_running ex s o s' : vstep ex s o s' -> lp_running s' = match o with VOpen _ => true | VStopState _ => false | _ => lp_running s end.
Proof. intros V. destruct V; reflexivity. Qed.

Lemma vruns_app ex s os1 s1 os2 s2 : vruns ex s os1 s1 -> vruns ex s1 os2 s2 -> vruns ex s (os1 ++ os2) s2.
Proof. intros A. induction A; cbn; auto. intros B. econstructor; eauto. Qed.

Lemma not_opened_cons o os : not_opened (o :: os) -> (forall i, o <> VOpen i) /\ not_opened os.
Proof. intros N. split; [intros i ->; apply (N i); left; auto|intros i H; apply (N i); right; auto]. Qed.

(* how many more connections / own steps a loop can have while the server is stopped *)
Definition more_conns (p : option lpc) : nat := match p with Some QRead => 1 | _ => 0 end.
Definition more_steps (p : option lpc) : nat :=
  match p with Some QRead => 3 | Some QGot => 2 | Some QTop => 1 | Some QDone | Some QOpen => 0 | Some QFill | None => 1 end.

Lemma stopped_bound ex s os s' : vruns ex s os s' -> lp_running s = false -> not_opened os ->
  forall i, (conns_on i os <= more_conns (loop_pc s i))%nat /\ (own_steps i os <= more_steps (loop_pc s i))%nat.
Proof.
  intros V. induction V as [s|s o s1 os s2 V W IH]; intros R N i; [split; apply Nat.le_0_l|].
  apply not_opened_cons in N as (N1 & N). pose proof (vstep_running _ _ _ _ V) as R1.
  assert (R2 : lp_running s1 = false) by (rewrite R1; destruct o; auto; exfalso; eapply N1; eauto).
  destruct (IH R2 N i) as (IH1 & IH2). clear IH. unfold conns_on, own_steps in *. cbn [filter].
  destruct (own_step i o) eqn:O.
  - destruct (vstep_own _ _ _ _ _ V O) as (l & L & P). pose proof (vstep_loop _ _ _ _ V i l L) as L1.
    unfold loop_pc in IH1, IH2. rewrite L1 in IH1, IH2. unfold loop_pc. rewrite L. cbn [option_map] in *.
    destruct o; cbn [own_step] in O; try discriminate; cbn [loop_after] in *; rewrite O in *;
      try (exfalso; eapply N1; reflexivity); try (destruct P as (P & P')); rewrite P; cbn [List.length] in *.
    + cbn in *. lia.
    + rewrite R in *. cbn in *. lia.
    + destruct (udp_kind (ll_kind l)); cbn in *; lia.
    + destruct (udp_kind (ll_kind l)), eof; cbn in *; lia.
    + destruct panics; cbn in *; lia.
  - assert (C : match o with VConn j => Nat.eqb j i | _ => false end = false) by (destruct o; auto). rewrite C.
    unfold loop_pc in *. destruct (nth_error (lp_loops s) i) as [l|] eqn:L.
    + rewrite (vstep_loop _ _ _ _ V i l L) in IH1, IH2. cbn [option_map] in *.
      assert (E : ll_pc (loop_after s o i l) = ll_pc l).
      { destruct o; cbn [own_step loop_after] in *; auto; try (rewrite O; reflexivity); destruct (Nat.eqb _ _) || destruct (existsb _ _); reflexivity. }
      rewrite E in *. auto.
    + destruct (vstep_new _ _ _ _ _ V L) as [E|(k & nw & ad & E & _)]; rewrite E in *; cbn in *; lia.
Qed.

(* steps computed, for concrete runs *)
Definition vdo (ex : string -> string -> bool) (s : loops) (o : loop_op) : option loops :=
  let on i f := match nth_error (lp_loops s) i with Some l => match f l with Some l' => Some (set_loop s i l') | None => None end | None => None end in
  match o with
  | VCall k nw ad => Some (LPS (lp_running s) (lp_props s) (lp_loops s) (lp_stops s) (lp_calls s ++ [(k, nw, ad)]))
  | VListen O => match lp_calls s with
      | (k, nw, ad) :: c => if taken ex s nw ad then None else Some (LPS (lp_running s) (lp_props s) (lp_loops s ++ [LL k nw ad true QFill]) (lp_stops s) c)
      | [] => None end
  | VFill i => match nth_error (lp_loops s) i with
      | Some l => match ll_pc l with
          | QFill => Some (LPS (lp_running s) (fillProperty (lp_props s) (ll_net l) (ll_addr l) i) (upd (lp_loops s) i (set_pc l QOpen)) (lp_stops s) (lp_calls s))
          | _ => None end
      | None => None end
  | VOpen i => match nth_error (lp_loops s) i with
      | Some l => match ll_pc l with QOpen => Some (LPS true (lp_props s) (upd (lp_loops s) i (set_pc l QTop)) (lp_stops s) (lp_calls s)) | _ => None end
      | None => None end
  | VCheck i => on i (fun l => match ll_pc l with QTop => Some (if lp_running s then set_pc l QRead else leave l) | _ => None end)
  | VConn i => on i (fun l => match ll_pc l with QRead => if ll_open l then Some (set_pc l (if udp_kind (ll_kind l) then QTop else QGot)) else None | _ => None end)
  | VFail i eof => on i (fun l => match ll_pc l with QRead => Some (if udp_kind (ll_kind l) && negb eof then set_pc l QTop else leave l) | _ => None end)
  | VServe i p => on i (fun l => match ll_pc l with QGot => Some (if p then leave l else set_pc l QTop) | _ => None end)
  | VStopTest => if lp_running s then Some (LPS (lp_running s) (lp_props s) (lp_loops s) (lp_stops s ++ [SState]) (lp_calls s)) else None
  | VStopState j => match nth_error (lp_stops s) j with Some SState => Some (LPS false (lp_props s) (lp_loops s) (upd (lp_stops s) j SClose) (lp_calls s)) | _ => None end
  | VStopClose j => match nth_error (lp_stops s) j with
      | Some SClose => Some (LPS (lp_running s) (lp_props s) (shut_recorded (lp_props s) (lp_loops s)) (upd (lp_stops s) j SRet) (lp_calls s)) | _ => None end
  | VStart [(nw, ad)] => match lp_running s, lp_props s with
      | false, [p] => if String.eqb nw (p_network p) && String.eqb ad (p_port p)
                      then Some (LPS (lp_running s) (lp_props s) (lp_loops s) (lp_stops s) (lp_calls s ++ start_calls [(nw, ad)])) else None
      | _, _ => None end
  | _ => None
  end.

Fixpoint vdos ex (s : loops) (os : list loop_op) : option loops :=
  match os with [] => Some s | o :: r => match vdo ex s o with Some s1 => vdos ex s1 r | None => None end end.

Lemma vdo_sound ex s o s' : vdo ex s o = Some s' -> vstep ex s o s'.
Proof.
  destruct o; cbn [vdo]; intros H.
  - inversion H. constructor.
  - destruct j; [|discriminate]. destruct (lp_calls s) as [|[[k nw] ad] c] eqn:C; [discriminate|]. destruct (taken ex s nw ad) eqn:T; [discriminate|]. inversion H. apply (v_listen ex s [] c k nw ad); auto.
  - discriminate.
  - destruct (nth_error (lp_loops s) i) as [l|] eqn:L; [|discriminate]. destruct (ll_pc l) eqn:P; try discriminate. inversion H. apply v_fill; auto.
  - destruct (nth_error (lp_loops s) i) as [l|] eqn:L; [|discriminate]. destruct (ll_pc l) eqn:P; try discriminate. inversion H. apply v_open; auto.
  - destruct (nth_error (lp_loops s) i) as [l|] eqn:L; [|discriminate]. destruct (ll_pc l) eqn:P; try discriminate. inversion H. apply v_check; auto.
  - destruct (nth_error (lp_loops s) i) as [l|] eqn:L; [|discriminate]. destruct (ll_pc l) eqn:P; try discriminate. destruct (ll_open l) eqn:O; [|discriminate]. inversion H. apply v_conn; auto.
  - destruct (nth_error (lp_loops s) i) as [l|] eqn:L; [|discriminate]. destruct (ll_pc l) eqn:P; try discriminate. inversion H. apply v_fail; auto.
  - destruct (nth_error (lp_loops s) i) as [l|] eqn:L; [|discriminate]. destruct (ll_pc l) eqn:P; try discriminate. inversion H. apply v_serve; auto.
  - discriminate.
  - destruct (lp_running s) eqn:R; [|discriminate]. inversion H. rewrite <- R. apply v_stop_test; auto.
  - destruct (nth_error (lp_stops s) j) as [[]|] eqn:E; try discriminate. inversion H. apply v_stop_state; auto.
  - destruct (nth_error (lp_stops s) j) as [[]|] eqn:E; try discriminate. inversion H. apply v_stop_close; auto.
  - destruct calls as [|[nw ad] [|? ?]]; try discriminate. destruct (lp_running s) eqn:R; [discriminate|]. destruct (lp_props s) as [|p [|? ?]] eqn:P; try discriminate.
    destruct (_ && _) eqn:K; [|discriminate]. apply andb_true_iff in K as (K1 & K2). apply String.eqb_eq in K1, K2. inversion H. rewrite <- R, <- P. apply v_start; auto. rewrite P.
    split; [reflexivity|]. intros [|[|i]] n a E; inversion E; subst. exists 0%nat, 0%nat, p, p. repeat split; auto.
Qed.

Lemma vdos_sound ex os : forall s s', vdos ex s os = Some s' -> vruns ex s os s'.
Proof.
  induction os as [|o os IH]; intros s s' H; cbn [vdos] in H; [inversion H; constructor|].
  destruct (vdo ex s o) as [s1|] eqn:E; [|discriminate]. econstructor; [apply vdo_sound; eauto|eauto].
Qed.

(* one listener on a network Stop does not close *)
Lemma stopped_run ex k nw ad : stop_closes nw = false ->
  vdos ex loops0 (listen_ops k nw ad ++ stop_ops) = Some (LPS false [Prop_ nw ad 0] [LL k nw ad true QRead] [SRet] []).
Proof.
  intros S. cbn [listen_ops stop_ops app vdos vdo lp_calls loops0 lp_loops lp_running lp_props lp_stops]. unfold taken. cbn [lp_loops existsb]. rewrite andb_false_r.
  cbn. unfold shut_recorded. cbn. rewrite S. reflexivity.
Qed.

Lemma vdos_app ex os1 : forall os2 s, vdos ex s (os1 ++ os2) = match vdos ex s os1 with Some s1 => vdos ex s1 os2 | None => None end.
Proof. induction os1 as [|o os IH]; intros os2 s; cbn [app vdos]; [reflexivity|]. destruct (vdo ex s o); auto. Qed.

Lemma run_said ex : forall s os s', vruns ex s os s' ->
  lp_running s' = fold_left (fun b o => match o with VOpen _ => true | VStopState _ => false | _ => b end) os (lp_running s).
Proof.
  induction 1 as [|s o s1 os s2 H R IH]; [reflexivity|]. cbn [fold_left]. rewrite IH. f_equal. inversion H; subst; reflexivity.
Qed.

Lemma p_C55_interleaved : forall ex os s, vruns ex loops0 os s ->
  lp_running s = said_running os /\ ((exists s', vstep ex s VStopTest s') <-> said_running os = true) /\
  ((exists calls s', vstep ex s (VStart calls) s') <-> said_running os = false).
Proof.
  intros ex os s H. pose proof (run_said ex _ _ _ H) as E. change (lp_running s = said_running os) in E. split; [exact E|]. rewrite <- E. split; split.
  - intros (s' & T). inversion T; auto.
  - intros R. eexists. apply v_stop_test. exact R.
  - intros (calls & s' & T). inversion T; auto.
  - intros R. destruct (lp_props s) as [|p ps] eqn:P.
    + exists []. eexists. apply v_start; [exact R|]. rewrite P. split; [reflexivity|]. intros [|i] nw ad X; discriminate X.
    + assert (L : exists qs q, p :: ps = qs ++ [q]) by (destruct (exists_last (l := p :: ps)) as (qs & q & Q); [discriminate|eauto]).
      destruct L as (qs & q & Q). exists (map (fun _ => key q) (qs ++ [q])). eexists. apply v_start; [exact R|]. rewrite P, Q.
      split; [apply map_length|]. intros i nw ad X.
      assert (L : (i < List.length (qs ++ [q]))%nat). { rewrite <- (map_length (fun _ => key q)). apply nth_error_Some. congruence. }
      apply nth_error_In, in_map_iff in X as (z & K & _). unfold key in K. inversion K; subst.
      rewrite app_length in L. cbn in L. exists (List.length qs), (List.length qs), q, q. repeat split; try lia; apply nth_snoc_last.
Qed.

Lemma p_C73_after_stop : forall ex s os s', vruns ex s os s' -> lp_running s = false -> not_opened os ->
  forall i, (conns_on i os <= 1)%nat /\ (loop_pc s i <> Some QRead -> conns_on i os = 0%nat) /\ (own_steps i os <= 3)%nat.
Proof.
  intros ex s os s' V R N i. destruct (stopped_bound _ _ _ _ V R N i) as (A & B).
  destruct (loop_pc s i) as [[]|]; cbn in *; repeat split; try lia; intros X; try lia; congruence.
Qed.

Lemma closed_stays ex s os s' : vruns ex s os s' -> forall i, nth_error (lp_loops s) i <> None -> loop_open s i = false ->
  loop_open s' i = false /\ conns_on i os = 0%nat.
Proof.
  intros V. induction V as [s|s o s1 os s2 V W IH]; intros i H C; [auto|].
  destruct (nth_error (lp_loops s) i) as [l|] eqn:L; [|congruence]. unfold loop_open in C. rewrite L in C.
  pose proof (vstep_loop _ _ _ _ V i l L) as L1.
  assert (C1 : loop_open s1 i = false).
  { unfold loop_open. rewrite L1. destruct o; cbn [loop_after]; auto; try (destruct (Nat.eqb _ _); auto).
    - destruct (lp_running s); cbn; auto. rewrite C. destruct (udp_kind _); auto.
    - destruct (udp_kind (ll_kind l) && negb eof); cbn; auto. rewrite C. destruct (udp_kind _); auto.
    - destruct panics; cbn; auto. rewrite C. destruct (udp_kind _); auto.
    - destruct (existsb _ _); auto. }
  destruct (IH i) as (A & B); [congruence|exact C1|]. split; [exact A|]. unfold conns_on in *. cbn [filter].
  destruct o; auto. destruct (Nat.eqb i0 i) eqn:X; auto. exfalso.
  destruct (vstep_own _ _ _ _ i V X) as (l0 & L0 & _ & P). congruence.
Qed.

Lemma stop_closes_iff nw : stop_closes nw = true <-> (nw = "tcp" \/ nw = "udp" \/ nw = "kcp")%string.
Proof. unfold stop_closes. rewrite !orb_true_iff, !String.eqb_eq. tauto. Qed.

Lemma p_C73_recorded_partial : forall ex s j s1 i os s2, vstep ex s (VStopClose j) s1 -> nth_error (lp_loops s) i <> None -> recorded s i ->
  vruns ex s1 os s2 -> conns_on i os = 0%nat /\ loop_open s2 i = false.
Proof.
  intros ex s j s1 i os s2 V H (p & P1 & P2 & P3) W. destruct (nth_error (lp_loops s) i) as [l|] eqn:L; [|congruence].
  pose proof (vstep_loop _ _ _ _ V i l L) as L1. cbn [loop_after] in L1.
  assert (E : existsb (fun p => stop_closes (p_network p) && Nat.eqb (p_listener p) i) (lp_props s) = true).
  { apply existsb_exists. exists p. split; auto. rewrite (proj2 (stop_closes_iff _) P3), P2, Nat.eqb_refl. reflexivity. }
  rewrite E in L1. destruct (closed_stays _ _ _ _ W i) as (A & B); auto.
  - congruence.
  - unfold loop_open. rewrite L1. reflexivity.
Qed.

Lemma p_C73_other_network_refuted : forall ex nw ad, ~ stopped_network nw ->
  exists s, vruns ex loops0 (listen_ops KTcp nw ad ++ stop_ops ++ [VConn 0; VServe 0 false]) s.
Proof.
  intros ex nw ad N. assert (S : stop_closes nw = false).
  { destruct (stop_closes nw) eqn:E; auto. exfalso. apply N. apply stop_closes_iff in E. exact E. }
  eexists. apply vdos_sound. rewrite app_assoc, vdos_app, stopped_run by exact S. reflexivity.
Qed.

Lemma reach_inv ex (P : loops -> Prop) : P loops0 -> (forall s o s', P s -> vstep ex s o s' -> P s') -> forall s, vreach ex s -> P s.
Proof. intros P0 PS s (os & V). revert P0. induction V; auto. intros P0. eauto. Qed.

Lemma done_closed ex s : vreach ex s -> forall i l, nth_error (lp_loops s) i = Some l -> udp_kind (ll_kind l) = false -> ll_pc l = QDone -> ll_open l = false.
Proof.
  apply (reach_inv ex (fun s => forall i l, nth_error (lp_loops s) i = Some l -> udp_kind (ll_kind l) = false -> ll_pc l = QDone -> ll_open l = false)).
  - intros [|i] l H; discriminate.
  - clear s. intros s o s' IH V i l' H U D. destruct (nth_error (lp_loops s) i) as [l|] eqn:L.
    + rewrite (vstep_loop _ _ _ _ V i l L) in H. inversion H; subst l'; clear H. specialize (IH i l L).
      destruct o; cbn [loop_after] in *; auto; try (destruct (Nat.eqb _ _)); cbn in *; auto; try discriminate.
      * destruct (lp_running s); cbn in *; [discriminate|]. rewrite U. reflexivity.
      * destruct (udp_kind (ll_kind l)); discriminate.
      * destruct (udp_kind (ll_kind l)) eqn:Q, eof; cbn in *; try congruence; rewrite Q; reflexivity.
      * destruct panics; cbn in *; [|discriminate]. rewrite U. reflexivity.
      * destruct (existsb _ _); auto.
    + destruct (vstep_new _ _ _ _ _ V L) as [E|(k & nw & ad & E & _)]; rewrite E in H; inversion H; subst. discriminate.
Qed.

Lemma p_C74_returned_closed : forall ex s i l, vreach ex s -> nth_error (lp_loops s) i = Some l -> udp_kind (ll_kind l) = false -> ll_pc l = QDone ->
  ll_open l = false /\ forall os s', vruns ex s os s' -> loop_open s' i = false.
Proof.
  intros ex s i l V H U D. assert (O := done_closed _ _ V i l H U D). split; [exact O|]. intros os s' W.
  eapply closed_stays; eauto; [congruence|]. unfold loop_open. rewrite H. exact O.
Qed.

Lemma fill_in ps nw ad j p : In p (fillProperty ps nw ad j) -> In p ps \/ p_listener p = j.
Proof.
  unfold fillProperty. destruct (replace_first ps nw ad j) as [ps'|] eqn:E.
  - revert ps' E. induction ps as [|q qs IHq]; cbn [replace_first]; intros ps' E X; [discriminate|].
    destruct (_ && _).
    + inversion E; subst. destruct X as [<-|X]; [right; reflexivity|left; right; exact X].
    + destruct (replace_first qs _ _ _) as [r'|]; [|discriminate]. inversion E; subst. destruct X as [<-|X]; [left; left; reflexivity|].
      destruct (IHq r' eq_refl X); auto. left. right. assumption.
  - intros X. apply in_app_iff in X as [X|[<-|[]]]; auto.
Qed.

Lemma udp_left_open ex s os s' : vruns ex s os s' -> forall i l, nth_error (lp_loops s) i = Some l -> udp_kind (ll_kind l) = true -> ll_open l = true ->
  ~ stopped_network (ll_net l) -> (forall p, In p (lp_props s) -> p_listener p = i -> p_network p = ll_net l) -> (ll_pc l <> QFill) ->
  ~ In (VSock i) os ->
  exists l', nth_error (lp_loops s') i = Some l' /\ ll_open l' = true /\ ll_net l' = ll_net l /\ ll_addr l' = ll_addr l.
Proof.
  intros V. induction V as [s|s o s1 os s2 V W IH]; intros i l L U O N P Q S; [eauto|].
  pose proof (vstep_loop _ _ _ _ V i l L) as L1.
  assert (Z : ll_kind (loop_after s o i l) = ll_kind l /\ ll_open (loop_after s o i l) = true /\ ll_net (loop_after s o i l) = ll_net l /\ ll_addr (loop_after s o i l) = ll_addr l).
  { destruct o; cbn [loop_after]; auto; try (destruct (Nat.eqb _ _) eqn:X; [|auto]; cbn; auto).
    - destruct (lp_running s); cbn; auto. rewrite U, O. auto.
    - rewrite U. destruct eof; cbn; auto. rewrite U, O. auto.
    - destruct panics; cbn; auto. rewrite U, O. auto.
    - exfalso. apply Nat.eqb_eq in X. subst. apply S. left. reflexivity.
    - destruct (existsb _ _) eqn:E; auto. exfalso. apply existsb_exists in E as (p & P1 & P2). apply andb_true_iff in P2 as (P2 & P3).
      apply Nat.eqb_eq in P3. apply N. rewrite <- (P p P1 P3). apply stop_closes_iff. exact P2. }
  destruct Z as (Z1 & Z2 & Z3 & Z4). destruct (IH i _ L1) as (l' & A & B & C & D); try congruence.
  - rewrite Z3. intros p P1 P2. assert (X : In p (lp_props s) \/ exists j lj, o = VFill j /\ nth_error (lp_loops s) j = Some lj /\ In p (fillProperty (lp_props s) (ll_net lj) (ll_addr lj) j)).
    { destruct V; cbn [lp_props set_loop] in P1; auto. right. eauto. }
    destruct X as [X|(j & lj & -> & Lj & X)]; auto.
    destruct (fill_in _ _ _ _ _ X) as [Y|Y]; auto. subst i. subst j. exfalso.
    destruct (vstep_own _ _ _ _ (p_listener p) V) as (l0 & L0 & P0); [cbn; apply Nat.eqb_refl|]. congruence.
  - intros F. destruct o; cbn [loop_after] in F; auto; try (destruct (Nat.eqb _ _) eqn:X; [|auto]); cbn in F; auto; try discriminate.
    + destruct (lp_running s); discriminate.
    + rewrite U in F. discriminate.
    + rewrite U in F. destruct eof; discriminate.
    + destruct panics; discriminate.
    + destruct (existsb _ _); auto.
  - intros X. apply S. right. exact X.
  - exists l'. rewrite B, C, D. auto.
Qed.

Lemma p_C74_udp_refuted : forall ex size nw ad, ~ stopped_network nw ->
  exists s, vruns ex loops0 (listen_ops (KUdp size) nw ad ++ stop_ops ++ [VConn 0; VCheck 0]) s /\
    loop_pc s 0 = Some QDone /\
    forall os s', vruns ex s os s' -> ~ In (VSock 0) os -> loop_open s' 0 = true /\ (ex nw ad = true -> taken ex s' nw ad = true).
Proof.
  intros ex size nw ad N. assert (S : stop_closes nw = false).
  { destruct (stop_closes nw) eqn:E; auto. exfalso. apply N. apply stop_closes_iff in E. exact E. }
  set (s := LPS false [Prop_ nw ad 0] [LL (KUdp size) nw ad true QDone] [SRet] []).
  exists s. split; [|split; [reflexivity|]].
  - apply vdos_sound. rewrite app_assoc, vdos_app, stopped_run by exact S. reflexivity.
  - intros os s' V X. destruct (udp_left_open _ _ _ _ V 0%nat (LL (KUdp size) nw ad true QDone)) as (l & A & B & C & D); auto; try reflexivity.
    + intros p [<-|[]] _. reflexivity.
    + discriminate.
    + unfold loop_open. rewrite A. split; [exact B|]. intros E. unfold taken. rewrite E. cbn [andb]. apply existsb_exists. exists l.
      split; [eapply nth_error_In; eauto|]. rewrite B, C, D. cbn [ll_net ll_addr]. rewrite !String.eqb_refl. reflexivity.
Qed.

Lemma p_C75_keeps_accepting_partial : forall ex s os s' i l, vruns ex s os s' -> nth_error (lp_loops s) i = Some l ->
  lp_running s = true -> looping (ll_pc l) -> ll_open l = true ->
  (forall o, In o os -> match o with VStopState _ | VStopClose _ => False | VSock j | VFail j _ | VServe j true => j <> i | _ => True end) ->
  exists l', nth_error (lp_loops s') i = Some l' /\ looping (ll_pc l') /\ ll_open l' = true /\ lp_running s' = true /\
    exists o s2, own_step i o = true /\ vstep ex s' o s2.
Proof.
  intros ex s os s' i l V. revert l. induction V as [s|s o s1 os s2 V W IH]; intros l L R Q O H.
  - exists l. do 4 (split; [assumption|]). destruct Q as [Q|[Q|Q]].
    + exists (VCheck i). eexists. split; [cbn; apply Nat.eqb_refl|eapply v_check; eauto].
    + exists (VConn i). eexists. split; [cbn; apply Nat.eqb_refl|eapply v_conn; eauto].
    + exists (VServe i false). eexists. split; [cbn; apply Nat.eqb_refl|eapply v_serve; eauto].
  - assert (H0 := H o (or_introl eq_refl)). apply (IH (loop_after s o i l)).
    + eapply vstep_loop; eauto.
    + rewrite (vstep_running _ _ _ _ V). destruct o; auto; contradiction.
    + assert (X := fun w => vstep_own _ _ _ _ i V w). destruct o; cbn [loop_after own_step] in *; auto; try contradiction;
        destruct (Nat.eqb _ _) eqn:E; auto.
      * destruct (X eq_refl) as (l0 & L0 & P0). rewrite L in L0. inversion L0; subst. destruct Q as [Q|[Q|Q]]; congruence.
      * left. reflexivity.
      * rewrite R. right. left. reflexivity.
      * destruct (udp_kind (ll_kind l)); [left|right; right]; reflexivity.
      * apply Nat.eqb_eq in E. contradiction.
      * apply Nat.eqb_eq in E. destruct panics; [contradiction|left; reflexivity].
    + destruct o; cbn [loop_after]; auto; try contradiction; destruct (Nat.eqb _ _) eqn:E; auto.
      * rewrite R. exact O.
      * apply Nat.eqb_eq in E. contradiction.
      * apply Nat.eqb_eq in E. destruct panics; [contradiction|exact O].
      * apply Nat.eqb_eq in E. contradiction.
    + intros o' I. apply H. right. exact I.
Qed.

Lemma p_C75_one_error_refuted : forall ex s i l o s1, nth_error (lp_loops s) i = Some l -> udp_kind (ll_kind l) = false ->
  lp_running s = true -> (exists eof, o = VFail i eof) \/ o = VServe i true -> vstep ex s o s1 ->
  lp_running s1 = true /\ loop_pc s1 i = Some QDone /\ loop_open s1 i = false /\
  (forall calls s2, ~ vstep ex s1 (VStart calls) s2) /\
  forall os s2, vruns ex s1 os s2 -> conns_on i os = 0%nat.
Proof.
  intros ex s i l o s1 L U R O V. pose proof (vstep_loop _ _ _ _ V i l L) as L1.
  assert (R1 : lp_running s1 = true). { rewrite (vstep_running _ _ _ _ V). destruct O as [(e & ->)| ->]; exact R. }
  assert (E : loop_after s o i l = leave l). { destruct O as [(e & ->)| ->]; cbn [loop_after]; rewrite Nat.eqb_refl; [rewrite U|]; reflexivity. }
  rewrite E in L1. split; [exact R1|]. unfold loop_pc, loop_open. rewrite L1. cbn. rewrite U. split; [reflexivity|]. split; [reflexivity|]. split.
  - intros calls s2 W. inversion W; subst. congruence.
  - intros os s2 W. eapply closed_stays; eauto; [congruence|]. unfold loop_open. rewrite L1. cbn. rewrite U. reflexivity.
Qed.

Lemma start_kind_cases nw k : start_kind nw = Some k -> k = KTcp \/ k = KUdp None.
Proof.
  unfold start_kind. destruct (ListenAndServe_choice (str_bytes nw)) as [[]| |]; intros H; inversion H; auto.
Qed.

Lemma p_C76_kind_lost_refuted : forall ex s calls s1, vstep ex s (VStart calls) s1 ->
  exists new, lp_calls s1 = lp_calls s ++ new /\
    forall k nw ad, In (k, nw, ad) new -> In (nw, ad) calls /\ k <> KRaw /\ (forall size, k <> KUdp (Some size)).
Proof.
  intros ex s calls s1 V. inversion V; subst. exists (start_calls calls). split; [reflexivity|]. intros k nw ad H.
  unfold start_calls in H. apply in_flat_map in H as ([a b] & A & B). cbn [fst snd] in B.
  destruct (start_kind a) as [k'|] eqn:E; [|contradiction]. destruct B as [B|[]]. inversion B; subst. split; [exact A|].
  apply start_kind_cases in E as [-> | ->]; split; try discriminate; intros; discriminate.
Qed.

Definition back (nw ad : string) (s : loops) : Prop :=
  lp_running s = false /\ lp_props s = [Prop_ nw ad 0] /\ lp_loops s = [LL KTcp nw ad true QRead] /\
  (forall j x, nth_error (lp_stops s) j = Some x -> x = SRet) /\ (forall k n a, In (k, n, a) (lp_calls s) -> n = nw /\ a = ad).

Lemma back_step ex nw ad s o s' : ex nw ad = true -> back nw ad s -> vstep ex s o s' -> (forall e, o <> VFail 0 e) -> o <> VConn 0 ->
  (forall k n a, o <> VCall k n a) -> back nw ad s'.
Proof.
  intros X (R & P & L & S & C) V N1 N2 N3. destruct V; try (rewrite L in *);
    try (match goal with H : nth_error [_] ?i = Some _ |- _ => destruct i as [|i]; [cbn in H; inversion H; subst|destruct i; discriminate] end; cbn in *; try discriminate; try congruence).
  - exfalso. eapply N3. reflexivity.
  - exfalso. destruct (C k nw0 ad0) as (-> & ->); [rewrite H; apply in_elt|]. unfold taken in H0. rewrite X, L in H0. cbn in H0. rewrite !String.eqb_refl in H0. discriminate.
  - unfold back. cbn. do 4 (split; [first [assumption|reflexivity]|]). intros k' n a I. apply (C k' n a). rewrite H. apply in_app_iff in I as [I|I]; apply in_app_iff; [left|right; right]; assumption.
  - congruence.
  - apply S in H. discriminate.
  - apply S in H. discriminate.
  - unfold back. cbn. do 4 (split; [first [assumption|reflexivity]|]). intros k n a I. apply in_app_iff in I as [I|I]; [apply (C _ _ _ I)|].
    unfold start_calls in I. apply in_flat_map in I as ([n' a'] & A & B). cbn [fst snd] in B. destruct (start_kind n'); [|contradiction]. destruct B as [B|[]].
    inversion B; subst. rewrite P in H0. apply p_C53_start_partial in H0 as (H0 & _). rewrite H0 in A; [|cbn; lia]. destruct A as [A|[]]. inversion A. auto.
Qed.

Lemma p_C76_not_resumed_refuted : forall ex nw ad, ~ stopped_network nw -> ex nw ad = true ->
  exists s, vruns ex loops0 (listen_ops KTcp nw ad ++ stop_ops ++ [VStart [(nw, ad)]]) s /\
    forall os s', vruns ex s os s' -> (forall o, In o os -> match o with VConn i | VFail i _ => i <> 0%nat | VCall _ _ _ => False | _ => True end) ->
      lp_running s' = false /\ List.length (lp_loops s') = 1%nat.
Proof.
  intros ex nw ad N X. assert (S : stop_closes nw = false).
  { destruct (stop_closes nw) eqn:E; auto. exfalso. apply N. apply stop_closes_iff in E. exact E. }
  set (s := LPS false [Prop_ nw ad 0] [LL KTcp nw ad true QRead] [SRet] (start_calls [(nw, ad)])). exists s. split.
  - apply vdos_sound. rewrite app_assoc, vdos_app, stopped_run by exact S. cbn [vdos vdo lp_running lp_props p_network p_port]. rewrite !String.eqb_refl. reflexivity.
  - intros os s' V H. assert (B : back nw ad s).
    { unfold back, s. cbn [lp_running lp_props lp_loops lp_stops lp_calls]. do 3 (split; [reflexivity|]). split.
      - intros [|[|j]] x E; inversion E; auto.
      - intros k n a I. unfold start_calls in I. cbn [flat_map fst snd] in I. rewrite app_nil_r in I. destruct (start_kind nw); [|contradiction]. destruct I as [I|[]]. inversion I. auto. }
    clearbody s. assert (B' : back nw ad s').
    { induction V as [s|s o s1 os s2 V W IH]; auto. apply IH; [intros o' I; apply H; right; auto|]. specialize (H o (or_introl eq_refl)).
      eapply back_step; eauto.
      - intros e ->. apply H. reflexivity.
      - intros ->. apply H. reflexivity.
      - intros k n a ->. exact H. }
    destruct B' as (R & _ & L & _). rewrite L. auto.
Qed.

Lemma fill_has ps nw ad j : exists p, In p (fillProperty ps nw ad j) /\ p_listener p = j.
Proof.
  unfold fillProperty. destruct (replace_first ps nw ad j) as [ps'|] eqn:E.
  - revert ps' E. induction ps as [|q qs IHq]; cbn [replace_first]; intros ps' E; [discriminate|]. destruct (_ && _).
    + inversion E; subst. eexists. split; [left; reflexivity|reflexivity].
    + destruct (replace_first qs _ _ _) as [r'|]; [|discriminate]. inversion E; subst. destruct (IHq r' eq_refl) as (p & A & B). exists p. split; [right; exact A|exact B].
  - eexists. split; [apply in_elt|reflexivity].
Qed.

Lemma fill_keeps ps nw ad j p : In p ps -> In p (fillProperty ps nw ad j) \/ (p_network p = nw /\ p_port p = ad).
Proof.
  unfold fillProperty. intros I. destruct (replace_first ps nw ad j) as [ps'|] eqn:E.
  - revert ps' E. induction ps as [|q qs IHq]; cbn [replace_first]; intros ps' E; [discriminate|]. destruct (_ && _) eqn:K.
    + inversion E; subst. destruct I as [<-|I]; [right|left; right; exact I]. apply andb_true_iff in K as (K1 & K2). split; apply String.eqb_eq; assumption.
    + destruct (replace_first qs _ _ _) as [r'|]; [|discriminate]. inversion E; subst. destruct I as [<-|I]; [left; left; reflexivity|].
      destruct (IHq I r' eq_refl); auto. left. right. assumption.
  - left. apply in_app_iff. auto.
Qed.

Lemma fill_key ps nw ad j p : In p (fillProperty ps nw ad j) -> In p ps \/ p = Prop_ nw ad j.
Proof.
  unfold fillProperty. destruct (replace_first ps nw ad j) as [ps'|] eqn:E.
  - revert ps' E. induction ps as [|q qs IHq]; cbn [replace_first]; intros ps' E X; [discriminate|]. destruct (_ && _) eqn:K.
    + apply andb_true_iff in K as (K1 & K2). apply String.eqb_eq in K1, K2. inversion E; subst. destruct X as [<-|X]; [right; reflexivity|left; right; exact X].
    + destruct (replace_first qs _ _ _) as [r'|]; [|discriminate]. inversion E; subst. destruct X as [<-|X]; [left; left; reflexivity|].
      destruct (IHq r' eq_refl X); auto. left. right. assumption.
  - intros X. apply in_app_iff in X as [X|[<-|[]]]; auto.
Qed.

Lemma after_same s o i l : ll_net (loop_after s o i l) = ll_net l /\ ll_addr (loop_after s o i l) = ll_addr l /\ (ll_open (loop_after s o i l) = true -> ll_open l = true).
Proof.
  destruct o; cbn [loop_after]; auto; try (destruct (Nat.eqb _ _); [|auto]; cbn; auto).
  - destruct (lp_running s); cbn; auto. destruct (udp_kind _); auto. intuition discriminate.
  - destruct (udp_kind (ll_kind l)) eqn:U, eof; cbn; rewrite ?U; auto; intuition discriminate.
  - destruct panics; cbn; auto. destruct (udp_kind _); auto. intuition discriminate.
  - intuition discriminate.
  - destruct (existsb _ _); cbn; auto. intuition discriminate.
Qed.

Lemma after_fill ex s o s' i l : vstep ex s o s' -> nth_error (lp_loops s) i = Some l -> ll_pc (loop_after s o i l) = QFill -> ll_pc l = QFill /\
  (ll_open (loop_after s o i l) = false -> ll_open l = false \/ exists j, o = VStopClose j /\ exists p, In p (lp_props s) /\ p_listener p = i).
Proof.
  intros V L. destruct o; cbn [loop_after]; auto; try (destruct (Nat.eqb _ _) eqn:X; [|auto]; cbn; try discriminate).
  - destruct (lp_running s); discriminate.
  - destruct (udp_kind _); discriminate.
  - destruct (udp_kind _ && _); discriminate.
  - destruct panics; discriminate.
  - intros F. inversion V; subst. apply Nat.eqb_eq in X. subst i0. rewrite L in H0. inversion H0; subst. contradiction.
  - destruct (existsb _ _) eqn:E; cbn; auto. intros F. split; auto. intros _. right. exists j. split; auto. apply existsb_exists in E as (p & A & B).
    apply andb_true_iff in B as (_ & B). apply Nat.eqb_eq in B. eauto.
Qed.

Record linv (ex : string -> string -> bool) (s : loops) : Prop := {
  li_key : forall p, In p (lp_props s) -> exists l, nth_error (lp_loops s) (p_listener p) = Some l /\ ll_net l = p_network p /\ ll_addr l = p_port p /\ ll_pc l <> QFill;
  li_rec : forall i l, nth_error (lp_loops s) i = Some l -> ll_open l = true -> ll_pc l <> QFill -> ex (ll_net l) (ll_addr l) = true -> exists p, In p (lp_props s) /\ p_listener p = i;
  li_one : forall i l j k, nth_error (lp_loops s) i = Some l -> nth_error (lp_loops s) j = Some k -> ll_open l = true -> ll_open k = true ->
    ll_net l = ll_net k -> ll_addr l = ll_addr k -> ex (ll_net l) (ll_addr l) = true -> i = j;
  li_fill : forall i l, nth_error (lp_loops s) i = Some l -> ll_pc l = QFill -> ll_open l = true }.

Lemma reach_linv ex s : vreach ex s -> linv ex s.
Proof.
  apply reach_inv.
  - constructor; cbn; try contradiction; intros [|i]; intros; discriminate.
  - clear s. intros s o s' [K R O F] V.
    assert (OLD : forall i l', nth_error (lp_loops s') i = Some l' -> (exists l, nth_error (lp_loops s) i = Some l /\ l' = loop_after s o i l) \/
                    (nth_error (lp_loops s) i = None /\ exists k nw ad, l' = LL k nw ad true QFill /\ taken ex s nw ad = false)).
    { intros i l' H. destruct (nth_error (lp_loops s) i) as [l|] eqn:L.
      - rewrite (vstep_loop _ _ _ _ V i l L) in H. inversion H. eauto.
      - destruct (vstep_new _ _ _ _ _ V L) as [E|(k & nw & ad & E & T)]; rewrite E in H; inversion H; subst. right. eauto 6. }
    assert (FREE : forall nw ad i l, taken ex s nw ad = false -> nth_error (lp_loops s) i = Some l -> ll_open l = true -> ll_net l = nw -> ll_addr l = ad -> ex nw ad = true -> False).
    { intros nw ad i l T L A B C D. unfold taken in T. rewrite D in T. cbn [andb] in T.
      assert (Y : existsb (fun l => ll_open l && String.eqb (ll_net l) nw && String.eqb (ll_addr l) ad) (lp_loops s) = true); [|congruence].
      apply existsb_exists. exists l. split; [eapply nth_error_In; eauto|]. rewrite A, B, C, !String.eqb_refl. reflexivity. }
    assert (PROPS : lp_props s' = lp_props s \/ exists i l, o = VFill i /\ nth_error (lp_loops s) i = Some l /\ ll_pc l = QFill /\ lp_props s' = fillProperty (lp_props s) (ll_net l) (ll_addr l) i).
    { destruct V; cbn [lp_props set_loop]; auto. right. eauto 8. }
    constructor.
    + intros p I. assert (X : In p (lp_props s) \/ exists i l, o = VFill i /\ nth_error (lp_loops s) i = Some l /\ p = Prop_ (ll_net l) (ll_addr l) i).
      { destruct PROPS as [E|(i & l & -> & L & Q & E)]; rewrite E in I; auto. apply fill_key in I as [I|I]; auto. right. eauto. }
      destruct X as [X|(i & l & -> & L & ->)].
      * destruct (K p X) as (l & A & B & C & D). exists (loop_after s o (p_listener p) l). split; [eapply vstep_loop; eauto|].
        destruct (after_same s o (p_listener p) l) as (E1 & E2 & _). rewrite E1, E2. do 2 (split; [assumption|]). intros Y. apply D. eapply after_fill; eauto.
      * cbn [p_listener p_network p_port]. exists (loop_after s (VFill i) i l). split; [eapply vstep_loop; eauto|]. cbn [loop_after]. rewrite Nat.eqb_refl. cbn. repeat split; discriminate.
    + intros i l' H A B C. destruct (OLD i l' H) as [(l & L & ->)|(_ & k & nw & ad & -> & _)]; [|contradiction B; reflexivity].
      destruct (after_same s o i l) as (E1 & E2 & E3). rewrite E1, E2 in C. apply E3 in A.
      destruct (PROPS) as [E|(j & lj & -> & Lj & Q & E)]; rewrite E.
      * apply (R i l L A); auto. intros Y. apply B. destruct (own_step i o) eqn:W.
        -- exfalso. destruct (vstep_own _ _ _ _ _ V W) as (l0 & L0 & P0). rewrite L in L0. inversion L0; subst l0.
           destruct o; cbn [own_step] in W; try discriminate; rewrite Y in P0; try discriminate; try (destruct P0; discriminate).
           inversion V; subst. cbn [lp_props] in E. apply Nat.eqb_eq in W. subst i0. destruct (fill_has (lp_props s) (ll_net l0) (ll_addr l0) i) as (p & P1 & P2).
           rewrite E in P1. destruct (K p P1) as (l1 & M1 & _ & _ & M2). rewrite P2 in M1. congruence.
        -- destruct o; cbn [loop_after own_step] in *; auto; try (rewrite W; exact Y); try (destruct (Nat.eqb _ _); exact Y). destruct (existsb _ _); exact Y.
      * destruct (Nat.eq_dec j i) as [->|NE]; [apply fill_has|]. assert (Y : ll_pc l <> QFill). { cbn [loop_after] in B. apply Nat.eqb_neq in NE. rewrite NE in B. exact B. }
        destruct (R i l L A Y C) as (p & P1 & P2). destruct (fill_keeps _ (ll_net lj) (ll_addr lj) j p P1) as [P3|(P3 & P4)]; [eauto|]. exfalso.
        destruct (K p P1) as (l0 & M1 & M2 & M3 & M4). rewrite P2, L in M1. inversion M1; subst l0.
        apply NE. symmetry. apply (O i l j lj); auto; try congruence. eapply F; eauto.
    + intros i l1 j l2 H1 H2 A B C D E. destruct (OLD i l1 H1) as [(l & L & ->)|(L & k & nw & ad & -> & T)]; destruct (OLD j l2 H2) as [(l' & L' & ->)|(L' & k' & nw' & ad' & -> & T')].
      * destruct (after_same s o i l) as (E1 & E2 & E3). destruct (after_same s o j l') as (G1 & G2 & G3). rewrite E1, E2 in E. apply (O i l j l'); auto; congruence.
      * destruct (after_same s o i l) as (E1 & E2 & E3). exfalso. cbn in C, D. apply (FREE nw' ad' i l); auto; congruence.
      * destruct (after_same s o j l') as (E1 & E2 & E3). exfalso. cbn in C, D, E. apply (FREE nw ad j l'); auto; congruence.
      * assert (LEN : forall n, nth_error (lp_loops s) n = None -> nth_error (lp_loops s') n <> None -> n = List.length (lp_loops s)).
        { intros n N1 N2. apply nth_error_None in N1. apply nth_error_Some in N2. clear - V N1 N2. destruct V; cbn [lp_loops set_loop] in N2; rewrite ?upd_length in N2; try lia.
          - rewrite app_length in N2. cbn in N2. lia.
          - exfalso. apply nth_error_Some in N2. rewrite shut_recorded_nth in N2. rewrite (proj2 (nth_error_None _ _) N1) in N2. congruence. }
        rewrite (LEN i), (LEN j); auto; congruence.
    + intros i l' H Q. destruct (OLD i l' H) as [(l & L & ->)|(_ & k & nw & ad & -> & _)]; [|reflexivity].
      destruct (after_fill _ _ _ _ _ _ V L Q) as (A & B). destruct (ll_open (loop_after s o i l)) eqn:Z; auto. exfalso.
      destruct (B eq_refl) as [Y|(j & -> & p & P1 & P2)]; [rewrite (F i l L A) in Y; discriminate|]. destruct (K p P1) as (l0 & M1 & _ & _ & M2). rewrite P2 in M1. congruence.
Qed.

Lemma p_C76_start_kind : forall nw,
  (SpecListen.stream_network (str_bytes nw) -> start_kind nw = Some KTcp) /\
  (SpecListen.packet_network (str_bytes nw) -> start_kind nw = Some (KUdp None)) /\
  (~ SpecListen.stream_network (str_bytes nw) -> ~ SpecListen.packet_network (str_bytes nw) -> start_kind nw = None).
Proof.
  intros nw. unfold start_kind. split; [|split].
  - intros H. rewrite (ListenProofs.choice_stream _ H). reflexivity.
  - intros H. rewrite (ListenProofs.choice_packet _ H). reflexivity.
  - intros H1 H2. destruct (ListenProofs.choice_other _ H1 H2) as (r & -> & [-> | ->]); reflexivity.
Qed.

Lemma p_C76_resumes_partial : forall ex s j s1 calls s2 nw ad k, vreach ex s -> vstep ex s (VStopClose j) s1 ->
  stopped_network nw -> ex nw ad = true -> (forall i l, nth_error (lp_loops s) i = Some l -> ll_net l = nw -> ll_addr l = ad -> ll_pc l <> QFill) ->
  vstep ex s1 (VStart calls) s2 -> In (nw, ad) calls -> start_kind nw = Some k ->
  exists os s3, vruns ex s2 os s3 /\ serves s3 k nw ad.
Proof.
  intros ex s j s1 calls s2 nw ad k V0 V1 N X Q V2 I SK. destruct (reach_linv _ _ V0) as [K R _ _].
  assert (T : taken ex s2 nw ad = false).
  { unfold taken. apply andb_false_iff. right. destruct (existsb _ _) eqn:E; auto. exfalso. apply existsb_exists in E as (l' & A & B).
    rewrite !andb_true_iff in B. destruct B as ((B1 & B2) & B3). apply String.eqb_eq in B2, B3. inversion V2; subst s2; cbn [lp_loops] in A. subst calls0.
    apply In_nth_error in A as (i & A). destruct (nth_error (lp_loops s) i) as [l|] eqn:L.
    - pose proof (vstep_loop _ _ _ _ V1 i l L) as L1. rewrite A in L1. assert (L2 : l' = loop_after s (VStopClose j) i l) by congruence. rewrite L2 in B1, B2, B3.
      destruct (after_same s (VStopClose j) i l) as (E1 & E2 & E3). rewrite E1 in B2. rewrite E2 in B3.
      destruct (R i l L (E3 B1) (Q i l L B2 B3)) as (p & P1 & P2); [congruence|]. destruct (K p P1) as (l0 & M1 & M2 & _ & _). rewrite P2, L in M1. inversion M1; subst l0.
      cbn [loop_after] in B1. assert (Y : existsb (fun p => stop_closes (p_network p) && Nat.eqb (p_listener p) i) (lp_props s) = true).
      { apply existsb_exists. exists p. split; auto. rewrite <- M2, B2, P2, Nat.eqb_refl. rewrite (proj2 (stop_closes_iff nw) N). reflexivity. }
      rewrite Y in B1. discriminate.
    - destruct (vstep_new _ _ _ _ _ V1 L) as [E|(k' & n' & a' & E & _)]; [congruence|]. inversion V1; subst. cbn [lp_loops] in *. rewrite shut_recorded_nth, L in E. discriminate. }
  assert (C : In (k, nw, ad) (lp_calls s2)).
  { inversion V2; subst. cbn [lp_calls]. apply in_app_iff. right. unfold start_calls. apply in_flat_map. exists (nw, ad). split; auto. cbn [fst snd]. rewrite SK. left. reflexivity. }
  apply in_split in C as (c1 & c2 & C). set (n := List.length (lp_loops s2)).
  assert (AT : forall ls (a b : lloop), List.length ls = n -> upd (ls ++ [a]) n b = ls ++ [b]).
  { intros ls a b E. rewrite <- E. clear. induction ls as [|x ls IH]; cbn [app List.length upd]; [reflexivity|]. rewrite IH. reflexivity. }
  assert (GET : forall (a : lloop), nth_error (lp_loops s2 ++ [a]) n = Some a). { intros a. unfold n. rewrite nth_error_app2, Nat.sub_diag; auto. }
  exists [VListen (List.length c1); VFill n; VOpen n; VCheck n]. eexists. split.
  - econstructor; [eapply v_listen; eauto|]. econstructor; [eapply v_fill; [cbn [lp_loops]; apply GET|reflexivity]|]. cbn [lp_running lp_props lp_loops lp_stops lp_calls].
    rewrite AT; auto. econstructor; [eapply v_open; [cbn [lp_loops]; apply GET|reflexivity]|]. cbn [lp_running lp_props lp_loops lp_stops lp_calls]. rewrite AT; auto.
    econstructor; [eapply v_check; [cbn [lp_loops]; apply GET|reflexivity]|]. unfold set_loop. cbn [lp_running lp_props lp_loops lp_stops lp_calls]. rewrite AT; auto. apply vr_nil.
  - split; [reflexivity|]. cbn [lp_loops]. eexists. split; [apply in_elt|]. cbn. auto 9.
Qed.

Lemma p_C77_udp_spins_refuted : forall ex s i l, nth_error (lp_loops s) i = Some l -> udp_kind (ll_kind l) = true -> ll_open l = false ->
  ll_pc l = QRead -> lp_running s = true ->
  vruns ex s [VFail i false; VCheck i] s /\ (forall s', ~ vstep ex s (VConn i) s').
Proof.
  intros ex s i l L U O P R. split.
  - econstructor; [eapply v_fail; eauto|]. rewrite U. cbn [andb negb]. econstructor; [eapply (v_check _ _ i (set_pc l QTop)); [|reflexivity]|].
    { unfold set_loop. cbn [lp_loops]. rewrite nth_upd, Nat.eqb_refl, L. reflexivity. }
    match goal with |- vruns _ ?a _ _ => replace a with s; [apply vr_nil|] end. unfold set_loop. cbn [lp_running lp_props lp_loops lp_stops lp_calls]. rewrite R.
    destruct s as [run ps ls st cs]. cbn [lp_running lp_props lp_loops lp_stops lp_calls] in *. subst run. f_equal. clear - L P.
    revert i L. induction ls as [|x ls IH]; intros [|i] L; cbn in *; try discriminate; [|f_equal; auto]. inversion L; subst x. f_equal. destruct l; cbn in *; subst; reflexivity.
  - intros s' V. inversion V; subst. congruence.
Qed.

Lemma p_C77_udp_closed_refuted : forall ex s i l, nth_error (lp_loops s) i = Some l -> udp_kind (ll_kind l) = true ->
  ll_pc l = QRead -> lp_running s = true ->
  exists s1, vstep ex s (VSock i) s1 /\ loop_open s1 i = false /\ (forall s', ~ vstep ex s1 (VConn i) s') /\
    forall n, vruns ex s1 (concat (repeat [VFail i false; VCheck i] n)) s1.
Proof.
  intros ex s i l L U P R. exists (set_loop s i (shut l)). split; [apply v_sock; auto; congruence|].
  assert (L1 : nth_error (lp_loops (set_loop s i (shut l))) i = Some (shut l)) by (cbn [set_loop lp_loops]; rewrite nth_upd, Nat.eqb_refl, L; reflexivity).
  split; [unfold loop_open; rewrite L1; reflexivity|].
  destruct (p_C77_udp_spins_refuted ex (set_loop s i (shut l)) i (shut l) L1 U eq_refl P R) as (A & B). split; [exact B|].
  induction n as [|n IH]; [apply vr_nil|]. cbn [repeat concat]. eapply vruns_app; [exact A|exact IH].
Qed.

Definition left_steps (p : option lpc) : nat :=
  match p with Some QFill => 4 | Some QOpen => 3 | Some QTop => 2 | Some QRead => 1 | Some QGot => 3 | Some QDone => 0 | None => 0 end.

Lemma p_C77_tcp_ends_partial : forall ex s os s' i l, vruns ex s os s' -> nth_error (lp_loops s) i = Some l -> udp_kind (ll_kind l) = false -> ll_open l = false ->
  (own_steps i os <= 4)%nat /\
  (loop_pc s' i = Some QDone \/ exists o s2, own_step i o = true /\ vstep ex s' o s2).
Proof.
  intros ex s os s' i l V L U O.
  assert (B : (own_steps i os <= left_steps (Some (ll_pc l)))%nat /\ exists l', nth_error (lp_loops s') i = Some l' /\ ll_open l' = false).
  { revert l L U O. induction V as [s|s o s1 os s2 V W IH]; intros l L U O; [split; [apply Nat.le_0_l|eauto]|].
    pose proof (vstep_loop _ _ _ _ V i l L) as L1. unfold own_steps in *. cbn [filter].
    assert (O1 : ll_open (loop_after s o i l) = false). { destruct (ll_open (loop_after s o i l)) eqn:E; auto. apply after_same in E. congruence. }
    assert (U1 : udp_kind (ll_kind (loop_after s o i l)) = false).
    { destruct o; cbn [loop_after]; auto; try (destruct (Nat.eqb _ _); auto); try (destruct (lp_running s); auto); try (destruct (_ && _); auto); try (destruct panics; auto); try (destruct (existsb _ _); auto). }
    destruct (IH _ L1 U1 O1) as (A & B). split; [|exact B]. destruct (own_step i o) eqn:S.
    - destruct (vstep_own _ _ _ _ _ V S) as (l0 & L0 & P). rewrite L in L0. inversion L0; subst l0. cbn [List.length].
      destruct o; cbn [own_step] in S; try discriminate; cbn [loop_after] in A; rewrite S in A; try (destruct P as (P & P'); congruence); rewrite P; cbn in *; try lia.
      + destruct (lp_running s); cbn in A; lia.
      + rewrite U in A. cbn in A. lia.
      + destruct panics; cbn in A; lia.
    - assert (E : ll_pc (loop_after s o i l) = ll_pc l).
      { destruct o; cbn [own_step loop_after] in *; auto; try (rewrite S; reflexivity); try (destruct (Nat.eqb _ _); reflexivity). destruct (existsb _ _); reflexivity. }
      rewrite E in A. exact A. }
  destruct B as (B & l' & L' & O'). split.
  - destruct (ll_pc l); cbn in B; lia.
  - unfold loop_pc. rewrite L'. cbn [option_map]. destruct (ll_pc l') eqn:P; [right|right|right|right|right|left; reflexivity].
    + exists (VFill i). eexists. split; [cbn; apply Nat.eqb_refl|eapply v_fill; eauto].
    + exists (VOpen i). eexists. split; [cbn; apply Nat.eqb_refl|eapply v_open; eauto].
    + exists (VCheck i). eexists. split; [cbn; apply Nat.eqb_refl|eapply v_check; eauto].
    + exists (VFail i false). eexists. split; [cbn; apply Nat.eqb_refl|eapply v_fail; eauto].
    + exists (VServe i false). eexists. split; [cbn; apply Nat.eqb_refl|eapply v_serve; eauto].
Qed.
