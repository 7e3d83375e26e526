(* C126: the graceful examples. NODEMO *)
From Verif Require Export SpecGrace LoopProofs.

Definition rec_ (i : nat) : property := Prop_ "tcp" ":8080" i.
Definition LP (o : bool) (p : lpc) : lloop := LL KTcp "tcp" ":8080" o p.
Definition undone (p : lpc) : bool := match p with QDone => false | _ => true end.
Definition inloop (p : lpc) : Prop := looping p \/ p = QDone.
Definition early (p : gpc) : Prop := p = GAsleep \/ p = GGaveUp.

(* the states of the goroutines; [n]: successful net.Listen calls, [b]: Stop returned, [f]: the network is fine *)
Inductive linv : loops -> gpc -> nat -> bool -> bool -> Prop :=
| i_call p f : early p -> linv (LPS false [] [] [] [example_call]) p 0 false f
| i_none p : early p -> linv (LPS false [] [] [] []) p 0 false false
| i_fill p f : early p -> linv (LPS false [] [LP true QFill] [] []) p 1 false f
| i_open p f : early p -> linv (LPS false [rec_ 0] [LP true QOpen] [] []) p 1 false f
| i_run p q f : early p -> inloop q -> (f = true -> q <> QDone) -> linv (LPS true [rec_ 0] [LP (undone q) q] [] []) p 1 false f
| i_tested q f : inloop q -> linv (LPS true [rec_ 0] [LP (undone q) q] [SState] []) GStopping 1 false f
| i_off q f : inloop q -> linv (LPS false [rec_ 0] [LP (undone q) q] [SClose] []) GStopping 1 false f
| i_stopped q f : inloop q -> linv (LPS false [rec_ 0] [LP false q] [SRet] []) GStopped 1 true f
| i_again q f : inloop q -> linv (LPS false [rec_ 0] [LP false q] [SRet] [example_call]) GStarted 1 true f
| i_again_no q : inloop q -> linv (LPS false [rec_ 0] [LP false q] [SRet] []) GStarted 1 true false
| i_fill2 q f : inloop q -> linv (LPS false [rec_ 0] [LP false q; LP true QFill] [SRet] []) GStarted 2 true f
| i_open2 q f : inloop q -> linv (LPS false [rec_ 1] [LP false q; LP true QOpen] [SRet] []) GStarted 2 true f
| i_run2 q r f : inloop q -> inloop r -> (f = true -> r <> QDone) -> linv (LPS true [rec_ 1] [LP false q; LP (undone r) r] [SRet] []) GStarted 2 true f.

Definition is_listen (l : glab) : nat := match l with GLoop (VListen _) => 1 | _ => 0 end.
Definition is_close (l : glab) : bool := match l with GLoop (VStopClose _) => true | _ => false end.
Definition is_fine (s : loops) (l : glab) : bool :=
  negb (failing l) && match l with GLoop (VFail i _) => negb (loop_open s i) | _ => true end.

Lemma early_not p : early p -> p <> GStopping /\ p <> GStopped /\ p <> GStarted.
Proof. intros [-> | ->]; repeat split; discriminate. Qed.

Lemma in_top : inloop QTop. Proof. left. left. auto. Qed.
Lemma in_read : inloop QRead. Proof. left. right. left. auto. Qed.
Lemma in_got : inloop QGot. Proof. left. right. right. auto. Qed.
Lemma in_done : inloop QDone. Proof. right. auto. Qed.
Lemma not_fill : ~ inloop QFill. Proof. intros [[X|[X|X]]|X]; discriminate. Qed.
Lemma not_open : ~ inloop QOpen. Proof. intros [[X|[X|X]]|X]; discriminate. Qed.

Ltac one_of H := repeat match type of H with
  | nth_error [] ?i = Some _ => destruct i; discriminate H
  | nth_error (_ :: _) ?i = Some _ => destruct i; cbn [nth_error] in H; [injection H as H; subst|]
  end.
Ltac dead := solve [congruence | discriminate | exfalso; eauto using not_fill, not_open].
Lemma starts_one calls : starts [rec_ 0] calls -> start_calls calls = [example_call].
Proof.
  intros (L & H). destruct calls as [|[nw ad] [|]]; try discriminate L. destruct (H 0%nat nw ad eq_refl) as (a & b & pa & pb & _ & _ & A & B & -> & ->).
  destruct a as [|[|a]]; [|discriminate A|discriminate A]. destruct b as [|[|b]]; [|discriminate B|discriminate B].
  injection A as <-. injection B as <-. vm_compute. reflexivity.
Qed.

Lemma calls_one {A} (x y : A) c1 c2 : [x] = c1 ++ y :: c2 -> c1 = [] /\ c2 = [] /\ y = x.
Proof. intros H. destruct c1 as [|z c1]; injection H as H1 H2; [subst; auto|]. destruct c1; discriminate. Qed.
Lemma calls_none {A} (y : A) c1 c2 : [] = c1 ++ y :: c2 -> False.
Proof. destruct c1; discriminate. Qed.

Ltac side := auto using in_top, in_read, in_got, in_done; try (intros; discriminate).
Ltac gsolve := first
  [ apply (i_run _ QTop); side; fail | apply (i_run _ QRead); side; fail | apply (i_run _ QGot); side; fail | apply (i_run _ QDone); side; fail
  | apply (i_tested QTop); side; fail | apply (i_tested QRead); side; fail | apply (i_tested QGot); side; fail | apply (i_tested QDone); side; fail
  | apply (i_off QTop); side; fail | apply (i_off QRead); side; fail | apply (i_off QGot); side; fail | apply (i_off QDone); side; fail
  | apply (i_stopped QTop); side; fail | apply (i_stopped QRead); side; fail | apply (i_stopped QGot); side; fail | apply (i_stopped QDone); side; fail
  | apply (i_again QTop); side; fail | apply (i_again QRead); side; fail | apply (i_again QGot); side; fail | apply (i_again QDone); side; fail
  | apply (i_again_no QTop); side; fail | apply (i_again_no QRead); side; fail | apply (i_again_no QGot); side; fail | apply (i_again_no QDone); side; fail
  | apply (i_fill2 QTop); side; fail | apply (i_fill2 QRead); side; fail | apply (i_fill2 QGot); side; fail | apply (i_fill2 QDone); side; fail
  | apply (i_open2 QTop); side; fail | apply (i_open2 QRead); side; fail | apply (i_open2 QGot); side; fail | apply (i_open2 QDone); side; fail
  | eapply (i_run2 QTop); side; fail | eapply (i_run2 QRead); side; fail | eapply (i_run2 QGot); side; fail | eapply (i_run2 QDone); side; fail
  | eapply (i_run2 _ QTop); side; fail | eapply (i_run2 _ QRead); side; fail | eapply (i_run2 _ QGot); side; fail | eapply (i_run2 _ QDone); side; fail ].
Lemma linv_step restart s p cs l s' p' cs' n b f : linv s p n b f -> gtrans restart (GR s p cs) l (GR s' p' cs') ->
  linv s' p' (n + is_listen l) (b || is_close l) (f && is_fine s l).
Proof.
  intros I G. assert (EG : early GGaveUp) by (right; auto). inversion G; subst; clear G; cbn [is_listen is_close].
  all: try match goal with V : vstep _ _ _ _ |- _ => inversion V; subst; clear V end; try discriminate.
  all: inversion I; subst; clear I; cbn [lp_running lp_props lp_loops lp_stops lp_calls] in *; try discriminate.
  all: try match goal with E : early _ |- _ => destruct (early_not _ E) as (? & ? & ?); try congruence end.
  all: try match goal with H : [] = _ ++ _ :: _ |- _ => destruct (calls_none _ _ _ H) end.
  all: try match goal with H : [_] = _ ++ _ :: _ |- _ => destruct (calls_one _ _ _ _ H) as (-> & -> & E); injection E as -> -> -> ; clear H end.
  all: try match goal with H : nth_error [_] ?i = Some _ |- _ => destruct i as [|[|]]; cbn [nth_error] in H; [injection H as <-|discriminate H|discriminate H] end.
  all: try match goal with H : nth_error [_; _] ?i = Some _ |- _ => destruct i as [|[|[|]]]; cbn [nth_error] in H; [injection H as <-|injection H as <-|discriminate H|discriminate H] end.
  all: cbn [LP ll_pc ll_open ll_kind] in *; subst; try discriminate.
  all: try match goal with E : inloop QFill |- _ => destruct (not_fill E) | E : inloop QOpen |- _ => destruct (not_open E) end.
  all: try match goal with E : starts _ _ |- _ => rewrite (starts_one _ E) end.
  all: cbn; rewrite ?andb_true_r, ?andb_false_r.
  all: try solve [constructor; auto using in_top, in_read, in_got, in_done; try (intros; discriminate)].
  all: try match goal with H : nth_error [] ?i = Some _ |- _ => destruct i; discriminate H end.
  all: try solve [gsolve].
  all: match goal with H : nth_error _ ?i = Some _ |- _ => destruct i as [|[|]]; cbn [nth_error] in H; try discriminate H end.
  - constructor. assumption.
  - apply i_stopped. assumption.
Qed.

Lemma network_fine_graces restart s ls s' : network_fine restart s ls s' -> graces restart s ls s'.
Proof. revert s. induction ls as [|l ls IH]; cbn [network_fine]; intros s H; [subst; constructor|]. destruct H as (_ & _ & s1 & T & H). econstructor; eauto. Qed.
Lemma stopped_in_cons l ls : stopped_in (l :: ls) <-> is_close l = true \/ stopped_in ls.
Proof.
  unfold stopped_in. split.
  - intros (j & [-> |H]); [left; auto|right; eauto].
  - intros [H|(j & H)]; [|exists j; right; auto]. destruct l as [[]| | | | |]; try discriminate H. exists j. left. auto.
Qed.
Lemma linv_runs restart s ls s' : graces restart s ls s' -> forall n b f, linv (g_loops s) (g_pc s) n b f ->
  exists b' f', linv (g_loops s') (g_pc s') (n + listens_in ls) b' f' /\ (b' = true <-> b = true \/ stopped_in ls).
Proof.
  induction 1 as [s|s l s1 ls s2 T R IH]; intros n b f I.
  - exists b, f. unfold listens_in. cbn. rewrite Nat.add_0_r. split; [exact I|]. split; [auto|]. intros [X|(j & [])]. exact X.
  - destruct s as [sl p cs], s1 as [sl1 p1 cs1]. cbn [g_loops g_pc] in *. pose proof (linv_step _ _ _ _ _ _ _ _ _ _ _ I T) as I1.
    destruct (IH _ _ _ I1) as (b' & f' & I2 & B). exists b', f'. split.
    + replace (n + listens_in (l :: ls))%nat with (n + is_listen l + listens_in ls)%nat; [exact I2|]. unfold listens_in. destruct l as [[]| | | | |]; cbn; lia.
    + rewrite B, stopped_in_cons, orb_true_iff. tauto.
Qed.
Lemma linv_fine restart ls : forall s s' n b, network_fine restart s ls s' -> linv (g_loops s) (g_pc s) n b true ->
  exists b', linv (g_loops s') (g_pc s') (n + listens_in ls) b' true /\ (b' = true <-> b = true \/ stopped_in ls).
Proof.
  induction ls as [|l ls IH]; intros s s' n b F I; cbn [network_fine] in F.
  - subst s'. exists b. unfold listens_in. cbn. rewrite Nat.add_0_r. split; [exact I|]. split; [auto|]. intros [X|(j & [])]. exact X.
  - destruct F as (F1 & F2 & s1 & T & F). destruct s as [sl p cs], s1 as [sl1 p1 cs1]. cbn [g_loops g_pc] in *. pose proof (linv_step _ _ _ _ _ _ _ _ _ _ _ I T) as I1.
    assert (E : is_fine sl l = true). { unfold is_fine. rewrite F1. destruct l as [[]| | | | |]; try reflexivity. rewrite F2. reflexivity. }
    rewrite E in I1. destruct (IH _ _ _ _ F I1) as (b' & I2 & B). exists b'. split.
    + replace (n + listens_in (l :: ls))%nat with (n + is_listen l + listens_in ls)%nat; [exact I2|]. unfold listens_in. destruct l as [[]| | | | |]; cbn; lia.
    + rewrite B, stopped_in_cons, orb_true_iff. tauto.
Qed.
Lemma linv0 : linv (g_loops grace0) (g_pc grace0) 0 false true.
Proof. apply i_call. left. auto. Qed.
Lemma linv_reach restart ls s : graces restart grace0 ls s -> exists b f, linv (g_loops s) (g_pc s) (listens_in ls) b f /\ (b = true <-> stopped_in ls).
Proof. intros R. destruct (linv_runs _ _ _ _ R _ _ _ linv0) as (b & f & I & B). exists b, f. split; [exact I|]. rewrite B. split; [intros [X|X]; [discriminate X|exact X]|auto]. Qed.
Lemma linv_reach_fine restart ls s : network_fine restart grace0 ls s -> exists b, linv (g_loops s) (g_pc s) (listens_in ls) b true /\ (b = true <-> stopped_in ls).
Proof. intros R. destruct (linv_fine _ _ _ _ _ _ R linv0) as (b & I & B). exists b. split; [exact I|]. rewrite B. split; [intros [X|X]; [discriminate X|exact X]|auto]. Qed.

Lemma hears_open s i : hears s i = loop_open s i.
Proof. reflexivity. Qed.
Lemma settle_nth s cs c : nth_error (settle s cs) c = option_map (fun c => match gc_seat c with CWait i => if hears s i then c else GC CCut (gc_gone c) | _ => c end) (nth_error cs c).
Proof. unfold settle. apply nth_error_map. Qed.

(* waiting clients wait at an open listener; a loop that has got a connection got a client's *)
Definition cinv (s : loops) (cs : list gclient) : Prop :=
  (forall c k i, nth_error cs c = Some k -> gc_seat k = CWait i -> hears s i = true) /\
  (forall i, loop_pc s i = Some QGot -> exists c k, nth_error cs c = Some k /\ gc_seat k = CTaken i).

Lemma same_open s o s' i : vstep all_exclusive s o s' -> match o with VConn _ | VServe _ false | VStopTest | VStopState _ | VStart _ => True | _ => False end ->
  hears s' i = hears s i.
Proof.
  intros V O. unfold hears. destruct (nth_error (lp_loops s) i) as [l|] eqn:L.
  - rewrite (vstep_loop _ _ _ _ V i l L). destruct o; try contradiction; cbn [loop_after]; auto; try (destruct (Nat.eqb _ _); reflexivity). destruct panics; [contradiction|]. destruct (Nat.eqb _ _); reflexivity.
  - destruct (vstep_new _ _ _ _ _ V L) as [-> |(k & nw & ad & E & _)]; [reflexivity|]. destruct V; try contradiction; cbn [lp_loops set_loop] in E; rewrite ?upd_length in *; try congruence.
    + rewrite (upd_one _ _ _ _ _ H), L in E. discriminate.
    + rewrite (upd_one _ _ _ _ _ H), L in E. discriminate.
Qed.
Lemma pc_back s o s' i : vstep all_exclusive s o s' -> loop_pc s' i = Some QGot -> o <> VConn i -> loop_pc s i = Some QGot /\ forall p, o <> VServe i p.
Proof.
  intros V P N. unfold loop_pc in *. destruct (nth_error (lp_loops s) i) as [l|] eqn:L.
  - rewrite (vstep_loop _ _ _ _ V i l L) in P. cbn [option_map] in *. injection P as P.
    destruct o; cbn [loop_after] in P; try (split; [congruence|intros; congruence]); try (destruct (Nat.eqb _ _) eqn:E; [apply Nat.eqb_eq in E; subst|apply Nat.eqb_neq in E]; cbn in P; try discriminate P; try (split; [congruence|intros; congruence])).
    + destruct (lp_running s); discriminate P.
    + destruct (udp_kind (ll_kind l) && negb eof); discriminate P.
    + destruct panics; discriminate P.
    + destruct (existsb _ _); cbn in P; (split; [congruence|intros; congruence]).
  - destruct (vstep_new _ _ _ _ _ V L) as [E|(k & nw & ad & E & _)]; rewrite E in P; discriminate P.
Qed.
Lemma cinv_step restart s p cs l s' p' cs' : cinv s cs -> gtrans restart (GR s p cs) l (GR s' p' cs') -> cinv s' cs'.
Proof.
  intros (A & B) G. inversion G; subst; clear G; try match goal with V : vstep _ _ _ _ |- _ => rename V into V0 end; try match goal with H : nth_error _ _ = Some _ |- _ => rename H into HN end.
  - split.
    + intros c k i H S. rewrite settle_nth in H. destruct (nth_error cs c) as [k0|]; [|discriminate H]. injection H as H. destruct (gc_seat k0) eqn:E; try congruence.
      destruct (hears s' i0) eqn:X; [congruence|]. subst k. discriminate S.
    + intros i P. destruct (pc_back _ _ _ _ V0 P) as (Q & N); [intros X; subst; discriminate|]. destruct (B i Q) as (c & k & H & S). exists c, k. rewrite settle_nth, H. cbn [option_map]. rewrite S. auto.
  - split.
    + intros c0 k0 i0 H S. rewrite (same_open _ _ _ i0 V0 I). rewrite nth_upd in H. destruct (Nat.eqb c0 c) eqn:E; [|eauto]. rewrite HN in H. injection H as <-. discriminate S.
    + intros i0 P. destruct (Nat.eq_dec i0 i) as [-> |N].
      * exists c. eexists. rewrite nth_upd, Nat.eqb_refl, HN. split; reflexivity.
      * destruct (pc_back _ _ _ _ V0 P) as (Q & _); [congruence|]. destruct (B i0 Q) as (c0 & k0 & H & S). exists c0, k0. rewrite nth_upd. destruct (Nat.eqb c0 c) eqn:E; [|auto]. apply Nat.eqb_eq in E. congruence.
  - split.
    + intros c0 k0 i0 H S. rewrite (same_open _ _ _ i0 V0 I). rewrite nth_upd in H. destruct (Nat.eqb c0 c) eqn:E; [|eauto]. rewrite HN in H. injection H as <-. discriminate S.
    + intros i0 P. destruct (pc_back _ _ _ _ V0 P) as (Q & N); [congruence|]. destruct (B i0 Q) as (c0 & k0 & H & S). exists c0, k0. rewrite nth_upd. destruct (Nat.eqb c0 c) eqn:E; [|auto]. apply Nat.eqb_eq in E. exfalso. apply (N false). congruence.
  - split; [intros; rewrite (same_open _ _ _ _ V0 I); eauto|]. intros i P. destruct (pc_back _ _ _ _ V0 P) as (Q & _); [congruence|]. eauto.
  - split; auto.
  - split; [intros; rewrite (same_open _ _ _ _ V0 I); eauto|]. intros i P. destruct (pc_back _ _ _ _ V0 P) as (Q & _); [congruence|]. eauto.
  - split.
    + intros c k i H S. rewrite settle_nth in H. destruct (nth_error cs c) as [k0|]; [|discriminate H]. injection H as H. destruct (gc_seat k0) eqn:E; try congruence.
      destruct (hears s' i0) eqn:X; [congruence|]. subst k. discriminate S.
    + intros i P. destruct (pc_back _ _ _ _ V0 P) as (Q & _); [congruence|]. destruct (B i Q) as (c & k & H & S). exists c, k. rewrite settle_nth, H. cbn [option_map]. rewrite S. auto.
  - split; [intros; rewrite (same_open _ _ _ _ V0 I); eauto|]. intros i P. destruct (pc_back _ _ _ _ V0 P) as (Q & _); [congruence|]. eauto.
  - split; auto.
  - split.
    + intros c k i0 H S. apply nth_snoc in H as [H|(_ & ->)]; [eauto|]. injection S as <-. auto.
    + intros i0 P. destruct (B i0 P) as (c & k & H & S). exists c, k. rewrite nth_error_app1; [auto|]. apply nth_error_Some. congruence.
  - split.
    + intros c k i0 H S. apply nth_snoc in H as [H|(_ & ->)]; [eauto|]. discriminate S.
    + intros i0 P. destruct (B i0 P) as (c & k & H & S). exists c, k. rewrite nth_error_app1; [auto|]. apply nth_error_Some. congruence.
  - split.
    + intros c0 k0 i H S. rewrite nth_upd in H. destruct (Nat.eqb c0 c) eqn:E; [|eauto]. rewrite HN in H. injection H as <-. eauto.
    + intros i P. destruct (B i P) as (c0 & k0 & H & S). rewrite <- S. destruct (Nat.eqb c0 c) eqn:E.
      * apply Nat.eqb_eq in E. subst c0. exists c. eexists. rewrite nth_upd, Nat.eqb_refl, HN. split; [reflexivity|]. cbn. congruence.
      * exists c0, k0. rewrite nth_upd, E. auto.
  - split.
    + intros c0 k0 i H S. rewrite nth_upd in H. destruct (Nat.eqb c0 c) eqn:E; [|eauto]. rewrite HN in H. injection H as <-. discriminate S.
    + intros i P. destruct (B i P) as (c0 & k0 & H & S). exists c0, k0. rewrite nth_upd. destruct (Nat.eqb c0 c) eqn:E; [|auto]. apply Nat.eqb_eq in E. subst c0. rewrite H in HN. injection HN as ->. discriminate S.
Qed.
Lemma cinv_runs restart s ls s' : graces restart s ls s' -> cinv (g_loops s) (g_clients s) -> cinv (g_loops s') (g_clients s').
Proof. induction 1 as [|s l s1 ls s2 T R IH]; auto. intros C. apply IH. destruct s, s1. eapply cinv_step; eauto. Qed.
Lemma cinv0 : cinv (g_loops grace0) (g_clients grace0).
Proof. split; [intros [|c] k i H; discriminate H|]. intros [|i] H; discriminate H. Qed.

(* a client the server has *)
Lemma kept_step restart s l s' c k : gtrans restart s l s' -> nth_error (g_clients s) c = Some k -> gc_gone k = false -> accepted (Some (gc_seat k)) -> l <> GGone c ->
  exists k', nth_error (g_clients s') c = Some k' /\ gc_gone k' = false /\ accepted (Some (gc_seat k')).
Proof.
  intros T H G A N.
  assert (W : forall i, gc_seat k <> CWait i) by (intros i X; rewrite X in A; destruct A as [A|(j & A)]; discriminate A).
  assert (ST : forall sl, exists k', nth_error (settle sl (g_clients s)) c = Some k' /\ gc_gone k' = false /\ accepted (Some (gc_seat k'))).
  { intros sl. exists k. rewrite settle_nth, H. cbn [option_map]. split; [|auto]. destruct (gc_seat k) eqn:E; try reflexivity. destruct (W i eq_refl). }
  destruct T; cbn [g_clients] in *; eauto.
  - rewrite nth_upd. destruct (Nat.eqb c c0) eqn:E; [|eauto]. apply Nat.eqb_eq in E. subst c0. rewrite H1. eexists. split; [reflexivity|]. cbn. split; [congruence|]. right. eauto.
  - rewrite nth_upd. destruct (Nat.eqb c c0) eqn:E; [|eauto]. apply Nat.eqb_eq in E. subst c0. rewrite H1. eexists. split; [reflexivity|]. cbn. split; [congruence|]. left. auto.
  - exists k. rewrite nth_error_app1; [auto|]. apply nth_error_Some. congruence.
  - exists k. rewrite nth_error_app1; [auto|]. apply nth_error_Some. congruence.
  - rewrite nth_upd. destruct (Nat.eqb c c0) eqn:E; [|eauto]. apply Nat.eqb_eq in E. congruence.
  - rewrite nth_upd. destruct (Nat.eqb c c0) eqn:E; [|eauto]. apply Nat.eqb_eq in E. subst c0. rewrite H in H0. injection H0 as ->. discriminate G.
Qed.
Lemma gone_back restart s ls s' c k : graces restart s ls s' -> nth_error (g_clients s') c = Some k -> gc_gone k = true -> 
  In (GGone c) ls \/ exists k0, nth_error (g_clients s) c = Some k0 /\ gc_gone k0 = true.
Proof.
  induction 1 as [|s l s1 ls s2 T R IH]; [intros; eauto|]. intros H G. destruct (IH H G) as [X|(k0 & H0 & G0)]; [left; right; auto|]. clear - T H0 G0.
  assert (ST : forall sl, nth_error (settle sl (g_clients s)) c = Some k0 -> exists k1, nth_error (g_clients s) c = Some k1 /\ gc_gone k1 = true).
  { intros sl X. rewrite settle_nth in X. destruct (nth_error (g_clients s) c) as [k1|]; [|discriminate X]. injection X as X. exists k1. split; [auto|]. destruct (gc_seat k1); try congruence. destruct (hears sl i); subst k0; auto. }
  destruct T; cbn [g_clients] in *; eauto.
  - rewrite nth_upd in H0. destruct (Nat.eqb c c0) eqn:E; [|eauto]. apply Nat.eqb_eq in E. subst c0. rewrite H1 in H0. injection H0 as <-. eauto.
  - rewrite nth_upd in H0. destruct (Nat.eqb c c0) eqn:E; [|eauto]. apply Nat.eqb_eq in E. subst c0. rewrite H1 in H0. injection H0 as <-. eauto.
  - apply nth_snoc in H0 as [H0|(_ & ->)]; [eauto|discriminate G0].
  - apply nth_snoc in H0 as [H0|(_ & ->)]; [eauto|discriminate G0].
  - rewrite nth_upd in H0. destruct (Nat.eqb c c0) eqn:E; [|eauto]. apply Nat.eqb_eq in E. subst c0. left. left. auto.
  - rewrite nth_upd in H0. destruct (Nat.eqb c c0) eqn:E; [|eauto]. apply Nat.eqb_eq in E. subst c0. rewrite H in H0. injection H0 as <-. eauto.
Qed.

Lemma p_C126_kept : forall restart ls s ls' s' c, graces restart grace0 ls s -> graces restart s ls' s' ->
  accepted (seat s c) -> ~ In (GGone c) (ls ++ ls') -> accepted (seat s' c).
Proof.
  intros restart ls s ls' s' c R R' A N. unfold seat in A. destruct (nth_error (g_clients s) c) as [k|] eqn:H; [|destruct A as [A|(i & A)]; discriminate A]. cbn [option_map] in A.
  assert (G : gc_gone k = false). { destruct (gc_gone k) eqn:G; auto. destruct (gone_back _ _ _ _ _ _ R H G) as [X|(k0 & X & _)]; [exfalso; apply N; apply in_or_app; auto|destruct c; discriminate X]. }
  assert (N' : ~ In (GGone c) ls') by (intros X; apply N; apply in_or_app; auto). clear N R.
  revert k H A G. induction R' as [s|s l s1 ls' s2 T R IH]; intros k H A G; [unfold seat; rewrite H; exact A|].
  destruct (kept_step _ _ _ _ _ _ T H G A) as (k1 & H1 & G1 & A1); [intros X; apply N'; left; auto|]. apply (IH (fun X => N' (or_intror X)) k1 H1 A1 G1).
Qed.

Lemma not_started s ls s' : graces false s ls s' -> g_pc s <> GStarted -> g_pc s' <> GStarted.
Proof. induction 1 as [|s l s1 ls s2 T R IH]; auto. intros X. apply IH. destruct T; cbn [g_pc] in *; try congruence. Qed.

Lemma asleep_running restart s ls s' : graces restart s ls s' -> g_pc s' = GAsleep ->
  g_pc s = GAsleep /\ (lp_running (g_loops s) = true \/ (exists i, In (GLoop (VOpen i)) ls) -> lp_running (g_loops s') = true).
Proof.
  induction 1 as [s|s l s1 ls s2 T R IH]; intros P; [split; [exact P|]; intros [X|(i & [])]; exact X|].
  destruct (IH P) as (P1 & K). destruct T; cbn [g_pc g_loops] in *; try discriminate P1; (split; [exact P1|]); intros X; apply K; clear IH K;
    try match goal with V : vstep _ _ _ _ |- _ => inversion V; subst; clear V; cbn [lp_running] in *; try discriminate end;
    (destruct X as [X|(i1 & [X|X])]; [left; try exact X; try reflexivity|try discriminate X; try (left; reflexivity); try (injection X as X; subst)|right; eauto]).
Qed.

Definition gfate (ls : list glab) (cs : list gclient) : Prop := forall c,
  match nth_error cs c with
  | Some k => (gc_gone k = true <-> In (GGone c) ls) /\ (gc_seat k = CEnded <-> In (GEof c) ls) /\ (gc_seat k = CEnded -> gc_gone k = true)
  | None => ~ In (GGone c) ls /\ ~ In (GEof c) ls
  end.
Lemma in_snoc {A} (x y : A) l : In x (l ++ [y]) <-> In x l \/ y = x.
Proof. rewrite in_app_iff. cbn. tauto. Qed.
Lemma gfate_settle ls l s cs : (forall c, l <> GGone c) -> (forall c, l <> GEof c) -> gfate ls cs -> gfate (ls ++ [l]) (settle s cs).
Proof.
  intros N1 N2 F c. rewrite settle_nth. specialize (F c). destruct (nth_error cs c) as [k|]; cbn [option_map]; rewrite !in_snoc; [|destruct F as (F1 & F2); split; intros [X|X]; [exact (F1 X)|exact (N1 c X)|exact (F2 X)|exact (N2 c X)]].
  assert (Q : forall P : Prop, (P \/ l = GGone c <-> P) /\ (P \/ l = GEof c <-> P)) by (intros P; split; split; auto; (intros [X|X]; [exact X|]); [destruct (N1 c X)|destruct (N2 c X)]).
  rewrite (proj1 (Q _)), (proj2 (Q _)). destruct (gc_seat k) eqn:E; try (rewrite E; exact F). destruct (hears s i); [rewrite E; exact F|]. cbn [gc_seat gc_gone]. destruct F as (A & B & C). split; [exact A|]. split; [rewrite <- B; split; discriminate|discriminate].
Qed.
Lemma gfate_same ls l cs : (forall c, l <> GGone c) -> (forall c, l <> GEof c) -> gfate ls cs -> gfate (ls ++ [l]) cs.
Proof.
  intros N1 N2 F c. specialize (F c). assert (Q : forall P : Prop, (P \/ l = GGone c <-> P) /\ (P \/ l = GEof c <-> P)) by (intros P; split; split; auto; (intros [X|X]; [exact X|]); [destruct (N1 c X)|destruct (N2 c X)]).
  destruct (nth_error cs c); rewrite !in_snoc, (proj1 (Q _)), (proj2 (Q _)); exact F.
Qed.
Lemma gfate_seat ls cs c k t : gfate ls cs -> nth_error cs c = Some k -> gc_seat k <> CEnded -> t <> CEnded -> gfate ls (upd cs c (GC t (gc_gone k))).
Proof.
  intros F H N M d. rewrite nth_upd. specialize (F d). destruct (Nat.eqb_spec d c) as [->|]; [|exact F]. rewrite H in *. destruct F as (A & B & C). cbn [gc_seat gc_gone].
  split; [exact A|]. split; [|tauto]. rewrite <- B. tauto.
Qed.
Lemma gfate_new ls cs t : gfate ls cs -> t <> CEnded -> gfate ls (cs ++ [GC t false]).
Proof.
  intros F N c. specialize (F c). destruct (nth_error cs c) as [k|] eqn:E; [rewrite nth_error_app1 by (apply nth_error_Some; congruence); rewrite E; exact F|].
  destruct (nth_error (cs ++ [GC t false]) c) as [k|] eqn:E'; auto. apply nth_snoc in E' as [X|(-> & ->)]; [congruence|]. cbn [gc_seat gc_gone]. split; [split; [discriminate|tauto]|]. split; [split; [contradiction|tauto]|contradiction].
Qed.
Lemma gfate_step restart ls s l s' : gfate ls (g_clients s) -> gtrans restart s l s' -> gfate (ls ++ [l]) (g_clients s').
Proof.
  intros F T. destruct T as [s p cs o s' Al V|s p cs i c k s' V Hc Sk|s p cs i c k s' V Hc Sk|s cs s' V|s cs Rn|s cs j s' V|s cs j s' V|s cs calls s' Re V|s cs Re Rn|s p cs i Hi|s p cs Hn|s p cs c k Hc|s p cs c Hc]; cbn [g_clients] in *;
    try (apply gfate_settle; try discriminate; exact F); try (apply gfate_same; try discriminate; exact F).
  - apply gfate_same; try discriminate. apply gfate_seat; auto; try discriminate. rewrite Sk. discriminate.
  - apply gfate_same; try discriminate. apply gfate_seat; auto; try discriminate. rewrite Sk. discriminate.
  - apply gfate_same; try discriminate. apply gfate_new; [exact F|discriminate].
  - apply gfate_same; try discriminate. apply gfate_new; [exact F|discriminate].
  - intros d. specialize (F d). rewrite nth_upd. destruct (Nat.eqb_spec d c) as [->|N].
    + rewrite Hc in *. rewrite !in_snoc. destruct F as (A & B & C). cbn [gc_seat gc_gone]. split; [tauto|]. split; [|tauto]. rewrite B. split; [tauto|intros [X|X]; [exact X|discriminate]].
    + assert (Q : GGone c <> GGone d) by congruence. assert (Q' : GGone c <> GEof d) by discriminate. destruct (nth_error cs d); rewrite !in_snoc; tauto.
  - intros d. specialize (F d). rewrite nth_upd. destruct (Nat.eqb_spec d c) as [->|N].
    + rewrite Hc in *. rewrite !in_snoc. destruct F as (A & B & C). cbn [gc_seat gc_gone] in *. split; [|tauto]. split; [tauto|reflexivity].
    + assert (Q : GEof c <> GEof d) by congruence. assert (Q' : GEof c <> GGone d) by discriminate. destruct (nth_error cs d); rewrite !in_snoc; tauto.
Qed.
Lemma gfate_runs restart s ls s' : graces restart s ls s' -> forall ls0, gfate ls0 (g_clients s) -> gfate (ls0 ++ ls) (g_clients s').
Proof.
  induction 1 as [s|s l s1 ls s2 T R IH]; intros ls0 F; [rewrite app_nil_r; exact F|]. change (l :: ls) with ([l] ++ ls). rewrite app_assoc. apply IH. eapply gfate_step; eauto.
Qed.

Lemma p_C126_ended : forall restart ls s c, graces restart grace0 ls s ->
  (seat s c = Some CEnded <-> In (GEof c) ls) /\ (In (GEof c) ls -> In (GGone c) ls) /\
  (seat s c = Some CServed -> In (GGone c) ls -> exists s1, gtrans restart s (GEof c) s1) /\
  (restart = false -> ~ In GStartNo ls /\ forall calls, ~ In (GLoop (VStart calls)) ls).
Proof.
  intros restart ls s c R. assert (F0 : gfate [] (g_clients grace0)) by (intros [|d]; cbn; split; intros []).
  pose proof (gfate_runs _ _ _ _ R [] F0 c) as F. cbn [app] in F. unfold seat. split; [|split; [|split]].
  - destruct (nth_error (g_clients s) c) as [k|]; cbn [option_map]; [|split; [discriminate|tauto]]. destruct F as (_ & B & _). rewrite <- B. split; [congruence|intros ->; reflexivity].
  - destruct (nth_error (g_clients s) c) as [k|]; tauto.
  - destruct (nth_error (g_clients s) c) as [k|] eqn:Hc; [|discriminate]. cbn [option_map]. intros X G. injection X as X. destruct F as (A & _). apply A in G. destruct k as [t g]. cbn in *. subst.
    destruct s as [sl p cs]. eexists. apply g_eof. exact Hc.
  - intros ->. clear F F0. induction R as [|s l s1 ls s2 T R IH]; [split; [tauto|intros calls []]|]. destruct IH as (A & B).
    split; [intros [->|X]; [inversion T; discriminate|tauto]|intros calls [->|X]; [inversion T; subst; discriminate|exact (B calls X)]].
Qed.

Lemma p_C126_stop_works : forall restart ls s i, graces restart grace0 ls s -> In (GLoop (VOpen i)) ls -> g_pc s = GAsleep ->
  (forall s1, ~ gtrans restart s GStopNo s1) /\
  exists j s1, graces restart s [GLoop VStopTest; GLoop (VStopState j); GLoop (VStopClose j)] s1 /\ g_pc s1 = GStopped /\ dials s1 false.
Proof.
  intros restart ls s i R O P. destruct (asleep_running _ _ _ _ R P) as (_ & K). specialize (K (or_intror (ex_intro _ i O))).
  split; [intros s1 T; inversion T; subst; cbn [g_loops] in K; congruence|].
  destruct s as [l p cs]. cbn [g_pc g_loops] in *. subst p. exists (List.length (lp_stops l)).
  assert (G : exists s1, graces restart (GR l GAsleep cs) [GLoop VStopTest; GLoop (VStopState (List.length (lp_stops l))); GLoop (VStopClose (List.length (lp_stops l)))] s1 /\ g_pc s1 = GStopped).
  { eexists. split.
    - eapply gr_cons; [apply g_stop_test; constructor; exact K|].
      eapply gr_cons; [apply g_stop_state; constructor; cbn [lp_stops]; apply nth_snoc_last|].
      eapply gr_cons; [apply g_stop_close; apply v_stop_close; cbn [lp_stops]; rewrite nth_upd, Nat.eqb_refl, nth_snoc_last; reflexivity|]. constructor.
    - reflexivity. }
  destruct G as (s1 & G & P1). exists s1. split; [exact G|]. split; [exact P1|].
  assert (W : forall a b c ls1, graces restart a ls1 b -> forall ls2, graces restart b ls2 c -> graces restart a (ls1 ++ ls2) c).
  { intros a b c ls1 H. induction H; intros ls2 H2; [exact H2|]. cbn. econstructor; eauto. }
  pose proof (W _ _ _ _ R _ G) as R1.
  destruct (linv_reach _ _ _ R1) as (b & f & I & B). rewrite P1 in I.
  destruct (linv_reach _ _ _ R) as (b0 & f0 & I0 & _). cbn [g_pc g_loops] in I0.
  intros k. clear - I. inversion I; subst; try match goal with E : early GStopped |- _ => destruct E; discriminate end.
  unfold loop_open. cbn. destruct k as [|[|k]]; reflexivity.
Qed.

Lemma p_C126_stopped : forall restart ls s, graces restart grace0 ls s -> stopped_in ls ->
  ((listens_in ls <= 1)%nat -> dials s false /\ (forall c i, seat s c <> Some (CWait i)) /\ (forall s1, ~ gtrans restart s GStartNo s1)) /\
  (restart = false -> (listens_in ls <= 1)%nat).
Proof.
  intros restart ls s R St. destruct (linv_reach _ _ _ R) as (b & f & I & B). rewrite <- B in St. subst b. pose proof (cinv_runs _ _ _ _ R cinv0) as (C & _). split.
  - intros L. assert (D : dials s false). { cbn [dials]. inversion I; subst; try (exfalso; lia); intros [|[|i]]; reflexivity. }
    split; [exact D|]. split.
    + intros c i X. unfold seat in X. destruct (nth_error (g_clients s) c) as [k|] eqn:H; [|discriminate X]. injection X as X. specialize (C c k i H X). rewrite hears_open, (D i) in C. discriminate C.
    + intros s1 T. inversion T; subst. cbn [g_loops g_pc] in *. inversion I; subst; discriminate.
  - intros ->. assert (NS : g_pc s <> GStarted).
    { apply (not_started _ _ _ R). discriminate. }
    inversion I; subst; try lia; congruence.
Qed.

Lemma p_C126_restarted : forall ls s, network_fine true grace0 ls s -> stopped_in ls ->
  (g_pc s = GStarted -> listens_in ls = 1%nat -> exists s1, gtrans true s (GLoop (VListen 0)) s1) /\
  ((listens_in ls <= 2)%nat /\ (listens_in ls = 2%nat -> dials s true)).
Proof.
  intros ls s R St. destruct (linv_reach_fine _ _ _ R) as (b & I & B). rewrite <- B in St. subst b. split.
  - intros P L. destruct s as [sl p cs]. cbn [g_loops g_pc] in *. subst p. inversion I; subst; try (exfalso; congruence).
    eexists. apply g_plain; [reflexivity|]. apply (v_listen _ _ [] [] KTcp "tcp" ":8080"); [reflexivity|]. destruct q; reflexivity.
  - inversion I; subst; (split; [lia|]); intros L; try (exfalso; lia); cbn [dials]; exists 1%nat; match goal with E : _ = g_loops s |- _ => rewrite <- E end; try reflexivity.
    unfold loop_open. cbn. destruct r; auto. match goal with E : _ -> QDone <> QDone |- _ => destruct (E eq_refl eq_refl) end.
Qed.

Lemma graces_app restart s a s1 : graces restart s a s1 -> forall b s2, graces restart s1 b s2 -> graces restart s (a ++ b) s2.
Proof. induction 1; cbn; auto. intros b s3 B. econstructor; eauto. Qed.
Definition waiting (s : grace) (c i : nat) : Prop := seat s c = Some (CWait i).
Definition reaches (restart : bool) (s : grace) (c : nat) : Prop := exists ls s', graces restart s ls s' /\ seat s' c = Some CServed.
Lemma reaches_step restart s l s1 c : gtrans restart s l s1 -> reaches restart s1 c -> reaches restart s c.
Proof. intros T (ls & s2 & R & S). exists (l :: ls), s2. split; [econstructor; eauto|exact S]. Qed.
(* a plain step of loop i leaves the clients waiting at it *)
Lemma wait_plain sl p cs sl' c i : waiting (GR sl p cs) c i -> hears sl' i = true -> waiting (GR sl' p (settle sl' cs)) c i.
Proof.
  unfold waiting, seat. cbn [g_clients]. intros W H. rewrite settle_nth. destruct (nth_error cs c) as [k|]; [|discriminate W]. cbn [option_map] in *. injection W as W. rewrite W. rewrite H. congruence.
Qed.
Section Serve.
  Context (restart : bool) (c i : nat).
  Lemma serve_read sl p cs : waiting (GR sl p cs) c i -> nth_error (lp_loops sl) i = Some (LP true QRead) -> reaches restart (GR sl p cs) c.
  Proof using.
    unfold waiting, seat. cbn [g_clients]. intros W L. destruct (nth_error cs c) as [k|] eqn:K; [|discriminate W]. injection W as W.
    eexists [GLoop (VConn i); GLoop (VServe i false)], _. split.
    - eapply gr_cons; [eapply g_conn; [eapply v_conn; [exact L|reflexivity|reflexivity]|exact K|exact W]|].
      eapply gr_cons; [eapply (g_serve _ _ _ _ _ c); [eapply v_serve; [cbn [lp_loops set_loop]; rewrite nth_upd, Nat.eqb_refl, L; reflexivity|reflexivity]|rewrite nth_upd, Nat.eqb_refl, K; reflexivity|reflexivity]|].
      apply gr_nil.
    - unfold seat. cbn [g_clients]. rewrite nth_upd, Nat.eqb_refl, nth_upd, Nat.eqb_refl, K. reflexivity.
  Qed.
  Lemma serve_top sl p cs : waiting (GR sl p cs) c i -> nth_error (lp_loops sl) i = Some (LP true QTop) -> lp_running sl = true -> reaches restart (GR sl p cs) c.
  Proof using.
    intros W L R. assert (E : nth_error (upd (lp_loops sl) i (LP true QRead)) i = Some (LP true QRead)) by (rewrite nth_upd, Nat.eqb_refl, L; reflexivity).
    assert (V : vstep all_exclusive sl (VCheck i) (set_loop sl i (LP true QRead))).
    { pose proof (v_check all_exclusive sl i _ L eq_refl) as V. rewrite R in V. exact V. }
    eapply reaches_step; [eapply g_plain; [|exact V]; reflexivity|]. apply serve_read; [|exact E]. apply (wait_plain sl); [exact W|]. unfold hears. cbn [lp_loops set_loop]. rewrite E. reflexivity.
  Qed.
  Lemma serve_got sl p cs : cinv sl cs -> waiting (GR sl p cs) c i -> nth_error (lp_loops sl) i = Some (LP true QGot) -> lp_running sl = true -> reaches restart (GR sl p cs) c.
  Proof using.
    intros (_ & C) W L R. destruct (C i) as (c' & k & K & S); [unfold loop_pc; rewrite L; reflexivity|].
    assert (V : vstep all_exclusive sl (VServe i false) (set_loop sl i (LP true QTop))) by exact (v_serve all_exclusive sl i _ false L eq_refl).
    eapply reaches_step; [eapply g_serve; [exact V|exact K|exact S]|]. apply serve_top; [|cbn [lp_loops set_loop]; rewrite nth_upd, Nat.eqb_refl, L; reflexivity|exact R].
    unfold waiting, seat in *. cbn [g_clients] in *. rewrite nth_upd. destruct (Nat.eqb c c') eqn:E; [|exact W]. apply Nat.eqb_eq in E. subst c'. rewrite K in W. cbn in W. congruence.
  Qed.
  Lemma serve_open sl p cs : waiting (GR sl p cs) c i -> nth_error (lp_loops sl) i = Some (LP true QOpen) -> reaches restart (GR sl p cs) c.
  Proof using.
    intros W L. pose proof (v_open all_exclusive sl i _ L eq_refl) as V. change (set_pc (LP true QOpen) QTop) with (LP true QTop) in V.
    assert (E : nth_error (upd (lp_loops sl) i (LP true QTop)) i = Some (LP true QTop)) by (rewrite nth_upd, Nat.eqb_refl, L; reflexivity).
    eapply reaches_step; [eapply g_plain; [|exact V]; reflexivity|]. apply serve_top; [|exact E|reflexivity]. apply (wait_plain sl); [exact W|]. unfold hears. cbn [lp_loops]. rewrite E. reflexivity.
  Qed.
  Lemma serve_fill sl p cs : waiting (GR sl p cs) c i -> nth_error (lp_loops sl) i = Some (LP true QFill) -> reaches restart (GR sl p cs) c.
  Proof using.
    intros W L. pose proof (v_fill all_exclusive sl i _ L eq_refl) as V. change (set_pc (LP true QFill) QOpen) with (LP true QOpen) in V.
    assert (E : nth_error (upd (lp_loops sl) i (LP true QOpen)) i = Some (LP true QOpen)) by (rewrite nth_upd, Nat.eqb_refl, L; reflexivity).
    eapply reaches_step; [eapply g_plain; [|exact V]; reflexivity|]. apply serve_open; [|exact E]. apply (wait_plain sl); [exact W|]. unfold hears. cbn [lp_loops]. rewrite E. reflexivity.
  Qed.
  Lemma serve_loop sl p cs q : cinv sl cs -> waiting (GR sl p cs) c i -> nth_error (lp_loops sl) i = Some (LP true q) -> inloop q -> q <> QDone -> lp_running sl = true -> reaches restart (GR sl p cs) c.
  Proof using.
    intros C W L [[-> |[-> | ->]]| ->] N R; [apply serve_top|apply serve_read|apply serve_got|]; auto. congruence.
  Qed.
End Serve.

Lemma p_C126_waiting_served_partial : forall restart ls s c i, network_fine restart grace0 ls s -> g_pc s <> GStopping -> seat s c = Some (CWait i) ->
  exists ls' s', graces restart s ls' s' /\ seat s' c = Some CServed.
Proof.
  intros restart ls s c i F N W. destruct (linv_reach_fine _ _ _ F) as (b & I & _). pose proof (cinv_runs _ _ _ _ (network_fine_graces _ _ _ _ F) cinv0) as C.
  destruct s as [sl p cs]. cbn [g_loops g_pc g_clients] in *. change (reaches restart (GR sl p cs) c).
  assert (H : hears sl i = true). { unfold seat in W. cbn [g_clients] in W. destruct (nth_error cs c) as [k|] eqn:K; [|discriminate W]. injection W as W. destruct C as (C & _). exact (C c k i K W). }
  inversion I; subst; try congruence; unfold hears in H; cbn [lp_loops] in H.
  - destruct i; discriminate H.
  - destruct i as [|[|i]]; try discriminate H. apply (serve_fill _ _ 0); auto.
  - destruct i as [|[|i]]; try discriminate H. apply (serve_open _ _ 0); auto.
  - destruct i as [|[|i]]; try discriminate H. apply (serve_loop _ _ 0 _ _ _ q); auto. cbn. destruct q; auto. match goal with E : _ -> QDone <> QDone |- _ => destruct (E eq_refl eq_refl) end.
  - destruct i as [|[|i]]; discriminate H.
  - destruct i as [|[|i]]; discriminate H.
  - destruct i as [|[|[|i]]]; try discriminate H. apply (serve_fill _ _ 1); auto.
  - destruct i as [|[|[|i]]]; try discriminate H. apply (serve_open _ _ 1); auto.
  - destruct i as [|[|[|i]]]; try discriminate H. apply (serve_loop _ _ 1 _ _ _ r); auto. cbn. destruct r; auto. match goal with E : _ -> QDone <> QDone |- _ => destruct (E eq_refl eq_refl) end.
Qed.

Lemma p_C126_cut_refuted : forall restart ls s j s1 c i, graces restart grace0 ls s -> gtrans restart s (GLoop (VStopClose j)) s1 ->
  seat s c = Some (CWait i) -> seat s1 c = Some CCut.
Proof.
  intros restart ls s j s1 c i R T W. assert (R1 : graces restart grace0 (ls ++ [GLoop (VStopClose j)]) s1) by (eapply graces_app; [exact R|eapply gr_cons; [exact T|apply gr_nil]]).
  assert (D : forall i, hears (g_loops s1) i = false).
  { destruct (linv_reach _ _ _ R1) as (b & f & I & B). assert (b = true) by (apply B; exists j; apply in_or_app; right; left; auto). subst b.
    assert (P : g_pc s1 = GStopped) by (inversion T; subst; [discriminate|reflexivity]). rewrite P in I. intros i0. inversion I; subst; [|congruence..]. destruct i0 as [|[|]]; reflexivity. }
  inversion T; subst; [discriminate|]. cbn [g_loops] in D. unfold seat in *. cbn [g_clients] in *. rewrite settle_nth. destruct (nth_error cs c) as [k|]; [|discriminate W]. cbn [option_map] in *. injection W as W. rewrite W, D. reflexivity.
Qed.

Lemma p_C126_too_early_refuted : forall restart ls s, network_fine restart grace0 ls s -> In GStopNo ls ->
  ~ stopped_in ls /\ (listens_in ls = 1%nat -> dials s true) /\ (listens_in ls <= 1)%nat.
Proof.
  intros restart ls s F H. destruct (linv_reach_fine _ _ _ F) as (b & I & B). assert (P : g_pc s = GGaveUp).
  { pose proof (network_fine_graces _ _ _ _ F) as R. clear - R H. induction R as [|s l s1 ls s2 T R IH]; [destruct H|]. destruct H as [-> |H]; [|auto].
    assert (X : g_pc s1 = GGaveUp) by (inversion T; reflexivity). clear - X R. induction R as [|s l s1 ls s2 T R IH]; auto. apply IH. destruct T; cbn [g_pc] in *; congruence. }
  rewrite P in I. inversion I; subst; (split; [rewrite <- B; discriminate|]; split; [|lia]); intros L; try (exfalso; lia); cbn [dials]; exists 0%nat; match goal with E : _ = g_loops s |- _ => rewrite <- E end; try reflexivity.
  unfold loop_open. cbn. destruct q; auto. match goal with E : _ -> QDone <> QDone |- _ => destruct (E eq_refl eq_refl) end.
Qed.

(* steps computed, for concrete runs: the first client that fits is taken *)
Fixpoint first_at (f : gseat -> bool) (cs : list gclient) : option nat :=
  match cs with [] => None | k :: r => if f (gc_seat k) then Some 0%nat else option_map S (first_at f r) end.
Lemma first_at_sound f cs c : first_at f cs = Some c -> exists k, nth_error cs c = Some k /\ f (gc_seat k) = true.
Proof.
  revert c. induction cs as [|k cs IH]; intros c H; [discriminate H|]. cbn [first_at] in H. destruct (f (gc_seat k)) eqn:E; [injection H as <-; exists k; auto|].
  destruct (first_at f cs) as [c'|]; [|discriminate H]. injection H as <-. apply (IH c' eq_refl).
Qed.
Definition gdo (restart : bool) (s : grace) (l : glab) : option grace :=
  let cs := g_clients s in
  match l with
  | GLoop o =>
      match vdo all_exclusive (g_loops s) o with
      | None => None
      | Some s' =>
          if loop_alone o then Some (GR s' (g_pc s) (settle s' cs)) else
          match o, g_pc s with
          | VConn i, p => match first_at (fun x => match x with CWait j => Nat.eqb j i | _ => false end) cs with
                       | Some c => match nth_error cs c with Some k => Some (GR s' p (upd cs c (GC (CTaken i) (gc_gone k)))) | None => None end
                       | None => None end
          | VServe i false, p => match first_at (fun x => match x with CTaken j => Nat.eqb j i | _ => false end) cs with
                       | Some c => match nth_error cs c with Some k => Some (GR s' p (upd cs c (GC CServed (gc_gone k)))) | None => None end
                       | None => None end
          | VStopTest, GAsleep => Some (GR s' GStopping cs)
          | VStopState _, GStopping => Some (GR s' GStopping cs)
          | VStopClose _, GStopping => Some (GR s' GStopped (settle s' cs))
          | VStart _, GStopped => if restart then Some (GR s' GStarted cs) else None
          | _, _ => None
          end
      end
  | GStopNo => match g_pc s with GAsleep => if lp_running (g_loops s) then None else Some (GR (g_loops s) GGaveUp cs) | _ => None end
  | GDial =>
      if existsb ll_open (lp_loops (g_loops s)) then
        match lp_loops (g_loops s) with
        | l0 :: _ => let i := if ll_open l0 then 0%nat else 1%nat in if hears (g_loops s) i then Some (GR (g_loops s) (g_pc s) (cs ++ [GC (CWait i) false])) else None
        | [] => None end
      else Some (GR (g_loops s) (g_pc s) (cs ++ [GC CRefused false]))
  | _ => None
  end.
Lemma gdo_sound restart s l s' : gdo restart s l = Some s' -> gtrans restart s l s'.
Proof.
  destruct s as [sl p cs]. unfold gdo. cbn [g_loops g_pc g_clients]. destruct l as [o| | | | |]; try discriminate.
  - destruct (vdo all_exclusive sl o) as [sl'|] eqn:V; [|discriminate]. apply vdo_sound in V. destruct (loop_alone o) eqn:P; [intros H; injection H as <-; apply g_plain; auto|].
    destruct o; try discriminate.
    + destruct (first_at _ cs) as [c|] eqn:F; [|discriminate]. apply first_at_sound in F as (k & K & S). rewrite K. intros H. injection H as <-. eapply g_conn; eauto. destruct (gc_seat k); try discriminate S. apply Nat.eqb_eq in S. congruence.
    + destruct panics; [discriminate|]. destruct (first_at _ cs) as [c|] eqn:F; [|discriminate]. apply first_at_sound in F as (k & K & S). rewrite K. intros H. injection H as <-. eapply g_serve; eauto. destruct (gc_seat k); try discriminate S. apply Nat.eqb_eq in S. congruence.
    + destruct p; try discriminate. intros H. injection H as <-. apply g_stop_test; auto.
    + destruct p; try discriminate. intros H. injection H as <-. apply g_stop_state; auto.
    + destruct p; try discriminate. intros H. injection H as <-. apply g_stop_close; auto.
    + destruct p; try discriminate. destruct restart; [|discriminate]. intros H. injection H as <-. apply g_start; auto.
  - destruct p; try discriminate. destruct (lp_running sl) eqn:R; [discriminate|]. intros H. injection H as <-. apply g_stop_no; auto.
  - destruct (existsb ll_open (lp_loops sl)) eqn:X.
    + destruct (lp_loops sl) as [|l0 r]; [discriminate|]. destruct (hears sl _) eqn:H0; [|discriminate]. intros H. injection H as <-. apply g_dial; auto.
    + intros H. injection H as <-. apply g_dial_no. intros i. unfold hears. destruct (nth_error (lp_loops sl) i) as [l|] eqn:L; [|reflexivity].
      destruct (ll_open l) eqn:O; auto. assert (Y : existsb ll_open (lp_loops sl) = true) by (apply existsb_exists; exists l; split; [eapply nth_error_In; eauto|auto]). congruence.
Qed.
Fixpoint gdos (restart : bool) (s : grace) (ls : list glab) : option grace :=
  match ls with
  | [] => Some s
  | l :: r => if is_fine (g_loops s) l then match gdo restart s l with Some s1 => gdos restart s1 r | None => None end else None
  end.
Lemma gdos_sound restart ls : forall s s', gdos restart s ls = Some s' -> network_fine restart s ls s'.
Proof.
  induction ls as [|l ls IH]; intros s s' H; cbn [gdos network_fine] in *; [congruence|]. destruct (is_fine (g_loops s) l) eqn:F; [|discriminate]. destruct (gdo restart s l) as [s1|] eqn:D; [|discriminate].
  unfold is_fine in F. apply andb_true_iff in F as (F1 & F2). apply negb_true_iff in F1. split; [exact F1|]. split; [|exists s1; split; [apply gdo_sound; exact D|auto]].
  destruct l as [[]| | | | |]; auto. apply negb_true_iff in F2. exact F2.
Qed.
