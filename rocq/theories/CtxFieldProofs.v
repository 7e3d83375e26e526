(* Races on the fields of contexts (C105). NODEMO *)
From Verif Require Export SpecAccess AccessFacts CtxFieldModel.

Lemma grd h c l k : guarded UserState h k -> guarded UserState h (rd c l k).
Proof. intros G. induction l as [|f l IH]; cbn; auto. split; [discriminate|auto]. Qed.

Ltac munfold := unfold call, CloseConn, Offline, Reply, IsOnline, conn_value, protocol, whole in *.
Ltac gstep := repeat (first [assumption|apply grd|apply guarded_then|match goal with |- context [if ?b then _ else _] => destruct b end
  |cbn [guarded]; split; [solve [discriminate|auto|intros; discriminate]|]|reflexivity]).

Lemma gcall udp m c k : guarded UserState HNone k -> guarded UserState HNone (call udp m c k).
Proof. intros G. destruct m; munfold; gstep. Qed.

Lemma cruns_guarded udp o pt p : cruns udp o pt p -> guarded UserState HNone p.
Proof. intros R. induction R; try (apply gcall; assumption); munfold; gstep. Qed.

Lemma guarded_go ws r : Forall (guarded UserState HNone) ws -> guarded UserState HNone r -> guarded UserState HNone (fold_right PGo r ws).
Proof. intros F R. induction F; cbn; auto. Qed.

Lemma watch_guarded udp o ws : Forall (cruns udp o Watch) ws -> Forall (guarded UserState HNone) ws.
Proof. intros F. induction F; constructor; eauto using cruns_guarded. Qed.

Lemma p_C105_state_partial : forall o ws p, tcp_conn o p \/ raw_conn o p \/ udp_datagram o ws p -> race_free UserState [p].
Proof.
  intros o ws p H. apply guarded_free. intros q [<-|[]].
  destruct H as [[pool oc vs r A B C]|[[pool oc vs r A B C]|[pool h A B]]]; destruct pool; cbn [guarded];
    try (split; [discriminate|]); repeat (first [apply guarded_then|apply guarded_go|cbn [guarded]; split|discriminate|reflexivity]);
    eauto using cruns_guarded, watch_guarded; discriminate.
Qed.

(* fields that are set again after the context was made; poolRef aside *)
Definition late (f : cfield) : bool :=
  match f with CPerRequest | COffset | CHandlers | CConnReader | CConnWriter | CStream => true | _ => false end.

Lemma ac_rd x c l k : ac x (rd c l k) -> (exists f, In f l /\ x = Of c f) \/ ac x k.
Proof. induction l as [|f l IH]; cbn; auto. intros [<-|H]; [left; eauto|]. destruct (IH H) as [(g & G & E)|]; eauto. Qed.
Lemma wr_rd x c l k : wr x (rd c l k) -> wr x k.
Proof. induction l as [|f l IH]; cbn; auto. Qed.
Lemma ac_then {X} (x : X) p q : ac x (pthen p q) -> ac x p \/ ac x q.
Proof. induction p; cbn; tauto. Qed.
Lemma wr_then' {X} (x : X) p q : wr x (pthen p q) -> wr x p \/ wr x q.
Proof. induction p; cbn; tauto. Qed.

Ltac hopen := repeat match goal with
  | H : False |- _ => destruct H
  | H : _ \/ _ |- _ => destruct H
  | H : exists _, _ |- _ => destruct H
  | H : _ /\ _ |- _ => destruct H
  | H : ac _ (rd _ _ _) |- _ => apply ac_rd in H
  | H : wr _ (rd _ _ _) |- _ => apply wr_rd in H
  | H : ac _ (pthen _ _) |- _ => apply ac_then in H
  | H : wr _ (pthen _ _) |- _ => apply wr_then' in H
  | H : ac _ _ |- _ => progress cbn [ac] in H
  | H : wr _ _ |- _ => progress cbn [wr] in H
  | H : context [if ?b then _ else _] |- _ => destruct b
  end.

Lemma wr_late udp o pt p : cruns udp o pt p -> forall d f, wr (Of d f) p -> late f = true.
Proof.
  intros R. induction R; intros d f W; munfold; try (destruct m); hopen; eauto.
  all: try (match goal with H : _ = Of _ _ |- _ => injection H as <- <- || discriminate H end; reflexivity).
Qed.

Definition ids (pt : cpart) (d : nat) : Prop :=
  match pt with
  | Foreign c | User c | Handling c => d = c
  | Piped n m => (n <= d < m)%nat
  | Watch => (d <= 1)%nat
  | Reading n => d = 0%nat \/ (n <= d)%nat
  | Batch n m => d = 0%nat \/ (n <= d)%nat
  | RawConn => d = 0%nat \/ d = 2%nat
  end.

Lemma piped_le udp o n m p : cruns udp o (Piped n m) p -> (n <= m)%nat.
Proof. intros R. remember (Piped n m) as pt eqn:E. revert n m E. induction R; intros n' m' E; try discriminate; injection E as <- <-; [lia|]. specialize (IHR2 _ _ eq_refl). lia. Qed.

Lemma ac_ids udp o pt p : cruns udp o pt p -> forall d f, ac (Of d f) p -> ids pt d.
Proof.
  intros R. induction R; intros d f W; munfold; try (destruct m); hopen; cbn [ids] in *;
    repeat match goal with H : Of _ _ = Of _ _ |- _ => injection H as ? ?; subst | H : UserState = _ |- _ => discriminate H end; eauto; try lia.
  all: repeat match goal with H : cruns _ _ (Piped _ _) _ |- _ => apply piped_le in H end;
    repeat match goal with IH : forall d f, ac (Of d f) ?k -> _, H : ac (Of _ _) ?k |- _ => specialize (IH _ _ H) end; lia.
Qed.

Lemma watch_ac o pt p : cruns false o pt p -> co_loss o = false -> match pt with Foreign _ | Watch => True | _ => False end ->
  forall d f, ac (Of d f) p -> late f = false.
Proof.
  intros R L. induction R; intros P d f W; try (destruct P; fail); try congruence; munfold; hopen; eauto; cbn [In] in *; hopen;
    repeat match goal with H : Of _ _ = Of _ _ |- _ => injection H as ? ?; subst | H : UserState = _ |- _ => discriminate H end; reflexivity.
Qed.

(* no goroutine started by p accesses x *)
Fixpoint gosafe (x : cloc) (p : code) : Prop :=
  match p with
  | PEnd => True
  | PLock k | PUnlock k | PRLock k | PRUnlock k | PRd _ k | PWr _ k => gosafe x k
  | PGo q k => ~ ac x q /\ gosafe x k
  end.

Lemma gosafe_apart x q : apart x q -> forall p, gosafe x p -> apart x (pthen p q).
Proof.
  intros Q. induction p as [|k IH|k IH|k IH|k IH|y k IH|y k IH|r IHr k IH]; cbn; auto. intros (N & G).
  split; [|split; [|split]]; auto.
  - intros (A & _). apply N, wr_ac, A.
  - tauto.
  - apply apart_nowrite. intros A. apply N, wr_ac, A.
Qed.

Lemma pthen_end {X} (p : acts X) : pthen p PEnd = p.
Proof. induction p; cbn; congruence. Qed.

Lemma gosafe_only x p : gosafe x p -> apart x p.
Proof. intros G. rewrite <- (pthen_end p). apply gosafe_apart; auto. exact Logic.I. Qed.

Lemma gosafe_then x q : gosafe x q -> forall p, gosafe x p -> gosafe x (pthen p q).
Proof. intros Q. induction p; cbn; tauto. Qed.

Lemma gosafe_rd x c l k : gosafe x k -> gosafe x (rd c l k).
Proof. induction l; cbn; auto. Qed.

Lemma apart_rd x c l k : apart x k -> apart x (rd c l k).
Proof. induction l; cbn; auto. Qed.

Ltac sstep := repeat (first [assumption|apply gosafe_rd|apply gosafe_then|match goal with |- context [if ?b then _ else _] => destruct b end|progress cbn [gosafe]|exact Logic.I]).

Lemma user_gosafe o pt p d f : cruns false o pt p -> co_loss o = false -> co_back o = false -> late f = true ->
  match pt with User _ | Handling _ | Piped _ _ => True | _ => False end -> gosafe (Of d f) p.
Proof.
  intros R L B F. induction R; intros P; try (destruct P; fail); try congruence; repeat match goal with H : True -> _ |- _ => specialize (H Logic.I) end;
    munfold; try (destruct m); sstep.
  split; sstep. intros A. eapply watch_ac in A; [|eassumption|auto|exact Logic.I]. congruence.
Qed.

Lemma reading_apart o pt p d f : cruns false o pt p -> co_loss o = false -> co_back o = false -> late f = true ->
  match pt with Reading n | Batch n _ => (1 <= n)%nat | _ => False end -> apart (Of d f) p.
Proof.
  intros R L B F. induction R; intros P; try (destruct P; fail); munfold;
    repeat (first [apply apart_rd|match goal with |- context [if ?b then _ else _] => destruct b end|progress cbn [apart]|exact Logic.I]).
  - apply gosafe_apart; [|eapply user_gosafe; eauto; exact Logic.I]. repeat (first [apply apart_rd|progress cbn [apart]|exact Logic.I]).
  - apply gosafe_apart; [|eapply user_gosafe; eauto; exact Logic.I]. repeat (first [apply apart_rd|progress cbn [apart]|exact Logic.I]).
  - split; [|split; [|split]].
    + intros (W & A). apply wr_ac in W. eapply ac_ids in W; [|eassumption]. eapply ac_ids in A; [|eassumption]. cbn in *. lia.
    + intros (A & W). apply wr_ac in W. eapply ac_ids in W; [|eassumption]. eapply ac_ids in A; [|eassumption]. cbn in *. lia.
    + apply gosafe_only. eapply user_gosafe; eauto; exact Logic.I.
    + apply IHR2. lia.
  - apply IHR. lia.
  - apply IHR. lia.
  - pose proof (piped_le _ _ _ _ _ R1). split; [|split; [|split]].
    + intros (W & A). apply wr_ac in W. eapply ac_ids in W; [|eassumption]. eapply ac_ids in A; [|eassumption]. cbn in *. lia.
    + intros (A & W). apply wr_ac in W. eapply ac_ids in W; [|eassumption]. eapply ac_ids in A; [|eassumption]. cbn in *. lia.
    + apply gosafe_only. eapply user_gosafe; eauto; exact Logic.I.
    + apply IHR2. lia.
Qed.

Lemma apart_go (x : cloc) ws r : Forall (fun w => ~ ac x w) ws -> apart x r -> apart x (fold_right PGo r ws).
Proof.
  intros F R. induction F as [|w ws N F IH]; cbn; auto. split; [|split; [|split]]; auto.
  - intros (A & _). apply N, wr_ac, A.
  - tauto.
  - apply apart_nowrite. intros A. apply N, wr_ac, A.
Qed.

Lemma wr_go {X} (x : X) ws r : wr x (fold_right PGo r ws) -> Exists (wr x) ws \/ wr x r.
Proof. induction ws as [|w ws IH]; cbn; auto. intros [H|H]; auto. destruct (IH H); auto. Qed.

Lemma conn_free o (pool : bool) oc ws r x : co_loss o = false -> co_back o = false ->
  cruns false o (User 0) oc -> Forall (cruns false o Watch) ws -> (forall d f, late f = true -> apart (Of d f) r) -> (forall d f, wr (Of d f) r -> late f = true) ->
  guarded UserState HNone r ->
  race_free x [(if pool then PWr (Of 0 CPoolRef) else fun k => k) (pthen oc (fold_right PGo (PGo r PEnd) ws))].
Proof.
  intros L B O W A Wr G.
  assert (E : apart x (pthen oc (fold_right PGo (PGo r PEnd) ws)) -> race_free x [(if pool then PWr (Of 0 CPoolRef) else fun k => k) (pthen oc (fold_right PGo (PGo r PEnd) ws))]).
  { intros H. apply apart_free. destruct pool; exact H. }
  destruct x as [d f|].
  - apply E. clear E. destruct (late f) eqn:F.
    + apply gosafe_apart; [|eapply user_gosafe; eauto; exact Logic.I]. apply apart_go.
      * rewrite Forall_forall in *. intros w I H. eapply watch_ac in H; [|apply W, I|auto|exact Logic.I]. congruence.
      * cbn. split; [tauto|]. split; [tauto|]. split; auto.
    + apply apart_nowrite. intros H. apply wr_then' in H as [H|H]; [eapply wr_late in H; [|exact O]; congruence|].
      apply wr_go in H as [H|[H|[]]]; [|apply Wr in H; congruence].
      rewrite Exists_exists in H. destruct H as (w & I & H). rewrite Forall_forall in W. eapply wr_late in H; [|apply W, I]. congruence.
  - apply guarded_free. intros q [<-|[]]. destruct pool; cbn [guarded]; try (split; [discriminate|]);
      (apply guarded_then; [apply guarded_go; [eapply watch_guarded; eauto|cbn; auto]|eapply cruns_guarded; eauto]).
Qed.

Lemma p_C105_tcp_partial : forall o p x, tcp_conn o p -> co_loss o = false -> co_back o = false -> race_free x [p].
Proof.
  intros o p x [pool oc ws r O W R] L B. eapply conn_free; eauto using wr_late, cruns_guarded.
  intros d f F. eapply reading_apart; eauto. cbn. lia.
Qed.

Lemma p_C105_raw_partial : forall o p x, raw_conn o p -> co_loss o = false -> co_back o = false -> race_free x [p].
Proof.
  intros o p x [pool oc ws r O W R] L B. eapply conn_free; eauto using wr_late, cruns_guarded.
  intros d f F. apply gosafe_only. inversion R; subst. munfold.
  assert (S1 : gosafe (Of d f) p0) by (eapply user_gosafe; eauto; exact Logic.I). assert (S2 : gosafe (Of d f) q) by (eapply user_gosafe; eauto; exact Logic.I). sstep.
Qed.

Lemma udp_gosafe udp o pt p x : cruns udp o pt p -> co_pool o = false -> co_back o = false ->
  match pt with User _ | Handling _ => True | _ => False end -> gosafe x p.
Proof.
  intros R L B. induction R; intros P; try (destruct P; fail); try congruence; repeat match goal with H : True -> _ |- _ => specialize (H Logic.I) end;
    munfold; try (destruct m); sstep.
Qed.

Lemma p_C105_udp_partial : forall o ws p x, udp_datagram o ws p -> Forall (eq PEnd) ws -> co_pool o = false -> co_back o = false -> race_free x [p].
Proof.
  intros o ws p x [pool h W H] Q L B. apply apart_free. apply apart_go.
  - rewrite Forall_forall in *. intros w I. rewrite <- (Q w I). cbn. auto.
  - assert (A : apart x h) by (apply gosafe_only; eapply udp_gosafe; eauto; exact Logic.I). destruct pool; cbn; tauto.
Qed.

Lemma watch_end o udp : cruns udp o Watch PEnd.
Proof. constructor. Qed.

Ltac racing := eexists _, _; split; [discriminate|]; split; [reflexivity|]; split; [reflexivity|]; split; eexists; [reflexivity|].

Lemma p_C105_loss_refuted : exists p m, tcp_conn (Copts true false false) p /\ asteps (launch [p]) m /\ race (Of 0 CStream) m.
Proof.
  pose (w := whole 0 (CloseConn false false 0 PEnd)). pose (r := rd 0 [CPackx; CConn] (PWr (Of 0 CStream) (CloseConn false false 0 PEnd))).
  exists (PGo w (PGo r PEnd)).
  destruct (schedule (launch [PGo w (PGo r PEnd)]) (repeat 0 2 ++ repeat 1 13 ++ repeat 2 2)%nat) as [m|] eqn:E; [|vm_compute in E; discriminate].
  exists m. split; [|split; [exact (schedule_ok _ _ _ E)|]].
  - apply (t_conn (Copts true false false) false PEnd [w] r); [constructor|constructor; [|constructor]|constructor].
    apply (w_loss false (Copts true false false) PEnd false); [reflexivity|constructor].
  - vm_compute in E. injection E as <-. exists 2%nat, 1%nat. racing. right. reflexivity.
Qed.

Lemma p_C105_raw_refuted : exists p m, raw_conn (Copts true false false) p /\ asteps (launch [p]) m /\ race (Of 0 CConnReader) m.
Proof.
  pose (w := whole 0 (CloseConn false false 0 PEnd)).
  pose (r := call false MInitReaderAndWriter 0 (whole 0 (rd 2 [CHandlers; CHandlers] (PWr (Of 2 CHandlers) (rd 2 [CHandlers]
        (call false MNext 2 (call false MReset 2 (CloseConn false false 0 PEnd)))))))).
  exists (PGo w (PGo r PEnd)).
  destruct (schedule (launch [PGo w (PGo r PEnd)]) (repeat 0 2 ++ repeat 1 11 ++ repeat 2 2)%nat) as [m|] eqn:E; [|vm_compute in E; discriminate].
  exists m. split; [|split; [exact (schedule_ok _ _ _ E)|]].
  - apply (t_raw (Copts true false false) false PEnd [w] r); [constructor|constructor; [|constructor]|].
    + apply (w_loss false (Copts true false false) PEnd false); [reflexivity|constructor].
    + apply (w_raw false (Copts true false false) PEnd PEnd false); constructor.
  - vm_compute in E. injection E as <-. exists 2%nat, 1%nat. racing. right. reflexivity.
Qed.

Lemma p_C105_background_refuted : exists p m, tcp_conn (Copts false true false) p /\ asteps (launch [p]) m /\ race (Of 2 COffset) m.
Proof.
  pose (u := PGo (whole 2 PEnd) PEnd : code).
  pose (h := whole 2 (rd 2 [CStream; CHandlers; CHandlers] (PWr (Of 2 CHandlers) (rd 2 [CHandlers] (call false MNext 2 (pthen u (call false MReset 2 PEnd))))))).
  pose (r := rd 0 [CPackx; CConn] (PWr (Of 0 CStream) (whole 0 (rd 2 [CStream] (PGo h (rd 0 [CPackx; CConn] (PWr (Of 0 CStream) (CloseConn false false 0 PEnd)))))))).
  exists (PGo r PEnd).
  destruct (schedule (launch [PGo r PEnd]) (repeat 0 1 ++ repeat 1 21 ++ repeat 2 27 ++ repeat 3 14)%nat) as [m|] eqn:E; [|vm_compute in E; discriminate].
  exists m. split; [|split; [exact (schedule_ok _ _ _ E)|]].
  - apply (t_conn (Copts false true false) false PEnd [] r); [constructor|constructor|].
    unfold r. apply d_message; [|constructor]. unfold h. apply h_chain. unfold u. apply u_back; [reflexivity| |constructor].
    apply (u_call false _ 2 MClientIP). constructor.
  - vm_compute in E. injection E as <-. exists 2%nat, 3%nat. racing. right. reflexivity.
Qed.

Lemma p_C105_udp_pool_refuted : exists ws p m, udp_datagram (Copts false false false) ws p /\ asteps (launch [p]) m /\ race (Of 0 CPoolRef) m.
Proof.
  pose (w := CloseConn true false 0 PEnd). pose (h := whole 0 (rd 0 [CStream] PEnd)).
  exists [w], (PGo w (PWr (Of 0 CPoolRef) (PWr (Of 0 CStream) (PGo h PEnd)))).
  destruct (schedule (launch [PGo w (PWr (Of 0 CPoolRef) (PWr (Of 0 CStream) (PGo h PEnd)))]) (repeat 0 1 ++ repeat 1 6)%nat) as [m|] eqn:E; [|vm_compute in E; discriminate].
  exists m. split; [|split; [exact (schedule_ok _ _ _ E)|]].
  - apply (t_udp (Copts false false false) [w] true h); [constructor; [constructor|constructor]|constructor].
  - vm_compute in E. injection E as <-. exists 0%nat, 1%nat. racing. right. reflexivity.
Qed.

Lemma p_C105_udp_reset_refuted : exists ws p m, udp_datagram (Copts false false false) ws p /\ asteps (launch [p]) m /\ race (Of 0 CPerRequest) m.
Proof.
  pose (w := conn_value true 0 (rd 0 [CRecvEnd] PEnd)). pose (h := whole 0 (rd 0 [CStream; CHandlers; CHandlers] (PWr (Of 0 CHandlers) (rd 0 [CHandlers] (call true MNext 0 (call true MReset 0 PEnd)))))).
  exists [w], (PGo w (PWr (Of 0 CStream) (PGo h PEnd))).
  destruct (schedule (launch [PGo w (PWr (Of 0 CStream) (PGo h PEnd))]) (repeat 0 3 ++ repeat 1 3 ++ repeat 2 25)%nat) as [m|] eqn:E; [|vm_compute in E; discriminate].
  exists m. split; [|split; [exact (schedule_ok _ _ _ E)|]].
  - apply (t_udp (Copts false false false) [w] false h); [constructor; [repeat constructor|constructor]|].
    apply (h_chain true _ 0 PEnd). constructor.
  - vm_compute in E. injection E as <-. exists 2%nat, 1%nat. racing. right. reflexivity.
Qed.
