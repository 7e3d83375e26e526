(* The signal channels: which calls return (C82), what a denial does (C83). NODEMO *)
From Verif Require Export SpecChan BaseFacts CtxFacts.

Lemma pending_upd l i (v : Z) r : nth_error l i = Some (v :: r) -> S (List.length (concat (upd l i r))) = List.length (concat l).
Proof.
  revert i. induction l as [|x l IH]; intros [|i] H; cbn in *; try discriminate.
  - inversion H; subst. rewrite !app_length. cbn. lia.
  - rewrite !app_length. specialize (IH i H). lia.
Qed.

Definition b2n (b : bool) : nat := if b then 1 else 0.
Definition full (s : chn) : nat := match ch_slot s with Some _ => 1 | None => 0 end.

Lemma run_counts k s os s' : chruns k s os s' ->
  (List.length (sends os) + full s = takes os + full s' /\ List.length (sends os) + pending s' = pending s)%nat /\
  (ch_watch s' = true -> ch_watch s = true) /\
  (k = CAuth -> takes os + b2n (ch_watch s') <= b2n (ch_watch s))%nat /\ (ch_watch s = false -> takes os = 0%nat).
Proof.
  induction 1 as [s|s o s1 os s2 V W IH]; [unfold takes, sends; cbn; repeat split; auto; lia|].
  destruct IH as ((A & B) & M & C & D). unfold takes, full, pending in *.
  destruct V; cbn [sends flat_map filter List.length app ch_slot ch_watch ch_calls] in *; fold (sends os) in *.
  - rewrite H in *. pose proof (pending_upd _ _ _ _ H0). repeat split; auto; lia.
  - assert (X : ch_watch s2 = true -> False). { destruct (v >=? 0); intros X; discriminate (M X). }
    assert (Y : takes os = 0%nat). { unfold takes. destruct (v >=? 0); apply D; reflexivity. } unfold takes in Y.
    destruct (v >=? 0); cbn [ch_slot ch_watch ch_calls] in *; rewrite H1, H0; (split; [split; lia|]); (split; [tauto|]); (split; [|discriminate]);
      intros _; destruct (ch_watch s2); [destruct (X eq_refl)|cbn; lia|destruct (X eq_refl)|cbn; lia].
  - rewrite H1, H0. split; [split; lia|]. split; [auto|]. split; [intros; subst; discriminate|discriminate].
  - rewrite H. split; [split; lia|]. split; [auto|]. split; [|discriminate]. intros X. specialize (C X). cbn in *. lia.
  - rewrite H. split; [split; lia|]. split; [auto|]. split; [|discriminate]. intros X. specialize (C X). cbn in *. lia.
  - split; [split; lia|]. auto.
Qed.

Lemma p_C82_at_most_refuted : forall k w calls os s, chruns k (ch_start w calls) os s -> (k = CBeat -> w = false) ->
  (List.length (sends os) <= (if w then 2 else 1))%nat /\
  ((if w then 2 else 1) < List.length (concat calls) -> exists i, calling s i)%nat.
Proof.
  intros k w calls os s V K. destruct (run_counts _ _ _ _ V) as ((A & B) & _ & C & D). cbn [ch_start ch_watch] in *.
  assert (F : (full s <= 1)%nat) by (unfold full; destruct (ch_slot s); lia). unfold full at 1 in A. cbn [ch_slot ch_start] in A.
  assert (X : (List.length (sends os) <= (if w then 2 else 1))%nat).
  { destruct w; [|specialize (D eq_refl); lia]. destruct k; [|discriminate (K eq_refl)]. specialize (C eq_refl). cbn in C. lia. }
  split; [exact X|]. intros Y. unfold pending in B. cbn [ch_calls ch_start] in B.
  assert (P : (0 < List.length (concat (ch_calls s)))%nat) by lia. clear - P. unfold calling. induction (ch_calls s) as [|x l IH]; cbn in P; [lia|].
  destruct x as [|v x]; [|exists 0%nat, v, x; reflexivity]. destruct IH as (i & H); auto. exists (S i). exact H.
Qed.

Lemma p_C82_blocked_refuted : forall k s os s', chruns k s os s' -> ch_watch s = false -> ch_slot s <> None -> sends os = [].
Proof.
  intros k s os s' V W F. destruct (run_counts _ _ _ _ V) as ((A & B) & _ & _ & D). specialize (D W).
  assert (X : full s = 1%nat) by (unfold full; destruct (ch_slot s); congruence). assert (Y : (full s' <= 1)%nat) by (unfold full; destruct (ch_slot s'); lia).
  destruct (sends os); auto. cbn in A. lia.
Qed.

Lemma p_C82_first_returns_partial : forall k w calls os s i, chruns k (ch_start w calls) os s -> sends os = [] -> calling s i ->
  exists v s', chstep k s (KSend i v) s'.
Proof.
  intros k w calls os s i V E (v & r & H). destruct (run_counts _ _ _ _ V) as ((A & B) & _). rewrite E in A. unfold full at 1 in A. cbn in A.
  exists v. eexists. eapply k_send; eauto. unfold full in A. destruct (ch_slot s); auto. lia.
Qed.

Lemma p_C82_beat_returns_partial : forall s i, ch_watch s = true -> calling s i ->
  exists v s', (chruns CBeat s [KSend i v] s' \/ chruns CBeat s [KTake; KSend i v] s') /\ ch_watch s' = true.
Proof.
  intros s i W (v & r & H). destruct (ch_slot s) as [x|] eqn:F.
  - exists v. eexists. split; [right; eapply kr_cons; [eapply k_take_beat; eauto|]; eapply kr_cons; [|apply kr_nil]; eapply k_send; [reflexivity|exact H]|reflexivity].
  - exists v. eexists. split; [left; eapply kr_cons; [|apply kr_nil]; eapply k_send; eauto|exact W].
Qed.

Lemma p_C82_beats_all_partial : forall s, ch_watch s = true -> exists os s', chruns CBeat s os s' /\ pending s' = 0%nat /\
  List.length (sends os) = pending s /\ ch_watch s' = true /\ ch_open s' = ch_open s.
Proof.
  intros s. remember (pending s) as n eqn:E. revert s E. induction n as [|n IH]; intros s E W.
  - exists [], s. split; [apply kr_nil|]. auto.
  - assert (C : exists i v r, nth_error (ch_calls s) i = Some (v :: r)).
    { unfold pending in E. clear - E. induction (ch_calls s) as [|x l IH]; cbn in E; [lia|]. destruct x as [|v x]; [|exists 0%nat, v, x; reflexivity].
      destruct (IH E) as (i & H). exists (S i). exact H. }
    destruct C as (i & v & r & H). pose proof (pending_upd _ _ _ _ H) as P.
    assert (X : exists os1, chruns CBeat s os1 (CH (Some v) true (ch_end s) (ch_open s) (upd (ch_calls s) i r)) /\ sends os1 = [v]).
    { destruct (ch_slot s) as [x|] eqn:F.
      - exists [KTake; KSend i v]. split; [|reflexivity]. eapply kr_cons; [eapply k_take_beat; eauto|]. eapply kr_cons; [|apply kr_nil]. eapply (k_send CBeat (CH None true (ch_end s) (ch_open s) (ch_calls s))); [reflexivity|exact H].
      - exists [KSend i v]. split; [|reflexivity]. eapply kr_cons; [|apply kr_nil]. rewrite <- W. apply k_send; auto. }
    destruct X as (os1 & V1 & S1). destruct (IH (CH (Some v) true (ch_end s) (ch_open s) (upd (ch_calls s) i r))) as (os2 & s' & V2 & Z & L & W' & O); [unfold pending in *; cbn; lia|reflexivity|].
    exists (os1 ++ os2), s'. split; [clear - V1 V2; induction V1; cbn; [exact V2|eapply kr_cons; eauto]|]. split; [exact Z|]. split; [|split; [exact W'|exact O]].
    unfold sends in *. rewrite flat_map_app, app_length, S1. cbn. lia.
Qed.

(* the watcher has a denial to take, or the connection is closed *)
Definition denied (s : chn) : Prop := ch_open s = false \/ (ch_watch s = true /\ exists v, v < 0 /\ ch_slot s = Some v).
Definition ended_closed (s : chn) : Prop := ch_end s = true -> ch_open s = false.

Lemma closed_stays_ch k s os s' : chruns k s os s' -> ch_open s = false -> ch_open s' = false.
Proof.
  induction 1 as [|s o s1 os s2 V W IH]; auto. intros X. apply IH. destruct V; cbn; auto.
  - destruct (v >=? 0); auto.
  - destruct c; auto.
Qed.

Lemma ended_step k s o s' : chstep k s o s' -> ended_closed s -> ended_closed s'.
Proof.
  unfold ended_closed. destruct 1; cbn; auto.
  - destruct (v >=? 0); auto.
  - destruct c; auto.
Qed.

Lemma ended_run k s os s' : chruns k s os s' -> ended_closed s -> ended_closed s'.
Proof. induction 1; auto. intros. apply IHchruns. eapply ended_step; eauto. Qed.

Lemma denied_run s os s' : chruns CAuth s os s' -> ended_closed s -> denied s -> denied s'.
Proof.
  induction 1 as [|s o s1 os s2 V W IH]; auto. intros E X. apply IH; [eapply ended_step; eauto|]. unfold denied in *.
  destruct X as [X|(A & v & N & F)].
  - left. eapply closed_stays_ch; [eapply kr_cons; [exact V|apply kr_nil]|exact X].
  - destruct V; cbn; try congruence.
    + rewrite F in H1. inversion H1; subst. destruct (v0 >=? 0) eqn:Q; [lia|]. auto.
    + destruct c; [auto|]. discriminate (H0 eq_refl).
    + left. auto.
    + left. reflexivity.
Qed.

Lemma first_signal s os s' : chruns CAuth s os s' -> ended_closed s -> ch_slot s = None -> ch_watch s = true ->
  forall v r, sends os = v :: r -> v < 0 -> denied s'.
Proof.
  induction 1 as [|s o s1 os s2 V W IH]; intros E F A v r X N; [discriminate|]. pose proof (ended_step _ _ _ _ V E) as E1.
  destruct V; cbn [sends flat_map app] in X; fold (sends os) in X; try congruence.
  - inversion X; subst. eapply denied_run; eauto. right. split; [exact A|]. exists v. auto.
  - destruct c; [|discriminate (H0 eq_refl)]. left. eapply closed_stays_ch; eauto.
  - left. eapply closed_stays_ch; [exact W|]. apply E. assumption.
  - left. eapply closed_stays_ch; [exact W|reflexivity].
Qed.

Lemma p_C82_taken : forall k calls os s, chruns k (ch_start true calls) os s ->
  List.length (sends os) = (takes os + match ch_slot s with Some _ => 1 | None => 0 end)%nat /\
  match k with
  | CBeat => no_quit os -> ~ In KEnd os -> ch_watch s = true /\ (no_close os -> ch_open s = true)
  | CAuth => (takes os <= 1)%nat /\ (takes os = 1%nat -> ch_watch s = false)
  end.
Proof.
  intros k calls os s R.
  assert (A : forall s0 os s, chruns k s0 os s -> (List.length (sends os) + match ch_slot s0 with Some _ => 1 | None => 0 end = takes os + match ch_slot s with Some _ => 1 | None => 0 end)%nat).
  { clear. induction 1 as [s|s o s1 os s2 V R IH]; [reflexivity|]. destruct V; unfold sends, takes in *; cbn [flat_map filter List.length app ch_slot] in *; try rewrite H in IH; try rewrite H in *; try lia.
    - rewrite H1. destruct (v >=? 0); cbn [ch_slot] in IH; lia.
    - rewrite H1. lia. }
  split; [rewrite <- (A _ _ _ R); cbn; lia|]. destruct k.
  - assert (B : forall s0 os s, chruns CAuth s0 os s -> (takes os <= if ch_watch s0 then 1 else 0)%nat /\ (ch_watch s0 = false \/ takes os = 1%nat -> ch_watch s = false)).
    { clear. induction 1 as [s|s o s1 os s2 V R IH]; [split; [destruct (ch_watch s); cbn; lia|intros [X|X]; [exact X|discriminate]]|].
      destruct IH as (L & W). destruct V; unfold takes in *; cbn [filter List.length ch_watch] in *; try discriminate; try (split; [exact L|exact W]).
      - rewrite H0. destruct (v >=? 0); cbn [ch_watch] in *; (split; [lia|intros _; apply W; left; reflexivity]).
      - rewrite H. split; [lia|intros _; apply W; left; reflexivity].
      - rewrite H. split; [lia|intros _; apply W; left; reflexivity]. }
    destruct (B _ _ _ R) as (L & W). split; [exact L|auto].
  - assert (B : forall s0 os s, chruns CBeat s0 os s -> no_quit os -> ~ In KEnd os -> ch_watch s0 = true -> ch_watch s = true /\ (ch_open s0 = true -> no_close os -> ch_open s = true)).
    { clear. induction 1 as [s|s o s1 os s2 V R IH]; intros Q E W; [auto|].
      assert (Q' : no_quit os) by (intros c X; apply (Q c); right; exact X). assert (E' : ~ In KEnd os) by (intros X; apply E; right; exact X). specialize (IH Q' E').
      destruct V; cbn [ch_watch ch_open] in *; try discriminate.
      - destruct (IH W) as (X & Y). split; [exact X|intros O C; apply Y; [exact O|intros Z; apply C; right; exact Z]].
      - destruct (IH eq_refl) as (X & Y). split; [exact X|intros O C; apply Y; [exact O|intros Z; apply C; right; exact Z]].
      - exfalso. apply (Q c). left. reflexivity.
      - exfalso. apply E. left. reflexivity.
      - destruct (IH W) as (X & _). split; [exact X|]. intros _ C. exfalso. apply C. left. reflexivity. }
    intros Q E. destruct (B _ _ _ R Q E eq_refl) as (X & Y). split; auto.
Qed.

Lemma p_C83_deny_first_partial : forall calls os s v r, chruns CAuth (ch_start true calls) os s -> sends os = v :: r -> v < 0 ->
  (ch_open s = false \/ exists s', chstep CAuth s KTake s' /\ ch_open s' = false) /\ (ch_watch s = false -> ch_open s = false).
Proof.
  intros calls os s v r V X N. destruct (first_signal _ _ _ V) with (v := v) (r := r) as [A|(A & u & U & F)]; auto; try reflexivity.
  - intros Y. discriminate.
  - split; [|congruence]. right. eexists. split; [eapply k_take_auth; eauto|]. destruct (u >=? 0) eqn:Q; [lia|reflexivity].
Qed.

Lemma open_run s os s' : chruns CAuth s os s' -> no_close os -> no_quit os -> ch_open s = true ->
  (ch_watch s = false \/ exists v, ch_slot s = Some v /\ v >= 0) -> ch_open s' = true.
Proof.
  induction 1 as [|s o s1 os s2 V W IH]; auto. intros C Q O H.
  assert (C1 : no_close os) by (intros X; apply C; right; auto). assert (Q1 : no_quit os) by (intros c X; apply (Q c); right; auto).
  apply IH; auto; destruct V; cbn; auto; try (exfalso; apply C; left; reflexivity); try (exfalso; eapply Q; left; reflexivity).
  - destruct (v >=? 0) eqn:Z; cbn; auto. exfalso. destruct H as [H|(u & U & N)]; [congruence|]. rewrite H2 in U. inversion U; subst. lia.
  - destruct H as [H|(u & U & N)]; [auto|congruence].
  - destruct (v >=? 0); auto.
  - discriminate.
Qed.

Lemma p_C83_ignored_refuted : forall w calls os s, chruns CAuth (ch_start w calls) os s -> no_close os -> no_quit os ->
  (w = false \/ exists v r, sends os = v :: r /\ v >= 0) -> ch_open s = true.
Proof.
  intros w calls os s V C Q H. destruct H as [->|(v & r & X & N)]; [eapply open_run; eauto|].
  assert (G : forall s0 os s, chruns CAuth s0 os s -> no_close os -> no_quit os -> ended_closed s0 -> ch_open s0 = true -> ch_slot s0 = None -> sends os = v :: r -> ch_open s = true).
  { clear - N. induction 1 as [|s o s1 os s2 V W IH]; intros C Q E O F X; [discriminate|].
    assert (C1 : no_close os) by (intros Y; apply C; right; auto). assert (Q1 : no_quit os) by (intros c Y; apply (Q c); right; auto).
    pose proof (ended_step _ _ _ _ V E) as E1. destruct V; cbn [sends flat_map app] in X; fold (sends os) in X; try congruence.
    - inversion X; subst. eapply open_run; eauto. right. exists v. auto.
    - exfalso. eapply Q. left. reflexivity.
    - apply IH; auto.
    - exfalso. apply C. left. reflexivity. }
  eapply G; eauto; try reflexivity. intros Y. discriminate.
Qed.

Lemma p_C83_closed : forall k w calls os s, chruns k (ch_start w calls) os s ->
  (ch_open s = false <-> ch_end s = true) /\
  (ch_open s = false -> ch_watch s = true -> exists s', chstep k s KEnd s' /\ ch_watch s' = false) /\
  (In KClose os \/ In (KQuit true) os -> ch_open s = false) /\
  (In KEnd os \/ (exists c, In (KQuit c) os) -> ch_watch s = false).
Proof.
  intros k w calls os s R. assert (X : forall s os s', chruns k s os s' -> (ch_open s = false <-> ch_end s = true) ->
    (ch_open s' = false <-> ch_end s' = true) /\ (ch_open s = false \/ In KClose os \/ In (KQuit true) os -> ch_open s' = false) /\
    (ch_watch s = false \/ In KEnd os \/ (exists c, In (KQuit c) os) -> ch_watch s' = false)).
  { clear. induction 1 as [s|s o s1 os s2 V W IH]; intros E.
    - split; [exact E|]. split; [intros [A|[[]|[]]]; exact A|intros [A|[[]|(c & [])]]; exact A].
    - assert (E1 : ch_open s1 = false <-> ch_end s1 = true).
      { destruct V; cbn; auto; [destruct (v >=? 0); cbn; [exact E|tauto]|destruct c; [tauto|exact E]|tauto]. }
      assert (O1 : ch_open s = false \/ o = KClose \/ o = KQuit true -> ch_open s1 = false).
      { intros [A|[->| ->]]; [destruct V; cbn; auto; [destruct (v >=? 0); auto|destruct c; auto]|inversion V; reflexivity..]. }
      assert (W1 : ch_watch s = false \/ o = KEnd \/ (exists c, o = KQuit c) -> ch_watch s1 = false).
      { intros [A|[->|(c & ->)]]; [destruct V; cbn; try congruence; auto|inversion V; reflexivity|inversion V; reflexivity]. }
      destruct (IH E1) as (I1 & I2 & I3). split; [exact I1|]. split.
      + intros [A|[[->|A]|[->|A]]]; apply I2; auto.
      + intros [A|[[->|A]|(c & [->|A])]]; apply I3; eauto 8. }
  destruct (X _ _ _ R) as (A & B & C); [cbn; split; discriminate|]. split; [exact A|]. split; [|split].
  - intros O Wt. eexists. split; [apply k_end; [exact Wt|apply A; exact O]|reflexivity].
  - intros H. apply B. auto.
  - intros H. apply C. auto.
Qed.
