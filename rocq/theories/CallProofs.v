(* Overlapping Stop, Start and Restart calls (C101). NODEMO *)
From Verif Require Export SpecCall LifeProofs.

Lemma p_C101_alone_partial : forall s all, exists n w, callrun (calls0 s) (CStop all :: repeat (CGo 0) n) = Some w /\
  cw_life w = snd (Stop s all) /\ result w 0 = Some (fst (Stop s all)).
Proof.
  intros s all. unfold Stop. destruct (lf_running s) eqn:R; cbn [negb].
  - destruct all.
    + exists 4%nat. unfold calls0. cbn [callrun callstep repeat cw_life cw_calls cw_launched app nth_error upd]. rewrite R. cbn [callrun callstep cw_life cw_calls cw_launched nth_error upd].
      destruct (closeAllConnection _) as [r s'] eqn:E. destruct r; cbn [callrun]; eexists; repeat split; rewrite ?E; reflexivity.
    + exists 3%nat. unfold calls0. cbn [callrun callstep repeat cw_life cw_calls cw_launched app nth_error upd]. rewrite R. cbn [callrun callstep cw_life cw_calls cw_launched nth_error upd]. eexists. repeat split.
  - exists 1%nat. unfold calls0. cbn [callrun callstep repeat cw_life cw_calls cw_launched app nth_error upd]. rewrite R. eexists. repeat split.
Qed.

Lemma nth_upd_some {A} (l : list A) i j x y : nth_error (upd l i x) j = Some y -> (j = i /\ y = x) \/ (j <> i /\ nth_error l j = Some y).
Proof.
  revert i j. induction l as [|z l IH]; intros [|i] [|j] H; cbn in *; try discriminate; auto.
  - injection H as <-. auto.
  - destruct (IH _ _ H) as [[-> ->]|[N E]]; auto.
Qed.

Lemma nth_upd_get {A} (l : list A) i j x y : nth_error l j = Some y -> nth_error (upd l i x) j = Some (if Nat.eqb j i then x else y).
Proof. revert i j. induction l as [|z l IH]; intros [|i] [|j] H; cbn in *; try discriminate; auto. Qed.

Lemma closeAll_running s r s' : closeAllConnection s = (r, s') -> lf_running s' = lf_running s.
Proof. unfold closeAllConnection. destruct (lf_signals s); [|intros [= _ <-]; reflexivity]. destruct (lf_chan s) as [c|]; [|intros [= _ <-]; reflexivity]. destruct (nth c _ _); intros [= _ <-]; reflexivity. Qed.

Definition refused (p : cpc) : Prop := (exists all, exists again, p = CTest all again) \/ p = CRet RErr.

Lemma refused_step w o w' i : o <> COpen -> callstep w o = Some w' -> lf_running (cw_life w) = false ->
  (forall p, nth_error (cw_calls w) i = Some p -> refused p -> exists p', nth_error (cw_calls w') i = Some p' /\ refused p') /\ lf_running (cw_life w') = false.
Proof.
  intros NO E R. destruct o as [all| |all|j|]; [| | | |congruence]; cbn [callstep] in E.
  1-3: injection E as <-; cbn [cw_life cw_calls]; split; [|exact R]; intros p Hp Rp; exists p; split; [|exact Rp]; rewrite nth_error_app1; [exact Hp|]; apply nth_error_Some; congruence.
  destruct (nth_error (cw_calls w) j) as [q|] eqn:Q; [|discriminate].
  destruct (Nat.eq_dec i j) as [->|N].
  - destruct q as [all again|all again|all again|again| |r]; [|..].
    + rewrite R in E. injection E as <-. cbn [cw_life cw_calls]. split; [|exact R]. intros p Hp _. eexists. split; [erewrite nth_upd_get by exact Q; rewrite Nat.eqb_refl; reflexivity|]. right. reflexivity.
    + injection E as <-. cbn. split; [|reflexivity]. intros p Hp Rp. rewrite Q in Hp. injection Hp as <-. destruct Rp as [(?&?&?)|?]; discriminate.
    + injection E as <-. cbn. split; [|exact R]. intros p Hp Rp. rewrite Q in Hp. injection Hp as <-. destruct Rp as [(?&?&?)|?]; discriminate.
    + destruct (closeAllConnection (cw_life w)) as [r s'] eqn:CA. assert (X := closeAll_running _ _ _ CA).
      split; [intros p Hp Rp; rewrite Q in Hp; injection Hp as <-; destruct Rp as [(?&?&?)|?]; discriminate|]. destruct r; injection E as <-; cbn; congruence.
    + rewrite R in E. injection E as <-. cbn [cw_life cw_calls]. split; [|exact R]. intros p Hp Rp. rewrite Q in Hp. injection Hp as <-. destruct Rp as [(?&?&?)|?]; discriminate.
    + discriminate.
  - assert (K : forall x, forall p, nth_error (cw_calls w) i = Some p -> refused p -> exists p', nth_error (upd (cw_calls w) j x) i = Some p' /\ refused p').
    { intros x p Hp Rp. exists p. split; [|exact Rp]. rewrite (nth_upd_get _ _ _ _ _ Hp). apply Nat.eqb_neq in N. rewrite N. reflexivity. }
    destruct q as [all again|all again|all again|again| |r]; [| | | | |discriminate].
    4: { destruct (closeAllConnection (cw_life w)) as [r s'] eqn:CA. assert (X := closeAll_running _ _ _ CA). destruct r; injection E as <-; cbn; split; try apply K; congruence. }
    all: try rewrite R in E; injection E as <-; cbn [cw_life cw_calls]; split; try apply K; try exact R; reflexivity.
Qed.

Lemma p_C101_later_refused_partial : forall l w w' i all again, lf_running (cw_life w) = false -> nth_error (cw_calls w) i = Some (CTest all again) ->
  ~ In COpen l -> callrun w l = Some w' -> lf_running (cw_life w') = false /\ (nth_error (cw_calls w') i = Some (CTest all again) \/ result w' i = Some RErr).
Proof.
  intros l. induction l as [|o l IH]; intros w w' i all again R N NO E; cbn [callrun] in E.
  - injection E as <-. auto.
  - destruct (callstep w o) as [w1|] eqn:S; [|discriminate].
    assert (NO' : o <> COpen) by (intros ->; apply NO; left; reflexivity).
    assert (NO1 : ~ In COpen l) by (intros H; apply NO; right; exact H).
    destruct (refused_step w o w1 i NO' S R) as [K R1].
    assert (G : nth_error (cw_calls w1) i = Some (CTest all again) \/ nth_error (cw_calls w1) i = Some (CRet RErr)).
    { destruct o as [a| |a|j|]; cbn [callstep] in S; [| | | |congruence].
      1-3: injection S as <-; cbn; left; rewrite nth_error_app1; [exact N|]; apply nth_error_Some; congruence.
      destruct (nth_error (cw_calls w) j) as [q|] eqn:Q; [|discriminate].
      destruct (Nat.eq_dec i j) as [->|D].
      - rewrite N in Q. injection Q as <-. rewrite R in S. injection S as <-. right. cbn. rewrite (nth_upd_get _ _ _ _ _ N), Nat.eqb_refl. reflexivity.
      - left. assert (K' : forall x, nth_error (upd (cw_calls w) j x) i = Some (CTest all again)) by (intros x; rewrite (nth_upd_get _ _ _ _ _ N); apply Nat.eqb_neq in D; rewrite D; reflexivity).
        destruct q as [a1 g1|a1 g1|a1 g1|g1| |r]; [| | | | |discriminate].
        4: { destruct (closeAllConnection (cw_life w)) as [r s']. destruct r; injection S as <-; cbn; apply K'. }
        all: try rewrite R in S; injection S as <-; cbn; apply K'. }
    destruct G as [G|G].
    + exact (IH w1 w' i all again R1 G NO1 E).
    + clear - G R1 NO1 E. revert w1 G R1 E. induction l as [|o l IH]; intros w1 G R1 E; cbn [callrun] in E.
      * injection E as <-. split; [exact R1|]. right. unfold result. rewrite G. reflexivity.
      * destruct (callstep w1 o) as [w2|] eqn:S; [|discriminate].
        assert (NO' : o <> COpen) by (intros ->; apply NO1; left; reflexivity).
        assert (NO2 : ~ In COpen l) by (intros H; apply NO1; right; exact H).
        destruct (refused_step w1 o w2 i NO' S R1) as [_ R2]. apply (IH NO2 w2); auto.
        destruct o as [a| |a|j|]; cbn [callstep] in S; [| | | |congruence].
        1-3: injection S as <-; cbn; rewrite nth_error_app1; [exact G|]; apply nth_error_Some; congruence.
        destruct (nth_error (cw_calls w1) j) as [q|] eqn:Q; [|discriminate].
        destruct (Nat.eq_dec i j) as [->|D]; [rewrite G in Q; injection Q as <-; discriminate|].
        assert (K' : forall x, nth_error (upd (cw_calls w1) j x) i = Some (CRet RErr)) by (intros x; rewrite (nth_upd_get _ _ _ _ _ G); apply Nat.eqb_neq in D; rewrite D; reflexivity).
        destruct q as [a1 g1|a1 g1|a1 g1|g1| |r]; [| | | | |discriminate].
        4: { destruct (closeAllConnection (cw_life w1)) as [r s']. destruct r; injection S as <-; cbn; apply K'. }
        all: try rewrite R1 in S; injection S as <-; cbn; apply K'.
Qed.

Lemma p_C101_never_blocks : forall w i p, nth_error (cw_calls w) i = Some p -> (forall r, p <> CRet r) -> exists w', callstep w (CGo i) = Some w'.
Proof.
  intros w i p N H. cbn [callstep]. rewrite N. destruct p as [a g|a g|a g|g| |r]; try (eexists; reflexivity).
  - destruct (closeAllConnection (cw_life w)) as [[] s']; eexists; reflexivity.
  - destruct (lf_running (cw_life w)); eexists; reflexivity.
  - destruct (H r eq_refl).
Qed.

Lemma run_app w l1 l2 : callrun w (l1 ++ l2) = match callrun w l1 with Some w1 => callrun w1 l2 | None => None end.
Proof. revert w. induction l1 as [|o l IH]; intros w; [reflexivity|]. cbn [app callrun]. destruct (callstep w o); [apply IH|reflexivity]. Qed.

Lemma nth_last {A} (l : list A) x : nth_error (l ++ [x]) (List.length l) = Some x.
Proof. induction l; [reflexivity|exact IHl]. Qed.
Lemma upd_last {A} (l : list A) x y : upd (l ++ [x]) (List.length l) y = l ++ [y].
Proof. induction l as [|z l IH]; [reflexivity|]. cbn [app List.length upd]. f_equal. exact IH. Qed.

Lemma go_ret n s cs k r : callrun (CW s (cs ++ [CRet r]) k) (repeat (CGo (List.length cs)) (S n)) = None.
Proof. cbn [repeat callrun callstep cw_calls]. rewrite nth_last. reflexivity. Qed.

(* from the point it has reached, a call that goes on alone *)
Definition ends_as (s : life) (p : cpc) (k : nat) (s' : life) (r : lret) (k' : nat) : Prop :=
  forall n cs w, callrun (CW s (cs ++ [p]) k) (repeat (CGo (List.length cs)) n) = Some w -> forall r', result w (List.length cs) = Some r' ->
    r' = r /\ w = CW s' (cs ++ [CRet r]) k'.
Lemma ends_ret s r k : ends_as s (CRet r) k s r k.
Proof.
  intros [|n] cs w E r' R.
  - cbn in E. injection E as <-. unfold result in R. cbn [cw_calls] in R. rewrite nth_last in R. injection R as <-. auto.
  - rewrite go_ret in E. discriminate.
Qed.
Lemma ends_step s p k s1 p1 k1 s' r k' : (forall q, p <> CRet q) ->
  (forall cs, callstep (CW s (cs ++ [p]) k) (CGo (List.length cs)) = Some (CW s1 (cs ++ [p1]) k1)) ->
  ends_as s1 p1 k1 s' r k' -> ends_as s p k s' r k'.
Proof.
  intros N S H [|n] cs w E r' R.
  - cbn in E. injection E as <-. unfold result in R. cbn [cw_calls] in R. rewrite nth_last in R. destruct p; try discriminate. destruct (N _ eq_refl).
  - cbn [repeat callrun] in E. rewrite S in E. exact (H n cs w E r' R).
Qed.
Lemma ends_start s k : ends_as s CStartTest k s (Start s) (if lf_running s then k else S k).
Proof.
  unfold Start. destruct (lf_running s) eqn:R.
  - apply (ends_step _ _ _ s (CRet RErr) k); [discriminate| |apply ends_ret]. intros cs. cbn [callstep cw_calls cw_life cw_launched]. rewrite nth_last, R, upd_last. reflexivity.
  - apply (ends_step _ _ _ s (CRet ROk) (S k)); [discriminate| |apply ends_ret]. intros cs. cbn [callstep cw_calls cw_life cw_launched]. rewrite nth_last, R, upd_last. reflexivity.
Qed.
Lemma ends_after s again k : lf_running s = false -> ends_as s (after_stop again) k s ROk (if again then S k else k).
Proof. intros R. destruct again; [|apply ends_ret]. assert (H := ends_start s k). unfold Start in H. rewrite R in H. exact H. Qed.
Lemma ends_stop s all again k : ends_as s (CTest all again) k (snd (Stop s all)) (fst (Stop s all)) (match fst (Stop s all) with ROk => if again then S k else k | _ => k end).
Proof.
  unfold Stop. destruct (lf_running s) eqn:R; cbn [negb fst snd].
  2: { apply (ends_step _ _ _ s (CRet RErr) k); [discriminate| |apply ends_ret]. intros cs. cbn [callstep cw_calls cw_life cw_launched]. rewrite nth_last, R, upd_last. reflexivity. }
  apply (ends_step _ _ _ s (CState all again) k); [discriminate|intros cs; cbn [callstep cw_calls cw_life cw_launched]; rewrite nth_last, R, upd_last; reflexivity|].
  apply (ends_step _ _ _ (set_running s false) (CListeners all again) k); [discriminate|intros cs; cbn [callstep cw_calls cw_life cw_launched]; rewrite nth_last, upd_last; reflexivity|].
  set (s2 := set_listeners (set_running s false) (close_listeners (lf_props (set_running s false)) (lf_listeners (set_running s false)))).
  apply (ends_step _ _ _ s2 (if all then CSignal again else after_stop again) k); [discriminate|intros cs; cbn [callstep cw_calls cw_life cw_launched]; rewrite nth_last, upd_last; reflexivity|].
  assert (R2 : lf_running s2 = false) by reflexivity. clearbody s2.
  destruct all; [|apply ends_after; exact R2].
  destruct (closeAllConnection s2) as [r s3] eqn:CA. assert (R3 := closeAll_running _ _ _ CA). rewrite R2 in R3. cbn [fst snd].
  apply (ends_step _ _ _ s3 (match r with ROk => after_stop again | _ => CRet r end) k); [discriminate|intros cs; cbn [callstep cw_calls cw_life cw_launched]; rewrite nth_last, CA; destruct r; rewrite upd_last; reflexivity|].
  destruct r; [apply ends_after; exact R3|apply ends_ret|apply ends_ret].
Qed.

Lemma serial_gen w ks w' : serially w ks w' ->
  exists rs n, in_sequence (cw_life w) ks rs n (cw_life w') /\ cw_calls w' = cw_calls w ++ map CRet rs /\ cw_launched w' = (cw_launched w + n)%nat.
Proof.
  induction 1 as [w|w k o n w1 r ks w' M E R _ IH|w w1 ks w' E _ IH].
  - exists [], 0%nat. split; [constructor|]. cbn [map]. rewrite app_nil_r. split; [reflexivity|lia].
  - destruct w as [s cs l]. cbn [cw_life cw_calls cw_launched] in *.
    destruct k as [all| |all|]; try discriminate M; injection M as <-; cbn [callrun callstep cw_life cw_calls cw_launched] in E.
    + destruct (ends_stop s all false l n cs w1 E r R) as [-> ->]. cbn [cw_life cw_calls cw_launched] in IH. destruct IH as (rs & m & Q & C & L).
      exists (fst (Stop s all) :: rs), m. split; [constructor; exact Q|]. rewrite C, <- app_assoc. split; [reflexivity|]. rewrite L. destruct (fst (Stop s all)); reflexivity.
    + destruct (ends_start s l n cs w1 E r R) as [-> ->]. cbn [cw_life cw_calls cw_launched] in IH. destruct IH as (rs & m & Q & C & L). unfold Start in C. destruct (lf_running s) eqn:RN.
      * exists (RErr :: rs), m. split; [apply is_start_no; assumption|]. rewrite C, <- app_assoc. split; [reflexivity|exact L].
      * exists (ROk :: rs), (S m). split; [apply is_start; assumption|]. rewrite C, <- app_assoc. split; [reflexivity|]. rewrite L. lia.
    + destruct (ends_stop s all true l n cs w1 E r R) as [-> ->]. cbn [cw_life cw_calls cw_launched] in IH. destruct IH as (rs & m & Q & C & L).
      destruct (Stop s all) as [r s1] eqn:ST. cbn [fst snd] in *. destruct r.
      * exists (ROk :: rs), (S m). split; [apply is_restart with (s1 := s1); assumption|]. rewrite C, <- app_assoc. split; [reflexivity|]. rewrite L. lia.
      * exists (RErr :: rs), m. split; [apply is_restart_no with (s1 := s1); [assumption|discriminate|assumption]|]. rewrite C, <- app_assoc. split; [reflexivity|exact L].
      * exists (RPanic :: rs), m. split; [apply is_restart_no with (s1 := s1); [assumption|discriminate|assumption]|]. rewrite C, <- app_assoc. split; [reflexivity|exact L].
  - cbn [callrun callstep] in E. injection E as <-. cbn [cw_life cw_calls cw_launched] in IH. destruct IH as (rs & m & Q & C & L).
    exists rs, m. split; [|split; assumption]. apply is_open with (s1 := set_running (cw_life w) true); [reflexivity| |exact Q]. destruct (cw_life w); reflexivity.
Qed.

Lemma p_C101_serial_partial : forall s ks w, serially (calls0 s) ks w ->
  exists rs n, in_sequence s ks rs n (cw_life w) /\ cw_launched w = n /\
    List.length (cw_calls w) = List.length rs /\ forall i, result w i = nth_error rs i.
Proof.
  intros s ks w H. destruct (serial_gen _ _ _ H) as (rs & n & Q & C & L). exists rs, n. cbn in C, L. split; [exact Q|]. split; [exact L|]. rewrite C. split; [apply map_length|].
  intros i. unfold result. rewrite C, nth_error_map. destruct (nth_error rs i); reflexivity.
Qed.

Lemma p_C101_state : forall w o w', callstep w o = Some w' ->
  (sets_running o -> lf_running (cw_life w') = true) /\
  (sets_stopped w o -> lf_running (cw_life w') = false) /\
  (~ sets_running o -> ~ sets_stopped w o -> lf_running (cw_life w') = lf_running (cw_life w)).
Proof.
  intros w o w' E. unfold sets_running, sets_stopped. split; [intros ->; injection E as <-; reflexivity|]. split.
  - intros (i & all & again & -> & N). cbn [callstep] in E. rewrite N in E. injection E as <-. reflexivity.
  - intros NO NS. destruct o as [all| |all|i|]; cbn [callstep] in E; try (injection E as <-; reflexivity); [|destruct (NO eq_refl)].
    destruct (nth_error (cw_calls w) i) as [p|] eqn:N; [|discriminate]. destruct p as [a g|a g|a g|g| |r]; try (injection E as <-; reflexivity).
    + destruct NS. exists i, a, g. auto.
    + destruct (closeAllConnection (cw_life w)) as [r s'] eqn:CA. assert (X := closeAll_running _ _ _ CA). destruct r; injection E as <-; exact X.
    + destruct (lf_running (cw_life w)) eqn:R; injection E as <-; exact R.
    + discriminate.
Qed.

Lemma p_C101_two_stops_refuted : forall s, lf_running s = true ->
  (exists w, callrun (calls0 s) [CStop false; CStop false; CGo 0; CGo 1; CGo 0; CGo 1; CGo 0; CGo 1] = Some w /\ result w 0 = Some ROk /\ result w 1 = Some ROk) /\
  fst (Stop s false) = ROk /\ fst (Stop (snd (Stop s false)) false) = RErr.
Proof.
  intros s R. split; [|unfold Stop; rewrite R; split; reflexivity].
  unfold calls0. cbn [callrun callstep cw_life cw_calls cw_launched app nth_error upd]. rewrite R. eexists. repeat split.
Qed.

Lemma p_C101_double_close_refuted : forall s, lf_running s = true -> signal_ready s ->
  exists w, callrun (calls0 s) [CStop true; CStop true; CGo 0; CGo 1; CGo 0; CGo 1; CGo 0; CGo 1; CGo 0; CGo 1] = Some w /\ result w 0 = Some ROk /\ result w 1 = Some RPanic.
Proof.
  intros s R (S & c & C & N & L). unfold calls0. cbn [callrun callstep cw_life cw_calls cw_launched app nth_error upd]. rewrite R.
  cbn [callrun callstep cw_life cw_calls cw_launched nth_error upd]. unfold closeAllConnection at 1. cbn [set_listeners set_running lf_signals lf_chan lf_chans]. rewrite S, C, N.
  cbn [callrun callstep cw_life cw_calls cw_launched nth_error upd]. unfold closeAllConnection. cbn [set_chans set_listeners set_running lf_signals lf_chan lf_chans]. rewrite S, C.
  assert (X : nth c (upd (lf_chans s) c true) false = true) by (clear - L; revert c L; induction (lf_chans s) as [|x t IH]; intros [|c] L; cbn [List.length] in L; [lia|lia|reflexivity|cbn; apply IH; lia]). rewrite X. eexists. repeat split.
Qed.

Lemma p_C101_two_starts_refuted : forall s, lf_running s = true ->
  exists w, callrun (calls0 s) [CRestart false; CRestart false; CGo 0; CGo 1; CGo 0; CGo 1; CGo 0; CGo 1; CGo 0; CGo 1] = Some w /\ result w 0 = Some ROk /\ result w 1 = Some ROk /\ cw_launched w = 2%nat.
Proof. intros s R. unfold calls0. cbn [callrun callstep cw_life cw_calls cw_launched app nth_error upd]. rewrite R. cbn [callrun callstep cw_life cw_calls cw_launched nth_error upd after_stop set_listeners set_running lf_running]. eexists. repeat split. Qed.
