(* The watcher goroutines: heartbeat (C44-C47), auth (C48). NODEMO *)
From Verif Require Export SpecWatch BaseFacts.

(* the loop, with the events newest first *)
Fixpoint hbr (f : onloss) (h : list wev) : option Z * list wact :=
  match h with
  | [] => (Some 0, [])
  | e :: p => match hbr f p with (None, a) => (None, a) | (Some t, a) => let '(s, b) := hb_iter f t e in (s, a ++ b) end
  end.

Lemma hb_loop_snoc f e evs : forall t, hb_loop f t (evs ++ [e]) =
  match hb_loop f t evs with (None, a) => (None, a) | (Some t', a) => let '(s, b) := hb_iter f t' e in (s, a ++ b) end.
Proof.
  induction evs as [|x r IH]; intros t.
  - cbn [app hb_loop]. destruct (hb_iter f t e) as ([t'|] & a); cbn; rewrite ?app_nil_r; reflexivity.
  - cbn [app hb_loop]. destruct (hb_iter f t x) as ([t'|] & a); [|reflexivity]. rewrite IH.
    destruct (hb_loop f t' r) as ([t2|] & b); [|reflexivity]. destruct (hb_iter f t2 e) as (s & c). rewrite app_assoc. reflexivity.
Qed.

Lemma hb_loop_hbr f h : hb_loop f 0 (rev h) = hbr f h.
Proof. induction h as [|e p IH]; [reflexivity|]. cbn [rev hbr]. rewrite hb_loop_snoc, IH. reflexivity. Qed.

Fixpoint trail (h : list wev) : Z := match h with WExpire :: p => 1 + trail p | _ => 0 end.

Lemma trail_nonneg h : 0 <= trail h.
Proof. induction h as [|[] p IH]; cbn [trail]; lia. Qed.

Lemma three_trail e p : three_silent (rev (e :: p)) (List.length p) <-> e = WExpire /\ 2 <= trail p.
Proof.
  assert (N : forall q (x : wev), nth_error (rev q ++ [x]) (List.length q) = Some x).
  { intros q x. rewrite nth_error_app2 by (rewrite rev_length; auto). rewrite rev_length, Nat.sub_diag. reflexivity. }
  assert (A : forall q (x : wev) m, (m < List.length q)%nat -> nth_error (rev q ++ [x]) m = nth_error (rev q) m).
  { intros q x m H. apply nth_error_app1. rewrite rev_length. auto. }
  cbn [rev]. split.
  - intros (m & E & X & Y & Z). destruct p as [|a [|b q]]; simpl in E; try discriminate. inversion E; subst m.
    change (S (S (List.length q))) with (List.length (a :: b :: q)) in Z. rewrite N in Z. inversion Z; subst.
    rewrite A in X by (simpl; lia). rewrite A in Y by (simpl; lia).
    assert (R2 : rev (a :: b :: q) = rev (b :: q) ++ [a]) by reflexivity. rewrite R2 in X, Y.
    change (S (List.length q)) with (List.length (b :: q)) in Y. rewrite N in Y. inversion Y; subst.
    rewrite A in X by (simpl; lia). cbn [rev] in X. rewrite N in X. inversion X; subst. split; auto. cbn [trail]. pose proof (trail_nonneg q). lia.
  - intros (-> & T). destruct p as [|a [|b q]]; try (destruct a; cbn [trail] in T; lia); try (cbn [trail] in T; lia).
    destruct a; cbn [trail] in T; try lia. destruct b; cbn [trail] in T; try lia. exists (List.length q). split; [reflexivity|].
    assert (R2 : rev (WExpire :: WExpire :: q) = rev (WExpire :: q) ++ [WExpire]) by reflexivity.
    split; [|split].
    + rewrite A by (simpl; lia). rewrite R2. rewrite A by (simpl; lia). cbn [rev]. apply N.
    + rewrite A by (simpl; lia). rewrite R2. change (S (List.length q)) with (List.length (WExpire :: q)). apply N.
    + change (S (S (List.length q))) with (List.length (WExpire :: WExpire :: q)). apply N.
Qed.

Lemma three_prefix (a b : list wev) n : (n < List.length a)%nat -> three_silent (a ++ b) n <-> three_silent a n.
Proof.
  intros H. split; intros (m & -> & X & Y & Z); exists m; (split; [reflexivity|]).
  - rewrite nth_error_app1 in X, Y, Z by lia. auto.
  - rewrite !nth_error_app1 by lia. auto.
Qed.

Lemma watching_prefix (a b : list wev) n : (n <= List.length a)%nat -> still_watching (a ++ b) n <-> still_watching a n.
Proof.
  intros H. split; intros W m e Hm He.
  - destruct (W m e Hm) as (X & Y); [rewrite nth_error_app1 by lia; auto|]. split; auto. rewrite three_prefix in Y by lia. auto.
  - rewrite nth_error_app1 in He by lia. destruct (W m e Hm He) as (X & Y). split; auto. rewrite three_prefix by lia. auto.
Qed.

Lemma watching_cons e p : still_watching (rev (e :: p)) (List.length (e :: p)) <->
  still_watching (rev p) (List.length p) /\ ~ quits e /\ ~ three_silent (rev (e :: p)) (List.length p).
Proof.
  assert (N : nth_error (rev (e :: p)) (List.length p) = Some e).
  { cbn [rev]. rewrite nth_error_app2 by (rewrite rev_length; auto). rewrite rev_length, Nat.sub_diag. reflexivity. }
  split.
  - intros W. split.
    + rewrite <- (watching_prefix (rev p) [e]) by (rewrite rev_length; auto). intros m x Hm. apply W. simpl. lia.
    + apply (W (List.length p) e); auto.
  - intros (W & Q & T) m x Hm Hx. simpl in Hm. assert (D : m = List.length p \/ (m < List.length p)%nat) by lia.
    destruct D as [->|D]; [rewrite N in Hx; inversion Hx; subst; auto|].
    revert m x D Hx Hm. rewrite <- (watching_prefix (rev p) [e]) in W by (rewrite rev_length; auto). intros m x D Hx _. apply (W m x D Hx).
Qed.

Lemma hbr_state f h :
  (still_watching (rev h) (List.length h) -> hbr f h = (Some (trail h), []) /\ trail h < 3) /\
  (~ still_watching (rev h) (List.length h) -> fst (hbr f h) = None).
Proof.
  induction h as [|e p (IH1 & IH2)].
  - split; [split; [reflexivity|reflexivity]|]. intros H. destruct H. intros m e Hm. simpl in Hm. lia.
  - rewrite watching_cons, three_trail.
    assert (D : still_watching (rev p) (List.length p) \/ ~ still_watching (rev p) (List.length p)).
    { clear. induction p as [|e p IH]; [left; intros m e Hm; simpl in Hm; lia|]. rewrite watching_cons, three_trail.
      assert (Q : quits e \/ ~ quits e) by (unfold quits; destruct e; intuition discriminate).
      assert (T : (e = WExpire /\ 2 <= trail p) \/ ~ (e = WExpire /\ 2 <= trail p)).
      { destruct e; try (right; intros (X & _); discriminate). destruct (Z_le_dec 2 (trail p)); [left; auto|right; tauto]. }
      tauto. }
    destruct D as [W|W].
    + destruct (IH1 W) as (E & L). cbn [hbr]. rewrite E. split.
      * intros (_ & Q & T). destruct e; try (exfalso; apply Q; unfold quits; auto; fail).
        -- cbn. split; auto. lia.
        -- cbn [hb_iter trail]. assert (trail p + 1 <> 3) by (intros X; apply T; split; auto; lia).
           assert (X : trail p + 1 =? 3 = false) by (apply Z.eqb_neq; auto). rewrite X. split; [|lia]. rewrite Z.add_comm. reflexivity.
      * intros H. destruct e; try reflexivity; [exfalso; apply H; split; [auto|]; split; [unfold quits; intuition discriminate|intros (X & _); discriminate]|].
        cbn [hb_iter]. destruct (trail p + 1 =? 3) eqn:X; [reflexivity|]. apply Z.eqb_neq in X. exfalso. apply H.
        split; auto. split; [unfold quits; intuition discriminate|]. intros (_ & Y). lia.
    + split; [tauto|]. intros _. cbn [hbr]. specialize (IH2 W). destruct (hbr f p) as ([t|] & a); [discriminate|reflexivity].
Qed.

Lemma firstn_S {A} (l : list A) : forall n e, nth_error l n = Some e -> firstn (S n) l = firstn n l ++ [e].
Proof. induction l as [|x l IH]; intros [|n] e H; simpl in *; try discriminate; [inversion H; reflexivity|]. f_equal. apply IH. auto. Qed.

Lemma at_event f evs n e : nth_error evs n = Some e ->
  exists h, firstn n evs = rev h /\ List.length h = n /\ firstn (S n) evs = rev (e :: h) /\
    (still_watching evs n <-> still_watching (rev h) (List.length h)) /\
    (three_silent evs n <-> three_silent (rev (e :: h)) (List.length h)) /\
    heartBeatWatch true f (firstn n evs) = hbr f h /\ heartBeatWatch true f (firstn (S n) evs) = hbr f (e :: h).
Proof.
  intros H. exists (rev (firstn n evs)). assert (L : (n < List.length evs)%nat) by (apply nth_error_Some; congruence).
  assert (F : List.length (firstn n evs) = n) by (rewrite firstn_length; lia).
  rewrite rev_involutive, rev_length, F. cbn [rev]. rewrite rev_involutive, (firstn_S evs n e H).
  split; [auto|]. split; [auto|]. split; [auto|].
  assert (E : evs = firstn n evs ++ skipn n evs) by (symmetry; apply firstn_skipn).
  assert (E2 : evs = (firstn n evs ++ [e]) ++ skipn (S n) evs) by (rewrite <- (firstn_S evs n e H); symmetry; apply firstn_skipn).
  split; [rewrite E at 1; apply watching_prefix; lia|].
  split; [rewrite E2 at 1; apply three_prefix; rewrite app_length, F; simpl; lia|].
  unfold heartBeatWatch. split; rewrite <- hb_loop_hbr; cbn [rev]; rewrite rev_involutive; reflexivity.
Qed.

Lemma p_C44_three_intervals : forall f evs n e,
  f <> Some true -> nth_error evs n = Some e ->
  (~ In AClose (snd (heartBeatWatch true f (firstn n evs))) /\ In AClose (snd (heartBeatWatch true f (firstn (S n) evs)))
   <-> still_watching evs n /\ (e = WStop \/ e = WAll \/ three_silent evs n)).
Proof.
  intros f evs n e Hf He. destruct (at_event f evs n e He) as (h & _ & _ & _ & Ws & Ts & -> & ->). rewrite Ws, Ts, three_trail.
  destruct (hbr_state f h) as (S1 & S2). split.
  - intros (N & Y). cbn [hbr] in Y. destruct (hbr f h) as ([t|] & a) eqn:Q; [|contradiction].
    assert (W : still_watching (rev h) (List.length h)).
    { destruct (Z.eq_dec 0 0); [|lia]. clear - S2 Q.
      assert (D : still_watching (rev h) (List.length h) \/ ~ still_watching (rev h) (List.length h)).
      { clear. induction h as [|e p IH]; [left; intros m e Hm; simpl in Hm; lia|]. rewrite watching_cons, three_trail.
        assert (X : quits e \/ ~ quits e) by (unfold quits; destruct e; intuition discriminate).
        assert (T : (e = WExpire /\ 2 <= trail p) \/ ~ (e = WExpire /\ 2 <= trail p)).
        { destruct e; try (right; intros (X' & _); discriminate). destruct (Z_le_dec 2 (trail p)); [left; auto|right; tauto]. }
        tauto. }
      destruct D as [D|D]; auto. specialize (S2 D). discriminate. }
    split; auto. destruct (S1 W) as (E & L). inversion E; subst t a. destruct e; cbn in Y; auto; try contradiction.
    right. right. destruct (trail h + 1 =? 3) eqn:X; [apply Z.eqb_eq in X; split; auto; lia|destruct Y].
  - intros (W & Y). destruct (S1 W) as (E & L). cbn [hbr]. rewrite E. split; [intros []|].
    destruct Y as [->|[->|(-> & Y)]]; cbn; auto. assert (X : trail h + 1 =? 3 = true) by (apply Z.eqb_eq; lia). rewrite X.
    destruct f as [[|]|]; [congruence| |]; cbn; auto.
Qed.

Lemma p_C44_beat_resets : forall f evs, still_watching evs (List.length evs) ->
  heartBeatWatch true f (evs ++ [WBeat]) = heartBeatWatch true f [] /\
  forall more, heartBeatWatch true f (evs ++ WBeat :: more) = heartBeatWatch true f more.
Proof.
  intros f evs W. rewrite <- (rev_involutive evs) in *. set (h := rev evs) in *. rewrite rev_length in W.
  destruct (hbr_state f h) as (S1 & _). destruct (S1 W) as (E & _). unfold heartBeatWatch. split.
  - rewrite hb_loop_snoc, hb_loop_hbr, E. reflexivity.
  - intros more. assert (G : forall l t t' r, hb_loop f t l = (Some t', []) -> hb_loop f t (l ++ r) = hb_loop f t' r).
    { induction l as [|x l IH]; intros t t' r H; [inversion H; reflexivity|]. cbn [app hb_loop] in *.
      destruct (hb_iter f t x) as ([t2|] & a) eqn:X; [|inversion H].
      destruct (hb_loop f t2 l) as (s & b) eqn:Y. inversion H; subst. destruct a; [|discriminate]. simpl in *. subst b. rewrite (IH _ _ r Y).
      destruct (hb_loop f t' r); reflexivity. }
    rewrite (G (rev h) 0 (trail h)) by (rewrite hb_loop_hbr; exact E). cbn [hb_loop hb_iter]. destruct (hb_loop f 0 more); reflexivity.
Qed.

Lemma p_C44_off : forall f evs, heartBeatWatch false f evs = (None, []).
Proof. reflexivity. Qed.

Lemma p_C46_loss_handler : forall evs,
  let acts := snd (heartBeatWatch true (Some false) evs) in
  (count_loss acts <= 1)%nat /\
  (In ALoss acts <-> exists n, still_watching evs n /\ three_silent evs n) /\
  (In ALoss acts -> acts = [ALoss; AClose]) /\
  ~ In ALoss (snd (heartBeatWatch true None evs)).
Proof.
  intros evs. cbv zeta. assert (EX : exists h, evs = rev h) by (exists (rev evs); symmetry; apply rev_involutive). destruct EX as (h & ->).
  unfold heartBeatWatch. rewrite !hb_loop_hbr.
  assert (G : forall h, (snd (hbr (Some false) h) = [] \/ snd (hbr (Some false) h) = [AClose] \/ snd (hbr (Some false) h) = [ALoss; AClose]) /\
    (In ALoss (snd (hbr (Some false) h)) <-> exists n, (n < List.length h)%nat /\ still_watching (rev h) n /\ three_silent (rev h) n) /\
    ~ In ALoss (snd (hbr None h))).
  { clear h. induction h as [|e p (I1 & I2 & I3)].
    - split; [auto|]. split; [|intros []]. split; [intros []|]. intros (n & X & _). simpl in X. lia.
    - destruct (hbr_state (Some false) p) as (S1 & S2). destruct (hbr_state None p) as (U1 & U2).
      assert (Old : (exists n, (n < List.length p)%nat /\ still_watching (rev p) n /\ three_silent (rev p) n) <->
        exists n, (n < List.length p)%nat /\ still_watching (rev (e :: p)) n /\ three_silent (rev (e :: p)) n).
      { cbn [rev]. split; intros (n & A & B & C); exists n; (split; [exact A|]).
        - rewrite watching_prefix, three_prefix by (rewrite rev_length; lia). auto.
        - rewrite watching_prefix, three_prefix in * by (rewrite rev_length; lia). auto. }
      assert (New : (exists n, (n < List.length (e :: p))%nat /\ still_watching (rev (e :: p)) n /\ three_silent (rev (e :: p)) n) <->
        (exists n, (n < List.length p)%nat /\ still_watching (rev p) n /\ three_silent (rev p) n) \/
        (still_watching (rev p) (List.length p) /\ e = WExpire /\ 2 <= trail p)).
      { rewrite Old, <- three_trail. rewrite <- (watching_prefix (rev p) [e] (List.length p)) by (rewrite rev_length; auto). split.
        - intros (n & A & B & C). simpl in A. assert (D : n = List.length p \/ (n < List.length p)%nat) by lia.
          destruct D as [->|D]; [right; auto|left; eauto].
        - intros [(n & A & B & C)|(A & B)]; [exists n; split; [simpl; lia|auto]|exists (List.length p); split; [simpl; lia|auto]]. }
      rewrite New. cbn [hbr].
      destruct (hbr (Some false) p) as ([t|] & a) eqn:E; cbn [snd] in *.
      + assert (W : still_watching (rev p) (List.length p)).
        { assert (DD : still_watching (rev p) (List.length p) \/ ~ still_watching (rev p) (List.length p)).
          { clear. induction p as [|e p IH]; [left; intros m e Hm; simpl in Hm; lia|]. rewrite watching_cons, three_trail.
            assert (X : quits e \/ ~ quits e) by (unfold quits; destruct e; intuition discriminate).
            assert (T : (e = WExpire /\ 2 <= trail p) \/ ~ (e = WExpire /\ 2 <= trail p)).
            { destruct e; try (right; intros (X' & _); discriminate). destruct (Z_le_dec 2 (trail p)); [left; auto|right; tauto]. }
            tauto. }
          destruct DD as [X|X]; auto. specialize (S2 X). discriminate. }
        destruct (S1 W) as (E1 & L1). inversion E1; subst t a. destruct (U1 W) as (E2 & _). rewrite E2.
        assert (NO : ~ exists n, (n < List.length p)%nat /\ still_watching (rev p) n /\ three_silent (rev p) n).
        { intros X. apply I2 in X. destruct X. }
        destruct e; cbn [hb_iter snd app].
        * split; [auto|]. split; [|intros [X|[]]; discriminate]. split; [intros [X|[]]; discriminate|]. intros [X|(_ & X & _)]; [tauto|discriminate].
        * split; [auto|]. split; [|intros []]. split; [intros []|]. intros [X|(_ & X & _)]; [tauto|discriminate].
        * destruct (trail p + 1 =? 3) eqn:X; cbn [snd app].
          -- apply Z.eqb_eq in X. split; [auto|]. split; [|intros [Y|[]]; discriminate]. split; [intros _; right; split; auto; split; auto; lia|intros _; left; auto].
          -- apply Z.eqb_neq in X. split; [auto|]. split; [|intros []]. split; [intros []|]. intros [Y|(_ & _ & Y)]; [tauto|lia].
        * split; [auto|]. split; [|intros [X|[]]; discriminate]. split; [intros [X|[]]; discriminate|]. intros [X|(_ & X & _)]; [tauto|discriminate].
        * split; [auto|]. split; [|intros []]. split; [intros []|]. intros [X|(_ & X & _)]; [tauto|discriminate].
      + split; [auto|].
        assert (W : ~ still_watching (rev p) (List.length p)) by (intros W; destruct (S1 W); congruence).
        specialize (U2 W). destruct (hbr None p) as ([u|] & b) eqn:E2; [discriminate|]. split; [|exact I3].
        rewrite I2. split; [auto|]. intros [X|(X & _)]; tauto. }
  destruct (G h) as (G1 & G2 & G3). split; [|split; [|split; [|exact G3]]].
  - destruct G1 as [-> | [-> | ->]]; vm_compute; auto.
  - rewrite G2. split; [intros (n & _ & A); eauto|]. intros (n & A & B). exists n. split; auto.
    destruct B as (m & -> & _ & _ & B). rewrite <- rev_length. apply nth_error_Some. congruence.
  - destruct G1 as [-> | [-> | ->]]; auto; intros X; simpl in X; intuition discriminate.
Qed.

Lemma p_C46_loss_handler_panic_refuted : forall evs n,
  still_watching evs n -> three_silent evs n ->
  heartBeatWatch true (Some true) evs = (None, [ALoss; APanic]).
Proof.
  intros evs n W T. assert (He : nth_error evs n = Some WExpire) by (destruct T as (m & -> & _ & _ & X); exact X).
  destruct (at_event (Some true) evs n WExpire He) as (h & F1 & L & F2 & Ws & Ts & E1 & E2).
  apply Ws in W. apply Ts in T. apply three_trail in T as (_ & T). destruct (hbr_state (Some true) h) as (S1 & _). destruct (S1 W) as (E & L3).
  assert (G : forall a b t, fst (hb_loop (Some true) t a) = None -> hb_loop (Some true) t (a ++ b) = hb_loop (Some true) t a).
  { induction a as [|x a IH]; intros b t H; [discriminate|]. cbn [app hb_loop] in *. destruct (hb_iter (Some true) t x) as ([t'|] & c); auto.
    destruct (hb_loop (Some true) t' a) as (s & d) eqn:Y. rewrite IH; rewrite Y; auto. }
  rewrite <- (firstn_skipn (S n) evs). unfold heartBeatWatch in *.
  assert (X : hb_loop (Some true) 0 (firstn (S n) evs) = (None, [ALoss; APanic])).
  { rewrite E2. cbn [hbr]. rewrite E. cbn [hb_iter]. assert (Y : trail h + 1 =? 3 = true) by (apply Z.eqb_eq; lia). rewrite Y. reflexivity. }
  rewrite G by (rewrite X; reflexivity). exact X.
Qed.

(* the state of the timed watcher *)
Lemma timed_inv I D tr s : 0 < I -> 0 <= D -> wruns I D tr s ->
  ws_now s = time_of tr /\ last_beat tr <= time_of tr /\
  match ws_phase s with
  | PDone => True
  | PWait dl => ws_loss s = None /\ ws_chan s = false /\ 0 <= ws_times s <= 2 /\ ws_now s <= dl /\
      last_beat tr + ws_times s * I <= dl - I <= last_beat tr + ws_times s * I + (ws_times s + 2) * D
  | PBusy b => ws_loss s = None /\ b <= ws_now s <= b + D /\ 0 <= ws_times s <= 2 /\
      if ws_chan s then b <= last_beat tr
      else last_beat tr + ws_times s * I <= b <= last_beat tr + ws_times s * I + (ws_times s + 1) * D
  end.
Proof.
  intros HI HD R. induction R as [|l tr s s' R (E & LB & IH) T]; [cbn [wst0 ws_now ws_phase ws_times ws_chan ws_loss time_of last_beat]; repeat split; lia|].
  destruct T; cbn [ws_now ws_phase ws_times ws_chan ws_loss time_of last_beat] in *; (split; [lia|]); (split; [lia|]); auto.
  - destruct IH as (A & B & C & F & G). repeat split; auto; lia.
  - destruct IH as (A & B & C & F). repeat split; auto; lia.
  - destruct IH as (A & B & C & F & G). subst c. repeat split; auto; lia.
  - destruct IH as (A & B & C & F). repeat split; auto; lia.
  - destruct IH as (A & B & C & F & G). subst c. repeat split; auto; lia.
  - destruct IH as (A & B & C & F). repeat split; auto; lia.
  - destruct IH as (A & B & C & F). repeat split; auto; lia.
Qed.

Lemma p_C45_loss_time : forall I D tr s s', 0 < I -> 0 <= D ->
  wruns I D tr s -> wtrans I D LExpire s s' -> ws_loss s' <> ws_loss s ->
  ws_loss s' = Some (time_of tr) /\ last_beat tr + 3 * I <= time_of tr <= last_beat tr + 3 * I + 4 * D.
Proof.
  intros I D tr s s' HI HD R T N. destruct (timed_inv I D tr s HI HD R) as (E & LB & IH).
  inversion T; subst; cbn [ws_now ws_phase ws_times ws_chan ws_loss] in *; [congruence|].
  destruct IH as (A & B & C & F & G). subst. split; auto. assert (n = 2) by lia. subst n. lia.
Qed.

Lemma p_C45_exact : forall I tr s s', 0 < I -> wruns I 0 tr s -> wtrans I 0 LExpire s s' -> ws_loss s' <> ws_loss s ->
  ws_loss s' = Some (last_beat tr + 3 * I).
Proof. intros I tr s s' HI R T N. destruct (p_C45_loss_time I 0 tr s s' HI (Z.le_refl 0) R T N) as (A & B). rewrite A. f_equal. lia. Qed.

Lemma p_C45_alive : forall I D tr s, 0 < I -> 0 <= D -> wruns I D tr s ->
  (forall a b, tr = a ++ b -> time_of b < last_beat b + 3 * I) -> ws_loss s = None.
Proof.
  intros I D tr s HI HD R. induction R as [|l tr s s' R IH T]; intros H; [reflexivity|].
  assert (L : ws_loss s = None). { apply IH. intros a b E. apply (H (l :: a) b). rewrite E. reflexivity. }
  destruct (ws_loss s') eqn:X; auto. exfalso.
  assert (N : ws_loss s' <> ws_loss s) by congruence.
  assert (l = LExpire). { destruct T; cbn [ws_loss] in *; congruence. } subst l.
  destruct (p_C45_loss_time I D tr s s' HI HD R T N) as (_ & B & _). specialize (H [LExpire] tr eq_refl). lia.
Qed.

Lemma p_C45_noticed : forall I D tr s, 0 < I -> 0 <= D -> wruns I D tr s -> ~ In LQuit tr -> ws_loss s = None ->
  time_of tr <= last_beat tr + 3 * I + 4 * D.
Proof.
  intros I D tr s HI HD R Q L. destruct (timed_inv I D tr s HI HD R) as (E & LB & IH).
  destruct (ws_phase s) as [dl|b|] eqn:P.
  - destruct IH as (_ & B & C & F & G). assert (K : ws_times s = 0 \/ ws_times s = 1 \/ ws_times s = 2) by lia. rewrite E in F. destruct K as [K|[K|K]]; rewrite K in *; lia.
  - destruct IH as (_ & B & C & F). rewrite E in B. destruct (ws_chan s); [lia|].
    assert (K : ws_times s = 0 \/ ws_times s = 1 \/ ws_times s = 2) by lia. destruct K as [K|[K|K]]; rewrite K in *; lia.
  - exfalso. clear - R Q L P. induction R as [|l tr s s' R IH T]; [discriminate|].
    assert (Q' : ~ In LQuit tr) by (intros X; apply Q; right; auto).
    destruct T; cbn [ws_phase ws_loss] in *; try discriminate; auto. apply Q. left. reflexivity.
Qed.

Lemma p_C45_progress : forall I D tr s, 0 < I -> 0 <= D -> wruns I D tr s -> ws_phase s <> PDone ->
  exists l s', wtrans I D l s s' /\ (l = LExpire \/ l = LEnter \/ exists d, 0 < d /\ l = LTick d).
Proof.
  intros I D tr s HI HD R P. destruct (timed_inv I D tr s HI HD R) as (E & LB & IH).
  destruct s as [now [dl|b|] n c l]; cbn [ws_now ws_phase ws_times ws_chan ws_loss] in *; [| |congruence].
  - destruct IH as (A & B & C & F & G). destruct (Z.eq_dec now dl) as [->|X].
    + destruct (Z.eq_dec (n + 1) 3); eexists LExpire, _; (split; [|auto]); [apply t_loss|apply t_expire]; auto.
    + exists (LTick (dl - now)). eexists. split; [apply t_tick_wait; lia|]. right. right. exists (dl - now). split; auto. lia.
  - exists LEnter. destruct c; eexists; (split; [constructor|auto]).
Qed.

Lemma bset_len {A} (l : list A) i a : List.length (bset l i a) = List.length l.
Proof. revert i. induction l as [|x l IH]; intros [|i]; simpl; auto. Qed.

Lemma nth_bset {A} (l : list A) i a j : nth_error (bset l i a) j =
  if Nat.eqb j i then match nth_error l i with Some _ => Some a | None => None end else nth_error l j.
Proof.
  revert i j. induction l as [|x l IH]; intros [|i] [|j]; simpl; auto. destruct (Nat.eqb j i); reflexivity.
Qed.

Lemma p_C47_lost_forever_refuted : forall s s' c, hsteps s s' ->
  hw_store s <> Some c -> hw_watch s <> WSel c -> (c < List.length (hw_chans s))%nat ->
  received (hw_log s') c = received (hw_log s) c /\ hw_watch s' <> WSel c.
Proof.
  intros s s' c H A B C.
  enough (G : received (hw_log s') c = received (hw_log s) c /\ hw_watch s' <> WSel c /\ hw_store s' <> Some c /\ (c < List.length (hw_chans s'))%nat) by tauto.
  induction H as [|s s1 s2 H IH T]; [auto|]. destruct (IH A B C) as (R & W & S & L). rewrite <- R.
  destruct T; cbn [hw_log hw_watch hw_store hw_chans] in *; rewrite ?bset_len, ?app_length; try (repeat split; auto; try congruence; fail).
  - repeat split; auto; try congruence; try lia; intros X; inversion X; subst; lia.
  - split; [|repeat split; auto; congruence]. unfold received. cbn [filter]. destruct (Nat.eqb c0 c) eqn:X; auto.
    apply Nat.eqb_eq in X. subst. congruence.
  - repeat split; auto; try lia. intros X; inversion X; subst; lia.
Qed.

Lemma p_C47_lost_refuted : exists s c, hsteps (HBW None [] WGet [BGet] []) s /\
  nth_error (hw_beats s) 0 = Some (BDone c) /\ sent (hw_log s) c = 1%nat /\ received (hw_log s) c = 0%nat /\
  hw_store s <> Some c /\ hw_watch s <> WSel c /\ (c < List.length (hw_chans s))%nat /\
  forall s', hsteps s s' -> received (hw_log s') c = 0%nat.
Proof.
  assert (R : hsteps (HBW None [] WGet [BGet] []) (HBW (Some 1%nat) [true; false] (WSel 1) [BDone 0] [CSent 0 0])).
  { eapply hs_more; [eapply hs_more; [eapply hs_more; [eapply hs_more; [eapply hs_more; [apply hs_refl|]|]|]|]|].
    - apply (h_bmiss _ 0); reflexivity.
    - apply h_wmiss; reflexivity.
    - apply (h_bmake _ 0); reflexivity.
    - apply (h_bsend _ 0 0); reflexivity.
    - apply (h_wmake (HBW (Some 0%nat) [true] WMake [BDone 0] [CSent 0 0])). reflexivity. }
  eexists. exists 0%nat. split; [exact R|]. cbn [hw_beats hw_log hw_store hw_watch hw_chans].
  assert (A : Some 1%nat <> Some 0%nat) by discriminate. assert (B : WSel 1 <> WSel 0) by discriminate.
  do 3 (split; [reflexivity|]). split; [exact A|]. split; [exact B|]. split; [simpl; lia|].
  intros s' H. destruct (p_C47_lost_forever_refuted _ s' 0 H A B) as (X & _); [simpl; lia|exact X].
Qed.

Lemma p_C47_one_each : forall store chans w n s, hsteps (HBW store chans w (repeat BGet n) []) s ->
  (forall i c, In (CSent i c) (hw_log s) <-> nth_error (hw_beats s) i = Some (BDone c)) /\
  NoDup (flat_map (fun e => match e with CSent i _ => [i] | _ => [] end) (hw_log s)).
Proof.
  intros store chans w n s R. remember (HBW store chans w (repeat BGet n) []) as s0.
  assert (I0 : (forall i c, In (CSent i c) (hw_log s0) <-> nth_error (hw_beats s0) i = Some (BDone c)) /\ NoDup (flat_map (fun e => match e with CSent i _ => [i] | _ => [] end) (hw_log s0))).
  { subst. cbn. split; [|constructor]. intros i c. split; [tauto|]. intros X. apply nth_error_In, repeat_spec in X. discriminate. }
  clear Heqs0. induction R as [s|s s1 s2 R IH T]; [exact I0|]. specialize (IH I0). clear I0 R s. destruct IH as (A & N).
  assert (K : forall i pc b, nth_error (hw_beats s1) i = Some b -> (forall c, b <> BDone c) -> (forall c, pc <> BDone c) ->
    forall j c, In (CSent j c) (hw_log s1) <-> nth_error (bset (hw_beats s1) i pc) j = Some (BDone c)).
  { intros i pc b Hb Nb Np j c. rewrite A, nth_bset. destruct (Nat.eqb_spec j i) as [->|]; [|reflexivity]. rewrite Hb. split; intros X; injection X as X; [destruct (Nb c X)|destruct (Np c X)]. }
  destruct T; cbn [hw_log hw_beats flat_map app] in *; try (split; [exact A|exact N]).
  - split; [|exact N]. intros i d. rewrite <- A. split; [intros [X|X]; [discriminate|exact X]|intros X; right; exact X].
  - split; [|exact N]. intros i d. rewrite <- A. split; [intros [X|X]; [discriminate|exact X]|intros X; right; exact X].
  - split; [eapply K; eauto; discriminate|exact N].
  - split; [eapply K; eauto; discriminate|exact N].
  - split; [eapply K; eauto; discriminate|exact N].
  - split.
    + intros j d. rewrite nth_bset. cbn [In]. rewrite A. destruct (Nat.eqb_spec j i) as [->|D].
      * rewrite H. split; [intros [X|X]; [injection X as X; subst; reflexivity|discriminate]|intros X; injection X as ->; left; reflexivity].
      * split; [intros [X|X]; [injection X as X; subst; contradiction|exact X]|auto].
    + constructor; [|exact N]. intros X. apply in_flat_map in X as (e & I & J). destruct e as [j d|d|]; [|destruct J|destruct J]. destruct J as [J|[]]. subst j. apply A in I. congruence.
Qed.

Lemma p_C47_not_lost_partial : forall chans c w n s,
  nth_error chans c = Some false -> w = WGet \/ w = WSel c ->
  hsteps (HBW (Some c) chans w (repeat BGet n) []) s ->
  all_sent (hw_log s) = (all_received (hw_log s) + (if nth c (hw_chans s) false then 1 else 0))%nat /\
  (forall log, (exists l, hw_log s = l ++ CTimeout :: log) -> all_sent log = all_received log) /\
  (forall i d, nth_error (hw_beats s) i = Some (BDone d) -> d = c) /\
  (hw_watch s = WGet \/ hw_watch s = WSel c).
Proof.
  intros chans c w n s Hc Hw H.
  enough (G : hw_store s = Some c /\ (hw_watch s = WGet \/ hw_watch s = WSel c) /\ (exists b, nth_error (hw_chans s) c = Some b /\
      all_sent (hw_log s) = (all_received (hw_log s) + (if b then 1 else 0))%nat) /\
    (forall i b, nth_error (hw_beats s) i = Some b -> b = BGet \/ b = BSend c \/ b = BDone c) /\
    (forall log, (exists l, hw_log s = l ++ CTimeout :: log) -> all_sent log = all_received log)).
  { destruct G as (A & B & (b & N & E) & F & L). split; [|split; [exact L|split; [|exact B]]].
    - rewrite (nth_error_nth _ _ false N). exact E.
    - intros i d X. destruct (F i _ X) as [Y|[Y|Y]]; inversion Y; auto. }
  remember (HBW (Some c) chans w (repeat BGet n) []) as s0 eqn:E0.
  induction H as [s|s s1 s2 H IH T]; subst.
  - cbn [hw_store hw_watch hw_chans hw_log hw_beats]. split; [auto|]. split; [auto|]. split; [exists false; auto|].
    split; [|intros log (l & X); destruct l; discriminate]. intros i b X. apply nth_error_In, repeat_spec in X. auto.
  - destruct (IH eq_refl) as (A & B & (b & N & E) & F & L).
    assert (LC : forall e, e <> CTimeout -> forall log, (exists l, e :: hw_log s1 = l ++ CTimeout :: log) -> all_sent log = all_received log).
    { intros e Ne log ([|x l] & X); simpl in X; inversion X; subst; [congruence|]. apply L. eauto. }
    destruct T; cbn [hw_store hw_watch hw_chans hw_log hw_beats]; try congruence.
    + assert (c0 = c) by congruence. subst. split; [auto|]. split; [auto|]. split; [eauto|]. auto.
    + destruct B; congruence.
    + assert (c0 = c) by (destruct B; congruence). subst. split; [auto|]. split; [auto|].
      split; [exists false; rewrite nth_bset, Nat.eqb_refl, N; split; auto; unfold all_sent, all_received in *; cbn [filter List.length]; assert (b = true) by congruence; subst; lia|].
      split; [exact F|]. apply LC. discriminate.
    + assert (c0 = c) by (destruct B; congruence). subst. assert (b = false) by congruence. subst. split; [auto|]. split; [auto|].
      split; [exists false; auto|]. split; [exact F|]. intros log ([|x l] & X); simpl in X; inversion X; subst; [|apply L; eauto]. lia.
    + assert (c0 = c) by congruence. subst. split; [auto|]. split; [auto|]. split; [eauto|]. split; [|auto].
      intros j d X. rewrite nth_bset in X. destruct (Nat.eqb j i); [destruct (nth_error (hw_beats s) i); inversion X; auto|eauto].
    + destruct (F i _ H0) as [Y|[Y|Y]]; discriminate.
    + assert (c0 = c) by (destruct (F i _ H0) as [Y|[Y|Y]]; inversion Y; auto). subst. assert (b = false) by congruence. subst.
      split; [auto|]. split; [auto|].
      split; [exists true; rewrite nth_bset, Nat.eqb_refl, N; split; auto; unfold all_sent, all_received in *; cbn [filter List.length]; lia|].
      split; [|apply LC; discriminate].
      intros j d X. rewrite nth_bset in X. destruct (Nat.eqb j i); [destruct (nth_error (hw_beats s) i); inversion X; auto|eauto].
Qed.

Lemma p_C48_auth : forall deadline evs out,
  authWatch true deadline evs out ->
  (out = [] \/ out = [AClose]) /\
  (In AClose out <-> exists t e, In (t, e) ((deadline, AvDeadline) :: evs) /\
     (forall t' e', In (t', e') ((deadline, AvDeadline) :: evs) -> t <= t') /\
     out = auth_out e /\ (e = AvDeadline \/ e = AvAll \/ exists v, e = AvSig v /\ v < 0)).
Proof.
  intros deadline evs out (e & (t & I & M) & ->). split; [destruct e; simpl; auto; destruct (v >=? 0); auto|]. split.
  - intros X. exists t, e. split; [auto|]. split; [auto|]. split; [auto|]. destruct e; simpl in X; auto; [|destruct X].
    right. right. exists v. split; auto. destruct (v >=? 0) eqn:Y; [destruct X|]. rewrite Z.geb_leb in Y. apply Z.leb_gt in Y. auto.
  - intros (t' & e' & _ & _ & E & H). rewrite E. destruct H as [->|[->|(v & -> & L)]]; simpl; auto.
    assert (Y : v >=? 0 = false) by (rewrite Z.geb_leb; apply Z.leb_gt; auto). rewrite Y. left. reflexivity.
Qed.

Lemma p_C48_pass_deny_silence : forall deadline evs out, authWatch true deadline evs out ->
  (forall t, In (t, AvSig PASS) evs -> t < deadline -> (forall t' e', In (t', e') evs -> (t', e') = (t, AvSig PASS) \/ t < t') -> out = []) /\
  (forall t, In (t, AvSig DENY) evs -> t < deadline -> (forall t' e', In (t', e') evs -> (t', e') = (t, AvSig DENY) \/ t < t') -> out = [AClose]) /\
  ((forall t' e', In (t', e') evs -> deadline < t') -> out = [AClose]).
Proof.
  intros deadline evs out (e & (t0 & I & M) & ->).
  assert (K : forall t x, In (t, x) evs -> t < deadline -> (forall t' e', In (t', e') evs -> (t', e') = (t, x) \/ t < t') -> e = x).
  { intros t x Ix Lt Mx. assert (t0 <= t) by (eapply M; right; eauto). destruct I as [I|I].
    - inversion I; subst. lia.
    - destruct (Mx _ _ I) as [X|X]; [inversion X; auto|lia]. }
  split; [|split].
  - intros t A B C. rewrite (K t _ A B C). reflexivity.
  - intros t A B C. rewrite (K t _ A B C). reflexivity.
  - intros A. destruct I as [I|I]; [inversion I; reflexivity|]. assert (t0 <= deadline) by (eapply M; left; eauto). specialize (A _ _ I). lia.
Qed.

Lemma p_C48_off : forall deadline evs out, authWatch false deadline evs out -> out = [].
Proof. auto. Qed.

Lemma p_C50_watcher : forall on evs,
  (broadcastSignalWatch on evs = [AClose] \/ broadcastSignalWatch on evs = []) /\
  (broadcastSignalWatch on evs = [AClose] <-> on = true /\ exists before after, evs = before ++ WAll :: after /\ ~ In WAll before /\ ~ In WEnd before).
Proof.
  intros on evs. destruct on; cbn [broadcastSignalWatch].
  2:{ split; [auto|]. split; [discriminate|intros (X & _); discriminate]. }
  induction evs as [|e r (IH1 & IH2)].
  { split; [auto|]. split; [discriminate|intros (_ & [|] & after & X & _); discriminate]. }
  assert (K : forall e, e <> WAll -> e <> WEnd ->
    (true = true /\ exists before after, e :: r = before ++ WAll :: after /\ ~ In WAll before /\ ~ In WEnd before) <->
    (true = true /\ exists before after, r = before ++ WAll :: after /\ ~ In WAll before /\ ~ In WEnd before)).
  { intros e0 A B. split; intros (_ & before & after & X & Y & Z); (split; [reflexivity|]).
    - destruct before as [|b before]; cbn in X; inversion X; subst; [congruence|]. exists before, after. cbn in Y, Z. split; [reflexivity|split; tauto].
    - exists (e0 :: before), after. subst r. split; [reflexivity|]. cbn. split; intros [C|C]; auto. }
  destruct e.
  4:{ split; [auto|]. split; [intros _; split; [reflexivity|]; exists [], r; cbn; auto|auto]. }
  4:{ split; [auto|]. split; [discriminate|]. intros (_ & [|b before] & after & X & Y & Z); cbn in X; inversion X; subst. cbn in Z. destruct Z. auto. }
  all: split; [exact IH1|]; rewrite K by discriminate; exact IH2.
Qed.
