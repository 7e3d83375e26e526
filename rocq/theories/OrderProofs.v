(* When messages are handled: order (C95) and independence (C96). *)
From Verif Require Export SpecOrder ServerProofs CtxFacts.

Lemma turns_snoc k a d : turns k a (S d) = turns k a d ++ [LBegin k (a + d); LEnd k (a + d)].
Proof. unfold turns. rewrite seq_S, flat_map_app. reflexivity. Qed.

Lemma in_turns k a d e : In e (turns k a d) <-> exists i, (a <= i < a + d)%nat /\ (e = LBegin k i \/ e = LEnd k i).
Proof.
  unfold turns. rewrite in_flat_map. split.
  - intros (i & H & X). apply in_seq in H. exists i. split; [lia|]. destruct X as [X|[X|[]]]; auto.
  - intros (i & H & X). exists i. split; [apply in_seq; lia|]. destruct X as [->| ->]; cbn; auto.
Qed.

Definition grange := (nat * nat * nat)%type.

Definition inr_ (g : grange) (e : lev) : bool := match g with (k, a, n) => of_range k a n e end.

Definition disj (g h : grange) : Prop := match g, h with (k, a, n), (k', a', n') => k <> k' \/ a + n <= a' \/ a' + n' <= a end%nat.

Lemma disj_sym g h : disj g h -> disj h g.
Proof. destruct g as [[k a] n], h as [[k' a'] n']. unfold disj. intuition. Qed.

Lemma of_range_spec k a n e : of_range k a n e = true <-> exists i, (a <= i < a + n)%nat /\ (e = LBegin k i \/ e = LEnd k i).
Proof.
  destruct e as [k' i|k' i]; cbn [of_range]; rewrite !andb_true_iff, Nat.eqb_eq, Nat.leb_le, Nat.ltb_lt; split.
  1,3: intros ((-> & H) & H2); exists i; split; [lia|auto].
  all: intros (i' & H & [X|X]); inversion X; subst; lia.
Qed.

Lemma disj_out g h e : disj g h -> inr_ g e = true -> inr_ h e = false.
Proof.
  destruct g as [[k a] n], h as [[k' a'] n']. cbn [inr_ disj]. intros D H. apply of_range_spec in H as (i & H & X).
  destruct (of_range k' a' n' e) eqn:Y; auto. apply of_range_spec in Y as (i' & H' & X').
  destruct X as [-> | ->], X' as [X'|X']; inversion X'; subst; lia.
Qed.

(* how far a task has come *)
Definition tinv (lg : list lev) (g : grange) (t : task) : Prop :=
  match g with (k, a, n) => t_conn t = k /\ exists d, (d <= n)%nat /\ t_left t = seq (a + d) (n - d) /\ (t_busy t = true -> (d < n)%nat) /\
    filter (of_range k a n) lg = turns k a d ++ (if t_busy t then [LBegin k (a + d)] else []) end.

Definition below (ks : list conn) (g : grange) : Prop :=
  match g with (k, a, n) => exists c, nth_error ks k = Some c /\ (a + n <= k_read c)%nat end.

Definition read_of (streams : list (list sev)) (gs : list grange) (k : nat) (c : conn) : Prop :=
  exists P E, nth_error streams k = Some E /\ E = P ++ k_left c /\ k_read c = messages P /\
    (forall p1 e p2, P = p1 ++ e :: p2 -> hands_on e -> In (k, messages p1, count e) gs).

(* gs: the messages of each task *)
Record oinv (streams : list (list sev)) (gs : list grange) (s : sys) : Prop := {
  oi_tasks : Forall2 (tinv (y_log s)) gs (y_tasks s);
  oi_disj : forall i j g h, i <> j -> nth_error gs i = Some g -> nth_error gs j = Some h -> disj g h;
  oi_log : forall e, In e (y_log s) -> exists g, In g gs /\ inr_ g e = true;
  oi_below : forall g, In g gs -> below (y_conns s) g;
  oi_read : forall k c, nth_error (y_conns s) k = Some c -> read_of streams gs k c;
  oi_queue : y_queue s = skipn (List.length (y_conns s)) streams /\ (List.length (y_conns s) <= List.length streams)%nat }.

Lemma Forall2_nth_r {A B} (R : A -> B -> Prop) l m : Forall2 R l m -> forall j y, nth_error m j = Some y -> exists x, nth_error l j = Some x /\ R x y.
Proof. induction 1; intros [|j] z H1; cbn in H1; try discriminate; [inversion H1; subst; exists x; auto|apply IHForall2; auto]. Qed.

Lemma Forall2_nth_l {A B} (R : A -> B -> Prop) l m : Forall2 R l m -> forall j x, nth_error l j = Some x -> exists y, nth_error m j = Some y /\ R x y.
Proof. induction 1; intros [|j] z H1; cbn in H1; try discriminate; [inversion H1; subst; exists y; auto|apply IHForall2; auto]. Qed.

Lemma Forall2_upd {A B} (R R' : A -> B -> Prop) l m : Forall2 R l m -> forall j y x, nth_error l j = Some x -> R' x y ->
  (forall i x z, i <> j -> nth_error l i = Some x -> nth_error m i = Some z -> R x z -> R' x z) -> Forall2 R' l (upd m j y).
Proof.
  induction 1 as [|u v l m H F IH]; intros [|j] y x Hx Hy O; cbn in Hx; try discriminate.
  - inversion Hx; subst. cbn. constructor; auto. assert (Q : forall i a b, nth_error l i = Some a -> nth_error m i = Some b -> R a b -> R' a b) by (intros i a b ? ?; apply (O (S i)); auto).
    clear IH O Hx. induction F as [|a b l m H1 F IH]; constructor; [apply (Q 0%nat); auto|]. apply IH. intros i; apply (Q (S i)).
  - cbn. constructor; [apply (O 0%nat); auto|]. eapply IH; [exact Hx|exact Hy|]. intros i a b Hi; apply (O (S i)); auto.
Qed.

Lemma messages_app p q : messages (p ++ q) = (messages p + messages q)%nat.
Proof. unfold messages. induction p as [|e p IH]; cbn; auto. rewrite IH. lia. Qed.

Lemma filter_none {A} (f : A -> bool) l : (forall x, In x l -> f x = false) -> filter f l = [].
Proof. induction l as [|x l IH]; intros H; cbn; auto. rewrite (H x) by (left; auto). apply IH. intros y Hy. apply H. right; auto. Qed.

Lemma oinv_init streams : oinv streams [] (sys0 streams).
Proof.
  split; cbn; [constructor|..]; try (intros; tauto).
  - intros [|i] j g h _ H; discriminate H.
  - intros [|k] c H; discriminate H.
  - split; [reflexivity|lia].
Qed.

Lemma tinv_log lg e g t : inr_ g e = false -> tinv lg g t -> tinv (lg ++ [e]) g t.
Proof.
  destruct g as [[k a] n]. cbn [inr_]. intros X (T & d & H1 & H2 & H3 & H4). split; auto. exists d. repeat split; auto.
  rewrite filter_app, H4. cbn [filter]. rewrite X, app_nil_r. reflexivity.
Qed.

(* a task step *)
Lemma oinv_task streams gs q oc ks ts lg dd j k n l (busy : bool) x : nth_error ts j = Some (Task k (n :: l) busy x) ->
  oinv streams gs (Sys q oc ks ts lg false) ->
  oinv streams gs (Sys q oc ks (upd ts j (if busy then Task k l false x else Task k (n :: l) true x)) (lg ++ [if busy then LEnd k n else LBegin k n]) dd).
Proof.
  intros Hj [I1 I2 I3 I4 I5 I6]. cbn in *. destruct (Forall2_nth_r _ _ _ I1 _ _ Hj) as ([[k0 a] m] & Hg & T).
  destruct T as (T0 & d & T1 & T2 & T3 & T4). cbn in T0, T2, T3, T4. subst k0.
  assert (D : (d < m)%nat) by (destruct (Nat.eq_dec d m) as [->|]; [rewrite Nat.sub_diag in T2; discriminate T2|lia]).
  assert (N : n = (a + d)%nat /\ l = seq (a + S d) (m - S d)).
  { replace (m - d)%nat with (S (m - S d)) in T2 by lia. cbn in T2. inversion T2. split; [reflexivity|f_equal; lia]. }
  destruct N as (-> & ->).
  assert (IR : forall b : bool, of_range k a m (if b then LEnd k (a + d) else LBegin k (a + d)) = true).
  { intros b. apply of_range_spec. exists (a + d)%nat. split; [lia|]. destruct b; auto. }
  split; cbn [y_log y_tasks y_conns y_queue]; auto.
  - eapply Forall2_upd; [exact I1|exact Hg| |].
    + cbn [tinv]. split; [destruct busy; reflexivity|]. destruct busy; cbn [t_left t_busy].
      * exists (S d). split; [lia|]. split; [f_equal; lia|]. split; [discriminate|].
        rewrite filter_app, T4, turns_snoc. cbn [filter]. rewrite (IR true), <- !app_assoc. reflexivity.
      * exists d. split; [lia|]. split; [rewrite T2; reflexivity|]. split; [intros; lia|].
        rewrite filter_app, T4. cbn [filter]. rewrite (IR false), app_nil_r. reflexivity.
    + intros i g z Hi Hgi _ T. apply tinv_log; auto. eapply disj_out; [|apply (IR busy : inr_ (k, a, m) _ = true)].
      eapply I2; [|exact Hg|exact Hgi]. auto.
  - intros e H. apply in_app_or in H. destruct H as [H|[<-|[]]]; [apply I3; auto|].
    exists (k, a, m). split; [eapply nth_error_In; eauto|apply IR].
Qed.

Lemma nth_upd_eq {A} (l : list A) i x y : nth_error l i = Some y -> nth_error (upd l i x) i = Some x.
Proof. revert i. induction l as [|z l IH]; intros [|i] H; cbn in *; try discriminate; auto. Qed.

Lemma nth_upd_neq {A} (l : list A) i j x : i <> j -> nth_error (upd l i x) j = nth_error l j.
Proof. revert i j. induction l as [|z l IH]; intros [|i] [|j] H; cbn; auto; congruence. Qed.

Lemma len_upd {A} (l : list A) i x : List.length (upd l i x) = List.length l.
Proof. revert i. induction l as [|z l IH]; intros [|i]; cbn; auto. Qed.

Definition gstart (k n : nat) (e : sev) : list grange := match e with SDispatch _ | SPipe _ _ => [(k, n, count e)] | _ => [] end.

Lemma in_gstart k n e g : In g (gstart k n e) -> g = (k, n, count e).
Proof. destruct e; cbn; intuition. Qed.

Definition gnext (gs : list grange) (s : sys) (a : actor) : list grange :=
  match a with AReader k => match nth_error (y_conns s) k with Some (Conn (e :: _) n) => gs ++ gstart k n e | _ => gs end | _ => gs end.

Lemma oinv_next streams gs s a s' : oinv streams gs s -> ostep s a = Some s' -> oinv streams (gnext gs s a) s'.
Proof.
  destruct s as [q oc ks ts lg dd]. intros I H. destruct dd; [discriminate H|]. destruct a as [|k|j]; cbn in H; cbn [gnext y_conns].
  - destruct q as [|e q]; [discriminate|]. destruct I as [I1 I2 I3 I4 I5 (I6 & I7)]. cbn in *. destruct oc; inversion H; subst; clear H.
    + assert (Q : nth_error streams (List.length ks) = Some e /\ q = skipn (S (List.length ks)) streams).
      { clear - I6. revert I6. generalize (List.length ks) as n. induction streams as [|u l IH]; intros [|n] H; cbn in H; try discriminate H; [inversion H; auto|]. apply IH in H. auto. }
      destruct Q as (Q1 & Q2). split; cbn; auto.
      * intros [[k a] n] Hg. destruct (I4 _ Hg) as (c & X & Y). exists c. split; auto. rewrite nth_error_app1; [auto|apply nth_error_Some; rewrite X; discriminate].
      * intros k c Hk. destruct (Nat.lt_ge_cases k (List.length ks)) as [L|L]; [rewrite nth_error_app1 in Hk by exact L; auto|].
        rewrite nth_error_app2 in Hk by exact L. destruct (k - List.length ks)%nat as [|m] eqn:X; cbn in Hk; [|destruct m; discriminate Hk].
        inversion Hk; subst c. replace k with (List.length ks) by lia. exists [], e. cbn. repeat split; auto. intros [|] ? ? X0; discriminate X0.
      * rewrite app_length. cbn. replace (List.length ks + 1)%nat with (S (List.length ks)) by lia. split; auto.
        apply nth_error_Some. rewrite Q1. discriminate.
    + split; cbn; auto.
  - destruct (nth_error ks k) as [[[|e l] n]|] eqn:K; try discriminate. inversion H; subst; clear H.
    destruct I as [I1 I2 I3 I4 I5 (I6 & I7)]. cbn in *.
    assert (B : forall g, In g gs -> disj g (k, n, count e)).
    { intros [[k' a'] n'] Hg. destruct (I4 _ Hg) as (c & X & Y). cbn. destruct (Nat.eq_dec k' k) as [->|]; auto. rewrite K in X. inversion X; subst. cbn in Y. auto. }
    split; cbn; auto.
    + apply Forall2_app; auto. assert (Z : filter (of_range k n (count e)) lg = []).
      { apply filter_none. intros v Hv. destruct (I3 v Hv) as (g & Hg & Hr). apply (disj_out g (k, n, count e) v (B g Hg) Hr). }
      destruct e as [|b|l0 m| |]; cbn [gstart spawned]; repeat constructor; cbn [t_conn t_left t_busy]; auto.
      * exists 0%nat. cbn [count] in *. split; [lia|]. split; [rewrite Nat.add_0_r, Nat.sub_0_r; reflexivity|]. split; [discriminate|]. exact Z.
      * exists 0%nat. cbn [count] in *. split; [lia|]. split; [rewrite Nat.add_0_r, Nat.sub_0_r; reflexivity|]. split; [discriminate|]. exact Z.
    + intros i j g h Hij Hi Hj.
      assert (C : forall i0 x, nth_error (gs ++ gstart k n e) i0 = Some x -> (nth_error gs i0 = Some x) \/ (i0 = List.length gs /\ x = (k, n, count e))).
      { intros i0 x X. destruct (Nat.lt_ge_cases i0 (List.length gs)) as [L|L]; [rewrite nth_error_app1 in X by exact L; auto|].
        rewrite nth_error_app2 in X by exact L. right. pose proof (in_gstart k n e x (nth_error_In _ _ X)) as ->. split; auto.
        destruct (i0 - List.length gs)%nat as [|u] eqn:U; [lia|]. destruct e; cbn in X; try discriminate X; destruct u; discriminate X. }
      destruct (C _ _ Hi) as [A|(A1 & A2)], (C _ _ Hj) as [A'|(A1' & A2')]; subst.
      * eapply I2; eauto.
      * apply B. eapply nth_error_In; eauto.
      * apply disj_sym, B. eapply nth_error_In; eauto.
      * congruence.
    + intros v Hv. destruct (I3 v Hv) as (g & Hg & Hr). exists g. split; auto. apply in_or_app; auto.
    + intros g Hg. apply in_app_or in Hg. destruct Hg as [Hg|Hg].
      * destruct g as [[k' a'] n']. destruct (I4 _ Hg) as (c & X & Y). destruct (Nat.eq_dec k k') as [<-|N].
        -- eexists. split; [eapply nth_upd_eq; eauto|]. rewrite K in X. inversion X; subst. cbn in *. lia.
        -- exists c. rewrite nth_upd_neq; auto.
      * rewrite (in_gstart _ _ _ _ Hg). eexists. split; [eapply nth_upd_eq; eauto|]. cbn. lia.
    + intros k' c Hc. destruct (Nat.eq_dec k k') as [<-|N].
      * rewrite (nth_upd_eq _ _ _ _ K) in Hc. inversion Hc; subst c. cbn. destruct (I5 _ _ K) as (P & E & X1 & X2 & X3 & X4). cbn in *.
        exists (P ++ [e]), E. split; auto. split; [rewrite <- app_assoc; exact X2|]. split; [rewrite messages_app; cbn; lia|].
        intros p1 e1 p2 Q Ho. destruct p2 as [|z p2] using rev_ind.
        -- apply app_inj_tail in Q as (-> & ->). apply in_or_app. right. rewrite <- X3. destruct e1; cbn in *; tauto.
        -- clear IHp2. replace (p1 ++ e1 :: p2 ++ [z]) with ((p1 ++ e1 :: p2) ++ [z]) in Q by (rewrite <- app_assoc; reflexivity).
           apply app_inj_tail in Q as (Q & _). apply in_or_app. left. eapply X4; eauto.
      * rewrite nth_upd_neq in Hc by auto. destruct (I5 _ _ Hc) as (P & E & X1 & X2 & X3 & X4). exists P, E. repeat split; auto.
        intros p1 e1 p2 Q Ho. apply in_or_app. left. eauto.
    + rewrite len_upd. auto.
  - destruct (nth_error ts j) as [[k [|n l] b x]|] eqn:J; try discriminate.
    + destruct b, x; try discriminate; inversion H; subst; destruct I as [I1 I2 I3 I4 I5 I6]; split; auto.
    + destruct b; inversion H; subst.
      * exact (oinv_task _ _ _ _ _ _ _ false _ _ _ _ true _ J I).
      * exact (oinv_task _ _ _ _ _ _ _ false _ _ _ _ false _ J I).
Qed.

Lemma oinv_step streams gs s a s' : oinv streams gs s -> ostep s a = Some s' -> exists gs', oinv streams gs' s'.
Proof. intros I H. eexists. eapply oinv_next; eauto. Qed.

Lemma orun_app s l1 l2 : orun s (l1 ++ l2) = match orun s l1 with Some s' => orun s' l2 | None => None end.
Proof. revert s. induction l1 as [|a l1 IH]; intros s; cbn; auto. destruct (ostep s a); auto. Qed.

Lemma oinv_run streams : forall l gs s s', oinv streams gs s -> orun s l = Some s' -> exists gs', oinv streams gs' s'.
Proof.
  induction l as [|a l IH]; intros gs s s' I H; cbn in H; [inversion H; subst; eauto|].
  destruct (ostep s a) as [s1|] eqn:E; [|discriminate]. destruct (oinv_step _ _ _ _ _ I E) as (gs1 & I1). eapply IH; eauto.
Qed.

Lemma nth_error_Some_app {A} (l m : list A) k : nth_error (l ++ m) (List.length l + k) = nth_error m k.
Proof. rewrite nth_error_app2 by lia. f_equal. lia. Qed.

Lemma filter_in {A} (f : A -> bool) l x : f x = true -> (In x (filter f l) <-> In x l).
Proof. intros H. rewrite filter_In. tauto. Qed.

Lemma messages_nth E : forall n, (n < messages E)%nat -> exists p1 e p2, E = p1 ++ e :: p2 /\ (messages p1 <= n < messages p1 + count e)%nat.
Proof.
  induction E as [|e E IH]; intros n H; [cbn in H; lia|]. change (messages (e :: E)) with (count e + messages E)%nat in H. destruct (Nat.lt_ge_cases n (count e)) as [L|L].
  - exists [], e, E. split; auto. change (messages []) with 0%nat. lia.
  - destruct (IH (n - count e)%nat) as (p1 & e' & p2 & -> & X); [lia|]. exists (e :: p1), e', p2. split; auto. change (messages (e :: p1)) with (count e + messages p1)%nat. lia.
Qed.

Lemma count_hands e : (0 < count e)%nat -> hands_on e.
Proof. destruct e; cbn; intros; auto; lia. Qed.

(* once everything is accepted and read, a message is handled or in some task's hands *)
Lemma done_or_left streams gs s : oinv streams gs s -> y_queue s = [] -> (forall k c, nth_error (y_conns s) k = Some c -> k_left c = []) ->
  forall k E n, nth_error streams k = Some E -> (n < messages E)%nat ->
  In (LEnd k n) (y_log s) \/ exists j t, nth_error (y_tasks s) j = Some t /\ t_conn t = k /\ In n (t_left t).
Proof.
  intros [I1 I2 I3 I4 I5 (I6 & I7)] Q L k E n HE Hn.
  assert (K : (k < List.length (y_conns s))%nat).
  { destruct (Nat.lt_ge_cases k (List.length (y_conns s))) as [|X]; auto. exfalso. rewrite Q in I6. symmetry in I6.
    pose proof (f_equal (@List.length _) I6) as Y. rewrite skipn_length in Y. cbn in Y. assert (k < List.length streams)%nat by (apply nth_error_Some; rewrite HE; discriminate). lia. }
  apply nth_error_Some in K. destruct (nth_error (y_conns s) k) as [c|] eqn:C; [|congruence].
  destruct (I5 _ _ C) as (P & E' & X1 & X2 & X3 & X4). rewrite (L _ _ C), app_nil_r in X2. rewrite HE in X1. inversion X1; subst E' E; clear X1.
  destruct (messages_nth P n Hn) as (p1 & e & p2 & HP & B). assert (G : In (k, messages p1, count e) gs) by (eapply X4; eauto; apply count_hands; lia).
  apply In_nth_error in G as (j & G). destruct (Forall2_nth_l _ _ _ I1 _ _ G) as (t & T & (T0 & d & T1 & T2 & T3 & T4)).
  destruct (Nat.lt_ge_cases n (messages p1 + d)) as [Y|Y].
  - left. apply (filter_in (of_range k (messages p1) (count e))); [apply of_range_spec; exists n; split; [lia|auto]|].
    rewrite T4. apply in_or_app. left. apply in_turns. exists n. split; [lia|auto].
  - right. exists j, t. repeat split; auto. rewrite T2. apply in_seq. lia.
Qed.

Lemma NoDup_snoc {A} (l : list A) x : NoDup l -> ~ In x l -> NoDup (l ++ [x]).
Proof.
  induction 1 as [|y l H N IH]; intros X; cbn; [repeat constructor; auto|]. constructor; [|apply IH; intros Y; apply X; right; auto].
  intros Y. apply in_app_or in Y. destruct Y as [Y|[<-|[]]]; [auto|apply X; left; auto].
Qed.

Lemma NoDup_turns k a d : NoDup (turns k a d).
Proof.
  induction d as [|d IH]; [constructor|]. rewrite turns_snoc. replace (turns k a d ++ [LBegin k (a + d); LEnd k (a + d)]) with ((turns k a d ++ [LBegin k (a + d)]) ++ [LEnd k (a + d)]) by (rewrite <- app_assoc; reflexivity).
  apply NoDup_snoc; [apply NoDup_snoc; auto|].
  - intros X. apply in_turns in X as (i & H & [X|X]); inversion X; lia.
  - intros X. apply in_app_or in X. destruct X as [X|[X|[]]]; [|discriminate]. apply in_turns in X as (i & H & [X|X]); inversion X; lia.
Qed.

Lemma NoDup_by_ranges l : (forall e, In e l -> exists g, inr_ g e = true /\ NoDup (filter (inr_ g) l)) -> NoDup l.
Proof.
  induction l as [|e l IH]; intros H; constructor.
  - intros X. destruct (H e) as (g & G & N); [left; auto|]. cbn in N. rewrite G in N. inversion N; subst. apply H2. apply filter_In. auto.
  - apply IH. intros x Hx. destruct (H x) as (g & G & N); [right; auto|]. exists g. split; auto. cbn in N. destruct (inr_ g e); auto. inversion N; auto.
Qed.

Lemma p_C95_each_once : forall streams l s, orun (sys0 streams) l = Some s ->
  NoDup (y_log s) /\
  (forall k n, In (LBegin k n) (y_log s) \/ In (LEnd k n) (y_log s) -> exists E, nth_error streams k = Some E /\ (n < messages E)%nat) /\
  (all_quiet s -> y_dead s = false -> forall k E n, nth_error streams k = Some E -> (n < messages E)%nat -> In (LEnd k n) (y_log s)).
Proof.
  intros streams l s H. destruct (oinv_run _ _ _ _ _ (oinv_init streams) H) as (gs & I). pose proof I as [I1 I2 I3 I4 I5 I6]. split; [|split].
  - apply NoDup_by_ranges. intros e He. destruct (I3 e He) as (g & Hg & Hr). exists g. split; auto.
    apply In_nth_error in Hg as (j & G). destruct (Forall2_nth_l _ _ _ I1 _ _ G) as (t & T & X). destruct g as [[k a] n]. destruct X as (_ & d & _ & _ & _ & X).
    change (inr_ (k, a, n)) with (of_range k a n). rewrite X. destruct (t_busy t); [|rewrite app_nil_r; apply NoDup_turns]. apply NoDup_snoc; [apply NoDup_turns|].
    intros Y. apply in_turns in Y as (i & Hi & [Y|Y]); inversion Y; lia.
  - intros k n X. assert (Y : exists e, In e (y_log s) /\ (e = LBegin k n \/ e = LEnd k n)) by (destruct X; eauto). destruct Y as (e & He & Y).
    destruct (I3 e He) as ([[k' a] m] & Hg & Hr). cbn [inr_] in Hr. apply of_range_spec in Hr as (i & Hi & Z).
    assert (k' = k /\ i = n) as (-> & ->) by (destruct Y as [->| ->], Z as [Z|Z]; inversion Z; auto).
    destruct (I4 _ Hg) as (c & C1 & C2). destruct (I5 _ _ C1) as (P & E & X1 & X2 & X3 & X4). exists E. split; auto. subst E. rewrite messages_app. lia.
  - intros Q D k E n HE Hn. destruct s as [q oc ks ts lg dd]. cbn in D. subst dd.
    assert (QQ : q = []). { specialize (Q AAccept). cbn in Q. destruct q as [|e q]; auto. destruct oc; discriminate Q. }
    assert (QK : forall k c, nth_error ks k = Some c -> k_left c = []).
    { intros k' [[|e l'] n'] C; auto. specialize (Q (AReader k')). cbn in Q. rewrite C in Q. discriminate Q. }
    destruct (done_or_left _ _ _ I QQ QK k E n HE Hn) as [X|(j & t & T & _ & X)]; auto. exfalso. cbn in T. specialize (Q (ATask j)). cbn in Q. rewrite T in Q.
    destruct t as [tk [|m tl] [] x]; try (destruct X); discriminate Q.
Qed.

Lemma seq_split_at E P l1 l2 (e : sev) : E = P ++ l2 -> E = l1 ++ e :: l2 -> P = l1 ++ [e].
Proof. intros -> H. replace (l1 ++ e :: l2) with ((l1 ++ [e]) ++ l2) in H by (rewrite <- app_assoc; reflexivity). apply app_inv_tail in H. exact H. Qed.

Lemma prefix_cmp {A} (P K p : list A) e q : P ++ K = p ++ e :: q -> (exists u, P = p ++ e :: u) \/ (exists u, p = P ++ u).
Proof.
  revert p. induction P as [|x P IH]; intros p H; [right; exists p; auto|]. destruct p as [|y p]; cbn in H.
  - inversion H; subst. left. exists P. reflexivity.
  - inversion H; subst. destruct (IH p H2) as [(u & ->)|(u & ->)]; [left|right]; exists u; reflexivity.
Qed.

Lemma p_C95_batch_partial : forall streams l s k pre body missing post, orun (sys0 streams) l = Some s ->
  nth_error streams k = Some (pre ++ SPipe body missing :: post) ->
  one_by_one k (messages pre) (filter (of_range k (messages pre) (List.length body)) (y_log s)).
Proof.
  intros streams l s k pre body missing post H HE. destruct (oinv_run _ _ _ _ _ (oinv_init streams) H) as (gs & [I1 I2 I3 I4 I5 I6]).
  assert (N : (forall g, In g gs -> disj g (k, messages pre, List.length body)) -> filter (of_range k (messages pre) (List.length body)) (y_log s) = []).
  { intros D. apply filter_none. intros v Hv. destruct (I3 v Hv) as (g & Hg & Hr). apply (disj_out g _ v (D g Hg) Hr). }
  destruct (nth_error (y_conns s) k) as [c|] eqn:C.
  - destruct (I5 _ _ C) as (P & E & X1 & X2 & X3 & X4). rewrite HE in X1. injection X1 as X1. rewrite <- X1 in X2. destruct (prefix_cmp _ _ _ _ _ (eq_sym X2)) as [(u & HP)|(u & Hp)].
    + assert (G : In (k, messages pre, List.length body) gs) by (apply (X4 pre (SPipe body missing) u HP Logic.I)).
      apply In_nth_error in G as (j & G). destruct (Forall2_nth_l _ _ _ I1 _ _ G) as (t & T & (T0 & d & T1 & T2 & T3 & T4)). exists d. rewrite T4.
      destruct (t_busy t); [right|left; rewrite app_nil_r]; reflexivity.
    + exists 0%nat. left. cbn. apply N. intros [[k' a] n] Hg. destruct (Nat.eq_dec k' k) as [->|]; [|left; auto]. right. left.
      destruct (I4 _ Hg) as (c' & C1 & C2). rewrite C in C1. inversion C1; subst c'. rewrite Hp, messages_app. lia.
  - exists 0%nat. left. cbn. apply N. intros [[k' a] n] Hg. destruct (I4 _ Hg) as (c' & C1 & C2). left. congruence.
Qed.

Definition reads (ks : list conn) (k : nat) : nat := match nth_error ks k with Some c => k_read c | None => 0 end.

Definition others_done (k : nat) (ts : list task) (skip : nat -> Prop) : Prop :=
  forall i t, ~ skip i -> nth_error ts i = Some t -> t_conn t = k -> t_left t = [].

Definition linv (k : nat) (s : sys) : Prop := exists D,
  (others_done k (y_tasks s) (fun _ => False) /\ D = reads (y_conns s) k /\ filter (of_conn k) (y_log s) = turns k 0 D) \/
  (exists j b x, nth_error (y_tasks s) j = Some (Task k (seq D (reads (y_conns s) k - D)) b x) /\ (D < reads (y_conns s) k)%nat /\
     others_done k (y_tasks s) (fun i => i = j) /\ filter (of_conn k) (y_log s) = turns k 0 D ++ (if b then [LBegin k D] else [])).

Lemma reads_accept ks e k : reads (ks ++ [Conn e 0]) k = reads ks k.
Proof.
  unfold reads. destruct (Nat.lt_ge_cases k (List.length ks)) as [L|L]; [rewrite nth_error_app1 by exact L; reflexivity|].
  rewrite nth_error_app2 by exact L. rewrite (proj2 (nth_error_None ks k) L). destruct (k - List.length ks)%nat as [|[|m]]; reflexivity.
Qed.

Lemma others_app k ts more (sk : nat -> Prop) : others_done k ts sk -> (forall i t, ~ sk (List.length ts + i)%nat -> nth_error more i = Some t -> t_conn t = k -> t_left t = []) -> others_done k (ts ++ more) sk.
Proof.
  intros O M i t Hs Hi Hk. destruct (Nat.lt_ge_cases i (List.length ts)) as [L|L]; [rewrite nth_error_app1 in Hi by exact L; eauto|].
  rewrite nth_error_app2 in Hi by exact L. apply (M (i - List.length ts)%nat t); auto. replace (List.length ts + (i - List.length ts))%nat with i by lia. exact Hs.
Qed.

Lemma others_upd k ts j t0 t1 (sk : nat -> Prop) : nth_error ts j = Some t0 -> others_done k ts sk -> (~ sk j -> t_conn t1 = k -> t_left t1 = []) -> others_done k (upd ts j t1) sk.
Proof.
  intros J O X i t Hs Hi Hk. destruct (Nat.eq_dec j i) as [<-|N].
  - rewrite (nth_upd_eq _ _ _ _ J) in Hi. inversion Hi; subst t. auto.
  - rewrite nth_upd_neq in Hi by exact N. eauto.
Qed.

Lemma spawned_conn k n e t : In t (spawned k n e) -> t = Task k (seq n (count e)) false (match e with SPipe _ m => 0 <? m | _ => false end).
Proof. destruct e; cbn; intuition. Qed.

Lemma spawned_len k n e : (List.length (spawned k n e) <= 1)%nat.
Proof. destruct e; cbn; lia. Qed.

Lemma linv_step k s a s' : linv k s -> waits k s a -> ostep s a = Some s' -> linv k s'.
Proof.
  destruct s as [q oc ks ts lg dd]. intros (D & I) W H. destruct dd; [discriminate H|]. destruct a as [|k'|j']; cbn in H.
  - destruct q as [|e q]; [discriminate|]. destruct oc; inversion H; subst; clear H; exists D; cbn [y_tasks y_conns y_log] in *; rewrite ?reads_accept; exact I.
  - destruct (nth_error ks k') as [[[|e l] n]|] eqn:K; try discriminate. inversion H; subst; clear H. cbn [y_tasks y_conns y_log] in *.
    destruct (Nat.eq_dec k' k) as [->|N].
    + assert (R : reads ks k = n) by (unfold reads; rewrite K; reflexivity). assert (R' : reads (upd ks k (Conn l (n + count e))) k = (n + count e)%nat) by (unfold reads; rewrite (nth_upd_eq _ _ _ _ K); reflexivity).
      specialize (W eq_refl). cbn in W. rewrite K in W. cbn in W. destruct I as [(O & X & F)|(j & b & x & J & X & O & F)].
      * rewrite R in X. subst D. destruct (Nat.eq_dec (count e) 0) as [Z|Z].
        -- exists n. left. cbn [y_tasks y_conns y_log]. rewrite R'. split; [|split; [lia|exact F]]. apply others_app; auto.
           intros i t _ Hi _. rewrite (spawned_conn k n e t (nth_error_In _ _ Hi)), Z. reflexivity.
        -- exists n. right. cbn [y_tasks y_conns y_log]. rewrite R'. exists (List.length ts), false, (match e with SPipe _ m => 0 <? m | _ => false end).
           split; [rewrite nth_error_app2, Nat.sub_diag by lia; replace (n + count e - n)%nat with (count e) by lia; destruct e; cbn in *; try lia; reflexivity|].
           split; [lia|]. split; [|rewrite app_nil_r; exact F]. apply others_app; [intros i t _; apply (O i t); auto|].
           intros i t Hs Hi _. destruct i as [|i]; [exfalso; apply Hs; lia|]. exfalso. pose proof (spawned_len k n e). assert (S i < List.length (spawned k n e))%nat by (apply nth_error_Some; rewrite Hi; discriminate). lia.
      * exfalso. rewrite R in X. specialize (W D X). apply (filter_in (of_conn k)) in W; [|cbn; apply Nat.eqb_refl]. rewrite F in W.
        apply in_app_or in W. destruct W as [W|W]; [apply in_turns in W as (i & Hi & [Y|Y]); inversion Y; lia|]. destruct b; [destruct W as [W|[]]; discriminate W|destruct W].
    + assert (R' : reads (upd ks k' (Conn l (n + count e))) k = reads ks k) by (unfold reads; rewrite nth_upd_neq; auto).
      assert (M : forall i t, nth_error (spawned k' n e) i = Some t -> t_conn t = k -> t_left t = []).
      { intros i t Hi Hk. rewrite (spawned_conn k' n e t (nth_error_In _ _ Hi)) in Hk. cbn in Hk. congruence. }
      exists D. cbn [y_tasks y_conns y_log]. rewrite R'. destruct I as [(O & X & F)|(j & b & x & J & X & O & F)].
      * left. split; [apply others_app; [exact O|intros i t _; exact (M i t)]|auto].
      * right. exists j, b, x. split; [rewrite nth_error_app1; [exact J|apply nth_error_Some; rewrite J; discriminate]|]. split; auto. split; auto. apply others_app; [exact O|intros i t _; exact (M i t)].
  - destruct (nth_error ts j') as [[k' [|n l] b' x']|] eqn:J'; try discriminate.
    + destruct b', x'; try discriminate; inversion H; subst; exists D; exact I.
    + destruct (Nat.eq_dec k' k) as [->|N].
      * assert (E : exists b x, b' = b /\ x' = x /\ (D < reads ks k)%nat /\ n = D /\ l = seq (S D) (reads ks k - S D) /\ others_done k ts (fun i => i = j') /\ filter (of_conn k) lg = turns k 0 D ++ (if b' then [LBegin k D] else [])).
        { cbn [y_tasks y_conns y_log] in I. destruct I as [(O & X & F)|(j & b & x & J & X & O & F)].
          - exfalso. assert (Y : n :: l = []) by (apply (O j' _ (fun x => x) J' eq_refl)). discriminate Y.
          - destruct (Nat.eq_dec j' j) as [->|NJ]; [|exfalso; assert (Y : n :: l = []) by (apply (O j' _ NJ J' eq_refl)); discriminate Y].
            rewrite J in J'. replace (reads ks k - D)%nat with (S (reads ks k - S D)) in J' by lia. cbn in J'. inversion J'; subst. exists b', x'. repeat split; auto. }
        clear I. destruct E as (b & x & -> & -> & X & -> & -> & O & F). destruct b; inversion H; subst; clear H.
        -- assert (F' : filter (of_conn k) (lg ++ [LEnd k D]) = turns k 0 (S D)).
           { rewrite filter_app, F. cbn [filter of_conn]. rewrite Nat.eqb_refl, turns_snoc, <- app_assoc. reflexivity. }
           exists (S D). cbn [y_tasks y_conns y_log]. destruct (Nat.eq_dec (S D) (reads ks k)) as [Z|Z].
           ++ left. split; [|split; [exact Z|exact F']]. intros i t _ Hi Hk. destruct (Nat.eq_dec j' i) as [<-|NI].
              ** rewrite (nth_upd_eq _ _ _ _ J') in Hi. inversion Hi; subst t. cbn. rewrite Z, Nat.sub_diag. reflexivity.
              ** rewrite nth_upd_neq in Hi by exact NI. apply (O i t); auto.
           ++ right. exists j', false, x. split; [eapply nth_upd_eq; eauto|]. split; [lia|]. split; [|rewrite app_nil_r; exact F'].
              eapply others_upd; eauto. intros Y. exfalso. apply Y. reflexivity.
        -- exists D. right. cbn [y_tasks y_conns y_log]. exists j', true, x. split; [rewrite (nth_upd_eq _ _ _ _ J'); do 2 f_equal; replace (reads ks k - D)%nat with (S (reads ks k - S D)) by lia; reflexivity|].
           split; [exact X|]. split; [eapply others_upd; eauto; intros Y; exfalso; apply Y; reflexivity|].
           rewrite filter_app, F. cbn [filter of_conn]. rewrite Nat.eqb_refl, app_nil_r. reflexivity.
      * assert (E : exists t1 v, s' = Sys q oc ks (upd ts j' t1) (lg ++ [v]) false /\ t_conn t1 = k' /\ of_conn k v = false).
        { destruct b'; inversion H; subst; do 2 eexists; (split; [reflexivity|split; [reflexivity|cbn; apply Nat.eqb_neq; exact N]]). }
        destruct E as (t1 & v & -> & T1 & V). assert (F0 : filter (of_conn k) (lg ++ [v]) = filter (of_conn k) lg) by (rewrite filter_app; cbn [filter]; rewrite V, app_nil_r; reflexivity).
        exists D. cbn [y_tasks y_conns y_log] in *. rewrite F0. destruct I as [(O & X & F)|(j & b & x & J & X & O & F)].
        -- left. split; auto. eapply others_upd; eauto. intros _ Y. congruence.
        -- right. exists j, b, x. split; [rewrite nth_upd_neq; [exact J|intros ->; rewrite J in J'; inversion J'; congruence]|]. split; auto. split; auto.
           eapply others_upd; eauto. intros _ Y. congruence.
Qed.

Lemma p_C95_lockstep_partial : forall streams l s k, lockstep k (sys0 streams) l s -> one_by_one k 0 (filter (of_conn k) (y_log s)).
Proof.
  intros streams l s k H. assert (I : linv k (sys0 streams)). { exists 0%nat. left. cbn. split; [intros [|i] t _ X; discriminate X|]. split; [unfold reads; destruct k; reflexivity|reflexivity]. }
  induction H as [s|s a s' l s'' W E _ IH].
  - destruct I as (D & [(_ & _ & F)|(j & b & x & _ & _ & _ & F)]); exists D; rewrite F; [left; reflexivity|]. destruct b; [right|left; rewrite app_nil_r]; reflexivity.
  - apply IH. eapply linv_step; eauto.
Qed.

Lemma read_all (msgs : list bytes) rest q oc lg : forall n ts,
  orun (Sys q oc [Conn (map SDispatch msgs ++ rest) n] ts lg false) (repeat (AReader 0) (List.length msgs)) =
  Some (Sys q oc [Conn rest (n + List.length msgs)] (ts ++ map (fun i => Task 0 [i] false false) (seq n (List.length msgs))) lg false).
Proof.
  induction msgs as [|b msgs IH]; intros n ts; cbn [map List.length repeat seq].
  - cbn. rewrite Nat.add_0_r, app_nil_r. reflexivity.
  - cbn [app orun ostep nth_error upd spawned count]. rewrite IH, <- app_assoc. cbn [app]. do 3 f_equal; [f_equal; lia|]. do 3 f_equal. replace (n + 1)%nat with (S n) by lia. reflexivity.
Qed.

Lemma run_turns q oc ks k x : forall p ts lg, NoDup p -> (forall j, In j p -> nth_error ts j = Some (Task k [j] false x)) ->
  exists ts', orun (Sys q oc ks ts lg false) (flat_map (fun j => [ATask j; ATask j]) p) = Some (Sys q oc ks ts' (lg ++ flat_map (fun j => [LBegin k j; LEnd k j]) p) false).
Proof.
  induction p as [|j p IH]; intros ts lg N H; cbn [flat_map]; [exists ts; cbn; rewrite app_nil_r; reflexivity|]. inversion N; subst.
  cbn [app orun ostep]. rewrite (H j) by (left; auto). cbn [orun ostep]. rewrite (nth_upd_eq _ _ _ _ (H j (or_introl eq_refl))).
  set (ts2 := upd (upd ts j _) j _). destruct (IH ts2 ((lg ++ [LBegin k j]) ++ [LEnd k j]) H3) as (ts' & E).
  - intros i Hi. unfold ts2. assert (j <> i) by (intros ->; auto). rewrite !nth_upd_neq by auto. apply H. right; auto.
  - exists ts'. rewrite E, <- !app_assoc. reflexivity.
Qed.

Lemma run_begin q oc ks k x : forall p ts lg, NoDup p -> (forall j, In j p -> nth_error ts j = Some (Task k [j] false x)) ->
  exists ts', orun (Sys q oc ks ts lg false) (map ATask p) = Some (Sys q oc ks ts' (lg ++ map (LBegin k) p) false).
Proof.
  induction p as [|j p IH]; intros ts lg N H; cbn [map]; [exists ts; cbn; rewrite app_nil_r; reflexivity|]. inversion N; subst.
  cbn [orun ostep]. rewrite (H j) by (left; auto). set (ts2 := upd ts j _). destruct (IH ts2 (lg ++ [LBegin k j]) H3) as (ts' & E).
  - intros i Hi. unfold ts2. assert (j <> i) by (intros ->; auto). rewrite !nth_upd_neq by auto. apply H. right; auto.
  - exists ts'. rewrite E, <- !app_assoc. reflexivity.
Qed.

Lemma nth_map_seq {A} (f : nat -> A) n a i : (i < n)%nat -> nth_error (map f (seq a n)) i = Some (f (a + i)%nat).
Proof.
  revert a i. induction n as [|n IH]; intros a i H; [lia|]. destruct i as [|i]; cbn; [do 2 f_equal; lia|]. rewrite IH by lia. do 2 f_equal. lia.
Qed.

Lemma p_C95_any_order_refuted : forall hc lim onClose msgs en r p, Forall (plain_message hc lim) msgs -> segmentation (concat msgs) en r ->
  Permutation p (seq 0 (List.length msgs)) ->
  (exists l s, orun (sys0 [connection hc lim onClose r]) l = Some s /\ y_log s = flat_map (fun n => [LBegin 0 n; LEnd 0 n]) p) /\
  (exists l s, orun (sys0 [connection hc lim onClose r]) l = Some s /\ y_log s = map (LBegin 0) p).
Proof.
  intros hc lim onClose msgs en r p F S P. assert (C : exists rest, connection hc lim onClose r = map SDispatch msgs ++ rest).
  { unfold connection. rewrite (p_C56_every_message_once _ _ _ _ _ F S). destruct en; cbn; [exists []; rewrite app_nil_r; reflexivity|eexists; reflexivity]. }
  destruct C as (rest & ->). assert (N : NoDup p) by (apply (Permutation_NoDup (Permutation_sym P)), seq_NoDup).
  assert (L : forall j, In j p -> nth_error (map (fun i => Task 0 [i] false false) (seq 0 (List.length msgs))) j = Some (Task 0 [j] false false)).
  { intros j Hj. apply (Permutation_in _ P), in_seq in Hj. rewrite nth_map_seq by lia. reflexivity. }
  split.
  - destruct (run_turns [] false [Conn rest (List.length msgs)] 0 false p _ [] N L) as (ts' & E).
    exists ([AAccept; AAccept] ++ repeat (AReader 0) (List.length msgs) ++ flat_map (fun j => [ATask j; ATask j]) p). eexists. split; [|shelve].
    cbn [app orun ostep sys0]. rewrite orun_app. cbn [app]. rewrite (read_all msgs rest [] false [] 0 []). cbn [app Nat.add]. rewrite E. reflexivity.
    Unshelve. reflexivity.
  - destruct (run_begin [] false [Conn rest (List.length msgs)] 0 false p _ [] N L) as (ts' & E).
    exists ([AAccept; AAccept] ++ repeat (AReader 0) (List.length msgs) ++ map ATask p). eexists. split; [|shelve].
    cbn [app orun ostep sys0]. rewrite orun_app. cbn [app]. rewrite (read_all msgs rest [] false [] 0 []). cbn [app Nat.add]. rewrite E. reflexivity.
    Unshelve. reflexivity.
Qed.

Definition whole (E : list sev) : Prop := forall l m, In (SPipe l m) E -> m <= 0.

Definition nonil (s : sys) : Prop := y_dead s = false /\ Forall whole (y_queue s) /\ Forall (fun c => whole (k_left c)) (y_conns s) /\ Forall (fun t => t_nil t = false) (y_tasks s).

Definition weight (E : list sev) : nat := fold_right (fun e n => 1 + 2 * count e + n)%nat 0%nat E.

Definition tweight (t : task) : nat := (2 * List.length (t_left t) - if t_busy t then 1 else 0)%nat.

Definition sum (f : task -> nat) (l : list task) : nat := fold_right (fun t n => f t + n)%nat 0%nat l.

Definition qsum (l : list (list sev)) : nat := fold_right (fun E n => 2 + weight E + n)%nat 0%nat l.

Definition csum (l : list conn) : nat := fold_right (fun c n => weight (k_left c) + n)%nat 0%nat l.

Definition mu (s : sys) : nat := (qsum (y_queue s) - (if y_connecting s then 1 else 0) + csum (y_conns s) + sum tweight (y_tasks s))%nat.

Lemma csum_app a b : csum (a ++ b) = (csum a + csum b)%nat.
Proof. unfold csum. induction a as [|c a IH]; cbn; auto. rewrite IH. lia. Qed.

Lemma sum_app f a b : sum f (a ++ b) = (sum f a + sum f b)%nat.
Proof. unfold sum. induction a as [|c a IH]; cbn; auto. rewrite IH. lia. Qed.

Lemma csum_upd ks : forall k c c', nth_error ks k = Some c -> (csum (upd ks k c') + weight (k_left c) = csum ks + weight (k_left c'))%nat.
Proof. induction ks as [|x ks IH]; intros [|k] c c' H; cbn in H; try discriminate; [inversion H; subst; cbn; lia|]. cbn. specialize (IH _ _ c' H). unfold csum in IH. lia. Qed.

Lemma sum_upd f ts : forall j t t', nth_error ts j = Some t -> (sum f (upd ts j t') + f t = sum f ts + f t')%nat.
Proof. induction ts as [|x ts IH]; intros [|j] t t' H; cbn in H; try discriminate; [inversion H; subst; cbn; lia|]. cbn. specialize (IH _ _ t' H). unfold sum in IH. lia. Qed.

Lemma Forall_upd {A} (P : A -> Prop) l : forall i x, Forall P l -> P x -> Forall P (upd l i x).
Proof. induction l as [|y l IH]; intros [|i] x H Px; cbn; auto; inversion H; subst; constructor; auto. Qed.

Lemma whole_tail e E : whole (e :: E) -> whole E.
Proof. intros W l m H. eapply W. right. eauto. Qed.

Lemma spawned_weight k n e : sum tweight (spawned k n e) = (2 * count e)%nat.
Proof. destruct e; cbn; try reflexivity. unfold tweight. cbn [t_left t_busy]. rewrite seq_length. lia. Qed.

Lemma mu_step s a s' : nonil s -> ostep s a = Some s' -> nonil s' /\ (mu s' < mu s)%nat.
Proof.
  destruct s as [q oc ks ts lg dd]. intros (D & Q & K & T) H. cbn in D, Q, K, T. subst dd. unfold mu. destruct a as [|k|j]; cbn in H.
  - destruct q as [|e q]; [discriminate|]. destruct oc; inversion H; subst; clear H; cbn [y_queue y_connecting y_conns y_tasks].
    + change (qsum (e :: q)) with (2 + weight e + qsum q)%nat. split; [|rewrite csum_app; change (csum [Conn e 0]) with (weight e + 0)%nat; lia]. inversion Q; subst. split; [reflexivity|]. split; auto. split; auto. cbn. apply Forall_app. split; auto.
    + change (qsum (e :: q)) with (2 + weight e + qsum q)%nat. split; [split; auto|lia].
  - destruct (nth_error ks k) as [[[|e l] n]|] eqn:E; try discriminate. inversion H; subst; clear H. cbn [y_queue y_connecting y_conns y_tasks].
    assert (W : whole (e :: l)). { rewrite Forall_forall in K. apply (K (Conn (e :: l) n)). eapply nth_error_In; eauto. }
    split.
    + split; [reflexivity|]. split; auto. split; [apply Forall_upd; auto; apply (whole_tail _ _ W)|]. cbn. apply Forall_app. split; auto.
      destruct e as [|b|l0 m| |]; cbn; repeat constructor. cbn. specialize (W l0 m (or_introl eq_refl)). apply Z.ltb_ge. lia.
    + rewrite sum_app, spawned_weight. pose proof (csum_upd _ _ _ (Conn l (n + count e)) E) as X. cbn [k_left weight fold_right] in X. fold (weight l) in X. lia.
  - destruct (nth_error ts j) as [[k [|n l] b x]|] eqn:E; try discriminate.
    + exfalso. rewrite Forall_forall in T. pose proof (T _ (nth_error_In _ _ E)) as X. cbn in X. subst x. destruct b; discriminate H.
    + assert (X : x = false) by (rewrite Forall_forall in T; exact (T _ (nth_error_In _ _ E))). subst x.
      destruct b; inversion H; subst; clear H; cbn [y_queue y_connecting y_conns y_tasks].
      * split; [split; [reflexivity|]; split; auto; split; auto; apply Forall_upd; auto|]. pose proof (sum_upd tweight _ _ _ (Task k l false false) E) as X. unfold tweight in *. cbn [t_left t_busy List.length] in X. lia.
      * split; [split; [reflexivity|]; split; auto; split; auto; apply Forall_upd; auto|]. pose proof (sum_upd tweight _ _ _ (Task k (n :: l) true false) E) as X. unfold tweight in *. cbn [t_left t_busy List.length] in X. lia.
Qed.

Lemma nonil_run : forall l s s', nonil s -> orun s l = Some s' -> nonil s'.
Proof. induction l as [|a l IH]; intros s s' N H; cbn in H; [inversion H; subst; auto|]. destruct (ostep s a) as [s1|] eqn:E; [|discriminate]. eapply IH; [eapply mu_step; eauto|eauto]. Qed.

Lemma task_kept s a s' j t : a <> ATask j -> ostep s a = Some s' -> nth_error (y_tasks s) j = Some t -> nth_error (y_tasks s') j = Some t.
Proof.
  destruct s as [q oc ks ts lg dd]. intros N H T. destruct dd; [discriminate H|]. cbn in T. destruct a as [|k|i]; cbn in H.
  - destruct q as [|e q]; [discriminate|]. destruct oc; inversion H; subst; auto.
  - destruct (nth_error ks k) as [[[|e l] n]|]; try discriminate. inversion H; subst. cbn. rewrite nth_error_app1; auto. apply nth_error_Some. rewrite T. discriminate.
  - assert (i <> j) by congruence. destruct (nth_error ts i) as [[k [|n l] b x]|] eqn:E; try discriminate; [destruct b, x; inversion H; subst; auto|].
    destruct b; inversion H; subst; cbn; rewrite nth_upd_neq; auto.
Qed.

Lemma task_kept_run j t : forall l s s', ~ In (ATask j) l -> orun s l = Some s' -> nth_error (y_tasks s) j = Some t -> nth_error (y_tasks s') j = Some t.
Proof.
  induction l as [|a l IH]; intros s s' N H T; cbn in H; [inversion H; subst; auto|]. destruct (ostep s a) as [s1|] eqn:E; [|discriminate].
  eapply IH; [intros X; apply N; right; auto|exact H|]. eapply task_kept; eauto. intros ->. apply N. left; auto.
Qed.

Definition can (s : sys) (a : actor) : bool := match ostep s a with Some _ => true | None => false end.

Definition allowed (B : list nat) (a : actor) : bool := match a with ATask j => negb (existsb (Nat.eqb j) B) | _ => true end.

Definition candidates (s : sys) : list actor :=
  AAccept :: map AReader (seq 0 (List.length (y_conns s))) ++ map ATask (seq 0 (List.length (y_tasks s))).

Lemma allowed_not B a : allowed B a = true -> forall j, In j B -> a <> ATask j.
Proof. intros H j Hj ->. cbn in H. apply negb_true_iff in H. assert (existsb (Nat.eqb j) B = true) by (apply existsb_exists; exists j; split; [auto|apply Nat.eqb_refl]). congruence. Qed.

Lemma run_out B : forall n s, (mu s < n)%nat -> nonil s -> exists l s', (forall j, In j B -> ~ In (ATask j) l) /\ orun s l = Some s' /\ nonil s' /\
  forall a, In a (candidates s') -> allowed B a = true -> ostep s' a = None.
Proof.
  induction n as [|n IH]; intros s Hn N; [lia|]. destruct (find (fun a => allowed B a && can s a) (candidates s)) as [a|] eqn:F.
  - apply find_some in F as (F1 & F2). apply andb_true_iff in F2 as (F2 & F3). unfold can in F3. destruct (ostep s a) as [s1|] eqn:E; [|discriminate].
    destruct (mu_step _ _ _ N E) as (N1 & M). destruct (IH s1) as (l & s' & L & R & N' & Q); [lia|auto|]. exists (a :: l), s'. split; [|cbn; rewrite E; auto].
    intros j Hj [X|X]; [apply (allowed_not B a F2 j Hj X)|exact (L j Hj X)].
  - exists [], s. split; [auto|]. split; [reflexivity|]. split; auto. intros a Ha Al. pose proof (find_none _ _ F a Ha) as X. cbn in X. rewrite Al in X. unfold can in X. destruct (ostep s a); [discriminate|reflexivity].
Qed.

Lemma p_C96_others_proceed_partial : forall streams l s stuck, (forall E b m, In E streams -> In (SPipe b m) E -> m <= 0) ->
  orun (sys0 streams) l = Some s -> (forall j, In j stuck -> (j < List.length (y_tasks s))%nat) ->
  exists l' s', (forall j, In j stuck -> ~ In (ATask j) l') /\ orun s l' = Some s' /\
    forall k E n, nth_error streams k = Some E -> (n < messages E)%nat ->
      In (LEnd k n) (y_log s') \/ exists j t, In j stuck /\ nth_error (y_tasks s) j = Some t /\ t_conn t = k /\ In n (t_left t).
Proof.
  intros streams l s B W H HB. assert (N0 : nonil (sys0 streams)). { split; [reflexivity|]. split; [|split; constructor]. apply Forall_forall. intros E HE b m. apply (W E b m HE). }
  destruct (run_out B (S (mu s)) s) as (l' & s' & L & R & N' & Q); [lia|eapply nonil_run; eauto|]. exists l', s'. split; auto. split; auto.
  intros k E n HE Hn. assert (R' : orun (sys0 streams) (l ++ l') = Some s') by (rewrite orun_app, H; exact R).
  destruct (oinv_run _ _ _ _ _ (oinv_init streams) R') as (gs & I). destruct s' as [q oc ks ts lg dd]. destruct N' as (D & _ & _ & T). cbn in D, T. subst dd.
  assert (QQ : q = []). { specialize (Q AAccept (or_introl eq_refl) eq_refl). cbn in Q. destruct q as [|e q]; auto. destruct oc; discriminate Q. }
  assert (QK : forall k c, nth_error ks k = Some c -> k_left c = []).
  { intros k' [[|e l0] n'] C; auto. assert (X : In (AReader k') (candidates (Sys q oc ks ts lg false))).
    { right. apply in_or_app. left. apply in_map, in_seq. cbn. split; [lia|]. apply nth_error_Some. rewrite C. discriminate. }
    specialize (Q _ X eq_refl). cbn in Q. rewrite C in Q. discriminate Q. }
  destruct (done_or_left _ _ _ I QQ QK k E n HE Hn) as [X|(j & t & Tj & Tk & X)]; [auto|right]. cbn in Tj. destruct (in_dec Nat.eq_dec j B) as [J|J].
  - destruct (nth_error (y_tasks s) j) as [t0|] eqn:T0; [|apply nth_error_None in T0; specialize (HB j J); lia].
    pose proof (task_kept_run j t0 l' s _ (L j J) R T0) as Y. cbn in Y. rewrite Tj in Y. inversion Y; subst t0. exists j, t. auto.
  - exfalso. assert (C : In (ATask j) (candidates (Sys q oc ks ts lg false))).
    { right. apply in_or_app. right. apply in_map, in_seq. cbn. split; [lia|]. apply nth_error_Some. rewrite Tj. discriminate. }
    specialize (Q _ C). cbn in Q. rewrite Tj in Q. assert (A : negb (existsb (Nat.eqb j) B) = true).
    { apply negb_true_iff. destruct (existsb (Nat.eqb j) B) eqn:Z; auto. apply existsb_exists in Z as (i & Hi & Z). apply Nat.eqb_eq in Z. subst i. contradiction. }
    specialize (Q A). destruct t as [tk [|m tl] [] x]; try (destruct X); discriminate Q.
Qed.

Lemma p_C96_batch_refuted : forall streams l s j k n rest x l' s', orun (sys0 streams) l = Some s ->
  nth_error (y_tasks s) j = Some (Task k (n :: rest) true x) -> ~ In (ATask j) l' -> orun s l' = Some s' ->
  forall m, In m rest -> ~ In (LBegin k m) (y_log s').
Proof.
  intros streams l s j k n rest x l' s' H J N R m Hm X. assert (R' : orun (sys0 streams) (l ++ l') = Some s') by (rewrite orun_app, H; exact R).
  destruct (oinv_run _ _ _ _ _ (oinv_init streams) R') as (gs & [I1 I2 I3 I4 I5 I6]). pose proof (task_kept_run j _ l' s s' N R J) as J'.
  destruct (Forall2_nth_r _ _ _ I1 _ _ J') as ([[k' a] c] & G & (T0 & d & T1 & T2 & T3 & T4)). cbn in T0, T2, T3, T4. subst k'. specialize (T3 eq_refl).
  replace (c - d)%nat with (S (c - S d)) in T2 by lia. cbn in T2. inversion T2; subst. apply in_seq in Hm.
  apply (filter_in (of_range k a c)) in X; [|apply of_range_spec; exists m; split; [lia|auto]]. rewrite T4 in X.
  apply in_app_or in X. destruct X as [X|[X|[]]]; [apply in_turns in X as (i & Hi & [Y|Y]); inversion Y; lia|inversion X; lia].
Qed.

Lemma accept_only s a s' : a <> AAccept -> ostep s a = Some s' -> List.length (y_conns s') = List.length (y_conns s).
Proof.
  destruct s as [q oc ks ts lg dd]. intros N H. destruct dd; [discriminate H|]. destruct a as [|k|j]; cbn in H; [congruence| |].
  - destruct (nth_error ks k) as [[[|e l] n]|]; try discriminate. inversion H; subst. cbn. apply len_upd.
  - destruct (nth_error ts j) as [[k [|n l] b x]|]; try discriminate; [destruct b, x; inversion H; subst; auto|]. destruct b; inversion H; subst; auto.
Qed.

Lemma p_C96_onconnect_refuted : forall streams l s l' s' k n, orun (sys0 streams) l = Some s -> y_connecting s = true ->
  ~ In AAccept l' -> orun s l' = Some s' -> (List.length (y_conns s) <= k)%nat ->
  ~ In (LBegin k n) (y_log s') /\ List.length (y_conns s') = List.length (y_conns s).
Proof.
  intros streams l s l' s' k n H _ N R K. assert (R' : orun (sys0 streams) (l ++ l') = Some s') by (rewrite orun_app, H; exact R).
  destruct (oinv_run _ _ _ _ _ (oinv_init streams) R') as (gs & [I1 I2 I3 I4 I5 I6]).
  assert (L : List.length (y_conns s') = List.length (y_conns s)).
  { clear - N R. revert s R N. induction l' as [|a l' IH]; intros s R N; cbn in R; [inversion R; auto|]. destruct (ostep s a) as [s1|] eqn:E; [|discriminate].
    rewrite (IH s1 R) by (intros X; apply N; right; auto). eapply accept_only; eauto. intros ->. apply N. left; auto. }
  split; auto. intros X. destruct (I3 _ X) as ([[k' a] c] & Hg & Hr). cbn [inr_] in Hr. apply of_range_spec in Hr as (i & Hi & [Y|Y]); inversion Y; subst.
  destruct (I4 _ Hg) as (c' & C1 & _). assert (k' < List.length (y_conns s'))%nat by (apply nth_error_Some; rewrite C1; discriminate). lia.
Qed.

Lemma upd_twice {X} (l : list X) : forall i a b, upd (upd l i a) i b = upd l i b.
Proof. induction l as [|x l IH]; intros [|i] a b; cbn; auto. rewrite IH. reflexivity. Qed.

Lemma drive_nil : forall left s j k b, y_dead s = false -> nth_error (y_tasks s) j = Some (Task k left b true) ->
  exists l s', (forall a, In a l -> a = ATask j) /\ orun s l = Some s' /\ y_dead s' = true.
Proof.
  induction left as [|n left IH]; intros [q oc ks ts lg dd] j k b D T; cbn in D, T; subst dd.
  - exists [ATask j], (Sys q oc ks ts lg true). split; [intros a [<-|[]]; reflexivity|]. split; [|reflexivity]. cbn. rewrite T. reflexivity.
  - assert (G : forall lg', exists l s', (forall a, In a l -> a = ATask j) /\ orun (Sys q oc ks (upd ts j (Task k left false true)) lg' false) l = Some s' /\ y_dead s' = true).
    { intros lg'. apply (IH _ j k false); [reflexivity|]. cbn [y_tasks]. rewrite (nth_upd_eq _ _ _ _ T). reflexivity. }
    destruct b.
    + destruct (G (lg ++ [LEnd k n])) as (l & s' & A & R & Y). exists (ATask j :: l), s'. split; [intros a [<-|H]; auto|]. split; auto. cbn. rewrite T. exact R.
    + destruct (G ((lg ++ [LBegin k n]) ++ [LEnd k n])) as (l & s' & A & R & Y). exists (ATask j :: ATask j :: l), s'. split; [intros a [<-|[<-|H]]; auto|]. split; auto. cbn. rewrite T. cbn. rewrite (nth_upd_eq _ _ _ _ T).
      rewrite upd_twice. exact R.
Qed.

Lemma dead_quiet s : y_dead s = true -> all_quiet s.
Proof. destruct s as [q oc ks ts lg dd]. cbn. intros -> a. reflexivity. Qed.

Lemma p_C96_short_batch_refuted :
  (forall s k body missing post n, y_dead s = false -> nth_error (y_conns s) k = Some (Conn (SPipe body missing :: post) n) -> 0 < missing ->
     exists l s', (forall a, In a l -> a = AReader k \/ a = ATask (List.length (y_tasks s))) /\ orun s l = Some s' /\ y_dead s' = true /\ all_quiet s') /\
  (forall streams l s, (forall E b m, In E streams -> In (SPipe b m) E -> m <= 0) -> orun (sys0 streams) l = Some s -> y_dead s = false).
Proof.
  split.
  - intros [q oc ks ts lg dd] k body missing post n D K M. cbn in D, K. subst dd. cbn [y_tasks].
    set (s1 := Sys q oc (upd ks k (Conn post (n + count (SPipe body missing)))) (ts ++ spawned k n (SPipe body missing)) lg false).
    assert (T : nth_error (y_tasks s1) (List.length ts) = Some (Task k (seq n (List.length body)) false true)).
    { unfold s1. cbn [y_tasks spawned]. rewrite nth_error_app2 by lia. rewrite Nat.sub_diag. cbn. destruct (Z.ltb_spec 0 missing); [reflexivity|lia]. }
    destruct (drive_nil _ s1 _ _ _ eq_refl T) as (l & s' & A & R & Y). exists (AReader k :: l), s'. split; [intros a [<-|H]; auto|]. split; [|split; [exact Y|apply dead_quiet; exact Y]].
    cbn. rewrite K. exact R.
  - intros streams l s W H. apply (nonil_run l (sys0 streams) s); auto. split; [reflexivity|]. split; [|split; constructor]. cbn. apply Forall_forall. intros E HE b m. apply W. exact HE.
Qed.
