(* In which order answers reach a client (C139). *)
From Verif Require Export SpecAns OrderProofs.

Definition replies {Bk} (ans : nat -> nat -> list Bk) (k i : nat) : list (sent Bk) := map (fun b => (k, i, b)) (ans k i).

Lemma fmsg_replies {Bk} (ans : nat -> nat -> list Bk) k n k' i : filter (of_msg k n) (replies ans k' i) = if Nat.eqb k' k && Nat.eqb i n then replies ans k' i else [].
Proof.
  unfold replies. induction (ans k' i) as [|b l IH]; cbn [map filter of_msg]; [destruct (_ && _); reflexivity|].
  rewrite IH. destruct (Nat.eqb k' k && Nat.eqb i n); reflexivity.
Qed.

Lemma fmsg_firstn {Bk} (ans : nat -> nat -> list Bk) k n k' i c : filter (of_msg k n) (firstn c (replies ans k' i)) = if Nat.eqb k' k && Nat.eqb i n then firstn c (replies ans k' i) else [].
Proof.
  unfold replies. revert c. induction (ans k' i) as [|b l IH]; intros [|c]; cbn [map firstn filter of_msg]; try (destruct (_ && _); reflexivity).
  rewrite IH. destruct (Nat.eqb k' k && Nat.eqb i n); reflexivity.
Qed.

Lemma fmsg_flat {Bk} (ans : nat -> nat -> list Bk) k n : forall d a, filter (of_msg k n) (flat_map (replies ans k) (seq a d)) = if Nat.leb a n && Nat.ltb n (a + d) then replies ans k n else [].
Proof.
  induction d as [|d IH]; intros a; cbn [seq flat_map].
  - destruct (Nat.leb_spec a n), (Nat.ltb_spec n (a + 0)); try reflexivity. lia.
  - rewrite filter_app, fmsg_replies, IH, Nat.eqb_refl. cbn [andb].
    destruct (Nat.eqb_spec a n), (Nat.leb_spec (S a) n), (Nat.leb_spec a n), (Nat.ltb_spec n (S a + d)), (Nat.ltb_spec n (a + S d)); try lia; subst; cbn [andb]; rewrite ?app_nil_r; reflexivity.
Qed.

Lemma filter_sub {A} (f g : A -> bool) l : (forall x, f x = true -> g x = true) -> filter f (filter g l) = filter f l.
Proof.
  intros H. induction l as [|x l IH]; cbn [filter]; auto. destruct (g x) eqn:G; cbn [filter].
  - rewrite IH. reflexivity.
  - rewrite IH. destruct (f x) eqn:F; auto. rewrite (H x F) in G. discriminate.
Qed.

Lemma msg_in_range {Bk} k n a m (x : sent Bk) : (a <= n < a + m)%nat -> of_msg k n x = true -> in_range k a m x = true.
Proof.
  destruct x as [[k' i] b]. cbn [of_msg in_range]. intros L H. apply andb_true_iff in H as (H1 & H2). apply Nat.eqb_eq in H2. subst i. rewrite H1.
  destruct (Nat.leb_spec a n), (Nat.ltb_spec n (a + m)); cbn; auto; lia.
Qed.

Lemma in_range_spec {Bk} k a m k' i (b : Bk) : in_range k a m (k', i, b) = true <-> k' = k /\ (a <= i < a + m)%nat.
Proof.
  cbn [in_range]. destruct (Nat.eqb_spec k' k), (Nat.leb_spec a i), (Nat.ltb_spec i (a + m)); cbn [andb]; split; intros X; try discriminate X; try (destruct X; lia); auto; destruct X; congruence.
Qed.

(* how far a goroutine has come *)
Definition atinv {Bk} (ans : nat -> nat -> list Bk) (out : list (sent Bk)) (g : grange) (t : task) : Prop :=
  match g with (k, a, m) => exists d c, (d <= m)%nat /\ t_left t = seq (a + d) (m - d) /\ (t_busy t = true -> (d < m)%nat) /\
    filter (in_range k a m) out = flat_map (replies ans k) (seq a d) ++ (if t_busy t then firstn c (replies ans k (a + d)) else []) end.

Record ainv {Bk} (ans : nat -> nat -> list Bk) (streams : list (list sev)) (gs : list grange) (y : asys Bk) : Prop := {
  an_o : oinv streams gs (a_sys y);
  an_t : Forall2 (atinv ans (a_out y)) gs (y_tasks (a_sys y));
  an_out : forall k n b, In (k, n, b) (a_out y) -> exists a m, In (k, a, m) gs /\ (a <= n < a + m)%nat }.

Lemma written_here {Bk} (ans : nat -> nat -> list Bk) out k a m d c P : (d < m)%nat -> filter (in_range k a m) out = flat_map (replies ans k) (seq a d) ++ P -> P = firstn c (replies ans k (a + d)) ->
  filter (of_msg k (a + d)) out = P.
Proof.
  intros D F ->. rewrite <- (filter_sub _ (in_range k a m)) by (intros x; apply msg_in_range; lia). rewrite F, filter_app, fmsg_flat, fmsg_firstn, !Nat.eqb_refl.
  destruct (Nat.leb_spec a (a + d)), (Nat.ltb_spec (a + d) (a + d)); try lia. reflexivity.
Qed.

Lemma firstn_snoc {A} (l : list A) c b : nth_error l c = Some b -> firstn (S c) l = firstn c l ++ [b].
Proof. revert c. induction l as [|x l IH]; intros [|c] H; cbn in *; try discriminate; [inversion H; reflexivity|]. rewrite IH by exact H. reflexivity. Qed.

Lemma firstn_len {A} (l : list A) c : firstn c l = firstn (List.length (firstn c l)) l.
Proof.
  rewrite firstn_length. destruct (Nat.le_ge_cases c (List.length l)) as [H|H]; [rewrite Nat.min_l by exact H; reflexivity|].
  rewrite Nat.min_r by exact H. rewrite firstn_all2, firstn_all by exact H. reflexivity.
Qed.

Lemma nth_replies {Bk} (ans : nat -> nat -> list Bk) k i c b : nth_error (ans k i) c = Some b -> nth_error (replies ans k i) c = Some (k, i, b).
Proof. intros H. unfold replies. rewrite nth_error_map, H. reflexivity. Qed.

Lemma seq_head a d m n l : (d <= m)%nat -> n :: l = seq (a + d) (m - d) -> (d < m)%nat /\ n = (a + d)%nat /\ l = seq (a + S d) (m - S d).
Proof.
  intros L H. destruct (Nat.eq_dec d m) as [->|]; [rewrite Nat.sub_diag in H; discriminate H|]. replace (m - d)%nat with (S (m - S d)) in H by lia. cbn in H. inversion H.
  split; [lia|]. split; [reflexivity|]. replace (a + S d)%nat with (S (a + d)) by lia. reflexivity.
Qed.

Lemma out_range {Bk} k a m n (b : Bk) out : in_range k a m (k, n, b) = false -> filter (in_range k a m) (out ++ [(k, n, b)]) = filter (in_range k a m) out.
Proof. intros H. rewrite filter_app. cbn [filter]. rewrite H, app_nil_r. reflexivity. Qed.

Lemma ainv_write {Bk} (ans : nat -> nat -> list Bk) streams gs y j y' : ainv ans streams gs y -> astep ans y (AWrite j) = Some y' -> ainv ans streams gs y' /\
  exists k n b l x, nth_error (y_tasks (a_sys y)) j = Some (Task k (n :: l) true x) /\ nth_error (ans k n) (written k n (a_out y)) = Some b /\
    y' = ASys (a_sys y) (a_out y ++ [(k, n, b)]) /\ exists a m, nth_error gs j = Some (k, a, m) /\ (a <= n < a + m)%nat.
Proof.
  destruct y as [s out]. intros [O T A] H. cbn [astep a_sys a_out] in *. destruct (y_dead s); [discriminate|]. destruct (nth_error (y_tasks s) j) as [[k [|n l] [] x]|] eqn:J; try discriminate.
  destruct (nth_error (ans k n) (written k n out)) as [b|] eqn:B; [|discriminate]. inversion H; subst; clear H.
  destruct (Forall2_nth_r _ _ _ T _ _ J) as ([[k0 a] m] & G & X).
  assert (k0 = k). { destruct O as [O _ _ _ _ _]. destruct (Forall2_nth_r _ _ _ O _ _ J) as (g & G' & Y). rewrite G in G'. inversion G'; subst g. destruct Y as (Y & _). cbn in Y. congruence. }
  subst k0. destruct X as (d & c & X1 & X2 & X3 & X4). cbn [t_left t_busy] in *. destruct (seq_head _ _ _ _ _ X1 X2) as (D & -> & _).
  assert (R : (a <= a + d < a + m)%nat) by lia.
  split; [|exists k, (a + d)%nat, b, l, x; repeat split; auto; exists a, m; auto].
  assert (W : written k (a + d) out = List.length (firstn c (replies ans k (a + d)))) by (unfold written; rewrite (written_here ans out k a m d c _ D X4 eq_refl); reflexivity).
  split; cbn [a_sys a_out]; auto.
  - assert (U : y_tasks s = upd (y_tasks s) j (Task k (a + d :: l)%nat true x)).
    { clear - J. revert j J. induction (y_tasks s) as [|u ts IH]; intros [|j] J; cbn in *; try discriminate; [inversion J; reflexivity|]. f_equal. apply IH. exact J. }
    rewrite U. eapply Forall2_upd; [exact T|exact G| |].
    + exists d, (S (written k (a + d) out)). cbn [t_left t_busy]. repeat split; auto.
      rewrite filter_app, X4, <- app_assoc. f_equal. cbn [filter]. rewrite (proj2 (in_range_spec k a m k (a + d) b)) by auto.
      rewrite (firstn_snoc _ _ _ (nth_replies _ _ _ _ _ B)). f_equal. rewrite W. apply firstn_len.
    + intros i [[k1 a1] m1] z Hi Gi _ (d1 & c1 & Y1 & Y2 & Y3 & Y4). exists d1, c1. repeat split; auto. rewrite <- Y4.
      rewrite filter_app. cbn [filter]. assert (N : in_range k1 a1 m1 (k, (a + d)%nat, b) = false).
      { destruct (in_range k1 a1 m1 (k, (a + d)%nat, b)) eqn:Z; auto. apply in_range_spec in Z as (<- & Z). destruct O as [_ OD _ _ _ _]. specialize (OD _ _ _ _ Hi Gi G). cbn in OD. lia. }
      rewrite N, app_nil_r. reflexivity.
  - intros k1 n1 b1 H. apply in_app_or in H as [H|[H|[]]]; [eapply A; eauto|]. inversion H; subst. exists a, m. split; auto. eapply nth_error_In; eauto.
Qed.

Lemma ainv_do {Bk} (ans : nat -> nat -> list Bk) streams gs y a y' : ainv ans streams gs y -> astep ans y (ADo a) = Some y' -> ainv ans streams (gnext gs (a_sys y) a) y' /\ a_out y' = a_out y /\ ostep (a_sys y) a = Some (a_sys y').
Proof.
  destruct y as [s out]. intros [O T A] H. cbn [astep a_sys a_out] in H. destruct (may ans (ASys s out) a) eqn:M; [|discriminate]. destruct (ostep s a) as [s'|] eqn:E; [|discriminate]. inversion H; subst; clear H.
  cbn [a_sys a_out] in *. split; [|auto]. pose proof (oinv_next _ _ _ _ _ O E) as O'. split; cbn [a_sys a_out]; auto.
  - destruct s as [q oc ks ts lg dd]. destruct dd; [discriminate E|]. destruct a as [|k|j]; cbn in E; cbn [gnext y_conns y_tasks] in *.
    + destruct q as [|e q]; [discriminate|]. destruct oc; inversion E; subst; exact T.
    + destruct (nth_error ks k) as [[[|e l] n]|] eqn:K; try discriminate. inversion E; subst; clear E. cbn [y_tasks]. apply Forall2_app; auto.
      assert (Z : filter (in_range k n (count e)) out = []).
      { apply filter_none. intros [[k1 n1] b1] Hx. destruct (in_range k n (count e) (k1, n1, b1)) eqn:Z; auto. apply in_range_spec in Z as (-> & Z).
        destruct (A _ _ _ Hx) as (a & m & G & L). destruct O as [_ _ _ OB _ _]. destruct (OB _ G) as (c & C1 & C2). cbn in C1. rewrite K in C1. inversion C1; subst c. cbn in C2. lia. }
      destruct e as [|b|l0 m| |]; cbn [gstart spawned]; repeat constructor; exists 0%nat, 0%nat; cbn [t_left t_busy count] in *; repeat split; try lia; try discriminate;
        rewrite ?Nat.add_0_r, ?Nat.sub_0_r; try exact Z; reflexivity.
    + destruct (nth_error ts j) as [[k [|n l] b x]|] eqn:J; try discriminate.
      { destruct b, x; try discriminate; inversion E; subst; exact T. }
      destruct (Forall2_nth_r _ _ _ T _ _ J) as ([[k0 a] m] & G & X).
      assert (k0 = k). { destruct O as [O _ _ _ _ _]. destruct (Forall2_nth_r _ _ _ O _ _ J) as (g & G' & Y). rewrite G in G'. inversion G'; subst g. destruct Y as (Y & _). cbn in Y. congruence. }
      subst k0. destruct X as (d & c & X1 & X2 & X3 & X4). cbn [t_left t_busy] in *. destruct (seq_head _ _ _ _ _ X1 X2) as (D & -> & ->).
      destruct b; inversion E; subst; clear E; cbn [y_tasks].
      * eapply Forall2_upd; [exact T|exact G| |auto]. exists (S d), 0%nat. cbn [t_left t_busy]. repeat split; try lia; try discriminate.
        rewrite X4, seq_S, flat_map_app, app_nil_r. f_equal. cbn [flat_map]. rewrite app_nil_r. cbn [may a_sys a_out y_tasks] in M. rewrite J in M. apply Nat.eqb_eq in M.
        unfold written in M. rewrite (written_here ans out k a m d c _ D X4 eq_refl) in M. rewrite firstn_len, M. apply firstn_all2. unfold replies. rewrite map_length. lia.
      * eapply Forall2_upd; [exact T|exact G| |auto]. exists d, 0%nat. cbn [t_left t_busy]. split; [lia|]. split; [exact X2|]. split; [intros _; exact D|]. rewrite X4. cbn [firstn]. reflexivity.
  - intros k n b H. destruct (A _ _ _ H) as (a0 & m & G & L). exists a0, m. split; auto.
    destruct a as [|k'|j]; cbn [gnext]; auto. destruct (nth_error (y_conns s) k') as [[[|? ?] ?]|]; auto. apply in_or_app; auto.
Qed.

Lemma ainv_init {Bk} (ans : nat -> nat -> list Bk) streams : ainv ans streams [] (asys0 streams).
Proof. split; cbn; [apply oinv_init|constructor|intros; tauto]. Qed.

Lemma ainv_step {Bk} (ans : nat -> nat -> list Bk) streams gs y x y' : ainv ans streams gs y -> astep ans y x = Some y' -> exists gs', ainv ans streams gs' y'.
Proof. intros I H. destruct x as [a|j]; [eexists; apply (ainv_do _ _ _ _ _ _ I H)|eexists; apply (ainv_write _ _ _ _ _ _ I H)]. Qed.

Lemma ainv_run {Bk} (ans : nat -> nat -> list Bk) streams : forall l gs y y', ainv ans streams gs y -> arun ans y l = Some y' -> exists gs', ainv ans streams gs' y'.
Proof.
  induction l as [|x l IH]; intros gs y y' I H; cbn in H; [inversion H; subst; eauto|].
  destruct (astep ans y x) as [y1|] eqn:E; [|discriminate]. destruct (ainv_step _ _ _ _ _ _ I E) as (gs1 & I1). eapply IH; eauto.
Qed.

Lemma arun_orun {Bk} (ans : nat -> nat -> list Bk) : forall l y y', arun ans y l = Some y' -> exists l', orun (a_sys y) l' = Some (a_sys y').
Proof.
  induction l as [|x l IH]; intros y y' H; cbn [arun] in H; [inversion H; exists []; reflexivity|]. destruct (astep ans y x) as [y1|] eqn:E; [|discriminate].
  destruct (IH _ _ H) as (l' & L). destruct x as [a|j]; cbn [astep] in E.
  - destruct (may ans y a); [|discriminate]. destruct (ostep (a_sys y) a) as [s'|] eqn:O; [|discriminate]. inversion E; subst. exists (a :: l'). cbn [orun]. rewrite O. exact L.
  - destruct (y_dead (a_sys y)); [discriminate|]. destruct (nth_error (y_tasks (a_sys y)) j) as [[k [|n t] [] x]|]; try discriminate. destruct (nth_error (ans k n) _); [|discriminate]. inversion E; subst. exists l'. exact L.
Qed.

Lemma block_replies {Bk} (ans : nat -> nat -> list Bk) k n : map block (replies ans k n) = ans k n.
Proof. unfold replies. rewrite map_map. cbn. apply map_id. Qed.

(* what one message has been answered *)
Lemma of_one {Bk} (ans : nat -> nat -> list Bk) streams gs y k a m t d c n : ainv ans streams gs y -> (a <= n < a + m)%nat -> (d <= m)%nat ->
  filter (in_range k a m) (a_out y) = flat_map (replies ans k) (seq a d) ++ (if t_busy t then firstn c (replies ans k (a + d)) else []) ->
  filter (of_msg k n) (a_out y) = if Nat.ltb n (a + d) then replies ans k n else if t_busy t && Nat.eqb n (a + d) then firstn c (replies ans k n) else [].
Proof.
  intros I L D F. rewrite <- (filter_sub _ (in_range k a m)) by (intros x; apply msg_in_range; lia). rewrite F, filter_app, fmsg_flat.
  destruct (Nat.leb_spec a n); [|lia]. cbn [andb]. destruct (t_busy t); cbn [andb filter].
  - rewrite fmsg_firstn, Nat.eqb_refl, (Nat.eqb_sym (a + d) n). cbn [andb]. destruct (Nat.ltb_spec n (a + d)), (Nat.eqb_spec n (a + d)); try lia; subst; rewrite ?app_nil_r; reflexivity.
  - rewrite app_nil_r. reflexivity.
Qed.

Lemma not_in_any {Bk} (ans : nat -> nat -> list Bk) streams gs y k n : ainv ans streams gs y -> (forall a m, In (k, a, m) gs -> ~ (a <= n < a + m)%nat) -> filter (of_msg k n) (a_out y) = [].
Proof.
  intros [_ _ A] H. apply filter_none. intros [[k1 n1] b] Hx. destruct (of_msg k n (k1, n1, b)) eqn:Z; auto. cbn in Z. apply andb_true_iff in Z as (Z1 & Z2).
  apply Nat.eqb_eq in Z1, Z2. subst. destruct (A _ _ _ Hx) as (a & m & G & L). elim (H _ _ G L).
Qed.

Lemma some_range (gs : list grange) k n : (exists a m, In (k, a, m) gs /\ (a <= n < a + m)%nat) \/ (forall a m, In (k, a, m) gs -> ~ (a <= n < a + m)%nat).
Proof.
  induction gs as [|[[k' a'] m'] gs IH]; [right; intros a m []|]. destruct IH as [(a & m & G & L)|N]; [left; exists a, m; split; [right|]; auto|].
  destruct (Nat.eq_dec k' k) as [->|K]; [|right; intros a m [G|G]; [congruence|auto]].
  destruct (Nat.le_gt_cases a' n) as [L|L]; [destruct (Nat.lt_ge_cases n (a' + m')) as [L'|L']|]; [left; exists a', m'; split; [left; auto|lia]|..];
    right; intros a m [G|G]; try (inversion G; subst; lia); auto.
Qed.

Lemma same_d a d1 d2 m l : (d1 <= m)%nat -> (d2 <= m)%nat -> l = seq (a + d1) (m - d1) -> l = seq (a + d2) (m - d2) -> d1 = d2.
Proof. intros L1 L2 -> E. apply (f_equal (@List.length nat)) in E. rewrite !seq_length in E. lia. Qed.

Lemma ended_answered {Bk} (ans : nat -> nat -> list Bk) streams gs y k n : ainv ans streams gs y -> In (LEnd k n) (y_log (a_sys y)) -> filter (of_msg k n) (a_out y) = replies ans k n.
Proof.
  intros I H. pose proof I as [[I1 I2 I3 I4 I5 I6] T A]. destruct (I3 _ H) as ([[k' a] m] & G & R). pose proof R as R0. cbn [inr_] in R. apply of_range_spec in R as (i & L & [X|X]); inversion X; subst k' i.
  apply In_nth_error in G as (j & G). destruct (Forall2_nth_l _ _ _ I1 _ _ G) as (t & J & (T0 & d & T1 & T2 & T3 & T4)).
  destruct (Forall2_nth_l _ _ _ T _ _ G) as (t' & J' & (d' & c & X1 & X2 & X3 & X4)). rewrite J in J'. inversion J'; subst t'.
  assert (d' = d) by (eapply same_d; eauto). subst d'. rewrite (of_one _ _ _ _ _ _ _ t d c n I L X1 X4).
  assert (N : In (LEnd k n) (filter (of_range k a m) (y_log (a_sys y)))) by (apply filter_In; split; auto).
  rewrite T4 in N. apply in_app_or in N. destruct N as [N|N]; [|destruct (t_busy t); [destruct N as [N|[]]; discriminate N|destruct N]].
  apply in_turns in N as (i & L' & [N|N]); inversion N; subst i. destruct (Nat.ltb_spec n (a + d)); [reflexivity|lia].
Qed.

Lemma quiet_quiet {Bk} (ans : nat -> nat -> list Bk) streams gs y : ainv ans streams gs y -> a_quiet ans y -> y_dead (a_sys y) = false -> all_quiet (a_sys y).
Proof.
  intros I Q D a. pose proof (Q (ADo a)) as H. cbn [astep] in H. destruct (may ans y a) eqn:M; [destruct (ostep (a_sys y) a); [discriminate H|reflexivity]|].
  exfalso. destruct a as [|k|j]; cbn [may] in M; try discriminate M. destruct (nth_error (y_tasks (a_sys y)) j) as [[k [|n l] [] x]|] eqn:J; try discriminate M.
  specialize (Q (AWrite j)). cbn [astep] in Q. rewrite D, J in Q. apply Nat.eqb_neq in M.
  destruct (nth_error (ans k n) (written k n (a_out y))) eqn:B; [discriminate Q|]. apply nth_error_None in B.
  destruct I as [[I1 _ _ _ _ _] T _]. destruct (Forall2_nth_r _ _ _ T _ _ J) as ([[k0 a] m] & G & (d & c & X1 & X2 & X3 & X4)). cbn [t_left t_busy] in *.
  destruct (Forall2_nth_r _ _ _ I1 _ _ J) as (g & G' & Y). rewrite G in G'. inversion G'; subst g. destruct Y as (Y & _). cbn in Y. subst k0.
  destruct (seq_head _ _ _ _ _ X1 X2) as (D' & -> & _). unfold written in *. rewrite (written_here ans (a_out y) k a m d c _ D' X4 eq_refl) in *.
  rewrite firstn_length in *. unfold replies in *. rewrite map_length in *. lia.
Qed.

Lemma p_C139_each_answer : forall {Bk} (ans : nat -> nat -> list Bk) streams l y, arun ans (asys0 streams) l = Some y ->
  (forall k n, begins_with (ans k n) (to_msg k n (a_out y))) /\
  (forall k n b, In (k, n, b) (a_out y) -> In (LBegin k n) (y_log (a_sys y))) /\
  (forall k n, In (LEnd k n) (y_log (a_sys y)) -> to_msg k n (a_out y) = ans k n) /\
  (a_quiet ans y -> y_dead (a_sys y) = false -> forall k E n, nth_error streams k = Some E -> (n < messages E)%nat -> to_msg k n (a_out y) = ans k n) /\
  (y_dead (a_sys y) = true -> a_quiet ans y).
Proof.
  intros Bk ans streams l y H. destruct (ainv_run _ _ _ _ _ _ (ainv_init ans streams) H) as (gs & I). pose proof I as [O T A].
  assert (EA : forall k n, In (LEnd k n) (y_log (a_sys y)) -> to_msg k n (a_out y) = ans k n) by (intros k n X; unfold to_msg; rewrite (ended_answered _ _ _ _ _ _ I X); apply block_replies).
  split; [|split; [|split; [exact EA|split]]].
  - intros k n. unfold begins_with, to_msg. destruct (some_range gs k n) as [(a & m & G & L)|N]; [|rewrite (not_in_any _ _ _ _ _ _ I N); exists (ans k n); reflexivity].
    apply In_nth_error in G as (j & G). destruct (Forall2_nth_l _ _ _ T _ _ G) as (t & J & (d & c & X1 & X2 & X3 & X4)).
    rewrite (of_one _ _ _ _ _ _ _ t d c n I L X1 X4). destruct (Nat.ltb n (a + d)); [exists []; rewrite block_replies, app_nil_r; reflexivity|].
    destruct (t_busy t && Nat.eqb n (a + d)); [|exists (ans k n); reflexivity]. exists (skipn c (ans k n)). rewrite <- firstn_map, block_replies, firstn_skipn. reflexivity.
  - intros k n b X. destruct (A _ _ _ X) as (a & m & G & L). apply In_nth_error in G as (j & G). destruct (Forall2_nth_l _ _ _ T _ _ G) as (t & J & (d & c & X1 & X2 & X3 & X4)).
    destruct O as [I1 I2 I3 I4 I5 I6]. destruct (Forall2_nth_l _ _ _ I1 _ _ G) as (t' & J' & (T0 & d' & T1 & T2 & T3 & T4)). rewrite J in J'. inversion J'; subst t'.
    assert (d' = d) by (eapply same_d; eauto). subst d'.
    assert (Y : In (k, n, b) (filter (of_msg k n) (a_out y))) by (apply filter_In; split; auto; cbn; rewrite !Nat.eqb_refl; reflexivity).
    rewrite (of_one _ _ _ _ _ _ _ t d c n I L X1 X4) in Y. apply (proj1 (filter_In (of_range k a m) (LBegin k n) (y_log (a_sys y)))). rewrite T4. apply in_or_app.
    destruct (Nat.ltb_spec n (a + d)); [left; apply in_turns; exists n; split; auto; lia|]. destruct (t_busy t); cbn [andb] in Y; [|destruct Y].
    right. destruct (Nat.eqb_spec n (a + d)); [subst; left; reflexivity|destruct Y].
  - intros Q D k E n HE Hn. apply EA. destruct (arun_orun _ _ _ _ H) as (l' & L). apply (proj2 (proj2 (p_C95_each_once _ _ _ L)) (quiet_quiet _ _ _ _ I Q D) D k E n HE Hn).
  - intros D x. destruct x as [a|j]; cbn [astep]; [|rewrite D; reflexivity]. destruct (may ans y a); [|reflexivity]. destruct (a_sys y) as [q oc ks ts lg dd]. cbn in D. subst dd. reflexivity.
Qed.

Lemma range_begins {Bk} (ans : nat -> nat -> list Bk) streams gs y k a m : ainv ans streams gs y -> In (k, a, m) gs -> exists rest, flat_map (replies ans k) (seq a m) = filter (in_range k a m) (a_out y) ++ rest.
Proof.
  intros [_ T _] G. apply In_nth_error in G as (j & G). destruct (Forall2_nth_l _ _ _ T _ _ G) as (t & J & (d & c & X1 & X2 & X3 & X4)).
  rewrite X4. assert (SM : seq a m = seq a d ++ seq (a + d) (m - d)) by (rewrite <- seq_app; f_equal; lia). rewrite SM, flat_map_app. destruct (t_busy t).
  - replace (m - d)%nat with (S (m - S d)) by (specialize (X3 eq_refl); lia). cbn [seq flat_map]. exists (skipn c (replies ans k (a + d)) ++ flat_map (replies ans k) (seq (S (a + d)) (m - S d))).
    rewrite <- app_assoc. f_equal. rewrite app_assoc, firstn_skipn. reflexivity.
  - rewrite app_nil_r. eexists. reflexivity.
Qed.

Lemma blocks_flat {Bk} (ans : nat -> nat -> list Bk) k l : map block (flat_map (replies ans k) l) = flat_map (ans k) l.
Proof. induction l as [|i l IH]; cbn [flat_map map]; auto. rewrite map_app, block_replies, IH. reflexivity. Qed.

Lemma p_C139_batch : forall {Bk} (ans : nat -> nat -> list Bk) streams l y k pre body missing post, arun ans (asys0 streams) l = Some y ->
  nth_error streams k = Some (pre ++ SPipe body missing :: post) ->
  begins_with (flat_map (ans k) (seq (messages pre) (List.length body))) (to_range k (messages pre) (List.length body) (a_out y)).
Proof.
  intros Bk ans streams l y k pre body missing post H HE. destruct (ainv_run _ _ _ _ _ _ (ainv_init ans streams) H) as (gs & I).
  assert (Z : (forall g, In g gs -> disj g (k, messages pre, List.length body)) -> filter (in_range k (messages pre) (List.length body)) (a_out y) = []).
  { intros D. apply filter_none. intros [[k1 n1] b1] Hx. destruct (in_range _ _ _ (k1, n1, b1)) eqn:Z; auto. apply in_range_spec in Z as (-> & Z).
    destruct I as [_ _ A]. destruct (A _ _ _ Hx) as (a & m & G & L). specialize (D _ G). cbn in D. lia. }
  unfold begins_with, to_range. pose proof I as [[I1 I2 I3 I4 I5 I6] T A]. destruct (nth_error (y_conns (a_sys y)) k) as [c|] eqn:C.
  - destruct (I5 _ _ C) as (P & E & X1 & X2 & X3 & X4). rewrite HE in X1. injection X1 as X1. rewrite <- X1 in X2. destruct (prefix_cmp _ _ _ _ _ (eq_sym X2)) as [(u & HP)|(u & Hp)].
    + assert (G : In (k, messages pre, List.length body) gs) by (apply (X4 pre (SPipe body missing) u HP Logic.I)).
      destruct (range_begins _ _ _ _ _ _ _ I G) as (rest & R). exists (map block rest). rewrite <- map_app, <- R, blocks_flat. reflexivity.
    + rewrite Z; [eexists; reflexivity|]. intros [[k' a] n] Hg. destruct (Nat.eq_dec k' k) as [->|]; [|left; auto]. right. left.
      destruct (I4 _ Hg) as (c' & C1 & C2). rewrite C in C1. inversion C1; subst c'. rewrite Hp, messages_app. lia.
  - rewrite Z; [eexists; reflexivity|]. intros [[k' a] n] Hg. destruct (I4 _ Hg) as (c' & C1 & C2). left. congruence.
Qed.

(* what the answers of a waiting peer look like *)
Definition pinv {Bk} (ans : nat -> nat -> list Bk) (k : nat) (gs : list grange) (y : asys Bk) : Prop := exists a m,
  reads (y_conns (a_sys y)) k = (a + m)%nat /\ (forall i, (i < a)%nat -> filter (of_msg k i) (a_out y) = replies ans k i) /\
  filter (on_conn k) (a_out y) = flat_map (replies ans k) (seq 0 a) ++ filter (in_range k a m) (a_out y) /\ (m = 0%nat \/ In (k, a, m) gs).

Lemma full_flat {Bk} (ans : nat -> nat -> list Bk) k out a m d (busy : bool) c : (d <= m)%nat -> (busy = true -> (d < m)%nat) ->
  filter (in_range k a m) out = flat_map (replies ans k) (seq a d) ++ (if busy then firstn c (replies ans k (a + d)) else []) ->
  (forall i, (a <= i < a + m)%nat -> filter (of_msg k i) out = replies ans k i) -> filter (in_range k a m) out = flat_map (replies ans k) (seq a m).
Proof.
  intros D B F H. rewrite F. assert (SM : seq a m = seq a d ++ seq (a + d) (m - d)) by (rewrite <- seq_app; f_equal; lia). rewrite SM, flat_map_app. f_equal.
  assert (Q : forall i, (a + d < i < a + m)%nat -> replies ans k i = []).
  { intros i L. rewrite <- H by lia. rewrite <- (filter_sub _ (in_range k a m)) by (intros x; apply msg_in_range; lia). rewrite F, filter_app, fmsg_flat.
    destruct (Nat.leb_spec a i), (Nat.ltb_spec i (a + d)); try lia. cbn [andb app]. destruct busy; [|reflexivity]. rewrite fmsg_firstn, Nat.eqb_refl. destruct (Nat.eqb_spec (a + d) i); [lia|reflexivity]. }
  assert (Q2 : forall n b, (a + d < b)%nat -> (b + n <= a + m)%nat -> flat_map (replies ans k) (seq b n) = []).
  { induction n as [|n IH]; intros b L1 L2; cbn [seq flat_map]; auto. rewrite Q by lia. cbn [app]. apply IH; lia. }
  destruct (Nat.eq_dec d m) as [->|N]; [rewrite Nat.sub_diag; destruct busy; [specialize (B eq_refl); lia|reflexivity]|].
  replace (m - d)%nat with (S (m - S d)) by lia. cbn [seq flat_map]. rewrite Q2 by lia. rewrite app_nil_r.
  transitivity (filter (of_msg k (a + d)) out); [symmetry|apply H; lia]. destruct busy.
  - apply (written_here ans out k a m d c _ ltac:(lia) F eq_refl).
  - apply (written_here ans out k a m d 0 _ ltac:(lia) F). reflexivity.
Qed.

Lemma no_more {Bk} (ans : nat -> nat -> list Bk) streams gs y k n a m : ainv ans streams gs y -> In (k, a, m) gs -> (a <= n < a + m)%nat -> (n < reads (y_conns (a_sys y)) k)%nat.
Proof.
  intros [[_ _ _ B _ _] _ _] G L. destruct (B _ G) as (c & C1 & C2). unfold reads. rewrite C1. lia.
Qed.

Lemma pinv_step {Bk} (ans : nat -> nat -> list Bk) streams k gs y x y' : ainv ans streams gs y -> pinv ans k gs y -> hears ans k y x -> astep ans y x = Some y' ->
  exists gs', ainv ans streams gs' y' /\ pinv ans k gs' y'.
Proof.
  intros I (a & m & R & F & O & M) W H. destruct x as [act|j].
  - destruct (ainv_do _ _ _ _ _ _ I H) as (I' & EO & ES). exists (gnext gs (a_sys y) act). split; [exact I'|].
    assert (Same : reads (y_conns (a_sys y')) k = reads (y_conns (a_sys y)) k -> pinv ans k (gnext gs (a_sys y) act) y').
    { intros E. exists a, m. rewrite E, EO. repeat split; auto. destruct M as [M|M]; [left; auto|right]. destruct act as [|k'|j]; cbn [gnext]; auto.
      destruct (nth_error (y_conns (a_sys y)) k') as [[[|? ?] ?]|]; auto. apply in_or_app; auto. }
    destruct y as [s out], y' as [s' out']. cbn [a_sys a_out] in *. subst out'. destruct s as [q oc ks ts lg dd]. destruct dd; [discriminate ES|].
    destruct act as [|k'|j]; cbn [ostep] in ES.
    + apply Same. destruct q as [|e q]; [discriminate|]. destruct oc; inversion ES; subst; cbn [y_conns]; rewrite ?reads_accept; reflexivity.
    + destruct (nth_error ks k') as [[[|e l] n]|] eqn:K; try discriminate. inversion ES; subst; clear ES. destruct (Nat.eq_dec k' k) as [->|N].
      2: { apply Same. cbn [y_conns]. unfold reads. rewrite nth_upd_neq by auto. reflexivity. }
      clear Same. specialize (W eq_refl). cbn [y_conns a_sys a_out] in *. rewrite K in W. cbn [k_read] in W.
      assert (RN : (a + m)%nat = n) by (rewrite <- R; unfold reads; rewrite K; reflexivity).
      assert (FU : forall i, (i < n)%nat -> filter (of_msg k i) out = replies ans k i).
      { intros i Hi. pose proof (W i Hi) as Wi. unfold to_msg in Wi. assert (Z : forall l : list (sent Bk), (forall x, In x l -> of_msg k i x = true) -> l = map (fun b => (k, i, b)) (map block l)).
        { clear. induction l as [|[[k1 n1] b1] l IH]; intros Z; cbn [map]; auto. rewrite <- IH by (intros; apply Z; right; auto).
          pose proof (Z _ (or_introl eq_refl)) as Q. cbn [of_msg] in Q. apply andb_true_iff in Q as (Q1 & Q2). apply Nat.eqb_eq in Q1, Q2. subst. reflexivity. }
        rewrite (Z _ (fun x Hx => proj2 (proj1 (filter_In _ _ _) Hx))). rewrite Wi. reflexivity. }
      exists n, (count e). cbn [y_conns a_sys a_out]. split; [unfold reads; rewrite (nth_upd_eq _ _ _ _ K); reflexivity|]. split; [exact FU|]. split.
      * assert (Z : filter (in_range k n (count e)) out = []).
        { apply filter_none. intros [[k1 n1] b1] Hx. destruct (in_range k n (count e) (k1, n1, b1)) eqn:Z; auto. apply in_range_spec in Z as (-> & Z).
          pose proof I as [_ _ A]. destruct (A _ _ _ Hx) as (a1 & m1 & G & L). pose proof (no_more _ _ _ _ _ _ _ _ I G L) as Q. cbn [a_sys y_conns] in Q. rewrite R in Q. lia. }
        rewrite Z, app_nil_r, O. rewrite <- RN, seq_app, flat_map_app. f_equal. destruct M as [->|M]; [apply filter_none|].
        -- intros [[k1 n1] b1] _. destruct (in_range k a 0 (k1, n1, b1)) eqn:Y; auto. apply in_range_spec in Y. lia.
        -- destruct I as [_ T _]. apply In_nth_error in M as (j & G). destruct (Forall2_nth_l _ _ _ T _ _ G) as (t & J & (d & c & X1 & X2 & X3 & X4)). cbn [a_out Nat.add] in *.
           eapply full_flat; [exact X1|exact X3|exact X4|]. intros i Hi. apply FU. lia.
      * destruct (Nat.eq_dec (count e) 0) as [E0|E0]; [left; auto|right]. cbn [gnext y_conns]. rewrite K. apply in_or_app. right. destruct e; cbn in *; auto; lia.
    + apply Same. destruct (nth_error ts j) as [[k0 [|n l] b x]|] eqn:J; try discriminate; destruct b; try destruct x; try discriminate; inversion ES; subst; reflexivity.
  - destruct (ainv_write _ _ _ _ _ _ I H) as (I' & k1 & n & b & l & x & J & B & -> & a1 & m1 & G & L). exists gs. split; [exact I'|]. exists a, m. cbn [a_sys a_out].
    split; [exact R|]. destruct (Nat.eq_dec k1 k) as [->|N].
    + pose proof (no_more _ _ _ _ _ _ _ _ I (nth_error_In _ _ G) L) as Q. rewrite R in Q.
      assert (NA : (a <= n)%nat).
      { destruct (Nat.le_gt_cases a n) as [|C]; auto. exfalso. unfold written in B. rewrite (F n C) in B. unfold replies in B. rewrite map_length in B.
        assert (X : nth_error (ans k n) (List.length (ans k n)) = None) by (apply nth_error_None; lia). congruence. }
      split; [|split; [|exact M]].
      * intros i Hi. rewrite filter_app. cbn [filter of_msg]. rewrite Nat.eqb_refl. destruct (Nat.eqb_spec n i); [lia|]. cbn [andb]. rewrite app_nil_r. apply F. exact Hi.
      * rewrite !filter_app, O. cbn [filter on_conn]. rewrite Nat.eqb_refl, (proj2 (in_range_spec k a m k n b)) by (split; [reflexivity|lia]). rewrite <- app_assoc. reflexivity.
    + assert (N1 : forall i, of_msg k i (k1, n, b) = false) by (intros i; cbn [of_msg]; destruct (Nat.eqb_spec k1 k); [congruence|reflexivity]).
      assert (N2 : in_range k a m (k1, n, b) = false) by (cbn [in_range]; destruct (Nat.eqb_spec k1 k); [congruence|reflexivity]).
      assert (N3 : on_conn k (k1, n, b) = false) by (cbn [on_conn]; destruct (Nat.eqb_spec k1 k); [congruence|reflexivity]).
      split; [|split; [|exact M]].
      * intros i Hi. rewrite filter_app. cbn [filter]. rewrite N1, app_nil_r. apply F. exact Hi.
      * rewrite !filter_app. cbn [filter]. rewrite N2, N3, !app_nil_r. exact O.
Qed.

Lemma pinv_run {Bk} (ans : nat -> nat -> list Bk) streams k : forall y l y', polite ans k y l y' -> forall gs, ainv ans streams gs y -> pinv ans k gs y -> exists gs', ainv ans streams gs' y' /\ pinv ans k gs' y'.
Proof.
  intros y l y' H. induction H as [y|y x y' l y'' W E H IH]; intros gs I P; [eauto|]. destruct (pinv_step _ _ _ _ _ _ _ I P W E) as (gs' & I' & P'). eapply IH; eauto.
Qed.

Lemma polite_run {Bk} (ans : nat -> nat -> list Bk) k y l y' : polite ans k y l y' -> arun ans y l = Some y'.
Proof. induction 1 as [y|y x y' l y'' W E H IH]; cbn [arun]; [reflexivity|]. rewrite E. exact IH. Qed.

Lemma pinv_begins {Bk} (ans : nat -> nat -> list Bk) streams k gs y : ainv ans streams gs y -> pinv ans k gs y -> exists rest, flat_map (replies ans k) (seq 0 (reads (y_conns (a_sys y)) k)) = filter (on_conn k) (a_out y) ++ rest.
Proof.
  intros I (a & m & R & F & O & M). rewrite R, O, seq_app, flat_map_app. cbn [Nat.add]. destruct M as [->|M].
  - assert (Z : filter (in_range k a 0) (a_out y) = []) by (apply filter_none; intros [[k1 n1] b1] _; destruct (in_range k a 0 (k1, n1, b1)) eqn:Y; auto; apply in_range_spec in Y; lia).
    exists []. rewrite Z. cbn [seq flat_map]. rewrite !app_nil_r. reflexivity.
  - destruct (range_begins _ _ _ _ _ _ _ I M) as (rest & E). exists rest. rewrite E, app_assoc. reflexivity.
Qed.

Lemma p_C139_waiting : forall {Bk} (ans : nat -> nat -> list Bk) streams k E l y, nth_error streams k = Some E -> polite ans k (asys0 streams) l y ->
  begins_with (flat_map (ans k) (seq 0 (messages E))) (to_conn k (a_out y)) /\
  (a_quiet ans y -> y_dead (a_sys y) = false -> to_conn k (a_out y) = flat_map (ans k) (seq 0 (messages E))).
Proof.
  intros Bk ans streams k E l y HE H. assert (P0 : pinv ans k [] (asys0 streams)).
  { exists 0%nat, 0%nat. cbn. repeat split; auto; [unfold reads; destruct k; reflexivity|intros; lia]. }
  destruct (pinv_run _ streams _ _ _ _ H _ (ainv_init ans streams) P0) as (gs & I & P). destruct (pinv_begins _ _ _ _ _ I P) as (rest & B).
  assert (RE : (reads (y_conns (a_sys y)) k <= messages E)%nat).
  { unfold reads. destruct (nth_error (y_conns (a_sys y)) k) as [c|] eqn:C; [|lia]. destruct I as [[_ _ _ _ I5 _] _ _]. destruct (I5 _ _ C) as (Q & E' & X1 & X2 & X3 & X4). assert (X : E = Q ++ k_left c) by congruence.
    rewrite X, messages_app. lia. }
  assert (BB : begins_with (flat_map (ans k) (seq 0 (messages E))) (to_conn k (a_out y))).
  { unfold begins_with, to_conn. exists (map block rest ++ flat_map (ans k) (seq (reads (y_conns (a_sys y)) k) (messages E - reads (y_conns (a_sys y)) k))).
    rewrite app_assoc, <- map_app. rewrite <- B, blocks_flat, <- flat_map_app. f_equal.
    rewrite <- seq_app. f_equal. lia. }
  split; [exact BB|]. intros Q D. destruct (p_C139_each_answer _ _ _ _ (polite_run _ _ _ _ _ H)) as (_ & _ & _ & Full & _). specialize (Full Q D k E).
  destruct P as (a & m & R & F & O & M). assert (RA : reads (y_conns (a_sys y)) k = messages E).
  { pose proof (quiet_quiet _ _ _ _ I Q D) as AQ. destruct I as [[_ _ _ _ I5 (I6 & I7)] _ _]. destruct (a_sys y) as [q oc ks ts lg dd] eqn:SY. cbn [y_dead y_conns y_queue] in *. subst dd.
    assert (QQ : q = []) by (specialize (AQ AAccept); cbn in AQ; destruct q as [|e q]; auto; destruct oc; discriminate AQ).
    assert (LK : (k < List.length ks)%nat).
    { assert (LS : (k < List.length streams)%nat) by (apply nth_error_Some; rewrite HE; discriminate). rewrite QQ in I6. apply (f_equal (@List.length (list sev))) in I6. rewrite skipn_length in I6. cbn in I6. lia. }
    unfold reads. destruct (nth_error ks k) as [c|] eqn:C; [|apply nth_error_None in C; lia]. destruct (I5 _ _ C) as (P & E' & X1 & X2 & X3 & X4). assert (X : E = P ++ k_left c) by congruence.
    destruct c as [[|e l0] n]; [|specialize (AQ (AReader k)); cbn in AQ; rewrite C in AQ; discriminate AQ]. cbn [k_left k_read] in *. rewrite app_nil_r in X. subst P. exact X3. }
  unfold to_conn. rewrite <- blocks_flat, O, <- RA, R, seq_app, flat_map_app. cbn [Nat.add]. f_equal. f_equal.
  destruct M as [->|M].
  - cbn [seq flat_map]. apply filter_none. intros [[k1 n1] b1] _. destruct (in_range k a 0 (k1, n1, b1)) eqn:Y; auto. apply in_range_spec in Y. lia.
  - destruct I as [_ T _]. apply In_nth_error in M as (j & G). destruct (Forall2_nth_l _ _ _ T _ _ G) as (t & J & (d & c & X1 & X2 & X3 & X4)).
    eapply full_flat; [exact X1|exact X3|exact X4|]. intros i Hi. pose proof (Full i HE ltac:(lia)) as W. unfold to_msg in W.
    assert (Z : forall l : list (sent Bk), (forall x, In x l -> of_msg k i x = true) -> l = map (fun b => (k, i, b)) (map block l)).
    { clear. induction l as [|[[k1 n1] b1] l IH]; intros Z; cbn [map]; auto. rewrite <- IH by (intros; apply Z; right; auto).
      pose proof (Z _ (or_introl eq_refl)) as Q. cbn [of_msg] in Q. apply andb_true_iff in Q as (Q1 & Q2). apply Nat.eqb_eq in Q1, Q2. subst. reflexivity. }
    rewrite (Z _ (fun x Hx => proj2 (proj1 (filter_In _ _ _) Hx))). rewrite W. reflexivity.
Qed.

Lemma recv_frames lim w : Forall (frame lim) w -> forall rest en r, segmentation (concat w ++ rest) en r ->
  exists r', recv (FirstBlockOfLimitMaxByte lim) (List.length w) r = (w, RdOk tt, r') /\ segmentation rest en r'.
Proof.
  induction 1 as [|b w Hb Fr IH]; intros rest en r S; cbn [List.length recv concat] in *; [exists r; auto|].
  rewrite <- app_assoc in S. destruct (read_frame lim b _ en r Hb S) as (r1 & -> & S1). destruct (IH _ _ r1 S1) as (r' & -> & S'). exists r'. auto.
Qed.

Lemma p_C139_read : forall (ans : nat -> nat -> list bytes) streams k E l y lim rest en r, nth_error streams k = Some E -> polite ans k (asys0 streams) l y -> a_quiet ans y -> y_dead (a_sys y) = false ->
  (forall n, (n < messages E)%nat -> Forall (frame lim) (ans k n)) -> segmentation (concat (to_conn k (a_out y)) ++ rest) en r ->
  exists r', recv (FirstBlockOfLimitMaxByte lim) (List.length (flat_map (ans k) (seq 0 (messages E)))) r = (flat_map (ans k) (seq 0 (messages E)), RdOk tt, r') /\ segmentation rest en r'.
Proof.
  intros ans streams k E l y lim rest en r HE P Q D F S. destruct (p_C139_waiting _ _ _ _ _ _ HE P) as (_ & W). rewrite (W Q D) in S. apply recv_frames; [|exact S].
  apply Forall_flat_map, Forall_forall. intros n Hn. apply in_seq in Hn. apply F. lia.
Qed.

Lemma arun_app {Bk} (ans : nat -> nat -> list Bk) : forall l1 l2 y, arun ans y (l1 ++ l2) = match arun ans y l1 with Some y' => arun ans y' l2 | None => None end.
Proof. induction l1 as [|x l1 IH]; intros l2 y; cbn [app arun]; auto. destruct (astep ans y x); auto. Qed.

Lemma arun_do {Bk} (ans : nat -> nat -> list Bk) : forall l s s' out, (forall a, In a l -> match a with ATask j => False | _ => True end) -> orun s l = Some s' -> arun ans (ASys s out) (map ADo l) = Some (ASys s' out).
Proof.
  induction l as [|a l IH]; intros s s' out N H; cbn [orun map arun] in *; [inversion H; reflexivity|]. destruct (ostep s a) as [s1|] eqn:E; [|discriminate].
  assert (M : may ans (ASys s out) a = true) by (specialize (N a (or_introl eq_refl)); destruct a; [reflexivity|reflexivity|destruct N]).
  cbn [astep a_sys a_out]. rewrite M, E. apply IH; auto. intros a0 H0. apply N. right; auto.
Qed.

Lemma begin_all {Bk} (ans : nat -> nat -> list Bk) q oc ks out : forall n pre lg, exists lg',
  arun ans (ASys (Sys q oc ks (map (fun i => Task 0 [i] true false) (seq 0 pre) ++ map (fun i => Task 0 [i] false false) (seq pre n)) lg false) out) (map (fun j => ADo (ATask j)) (seq pre n)) =
  Some (ASys (Sys q oc ks (map (fun i => Task 0 [i] true false) (seq 0 (pre + n))) lg' false) out).
Proof.
  induction n as [|n IH]; intros pre lg; cbn [seq map arun].
  - exists lg. rewrite Nat.add_0_r, app_nil_r. reflexivity.
  - cbn [astep may a_sys a_out y_tasks ostep]. set (A := map (fun i => Task 0 [i] true false) (seq 0 pre)).
    assert (J : nth_error (A ++ Task 0 [pre] false false :: map (fun i => Task 0 [i] false false) (seq (S pre) n)) pre = Some (Task 0 [pre] false false)).
    { assert (LA : List.length A = pre) by (unfold A; rewrite map_length, seq_length; reflexivity). rewrite nth_error_app2 by lia. rewrite LA, Nat.sub_diag. reflexivity. }
    rewrite J. cbn [a_sys a_out]. assert (U : upd (A ++ Task 0 [pre] false false :: map (fun i => Task 0 [i] false false) (seq (S pre) n)) pre (Task 0 [pre] true false) =
      map (fun i => Task 0 [i] true false) (seq 0 (S pre)) ++ map (fun i => Task 0 [i] false false) (seq (S pre) n)).
    { rewrite seq_S, map_app, <- app_assoc. cbn [map app Nat.add]. fold A. assert (LA : List.length A = pre) by (unfold A; rewrite map_length, seq_length; reflexivity). clearbody A. subst pre. generalize (Task 0 [List.length A] true false) as u. generalize (Task 0 [List.length A] false false) as v. generalize (map (fun i => Task 0 [i] false false) (seq (S (List.length A)) n)) as w.
      clear. induction A as [|z A IH2]; intros w v u; cbn; auto. f_equal. apply IH2. }
    rewrite U. destruct (IH (S pre) (lg ++ [LBegin 0 pre])) as (lg' & E). exists lg'. rewrite E. do 4 f_equal. f_equal. lia.
Qed.

Lemma skipn_head {A} (l : list A) c b r : skipn c l = b :: r -> nth_error l c = Some b /\ skipn (S c) l = r.
Proof. revert c. induction l as [|x l IH]; intros [|c] H; cbn in H |- *; try discriminate; [inversion H; auto|]. apply IH in H. exact H. Qed.

Lemma app_map_seq {B} (f : nat -> B) n : forall a pre x post, pre ++ x :: post = map f (seq a n) -> let i := (a + List.length pre)%nat in
  (i < a + n)%nat /\ x = f i /\ pre = map f (seq a (List.length pre)) /\ post = map f (seq (S i) (n - S (List.length pre))).
Proof.
  induction n as [|n IH]; intros a pre x post H; cbn [seq map] in H; [destruct pre; discriminate H|]. destruct pre as [|z pre]; cbn [app List.length] in *; inversion H; subst.
  - cbn. rewrite Nat.add_0_r, Nat.sub_0_r. repeat split; auto. lia.
  - destruct (IH _ _ _ _ H2) as (X1 & X2 & X3 & X4). cbn [seq map]. replace (a + S (List.length pre))%nat with (S a + List.length pre)%nat by lia. repeat split; auto; [lia|]. f_equal. exact X3.
Qed.

Lemma write_merge {Bk} (ans : nat -> nat -> list Bk) q oc ks n lg : forall ls w, merge ls w -> forall out, ls = map (fun i => skipn (written 0 i out) (ans 0%nat i)) (seq 0 n) ->
  exists l out', arun ans (ASys (Sys q oc ks (map (fun i => Task 0 [i] true false) (seq 0 n)) lg false) out) l =
    Some (ASys (Sys q oc ks (map (fun i => Task 0 [i] true false) (seq 0 n)) lg false) (out ++ out')) /\ map block out' = w /\ filter (on_conn 0) out' = out'.
Proof.
  intros ls w H. induction H as [ls N|pre b l post w H IH]; intros out E.
  - exists [], []. rewrite app_nil_r. repeat split; reflexivity.
  - destruct (app_map_seq _ _ _ _ _ _ E) as (X1 & X2 & X3 & X4). cbn [Nat.add] in *. set (j := List.length pre) in *.
    destruct (skipn_head _ _ _ _ (eq_sym X2)) as (B & SK).
    assert (WJ : written 0 j (out ++ [(0%nat, j, b)]) = S (written 0 j out)).
    { unfold written. rewrite filter_app, app_length. cbn [filter of_msg]. rewrite !Nat.eqb_refl. cbn. lia. }
    assert (WO : forall i, i <> j -> written 0 i (out ++ [(0%nat, j, b)]) = written 0 i out).
    { intros i Hi. unfold written. rewrite filter_app, app_length. cbn [filter of_msg]. destruct (Nat.eqb_spec j i); [congruence|]. cbn. lia. }
    destruct (IH (out ++ [(0%nat, j, b)])) as (l' & out' & R & M & F).
    + assert (SN : seq 0 n = seq 0 j ++ j :: seq (S j) (n - S j)) by (replace n with (j + S (n - S j))%nat at 1 by lia; rewrite seq_app; reflexivity).
      rewrite SN, map_app. cbn [map]. rewrite WJ, SK. rewrite X3, X4. f_equal; [|f_equal]; apply map_ext_in; intros i Hi; apply in_seq in Hi; rewrite WO by lia; reflexivity.
    + exists (AWrite j :: l'), ((0%nat, j, b) :: out'). cbn [arun astep a_sys a_out y_dead y_tasks]. rewrite nth_map_seq by lia. cbn [Nat.add]. rewrite B, R. split; [|split].
      * rewrite <- app_assoc. reflexivity.
      * cbn [map block]. rewrite M. reflexivity.
      * cbn [filter on_conn]. rewrite Nat.eqb_refl, F. reflexivity.
Qed.

Definition total (f : nat * nat -> nat) (L : list (nat * nat)) : nat := fold_right (fun p n => f p + n)%nat 0%nat L.

Lemma total_le f g L : (forall p, (f p <= g p)%nat) -> (total f L <= total g L)%nat.
Proof. intros H. induction L as [|p L IH]; cbn [total fold_right]; auto. specialize (H p). unfold total in *. lia. Qed.

Lemma total_lt f g L q : (forall p, (f p <= g p)%nat) -> In q L -> (f q < g q)%nat -> (total f L < total g L)%nat.
Proof.
  intros H. induction L as [|p L IH]; intros I S; [destruct I|]. cbn [total fold_right]. pose proof (total_le f g L H) as T. specialize (H p). unfold total in *.
  destruct I as [->|I]; [lia|]. specialize (IH I S). lia.
Qed.

Lemma covered {Bk} L : forall (out : list (sent Bk)), (forall k n b, In (k, n, b) out -> In (k, n) L) -> (List.length out <= total (fun p => written (fst p) (snd p) out) L)%nat.
Proof.
  induction out as [|[[k n] b] out IH]; intros H; cbn [List.length]; [lia|]. assert (I : (List.length out <= total (fun p => written (fst p) (snd p) out) L)%nat) by (apply IH; intros; eapply H; right; eauto).
  enough (X : (total (fun p => written (fst p) (snd p) out) L < total (fun p => written (fst p) (snd p) ((k, n, b) :: out)) L)%nat) by (exact (Nat.le_lt_trans _ _ _ I X)).
  apply (total_lt _ _ L (k, n)); [|eapply H; left; reflexivity|].
  - intros [k1 n1]. unfold written. cbn [fst snd filter]. destruct (of_msg k1 n1 (k, n, b)); cbn [List.length]; lia.
  - unfold written. cbn [fst snd filter of_msg]. rewrite !Nat.eqb_refl. cbn. lia.
Qed.

Definition everything (streams : list (list sev)) : list (nat * nat) := flat_map (fun k => map (pair k) (seq 0 (messages (nth k streams [])))) (seq 0 (List.length streams)).

Lemma in_everything streams k E n : nth_error streams k = Some E -> (n < messages E)%nat -> In (k, n) (everything streams).
Proof.
  intros HE Hn. unfold everything. apply in_flat_map. exists k. split; [apply in_seq; split; [lia|]; apply nth_error_Some; rewrite HE; discriminate|].
  rewrite (nth_error_nth _ _ _ HE). apply in_map, in_seq. lia.
Qed.

Lemma written_bound {Bk} (ans : nat -> nat -> list Bk) streams l y : arun ans (asys0 streams) l = Some y -> (List.length (a_out y) <= total (fun p => List.length (ans (fst p) (snd p))) (everything streams))%nat.
Proof.
  intros H. destruct (p_C139_each_answer _ _ _ _ H) as (A1 & A2 & _). destruct (arun_orun _ _ _ _ H) as (l' & O). cbn [a_sys asys0] in O. destruct (p_C95_each_once _ _ _ O) as (_ & O2 & _).
  etransitivity; [apply (covered (everything streams))|apply total_le].
  - intros k n b X. destruct (O2 k n (or_introl (A2 _ _ _ X))) as (E & HE & Hn). eapply in_everything; eauto.
  - intros [k n]. cbn [fst snd]. destruct (A1 k n) as (rest & R). rewrite R. rewrite app_length. unfold to_msg, written. rewrite map_length. lia.
Qed.

Lemma steps_bound {Bk} (ans : nat -> nat -> list Bk) : forall l y y', nonil (a_sys y) -> arun ans y l = Some y' -> nonil (a_sys y') /\ (List.length l + List.length (a_out y) + mu (a_sys y') <= List.length (a_out y') + mu (a_sys y))%nat.
Proof.
  induction l as [|x l IH]; intros y y' N H; cbn [arun] in H; [inversion H; subst; cbn; split; [auto|lia]|]. destruct (astep ans y x) as [y1|] eqn:E; [|discriminate]. destruct x as [a|j]; cbn [astep] in E.
  - destruct (may ans y a); [|discriminate]. destruct (ostep (a_sys y) a) as [s'|] eqn:O; [|discriminate]. inversion E; subst; clear E. destruct (mu_step _ _ _ N O) as (N1 & M).
    destruct (IH (ASys s' (a_out y)) _ N1 H) as (N2 & L). cbn [a_sys a_out List.length] in *. split; [auto|lia].
  - destruct (y_dead (a_sys y)); [discriminate|]. destruct (nth_error (y_tasks (a_sys y)) j) as [[k [|n t] [] x]|]; try discriminate. destruct (nth_error (ans k n) _); [|discriminate].
    inversion E; subst; clear E. destruct (IH (ASys (a_sys y) _) _ N H) as (N2 & L). cbn [a_sys a_out List.length] in *. rewrite app_length in L. cbn [List.length] in L. split; [auto|lia].
Qed.

Lemma quiet_or_step {Bk} (ans : nat -> nat -> list Bk) y : a_quiet ans y \/ exists x y', astep ans y x = Some y'.
Proof.
  set (C := map ADo (candidates (a_sys y)) ++ map AWrite (seq 0 (List.length (y_tasks (a_sys y))))).
  destruct (find (fun x => match astep ans y x with Some _ => true | None => false end) C) as [x|] eqn:F.
  - right. apply find_some in F as (_ & F). exists x. destruct (astep ans y x) as [y'|]; [eauto|discriminate].
  - left. intros x. destruct (astep ans y x) as [y'|] eqn:E; [|reflexivity]. exfalso. assert (I : In x C).
    { unfold C. apply in_or_app. destruct x as [a|j]; cbn [astep] in E.
      - left. apply in_map. destruct (may ans y a); [|discriminate]. destruct (a_sys y) as [q oc ks ts lg dd]. unfold candidates. cbn [y_conns y_tasks]. destruct dd; [discriminate E|].
        destruct a as [|k|j]; [left; reflexivity|right; apply in_or_app; left|right; apply in_or_app; right]; apply in_map, in_seq; (split; [lia|]); cbn [ostep] in E; apply nth_error_Some; intros Z; rewrite Z in E; discriminate E.
      - right. apply in_map, in_seq. split; [lia|]. destruct (y_dead (a_sys y)); [discriminate|]. apply nth_error_Some. intros Z. rewrite Z in E. discriminate E. }
    pose proof (find_none _ _ F x I) as Z. cbn beta in Z. rewrite E in Z. discriminate Z.
Qed.

Lemma p_C139_ends : forall {Bk} (ans : nat -> nat -> list Bk) streams, (forall E b m, In E streams -> In (SPipe b m) E -> m <= 0) -> exists N, forall l y, arun ans (asys0 streams) l = Some y ->
  (List.length l <= N)%nat /\ exists l' y', arun ans y l' = Some y' /\ a_quiet ans y' /\
    forall k E n, nth_error streams k = Some E -> (n < messages E)%nat -> to_msg k n (a_out y') = ans k n.
Proof.
  intros Bk ans streams W. assert (N0 : nonil (a_sys (@asys0 Bk streams))) by (split; [reflexivity|]; split; [|split; constructor]; apply Forall_forall; intros E HE b m; apply (W E b m HE)).
  set (N := (total (fun p => List.length (ans (fst p) (snd p))) (everything streams) + mu (sys0 streams))%nat).
  assert (B : forall l y, arun ans (asys0 streams) l = Some y -> (List.length l <= N)%nat).
  { intros l y H. destruct (steps_bound _ _ _ _ N0 H) as (_ & L). pose proof (written_bound _ _ _ _ H) as X. cbn [a_sys a_out asys0 List.length] in L. unfold N. lia. }
  exists N. intros l y H. split; [eapply B; eauto|]. remember (N - List.length l)%nat as d eqn:D. revert l y H D. induction d as [d IH] using lt_wf_ind. intros l y H D.
  destruct (quiet_or_step ans y) as [Q|(x & y1 & E)].
  - exists [], y. split; [reflexivity|]. split; [exact Q|]. destruct (p_C139_each_answer _ _ _ _ H) as (_ & _ & _ & A & _). apply A; auto. destruct (steps_bound _ _ _ _ N0 H) as ((DD & _) & _). exact DD.
  - assert (H1 : arun ans (asys0 streams) (l ++ [x]) = Some y1) by (rewrite arun_app, H; cbn [arun]; rewrite E; reflexivity). pose proof (B _ _ H1) as L1. rewrite app_length in L1. cbn [List.length] in L1.
    destruct (IH (N - List.length (l ++ [x]))%nat) with (l := l ++ [x]) (y := y1) as (l' & y' & R & Q & A); [rewrite app_length; cbn [List.length]; lia|exact H1|reflexivity|].
    exists (x :: l'), y'. split; [cbn [arun]; rewrite E; exact R|auto].
Qed.

Lemma p_C139_any_order_refuted : forall {Bk} hc lim onClose msgs en r (ans : nat -> nat -> list Bk) w, Forall (plain_message hc lim) msgs -> segmentation (concat msgs) en r ->
  merge (map (ans 0%nat) (seq 0 (List.length msgs))) w -> exists l y, arun ans (asys0 [connection hc lim onClose r]) l = Some y /\ to_conn 0 (a_out y) = w.
Proof.
  intros Bk hc lim onClose msgs en r ans w F S M. assert (C : exists rest, connection hc lim onClose r = map SDispatch msgs ++ rest).
  { unfold connection. rewrite (p_C56_every_message_once _ _ _ _ _ F S). destruct en; cbn; [exists []; rewrite app_nil_r; reflexivity|eexists; reflexivity]. }
  destruct C as (rest & ->). destruct (begin_all ans [] false [Conn rest (List.length msgs)] [] (List.length msgs) 0 []) as (lg & E1). cbn [seq map app Nat.add] in E1.
  destruct (write_merge ans [] false [Conn rest (List.length msgs)] (List.length msgs) lg _ _ M []) as (l & out' & R & W & FO); [apply map_ext; intros i; reflexivity|].
  exists (map ADo ([AAccept; AAccept] ++ repeat (AReader 0) (List.length msgs)) ++ map (fun j => ADo (ATask j)) (seq 0 (List.length msgs)) ++ l). eexists. split.
  - rewrite arun_app. unfold asys0. rewrite (arun_do ans _ _ (Sys [] false [Conn rest (List.length msgs)] (map (fun i => Task 0 [i] false false) (seq 0 (List.length msgs))) [] false) []).
    + rewrite arun_app, E1. exact R.
    + intros a H. apply in_app_or in H as [[<-|[<-|[]]]|H]; auto. apply repeat_spec in H. subst a. exact Logic.I.
    + cbn [app orun ostep sys0]. rewrite (read_all msgs rest [] false [] 0 []). reflexivity.
  - cbn [app a_out]. unfold to_conn. rewrite FO. exact W.
Qed.
