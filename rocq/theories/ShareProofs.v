(* Contexts of one connection are interchangeable for presence (C129). NODEMO *)
From Verif Require Export SpecShare CtxFacts BaseFacts.

Definition owner (h : list sop) (i : nat) : nat := match nth_error (contexts h) i with Some (c, _) => c | None => 0%nat end.
Definition accepts (h : list sop) : nat := List.length (filter (fun o => match o with SAccept => true | _ => false end) h).
Definition own_pool (h : list sop) (m : list (string * nat)) : cpool := map (fun e => (fst e, owner h (snd e))) m.

(* what the two models have in common after a history *)
Record simul (h : list sop) (w : sworld) (v : pworld) : Prop := {
  si_count : List.length (pw_conns v) = accepts h;
  si_ctxs : List.length (sw_ctxs w) = List.length (contexts h);
  si_ctx : forall i x c b, nth_error (sw_ctxs w) i = Some x -> nth_error (contexts h) i = Some (c, b) ->
    exists k, nth_error (pw_conns v) c = Some k /\
      x = SCtx c (2 * c) (if b then 2 * c else S (2 * c)) (pc_ref k) c c;
  si_socks : sw_socks w = map pc_sock (pw_conns v);
  si_ends : sw_ends w = map pc_end (pw_conns v);
  si_states : sw_states w = map pc_online (pw_conns v);
  si_maps : List.length (sw_maps w) = (2 * accepts h)%nat;
  si_names : forall c k, nth_error (pw_conns v) c = Some k -> aget k_username (s_map w (2 * c)) = pc_user k;
  si_pools : map (own_pool h) (sw_pools w) = pw_pools v;
  si_held : forall m u i, In m (sw_pools w) -> In (u, i) m -> (i < List.length (contexts h))%nat;
  si_cur : sw_cur w = pw_cur v }.

Lemma upd_same {A} (l : list A) i a : nth_error l i = Some a -> upd l i a = l.
Proof. revert i. induction l as [|x l IH]; intros [|i] H; cbn in *; try discriminate; [injection H as ->; reflexivity|rewrite IH by exact H; reflexivity]. Qed.

Lemma map_upd {A B} (f : A -> B) l i a : map f (upd l i a) = upd (map f l) i (f a).
Proof. revert i. induction l as [|x l IH]; intros [|i]; cbn; try reflexivity. rewrite IH. reflexivity. Qed.

Lemma nth_upd_eq {A} (l : list A) i a d : (i < List.length l)%nat -> nth i (upd l i a) d = a.
Proof. revert i. induction l as [|x l IH]; intros [|i] H; cbn in *; try lia; [reflexivity|apply IH; lia]. Qed.

Lemma nth_upd_ne {A} (l : list A) i j a d : i <> j -> nth j (upd l i a) d = nth j l d.
Proof. revert i j. induction l as [|x l IH]; intros [|i] [|j] H; cbn; try reflexivity; [lia|apply IH; lia]. Qed.

Lemma in_upd {A} (l : list A) i a x : In x (upd l i a) -> x = a \/ In x l.
Proof. revert i. induction l as [|y l IH]; intros [|i] H; cbn in *; auto; destruct H as [<-|H]; auto. destruct (IH _ H); auto. Qed.

Lemma in_adel {K V} {E : EqK K} (k : K) (m : list (K * V)) e : In e (adel k m) -> In e m.
Proof. induction m as [|[k' v] m IH]; cbn; auto. destruct (keqb k k'); cbn; intuition. Qed.

Lemma own_get h u m : aget u (own_pool h m) = option_map (owner h) (aget u m).
Proof. induction m as [|[k i] m IH]; cbn; auto. destruct (String.eqb u k); auto. Qed.

Lemma own_del h u m : own_pool h (adel u m) = adel u (own_pool h m).
Proof. induction m as [|[k i] m IH]; cbn; auto. destruct (String.eqb u k); [exact IH|]. cbn. f_equal. exact IH. Qed.

Lemma own_at h l p : nth p (map (own_pool h) l) [] = own_pool h (nth p l []).
Proof. change (@nil (string * nat)) with (own_pool h []) at 1. apply map_nth. Qed.

Section Sim.
  Context {h : list sop} {w : sworld} {v : pworld} (S0 : simul h w v).
  Lemma sim_get p u : GetClientPool v p u = option_map (owner h) (aget u (s_pool_at w p)).
  Proof. unfold GetClientPool, pool_at, s_pool_at. rewrite <- (si_pools _ _ _ S0), own_at, own_get. reflexivity. Qed.
  Lemma sim_held p u i : aget u (s_pool_at w p) = Some i -> (i < List.length (contexts h))%nat.
  Proof.
    intros G. unfold s_pool_at in G. destruct (nth_in_or_default p (sw_pools w) []) as [I|E]; [|rewrite E in G; discriminate].
    assert (X : exists k, In (k, i) (nth p (sw_pools w) [])).
    { revert G. generalize (nth p (sw_pools w) []) as m. induction m as [|[k j] m IH]; cbn; [discriminate|]. destruct (String.eqb u k); [intros G; injection G as ->; exists k; auto|intros G; destruct (IH G) as (k' & H); exists k'; auto]. }
    destruct X as (k & X). eapply (si_held _ _ _ S0); eassumption.
  Qed.
  Lemma sim_lt c k : nth_error (pw_conns v) c = Some k -> (c < accepts h)%nat.
  Proof. intros H. rewrite <- (si_count _ _ _ S0). apply nth_error_Some. congruence. Qed.
End Sim.

(* a step that changes one connection *)
Lemma simul_conn h w v c k k' (maps : list smap) : simul h w v -> nth_error (pw_conns v) c = Some k -> pc_ref k' = pc_ref k ->
  List.length maps = List.length (sw_maps w) ->
  aget k_username (nth (2 * c) maps []) = pc_user k' ->
  (forall d, d <> c -> aget k_username (nth (2 * d) maps []) = aget k_username (s_map w (2 * d))) ->
  simul h (SW (sw_ctxs w) (upd (sw_socks w) c (pc_sock k')) maps (upd (sw_ends w) c (pc_end k')) (upd (sw_states w) c (pc_online k')) (sw_pools w) (sw_cur w))
    (set_conn v c k').
Proof.
  intros S0 N R L E O. destruct S0 as [A1 A2 A3 A4 A5 A6 A7 A8 A9 A10 A11]. constructor; cbn [pw_conns set_conn sw_ctxs sw_socks sw_maps sw_ends sw_states sw_pools sw_cur pw_pools pw_cur]; auto.
  - rewrite upd_length. exact A1.
  - intros i x c0 b H1 H2. destruct (A3 i x c0 b H1 H2) as (k0 & K & ->). rewrite nth_upd. destruct (Nat.eqb_spec c0 c) as [->|D].
    + rewrite N. rewrite N in K. injection K as <-. exists k'. rewrite R. auto.
    + exists k0. auto.
  - rewrite map_upd, A4. reflexivity.
  - rewrite map_upd, A5. reflexivity.
  - rewrite map_upd, A6. reflexivity.
  - exact (eq_trans L A7).
  - intros c0 k0. unfold s_map. cbn [sw_maps]. rewrite nth_upd. destruct (Nat.eqb_spec c0 c) as [->|D].
    + rewrite N. intros H. injection H as <-. exact E.
    + intros H. rewrite O by exact D. apply A8, H.
Qed.

Lemma simul_name h w v c k x : simul h w v -> nth_error (pw_conns v) c = Some k ->
  simul h (set_map w (2 * c) k_username x) (set_conn v c (store_name k x)).
Proof.
  intros S0 N. pose proof (sim_lt S0 c k N) as LT. pose proof (si_maps _ _ _ S0) as ML.
  pose proof (simul_conn h w v c k (store_name k x) (upd (sw_maps w) (2 * c) (aset k_username x (s_map w (2 * c)))) S0 N eq_refl) as H.
  rewrite upd_length in H. specialize (H eq_refl). rewrite nth_upd_eq in H by lia. specialize (H (eq_refl : aget k_username (aset k_username x (s_map w (2 * c))) = _)).
  cbn [store_name pc_sock pc_end pc_online] in H.
  rewrite (upd_same (sw_socks w)) in H by (rewrite (si_socks _ _ _ S0), nth_error_map, N; reflexivity).
  rewrite (upd_same (sw_ends w)) in H by (rewrite (si_ends _ _ _ S0), nth_error_map, N; reflexivity).
  rewrite (upd_same (sw_states w)) in H by (rewrite (si_states _ _ _ S0), nth_error_map, N; reflexivity).
  apply H. intros d D. rewrite nth_upd_ne by lia. reflexivity.
Qed.

(* a store the name does not depend on *)
Lemma simul_store h w v r k x : simul h w v -> (forall c, r = (2 * c)%nat -> k <> k_username) -> simul h (set_map w r k x) v.
Proof.
  intros S0 D. destruct S0 as [A1 A2 A3 A4 A5 A6 A7 A8 A9 A10 A11]. constructor; cbn [set_map sw_ctxs sw_socks sw_maps sw_ends sw_states sw_pools sw_cur]; auto.
  - rewrite upd_length. exact A7.
  - intros c k0 H. unfold s_map in *. cbn [sw_maps set_map]. destruct (Nat.eq_dec r (2 * c)) as [->|NE]; [|rewrite nth_upd_ne by exact NE; apply A8, H].
    destruct (Nat.lt_ge_cases (2 * c) (List.length (sw_maps w))) as [LT|GE].
    + rewrite nth_upd_eq by exact LT. rewrite aget_aset. destruct (keqb_spec k_username k) as [<-|_]; [elim (D c eq_refl eq_refl)|]. apply A8, H.
    + assert (c < accepts h)%nat by (rewrite <- A1; apply nth_error_Some; congruence). lia.
Qed.

Lemma simul_enter h w v p u i c b : simul h w v -> nth_error (contexts h) i = Some (c, b) ->
  simul h (set_spool w p (aset u i (s_pool_at w p))) (SetClientPool v p u c).
Proof.
  intros S0 N. destruct S0 as [A1 A2 A3 A4 A5 A6 A7 A8 A9 A10 A11]. constructor; cbn [set_spool SetClientPool set_pool sw_ctxs sw_socks sw_maps sw_ends sw_states sw_pools sw_cur pw_conns pw_pools pw_cur]; auto.
  - rewrite map_upd, A9. f_equal. unfold aset at 1. cbn [own_pool map fst snd]. fold (own_pool h (adel u (s_pool_at w p))). rewrite own_del.
    unfold aset, pool_at, s_pool_at. rewrite <- A9, own_at. unfold owner at 1. rewrite N. reflexivity.
  - intros m u' i' I I'. apply in_upd in I. destruct I as [->|I]; [|eapply A10; eassumption].
    destruct I' as [E|I']; [injection E as _ <-; apply nth_error_Some; congruence|]. apply in_adel in I'. unfold s_pool_at in I'.
    destruct (nth_in_or_default p (sw_pools w) []) as [J|J]; [eapply A10; eassumption|rewrite J in I'; destruct I'].
Qed.

Lemma simul_remove h w v p u : simul h w v -> simul h (set_spool w p (adel u (s_pool_at w p))) (DeleteFromClientPool v p u).
Proof.
  intros S0. destruct S0 as [A1 A2 A3 A4 A5 A6 A7 A8 A9 A10 A11]. constructor; cbn [set_spool DeleteFromClientPool set_pool sw_ctxs sw_socks sw_maps sw_ends sw_states sw_pools sw_cur pw_conns pw_pools pw_cur]; auto.
  - rewrite map_upd, A9, own_del. unfold pool_at, s_pool_at. rewrite <- A9, own_at. reflexivity.
  - intros m u' i' I I'. apply in_upd in I. destruct I as [->|I]; [|eapply A10; eassumption]. apply in_adel in I'. unfold s_pool_at in I'.
    destruct (nth_in_or_default p (sw_pools w) []) as [J|J]; [eapply A10; eassumption|rewrite J in I'; destruct I'].
Qed.

Lemma simul_online h w v i c b x k u : simul h w v -> nth_error (contexts h) i = Some (c, b) -> nth_error (pw_conns v) c = Some k ->
  s_percon x = (2 * c)%nat -> s_pool x = pc_ref k ->
  fst (s_online w i x u) = fst (Online v c k u) /\ simul h (snd (s_online w i x u)) (snd (Online v c k u)).
Proof.
  intros S0 N K E P. unfold s_online, Online. destruct (String.eqb u ""); [auto|]. rewrite E, P. pose proof (simul_name h w v c k (VStr u) S0 K) as S1.
  destruct (pc_ref k) as [p|]; [|auto]. split; [reflexivity|]. apply (simul_enter h _ _ p u i c b S1 N).
Qed.

Lemma simul_offline h w v c x k : simul h w v -> nth_error (pw_conns v) c = Some k ->
  s_percon x = (2 * c)%nat -> s_pool x = pc_ref k ->
  fst (s_offline w x) = fst (Offline v k) /\ simul h (snd (s_offline w x)) (snd (Offline v k)).
Proof.
  intros S0 K E P. unfold s_offline, Offline. rewrite P. destruct (pc_ref k) as [p|]; [|auto]. unfold s_username. rewrite E, (si_names _ _ _ S0 c k K).
  destruct (pc_user k) as [[u| |]|]; auto. split; [reflexivity|]. unfold PoolOffline. rewrite (sim_get S0). destruct (aget u (s_pool_at w p)); cbn [option_map snd]; [|exact S0].
  apply simul_remove, S0.
Qed.

Lemma simul_close h w v c k b : simul h w v -> nth_error (pw_conns v) c = Some k ->
  let x := SCtx c (2 * c) b (pc_ref k) c c in
  fst (s_close w x) = fst (CloseConn v c k) /\ simul h (snd (s_close w x)) (snd (CloseConn v c k)).
Proof.
  intros S0 K x. unfold s_close, CloseConn. cbn [s_conn s_end s_pool s_state x].
  set (k1 := PConn (pc_ref k) (pc_user k) (pc_online k) true true).
  pose proof (simul_conn h w v c k k1 (sw_maps w) S0 K eq_refl eq_refl (si_names _ _ _ S0 c k K) (fun d _ => eq_refl)) as S1.
  cbn [k1 pc_sock pc_end pc_online] in S1. rewrite (upd_same (sw_states w)) in S1 by (rewrite (si_states _ _ _ S0), nth_error_map, K; reflexivity).
  set (w1 := SW _ _ _ _ _ _ _) in *.
  assert (K1 : nth_error (pw_conns (set_conn v c k1)) c = Some k1) by (cbn; rewrite nth_upd, Nat.eqb_refl, K; reflexivity).
  assert (F : forall w2 v2, simul h w2 v2 -> nth_error (pw_conns v2) c = Some k1 ->
    simul h (SW (sw_ctxs w2) (sw_socks w2) (sw_maps w2) (sw_ends w2) (upd (sw_states w2) c false) (sw_pools w2) (sw_cur w2))
      (set_conn v2 c (PConn (pc_ref k) (pc_user k) false true true))).
  { intros w2 v2 S2 K2. pose proof (simul_conn h w2 v2 c k1 (PConn (pc_ref k) (pc_user k) false true true) (sw_maps w2) S2 K2 eq_refl eq_refl (si_names _ _ _ S2 c k1 K2) (fun d _ => eq_refl)) as S3.
    cbn [pc_sock pc_end pc_online] in S3.
    rewrite (upd_same (sw_socks w2)) in S3 by (rewrite (si_socks _ _ _ S2), nth_error_map, K2; reflexivity).
    rewrite (upd_same (sw_ends w2)) in S3 by (rewrite (si_ends _ _ _ S2), nth_error_map, K2; reflexivity). exact S3. }
  destruct (pc_ref k) as [p|] eqn:P.
  - destruct (simul_offline h w1 (set_conn v c k1) c x k1 S1 K1 eq_refl) as (R1 & R2); [reflexivity|].
    assert (K2 : nth_error (pw_conns (snd (Offline (set_conn v c k1) k1))) c = Some k1).
    { unfold Offline, PoolOffline. destruct (pc_ref k1); [|exact K1]. destruct (pc_user k1) as [[u| |]|]; try exact K1. cbn [snd]. destruct (GetClientPool _ _ u); exact K1. }
    fold x. destruct (s_offline w1 x) as [r w2]. destruct (Offline (set_conn v c k1) k1) as [r' v2]. cbn [fst snd] in *. subst r'.
    destruct r; cbn [fst snd]; split; try reflexivity; try (apply F; assumption). exact R2.
  - split; [reflexivity|]. cbn [snd]. apply F; assumption.
Qed.

(* histories that make no context *)
Lemma simul_frame h o w v : contexts (o :: h) = contexts h -> accepts (o :: h) = accepts h -> simul h w v -> simul (o :: h) w v.
Proof.
  intros C A [A1 A2 A3 A4 A5 A6 A7 A8 A9 A10 A11]. constructor; rewrite ?C, ?A; auto.
  rewrite <- A9. apply map_ext. intros m. unfold own_pool. apply map_ext. intros e. unfold owner. rewrite C. reflexivity.
Qed.

Lemma own_more h h' l e m : contexts h' = contexts h ++ e -> (forall u i, In (u, i) m -> (i < List.length (contexts h))%nat) -> l = own_pool h m -> own_pool h' m = l.
Proof.
  intros C H ->. unfold own_pool. apply map_ext_in. intros [u i] I. cbn. f_equal. unfold owner. rewrite C, nth_error_app1 by (eapply H, I). reflexivity.
Qed.

Lemma simul_accept h w v : simul h w v -> simul (SAccept :: h) (s_accept w) (snd (pstep PAccept v)).
Proof.
  intros [A1 A2 A3 A4 A5 A6 A7 A8 A9 A10 A11]. constructor; cbn [s_accept pstep snd sw_ctxs sw_socks sw_maps sw_ends sw_states sw_pools sw_cur pw_conns pw_pools pw_cur].
  - rewrite app_length, A1. unfold accepts. cbn. lia.
  - cbn [contexts]. rewrite !app_length, A2. reflexivity.
  - intros i x c b H1 H2. cbn [contexts] in H2. destruct (Nat.lt_ge_cases i (List.length (contexts h))) as [L|G].
    + rewrite nth_error_app1 in H1 by lia. rewrite nth_error_app1 in H2 by lia. destruct (A3 i x c b H1 H2) as (k & K & E). exists k. split; [|exact E].
      rewrite nth_error_app1; [exact K|]. apply nth_error_Some. congruence.
    + rewrite nth_error_app2 in H1 by lia. rewrite nth_error_app2 in H2 by lia.
      destruct (i - List.length (contexts h))%nat as [|n] eqn:N; [|destruct n; discriminate H2]. rewrite A2, N in H1. cbn in H1, H2. injection H1 as <-. injection H2 as <- <-.
      fold (accepts h). exists (PConn (pw_cur v) None true false false). split; [rewrite <- A1; apply nth_snoc_last|].
      rewrite A4, A5, A6, !map_length, A1, A7, A11. reflexivity.
  - rewrite map_app, A4. reflexivity.
  - rewrite map_app, A5. reflexivity.
  - rewrite map_app, A6. reflexivity.
  - rewrite app_length, A7. unfold accepts. cbn. lia.
  - intros c k H. unfold s_map. cbn [sw_maps s_accept]. destruct (Nat.lt_ge_cases c (List.length (pw_conns v))) as [L|G].
    + rewrite nth_error_app1 in H by exact L. rewrite app_nth1 by lia. apply A8, H.
    + rewrite nth_error_app2 in H by exact G. destruct (c - List.length (pw_conns v))%nat as [|n] eqn:N; [|destruct n; discriminate H]. injection H as <-.
      rewrite app_nth2 by lia. replace (2 * c - List.length (sw_maps w))%nat with 0%nat by lia. reflexivity.
  - rewrite <- A9. apply map_ext_in. intros m I. eapply own_more; [cbn [contexts]; reflexivity|intros u i J; eapply A10; eassumption|reflexivity].
  - intros m u i I J. cbn [contexts]. rewrite app_length. pose proof (A10 m u i I J). lia.
  - exact A11.
Qed.

Lemma simul_message h w v i x c b : simul h w v -> nth_error (sw_ctxs w) i = Some x -> nth_error (contexts h) i = Some (c, b) ->
  simul (SMessage i :: h) (SW (sw_ctxs w ++ [s_copy x]) (sw_socks w) (sw_maps w) (sw_ends w) (sw_states w) (sw_pools w) (sw_cur w)) v.
Proof.
  intros [A1 A2 A3 A4 A5 A6 A7 A8 A9 A10 A11] X C.
  assert (CC : contexts (SMessage i :: h) = contexts h ++ [(c, true)]) by (cbn [contexts]; rewrite C; reflexivity).
  constructor; cbn [sw_ctxs sw_socks sw_maps sw_ends sw_states sw_pools sw_cur]; auto.
  - rewrite CC, !app_length, A2. reflexivity.
  - intros j y d e H1 H2. rewrite CC in H2. destruct (Nat.lt_ge_cases j (List.length (contexts h))) as [L|G].
    + rewrite nth_error_app1 in H1 by lia. rewrite nth_error_app1 in H2 by lia. eapply A3; eassumption.
    + rewrite nth_error_app2 in H1 by lia. rewrite nth_error_app2 in H2 by lia.
      destruct (j - List.length (contexts h))%nat as [|n] eqn:N; [|destruct n; discriminate H2]. rewrite A2, N in H1. cbn in H1, H2. injection H1 as <-. injection H2 as <- <-.
      destruct (A3 i x c b X C) as (k & K & ->). exists k. split; [exact K|reflexivity].
  - rewrite <- A9. apply map_ext_in. intros m I. eapply own_more; [exact CC|intros u j J; eapply A10; eassumption|reflexivity].
  - intros m u j I J. rewrite CC, app_length. pose proof (A10 m u j I J). lia.
Qed.

Lemma simul_pools h w v : simul h w v -> simul h (add_spool w) (PW (pw_conns v) (pw_pools v ++ [[]]) (Some (List.length (pw_pools v)))).
Proof.
  intros [A1 A2 A3 A4 A5 A6 A7 A8 A9 A10 A11]. constructor; cbn [add_spool sw_ctxs sw_socks sw_maps sw_ends sw_states sw_pools sw_cur pw_conns pw_pools pw_cur]; auto.
  - rewrite map_app, A9. reflexivity.
  - intros m u i I J. apply in_app_or in I. destruct I as [I|[<-|[]]]; [eapply A10; eassumption|destruct J].
  - rewrite <- A9, map_length. reflexivity.
Qed.

Lemma prun_app a b : prun (a ++ b) = fold_right (fun o v => snd (pstep o v)) (prun b) a.
Proof. induction a as [|o a IH]; cbn; [reflexivity|rewrite IH; reflexivity]. Qed.

Lemma sim_ctx h w v i c b : simul h w v -> nth_error (contexts h) i = Some (c, b) ->
  exists k, nth_error (pw_conns v) c = Some k /\ nth_error (sw_ctxs w) i = Some (SCtx c (2 * c) (if b then 2 * c else S (2 * c)) (pc_ref k) c c).
Proof.
  intros S0 C. destruct (nth_error (sw_ctxs w) i) as [x|] eqn:X.
  - destruct (si_ctx _ _ _ S0 i x c b X C) as (k & K & ->). exists k. auto.
  - apply nth_error_None in X. rewrite (si_ctxs _ _ _ S0) in X. assert (nth_error (contexts h) i <> None) as Y by congruence. apply nth_error_Some in Y. lia.
Qed.

Lemma sim_none h w v i : simul h w v -> nth_error (contexts h) i = None -> nth_error (sw_ctxs w) i = None.
Proof. intros S0 C. apply nth_error_None. apply nth_error_None in C. rewrite (si_ctxs _ _ _ S0). exact C. Qed.

Lemma accepts_other o h : match o with SAccept => False | _ => True end -> accepts (o :: h) = accepts h.
Proof. destruct o; cbn; tauto. Qed.

Lemma simul_step h o w v : simul h w v -> simul (o :: h) (snd (sstep o w)) (fold_right (fun o v => snd (pstep o v)) v (presence1 h o)).
Proof.
  intros S0. destruct o as [y| | |i|i u|i|i|i k x|i k x]; cbn [presence1 sstep].
  - apply simul_frame; [reflexivity|reflexivity|]. destruct y; cbn [fold_right pstep snd]; [apply simul_pools, S0|].
    destruct S0 as [A1 A2 A3 A4 A5 A6 A7 A8 A9 A10 A11]. constructor; cbn [sw_ctxs sw_socks sw_maps sw_ends sw_states sw_pools sw_cur pw_conns pw_pools pw_cur]; auto.
  - apply simul_frame; [reflexivity|reflexivity|]. cbn [fold_right pstep snd]. rewrite <- (si_cur _ _ _ S0). destruct (sw_cur w); [apply simul_pools, S0|exact S0].
  - apply simul_accept, S0.
  - cbn [fold_right]. unfold son. destruct (nth_error (contexts h) i) as [[c b]|] eqn:C.
    + destruct (sim_ctx h w v i c b S0 C) as (k & K & X). rewrite X. cbn [snd]. eapply simul_message; eassumption.
    + rewrite (sim_none h w v i S0 C). cbn [snd]. apply simul_frame; [cbn [contexts]; rewrite C; reflexivity|reflexivity|exact S0].
  - apply simul_frame; [reflexivity|reflexivity|]. unfold son, on_conn. destruct (nth_error (contexts h) i) as [[c b]|] eqn:C.
    + destruct (sim_ctx h w v i c b S0 C) as (k & K & X). rewrite X. cbn [fold_right pstep]. unfold pon. rewrite K. eapply simul_online; eauto.
    + rewrite (sim_none h w v i S0 C). exact S0.
  - apply simul_frame; [reflexivity|reflexivity|]. unfold son, on_conn. destruct (nth_error (contexts h) i) as [[c b]|] eqn:C.
    + destruct (sim_ctx h w v i c b S0 C) as (k & K & X). rewrite X. cbn [fold_right pstep]. unfold pon. rewrite K. eapply simul_offline; eauto.
    + rewrite (sim_none h w v i S0 C). exact S0.
  - apply simul_frame; [reflexivity|reflexivity|]. unfold son, on_conn. destruct (nth_error (contexts h) i) as [[c b]|] eqn:C.
    + destruct (sim_ctx h w v i c b S0 C) as (k & K & X). rewrite X. cbn [fold_right pstep]. unfold pon. rewrite K. eapply simul_close; eauto.
    + rewrite (sim_none h w v i S0 C). exact S0.
  - apply simul_frame; [reflexivity|reflexivity|]. cbn [fold_right]. unfold son. destruct (nth_error (sw_ctxs w) i) as [y|]; [|exact S0].
    unfold s_set_conn. destruct (reserved k) eqn:R; [exact S0|]. apply simul_store; [exact S0|]. intros c _ ->. discriminate R.
  - apply simul_frame; [reflexivity|reflexivity|]. unfold son. destruct (nth_error (contexts h) i) as [[c b]|] eqn:C.
    + destruct (sim_ctx h w v i c b S0 C) as (k0 & K & X). rewrite X. unfold s_set_req. cbn [s_perreq snd]. destruct b.
      * destruct (keqb_spec k k_username) as [->|D]; cbn [fold_right pstep snd].
        { unfold pon. rewrite K. apply simul_name; assumption. }
        apply simul_store; [exact S0|]. intros; assumption.
      * cbn [fold_right]. apply simul_store; [exact S0|]. intros d E. lia.
    + rewrite (sim_none h w v i S0 C). exact S0.
Qed.

Lemma simul_all h : simul h (shrun h) (prun (presence h)).
Proof.
  induction h as [|o h IH].
  - constructor; cbn; auto; try (intros; contradiction). + intros i x c b H. destruct i; discriminate H. + intros c k H. destruct c; discriminate H.
  - cbn [shrun presence]. rewrite prun_app. apply simul_step, IH.
Qed.

Lemma p_C129_one_record : forall h i c b, nth_error (contexts h) i = Some (c, b) ->
  exists x k, nth_error (sw_ctxs (shrun h)) i = Some x /\ nth_error (pw_conns (prun (presence h))) c = Some k /\
  s_conn x = c /\
  (forall u, fst (sstep (SOnline i u) (shrun h)) = fst (pstep (POnline c u) (prun (presence h)))) /\
  fst (sstep (SOffline i) (shrun h)) = fst (pstep (POffline c) (prun (presence h))) /\
  fst (sstep (SClose i) (shrun h)) = fst (pstep (PClose c) (prun (presence h))) /\
  s_username (shrun h) x = pc_user k /\ s_is_online (shrun h) x = pc_online k /\
  (forall u, s_send (shrun h) x u = SendToUsername (prun (presence h)) k u).
Proof.
  intros h i c b C. pose proof (simul_all h) as S0. set (w := shrun h) in *. set (v := prun (presence h)) in *.
  destruct (sim_ctx h w v i c b S0 C) as (k & K & X). exists (SCtx c (2 * c) (if b then 2 * c else S (2 * c)) (pc_ref k) c c), k.
  split; [exact X|]. split; [exact K|]. split; [reflexivity|]. cbn [sstep pstep]. unfold son, pon. rewrite X, K.
  split; [intros u; eapply simul_online; eauto|]. split; [eapply simul_offline; eauto|]. split; [eapply simul_close; eauto|].
  split; [apply (si_names _ _ _ S0), K|]. split.
  - unfold s_is_online. cbn [s_state]. rewrite (si_states _ _ _ S0). apply nth_error_nth. rewrite nth_error_map, K. reflexivity.
  - intros u. unfold s_send, SendToUsername. cbn [s_pool]. destruct (pc_ref k) as [p|]; [|reflexivity]. rewrite (sim_get S0).
    destruct (aget u (s_pool_at w p)) as [j|] eqn:G; [|reflexivity]. cbn [option_map]. apply (sim_held S0) in G. apply nth_error_Some in G.
    destruct (nth_error (contexts h) j) as [[d e]|] eqn:J; [|contradiction]. destruct (sim_ctx h w v j d e S0 J) as (k' & K' & X').
    unfold owner. rewrite J, X', K'. unfold s_is_online. cbn [s_state s_conn]. rewrite (si_states _ _ _ S0).
    rewrite (nth_error_nth (map pc_online (pw_conns v)) d false (x := pc_online k')) by (rewrite nth_error_map, K'; reflexivity). reflexivity.
Qed.

Lemma alike_contexts h h' : alike_all h h' -> contexts h = contexts h' /\ accepts h = accepts h'.
Proof.
  induction 1 as [|h h' o o' A (IH1 & IH2) L]; [auto|]. destruct L as [o O|i i' c (b & B) (b' & B')|i i' c u _ _|i i' c _ _|i i' c _ _|i i' c k v _ _|i i' c k v _ _]; cbn [contexts]; auto.
  - destruct o; try contradiction; cbn [contexts]; rewrite ?IH1; auto. fold (accepts h) (accepts h'). rewrite IH2. split; [reflexivity|]. unfold accepts in *. cbn. rewrite IH2. reflexivity.
  - rewrite B, B', IH1. auto.
Qed.

Lemma alike_presence h h' : alike_all h h' -> presence h = presence h'.
Proof.
  induction 1 as [|h h' o o' A IH L]; [reflexivity|]. cbn [presence]. rewrite IH. f_equal.
  destruct L as [o O|i i' c B B'|i i' c u (b & B) (b' & B')|i i' c (b & B) (b' & B')|i i' c (b & B) (b' & B')|i i' c k v _ _|i i' c k v B B']; cbn [presence1]; unfold on_conn, is_copy in *; auto.
  - destruct o; try contradiction; reflexivity.
  - rewrite B, B'. reflexivity.
  - rewrite B, B'. reflexivity.
  - rewrite B, B'. reflexivity.
  - rewrite B, B'. reflexivity.
Qed.

Lemma p_C129_interchangeable_partial : forall h h' i i' c, alike_all h h' -> belongs h i c -> belongs h' i' c ->
  exists x x', nth_error (sw_ctxs (shrun h)) i = Some x /\ nth_error (sw_ctxs (shrun h')) i' = Some x' /\
  (forall u, fst (sstep (SOnline i u) (shrun h)) = fst (sstep (SOnline i' u) (shrun h'))) /\
  fst (sstep (SOffline i) (shrun h)) = fst (sstep (SOffline i') (shrun h')) /\
  fst (sstep (SClose i) (shrun h)) = fst (sstep (SClose i') (shrun h')) /\
  s_username (shrun h) x = s_username (shrun h') x' /\ s_is_online (shrun h) x = s_is_online (shrun h') x' /\
  (forall u, s_send (shrun h) x u = s_send (shrun h') x' u).
Proof.
  intros h h' i i' c A (b & B) (b' & B'). destruct (p_C129_one_record h i c b B) as (x & k & X & K & _ & P1 & P2 & P3 & P4 & P5 & P6).
  destruct (p_C129_one_record h' i' c b' B') as (x' & k' & X' & K' & _ & Q1 & Q2 & Q3 & Q4 & Q5 & Q6).
  rewrite <- (alike_presence h h' A) in *. rewrite K in K'. injection K' as <-. exists x, x'. split; [exact X|]. split; [exact X'|].
  split; [intros u; rewrite P1, Q1; reflexivity|]. split; [congruence|]. split; [congruence|]. split; [congruence|]. split; [congruence|]. intros u. rewrite P6, Q6. reflexivity.
Qed.

Lemma p_C129_request_store_refuted : forall h i j c v, nth_error (contexts h) i = Some (c, true) -> nth_error (contexts h) j = Some (c, false) ->
  exists x y, nth_error (sw_ctxs (shrun h)) i = Some x /\ nth_error (sw_ctxs (shrun h)) j = Some y /\
  (forall z, z = x \/ z = y -> s_username (shrun (SSetReq i k_username v :: h)) z = Some v) /\
  (forall z, z = x \/ z = y -> s_username (shrun (SSetReq j k_username v :: h)) z = s_username (shrun h) z).
Proof.
  intros h i j c v I J. pose proof (simul_all h) as S0. destruct (sim_ctx h _ _ i c true S0 I) as (k & K & X). destruct (sim_ctx h _ _ j c false S0 J) as (k' & K' & Y).
  rewrite K in K'. injection K' as <-. pose proof (sim_lt S0 c k K) as LT. pose proof (si_maps _ _ _ S0) as ML.
  eexists _, _. split; [exact X|]. split; [exact Y|]. cbn [shrun sstep]. unfold son. rewrite X, Y. cbn [s_set_req snd s_perreq]. split.
  - intros z [->| ->]; unfold s_username, s_map; cbn [set_map sw_maps s_percon]; rewrite nth_upd_eq by lia; reflexivity.
  - intros z [->| ->]; unfold s_username, s_map; cbn [set_map sw_maps s_percon]; rewrite nth_upd_ne by lia; reflexivity.
Qed.
