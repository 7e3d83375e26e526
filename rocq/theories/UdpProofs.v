(* Users of a UDP server: whom a push or a reply reaches (C88), going offline (C89). NODEMO *)
From Verif Require Export SpecUdp BaseFacts CtxFacts.

Record UInv (h : list uop) (w : uworld) : Prop := {
  ui_len : List.length (uw_ctxs w) = List.length (arrived h);
  ui_open : uw_open w = negb (shut_down h);
  ui_ctx : forall c k, nth_error (uw_ctxs w) c = Some k -> from h c = Some (u_addr k) /\ uname h c = u_name k;
  ui_off : uw_open w = true -> forall c k, nth_error (uw_ctxs w) c = Some k -> u_off k = false;
  ui_pool : forall u, aget u (uw_pool w) = if logged_out h u then None else last_login h u }.

Lemma there_some h w c : UInv h w -> there h c = match nth_error (uw_ctxs w) c with Some _ => true | None => false end.
Proof.
  intros I. unfold there. rewrite <- (ui_len _ _ I). destruct (nth_error (uw_ctxs w) c) eqn:E.
  - apply Nat.ltb_lt, nth_error_Some. congruence.
  - apply Nat.ltb_ge, nth_error_None, E.
Qed.

Lemma pool_offline_get n p u : aget u (pool_offline n p) = if String.eqb u n then None else aget u p.
Proof.
  unfold pool_offline. destruct (aget n p) eqn:E.
  - rewrite aget_adel. reflexivity.
  - destruct (String.eqb_spec u n) as [->|]; auto.
Qed.

Lemma uinv h : UInv h (urun h).
Proof.
  induction h as [|o p I].
  { split; try reflexivity; intros; try (destruct c; discriminate). }
  cbn [urun]. set (w := urun p) in *. clearbody w. destruct o as [a|c u|c|c|c]; cbn [ustep].
  - destruct (uw_open w) eqn:O.
    + pose proof (ui_open _ _ I) as Sd. rewrite O in Sd. destruct (shut_down p) eqn:S0; [discriminate|].
      split; cbn [uw_ctxs uw_pool uw_open arrived shut_down logged_out last_login]; rewrite ?S0.
      * rewrite !app_length, (ui_len _ _ I). reflexivity.
      * reflexivity.
      * intros c k H. unfold from. cbn [arrived uname]. rewrite S0. destruct (lt_dec c (List.length (uw_ctxs w))) as [L|L].
        -- rewrite nth_error_app1 in H by auto. destruct (ui_ctx _ _ I c k H) as (A & B). split; [|exact B]. unfold from in A.
           rewrite nth_error_app1; [exact A|]. rewrite <- (ui_len _ _ I). exact L.
        -- rewrite nth_error_app2 in H by lia. rewrite nth_error_app2 by (rewrite <- (ui_len _ _ I); lia). rewrite <- (ui_len _ _ I).
           destruct (c - List.length (uw_ctxs w))%nat as [|[|]] eqn:E; cbn in H; inversion H; subst. split; [reflexivity|]. cbn.
           assert (X : forall q, uname q c = None \/ there q c = true).
           { intros q. induction q as [|o q IH]; [auto|]. assert (M : there q c = true -> there (o :: q) c = true).
             { unfold there. intros T. apply Nat.ltb_lt in T. apply Nat.ltb_lt. destruct o; cbn [arrived]; auto. destruct (shut_down q); auto. rewrite app_length. lia. }
             destruct o; cbn [uname]; try (destruct IH; auto; fail). 
             - destruct (Nat.eqb c c0 && there q c && negb (u =? "")%string) eqn:E1; [|destruct IH; auto].
               right. apply M. apply andb_prop in E1 as (E1 & _). apply andb_prop in E1 as (_ & E1). exact E1.
             - destruct (Nat.eqb c c0); [auto|]. destruct IH; auto. }
           destruct (X p) as [X1|X1]; [exact X1|]. unfold there in X1. apply Nat.ltb_lt in X1. rewrite <- (ui_len _ _ I) in X1. lia.
      * intros _ c k H. destruct (lt_dec c (List.length (uw_ctxs w))) as [L|L].
        -- rewrite nth_error_app1 in H by auto. exact (ui_off _ _ I O c k H).
        -- rewrite nth_error_app2 in H by lia. destruct (c - List.length (uw_ctxs w))%nat as [|[|]]; cbn in H; inversion H; reflexivity.
      * exact (ui_pool _ _ I).
    + pose proof (ui_open _ _ I) as Sd. rewrite O in Sd. destruct (shut_down p) eqn:S0; [|discriminate].
      split; cbn [arrived shut_down logged_out last_login]; rewrite ?S0; try (exact (ui_len _ _ I)).
      * exact O.
      * intros c k H. unfold from. cbn [arrived uname]. rewrite S0. exact (ui_ctx _ _ I c k H).
      * congruence.
      * exact (ui_pool _ _ I).
  - pose proof (there_some _ _ c I) as T. destruct (nth_error (uw_ctxs w) c) as [k|] eqn:K.
    + destruct (String.eqb_spec u "") as [U|U].
      * split; cbn [arrived shut_down]; try apply I.
        -- intros d k1 H. unfold from. cbn [arrived uname]. replace (String.eqb u "") with true by (subst; reflexivity). cbn [negb]. rewrite !andb_false_r. exact (ui_ctx _ _ I d k1 H).
        -- intros u1. cbn [logged_out last_login]. destruct (String.eqb_spec u1 u) as [->|D]; [replace (String.eqb u "") with true by (subst; reflexivity)|]; cbn [negb]; rewrite ?andb_false_r; apply I.
      * assert (UE : String.eqb u "" = false) by (apply String.eqb_neq; exact U).
        split; cbn [arrived shut_down uset uw_ctxs uw_pool uw_open]; try apply I.
        -- rewrite upd_length. apply I.
        -- intros d k1 H. unfold from. cbn [arrived uname]. rewrite nth_upd in H. destruct (Nat.eqb_spec d c) as [->|D].
           ++ rewrite K in H. inversion H; subst k1. cbn [u_addr u_name]. rewrite T, UE. cbn [andb negb]. split; [exact (proj1 (ui_ctx _ _ I c k K))|reflexivity].
           ++ cbn [andb]. exact (ui_ctx _ _ I d k1 H).
        -- intros O d k1 H. rewrite nth_upd in H. destruct (Nat.eqb d c); [rewrite K in H; inversion H; subst k1; cbn; exact (ui_off _ _ I O c k K)|exact (ui_off _ _ I O d k1 H)].
        -- intros u1. cbn [logged_out last_login]. rewrite aget_aset, T. cbn [andb]. change (keqb u1 u) with (String.eqb u1 u). destruct (String.eqb_spec u1 u) as [->|D]; cbn [andb].
           ++ rewrite UE. reflexivity.
           ++ apply I.
    + split; cbn [arrived shut_down]; try apply I.
      * intros d k1 H. unfold from. cbn [arrived uname]. destruct (Nat.eqb_spec d c) as [->|D]; [congruence|]. cbn [andb]. exact (ui_ctx _ _ I d k1 H).
      * intros u1. cbn [logged_out last_login]. rewrite T. cbn [andb]. apply I.
  - pose proof (there_some _ _ c I) as T. destruct (nth_error (uw_ctxs w) c) as [k|] eqn:K.
    + unfold uoffline. destruct (ui_ctx _ _ I c k K) as (A & B). split; cbn [arrived shut_down]; try (destruct (u_name k); apply I).
      intros u1. cbn [logged_out last_login]. rewrite T. unfold uname_is. rewrite B. cbn [andb]. destruct (u_name k) as [n|]; cbn [uw_pool].
      * rewrite pool_offline_get. rewrite String.eqb_sym. destruct (String.eqb n u1); cbn [orb]; [reflexivity|apply I].
      * apply I.
    + split; cbn [arrived shut_down]; try apply I. intros u1. cbn [logged_out last_login]. rewrite T. apply I.
  - destruct (nth_error (uw_ctxs w) c) as [k|] eqn:K.
    + split; cbn [arrived shut_down uset uw_ctxs uw_pool uw_open]; try apply I.
      * rewrite upd_length. apply I.
      * intros d k1 H. unfold from. cbn [arrived uname]. rewrite nth_upd in H. destruct (Nat.eqb_spec d c) as [->|D].
        -- rewrite K in H. inversion H; subst k1. cbn. split; [exact (proj1 (ui_ctx _ _ I c k K))|reflexivity].
        -- exact (ui_ctx _ _ I d k1 H).
      * intros O d k1 H. rewrite nth_upd in H. destruct (Nat.eqb d c); [rewrite K in H; inversion H; subst k1; cbn; exact (ui_off _ _ I O c k K)|exact (ui_off _ _ I O d k1 H)].
    + split; cbn [arrived shut_down]; try apply I.
      intros d k1 H. unfold from. cbn [arrived uname]. destruct (Nat.eqb_spec d c) as [->|D]; [congruence|]. exact (ui_ctx _ _ I d k1 H).
  - pose proof (there_some _ _ c I) as T. destruct (nth_error (uw_ctxs w) c) as [k|] eqn:K.
    + destruct (ui_ctx _ _ I c k K) as (A & B). set (w1 := uoffline _ k).
      assert (E : uw_ctxs w1 = uw_ctxs w /\ uw_open w1 = false) by (unfold w1, uoffline; destruct (u_name k); auto). destruct E as (E1 & E2).
      split; cbn [arrived shut_down uset uw_ctxs uw_pool uw_open]; rewrite ?E1, ?E2.
      * rewrite upd_length. apply I.
      * unfold there in T. rewrite T. reflexivity.
      * intros d k1 H. unfold from. cbn [arrived uname]. rewrite nth_upd in H. destruct (Nat.eqb_spec d c) as [->|D].
        -- rewrite K in H. inversion H; subst k1. cbn. auto.
        -- exact (ui_ctx _ _ I d k1 H).
      * discriminate.
      * intros u1. cbn [logged_out last_login]. rewrite T. unfold uname_is. rewrite B. cbn [andb]. unfold w1, uoffline. destruct (u_name k) as [n|]; cbn [uw_pool].
        -- rewrite pool_offline_get. rewrite String.eqb_sym. destruct (String.eqb n u1); cbn [orb]; [reflexivity|apply I].
        -- apply I.
    + split; cbn [arrived shut_down]; try apply I.
      * unfold there in T. rewrite T. apply I.
      * intros u1. cbn [logged_out last_login]. rewrite T. apply I.
Qed.

Lemma p_C88_reply : forall h c,
  ureply (urun h) c = match from h c with
    | Some a => if shut_down h then (false, []) else (true, [a])
    | None => (false, [])
    end.
Proof.
  intros h c. pose proof (uinv h) as I. unfold ureply. pose proof (there_some _ _ c I) as T. rewrite (ui_open _ _ I).
  destruct (nth_error (uw_ctxs (urun h)) c) as [k|] eqn:K.
  - rewrite (proj1 (ui_ctx _ _ I c k K)). destruct (shut_down h); reflexivity.
  - unfold from. destruct (nth_error (arrived h) c) eqn:E; [|reflexivity]. unfold there in T. apply Nat.ltb_ge in T.
    assert (c < List.length (arrived h))%nat by (apply nth_error_Some; congruence). lia.
Qed.

Lemma login_there h u d : last_login h u = Some d -> there h d = true.
Proof.
  induction h as [|o p IH]; cbn [last_login]; [discriminate|].
  assert (M : there p d = true -> there (o :: p) d = true).
  { unfold there. intros T. apply Nat.ltb_lt in T. apply Nat.ltb_lt. destruct o; cbn [arrived]; auto. destruct (shut_down p); auto. rewrite app_length. lia. }
  destruct o; try (intros H; apply M, IH, H). destruct (there p c && (u =? u0)%string && negb (u =? "")%string) eqn:E; [|intros H; apply M, IH, H].
  intros H. inversion H; subst. apply M. apply andb_prop in E as (E & _). apply andb_prop in E as (E & _). exact E.
Qed.

Lemma p_C88_push : forall h u,
  usend (urun h) u = match last_login h u with
    | Some d => if logged_out h u || shut_down h then (false, []) else match from h d with Some a => (true, [a]) | None => (false, []) end
    | None => (false, [])
    end.
Proof.
  intros h u. pose proof (uinv h) as I. unfold usend. rewrite (ui_pool _ _ I). destruct (logged_out h u) eqn:L; cbn [orb]; [destruct (last_login h u); reflexivity|].
  destruct (last_login h u) as [d|] eqn:D; [|reflexivity]. apply login_there in D. rewrite (there_some _ _ d I) in D.
  destruct (nth_error (uw_ctxs (urun h)) d) as [k|] eqn:K; [|discriminate]. destruct (ui_ctx _ _ I d k K) as (A & _).
  destruct (shut_down h) eqn:Sd.
  - destruct (u_off k); [reflexivity|]. rewrite p_C88_reply, A, Sd. reflexivity.
  - rewrite (ui_off _ _ I) with (c := d) (k := k); [|rewrite (ui_open _ _ I), Sd; reflexivity|exact K]. rewrite p_C88_reply, A, Sd. reflexivity.
Qed.

Lemma p_C89_same_datagram_partial : forall h c u, there h c = true -> u <> ""%string ->
  usend (urun (UOffline c :: UOnline c u :: h)) u = (false, []).
Proof.
  intros h c u T U. assert (UE : String.eqb u "" = false) by (apply String.eqb_neq; exact U). rewrite p_C88_push.
  cbn [last_login logged_out]. unfold uname_is. cbn [uname]. rewrite T, UE, !String.eqb_refl, Nat.eqb_refl. cbn [andb negb].
  replace (there (UOnline c u :: h) c) with (there h c) by reflexivity. rewrite T. rewrite String.eqb_refl. reflexivity.
Qed.

Lemma p_C89_never_offline_refuted : forall h u c os, last_login h u = Some c -> logged_out h u = false ->
  (forall d, uname h d <> Some u) -> (forall d, ~ In (UOnline d u) os) ->
  last_login (os ++ h) u = Some c /\ logged_out (os ++ h) u = false /\
  (shut_down (os ++ h) = false -> exists a, from (os ++ h) c = Some a /\ usend (urun (os ++ h)) u = (true, [a])).
Proof.
  intros h u c os L N Q O.
  assert (X : last_login (os ++ h) u = Some c /\ logged_out (os ++ h) u = false /\ forall d, uname (os ++ h) d <> Some u).
  { induction os as [|o os IH]; [auto|]. destruct IH as (A & B & D). { intros d H. exact (O d (or_intror H)). }
    assert (NO : forall d, o <> UOnline d u) by (intros d E; exact (O d (or_introl E))).
    cbn [app]. destruct o as [a|d u1|d|d|d]; cbn [last_login logged_out uname].
    - auto.
    - assert (E : String.eqb u u1 = false). { apply String.eqb_neq. intros E. subst u1. exact (NO d eq_refl). }
      rewrite E. rewrite andb_false_r. cbn [andb]. split; [exact A|]. split; [exact B|]. intros d1. destruct (_ && _ && _); [|apply D].
      intros E1. inversion E1; subst u1. rewrite String.eqb_refl in E. discriminate.
    - split; [exact A|]. split; [|exact D]. unfold uname_is. destruct (uname (os ++ h) d) as [n|] eqn:E; [|rewrite andb_false_r; exact B].
      destruct (String.eqb_spec n u) as [->|E1]; [destruct (D d E)|]. rewrite andb_false_r. exact B.
    - split; [exact A|]. split; [exact B|]. intros d1. destruct (Nat.eqb d1 d); [discriminate|apply D].
    - split; [exact A|]. split; [|exact D]. unfold uname_is. destruct (uname (os ++ h) d) as [n|] eqn:E; [|rewrite andb_false_r; exact B].
      destruct (String.eqb_spec n u) as [->|E1]; [destruct (D d E)|]. rewrite andb_false_r. exact B. }
  destruct X as (A & B & D). split; [exact A|]. split; [exact B|]. intros Sd. pose proof (login_there _ _ _ A) as T. unfold there in T. apply Nat.ltb_lt in T.
  unfold from. destruct (nth_error (arrived (os ++ h)) c) as [a|] eqn:E; [|apply nth_error_None in E; lia]. exists a. split; [reflexivity|].
  rewrite p_C88_push, A, B, Sd. unfold from. rewrite E. reflexivity.
Qed.
