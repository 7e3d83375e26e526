(* C123: the url-pattern example. *)
From Coq Require Export Permutation.
From Verif Require Export SpecLogin EndProofs TalkProofs.
From Verif Require Import Demo.

Lemma login_plan_url u : plan_of (ByURL u) login_server = if String.eqb u "/login/" then RunChain [User 1] else Unrouted.
Proof.
  let v := eval vm_compute in login_server in change login_server with v. unfold plan_of, plan_url. cbn -[String.eqb].
  destruct (String.eqb_spec u "/login/") as [->|N]; reflexivity.
Qed.
Lemma login_plan_id id : plan_of (ById id) login_server = Unrouted.
Proof. let v := eval vm_compute in login_server in change login_server with v. unfold plan_of, plan_id. cbn -[Z.eqb]. reflexivity. Qed.
Lemma login_plan_none : plan_of ByNothing login_server = Unrouted.
Proof. reflexivity. Qed.

Section P.
  Context {V : Type} (E : env V) (zero token : V).
  Notation hc := (e_hdr E).
  Notation lrun := (lrun_ E zero token).

  Lemma router_ctxs c w : w_ctxs (snd (RouterType hc c w)) = w_ctxs w.
  Proof. unfold RouterType. destruct (routerType hc c w) as [[t []]| |]; reflexivity. Qed.
  Lemma route_world c w : snd (route hc c w) = snd (RouterType hc c w).
  Proof.
    unfold route. destruct (RouterType hc c w) as [[t| |] w1] eqn:R; auto. destruct (String.eqb t MESSAGEID); auto.
    rewrite (RouterType_again hc c w t w1 R). destruct (String.eqb t URLPATTERN); auto.
  Qed.
  Lemma route_url c w u : fst (route hc c w) = Ok (ByURL u) -> URLPatternOf hc (c_stream c) = Ok u.
  Proof.
    unfold route. destruct (RouterType hc c w) as [[t|e|] w1] eqn:R; try discriminate. destruct (String.eqb t MESSAGEID).
    { destruct (MessageIDOf (c_stream c)); discriminate. }
    rewrite (RouterType_again hc c w t w1 R). destruct (String.eqb t URLPATTERN); [|discriminate].
    cbn [fst]. destruct (URLPatternOf hc (c_stream c)); congruence.
  Qed.
  Lemma step_router q y c : nth_error (w_ctxs (crun hc q)) y = Some c -> crun hc (CRouter y :: q) = snd (route hc c (crun hc q)).
  Proof. intros H. rewrite route_world. cbn [crun cstep]. unfold on. rewrite H. reflexivity. Qed.
  Lemma step_url q y c : nth_error (w_ctxs (crun hc q)) y = Some c -> crun hc (CURL y :: q) = snd (GetURLPattern hc c (crun hc q)).
  Proof. intros H. cbn [crun cstep]. unfold on. rewrite H. reflexivity. Qed.
  Lemma ctx_router q y c : nth_error (w_ctxs (crun hc q)) y = Some c -> nth_error (w_ctxs (crun hc (CRouter y :: q))) y = Some c.
  Proof. intros H. rewrite (step_router q y c H), route_world, router_ctxs. exact H. Qed.

  (* the calls a run of the server amounts to *)
  Definition server_op (o : cop) : bool := match o with CAccept | CRead _ _ | CRouter _ | CURL _ => true | _ => false end.
  Record calls_of (h : list lev_) (s : lsrv) (q : list cop) : Prop := {
    co_world : lv_w s = crun hc q;
    co_ops : forallb server_op q = true;
    co_len : List.length (born q) = List.length (made h);
    co_conns : forall k x, nth_error (lv_conns s) k = Some x -> nth_error (born q) x = Some Root;
    co_distinct : NoDup (lv_conns s);
    co_msg : forall y k m, message_of h y k m -> exists x, nth_error (lv_conns s) k = Some x /\ nth_error (born q) y = Some (Req x) /\ stream_of q y = m;
    co_reads : forall x m, read_on q x m -> exists k, nth_error (lv_conns s) k = Some x /\ In (GRead k m) h;
    co_urls : forall x, val hc q (SConn x) (KStr "url_pattern") = None \/ val hc q (SConn x) (KStr "url_pattern") = Some (VStr "/login/") }.

  Lemma no_reset q y : forallb server_op q = true -> was_reset q y = false.
  Proof. induction q as [|o q IH]; auto. cbn [forallb]. intros H. apply andb_true_iff in H as (A & B). destruct o; try discriminate; cbn [was_reset]; auto. Qed.
  Lemma no_names q k o : forallb server_op q = true -> In o q -> names_key k o = false.
  Proof. intros H I. rewrite forallb_forall in H. specialize (H o I). destruct o; try discriminate; reflexivity. Qed.
  Lemma ctx_at q y wh : nth_error (born q) y = Some wh -> exists c, nth_error (w_ctxs (crun hc q)) y = Some c.
  Proof. intros H. apply ctx_born. apply exists_ctx_iff. rewrite H. discriminate. Qed.
  Lemma ctx_count q : List.length (w_ctxs (crun hc q)) = List.length (born q).
  Proof.
    assert (A : forall y, nth_error (w_ctxs (crun hc q)) y = None <-> nth_error (born q) y = None).
    { intros y. split; intros H; [destruct (nth_error (born q) y) eqn:B; auto; destruct (ctx_at q y _ B); congruence|].
      destruct (nth_error (w_ctxs (crun hc q)) y) as [c|] eqn:B; auto. assert (X : exists_ctx q y = true) by (apply (ctx_born hc); eauto).
      apply exists_ctx_iff in X. contradiction. }
    pose proof (proj1 (A (List.length (w_ctxs (crun hc q)))) (proj2 (nth_error_None _ _) (le_n _))) as X.
    pose proof (proj2 (A (List.length (born q))) (proj2 (nth_error_None _ _) (le_n _))) as Y.
    apply nth_error_None in X, Y. lia.
  Qed.
  Lemma read_here o q x m : read_on (o :: q) x m -> (exists y, o = CRead y m /\ conn_of q y = Some x) \/ read_on q x m.
  Proof.
    intros (l & e & y & H & C). destruct l as [|o' l]; cbn [app] in H; injection H as -> ->; [left; eauto|right]. exists l, e, y. auto.
  Qed.

  (* handling one message *)
  Lemma login_handle_calls h s q y k m c : calls_of h s q -> message_of h y k m -> nth_error (w_ctxs (lv_w s)) y = Some c ->
    exists q', snd (login_handle E zero token c (lv_w s)) = crun hc (q' ++ q) /\ Forall (fun o => o = CRouter y \/ o = CURL y) q' /\
      (forall x, val hc (q' ++ q) (SConn x) (KStr "url_pattern") = None \/ val hc (q' ++ q) (SConn x) (KStr "url_pattern") = Some (VStr "/login/")) /\
      fst (login_handle E zero token c (lv_w s)) =
        match fst (route hc c (lv_w s)) with
        | Ok (ByURL u) => if String.eqb u "/login/" then
            match PackxUnpack E (JsonMarshaller E) m (Some zero), MessagePack E (NewURLPatternMessage "/login/" (Some token)) (Some (JsonMarshaller E)) with
            | Ok _, Ok b => [b] | _, _ => [] end else []
        | _ => []
        end.
  Proof.
    intros [W O L Cn Di M R U] Hm Hc. rewrite W in *. destruct (M y k m Hm) as (x & Kx & By & Sy).
    pose proof (proj2 (proj2 (stores_exact hc q y c k_url Hc))) as Sc. rewrite Sy in Sc.
    assert (Rv : forall x0, val hc (CRouter y :: q) (SConn x0) (KStr "url_pattern") = val hc q (SConn x0) (KStr "url_pattern")).
    { intros x0. cbn [val]. cbv zeta. replace (keqb (KStr "url_pattern") (KStr "router_type")) with false by reflexivity. rewrite andb_false_r. reflexivity. }
    assert (One : forall l, exists q', crun hc (CRouter y :: q) = crun hc (q' ++ q) /\ Forall (fun o => o = CRouter y \/ o = CURL y) q' /\
      (forall x, val hc (q' ++ q) (SConn x) (KStr "url_pattern") = None \/ val hc (q' ++ q) (SConn x) (KStr "url_pattern") = Some (VStr "/login/")) /\ l = (l : list bytes)).
    { intros l. exists [CRouter y]. cbn [app]. repeat split; auto. intros x0. rewrite Rv. auto. }
    unfold login_handle. destruct (route hc c (crun hc q)) as (rt, w1) eqn:Er.
    assert (W1 : w1 = crun hc (CRouter y :: q)) by (rewrite (step_router q y c Hc), Er; reflexivity).
    subst w1. cbn [fst snd]. destruct rt as [rt|e|]; [|apply One|apply One].
    destruct rt as [id|u|]; [rewrite login_plan_id; apply One| |rewrite login_plan_none; apply One].
    rewrite login_plan_url. destruct (String.eqb_spec u "/login/") as [->|N]; [|apply One].
    assert (Up : URLPatternOf hc m = Ok "/login/"%string) by (rewrite <- Sc; apply (route_url c (crun hc q)); rewrite Er; reflexivity).
    unfold login_handler, Bind. rewrite Sc. destruct (PackxUnpack E (JsonMarshaller E) m (Some zero)) as [mm|e|] eqn:Um; [|apply One|apply One].
    pose proof (ctx_router q y c Hc) as Hc1. unfold JSONURLPattern, reply_url.
    assert (G : fst (GetURLPattern hc c (crun hc (CRouter y :: q))) = Ok "/login/"%string).
    { destruct (GetURL_exact hc _ y c Hc1) as (sl & Hs & ->). replace (stream_of (CRouter y :: q) y) with m by (symmetry; exact Sy). rewrite Up.
      assert (sl = SConn x) as ->. { unfold req_slot in Hs. cbn [born was_reset] in Hs. rewrite By, (no_reset q y O) in Hs. congruence. }
      rewrite Rv. destruct (U x) as [->| ->]; reflexivity. }
    destruct (GetURLPattern hc c (crun hc (CRouter y :: q))) as (g, w2) eqn:Eg. cbn [fst] in G. subst g.
    assert (W2 : w2 = crun hc (CURL y :: CRouter y :: q)) by (rewrite (step_url _ y c Hc1), Eg; reflexivity).
    subst w2. exists [CURL y; CRouter y]. cbn [app snd fst]. split; [reflexivity|]. split; [auto|]. split.
    - intros x0. cbn [val]. cbv zeta. replace (keqb (KStr "url_pattern") (KStr "router_type")) with false by reflexivity. rewrite !andb_false_r.
      destruct (is_slot (req_slot (CRouter y :: q) y) (SConn x0)); [|apply U]. replace (keqb (KStr "url_pattern") (KStr "url_pattern")) with true by reflexivity. cbn [andb].
      replace (stream_of (CRouter y :: q) y) with m by (symmetry; exact Sy). rewrite Up. destruct (U x0) as [->| ->]; cbn [is_string negb]; auto.
    - unfold send. destruct (MessagePack E (NewURLPatternMessage "/login/" (Some token)) (Some (JsonMarshaller E))); reflexivity.
  Qed.

  Lemma made_app e p : exists l, made (e :: p) = made p ++ l.
  Proof. destruct e; cbn [made]; eauto. exists []. symmetry. apply app_nil_r. Qed.
  Lemma message_mono e p y k m : message_of p y k m -> message_of (e :: p) y k m.
  Proof. unfold message_of. intros H. destruct (made_app e p) as (l & ->). rewrite nth_error_app1; auto. apply nth_error_Some. congruence. Qed.
  Lemma message_back e p y k m k' m' : message_of (e :: p) y k m -> message_of p y k' m' -> k = k' /\ m = m'.
  Proof. intros A B. apply (message_mono e) in B. unfold message_of in *. split; congruence. Qed.
  Lemma message_new e p y k m : message_of (e :: p) y k m -> message_of p y k m \/ (e = GRead k m /\ y = List.length (made p)).
  Proof.
    unfold message_of. intros H. destruct e as [|k' m'|i]; cbn [made] in H; auto.
    - apply nth_snoc in H as [H|(_ & H)]; [auto|discriminate].
    - apply nth_snoc in H as [H|(-> & H)]; [auto|]. injection H as -> ->. auto.
  Qed.

  (* jobs and messages *)
  Record work_of (h : list lev_) (s : lsrv) : Prop := {
    wo_len : List.length (lv_jobs s) = List.length (came h);
    wo_job : forall i y, nth_error (lv_jobs s) i = Some (Some y) -> nth_error (came h) i = Some y /\ ~ In y (handled_ h);
    wo_done : forall i y, nth_error (came h) i = Some y -> nth_error (lv_jobs s) i = Some None -> In y (handled_ h);
    wo_came : forall y, In y (came h) <-> exists k m, message_of h y k m;
    wo_sub : forall y, In y (handled_ h) -> In y (came h);
    wo_nodup : NoDup (came h);
    wo_once : NoDup (handled_ h) }.

  Lemma calls_all h : forall s, lrun h = Some s -> (exists q, calls_of h s q) /\ work_of h s.
  Proof.
    induction h as [|e h IH]; intros s H.
    { inversion H; subst. split.
      - exists []. constructor; cbn; auto; try (intros [|?]; discriminate); try (intros [|?] ? ?; discriminate); try constructor.
        intros x m (l & r & y & X & _). destruct l; discriminate.
      - constructor; cbn [lsrv0 lv_jobs came handled_]; [reflexivity|intros [|?] ?; discriminate|intros [|?] ?; discriminate| |intros ? []|constructor|constructor].
        intros y. split; [intros []|]. intros (k & m & X). destruct y; discriminate. }
    cbn [lrun_] in H. destruct (lrun h) as [s1|] eqn:Es; [|discriminate]. destruct (IH s1 eq_refl) as ((q & C) & Wk). clear IH.
    pose proof C as [W O L Cn Di M R U]. pose proof Wk as [Wl Wj Wd Wc Ws Wn Wo].
    destruct e as [|k m|i]; cbn [lstep_] in H.
    - inversion H; subst. clear H. split.
      + exists (CAccept :: q). constructor; cbn [lv_w lv_conns].
        * cbn [crun cstep]. rewrite W. reflexivity.
        * exact O.
        * cbn [born made]. rewrite !app_length, L. reflexivity.
        * intros k x Hx. cbn [born]. apply nth_snoc in Hx as [Hx|(-> & ->)].
          -- apply Cn in Hx. rewrite nth_error_app1; auto. apply nth_error_Some. congruence.
          -- rewrite W, ctx_count. apply nth_snoc_last.
        * rewrite W, ctx_count.
          assert (F : ~ In (List.length (born q)) (lv_conns s1)).
          { intros I. apply In_nth_error in I as (k & Hk). apply Cn in Hk. assert (X : nth_error (born q) (List.length (born q)) = None) by (apply nth_error_None; lia). congruence. }
          clear - Di F. induction (lv_conns s1) as [|a l IH]; cbn [app]; [constructor; [intros []|constructor]|]. inversion Di; subst.
          constructor; [rewrite in_app_iff; intros [X|[X|[]]]; [contradiction|apply F; left; auto]|]. apply IH; auto. intros X. apply F. right; auto.
        * intros y k m Hm. apply message_new in Hm as [Hm|(X & _)]; [|discriminate]. destruct (M y k m Hm) as (x & A & B & D). exists x. split; [|split].
          -- rewrite nth_error_app1; auto. apply nth_error_Some. congruence.
          -- cbn [born]. rewrite nth_error_app1; auto. apply nth_error_Some. congruence.
          -- exact D.
        * intros x m Hr. apply read_here in Hr as [(y & X & _)|Hr]; [discriminate|]. destruct (R x m Hr) as (k & A & B). exists k. split; [|right; auto].
          rewrite nth_error_app1; auto. apply nth_error_Some. congruence.
        * exact U.
      + constructor; cbn [lv_jobs came handled_]; auto. intros y. rewrite Wc. split; intros (k & m & X); exists k, m.
        * apply message_mono; auto.
        * apply message_new in X as [X|(X & _)]; [auto|discriminate].
    - destruct (nth_error (lv_conns s1) k) as [x|] eqn:Kx; [|discriminate]. inversion H; subst. clear H. pose proof (Cn k x Kx) as Bx. split.
      + exists (CRead x m :: q). assert (Bo : born (CRead x m :: q) = born q ++ [Req x]) by (cbn [born]; rewrite Bx; reflexivity).
        constructor; cbn [lv_w lv_conns].
        * cbn [crun]. rewrite W. reflexivity.
        * exact O.
        * rewrite Bo. cbn [made]. rewrite !app_length, L. reflexivity.
        * intros k' x' Hx. apply Cn in Hx. rewrite Bo, nth_error_app1; auto. apply nth_error_Some. congruence.
        * exact Di.
        * intros y k' m' Hm. apply message_new in Hm as [Hm|(X & ->)].
          -- destruct (M y k' m' Hm) as (x' & A & B & D). exists x'. split; [auto|]. split; [rewrite Bo, nth_error_app1; auto; apply nth_error_Some; congruence|].
             cbn [stream_of]. rewrite Bx. assert (Y : (y < List.length (born q))%nat) by (apply nth_error_Some; congruence).
             destruct (Nat.eqb_spec y (List.length (born q))); [lia|]. destruct (Nat.eqb_spec y x) as [->|]; [congruence|]. exact D.
          -- injection X as <- <-. exists x. split; auto. rewrite Bo, <- L. split; [apply nth_snoc_last|]. cbn [stream_of]. rewrite Bx, Nat.eqb_refl. reflexivity.
        * intros x' m' Hr. apply read_here in Hr as [(y & X & Cy)|Hr].
          -- injection X as <- <-. unfold conn_of in Cy. rewrite Bx in Cy. injection Cy as <-. exists k. split; auto. left; auto.
          -- destruct (R x' m' Hr) as (k' & A & B). exists k'. split; auto. right; auto.
        * exact U.
      + assert (Nc : List.length (w_ctxs (lv_w s1)) = List.length (made h)) by (rewrite W, ctx_count; exact L).
        assert (Fr : ~ In (List.length (made h)) (came h)).
        { intros X. apply Wc in X as (k' & m' & X). unfold message_of in X. assert (nth_error (made h) (List.length (made h)) = None) by (apply nth_error_None; lia). congruence. }
        constructor; cbn [lv_jobs came handled_]; rewrite ?Nc.
        * rewrite !app_length, Wl. reflexivity.
        * intros i y Hy. apply nth_snoc in Hy as [Hy|(-> & X)].
          -- destruct (Wj i y Hy) as (A & B). split; auto. rewrite nth_error_app1; auto. apply nth_error_Some. congruence.
          -- injection X as ->. rewrite Wl. split; [apply nth_snoc_last|]. intros I. apply Fr. auto.
        * intros i y Hy Hn. apply nth_snoc in Hn as [Hn|(_ & X)]; [|discriminate]. apply (Wd i y); auto.
          rewrite nth_error_app1 in Hy; auto. rewrite <- Wl. apply nth_error_Some. congruence.
        * intros y. rewrite in_app_iff, Wc. split.
          -- intros [(k' & m' & X)|[<-|[]]]; [exists k', m'; apply message_mono; auto|]. exists k, m. unfold message_of. cbn [made]. apply nth_snoc_last.
          -- intros (k' & m' & X). apply message_new in X as [X|(_ & ->)]; [left; eauto|right; left; auto].
        * intros y I. rewrite in_app_iff. auto.
        * clear - Wn Fr. induction (came h) as [|a l IH]; cbn [app]; [constructor; [intros []|constructor]|]. inversion Wn; subst.
          constructor; [rewrite in_app_iff; intros [X|[X|[]]]; [contradiction|apply Fr; left; auto]|]. apply IH; auto. intros X. apply Fr. right; auto.
        * exact Wo.
    - destruct (nth_error (lv_jobs s1) i) as [[y|]|] eqn:Ji; try discriminate. destruct (Wj i y Ji) as (Cy & Ny).
      destruct (nth_error (w_ctxs (lv_w s1)) y) as [c|] eqn:Hc; [|discriminate].
      destruct (proj1 (Wc y) (nth_error_In _ _ Cy)) as (k & m & Hm).
      destruct (login_handle_calls h s1 q y k m c C Hm Hc) as (q' & Wq & Fq & Uq & _).
      destruct (login_handle E zero token c (lv_w s1)) as (bs, w) eqn:El. cbn [snd] in Wq. inversion H; subst. clear H.
      assert (Same : forall q', Forall (fun o => o = CRouter y \/ o = CURL y) q' -> forallb server_op (q' ++ q) = true /\ born (q' ++ q) = born q /\
        (forall z, stream_of (q' ++ q) z = stream_of q z) /\ (forall x m, read_on (q' ++ q) x m -> read_on q x m)).
      { clear - O. intros q' F. induction q' as [|o q' IH]; [cbn [app]; auto|]. inversion F; subst. destruct (IH H2) as (A & B & D & G). cbn [app].
        destruct H1 as [-> | ->]; cbn [forallb server_op born stream_of andb]; repeat split; auto;
          intros x m Hr; apply read_here in Hr as [(z & X & _)|Hr]; try discriminate; auto. }
      destruct (Same q' Fq) as (So & Sb & Ss & Sr). split.
      + exists (q' ++ q). constructor; cbn [lv_w lv_conns]; auto.
        * rewrite Sb. exact L.
        * rewrite Sb. exact Cn.
        * intros z k' m' Hz. change (message_of (GRun i :: h) z k' m') with (message_of h z k' m') in Hz. destruct (M z k' m' Hz) as (x & A & B & D). exists x. rewrite Sb, Ss. auto.
        * intros x m' Hr. destruct (R x m' (Sr x m' Hr)) as (k' & A & B). exists k'. split; auto. right; auto.
      + constructor; cbn [lv_jobs came handled_]; rewrite ?Cy.
        * rewrite upd_length. exact Wl.
        * intros j z Hz. rewrite nth_upd in Hz. destruct (Nat.eqb_spec j i) as [->|Nj]; [rewrite Ji in Hz; discriminate|]. destruct (Wj j z Hz) as (A & B). split; auto.
          intros [->|I]; [|contradiction]. apply Nj. apply (proj1 (NoDup_nth_error (came h)) Wn j i); [apply nth_error_Some; congruence|congruence].
        * intros j z Cz Hz. rewrite nth_upd in Hz. destruct (Nat.eqb_spec j i) as [->|Nj]; [left; congruence|right; eauto].
        * exact Wc.
        * intros z [<-|I]; auto. eapply nth_error_In; eauto.
        * exact Wn.
        * constructor; auto.
  Qed.

  Lemma routed_own h s q y k m c id hd : calls_of h s q -> message_of h y k m -> nth_error (w_ctxs (lv_w s)) y = Some c ->
    only_patterns E h k -> is_message hc m id hd -> fst (route hc c (lv_w s)) = Ok (asked_routing hd id).
  Proof.
    intros [W O L Cn Di M R U] Hm Hc Op Im. rewrite W in *. destruct (M y k m Hm) as (x & Kx & By & Sy).
    apply (p_C70_routed_by_own_header hc q y x c "URL_PATTERN" id hd); auto.
    - apply no_reset; auto.
    - intros m' Hr. destruct (R x m' Hr) as (k' & Kx' & I). assert (k' = k) as ->.
      { apply (proj1 (NoDup_nth_error _) Di k' k); [apply nth_error_Some; congruence|congruence]. }
      apply Op. exact I.
    - intros o z I _ _. apply (no_names q); auto.
    - rewrite Sy. exact Im.
  Qed.

  Lemma sent_facts h : forall s, lrun h = Some s ->
    NoDup (map fst (lv_sent s)) /\
    (forall y b, In (y, b) (lv_sent s) -> token_block E token b /\ In y (handled_ h) /\
       exists k m, message_of h y k m /\ URLPatternOf hc m = Ok "/login/"%string /\ decodes E zero m) /\
    (forall y k m b, In y (handled_ h) -> message_of h y k m -> only_patterns E h k -> asks_login E m -> decodes E zero m -> token_block E token b -> In (y, b) (lv_sent s)).
  Proof.
    induction h as [|e h IH]; intros s H.
    { inversion H; subst. split; [constructor|]. split; [intros y b []|intros y k m b []]. }
    cbn [lrun_] in H. destruct (lrun h) as [s1|] eqn:Es; [|discriminate]. destruct (IH s1 eq_refl) as (N & S1 & S2). clear IH.
    destruct (calls_all h s1 Es) as ((q & C) & Wk). pose proof Wk as [Wl Wj Wd Wc Ws Wn Wo].
    assert (Op : forall k, only_patterns E (e :: h) k -> only_patterns E h k) by (intros k X m I; apply X; right; exact I).
    assert (Hb : forall y k m, In y (handled_ h) -> message_of (e :: h) y k m -> message_of h y k m).
    { intros y k m I Hm. destruct (proj1 (Wc y) (Ws y I)) as (k' & m' & Hm'). destruct (message_back e h y k m k' m' Hm Hm') as (-> & ->). exact Hm'. }
    assert (S1' : forall y b, In (y, b) (lv_sent s1) -> token_block E token b /\ In y (handled_ h) /\
       exists k m, message_of (e :: h) y k m /\ URLPatternOf hc m = Ok "/login/"%string /\ decodes E zero m).
    { intros y b I. destruct (S1 y b I) as (A & B & k & m & D & F). split; auto. split; auto. exists k, m. split; auto. apply message_mono; auto. }
    assert (Old : forall y k m b, In y (handled_ h) -> message_of (e :: h) y k m -> only_patterns E (e :: h) k -> asks_login E m -> decodes E zero m -> token_block E token b -> In (y, b) (lv_sent s1)).
    { intros y k m b I Hm O' A D T. apply (S2 y k m b); auto. }
    destruct e as [|k m|i]; cbn [lstep_] in H.
    - inversion H; subst. cbn [lv_sent handled_]. auto.
    - destruct (nth_error (lv_conns s1) k); [|discriminate]. inversion H; subst. cbn [lv_sent handled_]. auto.
    - destruct (nth_error (lv_jobs s1) i) as [[y|]|] eqn:Ji; try discriminate. destruct (Wj i y Ji) as (Cy & Ny).
      destruct (nth_error (w_ctxs (lv_w s1)) y) as [c|] eqn:Hc; [|discriminate].
      destruct (proj1 (Wc y) (nth_error_In _ _ Cy)) as (k & m & Hm).
      destruct (login_handle_calls h s1 q y k m c C Hm Hc) as (_ & _ & _ & _ & Fo).
      destruct (login_handle E zero token c (lv_w s1)) as (bs, w) eqn:El. cbn [fst] in Fo. inversion H; subst s. clear H. cbn [lv_sent handled_]. rewrite Cy.
      assert (Ns : ~ In y (map fst (lv_sent s1))). { intros I. apply in_map_iff in I as ((y' & b) & X & I). cbn in X. subst y'. apply Ny. apply (S1 y b I). }
      destruct C as [W O L Cn Di M R U]. destruct (M y k m Hm) as (x & Kx & By & Sy). assert (Sc : c_stream c = m) by (rewrite W in Hc; rewrite <- Sy; apply (stores_exact hc q y c k_url Hc)).
      assert (Cs : {b | bs = [b] /\ token_block E token b /\ URLPatternOf hc m = Ok "/login/"%string /\ decodes E zero m} + {bs = []}).
      { destruct (fst (route hc c (lv_w s1))) as [[id|u|]|e|] eqn:Er; auto. destruct (String.eqb_spec u "/login/") as [->|]; auto.
        unfold decodes, token_block. destruct (PackxUnpack E (JsonMarshaller E) m (Some zero)) as [mm|e|]; auto.
        destruct (MessagePack E (NewURLPatternMessage "/login/" (Some token)) (Some (JsonMarshaller E))) as [b|e|]; auto. left. exists b. repeat split; auto; [|eauto].
        rewrite <- Sc. apply (route_url c (lv_w s1)). exact Er. }
      split; [|split].
      + destruct Cs as [(b & -> & _)| ->]; cbn [map app]; auto. constructor; auto.
      + intros z b I. rewrite in_app_iff in I. destruct I as [I|I].
        * destruct Cs as [(b' & -> & T & D)| ->]; [|destruct I]. destruct I as [I|[]]. injection I as <- <-. split; auto. split; [left; auto|]. exists k, m. split; auto.
        * destruct (S1' z b I) as (A & B & D). split; auto. split; [right; auto|exact D].
      + intros z k' m' b I Hz Oz Az Dz Tz. rewrite in_app_iff. destruct I as [<-|I]; [left|right; apply (Old z k' m' b); auto].
        destruct (message_back (GRun i) h y k' m' k m Hz Hm) as (-> & ->). destruct Az as (id & hd & Im & Ar).
        rewrite (routed_own h s1 q y k m c id hd) in Fo; auto; [|constructor; auto]. rewrite Ar in Fo. cbn [String.eqb] in Fo.
        destruct Dz as (mm & Dz). rewrite Dz, Tz in Fo. cbn in Fo. rewrite Fo. left. reflexivity.
  Qed.
End P.

Lemma asks_of {V} (E : env V) m id hd : is_message (e_hdr E) m id hd -> asked_type hd = "URL_PATTERN"%string -> URLPatternOf (e_hdr E) m = Ok "/login/"%string -> asks_login E m.
Proof.
  intros Im T U. exists id, hd. split; auto. destruct (is_message_header _ _ _ _ Im) as (A & _). rewrite (url_of_header _ _ _ A) in U.
  unfold asked_type in T. unfold asked_routing. destruct (hget "Router-Type" hd) as [[| | | |t| |]|]; try discriminate. subst t. cbn [String.eqb Ascii.eqb Bool.eqb].
  destruct (hget "Router-Pattern-Value" hd) as [[| | | |u| |]|]; try discriminate. injection U as ->. reflexivity.
Qed.
Lemma pattern_of_asks {V} (E : env V) m : asks_login E m -> exists id hd, is_message (e_hdr E) m id hd /\ asked_type hd = "URL_PATTERN"%string.
Proof.
  intros (id & hd & Im & A). exists id, hd. split; auto. unfold asked_routing in A. unfold asked_type.
  destruct (hget "Router-Type" hd) as [[| | | |t| |]|]; try discriminate. destruct (String.eqb_spec t "URL_PATTERN"); auto. destruct (String.eqb t "MESSAGE_ID"); discriminate.
Qed.

Lemma p_C123_answers : forall {V} (E : env V) zero token h s, lrun_ E zero token h = Some s ->
  NoDup (map fst (lv_sent s)) /\
  forall y b, In (y, b) (lv_sent s) -> token_block E token b /\ In y (handled_ h) /\
    exists k m, message_of h y k m /\ URLPatternOf (e_hdr E) m = Ok "/login/"%string /\ decodes E zero m.
Proof. intros V E zero token h s H. destruct (sent_facts E zero token h s H) as (A & B & _). auto. Qed.

Lemma p_C123_logins_answered_partial : forall {V} (E : env V) zero token h s y k m b,
  lrun_ E zero token h = Some s -> message_of h y k m -> only_patterns E h k -> token_block E token b ->
  (In (y, b) (lv_sent s) <-> In y (handled_ h) /\ asks_login E m /\ decodes E zero m).
Proof.
  intros V E zero token h s y k m b H Hm Op T. destruct (sent_facts E zero token h s H) as (_ & A & B). split.
  - intros I. destruct (A y b I) as (_ & Hh & k' & m' & Hm' & U & D). unfold message_of in *. assert (k' = k /\ m' = m) as (-> & ->) by (split; congruence). split; auto. split; auto.
    assert (Ir : In (GRead k m) h).
    { clear - Hm. induction h as [|e h IH]; [destruct y; discriminate|]. destruct (message_new e h y k m Hm) as [X|(-> & _)]; [right; auto|left; auto]. }
    destruct (Op m Ir) as (id & hd & Im & Ty). apply (asks_of E m id hd); auto.
  - intros (Hh & Al & D). apply (B y k m b); auto.
Qed.

Definition on_conn (h : list lev_) (k y : nat) : bool := match nth_error (made h) y with Some (Some (k', _)) => Nat.eqb k' k | _ => false end.
Lemma on_conn_iff h k y : on_conn h k y = true <-> exists m, message_of h y k m.
Proof.
  unfold on_conn, message_of. destruct (nth_error (made h) y) as [[(k', m)|]|]; split; try discriminate; try (intros (m' & X); discriminate).
  - intros X. apply Nat.eqb_eq in X. subst. eauto.
  - intros (m' & X). injection X as -> ->. apply Nat.eqb_refl.
Qed.
Lemma on_conn_mono e h k y : (y < List.length (made h))%nat -> on_conn (e :: h) k y = on_conn h k y.
Proof. intros L. unfold on_conn. destruct (made_app e h) as (l & ->). rewrite nth_error_app1; auto. Qed.
Lemma came_below h : Forall (fun y => (y < List.length (made h))%nat) (came h).
Proof.
  induction h as [|e h IH]; [constructor|]. assert (F : Forall (fun y => (y < List.length (made (e :: h)))%nat) (came h)).
  { eapply Forall_impl; [|exact IH]. intros y L. cbn beta in L. destruct (made_app e h) as (l & ->). rewrite app_length. lia. }
  destruct e; cbn [came]; auto. apply Forall_app. split; auto. constructor; auto. cbn [made]. rewrite app_length. cbn. lia.
Qed.
Lemma filter_came e h k : filter (on_conn (e :: h) k) (came h) = filter (on_conn h k) (came h).
Proof. pose proof (came_below h) as F. induction F; cbn [filter]; auto. rewrite on_conn_mono by auto. rewrite IHF. reflexivity. Qed.
Lemma count_came h k : List.length (filter (on_conn h k) (came h)) = messages_on h k.
Proof.
  induction h as [|e h IH]; [reflexivity|]. unfold messages_on in *. destruct e as [|k' m|i]; cbn [came filter]; rewrite ?filter_app, filter_came; auto.
  rewrite app_length, IH. cbn [filter]. unfold on_conn at 1. cbn [made]. rewrite nth_snoc_last. destruct (Nat.eqb k' k); cbn [List.length]; lia.
Qed.
Lemma filter_fst {A} (f : nat -> bool) (l : list (nat * A)) : map fst (filter (fun yb => f (fst yb)) l) = filter f (map fst l).
Proof. induction l as [|(y, b) l IH]; auto. cbn [filter map fst]. destruct (f y); cbn [map fst]; rewrite IH; reflexivity. Qed.

Lemma p_C123_one_token_each : forall {V} (E : env V) zero token h s k b,
  lrun_ E zero token h = Some s -> token_block E token b ->
  (forall m, In (GRead k m) h -> asks_login E m /\ decodes E zero m) ->
  (forall y, In y (came h) -> In y (handled_ h)) ->
  written_on h s k = repeat b (messages_on h k).
Proof.
  intros V E zero token h s k b H T Al Hd. destruct (sent_facts E zero token h s H) as (N & A & B). destruct (calls_all E zero token h s H) as (_ & [_ _ _ Wc Ws Wn _]).
  unfold written_on. change (fun yb : nat * bytes => match nth_error (made h) (fst yb) with Some (Some (k', _)) => Nat.eqb k' k | _ => false end) with (fun yb : nat * bytes => on_conn h k (fst yb)).
  assert (Op : only_patterns E h k) by (intros m I; apply pattern_of_asks; apply Al; exact I).
  assert (Rd : forall y m, message_of h y k m -> In (GRead k m) h).
  { clear. intros y m Hm. induction h as [|e h IH]; [destruct y; discriminate|]. destruct (message_new e h y k m Hm) as [X|(-> & _)]; [right; auto|left; auto]. }
  assert (P : Permutation (map fst (filter (fun yb => on_conn h k (fst yb)) (lv_sent s))) (filter (on_conn h k) (came h))).
  { apply NoDup_Permutation.
    - rewrite filter_fst. apply NoDup_filter. exact N.
    - apply NoDup_filter. exact Wn.
    - intros y. rewrite filter_fst, !filter_In. split; intros (I & O); split; auto.
      + apply in_map_iff in I as ((y', b') & X & I). cbn in X. subst y'. apply Ws. apply (A y b' I).
      + apply on_conn_iff in O as (m & Hm). destruct (Al m (Rd y m Hm)) as (L & D). change y with (fst (y, b)). apply in_map. apply (B y k m b); auto. }
  apply Permutation_length in P. rewrite map_length, count_came in P. rewrite <- P.
  assert (F : Forall (fun yb => snd yb = b) (filter (fun yb => on_conn h k (fst yb)) (lv_sent s))).
  { apply Forall_forall. intros (y, b') I. apply filter_In in I as (I & _). destruct (A y b' I) as (T' & _). unfold token_block in *. cbn. congruence. }
  clear - F. induction F as [|yb l X _ IH]; [reflexivity|]. cbn [map List.length repeat]. rewrite X, IH. reflexivity.
Qed.

Lemma token_read {V} (E : env V) token zr lr b : token_block E token b -> blen b < 2 ^ 31 ->
  hdr_roundtrips (e_hdr E) (Some [("Router-Type"%string, JStr "URL_PATTERN"); ("Router-Pattern-Value"%string, JStr "/login/")]) ->
  (forall bs, e_json E token = Ok bs -> e_unjson E bs (Some zr) = Ok lr) ->
  is_block b /\ PackTypeURLPattern E (of_bytes b) = Ok "/login/"%string /\ PackTypeBind (e_unjson E) (of_bytes b) (Some zr) = Ok lr.
Proof.
  intros T L (hb & h' & A1 & A2 & A3 & A4) Rt. unfold token_block, MessagePack in T. destruct (p_C01_pack_layout _ E _ _ b T ltac:(lia)) as (hdr & body & B1 & B2 & F).
  cbn [NewURLPatternMessage msg_id msg_header msg_body] in *. assert (I : is_int32 0) by (split; vm_compute; congruence).
  destruct (p_C03_accessors_agree 0 hdr body b [] (of_bytes b) I F L (gwf_of b)) as (_ & M & _ & _ & (r1 & R1 & R1') & (r2 & R2 & R2')).
  { rewrite app_nil_r. apply gbytes_of. }
  change (hmarshal (e_hdr E) (Some [("Router-Type"%string, JStr "URL_PATTERN"); ("Router-Pattern-Value"%string, JStr "/login/")]) = Ok hdr) in B1.
  assert (hb = hdr) as -> by congruence. split; [apply (layout_is_block 0 hdr body); auto; lia|]. split.
  - unfold PackTypeURLPattern, URLPatternOf, HeaderOf. rewrite R1. cbn [rwrap rbind]. rewrite R1', A3. cbn [rwrap rbind].
    pose proof (heq_get _ _ "Router-Pattern-Value" A4) as X. cbn in X. destruct X as (v' & X & J). inversion J as [| |? ? [->| ->]| | | |]; subst; unfold headerGetString, HEADER_ROUTER_VALUE; cbn.
    all: destruct h' as [hm|]; cbn in *; [|discriminate X]. all: destruct hm; [discriminate X|]; cbn in *; rewrite X; reflexivity.
  - cbn [body_encoding] in B2. unfold PackTypeBind. rewrite R2. cbn [rwrap rbind]. rewrite R2', (Rt body B2). reflexivity.
Qed.

Lemma p_C123_client_shows : forall {V} (E : env V) token zr lr bs ls en r j,
  hdr_roundtrips (e_hdr E) (Some [("Router-Type"%string, JStr "URL_PATTERN"); ("Router-Pattern-Value"%string, JStr "/login/")]) ->
  (forall tb, e_json E token = Ok tb -> e_unjson E tb (Some zr) = Ok lr) ->
  Forall2 (fun b l => token_block E token b /\ blen b < 2 ^ 31 /\ l = SToken lr \/
    is_block b /\ l = SOther /\ exists u, URLPatternOf (e_hdr E) (of_bytes b) = Ok u /\ u <> "/login/"%string) bs ls ->
  segmentation (concat bs) en r ->
  exists tl, login_client E zr (List.length bs + S j) r = ls ++ tl /\
    match en with StaysOpen => tl = [] | Fails e => exists e', same_failure e e' /\ tl = [SError (EWrap e')] end.
Proof.
  intros V E token zr lr bs ls en r j Hr Rt F. revert r. induction F as [|b l bs ls Hb _ IH]; intros r Hs.
  - cbn [List.length Nat.add app login_client]. assert (Bl : is_block ["000"; "000"; "000"; "000"]%char) by apply empty_block.
    assert (P : prefix_of [] ["000"; "000"; "000"; "000"]%char) by (eexists; reflexivity).
    pose proof (read_partial 0 false [] _ en r Bl ltac:(discriminate) P ltac:(discriminate) Hs) as F. cbv zeta in F. unfold FirstBlockOf.
    destruct (UnpackToBlockFromReader r) as (o & q). cbn [fst] in F. subst o. unfold sfail. destruct en as [|e]; [exists []; auto|]. eexists. split; [reflexivity|].
    eexists. split; [|reflexivity]. unfold same_failure. destruct e as [|z|s|e']; [left; auto| | |]; right; (split; [discriminate|]); exists 2%nat; (split; [reflexivity|lia]).
  - cbn [concat] in Hs. assert (Bl : is_block b) by (destruct Hb as [(T & L & _)|(Bl & _)]; [apply (token_read E token zr lr b T L Hr Rt)|exact Bl]).
    destruct (read_block_ok 0 false b (concat bs) en r Bl ltac:(discriminate) Hs) as (r1 & E1 & S1).
    destruct (IH r1 S1) as (tl & Et & Ht). exists tl. split; auto. cbn [List.length Nat.add app login_client]. unfold FirstBlockOf. rewrite E1.
    destruct Hb as [(T & L & ->)|(_ & -> & u & U & N)].
    + destruct (token_read E token zr lr b T L Hr Rt) as (_ & Up & Bd). rewrite Up. cbn [String.eqb Ascii.eqb Bool.eqb]. rewrite Bd, Et. reflexivity.
    + unfold PackTypeURLPattern. rewrite U. cbn [rwrap]. destruct (String.eqb_spec u "/login/"); [contradiction|]. rewrite Et. reflexivity.
Qed.

Lemma p_C123_token : forall {V} (E : env V) token b, token_block E token b -> blen b - 4 < 2 ^ 32 ->
  exists hdr body, hmarshal (e_hdr E) (Some [("Router-Type"%string, JStr "URL_PATTERN"); ("Router-Pattern-Value"%string, JStr "/login/")]) = Ok hdr /\
    e_json E token = Ok body /\ frame_layout 0 hdr body b.
Proof.
  intros V E token b T L. unfold token_block, MessagePack in T. destruct (p_C01_pack_layout _ E _ _ b T L) as (hdr & body & A & B & C). exists hdr, body. split; [exact A|]. split; [exact B|exact C].
Qed.

Lemma p_C123_decodes : forall {V} (E : env V) zero id hdr body hd s, gwf s -> is_int32 id -> frame_layout id hdr body (gbytes s) -> blen (gbytes s) < 2 ^ 32 ->
  hunmarshal (e_hdr E) hdr = Ok hd ->
  (decodes E zero s <-> body = [] \/ exists v, e_unjson E body (Some zero) = Ok v).
Proof.
  intros V E zero id hdr body hd s W I F L Hu. assert (Ga : gs_arr s = gbytes s ++ skipn (gs_len s) (gs_arr s)) by (unfold gbytes; symmetry; apply firstn_skipn).
  unfold decodes, PackxUnpack. split.
  - intros (m & H). apply (p_C07_unpack_frame_partial V E id hdr body _ _ s zero _ m I F L Ga) in H as (_ & _ & [(B & _)|(_ & v & B & _)]); eauto.
  - intros H. set (hm := match hdr with [] => None | _ => hd end).
    assert (Hh : hdr = [] /\ hm = None \/ hdr <> [] /\ hunmarshal (e_hdr E) hdr = Ok hm) by (destruct hdr; [left; auto|right; split; [discriminate|exact Hu]]).
    destruct body as [|a body].
    + exists (Msg id hm (Some zero)). apply (p_C07_unpack_frame_partial V E id hdr [] _ _ s zero _ _ I F L Ga). cbn [msg_id msg_header msg_body]. auto.
    + destruct H as [H|(v & H)]; [discriminate|]. exists (Msg id hm (Some v)). apply (p_C07_unpack_frame_partial V E id hdr (a :: body) _ _ s zero _ _ I F L Ga). cbn [msg_id msg_header msg_body].
      split; [reflexivity|]. split; [exact Hh|]. right. split; [discriminate|]. exists v. auto.
Qed.

Definition url_header (u : string) : header := Some [("Router-Type"%string, JStr "URL_PATTERN"); ("Router-Pattern-Value"%string, JStr u)].
Lemma url_demo_x : is_message json_hdr (of_bytes url_block) 0 (url_header "/x/").
Proof.
  split; [apply gwf_of_bytes|]. split; [split; vm_compute; congruence|]. rewrite gbytes_of_bytes. split; [vm_compute; reflexivity|].
  destruct (p_C01_pack_layout _ demo_env (NewURLPatternMessage "/x/" (Some "b"%string)) (Some (JsonMarshaller demo_env)) (url_block_of "/x/")) as (hdr & body & A & B & C); [vm_compute; reflexivity|vm_compute; reflexivity|].
  exists hdr, body. split; [exact C|]. vm_compute in A. injection A as <-. vm_compute. reflexivity.
Qed.
Lemma url_demo_login : is_message json_hdr (of_bytes (url_block_of "/login/")) 0 (url_header "/login/").
Proof.
  split; [apply gwf_of_bytes|]. split; [split; vm_compute; congruence|]. rewrite gbytes_of_bytes. split; [vm_compute; reflexivity|].
  destruct (p_C01_pack_layout _ demo_env (NewURLPatternMessage "/login/" (Some "b"%string)) (Some (JsonMarshaller demo_env)) (url_block_of "/login/")) as (hdr & body & A & B & C); [vm_compute; reflexivity|vm_compute; reflexivity|].
  exists hdr, body. split; [exact C|]. vm_compute in A. injection A as <-. vm_compute. reflexivity.
Qed.
Lemma login_demo : asks_login demo_env (of_bytes (url_block_of "/login/")).
Proof. exists 0, (url_header "/login/"). split; [apply url_demo_login|reflexivity]. Qed.

Lemma p_C123_mixed_refuted : exists (E : env string) zero token s0 s1 b,
  asks_login E s1 /\ decodes E zero s1 /\ token_block E token b /\
  (exists s, lrun_ E zero token [GRun 1; GRun 0; GRead 0 s1; GRead 0 s0; GAccept] = Some s /\ lv_sent s = []) /\
  (exists s, lrun_ E zero token [GRun 0; GRun 1; GRead 0 s1; GRead 0 s0; GAccept] = Some s /\ lv_sent s = [(2%nat, b)]).
Proof.
  exists demo_env, ""%string, "t"%string, (of_bytes id_block), (of_bytes (url_block_of "/login/")).
  eexists. split; [|split; [|split; [|split]]].
  - apply login_demo.
  - eexists. vm_compute. reflexivity.
  - vm_compute. reflexivity.
  - eexists. split; [vm_compute; reflexivity|reflexivity].
  - eexists. split; [vm_compute; reflexivity|reflexivity].
Qed.
