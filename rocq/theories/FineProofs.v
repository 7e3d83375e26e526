(* Routing with every access of the connection's map as a step (C130). *)
From Verif Require Export SpecFine EndProofs.

(* Rely and guarantee: I k v may be found under k; every store keeps I; everything said is in G. *)
Fixpoint keeps (I : ckey -> option cval -> Prop) (G : obs -> Prop) (p : prog) : Prop :=
  match p with
  | PStop => True
  | PLoad k f => forall v, I k v -> keeps I G (f v)
  | PStore k v p' => I k (Some v) /\ keeps I G p'
  | PSay o p' => G o /\ keeps I G p'
  end.

Lemma keeps_step (I : ckey -> option cval -> Prop) (G : obs -> Prop) i st : (forall k, I k (aget k (fs_map st))) -> Forall (keeps I G) (fs_gors st) -> Forall (fun e => G (snd e)) (fs_log st) ->
  let st' := fstep i st in (forall k, I k (aget k (fs_map st'))) /\ Forall (keeps I G) (fs_gors st') /\ Forall (fun e => G (snd e)) (fs_log st').
Proof.
  intros M F L. unfold fstep. cbv zeta.
  assert (U : forall q, keeps I G q -> Forall (keeps I G) (upd (fs_gors st) i q)).
  { intros q Hq. revert F. generalize (fs_gors st) as l. revert i. clear - Hq. intros i l; revert i; induction l as [|x l IH]; intros [|i] F; cbn; auto; inversion F; subst; constructor; auto. }
  destruct (nth_error (fs_gors st) i) as [p|] eqn:N; [|auto].
  assert (K : keeps I G p) by (eapply Forall_forall; [exact F|eapply nth_error_In; exact N]).
  destruct p as [|k f|k v p|o p]; cbn [fs_map fs_gors fs_log]; auto; cbn [keeps] in K.
  - destruct K as (K1 & K2). split; [|auto]. intros k'. rewrite aget_aset. destruct (keqb k' k) eqn:Q; auto. apply keqb_eq in Q. subst k'. auto.
  - destruct K as (K1 & K2). split; [auto|]. split; [auto|]. constructor; auto.
Qed.

Lemma keeps_run (I : ckey -> option cval -> Prop) (G : obs -> Prop) sched : forall st, (forall k, I k (aget k (fs_map st))) -> Forall (keeps I G) (fs_gors st) -> Forall (fun e => G (snd e)) (fs_log st) ->
  let st' := frun sched st in (forall k, I k (aget k (fs_map st'))) /\ Forall (fun e => G (snd e)) (fs_log st').
Proof.
  induction sched as [|i l IH]; intros st M F L; cbn; auto.
  destruct (keeps_step I G i st M F L) as (A & B & C). apply IH; auto.
Qed.

Lemma keeps_router hc (I : ckey -> option cval -> Prop) (G : obs -> Prop) s go t0 :
  own_router_type hc s = Ok t0 ->
  (forall t, I k_router (Some (VStr t)) -> G (ORouter s t) /\ keeps I G (go t)) ->
  (forall v, I k_router v -> (forall t, v <> Some (VStr t)) -> I k_router (Some (VStr t0))) ->
  keeps I G (RouterTypeP hc s go).
Proof.
  intros O H1 H2 v Hv. destruct v as [[t|n|n]|].
  - destruct (H1 t Hv). split; auto.
  - rewrite O. assert (X : I k_router (Some (VStr t0))) by (apply (H2 _ Hv); discriminate). destruct (H1 _ X). split; [auto|split; auto].
  - rewrite O. assert (X : I k_router (Some (VStr t0))) by (apply (H2 _ Hv); discriminate). destruct (H1 _ X). split; [auto|split; auto].
  - rewrite O. assert (X : I k_router (Some (VStr t0))) by (apply (H2 _ Hv); discriminate). destruct (H1 _ X). split; [auto|split; auto].
Qed.

Lemma keeps_url hc (I : ckey -> option cval -> Prop) (G : obs -> Prop) s go :
  URLPatternOf hc s <> Panic ->
  (forall p, I k_url (Some (VStr p)) -> G (OURL s (Ok p)) /\ keeps I G (go (Ok p))) ->
  (forall p, URLPatternOf hc s = Ok p -> I k_url (Some (VStr p))) ->
  (forall e, URLPatternOf hc s = Err e -> G (OURL s (Err (EWrap e))) /\ keeps I G (go (Err (EWrap e)))) ->
  keeps I G (GetURLPatternP hc s go).
Proof.
  intros NP H1 H2 H3 v Hv.
  assert (D : keeps I G (match URLPatternOf hc s with
             | Ok p => PStore k_url (VStr p) (PSay (OURL s (Ok p)) (go (Ok p)))
             | Err e => PSay (OURL s (Err (EWrap e))) (go (Err (EWrap e)))
             | Panic => PSay (OPanic s) PStop
             end)).
  { destruct (URLPatternOf hc s) as [p|e|] eqn:U.
    - specialize (H2 p eq_refl). destruct (H1 p H2). split; [auto|split; auto].
    - destruct (H3 e eq_refl). split; auto.
    - congruence. }
  destruct v as [[p|n|n]|]; auto. destruct (H1 p Hv). split; auto.
Qed.

(* the application stores nothing that breaks I *)
Definition sets_ok (I : ckey -> option cval -> Prop) (p : hprog) : Prop := forall k v, may_set k v p -> I k (Some v).

Lemma keeps_calls hc (I : ckey -> option cval -> Prop) (G : obs -> Prop) s t0 go : own_router_type hc s = Ok t0 -> URLPatternOf hc s <> Panic ->
  (forall v, I k_router v -> (forall t, v <> Some (VStr t)) -> I k_router (Some (VStr t0))) ->
  (forall t, I k_router (Some (VStr t)) -> G (ORouter s t)) ->
  (forall p, I k_url (Some (VStr p)) -> G (OURL s (Ok p))) ->
  (forall p, URLPatternOf hc s = Ok p -> I k_url (Some (VStr p))) ->
  (forall e, URLPatternOf hc s = Err e -> G (OURL s (Err (EWrap e)))) ->
  keeps I G go -> forall p, sets_ok I p -> keeps I G (callsP hc s p go).
Proof.
  intros O NP R1 R2 U1 U2 U3 Hg. induction p as [|k f IH|k v p IH|f IH|f IH]; intros S0; cbn [callsP]; auto.
  - intros v Hv. apply IH. intros k' v' M. apply S0. econstructor. exact M.
  - split; [apply S0; constructor|]. apply IH. intros k' v' M. apply S0. constructor. exact M.
  - eapply keeps_router; eauto. intros t Ht. split; auto. apply IH. intros k' v' M. apply S0. econstructor. exact M.
  - eapply keeps_url; eauto; intros; (split; auto; apply IH; intros k' v' M; apply S0; econstructor; exact M).
Qed.

(* what has to hold of one message's observations *)
Lemma keeps_middleware hc (I : ckey -> option cval -> Prop) (G : obs -> Prop) m id hd go :
  let s := fm_stream m in
  is_message hc s id hd ->
  (forall v, I k_router v -> (forall t, v <> Some (VStr t)) -> I k_router (Some (VStr (asked_type hd)))) ->
  (forall t, I k_router (Some (VStr t)) -> G (ORouter s t)) ->
  (forall p, I k_url (Some (VStr p)) -> G (OURL s (Ok p))) ->
  (forall p, asked_pattern hd = Some p -> I k_url (Some (VStr p))) ->
  (asked_pattern hd = None -> forall e, G (OURL s (Err e))) ->
  (I k_router (Some (VStr "MESSAGE_ID")) -> G (ORouted s (routing_by "MESSAGE_ID" hd id))) ->
  (I k_router (Some (VStr "URL_PATTERN")) -> G (ORouted s (routing_by "URL_PATTERN" hd id))) ->
  (forall t1 t2, I k_router (Some (VStr t1)) -> I k_router (Some (VStr t2)) -> t1 <> "MESSAGE_ID"%string -> t2 <> "URL_PATTERN"%string ->
     G (ORouted s ByNothing)) ->
  (forall r, sets_ok I (fm_handler m r)) ->
  keeps I G go -> keeps I G (handleMiddlewareP hc m go).
Proof.
  cbv zeta. intros M R1 R2 U1 U2 U3 A1 A2 A3 S0 Hg.
  destruct (is_message_header _ _ _ _ M) as (Hh & Hi & Hl). pose proof (is_message_type _ _ _ _ M) as O.
  pose proof (url_of_header _ _ _ Hh) as U.
  assert (NP : URLPatternOf hc (fm_stream m) <> Panic) by (rewrite U; destruct (hget "Router-Pattern-Value" hd) as [[]|]; discriminate).
  assert (U2' : forall p, URLPatternOf hc (fm_stream m) = Ok p -> I k_url (Some (VStr p))).
  { intros p Hp. apply U2. rewrite U in Hp. unfold asked_pattern. destruct (hget "Router-Pattern-Value" hd) as [[]|]; congruence. }
  assert (U3' : forall e, URLPatternOf hc (fm_stream m) = Err e -> G (OURL (fm_stream m) (Err (EWrap e)))).
  { intros e He. apply U3. rewrite U in He. unfold asked_pattern. destruct (hget "Router-Pattern-Value" hd) as [[]|]; congruence. }
  assert (C : forall r, keeps I G (callsP hc (fm_stream m) (fm_handler m r) go)).
  { intros r. eapply keeps_calls; eauto. }
  unfold handleMiddlewareP. eapply keeps_router; eauto. intros t1 H1. split; auto.
  destruct (String.eqb t1 MESSAGEID) eqn:Q1.
  - apply String.eqb_eq in Q1. subst t1. rewrite Hi. split; [apply A1; exact H1|apply C].
  - eapply keeps_router; eauto. intros t2 H2. split; auto. destruct (String.eqb t2 URLPATTERN) eqn:Q2.
    + apply String.eqb_eq in Q2. subst t2. specialize (A2 H2). unfold routing_by in A2. cbn in A2. rewrite U.
      destruct (hget "Router-Pattern-Value" hd) as [[]|]; (split; [exact A2|first [exact Hg|apply C]]).
    + eapply keeps_router; eauto. intros t3 H3. split; auto. split; [|exact Hg]. apply (A3 t1 t2); auto.
      * intros ->. discriminate.
      * intros ->. discriminate.
Qed.

Lemma keeps_gors hc (I : ckey -> option cval -> Prop) (G : obs -> Prop) gs :
  all_messages hc gs ->
  (forall k v, app_sets gs k v -> I k (Some v)) ->
  (forall s id hd, carried gs s -> is_message hc s id hd ->
     (forall v, I k_router v -> (forall t, v <> Some (VStr t)) -> I k_router (Some (VStr (asked_type hd)))) /\
     (forall p, asked_pattern hd = Some p -> I k_url (Some (VStr p))) /\
     (I k_router (Some (VStr "MESSAGE_ID")) -> G (ORouted s (routing_by "MESSAGE_ID" hd id))) /\
     (I k_router (Some (VStr "URL_PATTERN")) -> G (ORouted s (routing_by "URL_PATTERN" hd id))) /\
     (forall t1 t2, I k_router (Some (VStr t1)) -> I k_router (Some (VStr t2)) -> t1 <> "MESSAGE_ID"%string -> t2 <> "URL_PATTERN"%string ->
       G (ORouted s ByNothing)) /\
     (asked_pattern hd = None -> forall e, G (OURL s (Err e)))) ->
  (forall s t, carried gs s -> I k_router (Some (VStr t)) -> G (ORouter s t)) ->
  (forall s p, carried gs s -> I k_url (Some (VStr p)) -> G (OURL s (Ok p))) ->
  Forall (keeps I G) (map (gorP hc) gs).
Proof.
  intros AM AS H R U. apply Forall_forall. intros p Hp. apply in_map_iff in Hp. destruct Hp as (g & <- & Hg). destruct g as [l|s p].
  - assert (X : forall l', incl l' l -> keeps I G (handlePipeP hc l')).
    { induction l' as [|m l' IH]; intros Inc; cbn [handlePipeP]; [exact Logic.I|].
      assert (Cm : carried gs (fm_stream m)). { exists (GMessages l). split; auto. exists m. split; auto. apply Inc. left. auto. }
      destruct (AM _ Cm) as (id & hd & M). destruct (H _ _ _ Cm M) as (H1 & H2 & H3 & H4 & H5 & H6).
      eapply keeps_middleware; eauto.
      - intros r k v Hm. apply AS. exists (GMessages l). split; auto. exists m, r. split; auto. apply Inc. left. auto.
      - apply IH. intros x Hx. apply Inc. right. auto. }
    apply X. intros x Hx. exact Hx.
  - assert (Cm : carried gs s) by (exists (GApp s p); split; auto).
    destruct (AM _ Cm) as (id & hd & M). destruct (H _ _ _ Cm M) as (H1 & H2 & _ & _ & _ & H6).
    destruct (is_message_header _ _ _ _ M) as (Hh & Hi & Hl). pose proof (url_of_header _ _ _ Hh) as U0.
    cbn [gorP]. eapply keeps_calls; eauto.
    + eapply is_message_type; eauto.
    + rewrite U0. destruct (hget "Router-Pattern-Value" hd) as [[]|]; discriminate.
    + intros q Hq. apply H2. rewrite U0 in Hq. unfold asked_pattern. destruct (hget "Router-Pattern-Value" hd) as [[]|]; congruence.
    + intros e He. apply H6. rewrite U0 in He. unfold asked_pattern. destruct (hget "Router-Pattern-Value" hd) as [[]|]; congruence.
    + exact Logic.I.
    + intros k v Hm. apply AS. exists (GApp s p). split; auto.
Qed.

Lemma p_C130_uniform_partial : forall hc gs t sched, all_of_type hc gs t -> app_leaves gs (KStr "router_type") ->
  forall i o, In (i, o) (fs_log (frun sched (fstart hc [] gs))) ->
  match o with
  | ORouter _ t' => t' = t
  | ORouted s r => forall id hd, is_message hc s id hd -> r = asked_routing hd id
  | OURL _ _ => True
  | OPanic _ => False
  end.
Proof.
  intros hc gs t sched A L i o H.
  pose (I := fun k v => k = k_router -> v = None \/ v = Some (VStr t)).
  pose (G := fun o => match o with ORouter _ t' => t' = t | ORouted s r => forall id hd, is_message hc s id hd -> r = asked_routing hd id | OURL _ _ => True | OPanic _ => False end).
  assert (Uq : forall s id hd id' hd', is_message hc s id hd -> is_message hc s id' hd' -> id = id' /\ hd = hd').
  { intros s id hd id' hd' M M'. destruct (is_message_header _ _ _ _ M) as (E1 & E2 & _). destruct (is_message_header _ _ _ _ M') as (E3 & E4 & _). split; congruence. }
  assert (It : forall t', I k_router (Some (VStr t')) -> t' = t) by (intros t' X; destruct (X eq_refl) as [Q|Q]; congruence).
  destruct (keeps_run I G sched (fstart hc [] gs)) as (_ & F).
  - intros k Q. left. reflexivity.
  - apply keeps_gors.
    + intros s Hs. destruct (A s Hs) as (id & hd & M & _). eauto.
    + intros k v Hs Q. subst k. exfalso. exact (L v Hs).
    + intros s id hd Hs M. destruct (A s Hs) as (id' & hd' & M' & T). destruct (Uq _ _ _ _ _ M M') as (-> & ->).
      split; [intros v _ _ _; right; congruence|]. split; [intros p _ Q; discriminate|].
      assert (B : forall t', I k_router (Some (VStr t')) -> forall id0 hd0, is_message hc s id0 hd0 -> routing_by t' hd' id' = asked_routing hd0 id0).
      { intros t' X id0 hd0 M0. destruct (Uq _ _ _ _ _ M' M0) as (<- & <-). rewrite asked_by. change (router_of hd') with (asked_type hd'). f_equal. rewrite (It _ X). auto. }
      split; [intros X; exact (B _ X)|]. split; [intros X; exact (B _ X)|].
      split; [|intros; exact Logic.I].
      intros t1 t2 X1 X2 N1 N2 id0 hd0 M0. rewrite <- (B t1 X1 id0 hd0 M0). pose proof (It _ X1). pose proof (It _ X2). subst t1. unfold routing_by.
      destruct (String.eqb_spec t "MESSAGE_ID"); [contradiction|]. destruct (String.eqb_spec t "URL_PATTERN"); [congruence|]. reflexivity.
    + intros s t' _ X. exact (It _ X).
    + intros; exact Logic.I.
  - constructor.
  - rewrite Forall_forall in F. exact (F _ H).
Qed.

Lemma message_unique hc s id hd id' hd' : is_message hc s id hd -> is_message hc s id' hd' -> id = id' /\ hd = hd'.
Proof. intros M M'. destruct (is_message_header _ _ _ _ M) as (E1 & E2 & _). destruct (is_message_header _ _ _ _ M') as (E3 & E4 & _). split; congruence. Qed.

Definition held (t : string) (k : ckey) (v : option cval) : Prop := k = k_router -> v = Some (VStr t).
Definition by_held (hc : hcodec) (t : string) (o : obs) : Prop :=
  match o with ORouter _ t' => t' = t | ORouted s r => forall id hd, is_message hc s id hd -> r = routing_by t hd id | OURL _ _ => True | OPanic _ => False end.

Lemma held_gors hc t gs : all_messages hc gs -> app_leaves gs (KStr "router_type") -> Forall (keeps (held t) (by_held hc t)) (map (gorP hc) gs).
Proof.
  intros A L.
  assert (It : forall t', held t k_router (Some (VStr t')) -> t' = t) by (intros t' X; specialize (X eq_refl); congruence).
  apply keeps_gors; auto.
  - intros k v Hs Q. subst k. exfalso. exact (L v Hs).
  - intros s id hd Hs M.
    split; [intros v X N; exfalso; exact (N _ (X eq_refl))|]. split; [intros p _ Q; discriminate|].
    assert (B : forall t', held t k_router (Some (VStr t')) -> forall id0 hd0, is_message hc s id0 hd0 -> routing_by t' hd id = routing_by t hd0 id0).
    { intros t' X id0 hd0 M0. destruct (message_unique _ _ _ _ _ _ M M0) as (<- & <-). rewrite (It _ X). auto. }
    split; [intros X; exact (B _ X)|]. split; [intros X; exact (B _ X)|]. split; [|intros; exact Logic.I].
    intros t1 t2 X1 X2 N1 N2 id0 hd0 M0. pose proof (It _ X1). pose proof (It _ X2). subst t1 t2. unfold routing_by.
    destruct (String.eqb_spec t "MESSAGE_ID"); [contradiction|]. destruct (String.eqb_spec t "URL_PATTERN"); [congruence|]. reflexivity.
  - intros s t' _ X. exact (It _ X).
  - intros; exact Logic.I.
Qed.

Lemma p_C130_settled_partial : forall hc m gs t sched, aget (KStr "router_type") m = Some (VStr t) ->
  all_messages hc gs -> app_leaves gs (KStr "router_type") ->
  let st := frun sched (fstart hc m gs) in
  aget (KStr "router_type") (fs_map st) = Some (VStr t) /\
  forall i o, In (i, o) (fs_log st) ->
  match o with
  | ORouter _ t' => t' = t
  | ORouted s r => forall id hd, is_message hc s id hd -> r = routing_by t hd id
  | OURL _ _ => True
  | OPanic _ => False
  end.
Proof.
  intros hc m gs t sched M A L st.
  destruct (keeps_run (held t) (by_held hc t) sched (fstart hc m gs)) as (K & F).
  - intros k ->. exact M.
  - apply held_gors; auto.
  - constructor.
  - split; [exact (K _ eq_refl)|]. intros i o H. rewrite Forall_forall in F. exact (F _ H).
Qed.

Lemma p_C130_sources : forall hc m gs sched, all_messages hc gs ->
  forall i o, In (i, o) (fs_log (frun sched (fstart hc m gs))) ->
  match o with
  | ORouter _ t => type_source hc m gs t
  | OURL _ (Ok u) => pattern_source hc m gs u
  | OURL s (Err _) => forall id hd, is_message hc s id hd -> asked_pattern hd = None
  | OURL _ Panic => False
  | OPanic _ => False
  | ORouted s r => forall id hd, is_message hc s id hd ->
      match r with
      | ById id' => id' = id /\ type_source hc m gs "MESSAGE_ID"
      | ByURL u => asked_pattern hd = Some u /\ type_source hc m gs "URL_PATTERN"
      | ByNothing => (asked_pattern hd = None /\ type_source hc m gs "URL_PATTERN") \/
          exists t1 t2, type_source hc m gs t1 /\ type_source hc m gs t2 /\ t1 <> "MESSAGE_ID"%string /\ t2 <> "URL_PATTERN"%string
      end
  end.
Proof.
  intros hc m gs sched A i o H.
  pose (I := fun k v => (k = k_router -> forall t, v = Some (VStr t) -> type_source hc m gs t) /\ (k = k_url -> forall u, v = Some (VStr u) -> pattern_source hc m gs u)).
  pose (G := fun o => match o with
  | ORouter _ t => type_source hc m gs t
  | OURL _ (Ok u) => pattern_source hc m gs u
  | OURL s (Err _) => forall id hd, is_message hc s id hd -> asked_pattern hd = None
  | OURL _ Panic => False
  | OPanic _ => False
  | ORouted s r => forall id hd, is_message hc s id hd ->
      match r with
      | ById id' => id' = id /\ type_source hc m gs "MESSAGE_ID"
      | ByURL u => asked_pattern hd = Some u /\ type_source hc m gs "URL_PATTERN"
      | ByNothing => (asked_pattern hd = None /\ type_source hc m gs "URL_PATTERN") \/
          exists t1 t2, type_source hc m gs t1 /\ type_source hc m gs t2 /\ t1 <> "MESSAGE_ID"%string /\ t2 <> "URL_PATTERN"%string
      end
  end).
  assert (It : forall t, I k_router (Some (VStr t)) -> type_source hc m gs t) by (intros t (X & _); exact (X eq_refl _ eq_refl)).
  assert (Iu : forall u, I k_url (Some (VStr u)) -> pattern_source hc m gs u) by (intros t (_ & X); exact (X eq_refl _ eq_refl)).
  destruct (keeps_run I G sched (fstart hc m gs)) as (_ & F).
  - intros k. split; intros -> t Q; left; exact Q.
  - apply keeps_gors; auto.
    + intros k v Hs. split; intros -> t Q; injection Q as ->; right; right; exact Hs.
    + intros s id hd Hs M.
      split. { intros v _ _. split; [intros _ t Q; injection Q as <-; right; left; exists s, id, hd; auto|intros Q; discriminate]. }
      split. { intros p Hp. split; [intros Q; discriminate|intros _ u Q; injection Q as <-; right; left; exists s, id, hd; auto]. }
      split. { intros X id0 hd0 M0. destruct (message_unique _ _ _ _ _ _ M M0) as (<- & <-). cbn. auto. }
      split. { intros X id0 hd0 M0. destruct (message_unique _ _ _ _ _ _ M M0) as (<- & <-). unfold routing_by, asked_pattern. cbn.
               pose proof (It _ X) as T. destruct (hget "Router-Pattern-Value" hd) as [[]|]; auto. }
      split. { intros t1 t2 X1 X2 N1 N2 id0 hd0 M0. right. exists t1, t2. auto. }
      intros N e id0 hd0 M0. destruct (message_unique _ _ _ _ _ _ M M0) as (<- & <-). exact N.
    + intros s t _ X. exact (It _ X).
    + intros s u _ X. exact (Iu _ X).
  - constructor.
  - rewrite Forall_forall in F. exact (F _ H).
Qed.

Lemma fstep_at i st p : nth_error (fs_gors st) i = Some p ->
  fstep i st = match p with
    | PLoad k f => FS (fs_map st) (upd (fs_gors st) i (f (aget k (fs_map st)))) (fs_log st)
    | PStore k v p => FS (aset k v (fs_map st)) (upd (fs_gors st) i p) (fs_log st)
    | PSay o p => FS (fs_map st) (upd (fs_gors st) i p) ((i, o) :: fs_log st)
    | PStop => st
    end.
Proof. intros N. unfold fstep. rewrite N. destruct p; reflexivity. Qed.

Lemma p_C130_two_types_refuted : forall hc a b ida hda idb hdb,
  is_message hc (fm_stream a) ida hda -> asked_type hda = "URL_PATTERN"%string ->
  is_message hc (fm_stream b) idb hdb -> asked_type hdb = "MESSAGE_ID"%string ->
  exists sched, fs_log (frun sched (fstart hc [] [GMessages [a]; GMessages [b]])) =
    [(0%nat, ORouted (fm_stream a) ByNothing); (0%nat, ORouter (fm_stream a) "MESSAGE_ID"); (0%nat, ORouter (fm_stream a) "MESSAGE_ID");
     (0%nat, ORouter (fm_stream a) "URL_PATTERN")].
Proof.
  intros hc a b ida hda idb hdb Ma Ta Mb Tb. pose proof (is_message_type _ _ _ _ Ma) as Oa. pose proof (is_message_type _ _ _ _ Mb) as Ob.
  rewrite Ta in Oa. rewrite Tb in Ob.
  exists [0; 1; 0; 0; 1; 0; 0; 0; 0; 0]%nat. unfold fstart. cbn [map gorP handlePipeP]. unfold handleMiddlewareP, RouterTypeP. cbn.
  rewrite Oa, Ob. cbn. reflexivity.
Qed.

Lemma keeps_alone (I : ckey -> option cval -> Prop) (G : obs -> Prop) : forall p m, keeps I G p -> (forall k, I k (aget k m)) ->
  Forall G (fst (alone p m)) /\ (forall k, I k (aget k (snd (alone p m)))).
Proof.
  induction p as [|k f IH|k v p IH|o p IH]; intros m K M; cbn [alone].
  - split; [constructor|exact M].
  - apply IH; [apply K; apply M|exact M].
  - destruct K as (K1 & K2). apply IH; auto. intros k'. rewrite aget_aset. destruct (keqb k' k) eqn:Q; auto. apply keqb_eq in Q. subst k'. auto.
  - destruct K as (K1 & K2). destruct (IH m K2 M) as (A & B). destruct (alone p m) as (l, m'). cbn in *. split; [constructor; auto|exact B].
Qed.

Lemma keeps_in_turn hc (I : ckey -> option cval -> Prop) (G : obs -> Prop) : forall gs m, Forall (keeps I G) (map (gorP hc) gs) -> (forall k, I k (aget k m)) ->
  Forall G (in_turn hc gs m).
Proof.
  induction gs as [|g gs IH]; intros m F M; cbn [in_turn]; [constructor|]. inversion F; subst.
  destruct (keeps_alone I G (gorP hc g) m) as (A & B); auto. destruct (alone (gorP hc g) m) as (l, m'). cbn in *.
  apply Forall_app. split; [exact A|]. apply IH; auto.
Qed.

Lemma p_C130_first_decides_partial : forall hc m l gs id hd, is_message hc (fm_stream m) id hd ->
  all_messages hc (GMessages (m :: l) :: gs) -> app_leaves (GMessages (m :: l) :: gs) (KStr "router_type") ->
  forall o, In o (in_turn hc (GMessages (m :: l) :: gs) []) ->
  match o with
  | ORouter _ t' => t' = asked_type hd
  | ORouted s r => forall id' hd', is_message hc s id' hd' -> r = routing_by (asked_type hd) hd' id'
  | OURL _ _ => True
  | OPanic _ => False
  end.
Proof.
  intros hc m l gs id hd M A L o H. set (t := asked_type hd) in *.
  pose proof (held_gors hc t _ A L) as F. inversion F as [|x y F1 F2]; subst.
  cbn [gorP handlePipeP] in F1. unfold handleMiddlewareP in F1.
  assert (H' : In o (in_turn hc (GMessages (m :: l) :: gs) [(k_router, VStr t)])).
  { revert H. cbn [in_turn gorP handlePipeP]. unfold handleMiddlewareP. unfold RouterTypeP at 1 4. cbn [alone].
    replace (aget k_router []) with (@None cval) by reflexivity. rewrite (is_message_type _ _ _ _ M). fold t. cbn [alone].
    replace (aget k_router [(k_router, VStr t)]) with (Some (VStr t)) by reflexivity.
    replace (aset k_router (VStr t) []) with [(k_router, VStr t)] by reflexivity. auto. }
  assert (Q : Forall (by_held hc t) (in_turn hc (GMessages (m :: l) :: gs) [(k_router, VStr t)])).
  { apply (keeps_in_turn hc (held t)); auto. intros k ->. reflexivity. }
  rewrite Forall_forall in Q. exact (Q o H').
Qed.

Lemma p_C130_alone_scheduled : forall i p st, nth_error (fs_gors st) i = Some p -> exists n,
  frun (repeat i n) st = FS (snd (alone p (fs_map st))) (upd (fs_gors st) i PStop) (rev (map (fun o => (i, o)) (fst (alone p (fs_map st)))) ++ fs_log st).
Proof.
  assert (UU : forall {A} (l : list A) i a b, upd (upd l i a) i b = upd l i b).
  { intros A. induction l as [|x l IH]; intros [|i] a b; cbn; auto. rewrite IH. reflexivity. }
  assert (UN : forall {A} (l : list A) i a b, nth_error l i = Some b -> nth_error (upd l i a) i = Some a).
  { intros A. induction l as [|x l IH]; intros [|i] a b Q; cbn in *; try discriminate; eauto. }
  assert (US : forall {A} (l : list A) i a, nth_error l i = Some a -> upd l i a = l).
  { intros A. induction l as [|x l IH]; intros [|i] a Q; cbn in *; try discriminate; [congruence|rewrite IH; auto]. }
  intros i. induction p as [|k f IH|k v p IH|o p IH]; intros st N; cbn [alone].
  - exists 0%nat. cbn. rewrite US; auto. destruct st; reflexivity.
  - destruct (IH (aget k (fs_map st)) (fstep i st)) as (n & E).
    { rewrite (fstep_at _ _ _ N). cbn. eapply UN; eauto. }
    exists (S n). cbn [repeat frun]. rewrite E, (fstep_at _ _ _ N). cbn [fs_map fs_gors fs_log]. rewrite UU. reflexivity.
  - destruct (IH (fstep i st)) as (n & E).
    { rewrite (fstep_at _ _ _ N). cbn. eapply UN; eauto. }
    exists (S n). cbn [repeat frun]. rewrite E, (fstep_at _ _ _ N). cbn [fs_map fs_gors fs_log]. rewrite UU. reflexivity.
  - destruct (IH (fstep i st)) as (n & E).
    { rewrite (fstep_at _ _ _ N). cbn. eapply UN; eauto. }
    exists (S n). cbn [repeat frun]. rewrite E, (fstep_at _ _ _ N). cbn [fs_map fs_gors fs_log]. rewrite UU.
    destruct (alone p (fs_map st)) as (l, m'). cbn [fst snd map rev]. rewrite <- app_assoc. reflexivity.
Qed.

Lemma p_C130_alone_route : forall hc c w,
  let '(l, m) := alone (handleMiddlewareP hc (FMsg (c_stream c) (fun _ => HEnd)) PStop) (hp (w_heap w) (c_pr c)) in
  m = hp (w_heap (snd (route hc c w))) (c_pr c) /\
  match fst (route hc c w) with
  | Ok r => exists l', l = l' ++ [ORouted (c_stream c) r]
  | _ => exists l', l = l' ++ [OPanic (c_stream c)]
  end.
Proof.
  intros hc c w.
  assert (HS : forall H r k v, hp (Store H r k v) r = aset k v (hp H r)).
  { intros H r k v. unfold Store, hp at 1. rewrite aget_aset, keqb_refl. reflexivity. }
  assert (ER : forall s go m, alone (RouterTypeP hc s go) m =
    match aget k_router m with
    | Some (VStr t) => let '(l, m') := alone (go t) m in (ORouter s t :: l, m')
    | _ => match own_router_type hc s with
           | Ok t => let '(l, m') := alone (go t) (aset k_router (VStr t) m) in (ORouter s t :: l, m')
           | _ => ([OPanic s], m)
           end
    end).
  { intros s go m. cbn [RouterTypeP alone]. destruct (aget k_router m) as [[t|n|n]|]; try reflexivity; destruct (own_router_type hc s); reflexivity. }
  assert (OE : forall e, own_router_type hc (c_stream c) <> Err e).
  { intros e. unfold own_router_type. destruct (glen (c_stream c) =? 0); [discriminate|]. destruct (HeaderOf hc (c_stream c)) as [h| |]; try discriminate.
    destruct (Nat.eqb (hlen h) 0); [discriminate|]. destruct (hget HEADER_ROUTER_KEY h) as [[]|]; try discriminate. destruct (String.eqb s MESSAGEID); discriminate. }
  set (mm := hp (w_heap w) (c_pr c)).
  (* with a type in the map *)
  assert (KK : forall t w1, aget k_router (hp (w_heap w1) (c_pr c)) = Some (VStr t) ->
    let '(l, m) := alone (if String.eqb t MESSAGEID then
        match MessageIDOf (c_stream c) with
        | Ok id => PSay (ORouted (c_stream c) (ById id)) (callsP hc (c_stream c) HEnd PStop)
        | Err _ => PSay (ORouted (c_stream c) ByNothing) PStop
        | Panic => PSay (OPanic (c_stream c)) PStop
        end
      else
        RouterTypeP hc (c_stream c) (fun t2 =>
          if String.eqb t2 URLPATTERN then
            match URLPatternOf hc (c_stream c) with
            | Ok u => PSay (ORouted (c_stream c) (ByURL u)) (callsP hc (c_stream c) HEnd PStop)
            | Err _ => PSay (ORouted (c_stream c) ByNothing) PStop
            | Panic => PSay (OPanic (c_stream c)) PStop
            end
          else RouterTypeP hc (c_stream c) (fun _ => PSay (ORouted (c_stream c) ByNothing) PStop))) (hp (w_heap w1) (c_pr c)) in
    let r := if String.eqb t MESSAGEID then
          (match MessageIDOf (c_stream c) with Ok id => Ok (ById id) | Err _ => Ok ByNothing | Panic => Panic end, w1)
        else
          match RouterType hc c w1 with
          | (Ok t', w2) =>
              if String.eqb t' URLPATTERN then
                (match URLPatternOf hc (c_stream c) with Ok u => Ok (ByURL u) | Err _ => Ok ByNothing | Panic => Panic end, w2)
              else (Ok ByNothing, w2)
          | (Err e, w2) => (Err e, w2)
          | (Panic, w2) => (Panic, w2)
          end in
    m = hp (w_heap (snd r)) (c_pr c) /\
    match fst r with Ok x => exists l', l = l' ++ [ORouted (c_stream c) x] | _ => exists l', l = l' ++ [OPanic (c_stream c)] end).
  { intros t w1 G. destruct (String.eqb t MESSAGEID).
    - destruct (MessageIDOf (c_stream c)) as [id|e|]; cbn; (split; [reflexivity|exists []; reflexivity]).
    - rewrite ER, G. unfold RouterType, routerType, GetCtxPerRequest, Load. rewrite G. destruct (String.eqb t URLPATTERN).
      + destruct (URLPatternOf hc (c_stream c)) as [u|e|]; cbn; (split; [reflexivity|eexists [_]; reflexivity]).
      + rewrite ER, G. cbn. split; [reflexivity|eexists [_; _]; reflexivity]. }
  unfold handleMiddlewareP. cbn [fm_stream fm_handler]. rewrite ER. fold mm. unfold route, RouterType at 1 3, routerType, GetCtxPerRequest, Load. fold mm.
  assert (PP : forall l (o : obs) (a b : Prop) (x : res routing), (a /\ match x with Ok r => exists l', l = l' ++ [ORouted (c_stream c) r] | _ => exists l', l = l' ++ [OPanic (c_stream c)] end) ->
    a /\ match x with Ok r => exists l', o :: l = l' ++ [ORouted (c_stream c) r] | _ => exists l', o :: l = l' ++ [OPanic (c_stream c)] end).
  { intros l o a b x (X & Y). split; auto. destruct x; destruct Y as (l' & ->); exists (o :: l'); reflexivity. }
  destruct (aget k_router mm) as [[t|n|n]|] eqn:G.
  - specialize (KK t w G). fold mm in KK. destruct (alone _ mm) as (l, m'). apply (PP _ _ _ True). exact KK.
  - destruct (own_router_type hc (c_stream c)) as [t|e|] eqn:O; [|exfalso; exact (OE _ eq_refl)|cbn; split; [reflexivity|exists []; reflexivity]].
    cbn [rbind].
    specialize (KK t (set_heap w (Store (w_heap w) (c_pr c) k_router (VStr t)))). cbn [set_heap w_heap] in KK. rewrite HS in KK. fold mm in KK. rewrite aget_aset, keqb_refl in KK.
    specialize (KK eq_refl). destruct (alone _ (aset k_router (VStr t) mm)) as (l, m'). apply (PP _ _ _ True). exact KK.
  - destruct (own_router_type hc (c_stream c)) as [t|e|] eqn:O; [|exfalso; exact (OE _ eq_refl)|cbn; split; [reflexivity|exists []; reflexivity]].
    cbn [rbind].
    specialize (KK t (set_heap w (Store (w_heap w) (c_pr c) k_router (VStr t)))). cbn [set_heap w_heap] in KK. rewrite HS in KK. fold mm in KK. rewrite aget_aset, keqb_refl in KK.
    specialize (KK eq_refl). destruct (alone _ (aset k_router (VStr t) mm)) as (l, m'). apply (PP _ _ _ True). exact KK.
  - destruct (own_router_type hc (c_stream c)) as [t|e|] eqn:O; [|exfalso; exact (OE _ eq_refl)|cbn; split; [reflexivity|exists []; reflexivity]].
    cbn [rbind].
    specialize (KK t (set_heap w (Store (w_heap w) (c_pr c) k_router (VStr t)))). cbn [set_heap w_heap] in KK. rewrite HS in KK. fold mm in KK. rewrite aget_aset, keqb_refl in KK.
    specialize (KK eq_refl). destruct (alone _ (aset k_router (VStr t) mm)) as (l, m'). apply (PP _ _ _ True). exact KK.
Qed.
