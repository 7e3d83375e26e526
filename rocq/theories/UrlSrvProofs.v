(* The URLMux of a server (C137). NODEMO *)
From Verif Require Export SpecUrlSrv UrlMuxProofs.

Lemma at_urls o k (P : list (string * list hdl)) : m_urls (fst o) = P -> (forall m, m_urls m = P -> m_urls (fst (k m)) = P) -> m_urls (fst (andthen o k)) = P.
Proof. intros A B. unfold andthen. destruct (snd o); [exact A|apply B; exact A]. Qed.

Lemma add_urls id ms f m : m_urls (fst (AddHandler id ms f m)) = m_urls m.
Proof.
  unfold AddHandler. repeat (apply at_urls; [|intros]); unfold AddSelf, AddHandleFunc, AddMessageIDAnchor in *;
    repeat match goal with |- context [if ?b then _ else _] => destruct b | |- context [match ?x with [] => _ | _ => _ end] => destruct x end; cbn; auto.
Qed.

Lemma use_urls k f m : m_urls (fst (Use [UKey k; UFn f] m)) = m_urls m.
Proof.
  cbn [Use List.length Nat.even use_pairs]. change (Nat.even 2) with true. cbv iota. apply at_urls; [|intros n E; exact E]. unfold use1. destruct (aget k (m_amap m)); unfold callUse; destruct (_ <? _)%nat; try reflexivity.
  unfold add_anchor. destruct (ahas _ _); reflexivity.
Qed.

Lemma unuse_urls k m : m_urls (fst (UnUse [k] m)) = m_urls m.
Proof.
  cbn [UnUse]. apply at_urls; [|intros n E; exact E]. unfold unuse1. destruct (aget k (m_amap m)); [|reflexivity]. destruct (callUnUse _ _); [|reflexivity]. unfold replace_middleware. destruct (ahas _ _); reflexivity.
Qed.

Lemma urls_only_any o m : match o with OAny _ _ => False | _ => True end -> m_urls (fst (step o m)) = m_urls m.
Proof.
  destruct o as [k f|k|l|i ms f|p l|on th i|i f|y th i f|f]; intros N; try contradiction; cbn [step].
  - apply use_urls.
  - apply unuse_urls.
  - reflexivity.
  - apply add_urls.
  - unfold HeartBeatModeDetail. destruct on; rewrite ?add_urls; reflexivity.
  - unfold RewriteHeartBeatHandler. rewrite add_urls. reflexivity.
  - unfold WithAuthDetail. destruct y; rewrite ?add_urls; reflexivity.
  - reflexivity.
Qed.

Lemma urun_app a b : urun (a ++ b) = fold_left (fun m o => fst (ustep m o)) b (urun a).
Proof. unfold urun. apply fold_left_app. Qed.

Lemma calls_adds dir c : Forall (fun o => exists p l w, o = UAdd p l w) (url_calls dir c).
Proof. destruct c as [s o]. destruct o as [| | | |p l| | | |]; cbn; try constructor. destruct l as [|f [|g l]]; repeat constructor; eauto. Qed.

Lemma free_run us : Forall (fun o => exists p l w, o = UAdd p l w) us -> um_readonly (urun us) = false /\ um_strict (urun us) = false.
Proof.
  induction us as [|o us IH] using rev_ind; [split; reflexivity|]. intros F. apply Forall_app in F as [F G]. destruct (IH F) as [A B]. inversion G as [|? ? (p & l & w & ->) _]; subst.
  rewrite urun_app. cbn [fold_left ustep]. unfold UAddHandler. rewrite A, B. destruct (aget p _); cbn; auto.
Qed.

Lemma srv_free dir h : um_readonly (srv_urls dir h) = false /\ um_strict (srv_urls dir h) = false.
Proof.
  unfold srv_urls. apply free_run. apply Forall_forall. intros o I. apply in_flat_map in I as (c & _ & I). exact (proj1 (Forall_forall _ _) (calls_adds dir c) o I).
Qed.

Lemma srv_cons dir c h : srv_urls dir (c :: h) = fold_left (fun m o => fst (ustep m o)) (url_calls dir c) (srv_urls dir h).
Proof. unfold srv_urls. cbn [rev]. rewrite flat_map_app. cbn [flat_map]. rewrite app_nil_r. apply urun_app. Qed.

Lemma uadd_free p l w m : um_readonly m = false -> um_strict m = false ->
  um_routes (fst (ustep m (UAdd p l w))) = aset p (match aget p (um_routes m) with Some h => h ++ l | None => l end) (um_routes m) /\
  um_readonly (fst (ustep m (UAdd p l w))) = false /\ um_strict (fst (ustep m (UAdd p l w))) = false.
Proof. intros A B. cbn [ustep]. unfold UAddHandler. rewrite A, B. destruct (aget p (um_routes m)); cbn; auto. Qed.

Lemma mux_add p l m : m_urls (AddURLPatternHandler p l m) = aset p (match aget p (m_urls m) with Some h => h ++ l | None => l end) (m_urls m).
Proof. unfold AddURLPatternHandler. destruct (aget p (m_urls m)); reflexivity. Qed.

Lemma anchor_urls p i m : m_urls (fst (AddURLAnchor p i m)) = m_urls m.
Proof. unfold AddURLAnchor. destruct (ahas _ _); reflexivity. Qed.

Lemma p_C137_same_routes : forall dir h, m_urls (build (map snd h)) = um_routes (srv_urls dir h).
Proof.
  intros dir h. induction h as [|[s o] h IH]; [reflexivity|]. rewrite srv_cons. cbn [map build snd]. destruct (srv_free dir h) as [R S].
  assert (Q : match o with OAny _ _ => False | _ => True end -> m_urls (fst (step o (build (map snd h)))) = um_routes (fold_left (fun m o => fst (ustep m o)) (url_calls dir (s, o)) (srv_urls dir h))).
  { intros N. rewrite urls_only_any by exact N. destruct o; try contradiction; cbn [url_calls snd fold_left]; exact IH. }
  destruct o as [| | | |p l| | | |]; try (apply Q; exact Logic.I). clear Q. cbn [step]. unfold Any. destruct l as [|f [|g l]]; [exact IH| |].
  - cbn [List.length Nat.ltb Nat.leb]. rewrite anchor_urls. change (m_urls (tick ?x)) with (m_urls x). rewrite mux_add, IH. cbn [url_calls snd fold_left].
    destruct (uadd_free p [f] (at_mux dir) _ R S) as [E _]. rewrite E. reflexivity.
  - change (1 <? List.length (f :: g :: l))%nat with true. cbv iota zeta. rewrite anchor_urls. change (m_urls (tick ?x)) with (m_urls x). rewrite !mux_add, IH. cbn [url_calls snd fold_left].
    destruct (uadd_free p (f :: g :: l) (at_tcpx dir) _ R S) as (E & R2 & S2). destruct (uadd_free p (f :: g :: l) (at_mux dir) _ R2 S2) as [E2 _]. rewrite E2, E. reflexivity.
Qed.

Lemma p_C137_never_refused : forall dir h p l w, snd (ustep (srv_urls dir h) (UAdd p l w)) = UNil.
Proof. intros dir h p l w. destruct (srv_free dir h) as [A B]. cbn [ustep]. unfold UAddHandler. rewrite A, B. destruct (aget p _); reflexivity. Qed.

Lemma before_lock_adds us : Forall (fun o => exists p l w, o = UAdd p l w) us -> before_lock us = us.
Proof. induction us as [|o us IH]; [reflexivity|]. intros F. inversion F as [|? ? (p & l & w & ->) F']; subst. cbn [before_lock]. rewrite (IH F'). reflexivity. Qed.

Lemma acc_free p us : Forall (fun o => exists p l w, o = UAdd p l w) us -> forall k, accepted p false k us = flat_map (fun o => match o with UAdd q l w => if String.eqb q p then [(l, w)] else [] | _ => [] end) us.
Proof.
  induction us as [|o us IH]; intros F k; [reflexivity|]. inversion F as [|? ? (q & l & w & ->) F']; subst. cbn [accepted flat_map]. destruct (String.eqb q p); cbn; rewrite IH by exact F'; reflexivity.
Qed.

Definition places (dir : string) (l : list hdl) : list string := match l with [_] => [at_mux dir] | _ => [at_tcpx dir; at_mux dir] end.

Lemma registered_srv dir p h : registered p (flat_map (url_calls dir) h) =
  flat_map (fun c => match snd c with OAny q (f :: l) => if String.eqb q p then map (fun w => (f :: l, w)) (places dir (f :: l)) else [] | _ => [] end) h.
Proof.
  assert (F : Forall (fun o => exists p l w, o = UAdd p l w) (flat_map (url_calls dir) h)).
  { apply Forall_forall. intros o I. apply in_flat_map in I as (c & _ & I). exact (proj1 (Forall_forall _ _) (calls_adds dir c) o I). }
  unfold registered. rewrite before_lock_adds by exact F. rewrite acc_free by exact F. clear F.
  induction h as [|[s o] h IH]; [reflexivity|]. cbn [flat_map]. rewrite flat_map_app, IH. f_equal. unfold url_calls. cbn [snd].
  destruct o as [| | | |q l| | | |]; try reflexivity. destruct l as [|f [|g l]]; cbn; [reflexivity| |]; destruct (String.eqb q p); reflexivity.
Qed.

Lemma p_C137_handlers : forall h p, aget p (m_urls (build (map snd h))) =
  match anys p h with [] => None | a => Some (concat (map (fun x => copies (snd x)) a)) end.
Proof.
  intros h p. rewrite (p_C137_same_routes "" h). unfold srv_urls. rewrite p_C103_routes, registered_srv. unfold anys. unfold sited in *.
  induction (rev h) as [|[s o] r IH]; [reflexivity|]. cbn [flat_map snd fst].
  assert (G : forall A B (X : list (list hdl * string)) (Y : list (string * list hdl)),
    concat (map fst A) = concat (map (fun x => copies (snd x)) B) -> (A = [] <-> B = []) ->
    match X with [] => None | z :: a => Some (concat (map fst (z :: a))) end = match Y with [] => None | z :: a => Some (concat (map (fun x => copies (snd x)) (z :: a))) end ->
    match A ++ X with [] => None | a => Some (concat (map fst a)) end = match B ++ Y with [] => None | a => Some (concat (map (fun x => copies (snd x)) a)) end).
  { intros A B X Y E [N1 N2] H. destruct A as [|a A]; [rewrite (N1 eq_refl); cbn [app]; destruct X, Y; exact H|]. destruct B as [|b B]; [specialize (N2 eq_refl); discriminate|].
    cbn [app]. f_equal. change (a :: A ++ X) with ((a :: A) ++ X). change (b :: B ++ Y) with ((b :: B) ++ Y). rewrite !map_app, !concat_app, E. f_equal.
    destruct X, Y; try discriminate; [reflexivity|]. now injection H. }
  apply G; [| |exact IH]; destruct o as [| | | |q l| | | |]; try reflexivity; try (split; reflexivity); destruct l as [|f l]; try reflexivity; try (split; reflexivity); destruct (String.eqb q p); try reflexivity; try (split; reflexivity); destruct l as [|g l]; cbn.
  - reflexivity.
  - rewrite !app_nil_r. reflexivity.
  - split; discriminate.
  - split; discriminate.
Qed.

Lemma p_C137_recorded_partial : forall dir h p r, aget p (um_info (srv_urls dir h)) = Some r ->
  rt_where r = flat_map (fun x => match snd x with [_] => [(dir ++ "/mux.go:74")%string] | _ => [(dir ++ "/tcpx.go:351")%string; (dir ++ "/mux.go:74")%string] end) (anys p h).
Proof.
  intros dir h p r E. unfold srv_urls in E. rewrite (p_C103_places _ _ _ E), registered_srv. unfold anys. clear E. unfold sited in *.
  induction (rev h) as [|[s o] l IH]; [reflexivity|]. cbn [flat_map]. rewrite map_app, flat_map_app, IH. f_equal. cbn [snd fst].
  destruct o as [| | | |q [|f k]| | | |]; try reflexivity. destruct (String.eqb q p); [|reflexivity]. destruct k; reflexivity.
Qed.

Lemma p_C137_places_refuted : 
  ~ (forall dir h p r w, aget p (um_info (srv_urls dir h)) = Some r -> In w (app_places p h) -> In w (rt_where r)) /\
  (forall dir h h', map snd h = map snd h' -> srv_urls dir h = srv_urls dir h').
Proof.
  split.
  - intros H. specialize (H "" [("app.go:7"%string, OAny "/a" [User 1])] "/a" (Rt "/a" 0 ["/mux.go:74"]) "app.go:7")%string. destruct (H eq_refl (or_introl eq_refl)) as [E|[]]. discriminate E.
  - intros dir h. induction h as [|[s o] h IH]; intros [|[s' o'] h'] E; try discriminate; [reflexivity|]. injection E as -> E. rewrite !srv_cons, (IH h' E). reflexivity.
Qed.
