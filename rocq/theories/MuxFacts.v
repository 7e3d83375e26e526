(* The model's state as a function of the call history. *)
From Verif Require Export SpecMux BaseFacts.

Ltac zb := repeat match goal with
  | |- context [Z.eqb ?a ?b] => destruct (Z.eqb_spec a b); subst
  | H : context [Z.eqb ?a ?b] |- _ => destruct (Z.eqb_spec a b); subst
  end.

Definition sd (h : list op) : Z := m_seed (build h).

(* start and end indexes of the windows of a key, from the history *)
Fixpoint starts (k : string) (h : list op) : list Z :=
  match h with
  | [] => []
  | OUse k' _ :: p => if String.eqb k k' && negb (in_use k p) then starts k p ++ [sd p + 1] else starts k p
  | _ :: p => starts k p
  end.
Fixpoint ends (k : string) (h : list op) : list Z :=
  match h with
  | [] => []
  | OUnUse k' :: p => if String.eqb k k' && in_use k p then ends k p ++ [sd p + 1] else ends k p
  | _ :: p => ends k p
  end.
(* what the slice of anchors shows: a Use after an UnUse is not in it until UnUse'd *)
Definition slice_starts (k : string) (h : list op) : list Z :=
  if in_use k h && ever_unused k h then removelast (starts k h) else starts k h.

Lemma lens k h : List.length (starts k h) = (List.length (ends k h) + if in_use k h then 1 else 0)%nat.
Proof.
  induction h as [|o p IH]; [reflexivity|]. destruct o; simpl; auto.
  - destruct (String.eqb k k0); simpl; auto. destruct (in_use k p) eqn:E; simpl; auto.
    rewrite app_length. simpl. lia.
  - destruct (String.eqb k k0); simpl; auto. destruct (in_use k p) eqn:E; simpl; auto.
    rewrite app_length. simpl. lia.
Qed.

Lemma ever_ends k h : ever_unused k h = match ends k h with [] => false | _ => true end.
Proof.
  induction h as [|o p IH]; [reflexivity|]. destruct o; simpl; auto.
  destruct (String.eqb k k0 && in_use k p); simpl; auto.
  destruct (ends k p); reflexivity.
Qed.

Lemma in_use_first k h : in_use k h = true -> ahas k (first_uses h) = true.
Proof.
  induction h as [|o p IH]; [discriminate|]. destruct o; simpl; auto.
  - destruct (String.eqb_spec k k0) as [->|N]; intros H.
    + destruct (ahas k0 (first_uses p)) eqn:E; auto.
      unfold ahas in *. clear - E. induction (first_uses p) as [|[k f'] l IHl]; simpl in *.
      * now rewrite String.eqb_refl.
      * destruct (String.eqb k0 k); auto.
    + destruct (ahas k0 (first_uses p)) eqn:E; auto.
      specialize (IH H). unfold ahas in *. clear - IH.
      induction (first_uses p) as [|[k1 f'] l IHl]; simpl in *; [discriminate|].
      destruct (String.eqb k k1); auto.
  - destruct (String.eqb k k0); auto. discriminate.
Qed.

Lemma ahas_app {V} k (l1 l2 : list (string * V)) : ahas k (l1 ++ l2) = ahas k l1 || ahas k l2.
Proof.
  unfold ahas. induction l1 as [|[k1 v] l1 IH]; simpl; auto. destruct (String.eqb k k1); auto.
Qed.
Lemma aget_app {V} k (l1 l2 : list (string * V)) :
  aget k (l1 ++ l2) = match aget k l1 with Some v => Some v | None => aget k l2 end.
Proof. induction l1 as [|[k1 v] l1 IH]; simpl; auto. destruct (String.eqb k k1); auto. Qed.

Lemma not_first_nil k h : ahas k (first_uses h) = false -> starts k h = [] /\ ends k h = [] /\ in_use k h = false.
Proof.
  induction h as [|o p IH]; [auto|]. destruct o; simpl; auto.
  - destruct (ahas k0 (first_uses p)) eqn:E.
    + intros H. destruct (IH H) as (A & B & C). rewrite A, B, C.
      destruct (String.eqb_spec k k0) as [->|N]; [congruence|]. auto.
    + rewrite ahas_app. intros H. apply orb_false_iff in H as [H1 H2].
      destruct (IH H1) as (A & B & C). rewrite A, B, C.
      unfold ahas in H2. simpl in H2. destruct (String.eqb k k0); [discriminate|]. auto.
  - intros H. destruct (IH H) as (A & B & C). rewrite A, B, C.
    destruct (String.eqb k k0); auto.
Qed.

Lemma first_uses_nodup h : NoDup (map fst (first_uses h)).
Proof.
  induction h as [|o p IH]; simpl; [constructor|]. destruct o; auto.
  destruct (ahas k (first_uses p)) eqn:E; auto. rewrite map_app. simpl.
  assert (N : ~ In k (map fst (first_uses p))).
  { clear - E. unfold ahas in E. induction (first_uses p) as [|[k1 v] l IHl]; simpl in *; auto.
    destruct (String.eqb_spec k k1); [discriminate|]. intros [D|D]; [congruence|]. now apply IHl. }
  clear E. induction (map fst (first_uses p)) as [|x l IHl]; simpl.
  - constructor; [intros []|constructor].
  - inversion IH; subst. simpl in N. constructor.
    + intros D. apply in_app_or in D as [D|[D|[]]]; [auto|]. subst. tauto.
    + apply IHl; tauto.
Qed.

(* the anchors slice and map *)
Definition slice_anchor (h : list op) (kf : string * hdl) : anchor :=
  Anchor (fst kf) (snd kf) (slice_starts (fst kf) h) (ends (fst kf) h).
Definition map_anchor (h : list op) (k : string) (f : hdl) : anchor :=
  Anchor k f (starts k h) (ends k h).

Lemma replace_slice h h' k f l : (forall x, x <> k -> slice_starts x h' = slice_starts x h /\ ends x h' = ends x h) ->
  NoDup (map fst l) -> aget k l = Some f ->
  replace_anchor (Anchor k f (slice_starts k h') (ends k h')) (map (slice_anchor h) l) = map (slice_anchor h') l.
Proof.
  intros Hx. induction l as [|[k1 f1] l IH]; simpl; [discriminate|]. intros ND G. inversion ND; subst.
  destruct (String.eqb_spec k k1) as [->|N].
  - inversion G; subst. rewrite String.eqb_refl. f_equal. apply map_ext_in. intros [k2 f2] I.
    unfold slice_anchor. simpl. destruct (Hx k2) as [A B].
    { intros ->. apply H1. apply (in_map fst) in I. exact I. }
    now rewrite A, B.
  - destruct (String.eqb_spec k1 k); [congruence|]. f_equal.
    + unfold slice_anchor. simpl. destruct (Hx k1) as [A B]; [auto|]. now rewrite A, B.
    + apply IH; auto.
Qed.

Record Inv (h : list op) : Prop := {
  i_glob : m_globals (build h) = globals h;
  i_hbid : m_hb_id (build h) = beat_id h;
  i_hbt : m_hb_through (build h) = beat_through h;
  i_auid : m_auth_id (build h) = auth_id h;
  i_aut : m_auth_through (build h) = auth_through h;
  i_onmsg : m_onmsg (build h) = onmessage h;
  i_self : forall id, aget id (m_self (build h)) = match own id h with [] => None | l => Some l end;
  i_hand : forall id, aget id (m_handlers (build h)) = option_map r_fn (serving id h);
  i_ids : forall id, aget id (m_ids (build h)) = option_map (fun r => sd (r_before r) + 1) (serving id h);
  i_urls : forall u, aget u (m_urls (build h)) = match url_serving u h with None => None | Some _ => Some (url_handlers u h) end;
  i_urlids : forall u, aget u (m_urlids (build h)) = option_map (fun r => sd (r_before r) + 1) (url_serving u h);
  i_amap : forall k, aget k (m_amap (build h)) = option_map (map_anchor h k) (aget k (first_uses h));
  i_anchors : m_anchors (build h) = map (slice_anchor h) (first_uses h) }.

Lemma aget_fst {V} k (l : list (string * V)) : ahas k l = match aget k l with Some _ => true | None => false end.
Proof. reflexivity. Qed.

Lemma fold_step o p : fst (step o (build p)) = build (o :: p).
Proof. reflexivity. Qed.

(* later does not change what the registration says *)
Lemma later_fn o r : option_map r_fn (later o r) = option_map r_fn r.
Proof. destruct r; reflexivity. Qed.
Lemma later_ix o r : option_map (fun r => sd (r_before r) + 1) (later o r) = option_map (fun r => sd (r_before r) + 1) r.
Proof. destruct r; reflexivity. Qed.

Definition quiet_op (o : op) : Prop :=
  match o with OGlobal _ | OOnMessage _ | OBeat false _ _ | OAuth false _ _ _ => True | _ => False end.

Lemma same_use o p k : match o with OUse _ _ | OUnUse _ => False | _ => True end ->
  starts k (o :: p) = starts k p /\ ends k (o :: p) = ends k p /\ in_use k (o :: p) = in_use k p /\
  ever_unused k (o :: p) = ever_unused k p /\ first_uses (o :: p) = first_uses p.
Proof. destruct o; simpl; tauto. Qed.

Lemma anchors_kept o p : match o with OUse _ _ | OUnUse _ => False | _ => True end ->
  m_amap (build (o :: p)) = m_amap (build p) -> m_anchors (build (o :: p)) = m_anchors (build p) ->
  Inv p ->
  (forall k, aget k (m_amap (build (o :: p))) = option_map (map_anchor (o :: p) k) (aget k (first_uses (o :: p)))) /\
  m_anchors (build (o :: p)) = map (slice_anchor (o :: p)) (first_uses (o :: p)).
Proof.
  intros Ho E1 E2 I. rewrite E1, E2. split.
  - intros k. rewrite (i_amap p I). destruct (same_use o p k Ho) as (A & B & C & D & F).
    rewrite F. destruct (aget k (first_uses p)); simpl; auto. unfold map_anchor. now rewrite A, B.
  - rewrite (i_anchors p I).
    destruct (same_use o p "" Ho) as (_ & _ & _ & _ & F). rewrite F.
    apply map_ext. intros [k f]. unfold slice_anchor, slice_starts. simpl fst.
    destruct (same_use o p k Ho) as (A & B & C & D & _). now rewrite A, B, C, D.
Qed.

(* AddHandler with everything computed *)
Lemma AddHandler_eq id ms f m : (forall i, ahas i (m_handlers m) = ahas i (m_ids m)) ->
  AddHandler id ms f m =
  match ms with
  | [] => if ahas id (m_handlers m) then bad m
          else ok (tick (set_ids (aset id (m_seed m + 1) (m_ids m)) (set_handlers (aset id f (m_handlers m)) m)))
  | _ => if ahas id (m_self m) then bad m
         else let m := set_self (aset id ms (m_self m)) m in
           if ahas id (m_handlers m) then bad m
           else ok (tick (set_ids (aset id (m_seed m + 1) (m_ids m)) (set_handlers (aset id f (m_handlers m)) m)))
  end.
Proof.
  intros H. destruct ms; unfold AddHandler, AddSelf, AddHandleFunc, AddMessageIDAnchor, andthen, next_index, tick; simpl.
  - specialize (H id). destruct (ahas id (m_handlers m)) eqn:E; [reflexivity|]. simpl. rewrite <- H. reflexivity.
  - destruct (ahas id (m_self m)); simpl; auto. specialize (H id).
    destruct (ahas id (m_handlers m)) eqn:E; [reflexivity|]. simpl. rewrite <- H. reflexivity.
Qed.

Lemma inv_has p : Inv p -> forall i, ahas i (m_handlers (build p)) = ahas i (m_ids (build p)).
Proof.
  intros I i. unfold ahas. rewrite (i_hand p I), (i_ids p I). destruct (serving i p); reflexivity.
Qed.

Lemma inv_self p : Inv p -> forall i, ahas i (m_self (build p)) = match own i p with [] => false | _ => true end.
Proof. intros I i. unfold ahas. rewrite (i_self p I). destruct (own i p); reflexivity. Qed.
Lemma inv_hand p : Inv p -> forall i, ahas i (m_handlers (build p)) = match serving i p with None => false | _ => true end.
Proof. intros I i. unfold ahas. rewrite (i_hand p I). destruct (serving i p); reflexivity. Qed.

(* One registration of f for id, in a state with the fields of [build p] except for the
   heartbeat/auth configuration: the handler and anchor maps afterwards. *)
Definition reg_maps (p : list op) (o : op) (id : Z) (f : hdl) (m : mux) : Prop :=
  (forall i, aget i (m_handlers m) = option_map r_fn
      (if i =? id then match later o (serving i p) with Some r => Some r | None => Some (Reg f p []) end
       else later o (serving i p))) /\
  (forall i, aget i (m_ids m) = option_map (fun r => sd (r_before r) + 1)
      (if i =? id then match later o (serving i p) with Some r => Some r | None => Some (Reg f p []) end
       else later o (serving i p))).

Lemma reg_maps_ok p o id f m0 : Inv p -> m_handlers m0 = m_handlers (build p) -> m_ids m0 = m_ids (build p) ->
  m_seed m0 = sd p ->
  reg_maps p o id f
    (if ahas id (m_handlers m0) then m0
     else tick (set_ids (aset id (m_seed m0 + 1) (m_ids m0)) (set_handlers (aset id f (m_handlers m0)) m0))).
Proof.
  intros I Eh Ei Es. rewrite Eh, (inv_hand p I). unfold reg_maps.
  destruct (serving id p) eqn:E.
  - rewrite Eh, Ei. split; intros i.
    + rewrite (i_hand p I), <- (later_fn o). destruct (Z.eqb_spec i id); subst; auto. rewrite E. reflexivity.
    + rewrite (i_ids p I), <- (later_ix o). destruct (Z.eqb_spec i id); subst; auto. rewrite E. reflexivity.
  - simpl. rewrite Ei, Es, ?Eh. split; intros i; destruct (Z.eqb_spec i id); subst; simpl.
    + rewrite E. reflexivity.
    + rewrite aget_adel. simpl. destruct (Z.eqb_spec i id); [contradiction|]. now rewrite (i_hand p I), (later_fn o).
    + rewrite E. reflexivity.
    + rewrite aget_adel. simpl. destruct (Z.eqb_spec i id); [contradiction|]. now rewrite (i_ids p I), (later_ix o).
Qed.

Lemma url_later o p u : match o with OAny _ _ => False | _ => True end ->
  url_serving u (o :: p) = later o (url_serving u p) /\ url_handlers u (o :: p) = url_handlers u p.
Proof.
  intros H. simpl. destruct (url_serving u p); simpl; destruct o; simpl in *; try tauto; auto.
Qed.

Lemma urls_kept o p : match o with OAny _ _ => False | _ => True end ->
  m_urls (build (o :: p)) = m_urls (build p) -> m_urlids (build (o :: p)) = m_urlids (build p) -> Inv p ->
  (forall u, aget u (m_urls (build (o :: p))) = match url_serving u (o :: p) with None => None | Some _ => Some (url_handlers u (o :: p)) end) /\
  (forall u, aget u (m_urlids (build (o :: p))) = option_map (fun r => sd (r_before r) + 1) (url_serving u (o :: p))).
Proof.
  intros H E1 E2 I. rewrite E1, E2. split; intros u; destruct (url_later o p u H) as [A B]; rewrite A, ?B.
  - rewrite (i_urls p I). destruct (url_serving u p); reflexivity.
  - rewrite (i_urlids p I). destruct (url_serving u p); reflexivity.
Qed.

Lemma inv_new : Inv [].
Proof. constructor; reflexivity. Qed.

(* the registering calls *)
Definition same_rest (m m' : mux) : Prop :=
  m_globals m' = m_globals m /\ m_amap m' = m_amap m /\ m_anchors m' = m_anchors m /\
  m_urls m' = m_urls m /\ m_urlids m' = m_urlids m /\ m_onmsg m' = m_onmsg m.

Lemma inv_add p id ms f : Inv p -> Inv (OAdd id ms f :: p).
Proof.
  intros I. set (o := OAdd id ms f).
  assert (E : build (o :: p) = fst (AddHandler id ms f (build p))) by reflexivity.
  rewrite AddHandler_eq in E by (apply inv_has, I).
  assert (S : same_rest (build p) (build (o :: p)) /\ m_hb_id (build (o :: p)) = m_hb_id (build p) /\
      m_hb_through (build (o :: p)) = m_hb_through (build p) /\ m_auth_id (build (o :: p)) = m_auth_id (build p) /\
      m_auth_through (build (o :: p)) = m_auth_through (build p)).
  { rewrite E. unfold same_rest. destruct ms.
    - destruct (ahas id (m_handlers (build p))); simpl; auto 20.
    - destruct (ahas id (m_self (build p))); [simpl; auto 20|].
      cbv zeta. change (m_handlers (set_self (aset id (h :: ms) (m_self (build p))) (build p))) with (m_handlers (build p)).
      destruct (ahas id (m_handlers (build p))); simpl; auto 20. }
  destruct S as ((S1 & S2 & S3 & S4 & S5 & S6) & S7 & S8 & S9 & S10).
  assert (R : (forall i, aget i (m_handlers (build (o :: p))) = option_map r_fn (serving i (o :: p))) /\
              (forall i, aget i (m_ids (build (o :: p))) = option_map (fun r => sd (r_before r) + 1) (serving i (o :: p)))).
  { assert (B : forall m0, m0 = build p \/ m0 = set_self (aset id ms (m_self (build p))) (build p) ->
       (ms = [] \/ own id p = []) ->
       build (o :: p) = (if ahas id (m_handlers m0) then m0
         else tick (set_ids (aset id (m_seed m0 + 1) (m_ids m0)) (set_handlers (aset id f (m_handlers m0)) m0))) ->
       (forall i, aget i (m_handlers (build (o :: p))) = option_map r_fn (serving i (o :: p))) /\
       (forall i, aget i (m_ids (build (o :: p))) = option_map (fun r => sd (r_before r) + 1) (serving i (o :: p)))).
    { intros m0 Hm Hn Eb.
      destruct (reg_maps_ok p o id f m0 I) as [A B]; try (destruct Hm; subst; reflexivity).
      rewrite <- Eb in A, B. split; intros i; rewrite ?A, ?B; f_equal; simpl; destruct (Z.eqb_spec i id); subst; auto.
      - destruct ms; auto. destruct Hn as [D|D]; [discriminate|]. rewrite D. reflexivity.
      - destruct ms; auto. destruct Hn as [D|D]; [discriminate|]. rewrite D. reflexivity. }
    destruct ms as [|m1 ms].
    - apply (B (build p)); auto. rewrite E. destruct (ahas id (m_handlers (build p))); reflexivity.
    - rewrite (inv_self p I) in E. destruct (own id p) eqn:Eo.
      + apply (B (set_self (aset id (m1 :: ms) (m_self (build p))) (build p))); auto.
        rewrite E. cbv zeta. destruct (ahas id (m_handlers _)); reflexivity.
      + rewrite E. simpl fst. split; intros i.
        * rewrite (i_hand p I). simpl. destruct (Z.eqb_spec i id); subst; rewrite ?Eo, later_fn; reflexivity.
        * rewrite (i_ids p I). simpl. destruct (Z.eqb_spec i id); subst; rewrite ?Eo, later_ix; reflexivity. }
  destruct R as [R1 R2].
  destruct (anchors_kept o p Logic.I S2 S3 I) as [A1 A2].
  destruct (urls_kept o p Logic.I S4 S5 I) as [U1 U2].
  constructor; auto.
  - now rewrite S1, (i_glob p I).
  - now rewrite S7, (i_hbid p I).
  - now rewrite S8, (i_hbt p I).
  - now rewrite S9, (i_auid p I).
  - now rewrite S10, (i_aut p I).
  - now rewrite S6, (i_onmsg p I).
  - intros i. destruct ms as [|m1 ms].
    + assert (X : m_self (build (o :: p)) = m_self (build p))
        by (rewrite E; destruct (ahas id (m_handlers (build p))); reflexivity).
      rewrite X, (i_self p I). simpl. destruct (own i p); auto. destruct (i =? id); auto.
    + rewrite (inv_self p I) in E. destruct (own id p) eqn:Eo.
      * assert (X : m_self (build (o :: p)) = aset id (m1 :: ms) (m_self (build p)))
          by (rewrite E; cbv zeta; destruct (ahas id (m_handlers _)); reflexivity).
        rewrite X, aget_aset. simpl keqb.
        simpl own. destruct (Z.eqb_spec i id); subst.
        -- now rewrite Eo.
        -- rewrite (i_self p I). destruct (own i p); auto.
      * rewrite E. simpl fst. rewrite (i_self p I). simpl. destruct (own i p) eqn:Ei; auto.
        destruct (Z.eqb_spec i id); subst; auto. congruence.
Qed.

Lemma add0 id f m : (forall i, ahas i (m_handlers m) = ahas i (m_ids m)) ->
  fst (AddHandler id [] f m) =
  if ahas id (m_handlers m) then m
  else tick (set_ids (aset id (m_seed m + 1) (m_ids m)) (set_handlers (aset id f (m_handlers m)) m)).
Proof. intros H. rewrite AddHandler_eq by exact H. destruct (ahas id (m_handlers m)); reflexivity. Qed.

Lemma own_other i o p : match o with OAdd _ _ _ => False | _ => True end -> own i (o :: p) = own i p.
Proof. destruct o; simpl; tauto. Qed.

(* fields untouched by a registration of a single handler *)
Lemma add0_rest id f m : (forall i, ahas i (m_handlers m) = ahas i (m_ids m)) ->
  let m' := fst (AddHandler id [] f m) in
  same_rest m m' /\ m_self m' = m_self m /\ m_hb_id m' = m_hb_id m /\ m_hb_through m' = m_hb_through m /\
  m_auth_id m' = m_auth_id m /\ m_auth_through m' = m_auth_through m.
Proof.
  intros H. simpl. rewrite add0 by exact H. unfold same_rest. destruct (ahas id (m_handlers m)); simpl; auto 20.
Qed.

Lemma inv_beat p on thr id : Inv p -> Inv (OBeat on thr id :: p).
Proof.
  intros I. set (o := OBeat on thr id). destruct on.
  - set (m0 := set_hb true id thr (build p)).
    assert (E : build (o :: p) = fst (AddHandler id [] Beat m0)) by reflexivity.
    assert (Hs : forall i, ahas i (m_handlers m0) = ahas i (m_ids m0)) by apply (inv_has p I).
    destruct (add0_rest id Beat m0 Hs) as ((S1 & S2 & S3 & S4 & S5 & S6) & S0 & S7 & S8 & S9 & S10).
    pose proof (add0 id Beat m0 Hs) as E2. rewrite <- E in *. clear E. rename E2 into E.
    destruct (reg_maps_ok p o id Beat m0 I eq_refl eq_refl eq_refl) as [R1 R2].
    rewrite <- E in R1, R2.
    destruct (anchors_kept o p Logic.I S2 S3 I) as [A1 A2].
    destruct (urls_kept o p Logic.I S4 S5 I) as [U1 U2].
    constructor; auto.
    + rewrite S1. apply (i_glob p I).
    + rewrite S9. apply (i_auid p I).
    + rewrite S10. apply (i_aut p I).
    + rewrite S6. apply (i_onmsg p I).
    + intros i. rewrite S0. apply (i_self p I).
  - destruct (anchors_kept o p Logic.I eq_refl eq_refl I) as [A1 A2].
    destruct (urls_kept o p Logic.I eq_refl eq_refl I) as [U1 U2].
    destruct I. constructor; auto.
    + intros i. simpl. rewrite later_fn. apply i_hand0.
    + intros i. simpl. rewrite later_ix. apply i_ids0.
Qed.

Lemma inv_auth p yes thr id f : Inv p -> Inv (OAuth yes thr id f :: p).
Proof.
  intros I. set (o := OAuth yes thr id f). destruct yes.
  - set (m0 := set_auth true id thr (build p)).
    assert (E : build (o :: p) = fst (AddHandler id [] f m0)) by reflexivity.
    assert (Hs : forall i, ahas i (m_handlers m0) = ahas i (m_ids m0)) by apply (inv_has p I).
    destruct (add0_rest id f m0 Hs) as ((S1 & S2 & S3 & S4 & S5 & S6) & S0 & S7 & S8 & S9 & S10).
    pose proof (add0 id f m0 Hs) as E2. rewrite <- E in *. clear E. rename E2 into E.
    destruct (reg_maps_ok p o id f m0 I eq_refl eq_refl eq_refl) as [R1 R2].
    rewrite <- E in R1, R2.
    destruct (anchors_kept o p Logic.I S2 S3 I) as [A1 A2].
    destruct (urls_kept o p Logic.I S4 S5 I) as [U1 U2].
    constructor; auto.
    + rewrite S1. apply (i_glob p I).
    + rewrite S7. apply (i_hbid p I).
    + rewrite S8. apply (i_hbt p I).
    + rewrite S6. apply (i_onmsg p I).
    + intros i. rewrite S0. apply (i_self p I).
  - destruct (anchors_kept o p Logic.I eq_refl eq_refl I) as [A1 A2].
    destruct (urls_kept o p Logic.I eq_refl eq_refl I) as [U1 U2].
    destruct I. constructor; auto.
    + intros i. simpl. rewrite later_fn. apply i_hand0.
    + intros i. simpl. rewrite later_ix. apply i_ids0.
Qed.

Lemma inv_rewrite p id f : Inv p -> Inv (ORewrite id f :: p).
Proof.
  intros I. set (o := ORewrite id f).
  set (m0 := set_hb (m_hb_on (build p)) id (m_hb_through (build p)) (removeHandler (m_hb_id (build p)) (build p))).
  assert (E : build (o :: p) = fst (AddHandler id [] f m0)) by reflexivity.
  assert (Gh : forall i, aget i (m_handlers m0) = if i =? beat_id p then None else aget i (m_handlers (build p))).
  { intros i. unfold m0. simpl. rewrite aget_adel, (i_hbid p I). reflexivity. }
  assert (Gi : forall i, aget i (m_ids m0) = if i =? beat_id p then None else aget i (m_ids (build p))).
  { intros i. unfold m0. simpl. rewrite aget_adel, (i_hbid p I). reflexivity. }
  assert (Hs : forall i, ahas i (m_handlers m0) = ahas i (m_ids m0)).
  { intros i. unfold ahas. rewrite Gh, Gi. destruct (i =? beat_id p); auto. apply (inv_has p I). }
  destruct (add0_rest id f m0 Hs) as ((S1 & S2 & S3 & S4 & S5 & S6) & S0 & S7 & S8 & S9 & S10).
  pose proof (add0 id f m0 Hs) as E2. rewrite <- E in *. clear E. rename E2 into E.
  assert (R : (forall i, aget i (m_handlers (build (o :: p))) = option_map r_fn (serving i (o :: p))) /\
              (forall i, aget i (m_ids (build (o :: p))) = option_map (fun r => sd (r_before r) + 1) (serving i (o :: p)))).
  { rewrite E. unfold ahas at 1 2. rewrite Gh, (i_hand p I). simpl serving.
    destruct (Z.eqb_spec id (beat_id p)) as [Eb|Nb].
    - cbn [m_handlers m_ids tick set_seed set_ids set_handlers].
      split; intros i; rewrite aget_aset; simpl keqb; rewrite ?Gh, ?Gi, ?(i_hand p I), ?(i_ids p I).
      + destruct (Z.eqb_spec i id); destruct (Z.eqb_spec i (beat_id p)); subst; try congruence; rewrite ?later_fn, ?later_ix; reflexivity.
      + destruct (Z.eqb_spec i id); destruct (Z.eqb_spec i (beat_id p)); subst; try congruence; rewrite ?later_fn, ?later_ix; reflexivity.
    - destruct (serving id p) as [r|] eqn:Es; simpl option_map; cbv iota.
      + split; intros i; rewrite ?Gh, ?Gi, ?(i_hand p I), ?(i_ids p I).
        * destruct (Z.eqb_spec i (beat_id p)); [destruct (Z.eqb_spec i id); subst; try congruence; rewrite ?later_fn, ?later_ix; reflexivity|].
          destruct (Z.eqb_spec i id); subst; rewrite ?Es, ?later_fn, ?later_ix; reflexivity.
        * destruct (Z.eqb_spec i (beat_id p)); [destruct (Z.eqb_spec i id); subst; try congruence; rewrite ?later_fn, ?later_ix; reflexivity|].
          destruct (Z.eqb_spec i id); subst; rewrite ?Es, ?later_fn, ?later_ix; reflexivity.
      + cbn [m_handlers m_ids tick set_seed set_ids set_handlers].
        split; intros i; rewrite aget_aset; simpl keqb; rewrite ?Gh, ?Gi, ?(i_hand p I), ?(i_ids p I).
        * destruct (Z.eqb_spec i id); destruct (Z.eqb_spec i (beat_id p)); subst; try congruence; rewrite ?Es, ?later_fn, ?later_ix; reflexivity.
        * destruct (Z.eqb_spec i id); destruct (Z.eqb_spec i (beat_id p)); subst; try congruence; rewrite ?Es, ?later_fn, ?later_ix; reflexivity. }
  destruct R as [R1 R2].
  destruct (anchors_kept o p Logic.I S2 S3 I) as [A1 A2].
  destruct (urls_kept o p Logic.I S4 S5 I) as [U1 U2].
  constructor; auto.
  - rewrite S1. apply (i_glob p I).
  - rewrite S8. apply (i_hbt p I).
  - rewrite S9. apply (i_auid p I).
  - rewrite S10. apply (i_aut p I).
  - rewrite S6. apply (i_onmsg p I).
  - intros i. rewrite S0. apply (i_self p I).
Qed.

Lemma inv_global p l : Inv p -> Inv (OGlobal l :: p).
Proof.
  intros I. destruct (anchors_kept (OGlobal l) p Logic.I eq_refl eq_refl I) as [A1 A2].
  destruct (urls_kept (OGlobal l) p Logic.I eq_refl eq_refl I) as [U1 U2].
  destruct I as [G1 G2 G3 G4 G5 G6 G7 G8 G9 G10 G11 G12 G13]. constructor; auto.
  - simpl. now rewrite G1.
  - intros i. simpl. rewrite later_fn. apply G8.
  - intros i. simpl. rewrite later_ix. apply G9.
Qed.

Lemma inv_onmsg p f : Inv p -> Inv (OOnMessage f :: p).
Proof.
  intros I. destruct (anchors_kept (OOnMessage f) p Logic.I eq_refl eq_refl I) as [A1 A2].
  destruct (urls_kept (OOnMessage f) p Logic.I eq_refl eq_refl I) as [U1 U2].
  destruct I as [G1 G2 G3 G4 G5 G6 G7 G8 G9 G10 G11 G12 G13]. constructor; auto.
  - intros i. simpl. rewrite later_fn. apply G8.
  - intros i. simpl. rewrite later_ix. apply G9.
Qed.

(* calls that leave handlers and ids alone *)
Lemma serving_other i o p : match o with OUse _ _ | OUnUse _ | OAny _ _ => True | _ => False end ->
  serving i (o :: p) = later o (serving i p).
Proof. destruct o; simpl; tauto. Qed.

Lemma inv_any p u l : Inv p -> Inv (OAny u l :: p).
Proof.
  intros I. set (o := OAny u l).
  assert (F : forall h x, option_map (fun r => sd (r_before r) + 1) (later o (url_serving x h)) = option_map (fun r => sd (r_before r) + 1) (url_serving x h))
    by (intros; apply later_ix).
  destruct l as [|f l].
  - destruct (anchors_kept o p Logic.I eq_refl eq_refl I) as [A1 A2].
    destruct I as [G1 G2 G3 G4 G5 G6 G7 G8 G9 G10 G11 G12 G13]. constructor; auto.
    + intros i. simpl. rewrite later_fn. apply G8.
    + intros i. simpl. rewrite later_ix. apply G9.
    + intros x. change (build (o :: p)) with (build p). rewrite G10. simpl.
      destruct (url_serving x p); simpl; auto. destruct (String.eqb x u); now rewrite app_nil_r.
    + intros x. change (build (o :: p)) with (build p). rewrite G11. simpl.
      destruct (url_serving x p); reflexivity.
  - set (L := f :: l) in *. set (LL := if (1 <? List.length L)%nat then L ++ L else L).
    set (old := match aget u (m_urls (build p)) with Some h => h | None => [] end).
    assert (E : exists m1, build (o :: p) = fst (AddURLAnchor u (sd p + 1) (tick m1)) /\
        (forall x, aget x (m_urls m1) = if String.eqb x u then Some (old ++ LL) else aget x (m_urls (build p))) /\
        m1 = set_urls (m_urls m1) (build p)).
    { unfold old, LL. destruct (1 <? List.length L)%nat eqn:EL.
      - exists (AddURLPatternHandler u L (AddURLPatternHandler u L (build p))). split; [|split].
        + change (build (o :: p)) with (fst (Any u L (build p))). unfold Any, L. fold L. rewrite EL.
          unfold AddURLPatternHandler, next_index, sd.
          destruct (aget u (m_urls (build p))); cbn [m_urls set_urls]; rewrite aget_aset, keqb_refl; reflexivity.
        + intros x. unfold AddURLPatternHandler at 1.
          unfold AddURLPatternHandler at 1.
          destruct (aget u (m_urls (build p))) as [h|] eqn:Eu; cbn [m_urls set_urls]; rewrite aget_aset, keqb_refl.
          * unfold AddURLPatternHandler. rewrite Eu. cbn [m_urls set_urls]. rewrite !aget_aset. simpl keqb.
            destruct (String.eqb x u); auto. now rewrite app_assoc.
          * unfold AddURLPatternHandler. rewrite Eu. cbn [m_urls set_urls]. rewrite !aget_aset. simpl keqb.
            destruct (String.eqb x u); auto.
        + unfold AddURLPatternHandler. destruct (aget u (m_urls (build p))); cbn [m_urls set_urls]; rewrite aget_aset, keqb_refl; reflexivity.
      - exists (AddURLPatternHandler u L (build p)). split; [|split].
        + change (build (o :: p)) with (fst (Any u L (build p))). unfold Any, L. fold L. rewrite EL.
          unfold AddURLPatternHandler, next_index, sd.
          destruct (aget u (m_urls (build p))); reflexivity.
        + intros x. unfold AddURLPatternHandler. destruct (aget u (m_urls (build p))); cbn [m_urls set_urls]; rewrite aget_aset; reflexivity.
        + unfold AddURLPatternHandler. destruct (aget u (m_urls (build p))); reflexivity. }
    destruct E as (m1 & E & Ur & Em).
    assert (Ei : m_urlids m1 = m_urlids (build p)) by (rewrite Em; reflexivity).
    assert (H : m_urls (build (o :: p)) = m_urls m1 /\ m_urlids (build (o :: p)) = (if ahas u (m_urlids (build p)) then m_urlids (build p) else aset u (sd p + 1) (m_urlids (build p))) /\
       m_globals (build (o :: p)) = m_globals (build p) /\ m_amap (build (o :: p)) = m_amap (build p) /\
       m_anchors (build (o :: p)) = m_anchors (build p) /\ m_onmsg (build (o :: p)) = m_onmsg (build p) /\
       m_self (build (o :: p)) = m_self (build p) /\ m_handlers (build (o :: p)) = m_handlers (build p) /\
       m_ids (build (o :: p)) = m_ids (build p) /\ m_hb_id (build (o :: p)) = m_hb_id (build p) /\
       m_hb_through (build (o :: p)) = m_hb_through (build p) /\ m_auth_id (build (o :: p)) = m_auth_id (build p) /\
       m_auth_through (build (o :: p)) = m_auth_through (build p)).
    { rewrite E. unfold AddURLAnchor. cbn [tick m_urlids set_seed]. rewrite Ei.
      destruct (ahas u (m_urlids (build p))); cbn; rewrite Em; cbn; auto 20. }
    destruct H as (H1 & H2 & H3 & H4 & H5 & H6 & H7 & H8 & H9 & H10 & H11 & H12 & H13).
    destruct (anchors_kept o p Logic.I H4 H5 I) as [A1 A2].
    clear E. destruct I as [G1 G2 G3 G4 G5 G6 G7 G8 G9 G10 G11 G12 G13]. constructor; auto.
    + now rewrite H3, G1.
    + now rewrite H10, G2.
    + now rewrite H11, G3.
    + now rewrite H12, G4.
    + now rewrite H13, G5.
    + now rewrite H6, G6.
    + intros i. now rewrite H7, G7.
    + intros i. rewrite H8, G8, serving_other by exact Logic.I. now rewrite later_fn.
    + intros i. rewrite H9, G9, serving_other by exact Logic.I. now rewrite later_ix.
    + intros x. rewrite H1, Ur. unfold old. rewrite !G10. simpl url_serving. simpl url_handlers. fold L. fold LL.
      destruct (String.eqb_spec x u) as [->|N].
      * destruct (url_serving u p) eqn:Es; simpl; auto.
        assert (Z : url_handlers u p = []); [|now rewrite Z].
        clear - Es. induction p as [|q p IH]; auto. simpl in *.
        destruct (url_serving u p) eqn:E2; [discriminate|]. simpl in Es.
        destruct q; auto. rewrite IH by auto. destruct l; [destruct (String.eqb u p0); reflexivity|].
        destruct (String.eqb u p0); [discriminate|reflexivity].
      * destruct (url_serving x p); simpl; auto. now rewrite app_nil_r.
    + intros x. rewrite H2. simpl url_serving. fold L. unfold ahas. rewrite G11.
      destruct (url_serving u p) eqn:Es; simpl option_map; cbv iota.
      * rewrite G11. destruct (String.eqb_spec x u) as [->|N].
        -- rewrite Es. reflexivity.
        -- destruct (url_serving x p); reflexivity.
      * rewrite aget_aset. simpl keqb. destruct (String.eqb_spec x u) as [->|N].
        -- rewrite Es. reflexivity.
        -- rewrite G11. destruct (url_serving x p); reflexivity.
Qed.

(* what Use and UnUse do to a state built from p *)
Lemma use_eq p k f : Inv p ->
  step (OUse k f) (build p) =
  match aget k (first_uses p) with
  | Some f' =>
      if in_use k p then bad (tick (build p))
      else ok (set_anchors (m_anchors (build p)) (aset k (Anchor k f' (starts k p ++ [sd p + 1]) (ends k p)) (m_amap (build p))) (tick (build p)))
  | None =>
      ok (set_anchors (m_anchors (build p) ++ [Anchor k f [sd p + 1] []]) (aset k (Anchor k f [sd p + 1] []) (m_amap (build p))) (tick (build p)))
  end.
Proof.
  intros I. unfold step, Use. simpl. unfold andthen, use1. rewrite (i_amap p I).
  destruct (aget k (first_uses p)) as [f'|] eqn:E; simpl.
  - unfold callUse, map_anchor. cbn [a_starts a_ends a_key a_fn]. rewrite (lens k p).
    destruct (in_use k p).
    + destruct (Nat.ltb_spec (List.length (ends k p)) (List.length (ends k p) + 1)); [reflexivity|lia].
    + destruct (Nat.ltb_spec (List.length (ends k p)) (List.length (ends k p) + 0)); [lia|reflexivity].
  - unfold add_anchor. cbn [a_key]. unfold ahas. simpl m_amap. rewrite (i_amap p I), E. reflexivity.
Qed.

Lemma unuse_eq p k : Inv p ->
  step (OUnUse k) (build p) =
  match aget k (first_uses p) with
  | Some f' =>
      if in_use k p then
        let a := Anchor k f' (starts k p) (ends k p ++ [sd p + 1]) in
        ok (set_anchors (replace_anchor a (m_anchors (build p))) (aset k a (m_amap (build p))) (tick (build p)))
      else bad (tick (build p))
  | None => bad (build p)
  end.
Proof.
  intros I. unfold step. simpl. unfold andthen, unuse1. rewrite (i_amap p I).
  destruct (aget k (first_uses p)) as [f'|] eqn:E; simpl; auto.
  unfold callUnUse, map_anchor. cbn [a_starts a_ends a_key a_fn]. rewrite (lens k p).
  destruct (in_use k p).
  - destruct (Nat.leb_spec (List.length (ends k p) + 1) (List.length (ends k p))); [lia|].
    unfold replace_middleware, ahas. cbn [a_key]. simpl m_amap. rewrite (i_amap p I), E. reflexivity.
  - destruct (Nat.leb_spec (List.length (ends k p) + 0) (List.length (ends k p))); [reflexivity|lia].
Qed.

Lemma inv_use p k f : Inv p -> Inv (OUse k f :: p).
Proof.
  intros I. set (o := OUse k f).
  pose proof (use_eq p k f I) as E.
  assert (B : build (o :: p) = fst (step (OUse k f) (build p))) by reflexivity. rewrite E in B. clear E.
  assert (S : m_globals (build (o :: p)) = m_globals (build p) /\ m_onmsg (build (o :: p)) = m_onmsg (build p) /\
       m_self (build (o :: p)) = m_self (build p) /\ m_handlers (build (o :: p)) = m_handlers (build p) /\
       m_ids (build (o :: p)) = m_ids (build p) /\ m_hb_id (build (o :: p)) = m_hb_id (build p) /\
       m_hb_through (build (o :: p)) = m_hb_through (build p) /\ m_auth_id (build (o :: p)) = m_auth_id (build p) /\
       m_auth_through (build (o :: p)) = m_auth_through (build p) /\
       m_urls (build (o :: p)) = m_urls (build p) /\ m_urlids (build (o :: p)) = m_urlids (build p)).
  { rewrite B. destruct (aget k (first_uses p)); [destruct (in_use k p)|]; cbn; auto 20. }
  destruct S as (H3 & H6 & H7 & H8 & H9 & H10 & H11 & H12 & H13 & H14 & H15).
  destruct (urls_kept o p Logic.I H14 H15 I) as [U1 U2].
  assert (NS : forall x, x <> k -> starts x (o :: p) = starts x p /\ in_use x (o :: p) = in_use x p /\ slice_starts x (o :: p) = slice_starts x p).
  { intros x N. unfold slice_starts. simpl. apply String.eqb_neq in N. rewrite N. simpl. auto. }
  assert (A : (forall x, aget x (m_amap (build (o :: p))) = option_map (map_anchor (o :: p) x) (aget x (first_uses (o :: p)))) /\
      m_anchors (build (o :: p)) = map (slice_anchor (o :: p)) (first_uses (o :: p))).
  { simpl first_uses. unfold ahas at 1 2. destruct (aget k (first_uses p)) as [f'|] eqn:E.
    - destruct (in_use k p) eqn:Eu.
      + rewrite B. cbn. split.
        * intros x. rewrite (i_amap p I). destruct (aget x (first_uses p)); auto. simpl. unfold map_anchor. simpl.
          destruct (String.eqb_spec x k); subst; rewrite ?Eu; reflexivity.
        * rewrite (i_anchors p I). apply map_ext. intros [x fx]. unfold slice_anchor, slice_starts. simpl.
          destruct (String.eqb_spec x k); subst; rewrite ?Eu; reflexivity.
      + rewrite B. cbn. split.
        * intros x. destruct (String.eqb_spec x k) as [->|N].
          -- rewrite E. simpl. unfold map_anchor. simpl. now rewrite String.eqb_refl, Eu.
          -- rewrite aget_adel_other, (i_amap p I) by exact N. destruct (aget x (first_uses p)); auto. simpl. unfold map_anchor.
             destruct (NS x N) as (A & _ & _). rewrite A. reflexivity.
        * rewrite (i_anchors p I). apply map_ext_in. intros [x fx] Hin. unfold slice_anchor. cbn [fst snd].
          change (ends x (o :: p)) with (ends x p).
          destruct (String.eqb_spec x k) as [->|N].
          -- f_equal. unfold slice_starts. simpl. rewrite String.eqb_refl, Eu. simpl.
             destruct (ever_unused k p) eqn:Ee.
             ++ rewrite removelast_last. reflexivity.
             ++ exfalso. (* a key Use'd, never UnUse'd, is in use *)
                rewrite ever_ends in Ee. pose proof (lens k p) as L. rewrite Eu in L.
                destruct (ends k p); [|discriminate]. simpl in L.
                assert (Sn : starts k p <> []).
                { clear - E. induction p as [|q p IH]; [discriminate|]. destruct q; simpl in *; auto.
                  unfold ahas in E. destruct (aget k0 (first_uses p)) eqn:G.
                  - destruct (String.eqb_spec k k0); simpl; auto; subst. destruct (in_use k0 p); simpl; auto.
                    intros D. apply app_eq_nil in D as [_ D]. discriminate.
                  - destruct (String.eqb_spec k k0); subst; simpl.
                    + destruct (not_first_nil k0 p) as (_ & _ & Q). { unfold ahas. now rewrite G. } rewrite Q. simpl.
                      intros D. apply app_eq_nil in D as [_ D]. discriminate.
                    + rewrite aget_app in E. apply IH. destruct (aget k (first_uses p)); auto. simpl in E.
                      apply String.eqb_neq in n. rewrite n in E. discriminate. }
                destruct (starts k p); [congruence|discriminate].
          -- destruct (NS x N) as (_ & _ & A). now rewrite A.
    - rewrite B. destruct (not_first_nil k p) as (Sn & En & Un). { unfold ahas. now rewrite E. }
      cbn. split.
      + intros x. rewrite aget_app. destruct (String.eqb_spec x k) as [->|N].
        * rewrite E. simpl. rewrite String.eqb_refl. simpl. unfold map_anchor. simpl.
          now rewrite String.eqb_refl, Un, Sn, En.
        * rewrite aget_adel_other, (i_amap p I) by exact N. destruct (NS x N) as (A & _ & _).
          destruct (aget x (first_uses p)); simpl.
          -- unfold map_anchor. now rewrite A.
          -- apply String.eqb_neq in N. now rewrite N.
      + rewrite (i_anchors p I), map_app. f_equal.
        * apply map_ext_in. intros [x fx] Hin. unfold slice_anchor. cbn [fst snd].
          assert (N : x <> k). { intros ->. assert (D : ahas k (first_uses p) = true).
            { clear - Hin. unfold ahas. induction (first_uses p) as [|[a b] l IHl]; [destruct Hin|]. simpl in *.
              destruct (String.eqb_spec k a); auto. destruct Hin as [Q|Q]; [congruence|auto]. }
            unfold ahas in D. rewrite E in D. discriminate. }
          destruct (NS x N) as (_ & _ & A). rewrite A. reflexivity.
        * simpl. unfold slice_anchor, slice_starts. simpl. rewrite String.eqb_refl, Un, Sn, En. simpl.
          assert (V : ever_unused k p = false) by (rewrite ever_ends, En; reflexivity). rewrite V. reflexivity. }
  destruct A as [A1 A2].
  clear B. destruct I as [G1 G2 G3 G4 G5 G6 G7 G8 G9 G10 G11 G12 G13]. constructor; auto.
  + now rewrite H3, G1.
  + now rewrite H10, G2.
  + now rewrite H11, G3.
  + now rewrite H12, G4.
  + now rewrite H13, G5.
  + now rewrite H6, G6.
  + intros i. now rewrite H7, G7.
  + intros i. rewrite H8, G8, serving_other by exact Logic.I. now rewrite later_fn.
  + intros i. rewrite H9, G9, serving_other by exact Logic.I. now rewrite later_ix.
Qed.

Lemma inv_unuse p k : Inv p -> Inv (OUnUse k :: p).
Proof.
  intros I. set (o := OUnUse k).
  pose proof (unuse_eq p k I) as E.
  assert (B : build (o :: p) = fst (step (OUnUse k) (build p))) by reflexivity. rewrite E in B. clear E.
  assert (S : m_globals (build (o :: p)) = m_globals (build p) /\ m_onmsg (build (o :: p)) = m_onmsg (build p) /\
       m_self (build (o :: p)) = m_self (build p) /\ m_handlers (build (o :: p)) = m_handlers (build p) /\
       m_ids (build (o :: p)) = m_ids (build p) /\ m_hb_id (build (o :: p)) = m_hb_id (build p) /\
       m_hb_through (build (o :: p)) = m_hb_through (build p) /\ m_auth_id (build (o :: p)) = m_auth_id (build p) /\
       m_auth_through (build (o :: p)) = m_auth_through (build p) /\
       m_urls (build (o :: p)) = m_urls (build p) /\ m_urlids (build (o :: p)) = m_urlids (build p)).
  { rewrite B. destruct (aget k (first_uses p)); [destruct (in_use k p)|]; cbn; auto 20. }
  destruct S as (H3 & H6 & H7 & H8 & H9 & H10 & H11 & H12 & H13 & H14 & H15).
  destruct (urls_kept o p Logic.I H14 H15 I) as [U1 U2].
  assert (NS : forall x, x <> k -> slice_starts x (o :: p) = slice_starts x p /\ ends x (o :: p) = ends x p).
  { intros x N. unfold slice_starts. simpl. apply String.eqb_neq in N. rewrite N. simpl. auto. }
  assert (A : (forall x, aget x (m_amap (build (o :: p))) = option_map (map_anchor (o :: p) x) (aget x (first_uses (o :: p)))) /\
      m_anchors (build (o :: p)) = map (slice_anchor (o :: p)) (first_uses (o :: p))).
  { change (first_uses (o :: p)) with (first_uses p).
    assert (KEEP : in_use k p = false ->
       (forall x, aget x (m_amap (build p)) = option_map (map_anchor (o :: p) x) (aget x (first_uses p))) /\
       m_anchors (build p) = map (slice_anchor (o :: p)) (first_uses p)).
    { intros Eu. split.
      - intros x. rewrite (i_amap p I). destruct (aget x (first_uses p)); auto. simpl. unfold map_anchor. simpl.
        destruct (String.eqb_spec x k); subst; rewrite ?Eu; reflexivity.
      - rewrite (i_anchors p I). apply map_ext. intros [x fx]. unfold slice_anchor, slice_starts. simpl.
        destruct (String.eqb_spec x k); subst; rewrite ?Eu; reflexivity. }
    destruct (aget k (first_uses p)) as [f'|] eqn:E.
    - destruct (in_use k p) eqn:Eu; [|rewrite B; apply KEEP; reflexivity].
      rewrite B. cbn. split.
      + intros x. destruct (String.eqb_spec x k) as [->|N].
        * rewrite E. simpl. unfold map_anchor. simpl. now rewrite String.eqb_refl, Eu.
        * rewrite aget_adel_other, (i_amap p I) by exact N. destruct (aget x (first_uses p)); auto. simpl. unfold map_anchor.
          simpl. apply String.eqb_neq in N. now rewrite N.
      + rewrite (i_anchors p I).
        assert (X : Anchor k f' (starts k p) (ends k p ++ [sd p + 1]) = Anchor k f' (slice_starts k (o :: p)) (ends k (o :: p))).
        { unfold slice_starts. simpl. now rewrite String.eqb_refl, Eu. }
        rewrite X. apply replace_slice; auto. apply first_uses_nodup.
    - rewrite B. cbn. apply KEEP. destruct (not_first_nil k p) as (_ & _ & Un); auto. unfold ahas. now rewrite E. }
  destruct A as [A1 A2].
  clear B. destruct I as [G1 G2 G3 G4 G5 G6 G7 G8 G9 G10 G11 G12 G13]. constructor; auto.
  + now rewrite H3, G1.
  + now rewrite H10, G2.
  + now rewrite H11, G3.
  + now rewrite H12, G4.
  + now rewrite H13, G5.
  + now rewrite H6, G6.
  + intros i. now rewrite H7, G7.
  + intros i. rewrite H8, G8, serving_other by exact Logic.I. now rewrite later_fn.
  + intros i. rewrite H9, G9, serving_other by exact Logic.I. now rewrite later_ix.
Qed.

Lemma inv_all h : Inv h.
Proof.
  induction h as [|o p IH]; [apply inv_new|].
  destruct o; auto using inv_use, inv_unuse, inv_global, inv_add, inv_any, inv_beat, inv_rewrite, inv_auth, inv_onmsg.
Qed.
