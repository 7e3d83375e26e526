(* C119: calls on the client pool made at the same time.  NODEMO *)
From Verif Require Export SpecLin PoolFacts.

Definition running (ts : list qthread) (t : nat) (k : qcall) (p : qpc) : Prop :=
  exists cs, nth_error ts t = Some (QT (Some (k, p)) cs).

Lemma running_upd ts t x t' k p : running (upd ts t x) t' k p ->
  (t' <> t /\ running ts t' k p) \/ (t' = t /\ exists cs, x = QT (Some (k, p)) cs).
Proof.
  intros (cs & H). rewrite nth_upd in H. destruct (Nat.eqb_spec t' t) as [E|E].
  - right. split; [exact E|]. destruct (nth_error ts t); inversion H. eauto.
  - left. split; [exact E|]. exists cs. exact H.
Qed.
Lemma running_keep ts t x t' k p : t' <> t -> running ts t' k p -> running (upd ts t x) t' k p.
Proof. intros N (cs & H). exists cs. rewrite nth_upd. destruct (Nat.eqb_spec t' t); [contradiction|exact H]. Qed.
Lemma running_new ts t y k p cs : nth_error ts t = Some y -> running (upd ts t (QT (Some (k, p)) cs)) t k p.
Proof. intros H. exists cs. rewrite nth_upd, Nat.eqb_refl, H. reflexivity. Qed.

Definition ref_of (w : pworld) (c : nat) : option (option nat) := option_map pc_ref (nth_error (pw_conns w) c).
(* the result of the call that is at p, if it has taken effect *)
Definition effect (w : pworld) (p : qpc) : option qres :=
  match p with
  | AtRet r => Some r
  | AtState c => match ref_of w c with Some (Some _) => Some (RRet POk) | _ => None end
  | _ => None
  end.

Definition closed_so_far (closing : bool) (kk : pconn) : Prop := closing = true -> pc_sock kk = true /\ pc_end kk = true /\ pc_ref kk <> None.
Definition shape (w : pworld) (k : qcall) (p : qpc) : Prop :=
  match p with
  | AtName c u => k = QOnline c u /\ u <> ""%string /\ exists kk, nth_error (pw_conns w) c = Some kk
  | AtSet c u q => k = QOnline c u /\ u <> ""%string /\ exists kk, nth_error (pw_conns w) c = Some kk /\ pc_ref kk = Some q /\ pc_user kk = Some (VStr u)
  | AtSock c => k = QClose c /\ exists kk, nth_error (pw_conns w) c = Some kk
  | AtEnd c => k = QClose c /\ exists kk, nth_error (pw_conns w) c = Some kk /\ pc_sock kk = true
  | AtRead c cl => k = (if cl then QClose c else QOffline c) /\ exists kk, nth_error (pw_conns w) c = Some kk /\ closed_so_far cl kk
  | AtLook c cl q u | AtDel c cl q u => k = (if cl then QClose c else QOffline c) /\
      exists kk, nth_error (pw_conns w) c = Some kk /\ closed_so_far cl kk /\ pc_ref kk = Some q /\ pc_user kk = Some (VStr u)
  | AtState c => k = QClose c /\ exists kk, nth_error (pw_conns w) c = Some kk /\ pc_sock kk = true /\ pc_end kk = true
  | AtGet q u => k = QGet q u
  | AtRet _ => True
  end.

Definition closing_by (w : pworld) (ts : list qthread) (c : nat) : Prop := exists t p, running ts t (QClose c) p /\ effect w p = None.
Definition conn_ok (W A : pworld) (ts : list qthread) (c : nat) : Prop :=
  forall kw, nth_error (pw_conns W) c = Some kw -> exists ka, nth_error (pw_conns A) c = Some ka /\
    pc_ref kw = pc_ref ka /\
    (pc_user kw = pc_user ka \/ exists t k u q, running ts t k (AtSet c u q)) /\
    (pc_sock ka = true -> pc_sock kw = true) /\ (pc_end ka = true -> pc_end kw = true) /\ (pc_online kw = false -> pc_online ka = false) /\
    (pc_sock kw = true -> pc_sock ka = true \/ closing_by W ts c) /\
    (pc_end kw = true -> pc_end ka = true \/ closing_by W ts c) /\
    (pc_online ka = false -> pc_online kw = false \/ exists t k, running ts t k (AtState c)) /\
    (forall t k, running ts t k (AtState c) -> pc_ref ka <> None -> pc_sock ka = true /\ pc_end ka = true /\ pc_online ka = false).
Record agree (W A : pworld) (ts : list qthread) : Prop := Agree {
  g_pools : pw_pools W = pw_pools A;
  g_cur : pw_cur W = pw_cur A;
  g_len : List.length (pw_conns W) = List.length (pw_conns A);
  g_conn : forall c, conn_ok W A ts c }.

Definition compat (k k' : qcall) : Prop := on_conn k = on_conn k' -> on_conn k <> None -> renames k = false /\ renames k' = false.
Definition all_apart (ts : list qthread) : Prop := forall t t' k k' p p', t <> t' -> running ts t k p -> running ts t' k' p' -> compat k k'.
Definition phase (ghost : list iev) (w : pworld) (t : nat) (x : qthread) : Prop :=
  match qt_in x with
  | None => in_turn t (filter (by_thread t) ghost)
  | Some (k, p) =>
      match effect w p with
      | None => exists l, filter (by_thread t) ghost = CBegins t k :: l /\ in_turn t l
      | Some r => exists l, filter (by_thread t) ghost = CActs t k r :: CBegins t k :: l /\ in_turn t l
      end
  end.
Record sim (w0 : pworld) (s : qstate) (ghost : list iev) (A : pworld) : Prop := Sim {
  m_log : flat_map visible ghost = qs_log s;
  m_phase : forall t x, nth_error (qs_threads s) t = Some x -> phase ghost (qs_world s) t x;
  m_none : forall t, nth_error (qs_threads s) t = None -> filter (by_thread t) ghost = [];
  m_seq : one_after_another w0 (flat_map instants ghost) A;
  m_agree : agree (qs_world s) A (qs_threads s);
  m_shape : forall t k p, running (qs_threads s) t k p -> shape (qs_world s) k p;
  m_apart : all_apart (qs_threads s) }.

(* what one access changes *)
Lemma next_refs w p p' w' : qnext w p = Some (p', w') -> forall c, ref_of w' c = ref_of w c.
Proof.
  assert (S : forall c0 k k', nth_error (pw_conns w) c0 = Some k -> pc_ref k' = pc_ref k -> forall c, ref_of (set_conn w c0 k') c = ref_of w c).
  { intros c0 k k' H1 H2 c. unfold ref_of. rewrite set_conn_nth. destruct (Nat.eqb_spec c c0); [subst c0; rewrite H1; cbn; congruence|reflexivity]. }
  destruct p; cbn; intros H c0;
    try (destruct (nth_error (pw_conns w) c) as [k|] eqn:E; [|discriminate]); inversion H; subst; try reflexivity; eapply S; eauto; reflexivity.
Qed.
Lemma next_others w k p p' w' c : qnext w p = Some (p', w') -> shape w k p -> on_conn k <> Some c ->
  nth_error (pw_conns w') c = nth_error (pw_conns w) c.
Proof.
  assert (S : forall c0 k0, c <> c0 -> nth_error (pw_conns (set_conn w c0 k0)) c = nth_error (pw_conns w) c).
  { intros c0 k0 N. rewrite set_conn_nth. destruct (Nat.eqb_spec c c0); [contradiction|reflexivity]. }
  destruct p as [c0 ?|c0 ? ?|c0|c0|c0 cl|c0 cl ? ?|c0 cl ? ?|c0|? ?|?]; cbn; intros H Sh N;
    try (destruct (nth_error (pw_conns w) c0) as [k0|] eqn:E; [|discriminate]); inversion H; subst; try reflexivity;
    apply S; intros ->; destruct Sh as (-> & _); apply N; reflexivity.
Qed.
(* ... and how: references stay, closing is for good, names change only at AtName *)
Lemma next_grows w p p' w' c kk : qnext w p = Some (p', w') -> nth_error (pw_conns w) c = Some kk ->
  exists kk', nth_error (pw_conns w') c = Some kk' /\ pc_ref kk' = pc_ref kk /\ (pc_sock kk = true -> pc_sock kk' = true) /\
    (pc_end kk = true -> pc_end kk' = true) /\ (pc_user kk' = pc_user kk \/ exists u, p = AtName c u).
Proof.
  intros H K.
  assert (S : forall c0 k k', nth_error (pw_conns w) c0 = Some k -> pc_ref k' = pc_ref k -> (pc_sock k = true -> pc_sock k' = true) ->
    (pc_end k = true -> pc_end k' = true) -> (pc_user k' = pc_user k \/ exists u, p = AtName c0 u) -> w' = set_conn w c0 k' ->
    exists kk', nth_error (pw_conns w') c = Some kk' /\ pc_ref kk' = pc_ref kk /\ (pc_sock kk = true -> pc_sock kk' = true) /\
    (pc_end kk = true -> pc_end kk' = true) /\ (pc_user kk' = pc_user kk \/ exists u, p = AtName c u)).
  { intros c0 k k' H1 H2 H3 H4 H5 ->. rewrite set_conn_nth. destruct (Nat.eqb_spec c c0) as [E|E].
    - subst c0. rewrite H1. rewrite K in H1. inversion H1; subst k. exists k'. auto.
    - exists kk. auto 8. }
  destruct p as [c0 u0|c0 ? ?|c0|c0|c0 cl|c0 cl ? ?|c0 cl ? ?|c0|? ?|?]; cbn in H;
    try (destruct (nth_error (pw_conns w) c0) as [k0|] eqn:E; [|discriminate]); inversion H; subst;
    try (exists kk; cbn; auto 8; fail); (eapply (S c0 k0); [exact E| | | | |reflexivity]); cbn; eauto.
Qed.
Lemma effect_refs w w' p : (forall c, ref_of w' c = ref_of w c) -> effect w' p = effect w p.
Proof. intros H. destruct p; cbn; rewrite ?H; reflexivity. Qed.

Lemma shape_keep w p p' w' k0 p0 : qnext w p = Some (p', w') -> shape w k0 p0 ->
  (forall c u, p = AtName c u -> on_conn k0 <> Some c) -> shape w' k0 p0.
Proof.
  intros H S N. pose proof (fun c kk => next_grows w p p' w' c kk H) as G.
  destruct p0 as [c0 ?|c0 ? ?|c0|c0|c0 cl|c0 cl ? ?|c0 cl ? ?|c0|? ?|?]; cbn in *; auto.
  - destruct S as (A & B & kk & K). destruct (G _ _ K) as (kk' & K' & _). eauto.
  - destruct S as (A & B & kk & K & R & U). destruct (G _ _ K) as (kk' & K' & R' & _ & _ & X). repeat split; auto. exists kk'.
    repeat split; [auto|congruence|]. destruct X as [X|(u' & ->)]; [congruence|]. exfalso. eapply N; [reflexivity|]. subst k0. reflexivity.
  - destruct S as (A & kk & K). destruct (G _ _ K) as (kk' & K' & _). eauto.
  - destruct S as (A & kk & K & R). destruct (G _ _ K) as (kk' & K' & _ & X & _). eauto.
  - destruct S as (A & kk & K & R). destruct (G _ _ K) as (kk' & K' & X1 & X2 & X3 & _). split; [auto|]. exists kk'. split; [auto|].
    intros Z. destruct (R Z) as (R1 & R2 & R3). repeat split; auto. congruence.
  - destruct S as (A & kk & K & R & R' & U). destruct (G _ _ K) as (kk' & K' & X1 & X2 & X3 & X). split; [auto|]. exists kk'. split; [auto|]. split; [|split; [congruence|]].
    + intros Z. destruct (R Z) as (R1 & R2 & R3). repeat split; auto. congruence.
    + destruct X as [X|(u' & ->)]; [congruence|]. exfalso. eapply N; [reflexivity|]. subst k0. destruct cl; reflexivity.
  - destruct S as (A & kk & K & R & R' & U). destruct (G _ _ K) as (kk' & K' & X1 & X2 & X3 & X). split; [auto|]. exists kk'. split; [auto|]. split; [|split; [congruence|]].
    + intros Z. destruct (R Z) as (R1 & R2 & R3). repeat split; auto. congruence.
    + destruct X as [X|(u' & ->)]; [congruence|]. exfalso. eapply N; [reflexivity|]. subst k0. destruct cl; reflexivity.
  - destruct S as (A & kk & K & R1 & R2). destruct (G _ _ K) as (kk' & K' & X1 & X2 & X3 & _). split; [auto|]. exists kk'. auto.
Qed.
Lemma shape_new w k p p' w' : qnext w p = Some (p', w') -> shape w k p -> shape w' k p'.
Proof.
  intros H S. destruct p as [c0 ?|c0 ? ?|c0|c0|c0 cl|c0 cl ? ?|c0 cl ? ?|c0|? ?|?]; cbn in H.
  - cbn in S. destruct S as (A & B & kk & K). rewrite K in H. inversion H; subst. destruct (pc_ref kk) as [q|] eqn:R; [|exact I]. cbn [shape]. repeat split; auto.
    exists (store_name kk (VStr u)). rewrite set_conn_nth, Nat.eqb_refl, K. auto.
  - inversion H; subst. exact I.
  - cbn in S. destruct S as (A & kk & K). rewrite K in H. inversion H; subst. cbn [shape]. split; auto. exists (with_sock kk). rewrite set_conn_nth, Nat.eqb_refl, K. auto.
  - cbn in S. destruct S as (A & kk & K & R). rewrite K in H. inversion H; subst.
    assert (X : nth_error (pw_conns (set_conn w c0 (with_end kk))) c0 = Some (with_end kk)) by (rewrite set_conn_nth, Nat.eqb_refl, K; reflexivity).
    destruct (pc_ref kk) as [q|] eqn:Q; cbn [shape]; (split; [auto|]); exists (with_end kk); (split; [exact X|]); cbn; auto.
    intros _. repeat split; auto. cbn. congruence.
  - cbn in S. destruct S as (A & kk & K & R). rewrite K in H. inversion H; subst.
    assert (Z : forall r, shape w' (if cl then QClose c0 else QOffline c0) (after_offline c0 cl r)).
    { intros r. destruct cl; cbn; [|exact I]. split; [reflexivity|]. exists kk. destruct (R eq_refl) as (? & ? & _). auto. }
    destruct (pc_ref kk) as [q|] eqn:Q; [|apply Z]. destruct (pc_user kk) as [[]|] eqn:U; try exact I; try apply Z.
    cbn. split; [reflexivity|]. exists kk. auto.
  - cbn in S. destruct S as (A & kk & K & R & Q & U). inversion H; subst.
    destruct (GetClientPool w' q u).
    + cbn. split; [reflexivity|]. exists kk. auto.
    + destruct cl; cbn; [|exact I]. split; [reflexivity|]. exists kk. destruct (R eq_refl) as (? & ? & _). auto.
  - cbn in S. destruct S as (A & kk & K & R & Q & U). inversion H; subst. destruct cl; cbn; [|exact I]. split; [reflexivity|]. exists kk. destruct (R eq_refl) as (? & ? & _). auto.
  - cbn in S. destruct S as (A & kk & K & R). rewrite K in H. inversion H; subst. exact I.
  - inversion H; subst. exact I.
  - discriminate.
Qed.

Lemma agree_step W A ts t k p p' cs W' A' : agree W A ts -> nth_error ts t = Some (QT (Some (k, p)) cs) -> shape W k p -> shape W' k p' ->
  (forall c, ref_of W' c = ref_of W c) -> pw_pools W' = pw_pools A' -> pw_cur W' = pw_cur A' -> List.length (pw_conns W') = List.length (pw_conns A') ->
  (forall c, on_conn k <> Some c -> nth_error (pw_conns W') c = nth_error (pw_conns W) c /\ nth_error (pw_conns A') c = nth_error (pw_conns A) c) ->
  (forall c, on_conn k = Some c -> conn_ok W' A' (upd ts t (QT (Some (k, p')) cs)) c) ->
  agree W' A' (upd ts t (QT (Some (k, p')) cs)).
Proof.
  intros [GP GC GL GK] T Sh Sh' Rf P C L O K. constructor; auto. intros c.
  destruct (option_map (Nat.eqb c) (on_conn k)) as [[]|] eqn:X.
  1: { apply K. destruct (on_conn k) as [d|]; [|discriminate]. cbn in X. inversion X as [X']. apply Nat.eqb_eq in X'. congruence. }
  all: assert (NC : on_conn k <> Some c) by (intros Z; rewrite Z in X; cbn in X; rewrite ?Nat.eqb_refl in X; discriminate).
  all: destruct (O c NC) as (O1 & O2).
  all: intros kw Hw; rewrite O1 in Hw; destruct (GK c kw Hw) as (ka & Ka & R & U & S1 & E1 & ON1 & S2 & E2 & ON2 & LS).
  all: assert (Other : forall k0 p0, running ts t k0 p0 -> k0 = k /\ p0 = p) by (intros k0 p0 (cs0 & H0); rewrite T in H0; inversion H0; auto).
  all: assert (CB : closing_by W ts c -> closing_by W' (upd ts t (QT (Some (k, p')) cs)) c) by
    (intros (t0 & p0 & R0 & E0); destruct (Nat.eq_dec t0 t) as [->|N]; [destruct (Other _ _ R0) as (<- & _); exfalso; apply NC; reflexivity|];
     exists t0, p0; split; [apply running_keep; auto|rewrite (effect_refs W W'); auto]).
  all: exists ka; rewrite O2; repeat split; auto.
  all: try (destruct U as [U|(t0 & k0 & u & q & R0)]; [left; auto|right]; destruct (Nat.eq_dec t0 t) as [->|N];
    [destruct (Other _ _ R0) as (-> & <-); exfalso; apply NC; destruct Sh as (-> & _); reflexivity|]; exists t0, k0, u, q; apply running_keep; auto; fail).
  all: try (intros Z; destruct (S2 Z); auto; fail).
  all: try (intros Z; destruct (E2 Z); auto; fail).
  all: try (intros Z; destruct (ON2 Z) as [?|(t0 & k0 & R0)]; [auto|right]; destruct (Nat.eq_dec t0 t) as [->|N];
    [destruct (Other _ _ R0) as (-> & <-); exfalso; apply NC; destruct Sh as (-> & _); reflexivity|]; exists t0, k0; apply running_keep; auto; fail).
  all: destruct (running_upd _ _ _ _ _ _ H) as [(N & R0)|(-> & cs0 & Y)]; [apply (LS _ _ R0); auto|].
  all: inversion Y; subst; exfalso; apply NC; destruct Sh' as (-> & _); reflexivity.
Qed.

Lemma user_eq W A ts t k p c kw ka : agree W A ts -> all_apart ts -> (forall t k p, running ts t k p -> shape W k p) ->
  running ts t k p -> on_conn k = Some c -> (forall u q, p <> AtSet c u q) ->
  nth_error (pw_conns W) c = Some kw -> nth_error (pw_conns A) c = Some ka -> pc_user kw = pc_user ka.
Proof.
  intros G AA SH R C NS Hw Ha. destruct (g_conn _ _ _ G c kw Hw) as (ka' & Ha' & _ & U & _). rewrite Ha in Ha'. inversion Ha'; subst ka'.
  destruct U as [U|(t0 & k0 & u & q & R0)]; [exact U|exfalso].
  destruct (SH _ _ _ R0) as (-> & _). destruct (Nat.eq_dec t0 t) as [->|N].
  - destruct R as (cs & R), R0 as (cs0 & R0). rewrite R in R0. inversion R0; subst. eapply NS; reflexivity.
  - destruct (AA t0 t _ _ _ _ N R0 R) as (X & _); [cbn; congruence|discriminate|]. discriminate.
Qed.

Lemma adel_absent {V} (u : string) (m : list (string * V)) : aget u m = None -> adel u m = m.
Proof.
  induction m as [|[k v] m IH]; cbn; [reflexivity|]. destruct (String.eqb u k); intros H; [discriminate H|]. rewrite IH by auto. reflexivity.
Qed.
Lemma PoolOffline_del w p u : pw_pools (PoolOffline w p u) = pw_pools (DeleteFromClientPool w p u).
Proof.
  unfold PoolOffline. destruct (GetClientPool w p u) eqn:G; [reflexivity|]. unfold DeleteFromClientPool. unfold GetClientPool in G. rewrite (adel_absent _ _ G).
  unfold set_pool. cbn. destruct (nth_error (pw_pools w) p) as [m|] eqn:N.
  - symmetry. apply upd_same. unfold pool_at. rewrite N. f_equal. symmetry. apply nth_error_nth. exact N.
  - clear G. unfold pool_at. revert p N. induction (pw_pools w) as [|x l IH]; intros [|p] N; cbn in *; try reflexivity; try discriminate. f_equal. apply IH. exact N.
Qed.

Lemma ok_same W A ts t k p p' cs W' A' c : agree W A ts -> nth_error ts t = Some (QT (Some (k, p)) cs) -> (forall c, ref_of W' c = ref_of W c) ->
  nth_error (pw_conns W') c = nth_error (pw_conns W) c -> nth_error (pw_conns A') c = nth_error (pw_conns A) c ->
  (forall u q, p <> AtSet c u q) -> p <> AtState c -> p' <> AtState c -> k <> QClose c \/ effect W' p' = None ->
  conn_ok W' A' (upd ts t (QT (Some (k, p')) cs)) c.
Proof.
  intros G T Rf HW HA NS N1 N2 NC kw Hw. rewrite HW in Hw. destruct (g_conn _ _ _ G c kw Hw) as (ka & Ka & R & U & S1 & E1 & O1 & S2 & E2 & O2 & LS).
  assert (Mine : forall k0 p0, running ts t k0 p0 -> k0 = k /\ p0 = p) by (intros k0 p0 (cs0 & H0); rewrite T in H0; inversion H0; auto).
  assert (Keep : forall t0 k0 p0, running ts t0 k0 p0 -> p0 <> p -> running (upd ts t (QT (Some (k, p')) cs)) t0 k0 p0).
  { intros t0 k0 p0 R0 N. destruct (Nat.eq_dec t0 t) as [->|E]; [destruct (Mine _ _ R0); contradiction|apply running_keep; auto]. }
  assert (CK : closing_by W ts c -> closing_by W' (upd ts t (QT (Some (k, p')) cs)) c).
  { intros (t0 & p0 & R0 & E0). destruct (Nat.eq_dec t0 t) as [->|E].
    - destruct (Mine _ _ R0) as (<- & _). destruct NC as [NC|NC]; [contradiction|]. exists t, p'. split; [eapply running_new; eauto|exact NC].
    - exists t0, p0. split; [apply running_keep; auto|rewrite (effect_refs W W'); auto]. }
  exists ka. rewrite HA. split; [exact Ka|]. split; [exact R|]. split; [|split; [|split; [|split; [|split; [|split; [|split]]]]]]; auto.
  - destruct U as [|(t0 & k0 & u & q & R0)]; [auto|right]. exists t0, k0, u, q. apply Keep; auto.
  - intros Z. destruct (S2 Z); auto.
  - intros Z. destruct (E2 Z); auto.
  - intros Z. destruct (O2 Z) as [|(t0 & k0 & R0)]; auto. right. exists t0, k0. apply Keep; auto.
  - intros t0 k0 R0 NR. destruct (running_upd _ _ _ _ _ _ R0) as [(_ & X)|(-> & cs0 & Y)]; [eapply LS; eauto|]. inversion Y; subst. destruct N2; reflexivity.
Qed.
Lemma ok_closed W A ts t k p p' cs W' A' c kk ka on : agree W A ts -> nth_error ts t = Some (QT (Some (k, p)) cs) ->
  nth_error (pw_conns W') c = nth_error (pw_conns W) c -> nth_error (pw_conns W) c = Some kk -> nth_error (pw_conns A) c = Some ka ->
  pc_user kk = pc_user ka -> pc_sock kk = true -> pc_end kk = true ->
  nth_error (pw_conns A') c = Some (PConn (pc_ref ka) (pc_user ka) on true true) -> p <> AtState c ->
  (on = false /\ p' = AtState c \/ on = pc_online ka /\ p' <> AtState c) -> conn_ok W' A' (upd ts t (QT (Some (k, p')) cs)) c.
Proof.
  intros G T HW K Ka UE Sk En HA N1 Cs kw Hw. rewrite HW, K in Hw. inversion Hw; subst kw.
  destruct (g_conn _ _ _ G c kk K) as (ka' & Ka' & R & U & S1 & E1 & O1 & S2 & E2 & O2 & LS). rewrite Ka in Ka'. inversion Ka'; subst ka'.
  assert (Mine : forall k0 p0, running ts t k0 p0 -> k0 = k /\ p0 = p) by (intros k0 p0 (cs0 & H0); rewrite T in H0; inversion H0; auto).
  assert (Keep : forall t0 k0 p0, running ts t0 k0 p0 -> p0 <> p -> running (upd ts t (QT (Some (k, p')) cs)) t0 k0 p0).
  { intros t0 k0 p0 R0 N. destruct (Nat.eq_dec t0 t) as [->|E]; [destruct (Mine _ _ R0); contradiction|apply running_keep; auto]. }
  eexists. split; [exact HA|]. cbn. split; [exact R|]. split; [auto|]. split; [|split; [|split; [|split; [|split; [|split]]]]]; auto.
  - destruct Cs as [(-> & _)|(-> & _)]; auto.
  - destruct Cs as [(-> & ->)|(-> & NP)].
    + intros _. right. exists t, k. eapply running_new; eauto.
    + intros Z. destruct (O2 Z) as [|(t0 & k0 & R0)]; auto. right. exists t0, k0. apply Keep; auto.
  - intros t0 k0 R0 NR. repeat split; auto. destruct Cs as [(-> & _)|(-> & NP)]; [reflexivity|].
    destruct (running_upd _ _ _ _ _ _ R0) as [(_ & X)|(-> & cs0 & Y)]; [eapply LS; eauto|]. inversion Y; subst. destruct NP; reflexivity.
Qed.

Lemma upd_upd {X} (l : list X) i a b : upd (upd l i a) i b = upd l i b.
Proof. revert i. induction l as [|x l IH]; intros [|i]; cbn; try reflexivity. f_equal. apply IH. Qed.
Lemma PoolOffline_whole w q u : PoolOffline w q u = PW (pw_conns w) (pw_pools (DeleteFromClientPool w q u)) (pw_cur w).
Proof.
  destruct (PoolOffline_conns w q u) as (C1 & _ & C2). rewrite <- PoolOffline_del. destruct (PoolOffline w q u) as [a b c]; cbn in *. congruence.
Qed.
Definition shut (A : pworld) (c : nat) (ka : pconn) (pools : list cpool) : pworld :=
  PW (upd (pw_conns A) c (PConn (pc_ref ka) (pc_user ka) false true true)) pools (pw_cur A).
Lemma close_at_once A c ka : nth_error (pw_conns A) c = Some ka -> at_once (QClose c) A =
  match pc_ref ka with
  | None => (RRet POk, shut A c ka (pw_pools A))
  | Some q => match pc_user ka with
              | None => (RRet POk, shut A c ka (pw_pools A))
              | Some (VStr u) => (RRet POk, shut A c ka (pw_pools (DeleteFromClientPool A q u)))
              | Some _ => (RRet PPanic, PW (upd (pw_conns A) c (PConn (pc_ref ka) (pc_user ka) (pc_online ka) true true)) (pw_pools A) (pw_cur A))
              end
  end.
Proof.
  intros Ka. unfold at_once, pstep, pon, shut. rewrite Ka. unfold CloseConn, Offline. cbn -[PoolOffline].
  destruct (pc_ref ka) as [q|]; [|unfold set_conn; cbn; rewrite upd_upd; reflexivity].
  destruct (pc_user ka) as [[u| |]|]; try reflexivity; try (unfold set_conn; cbn; rewrite upd_upd; reflexivity).
  rewrite PoolOffline_whole. unfold set_conn, DeleteFromClientPool, set_pool. cbn. rewrite upd_upd. reflexivity.
Qed.
Lemma offline_at_once A c ka : nth_error (pw_conns A) c = Some ka -> at_once (QOffline c) A =
  match pc_ref ka with
  | None => (RRet PErr, A)
  | Some q => match pc_user ka with
              | None => (RRet PErr, A)
              | Some (VStr u) => (RRet POk, PW (pw_conns A) (pw_pools (DeleteFromClientPool A q u)) (pw_cur A))
              | Some _ => (RRet PPanic, A)
              end
  end.
Proof.
  intros Ka. unfold at_once, pstep, pon. rewrite Ka. unfold Offline. destruct (pc_ref ka) as [q|]; [|reflexivity].
  destruct (pc_user ka) as [[u| |]|]; try reflexivity. rewrite PoolOffline_whole. reflexivity.
Qed.
Lemma close_lin W A ts t p cs p' W' A' c kk ka on : agree W A ts -> nth_error ts t = Some (QT (Some (QClose c, p)) cs) ->
  shape W (QClose c) p -> shape W' (QClose c) p' -> (forall c, ref_of W' c = ref_of W c) -> pw_conns W' = pw_conns W -> pw_pools W' = pw_pools A' -> pw_cur W' = pw_cur A' ->
  nth_error (pw_conns W) c = Some kk -> nth_error (pw_conns A) c = Some ka -> pc_user kk = pc_user ka -> pc_sock kk = true -> pc_end kk = true ->
  pw_conns A' = upd (pw_conns A) c (PConn (pc_ref ka) (pc_user ka) on true true) -> p <> AtState c ->
  (on = false /\ p' = AtState c \/ on = pc_online ka /\ p' <> AtState c) -> agree W' A' (upd ts t (QT (Some (QClose c, p')) cs)).
Proof.
  intros G T Sh Sh' Rf CW PA CA K Ka UE Sk En HA N1 Cs. eapply agree_step; eauto.
  - rewrite CW, HA, upd_length. apply (g_len _ _ _ G).
  - intros c0 X. rewrite CW, HA, nth_upd. split; [reflexivity|]. destruct (Nat.eqb_spec c0 c); [subst; destruct X; reflexivity|reflexivity].
  - intros c0 X. inversion X; subst c0. eapply (ok_closed W A ts t (QClose c) p p' cs W' A' c kk ka on); eauto; [rewrite CW; reflexivity|]. rewrite HA, nth_upd, Nat.eqb_refl, Ka. reflexivity.
Qed.
Lemma offline_lin W A ts t p cs p' W' A' c : agree W A ts -> nth_error ts t = Some (QT (Some (QOffline c, p)) cs) ->
  shape W (QOffline c) p -> shape W' (QOffline c) p' -> (forall c, ref_of W' c = ref_of W c) -> pw_conns W' = pw_conns W -> pw_pools W' = pw_pools A' -> pw_cur W' = pw_cur A' ->
  pw_conns A' = pw_conns A -> agree W' A' (upd ts t (QT (Some (QOffline c, p')) cs)).
Proof.
  intros G T Sh Sh' Rf CW PA CA HA. eapply agree_step; eauto.
  - rewrite CW, HA. apply (g_len _ _ _ G).
  - intros c0 X. rewrite CW, HA. auto.
  - intros c0 X. inversion X; subst c0. eapply ok_same; eauto; try (rewrite ?CW, ?HA; reflexivity).
    + intros u q ->. destruct Sh; discriminate.
    + intros ->. destruct Sh; discriminate.
    + intros ->. destruct Sh'; discriminate.
    + left. discriminate.
Qed.

Ltac side := first [assumption | solve [unfold shut; cbn [pw_pools pw_cur pw_conns]; congruence] | reflexivity | exact I | discriminate | congruence | solve [cbn; eauto 8] | solve [cbn; split; [reflexivity|]; eexists; repeat split; eauto; congruence] | solve [left; split; [reflexivity|reflexivity]] | solve [right; split; [reflexivity|discriminate]] | solve [auto] ].
(* one access: either nothing takes effect, or the call does, with the result it will return *)
Lemma lin_step W A ts t k p cs p' W' : agree W A ts -> all_apart ts -> (forall t k p, running ts t k p -> shape W k p) ->
  nth_error ts t = Some (QT (Some (k, p)) cs) -> qnext W p = Some (p', W') ->
  exists A', agree W' A' (upd ts t (QT (Some (k, p')) cs)) /\
    ((effect W' p' = effect W p /\ A' = A) \/ (effect W p = None /\ exists r, effect W' p' = Some r /\ at_once k A = (r, A'))).
Proof.
  intros G AA SH T Nx.
  assert (Run : running ts t k p) by (exists cs; exact T).
  pose proof (SH _ _ _ Run) as Sh. pose proof (shape_new _ _ _ _ _ Nx Sh) as Sh'. pose proof (next_refs _ _ _ _ Nx) as Rf.
  pose proof (fun c => next_others _ _ _ _ _ c Nx Sh) as Ot.
  assert (Mine : forall k0 p0, running ts t k0 p0 -> k0 = k /\ p0 = p) by (intros k0 p0 (cs0 & H0); rewrite T in H0; inversion H0; auto).
  assert (New : running (upd ts t (QT (Some (k, p')) cs)) t k p') by (eapply running_new; eauto).
  assert (Keep : forall t0 k0 p0, running ts t0 k0 p0 -> (k0 = k -> p0 = p -> False) -> running (upd ts t (QT (Some (k, p')) cs)) t0 k0 p0).
  { intros t0 k0 p0 R0 N. destruct (Nat.eq_dec t0 t) as [->|E]; [destruct (Mine _ _ R0) as (X & Y); destruct (N X Y)|apply running_keep; auto]. }
  assert (Old : forall t0 k0 p0, running (upd ts t (QT (Some (k, p')) cs)) t0 k0 p0 -> (k0 = k -> p0 = p' -> False) -> running ts t0 k0 p0).
  { intros t0 k0 p0 R0 N. destruct (running_upd _ _ _ _ _ _ R0) as [(_ & X)|(-> & cs0 & Y)]; [exact X|]. inversion Y; subst. destruct N; reflexivity. }
  assert (CK : forall c, (k <> QClose c \/ effect W p <> None) -> closing_by W ts c -> closing_by W' (upd ts t (QT (Some (k, p')) cs)) c).
  { intros c N (t0 & p0 & R0 & E0). exists t0, p0. split; [|rewrite (effect_refs W W'); auto]. apply Keep; auto. intros X Y. destruct N; congruence. }
  assert (CN : forall c, k = QClose c -> effect W' p' = None -> closing_by W' (upd ts t (QT (Some (k, p')) cs)) c).
  { intros c -> E. exists t, p'. auto. }
  assert (SA : forall c0 k0 (Ax : pworld), (forall c, on_conn k <> Some c -> c <> c0) -> forall c, on_conn k <> Some c ->
     nth_error (pw_conns (set_conn Ax c0 k0)) c = nth_error (pw_conns Ax) c).
  { intros c0 k0 Ax N c X. rewrite set_conn_nth. destruct (Nat.eqb_spec c c0) as [E|E]; [destruct (N _ X E)|reflexivity]. }
  destruct G as [GP GC GL GK].
  assert (G : agree W A ts) by (constructor; assumption).
  destruct p as [c u|c u q|c|c|c cl|c cl q u|c cl q u|c|q u|r]; cbn in Nx.
  (* AtName *)
  - destruct Sh as (-> & NE & kk & K). rewrite K in Nx. inversion Nx; subst p' W'; clear Nx.
    destruct (GK c kk K) as (ka & Ka & R & U & S1 & E1 & O1 & S2 & E2 & O2 & LS).
    destruct (pc_ref kk) as [q|] eqn:Q.
    + exists A. split; [|left; split; reflexivity].
      eapply agree_step; eauto; [cbn; rewrite upd_length; auto|]. intros c' X. inversion X; subst c'. intros kw Hw.
      rewrite set_conn_nth, Nat.eqb_refl, K in Hw. inversion Hw; subst kw. exists ka. cbn. repeat split; auto; try congruence.
      * right. eauto.
      * intros Z. destruct (S2 Z); auto. right. apply CK; auto. left. discriminate.
      * intros Z. destruct (E2 Z); auto. right. apply CK; auto. left. discriminate.
      * intros Z. destruct (O2 Z) as [|(t0 & k0 & R0)]; auto. right. exists t0, k0. apply Keep; auto. intros; discriminate.
      * eapply LS; eauto. eapply Old; eauto. discriminate.
      * eapply LS; eauto. eapply Old; eauto. discriminate.
      * eapply LS; eauto. eapply Old; eauto. discriminate.
    + exists (set_conn A c (store_name ka (VStr u))). split.
      * eapply agree_step; eauto; [cbn; rewrite !upd_length; auto| |].
        { intros c' X. split; [apply Ot; auto|]. apply SA; auto. intros c0 Y ->. apply Y. reflexivity. }
        intros c' X. inversion X; subst c'. intros kw Hw. rewrite set_conn_nth, Nat.eqb_refl, K in Hw. inversion Hw; subst kw.
        exists (store_name ka (VStr u)). rewrite set_conn_nth, Nat.eqb_refl, Ka. cbn. repeat split; auto; try congruence.
        -- intros Z. destruct (S2 Z); auto. right. apply CK; auto. left. discriminate.
        -- intros Z. destruct (E2 Z); auto. right. apply CK; auto. left. discriminate.
        -- intros Z. destruct (O2 Z) as [|(t0 & k0 & R0)]; auto. right. exists t0, k0. apply Keep; auto. intros; discriminate.
      * right. split; [reflexivity|]. exists (RRet PErr). split; [reflexivity|]. cbn. unfold pon, Online. rewrite Ka. cbn.
        destruct (String.eqb_spec u ""); [contradiction|]. rewrite <- R. reflexivity.
  (* AtSet *)
  - destruct Sh as (-> & NE & kk & K & Q & Us). inversion Nx; subst p' W'; clear Nx.
    destruct (GK c kk K) as (ka & Ka & R & U & S1 & E1 & O1 & S2 & E2 & O2 & LS).
    exists (SetClientPool (set_conn A c (store_name ka (VStr u))) q u c). split.
    + eapply agree_step; eauto.
      * cbn. unfold pool_at. cbn. rewrite GP. reflexivity.
      * cbn. rewrite upd_length. auto.
      * intros c' X. split; [reflexivity|]. apply (SA c (store_name ka (VStr u)) A); auto. intros c0 Y ->. apply Y. reflexivity.
      * intros c' X. inversion X; subst c'. intros kw Hw. cbn in Hw. rewrite K in Hw. inversion Hw; subst kw.
        exists (store_name ka (VStr u)). split; [change (nth_error (pw_conns (set_conn A c (store_name ka (VStr u)))) c = Some (store_name ka (VStr u))); rewrite set_conn_nth, Nat.eqb_refl, Ka; reflexivity|].
        cbn. repeat split; auto; try congruence.
        -- intros Z. destruct (S2 Z); auto. right. apply CK; auto. left. discriminate.
        -- intros Z. destruct (E2 Z); auto. right. apply CK; auto. left. discriminate.
        -- intros Z. destruct (O2 Z) as [|(t0 & k0 & R0)]; auto. right. exists t0, k0. apply Keep; auto. intros; discriminate.
        -- eapply LS; eauto. eapply Old; eauto. discriminate.
        -- eapply LS; eauto. eapply Old; eauto. discriminate.
        -- eapply LS; eauto. eapply Old; eauto. discriminate.
    + right. split; [reflexivity|]. exists (RRet POk). split; [reflexivity|]. cbn. unfold pon, Online. rewrite Ka. cbn.
      destruct (String.eqb_spec u ""); [contradiction|]. rewrite <- R, Q. reflexivity.
  (* AtSock *)
  - destruct Sh as (-> & kk & K). rewrite K in Nx. inversion Nx; subst p' W'; clear Nx.
    destruct (GK c kk K) as (ka & Ka & R & U & S1 & E1 & O1 & S2 & E2 & O2 & LS).
    exists A. split; [|left; split; reflexivity].
    eapply agree_step; eauto; [cbn; rewrite upd_length; auto|]. intros c' X. inversion X; subst c'. intros kw Hw.
    rewrite set_conn_nth, Nat.eqb_refl, K in Hw. inversion Hw; subst kw. exists ka. cbn. repeat split; auto; try congruence.
    + destruct U as [|(t0 & k0 & u & q & R0)]; [auto|right]. exists t0, k0, u, q. apply Keep; auto. intros; discriminate.
    + intros Z. destruct (O2 Z) as [|(t0 & k0 & R0)]; auto. right. exists t0, k0. apply Keep; auto. intros; discriminate.
    + eapply LS; eauto. eapply Old; eauto. discriminate.
    + eapply LS; eauto. eapply Old; eauto. discriminate.
    + eapply LS; eauto. eapply Old; eauto. discriminate.
  (* AtEnd *)
  - destruct Sh as (-> & kk & K & Sk). rewrite K in Nx. inversion Nx; subst p' W'; clear Nx.
    destruct (GK c kk K) as (ka & Ka & R & U & S1 & E1 & O1 & S2 & E2 & O2 & LS).
    assert (EN : effect (set_conn W c (with_end kk)) (match pc_ref kk with Some _ => AtRead c true | None => AtState c end) = None).
    { rewrite (effect_refs W _ _ Rf). destruct (pc_ref kk) eqn:Q; [reflexivity|]. cbn. unfold ref_of. rewrite K. cbn. rewrite Q. reflexivity. }
    exists A. split; [|left; split; [rewrite EN; reflexivity|reflexivity]].
    eapply agree_step; eauto; [cbn; rewrite upd_length; auto|]. intros c' X. inversion X; subst c'. intros kw Hw.
    rewrite set_conn_nth, Nat.eqb_refl, K in Hw. inversion Hw; subst kw. exists ka. cbn. split; [exact Ka|]. split; [exact R|]. split; [|split; [|split; [|split; [|split; [|split; [|split]]]]]]; auto; try congruence.
    + destruct U as [|(t0 & k0 & u & q & R0)]; [auto|right]. exists t0, k0, u, q. apply Keep; auto. intros; discriminate.
    + intros Z. destruct (O2 Z) as [|(t0 & k0 & R0)]; auto. right. exists t0, k0. apply Keep; auto. intros; discriminate.
    + intros t0 k0 R0 NR. eapply LS; eauto. eapply Old; eauto. intros _. destruct (pc_ref kk); [discriminate|congruence].
  (* AtRead *)
  - destruct Sh as (-> & kk & K & CS). rewrite K in Nx. inversion Nx; subst p' W'; clear Nx.
    destruct (GK c kk K) as (ka & Ka & R & U & S1 & E1 & O1 & S2 & E2 & O2 & LS).
    assert (UE : pc_user kk = pc_user ka) by (eapply user_eq; eauto; [destruct cl; reflexivity|discriminate]).
    assert (St : cl = true -> shape W (QClose c) (AtState c)) by (intros Z; cbn; split; [reflexivity|]; exists kk; destruct (CS Z) as (? & ? & _); auto).
    assert (Ef : cl = true -> effect W (AtState c) = Some (RRet POk)).
    { intros Z. cbn. unfold ref_of. rewrite K. cbn. destruct (CS Z) as (_ & _ & X). destruct (pc_ref kk); [reflexivity|congruence]. }
    destruct (pc_ref kk) as [q|] eqn:Q.
    2: { destruct cl; [destruct (CS eq_refl) as (_ & _ & X); congruence|]. exists A. split; [eapply offline_lin; eauto; exact I|].
      right. split; [reflexivity|]. eexists. split; [reflexivity|]. rewrite (offline_at_once _ _ _ Ka), <- R. reflexivity. }
    destruct (pc_user kk) as [[u| |]|] eqn:Us.
    1: { exists A. split; [|left; split; reflexivity]. eapply agree_step; eauto. intros c' X.
      assert (c' = c) by (destruct cl; inversion X; reflexivity). subst c'. eapply ok_same; eauto; try discriminate; try (right; reflexivity). }
    1-2: destruct cl;
      [destruct (CS eq_refl) as (C1 & C2 & C3);
       exists (PW (upd (pw_conns A) c (PConn (pc_ref ka) (pc_user ka) (pc_online ka) true true)) (pw_pools A) (pw_cur A)); split;
         [eapply (close_lin W A ts t (AtRead c true) cs _ _ _ c kk ka); side
         |right; split; [reflexivity|]; eexists; split; [reflexivity|]; rewrite (close_at_once _ _ _ Ka), <- R, <- UE; reflexivity]
      |exists A; split; [eapply offline_lin; eauto; exact I|right; split; [reflexivity|]; eexists; split; [reflexivity|]; rewrite (offline_at_once _ _ _ Ka), <- R, <- UE; reflexivity]].
    destruct cl.
    + destruct (CS eq_refl) as (C1 & C2 & C3). exists (shut A c ka (pw_pools A)). split.
      * eapply (close_lin W A ts t (AtRead c true) cs _ _ _ c kk ka); side.
      * right. split; [reflexivity|]. eexists. split; [apply Ef; reflexivity|]. rewrite (close_at_once _ _ _ Ka), <- R, <- UE. reflexivity.
    + exists A. split; [eapply offline_lin; eauto; exact I|]. right. split; [reflexivity|]. eexists. split; [reflexivity|].
      rewrite (offline_at_once _ _ _ Ka), <- R, <- UE. reflexivity.
  (* AtLook *)
  - destruct Sh as (-> & kk & K & CS & Q & Us). inversion Nx; subst p' W'; clear Nx.
    destruct (GK c kk K) as (ka & Ka & R & U & S1 & E1 & O1 & S2 & E2 & O2 & LS).
    assert (UE : pc_user kk = pc_user ka) by (eapply user_eq; eauto; [destruct cl; reflexivity|discriminate]).
    assert (St : cl = true -> shape W (QClose c) (AtState c)) by (intros Z; cbn; split; [reflexivity|]; exists kk; destruct (CS Z) as (? & ? & _); auto).
    assert (Ef : cl = true -> effect W (AtState c) = Some (RRet POk)) by (intros Z; cbn; unfold ref_of; rewrite K; cbn; rewrite Q; reflexivity).
    destruct (GetClientPool W q u) as [d|] eqn:GC'.
    + exists A. split; [|left; split; reflexivity]. eapply agree_step; eauto. intros c' X.
      assert (c' = c) by (destruct cl; inversion X; reflexivity). subst c'. eapply ok_same; eauto; try discriminate; try (right; reflexivity).
    + assert (PD : pw_pools (DeleteFromClientPool A q u) = pw_pools A).
      { rewrite <- PoolOffline_del. unfold PoolOffline. unfold GetClientPool, pool_at in *. rewrite <- GP, GC'. auto using eq_sym. }
      destruct cl.
      * destruct (CS eq_refl) as (C1 & C2 & C3). exists (shut A c ka (pw_pools A)). split.
        -- eapply (close_lin W A ts t (AtLook c true q u) cs _ _ _ c kk ka); side.
        -- right. split; [reflexivity|]. eexists. split; [apply Ef; reflexivity|]. rewrite (close_at_once _ _ _ Ka), <- R, <- UE, Q, Us, PD. reflexivity.
      * exists (PW (pw_conns A) (pw_pools (DeleteFromClientPool A q u)) (pw_cur A)). split.
        -- eapply (offline_lin W A ts t (AtLook c false q u)); side.
        -- right. split; [reflexivity|]. eexists. split; [reflexivity|]. rewrite (offline_at_once _ _ _ Ka), <- R, <- UE, Q, Us. reflexivity.
  (* AtDel *)
  - destruct Sh as (-> & kk & K & CS & Q & Us). inversion Nx; subst p' W'; clear Nx.
    destruct (GK c kk K) as (ka & Ka & R & U & S1 & E1 & O1 & S2 & E2 & O2 & LS).
    assert (UE : pc_user kk = pc_user ka) by (eapply user_eq; eauto; [destruct cl; reflexivity|discriminate]).
    assert (St : cl = true -> shape W (QClose c) (AtState c)) by (intros Z; cbn; split; [reflexivity|]; exists kk; destruct (CS Z) as (? & ? & _); auto).
    assert (Ef : effect (DeleteFromClientPool W q u) (AtState c) = Some (RRet POk)) by (cbn; unfold ref_of; cbn; rewrite K; cbn; rewrite Q; reflexivity).
    assert (PD : pw_pools (DeleteFromClientPool W q u) = pw_pools (DeleteFromClientPool A q u)) by (cbn; unfold pool_at; rewrite GP; reflexivity).
    destruct cl.
    + destruct (CS eq_refl) as (C1 & C2 & C3). exists (shut A c ka (pw_pools (DeleteFromClientPool A q u))). split.
      * eapply (close_lin W A ts t (AtDel c true q u) cs _ _ _ c kk ka); side.
      * right. split; [reflexivity|]. eexists. split; [exact Ef|]. rewrite (close_at_once _ _ _ Ka), <- R, <- UE, Q, Us. reflexivity.
    + exists (PW (pw_conns A) (pw_pools (DeleteFromClientPool A q u)) (pw_cur A)). split.
      * eapply (offline_lin W A ts t (AtDel c false q u)); side.
      * right. split; [reflexivity|]. eexists. split; [reflexivity|]. rewrite (offline_at_once _ _ _ Ka), <- R, <- UE, Q, Us. reflexivity.
  (* AtState *)
  - destruct Sh as (-> & kk & K & Sk & En). rewrite K in Nx. inversion Nx; subst p' W'; clear Nx.
    destruct (GK c kk K) as (ka & Ka & R & U & S1 & E1 & O1 & S2 & E2 & O2 & LS).
    assert (UE : pc_user kk = pc_user ka) by (eapply user_eq; eauto; [reflexivity|discriminate]).
    destruct (pc_ref kk) as [q|] eqn:Q.
    + destruct (LS t _ Run) as (L1 & L2 & L3); [congruence|].
      exists A. split; [|left; split; [cbn; unfold ref_of; rewrite K; cbn; rewrite Q; reflexivity|reflexivity]].
      eapply agree_step; eauto; [cbn; rewrite upd_length; auto|]. intros c' X. inversion X; subst c'. intros kw Hw.
      rewrite set_conn_nth, Nat.eqb_refl, K in Hw. inversion Hw; subst kw. exists ka. cbn. split; [exact Ka|]. split; [congruence|]. split; [|split; [|split; [|split; [|split; [|split; [|split]]]]]]; auto.
    + exists (shut A c ka (pw_pools A)). split.
      * eapply agree_step; eauto; [cbn; rewrite !upd_length; auto| |].
        { intros c0 X. split; [apply Ot; auto|]. cbn. rewrite nth_upd. destruct (Nat.eqb_spec c0 c); [subst; destruct X; reflexivity|reflexivity]. }
        intros c' X. inversion X; subst c'. intros kw Hw. rewrite set_conn_nth, Nat.eqb_refl, K in Hw. inversion Hw; subst kw.
        eexists. split; [cbn; rewrite nth_upd, Nat.eqb_refl, Ka; reflexivity|]. cbn. split; [congruence|]. split; [|split; [|split; [|split; [|split; [|split; [|split]]]]]]; auto.
      * right. split; [cbn; unfold ref_of; rewrite K; cbn; rewrite Q; reflexivity|]. eexists. split; [reflexivity|]. rewrite (close_at_once _ _ _ Ka), <- R. reflexivity.
  (* AtGet *)
  - cbn in Sh. subst k. inversion Nx; subst p' W'; clear Nx. exists A. split.
    + eapply agree_step; eauto; try reflexivity; discriminate.
    + right. split; [reflexivity|]. eexists. split; [reflexivity|]. cbn. unfold GetClientPool, pool_at. rewrite GP. reflexivity.
  - discriminate.
Qed.

(* the beginning and the end of a call *)
Lemma agree_swap W A ts t x y : agree W A ts -> nth_error ts t = Some x ->
  (forall k p, qt_in x = Some (k, p) -> exists r, p = AtRet r) -> (forall k c, qt_in y <> Some (k, AtState c)) -> agree W A (upd ts t y).
Proof.
  intros [GP GC GL GK] T Ret NS. constructor; auto. intros c kw Hw.
  destruct (GK c kw Hw) as (ka & Ka & R & U & S1 & E1 & ON1 & S2 & E2 & ON2 & LS).
  assert (Keep : forall t0 k0 p0, running ts t0 k0 p0 -> (forall r, p0 <> AtRet r) -> running (upd ts t y) t0 k0 p0).
  { intros t0 k0 p0 R0 N. apply running_keep; [|exact R0]. intros ->. destruct R0 as (cs & R0). rewrite T in R0. inversion R0; subst x.
    destruct (Ret _ _ eq_refl) as (r & ->). apply (N r). reflexivity. }
  assert (CB : closing_by W ts c -> closing_by W (upd ts t y) c).
  { intros (t0 & p0 & R0 & E0). exists t0, p0. split; [|exact E0]. apply Keep; [exact R0|]. intros r ->. discriminate. }
  exists ka. split; [exact Ka|]. split; [exact R|]. split; [|split; [exact S1|split; [exact E1|split; [exact ON1|split; [|split; [|split]]]]]].
  - destruct U as [U|(t0 & k0 & u & q & R0)]; [auto|right]. exists t0, k0, u, q. apply Keep; [exact R0|discriminate].
  - intros Z. destruct (S2 Z); auto.
  - intros Z. destruct (E2 Z); auto.
  - intros Z. destruct (ON2 Z) as [|(t0 & k0 & R0)]; auto. right. exists t0, k0. apply Keep; [exact R0|discriminate].
  - intros t0 k0 R0. destruct (running_upd _ _ _ _ _ _ R0) as [(_ & R1)|(_ & cs & ->)]; [eapply LS; eauto|]. exfalso. eapply NS. reflexivity.
Qed.

Lemma begin_shape w k : shape w k (qbegin w k).
Proof.
  destruct k as [c u|c|c|q u]; cbn.
  - destruct (String.eqb_spec u ""); [exact I|]. destruct (nth_error (pw_conns w) c) eqn:E; [cbn; eauto|exact I].
  - destruct (nth_error (pw_conns w) c) eqn:E; [cbn|exact I]. split; [reflexivity|]. eexists. split; [exact E|]. intros Z; discriminate.
  - destruct (nth_error (pw_conns w) c) eqn:E; [cbn; eauto|exact I].
  - reflexivity.
Qed.
Lemma begin_effect W A k : List.length (pw_conns W) = List.length (pw_conns A) ->
  (exists r, qbegin W k = AtRet r /\ at_once k A = (r, A)) \/ (effect W (qbegin W k) = None /\ forall k' c, Some (k, qbegin W k) <> Some (k', AtState c)).
Proof.
  intros L.
  assert (N : forall c, nth_error (pw_conns W) c = None -> nth_error (pw_conns A) c = None) by (intros c; rewrite !nth_error_None, L; auto).
  destruct k as [c u|c|c|q u]; cbn.
  - destruct (String.eqb u "") eqn:X.
    + left. eexists. split; [reflexivity|]. unfold pon, Online. rewrite X. destruct (nth_error (pw_conns A) c); reflexivity.
    + destruct (nth_error (pw_conns W) c) eqn:E; [right; split; [reflexivity|discriminate]|]. left. eexists. split; [reflexivity|]. unfold pon. rewrite (N _ E). reflexivity.
  - destruct (nth_error (pw_conns W) c) eqn:E; [right; split; [reflexivity|discriminate]|]. left. eexists. split; [reflexivity|]. unfold pon. rewrite (N _ E). reflexivity.
  - destruct (nth_error (pw_conns W) c) eqn:E; [right; split; [reflexivity|discriminate]|]. left. eexists. split; [reflexivity|]. unfold pon. rewrite (N _ E). reflexivity.
  - right. split; [reflexivity|discriminate].
Qed.

Lemma filter_first {X} (f : X -> bool) l e r : filter f l = e :: r -> exists l2 l1, l = l2 ++ e :: l1 /\ filter f l2 = [] /\ filter f l1 = r.
Proof.
  induction l as [|x l IH]; cbn; [discriminate|]. destruct (f x) eqn:E.
  - intros H. inversion H; subst. exists [], l. auto.
  - intros H. destruct (IH H) as (l2 & l1 & -> & F & G). exists (x :: l2), l1. cbn. rewrite E. auto.
Qed.
Lemma no_end t g : (forall k r, ~ In (CReturns t k r) g) -> forall k r, ~ In (ERes t k r) (flat_map visible g).
Proof.
  intros H k r I. apply in_flat_map in I. destruct I as (e & I & J). destruct e; cbn in J; intuition (try discriminate). inversion H0; subst; eapply H; eauto.
Qed.
Lemma filter_none {X} (f : X -> bool) l e : filter f l = [] -> f e = true -> ~ In e l.
Proof. intros H E I. assert (In e (filter f l)) by (apply filter_In; auto). rewrite H in H0. destruct H0. Qed.
Lemma phase_inside gh w t k p cs : phase gh w t (QT (Some (k, p)) cs) -> inside (flat_map visible gh) t k.
Proof.
  unfold phase. cbn. intros H.
  assert (X : exists l2 l1, gh = l2 ++ CBegins t k :: l1 /\ forall k' r, ~ In (CReturns t k' r) l2).
  { destruct (effect w p) as [r|]; destruct H as (l & H & _).
    - destruct (filter_first _ _ _ _ H) as (l2 & l1 & -> & F & G). destruct (filter_first _ _ _ _ G) as (l4 & l3 & -> & F' & _).
      exists (l2 ++ CActs t k r :: l4), l3. rewrite <- app_assoc. split; [reflexivity|]. intros k' r' I. apply in_app_iff in I. cbn in I.
      destruct I as [I|[I|I]]; [|discriminate|]; eapply filter_none; try exact I; eauto; cbn; apply Nat.eqb_refl.
    - destruct (filter_first _ _ _ _ H) as (l2 & l1 & -> & F & G). exists l2, l1. split; [reflexivity|]. intros k' r'. eapply filter_none; eauto. cbn. apply Nat.eqb_refl. }
  destruct X as (l2 & l1 & -> & N). exists (flat_map visible l2), (flat_map visible l1). split; [rewrite flat_map_app; reflexivity|]. apply no_end. exact N.
Qed.

Lemma by_thread_other t t' l l' : t' <> t -> (forall e, In e l -> by_thread t e = true) -> filter (by_thread t') (l ++ l') = filter (by_thread t') l'.
Proof.
  intros N H. induction l as [|e l IH]; cbn; [reflexivity|]. destruct (by_thread t' e) eqn:E.
  - exfalso. pose proof (H e (or_introl eq_refl)) as H0. destruct e; cbn in *; apply Nat.eqb_eq in E; apply Nat.eqb_eq in H0; congruence.
  - apply IH. intros e' I. apply H. right. exact I.
Qed.
(* the events of one goroutine do not touch what is known of the others *)
Lemma phases_keep gh l W W' ts t y : (forall e, In e l -> by_thread t e = true) -> (forall c, ref_of W' c = ref_of W c) ->
  (forall t x, nth_error ts t = Some x -> phase gh W t x) -> (forall x, nth_error ts t = Some x -> phase (l ++ gh) W' t y) ->
  forall t' x, nth_error (upd ts t y) t' = Some x -> phase (l ++ gh) W' t' x.
Proof.
  intros Hl Rf P Q t' x H. rewrite nth_upd in H. destruct (Nat.eqb_spec t' t) as [E|E].
  - subst t'. destruct (nth_error ts t) eqn:T; inversion H; subst. eauto.
  - specialize (P _ _ H). unfold phase in *. rewrite (by_thread_other t t' l gh E Hl). destruct (qt_in x) as [(k0, p0)|]; [|exact P]. rewrite (effect_refs W W' p0 Rf). exact P.
Qed.
Lemma none_keep gh l (ts : list qthread) t y : (forall e, In e l -> by_thread t e = true) -> nth_error ts t <> None -> (forall t, nth_error ts t = None -> filter (by_thread t) gh = []) ->
  forall t', nth_error (upd ts t y) t' = None -> filter (by_thread t') (l ++ gh) = [].
Proof.
  intros Hl N P t' H. rewrite nth_upd in H. destruct (Nat.eqb_spec t' t) as [E|E]; [subst; destruct (nth_error ts t); [discriminate|congruence]|].
  rewrite (by_thread_other t t' l gh E Hl). auto.
Qed.

Lemma sim_step w0 s gh A t s' : sim w0 s gh A -> qstep t s s' -> apart (qs_log s') -> exists gh' A', sim w0 s' gh' A'.
Proof.
  intros [ML MP MN MS MA MSh MAp] St Ap. inversion St as [w ts lg k cs T|w ts lg k p cs p' w' T Nx|w ts lg k r cs T]; subst s s'; cbn in *.
  (* a call begins *)
  - assert (NT : nth_error ts t <> None) by congruence.
    assert (I0 : in_turn t (filter (by_thread t) gh)) by (apply (MP _ _ T)).
    assert (AP' : all_apart (upd ts t (QT (Some (k, qbegin w k)) cs))).
    { assert (X : forall t' k' p', t' <> t -> running ts t' k' p' -> compat k k').
      { intros t' k' p' N (cs' & R) E1 E2. apply (Ap [] t k lg t' k'); auto. rewrite <- ML. eapply phase_inside. apply (MP _ _ R). }
      intros t1 t2 k1 k2 p1 p2 N R1 R2. destruct (running_upd _ _ _ _ _ _ R1) as [(N1 & R1')|(E1 & cs1 & X1)]; destruct (running_upd _ _ _ _ _ _ R2) as [(N2 & R2')|(E2 & cs2 & X2)].
      - eapply (MAp t1 t2); eauto.
      - inversion X2; subst. intros Y1 Y2. destruct (X _ _ _ N1 R1' (eq_sym Y1)); [congruence|auto].
      - inversion X1; subst. eapply X; eauto.
      - congruence. }
    assert (SH' : forall t0 k0 p0, running (upd ts t (QT (Some (k, qbegin w k)) cs)) t0 k0 p0 -> shape w k0 p0).
    { intros t0 k0 p0 R0. destruct (running_upd _ _ _ _ _ _ R0) as [(_ & R1)|(_ & cs1 & X)]; [eauto|]. inversion X; subst. apply begin_shape. }
    destruct (begin_effect w A k (g_len _ _ _ MA)) as [(r & B & O)|(B & NS)].
    + exists ([CActs t k r; CBegins t k] ++ gh), A. assert (Hl : forall e, In e [CActs t k r; CBegins t k] -> by_thread t e = true) by (intros e [<-|[<-|[]]]; cbn; apply Nat.eqb_refl).
      constructor; cbn [qs_log qs_world qs_threads]; auto.
      * cbn. rewrite ML. reflexivity.
      * eapply phases_keep; eauto. intros _ _. unfold phase. cbn. rewrite Nat.eqb_refl, B. cbn. eauto.
      * eapply none_keep; eauto.
      * cbn. econstructor; eauto.
      * eapply agree_swap; eauto; cbn; [discriminate|]. intros k0 c. rewrite B. discriminate.
    + exists ([CBegins t k] ++ gh), A. assert (Hl : forall e, In e [CBegins t k] -> by_thread t e = true) by (intros e [<-|[]]; cbn; apply Nat.eqb_refl).
      constructor; cbn [qs_log qs_world qs_threads]; auto.
      * cbn. rewrite ML. reflexivity.
      * eapply phases_keep; eauto. intros _ _. unfold phase. cbn. rewrite Nat.eqb_refl, B. eauto.
      * eapply none_keep; eauto.
      * eapply agree_swap; eauto; cbn; discriminate.
  (* an access *)
  - destruct (lin_step w A ts t k p cs p' w' MA MAp MSh T Nx) as (A' & GA & Lin).
    assert (NT : nth_error ts t <> None) by congruence.
    assert (Rf := next_refs _ _ _ _ Nx).
    assert (Run : running ts t k p) by (exists cs; exact T).
    assert (AP' : all_apart (upd ts t (QT (Some (k, p')) cs))).
    { intros t1 t2 k1 k2 p1 p2 N R1 R2. destruct (running_upd _ _ _ _ _ _ R1) as [(N1 & R1')|(E1 & cs1 & X1)]; destruct (running_upd _ _ _ _ _ _ R2) as [(N2 & R2')|(E2 & cs2 & X2)].
      - eapply (MAp t1 t2); eauto.
      - inversion X2; subst. eapply (MAp t1 t); eauto.
      - inversion X1; subst. eapply (MAp t t2); eauto.
      - congruence. }
    assert (SH' : forall t0 k0 p0, running (upd ts t (QT (Some (k, p')) cs)) t0 k0 p0 -> shape w' k0 p0).
    { intros t0 k0 p0 R0. destruct (running_upd _ _ _ _ _ _ R0) as [(N & R1)|(_ & cs1 & X)].
      - eapply shape_keep; eauto. intros c u -> E. pose proof (MSh _ _ _ Run) as Sh. cbn in Sh. destruct Sh as (-> & _).
        destruct (MAp t t0 _ _ _ _ (not_eq_sym N) Run R1) as (Z & _); cbn; [congruence|discriminate|discriminate].
      - inversion X; subst. eapply shape_new; eauto. }
    pose proof (MP _ _ T) as P0. unfold phase in P0. cbn in P0.
    destruct Lin as [(E & ->)|(E & r & E' & O)].
    + exists ([] ++ gh), A. constructor; cbn [qs_log qs_world qs_threads]; auto.
      * apply (phases_keep gh [] w w' ts t); [intros e []|exact Rf|exact MP|]. intros _ _. unfold phase. cbn. rewrite E. exact P0.
      * apply (none_keep gh [] ts t); [intros e []|exact NT|exact MN].
    + rewrite E in P0. destruct P0 as (l & F & I0).
      exists ([CActs t k r] ++ gh), A'. assert (Hl : forall e, In e [CActs t k r] -> by_thread t e = true) by (intros e [<-|[]]; cbn; apply Nat.eqb_refl).
      constructor; cbn [qs_log qs_world qs_threads]; auto.
      * eapply phases_keep; eauto. intros _ _. unfold phase. cbn. rewrite Nat.eqb_refl, E', F. eauto.
      * eapply none_keep; eauto.
      * cbn. econstructor; eauto.
  (* a call returns *)
  - pose proof (MP _ _ T) as P0. unfold phase in P0. cbn in P0. destruct P0 as (l & F & I0).
    exists ([CReturns t k r] ++ gh), A. assert (Hl : forall e, In e [CReturns t k r] -> by_thread t e = true) by (intros e [<-|[]]; cbn; apply Nat.eqb_refl).
    assert (NR : forall t0 k0 p0, running (upd ts t (QT None cs)) t0 k0 p0 -> running ts t0 k0 p0).
    { intros t0 k0 p0 R0. destruct (running_upd _ _ _ _ _ _ R0) as [(_ & R1)|(_ & cs1 & X)]; [exact R1|discriminate]. }
    constructor; cbn [qs_log qs_world qs_threads]; auto.
    + cbn. rewrite ML. reflexivity.
    + eapply phases_keep; eauto. intros _ _. unfold phase. cbn. rewrite Nat.eqb_refl, F. constructor. exact I0.
    + eapply none_keep; eauto. congruence.
    + eapply agree_swap; eauto; cbn; [|discriminate]. intros k0 p0 X. inversion X. eauto.
    + intros t0 k0 p0 R0. eauto.
    + intros t1 t2 k1 k2 p1 p2 N R1 R2. eapply (MAp t1 t2); eauto.
Qed.
Lemma log_grows t s s' : qstep t s s' -> qs_log s' = qs_log s \/ exists e, qs_log s' = e :: qs_log s.
Proof. intros H. inversion H; subst; cbn; eauto. Qed.
Lemma apart_before e l : apart (e :: l) -> apart l.
Proof. intros H l2 t k l1 t' k' ->. exact (H (e :: l2) t k l1 t' k' eq_refl). Qed.
Lemma sim_start w0 calls : sim w0 (qstart w0 calls) [] w0.
Proof.
  assert (NR : forall t k p, ~ running (map (QT None) calls) t k p).
  { intros t k p (cs & H). rewrite nth_error_map in H. destruct (nth_error calls t); discriminate. }
  constructor; cbn; auto.
  - intros t x H. rewrite nth_error_map in H. destruct (nth_error calls t); inversion H; subst. cbn. constructor.
  - constructor.
  - constructor; auto. intros c kw Hw. exists kw. repeat split; auto; destruct (NR _ _ _ H).
  - intros t k p H. destruct (NR _ _ _ H).
  - intros t t' k k' p p' _ H. destruct (NR _ _ _ H).
Qed.
Lemma sim_run w0 calls s : qsteps (qstart w0 calls) s -> apart (qs_log s) -> exists gh A, sim w0 s gh A.
Proof.
  intros H. remember (qstart w0 calls) as s0 eqn:E. induction H as [s|s s' s'' t H IH St]; intros Ap.
  - subst s. exists [], w0. apply sim_start.
  - destruct (IH E) as (gh & A & M); [|eapply sim_step; eauto]. destruct (log_grows _ _ _ St) as [X|(e & X)]; rewrite X in Ap; [exact Ap|eapply apart_before; eauto].
Qed.
Lemma sim_linearizes w0 s gh A : sim w0 s gh A -> linearizes w0 (qs_log s) A.
Proof.
  intros [ML MP MN MS MA MSh MAp]. exists gh. split; [exact ML|]. split; [|exact MS]. intros t.
  destruct (nth_error (qs_threads s) t) as [x|] eqn:T; [|rewrite (MN _ T); apply ito_idle; constructor].
  pose proof (MP _ _ T) as P. unfold phase in P. destruct (qt_in x) as [(k, p)|]; [|apply ito_idle; exact P].
  destruct (effect (qs_world s) p); destruct P as (l & -> & I0); [apply ito_done|apply ito_begun]; exact I0.
Qed.
Lemma returned_idle s : returned s -> forall t k p, ~ running (qs_threads s) t k p.
Proof. intros R t k p (cs & H). apply R in H. discriminate. Qed.
Lemma nth_ext_all {X} (l l' : list X) : (forall i, nth_error l i = nth_error l' i) -> l = l'.
Proof.
  revert l'. induction l as [|x l IH]; intros [|y l'] H; [reflexivity|discriminate (H 0%nat)|discriminate (H 0%nat)|]. pose proof (H 0%nat) as H0. inversion H0; subst.
  f_equal. apply IH. intros i. exact (H (S i)).
Qed.
Lemma bool_same (a b : bool) : (a = true -> b = true) -> (b = true -> a = true) -> a = b.
Proof. destruct a, b; intuition congruence. Qed.
Lemma agree_idle W A ts : agree W A ts -> (forall t k p, ~ running ts t k p) -> W = A.
Proof.
  intros [GP GC GL GK] N. assert (C : pw_conns W = pw_conns A).
  { apply nth_ext_all. intros i. destruct (nth_error (pw_conns W) i) as [kw|] eqn:E.
    - destruct (GK i kw E) as (ka & Ka & R & U & S1 & E1 & ON1 & S2 & E2 & ON2 & _). rewrite Ka. f_equal.
      destruct U as [U|(t & k & u & q & R0)]; [|destruct (N _ _ _ R0)].
      assert (Sk : pc_sock kw = pc_sock ka) by (apply bool_same; auto; intros Z; destruct (S2 Z) as [|(t & p & R0 & _)]; [assumption|destruct (N _ _ _ R0)]).
      assert (En : pc_end kw = pc_end ka) by (apply bool_same; auto; intros Z; destruct (E2 Z) as [|(t & p & R0 & _)]; [assumption|destruct (N _ _ _ R0)]).
      assert (On : pc_online kw = pc_online ka).
      { destruct (pc_online kw) eqn:X, (pc_online ka) eqn:Y; auto; [|discriminate (ON1 eq_refl)]. destruct (ON2 eq_refl) as [Z|(t & k & R0)]; [discriminate|destruct (N _ _ _ R0)]. }
      destruct kw, ka; cbn in *; congruence.
    - symmetry. apply nth_error_None. rewrite <- GL. apply nth_error_None. exact E. }
  destruct W, A; cbn in *; congruence.
Qed.

Lemma p_C119_linearizable_partial : forall h calls s, qsteps (qstart (prun h) calls) s -> apart (qs_log s) ->
  exists w, linearizes (prun h) (qs_log s) w /\ (returned s -> qs_world s = w).
Proof.
  intros h calls s H Ap. destruct (sim_run _ _ _ H Ap) as (gh & A & M). exists A. split; [eapply sim_linearizes; eauto|].
  intros R. eapply agree_idle; [exact (m_agree _ _ _ _ M)|apply returned_idle; exact R].
Qed.

(* which calls were made: those of each goroutine's list, in its order *)
Definition invoked (t : nat) (e : qev) : list qcall := match e with EInv t' k => if Nat.eqb t' t then [k] else [] | _ => [] end.
Definition ev_by (t : nat) (e : qev) : bool := match e with EInv t' _ | ERes t' _ _ => Nat.eqb t' t end.
Definition made (calls : list (list qcall)) (s : qstate) : Prop :=
  List.length (qs_threads s) = List.length calls /\
  (forall t x, nth_error (qs_threads s) t = Some x -> nth t calls [] = rev (flat_map (invoked t) (qs_log s)) ++ qt_todo x) /\
  (forall t, nth_error (qs_threads s) t = None -> flat_map (invoked t) (qs_log s) = []).
Lemma made_run w calls s : qsteps (qstart w calls) s -> made calls s.
Proof.
  intros H. remember (qstart w calls) as s0 eqn:E. induction H as [s|s s' s'' t H IH St].
  - subst s. repeat split; cbn; [apply map_length|]. intros t x X. rewrite nth_error_map in X. destruct (nth_error calls t) eqn:N; inversion X; subst. cbn. apply nth_error_nth. exact N.
  - destruct (IH E) as (M1 & M2 & M3). clear IH.
    assert (Eq : forall a ts lg (w1 w2 : pworld) x y, made calls (QS w1 ts lg) -> nth_error ts a = Some x -> qt_todo y = qt_todo x -> made calls (QS w2 (upd ts a y) lg)).
    { intros a ts lg w1 w2 x y (N1 & N2 & N3) X Y. repeat split; cbn in *; [rewrite upd_length; exact N1| |].
      - intros b z. rewrite nth_upd. destruct (Nat.eqb_spec b a) as [->|]; [|auto]. rewrite X. intros Z; inversion Z; subst. rewrite Y. auto.
      - intros b. rewrite nth_upd. destruct (Nat.eqb_spec b a) as [->|]; [rewrite X; discriminate|auto]. }
    inversion St as [w1 ts lg k cs T|w1 ts lg k p cs p' w' T Nx|w1 ts lg k r cs T]; subst s' s''; cbn in *.
    + repeat split; cbn; [rewrite upd_length; exact M1| |].
      * intros b z. rewrite nth_upd. destruct (Nat.eqb_spec b t) as [->|N].
        -- rewrite T, Nat.eqb_refl. intros Z; inversion Z; subst. cbn. rewrite <- app_assoc. cbn. exact (M2 _ _ T).
        -- intros Z. destruct (Nat.eqb_spec t b); [congruence|]. apply M2. exact Z.
      * intros b. rewrite nth_upd. destruct (Nat.eqb_spec b t) as [->|N]; [rewrite T; discriminate|]. destruct (Nat.eqb_spec t b); [congruence|]. apply M3.
    + eapply (Eq t ts lg w1); [split; [exact M1|split; [exact M2|exact M3]]|exact T|reflexivity].
    + eapply (Eq t ts (ERes t k r :: lg) w1 w1); [split; [exact M1|split; [exact M2|exact M3]]|exact T|reflexivity].
Qed.
Definition acts (e : iev) : list (nat * qcall) := match e with CActs t k _ => [(t, k)] | _ => [] end.
Definition begins (e : iev) : list qcall := match e with CBegins _ k => [k] | _ => [] end.
Lemma acts_of t gh : map snd (filter (fun x => Nat.eqb (fst x) t) (flat_map acts gh)) = map snd (flat_map acts (filter (by_thread t) gh)).
Proof.
  induction gh as [|e gh IH]; [reflexivity|]. destruct e as [t' k|t' k r|t' k r]; cbn; destruct (Nat.eqb t' t) eqn:E; cbn; rewrite ?E; cbn; try exact IH. f_equal. exact IH.
Qed.
Lemma begins_of t gh : flat_map (invoked t) (flat_map visible gh) = flat_map begins (filter (by_thread t) gh).
Proof.
  induction gh as [|e gh IH]; [reflexivity|]. destruct e as [t' k|t' k r|t' k r]; cbn; destruct (Nat.eqb t' t) eqn:E; cbn; try exact IH. f_equal. exact IH.
Qed.
Lemma visible_of t gh : filter (ev_by t) (flat_map visible gh) = flat_map visible (filter (by_thread t) gh).
Proof.
  induction gh as [|e gh IH]; [reflexivity|]. destruct e as [t' k|t' k r|t' k r]; cbn; destruct (Nat.eqb t' t) eqn:E; cbn; try exact IH; f_equal; exact IH.
Qed.
Lemma in_turn_calls t l : in_turn t l -> map snd (flat_map acts l) = flat_map begins l.
Proof. induction 1; cbn; [reflexivity|]. f_equal. assumption. Qed.
Lemma instants_acts gh : map fst (flat_map instants gh) = map snd (flat_map acts gh).
Proof. induction gh as [|[t k|t k r|t k r] gh IH]; cbn; try exact IH; [reflexivity|]. f_equal. exact IH. Qed.
Lemma in_order_prun h l w : one_after_another (prun h) l w -> w = prun (flat_map call_op (map fst l) ++ h).
Proof.
  induction 1 as [|k r l w w' H IH O]; [reflexivity|]. subst w. destruct k as [c u|c|c|q u]; cbn in O |- *.
  all: try (match goal with |- _ = snd ?x => destruct x as [rr ww] end; inversion O; reflexivity).
  inversion O. reflexivity.
Qed.

Lemma p_C119_final_partial : forall h calls s, qsteps (qstart (prun h) calls) s -> apart (qs_log s) -> returned s ->
  exists l, some_order calls l /\ qs_world s = prun (flat_map call_op (map snd l) ++ h).
Proof.
  intros h calls s H Ap Rt. destruct (sim_run _ _ _ H Ap) as (gh & A & M). destruct (made_run _ _ _ H) as (L & M2 & M3).
  exists (flat_map acts gh). split.
  - intros t. rewrite acts_of. destruct (nth_error (qs_threads s) t) as [x|] eqn:T.
    + pose proof (Rt _ _ T) as ->. pose proof (m_phase _ _ _ _ M _ _ T) as P. cbn in P. rewrite (M2 _ _ T). cbn. rewrite app_nil_r, rev_involutive.
      rewrite <- (m_log _ _ _ _ M), begins_of. apply (in_turn_calls t). exact P.
    + rewrite (m_none _ _ _ _ M _ T). rewrite nth_overflow; [reflexivity|]. rewrite <- L. apply nth_error_None. exact T.
  - rewrite <- instants_acts, <- (in_order_prun _ _ _ (m_seq _ _ _ _ M)). eapply agree_idle; [exact (m_agree _ _ _ _ M)|apply returned_idle; exact Rt].
Qed.

Lemma idle_outside t gh k : in_turn t (filter (by_thread t) gh) -> ~ inside (flat_map visible gh) t k.
Proof.
  intros I0 (l2 & l1 & E & N).
  assert (X : filter (ev_by t) (flat_map visible gh) = filter (ev_by t) l2 ++ EInv t k :: filter (ev_by t) l1).
  { rewrite E, filter_app. cbn. rewrite Nat.eqb_refl. reflexivity. }
  rewrite visible_of in X. assert (N' : forall k' r, ~ In (ERes t k' r) (filter (ev_by t) l2)) by (intros k' r I1; apply filter_In in I1; eapply N; apply I1).
  inversion I0 as [Y|k1 r1 l Y Z]; [rewrite <- Y in X; destruct (filter (ev_by t) l2); discriminate|].
  rewrite <- Z in X. cbn in X. destruct (filter (ev_by t) l2) as [|e l3]; cbn in X; inversion X; subst. eapply N'. left. reflexivity.
Qed.
Lemma invoked_in t k l : In (EInv t k) l -> In k (flat_map (invoked t) l).
Proof. intros H. apply in_flat_map. exists (EInv t k). split; [exact H|]. cbn. rewrite Nat.eqb_refl. left. reflexivity. Qed.
Lemma made_in calls s t k : made calls s -> In (EInv t k) (qs_log s) -> In k (nth t calls []).
Proof.
  intros (L & M2 & M3) H. apply invoked_in in H. destruct (nth_error (qs_threads s) t) as [x|] eqn:T; [|rewrite (M3 _ T) in H; destruct H].
  rewrite (M2 _ _ T). apply in_app_iff. left. apply in_rev in H. exact H.
Qed.
Lemma own_apart h calls s : own_conns calls -> qsteps (qstart (prun h) calls) s -> apart (qs_log s).
Proof.
  intros Own H. assert (Mk := made_run _ _ _ H). remember (qstart (prun h) calls) as s0 eqn:E. induction H as [s|s s' s'' t H IH St].
  - subst s. intros l2 t k l1 t' k' X. destruct l2; discriminate.
  - subst s. specialize (IH eq_refl (made_run _ _ _ H)). destruct (sim_run _ _ _ H IH) as (gh & A & M).
    inversion St as [w1 ts lg k cs T|w1 ts lg k p cs p' w' T Nx|w1 ts lg k r cs T]; subst s' s''; cbn in *.
    + intros l2 t1 k1 l1 t' k' X In1 Eq NN. destruct l2 as [|e l2]; [|inversion X; subst; eapply IH; eauto].
      cbn in X. inversion X; subst t1 k1 l1. pose proof (m_phase _ _ _ _ M _ _ T) as P. cbn in P.
      assert (N : t' <> t) by (intros ->; pose proof (m_log _ _ _ _ M) as LG; cbn in LG; rewrite <- LG in In1; exact (idle_outside _ _ _ P In1)).
      assert (J : In k (nth t calls [])) by (apply (made_in _ _ _ _ Mk); left; reflexivity).
      assert (J' : In k' (nth t' calls [])).
      { apply (made_in _ _ _ _ Mk). cbn. right. destruct In1 as (a & b & -> & _). apply in_app_iff. right. left. reflexivity. }
      destruct k as [c u|c|c|q u], k' as [c' u'|c'|c'|q' u']; cbn in Eq, NN |- *; auto; try congruence; exfalso.
      all: first [eapply (Own t t'); [|exact J|exact J'|]; [congruence|cbn; congruence] | eapply (Own t' t); [|exact J'|exact J|]; [congruence|cbn; congruence]].
    + exact IH.
    + intros l2 t1 k1 l1 t' k' X. destruct l2 as [|e l2]; [discriminate|]. inversion X; subst. eapply IH; eauto.
Qed.

Lemma p_C119_own_connections : forall h calls s, own_conns calls -> qsteps (qstart (prun h) calls) s ->
  exists w, linearizes (prun h) (qs_log s) w /\ (returned s -> qs_world s = w).
Proof. intros h calls s Own H. eapply p_C119_linearizable_partial; eauto. eapply own_apart; eauto. Qed.

(* two calls, one of each goroutine, can be put in two orders only *)
Lemma two_orders (l : list (nat * qcall)) a b : map snd (filter (fun x => Nat.eqb (fst x) 0) l) = [a] -> map snd (filter (fun x => Nat.eqb (fst x) 1) l) = [b] ->
  (forall t, (t > 1)%nat -> map snd (filter (fun x => Nat.eqb (fst x) t) l) = []) -> map snd l = [a; b] \/ map snd l = [b; a].
Proof.
  assert (Out : forall l : list (nat * qcall), map snd (filter (fun x => Nat.eqb (fst x) 0) l) = [] -> map snd (filter (fun x => Nat.eqb (fst x) 1) l) = [] ->
    (forall t, (t > 1)%nat -> map snd (filter (fun x => Nat.eqb (fst x) t) l) = []) -> l = []).
  { intros [|(t, k) l0] H0 H1 H2; [reflexivity|]. destruct t as [|[|t]]; [discriminate|discriminate|]. specialize (H2 (S (S t)) ltac:(lia)). cbn in H2. rewrite Nat.eqb_refl in H2. discriminate. }
  assert (One : forall j k (l : list (nat * qcall)), (forall t, t <> j -> map snd (filter (fun x => Nat.eqb (fst x) t) l) = []) ->
    map snd (filter (fun x => Nat.eqb (fst x) j) l) = [k] -> map snd l = [k]).
  { intros j k [|(t, k') l0] H0 H1; [discriminate|]. destruct (Nat.eq_dec t j) as [->|N].
    - cbn in H1. rewrite Nat.eqb_refl in H1. cbn in H1. inversion H1; subst. cbn. f_equal.
      assert (X : l0 = []); [|subst; reflexivity].
      assert (Y : forall t, map snd (filter (fun x => Nat.eqb (fst x) t) l0) = []).
      { intros t. destruct (Nat.eq_dec t j) as [->|N]; [assumption|]. specialize (H0 t N). cbn in H0. destruct (Nat.eqb_spec j t); [congruence|exact H0]. }
      apply Out; auto.
    - specialize (H0 t N). cbn in H0. rewrite Nat.eqb_refl in H0. discriminate. }
  intros H0 H1 H2. destruct l as [|(t, k) l0]; [discriminate|]. destruct t as [|[|t]]; cbn in H0, H1.
  - injection H0 as Ea E0. subst k. left. cbn [map snd]. apply (f_equal (cons a)). apply (One 1%nat); [|exact H1]. intros t N. destruct t as [|[|t]]; [assumption|congruence|apply (H2 (S (S t))); lia].
  - injection H1 as Ea E0. subst k. right. cbn [map snd]. apply (f_equal (cons b)). apply (One 0%nat); [|exact H0]. intros t N. destruct t as [|[|t]]; [congruence|assumption|apply (H2 (S (S t))); lia].
  - specialize (H2 (S (S t)) ltac:(lia)). cbn in H2. rewrite Nat.eqb_refl in H2. discriminate.
Qed.
Lemma turn_of_log t l k r : in_turn_open t l -> flat_map visible l = [ERes t k r; EInv t k] -> map snd (flat_map acts l) = [k].
Proof.
  intros [l0 H|k0 l0 H|k0 r0 l0 H] E; cbn in E; try discriminate. destruct H as [|k1 r1 l1 H]; [discriminate|]. cbn in E. inversion E; subst.
  destruct H as [|k2 r2 l2 H]; [reflexivity|discriminate].
Qed.
Lemma turn_of_none t l : in_turn_open t l -> flat_map visible l = [] -> map snd (flat_map acts l) = [].
Proof. intros [l0 H|k0 l0 H|k0 r0 l0 H] E; cbn in E; try discriminate. destruct H; [reflexivity|discriminate]. Qed.
Lemma online_at_once A c ka u q : nth_error (pw_conns A) c = Some ka -> pc_ref ka = Some q -> u <> ""%string ->
  at_once (QOnline c u) A = (RRet POk, SetClientPool (set_conn A c (store_name ka (VStr u))) q u c).
Proof. intros K Q N. cbn. unfold pon, Online. rewrite K, Q. destruct (String.eqb_spec u ""); [contradiction|reflexivity]. Qed.

Lemma run_call t k p cs s w ts lg ts' : qsteps s (QS w ts lg) -> nth_error ts t = Some (QT None (k :: cs)) -> qbegin w k = p ->
  upd ts t (QT (Some (k, p)) cs) = ts' -> qsteps s (QS w ts' (EInv t k :: lg)).
Proof. intros H T <- <-. eapply qs_more; [exact H|]. apply q_call. exact T. Qed.
Lemma run_go t k p p' cs s w w' ts lg ts' : qsteps s (QS w ts lg) -> nth_error ts t = Some (QT (Some (k, p)) cs) -> qnext w p = Some (p', w') ->
  upd ts t (QT (Some (k, p')) cs) = ts' -> qsteps s (QS w' ts' lg).
Proof. intros H T N <-. eapply qs_more; [exact H|]. eapply q_go; eauto. Qed.
Lemma run_return t k r cs s w ts lg ts' : qsteps s (QS w ts lg) -> nth_error ts t = Some (QT (Some (k, AtRet r)) cs) ->
  upd ts t (QT None cs) = ts' -> qsteps s (QS w ts' (ERes t k r :: lg)).
Proof. intros H T <-. eapply qs_more; [exact H|]. apply q_return. exact T. Qed.

Lemma p_C119_overlap_refuted : forall h c k q u v, nth_error (pw_conns (prun h)) c = Some k -> pc_ref k = Some q -> pc_user k = Some (VStr u) ->
  GetClientPool (prun h) q u = Some c -> GetClientPool (prun h) q v = None -> v <> ""%string ->
  exists s, qsteps (qstart (prun h) [[QOnline c v]; [QClose c]]) s /\ returned s /\
    GetClientPool (qs_world s) q u = Some c /\ GetClientPool (qs_world s) q v = Some c /\
    (exists k', nth_error (pw_conns (qs_world s)) c = Some k' /\ pc_sock k' = true) /\
    ~ linearizes (prun h) (qs_log s) (qs_world s).
Proof.
  intros h c k q u v K Q U Gu Gv Nv. set (w := prun h) in *. assert (Nuv : u <> v) by congruence.
  assert (Lq : (q < List.length (pw_pools w))%nat).
  { destruct (Nat.ltb_spec q (List.length (pw_pools w))); [assumption|]. unfold GetClientPool, pool_at in Gu. rewrite nth_overflow in Gu by assumption. discriminate. }
  set (k1 := store_name k (VStr v)). set (w1 := set_conn w c k1). set (k2 := with_sock k1). set (w2 := set_conn w1 c k2).
  set (k3 := with_end k2). set (w3 := set_conn w2 c k3). set (k4 := with_off k3). set (w4 := set_conn w3 c k4). set (w5 := SetClientPool w4 q v c).
  assert (K1 : nth_error (pw_conns w1) c = Some k1) by (unfold w1; rewrite set_conn_nth, Nat.eqb_refl, K; reflexivity).
  assert (K2 : nth_error (pw_conns w2) c = Some k2) by (unfold w2; rewrite set_conn_nth, Nat.eqb_refl, K1; reflexivity).
  assert (K3 : nth_error (pw_conns w3) c = Some k3) by (unfold w3; rewrite set_conn_nth, Nat.eqb_refl, K2; reflexivity).
  assert (K4 : nth_error (pw_conns w4) c = Some k4) by (unfold w4; rewrite set_conn_nth, Nat.eqb_refl, K3; reflexivity).
  set (lg := [ERes 0 (QOnline c v) (RRet POk); ERes 1 (QClose c) (RRet POk); EInv 1 (QClose c); EInv 0 (QOnline c v)]).
  exists (QS w5 [QT None []; QT None []] lg).
  assert (P5 : forall x, GetClientPool w5 q x = if String.eqb x v then Some c else GetClientPool w q x).
  { intros x. unfold w5, SetClientPool, GetClientPool. rewrite pool_at_set, Nat.eqb_refl. destruct (Nat.ltb_spec q (List.length (pw_pools w4))) as [_|Z]; [|cbn in Z; lia]. cbn [andb].
    rewrite aget_aset. reflexivity. }
  split; [|split; [|split; [|split; [|split]]]].
  - set (T0 := fun p => QT (Some (QOnline c v, p)) []). set (T1 := fun p => QT (Some (QClose c, p)) []).
    assert (R0 := qs_refl (qstart w [[QOnline c v]; [QClose c]])). unfold qstart at 2 in R0. cbn [map] in R0.
    apply (run_call 0 (QOnline c v) (AtName c v) [] _ _ _ _ [T0 (AtName c v); QT None [QClose c]]) in R0; [|reflexivity| |reflexivity].
    2: { unfold qbegin. rewrite K. destruct (String.eqb_spec v ""); [contradiction|reflexivity]. }
    apply (run_go 0 (QOnline c v) (AtName c v) (AtSet c v q) [] _ w w1 _ _ [T0 (AtSet c v q); QT None [QClose c]]) in R0; [|reflexivity| |reflexivity].
    2: { unfold qnext. rewrite K, Q. reflexivity. }
    apply (run_call 1 (QClose c) (AtSock c) [] _ _ _ _ [T0 (AtSet c v q); T1 (AtSock c)]) in R0; [|reflexivity| |reflexivity].
    2: { unfold qbegin. rewrite K1. reflexivity. }
    apply (run_go 1 (QClose c) (AtSock c) (AtEnd c) [] _ w1 w2 _ _ [T0 (AtSet c v q); T1 (AtEnd c)]) in R0; [|reflexivity| |reflexivity].
    2: { unfold qnext. rewrite K1. reflexivity. }
    apply (run_go 1 (QClose c) (AtEnd c) (AtRead c true) [] _ w2 w3 _ _ [T0 (AtSet c v q); T1 (AtRead c true)]) in R0; [|reflexivity| |reflexivity].
    2: { unfold qnext. rewrite K2. unfold k2, k1. cbn [with_sock store_name pc_ref]. rewrite Q. reflexivity. }
    apply (run_go 1 (QClose c) (AtRead c true) (AtLook c true q v) [] _ w3 w3 _ _ [T0 (AtSet c v q); T1 (AtLook c true q v)]) in R0; [|reflexivity| |reflexivity].
    2: { unfold qnext. rewrite K3. unfold k3, k2, k1. cbn [with_end with_sock store_name pc_ref pc_user]. rewrite Q. reflexivity. }
    apply (run_go 1 (QClose c) (AtLook c true q v) (AtState c) [] _ w3 w3 _ _ [T0 (AtSet c v q); T1 (AtState c)]) in R0; [|reflexivity| |reflexivity].
    2: { unfold qnext. change (GetClientPool w3 q v) with (GetClientPool w q v). rewrite Gv. reflexivity. }
    apply (run_go 1 (QClose c) (AtState c) (AtRet (RRet POk)) [] _ w3 w4 _ _ [T0 (AtSet c v q); T1 (AtRet (RRet POk))]) in R0; [|reflexivity| |reflexivity].
    2: { unfold qnext. rewrite K3. reflexivity. }
    apply (run_return 1 (QClose c) (RRet POk) [] _ _ _ _ [T0 (AtSet c v q); QT None []]) in R0; [|reflexivity|reflexivity].
    apply (run_go 0 (QOnline c v) (AtSet c v q) (AtRet (RRet POk)) [] _ w4 w5 _ _ [T0 (AtRet (RRet POk)); QT None []]) in R0; [|reflexivity|reflexivity|reflexivity].
    apply (run_return 0 (QOnline c v) (RRet POk) [] _ _ _ _ [QT None []; QT None []]) in R0; [exact R0|reflexivity|reflexivity].
  - intros [|[|t]] x; cbn; intros X; inversion X; [reflexivity|reflexivity|destruct t; discriminate].
  - cbn [qs_world]. rewrite P5. destruct (String.eqb_spec u v); [contradiction|exact Gu].
  - cbn [qs_world]. rewrite P5, String.eqb_refl. reflexivity.
  - exists k4. split; [exact K4|reflexivity].
  - cbn [qs_log qs_world]. intros (gh & V & T & O).
    assert (Or : map snd (flat_map acts gh) = [QOnline c v; QClose c] \/ map snd (flat_map acts gh) = [QClose c; QOnline c v]).
    { apply two_orders.
      - rewrite acts_of. apply (turn_of_log 0%nat _ (QOnline c v) (RRet POk)); [apply T|]. rewrite <- visible_of, V. reflexivity.
      - rewrite acts_of. apply (turn_of_log 1%nat _ (QClose c) (RRet POk)); [apply T|]. rewrite <- visible_of, V. reflexivity.
      - intros t Ht. rewrite acts_of. apply (turn_of_none t); [apply T|]. rewrite <- visible_of, V. destruct t as [|[|t]]; [lia|lia|reflexivity]. }
    rewrite <- instants_acts in Or. set (ins := flat_map instants gh) in *. clearbody ins. clear gh V T.
    assert (Gw : GetClientPool w5 q u = Some c /\ GetClientPool w5 q v = Some c).
    { rewrite !P5, String.eqb_refl. destruct (String.eqb_spec u v); [contradiction|auto]. }
    assert (Two : exists a b ra rb wm, ins = [(a, ra); (b, rb)] /\ at_once b w = (rb, wm) /\ at_once a wm = (ra, w5)).
    { destruct O as [|a ra l wm w5 O A1]; [destruct Or; discriminate|]. destruct O as [|b rb l wb wm O A2]; [destruct Or; discriminate|].
      destruct O; [eauto 10|]. destruct Or as [Or|Or]; cbn in Or; inversion Or. }
    destruct Two as (a & b & ra & rb & wm & -> & A2 & A1). cbn in Or.
    assert (Ab : (a = QOnline c v /\ b = QClose c) \/ (a = QClose c /\ b = QOnline c v)) by (destruct Or as [Or|Or]; inversion Or; auto).
    clear Or. destruct Ab as [(-> & ->)|(-> & ->)].
    + rewrite (close_at_once _ _ _ K), Q, U in A2. inversion A2; subst rb wm.
      rewrite (online_at_once _ c (PConn (Some q) (Some (VStr u)) false true true) v q) in A1; [|cbn; rewrite nth_upd, Nat.eqb_refl, K, Q, U; reflexivity|reflexivity|exact Nv].
      pose proof (f_equal snd A1) as X2. cbn [snd] in X2. destruct Gw as (G1 & _). rewrite <- X2 in G1. unfold SetClientPool, GetClientPool in G1. rewrite pool_at_set, Nat.eqb_refl in G1.
      destruct (Nat.ltb q _); cbn [andb] in G1; [rewrite aget_aset in G1; destruct (keqb_spec u v) as [|_]; [contradiction|]|]; unfold pool_at in G1; unfold set_conn, shut, DeleteFromClientPool, set_pool in G1; cbn [pw_pools] in G1; rewrite nth_upd_same, Nat.eqb_refl in G1;
        (destruct (Nat.ltb_spec q (List.length (pw_pools w))) as [_|Z]; [|lia]); cbn [andb] in G1; rewrite aget_adel_same in G1; discriminate.
    + rewrite (online_at_once _ c k v q K Q Nv) in A2. inversion A2; subst rb wm. rewrite (close_at_once _ c k1) in A1.
      2: { exact K1. }
      cbn [k1 store_name pc_ref pc_user] in A1. unfold k1 in A1. cbn [store_name pc_ref pc_user] in A1. rewrite Q in A1. pose proof (f_equal snd A1) as X2. cbn [snd] in X2. destruct Gw as (_ & G1). rewrite <- X2 in G1.
      unfold GetClientPool, pool_at, shut in G1. cbn [pw_pools] in G1. unfold DeleteFromClientPool, set_pool in G1. cbn [pw_pools] in G1. rewrite nth_upd_same, Nat.eqb_refl in G1.
      destruct (Nat.ltb_spec q (List.length (pw_pools (SetClientPool (set_conn w c (store_name k (VStr v))) q v c)))) as [_|Z]; [|cbn in Z; rewrite upd_length in Z; lia].
      cbn [andb] in G1. rewrite aget_adel_same in G1. discriminate.
Qed.

(* running goroutines in a given order *)
Definition qexec (s : qstate) (t : nat) : qstate :=
  match nth_error (qs_threads s) t with
  | Some (QT None (k :: cs)) => QS (qs_world s) (upd (qs_threads s) t (QT (Some (k, qbegin (qs_world s) k)) cs)) (EInv t k :: qs_log s)
  | Some (QT (Some (k, AtRet r)) cs) => QS (qs_world s) (upd (qs_threads s) t (QT None cs)) (ERes t k r :: qs_log s)
  | Some (QT (Some (k, p)) cs) => match qnext (qs_world s) p with Some (p', w') => QS w' (upd (qs_threads s) t (QT (Some (k, p')) cs)) (qs_log s) | None => s end
  | _ => s
  end.
Lemma qexec_steps ts : forall s s', qsteps s s' -> qsteps s (fold_left qexec ts s').
Proof.
  induction ts as [|t ts IH]; cbn; intros s s' H; [exact H|]. apply IH. unfold qexec. destruct s' as [w th lg]. cbn.
  destruct (nth_error th t) as [[[(k, p)|] cs]|] eqn:T; [| |exact H].
  - destruct p as [c u|c u q|c|c|c cl|c cl q u|c cl q u|c|q u|r];
      try (eapply qs_more; [exact H|]; eapply q_return; exact T);
      match goal with |- context [qnext w ?p] => destruct (qnext w p) as [(p', w')|] eqn:N; [|exact H] end; (eapply qs_more; [exact H|]; eapply q_go; eauto).
  - destruct cs as [|k cs]; [exact H|]. eapply qs_more; [exact H|]. apply q_call. exact T.
Qed.

(* the connection of a call that is going on exists *)
Definition has_conn (w : pworld) (p : qpc) : Prop :=
  match p with
  | AtName c _ | AtSet c _ _ | AtSock c | AtEnd c | AtRead c _ | AtLook c _ _ _ | AtDel c _ _ _ | AtState c => nth_error (pw_conns w) c <> None
  | _ => True
  end.
Lemma has_conn_len w w' p : List.length (pw_conns w') = List.length (pw_conns w) -> has_conn w p -> has_conn w' p.
Proof. intros L. destruct p; cbn; rewrite ?nth_error_Some, ?L; auto. Qed.
Lemma next_len w p p' w' : qnext w p = Some (p', w') -> List.length (pw_conns w') = List.length (pw_conns w).
Proof.
  destruct p; cbn; try (destruct (nth_error (pw_conns w) c); [|discriminate]); intros H; inversion H; subst; cbn; rewrite ?upd_length; reflexivity.
Qed.
Lemma next_has w p p' w' : has_conn w p -> qnext w p = Some (p', w') -> has_conn w' p'.
Proof.
  intros Hc H. apply (has_conn_len w w'); [eapply next_len; eauto|].
  destruct p as [c u|c u q|c|c|c cl|c cl q u|c cl q u|c|q u|r]; cbn in H, Hc;
    try (destruct (nth_error (pw_conns w) c) as [k|] eqn:E; [|congruence]); inversion H; subst; cbn; try exact I; try congruence.
  - destruct (pc_ref k); cbn; [congruence|exact I].
  - destruct (pc_ref k); cbn; congruence.
  - destruct (pc_ref k) as [q|]; [destruct (pc_user k) as [[u| |]|]|]; cbn; try exact I; try congruence; destruct cl; cbn; try exact I; congruence.
  - destruct (GetClientPool _ q u); cbn; [congruence|]. destruct cl; cbn; [congruence|exact I].
  - destruct cl; cbn; [congruence|exact I].
Qed.
Lemma has_conn_run w0 calls s : qsteps (qstart w0 calls) s -> forall t k p, running (qs_threads s) t k p -> has_conn (qs_world s) p.
Proof.
  intros H. remember (qstart w0 calls) as s0 eqn:E. induction H as [s|s s' s'' t H IH St].
  - subst s. intros t k p (cs & X). cbn in X. rewrite nth_error_map in X. destruct (nth_error calls t); discriminate.
  - specialize (IH E). inversion St as [w1 ts lg k cs T|w1 ts lg k p cs p' w' T Nx|w1 ts lg k r cs T]; subst s' s''; cbn in *; intros t0 k0 p0 R0;
      destruct (running_upd _ _ _ _ _ _ R0) as [(_ & R1)|(_ & cs1 & X)].
    + eauto.
    + inversion X; subst. destruct k0 as [c u|c|c|q u]; cbn; [destruct (String.eqb u ""); [exact I|]| | |exact I]; destruct (nth_error (pw_conns w1) c) eqn:N; cbn; try exact I; congruence.
    + eapply has_conn_len; [eapply next_len; eauto|]. eauto.
    + inversion X; subst. eapply next_has; eauto. eapply IH. exists cs1. exact T.
    + eauto.
    + discriminate.
Qed.

Lemma p_C119_no_call_is_lost : forall h calls s t x, qsteps (qstart (prun h) calls) s -> nth_error (qs_threads s) t = Some x -> x <> QT None [] ->
  exists s', qstep t s s'.
Proof.
  intros h calls s t x H T N. destruct s as [w ts lg]. cbn in T. destruct x as [[(k, p)|] cs].
  - pose proof (has_conn_run _ _ _ H t k p (ex_intro _ cs T)) as C. cbn in C.
    destruct p as [c u|c u q|c|c|c cl|c cl q u|c cl q u|c|q u|r]; try (eexists; eapply q_return; exact T);
      (match type of T with _ = Some (QT (Some (_, ?p)) _) => assert (X : exists y, qnext w p = Some y) end;
       [cbn in C |- *; try (destruct (nth_error (pw_conns w) c) as [kk|]; [|congruence]); eauto|destruct X as ((p', w') & X); eexists; eapply q_go; eauto]).
  - destruct cs as [|k cs]; [congruence|]. eexists. apply q_call. exact T.
Qed.
