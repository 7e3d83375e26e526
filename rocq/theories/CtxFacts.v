(* Lemmas about CtxModel.v: the heap of maps realises SpecCtx.val. *)
From Verif Require Export SpecCtx BaseFacts.

Lemma slot_eqb_eq a b : slot_eqb a b = true <-> a = b.
Proof.
  destruct a, b; simpl; split; intros H; try discriminate; try (apply Nat.eqb_eq in H; congruence);
    inversion H; apply Nat.eqb_refl.
Qed.
Lemma slot_eqb_refl a : slot_eqb a a = true.
Proof. apply slot_eqb_eq. reflexivity. Qed.

Lemma Load_Store H r k v r' k' :
  Load (Store H r k v) r' k' = if Nat.eqb r' r && keqb k' k then Some v else Load H r' k'.
Proof.
  unfold Load, Store, hp. rewrite aget_aset. change (keqb r' r) with (Nat.eqb r' r).
  destruct (Nat.eqb r' r) eqn:E; cbn [andb]; auto. apply Nat.eqb_eq in E. subst r'. rewrite aget_aset.
  destruct (keqb k' k); auto.
Qed.

Lemma upd_length {A} (l : list A) i a : List.length (upd l i a) = List.length l.
Proof. revert i. induction l; intros [|i]; simpl; auto. Qed.
Lemma nth_upd {A} (l : list A) i a j :
  nth_error (upd l i a) j = if Nat.eqb j i then match nth_error l i with Some _ => Some a | None => None end else nth_error l j.
Proof.
  revert i j. induction l as [|x l IH]; intros [|i] [|j]; simpl; auto.
  all: try (destruct (Nat.eqb j i); reflexivity).
Qed.

(* ------------------------------------------------------------------ *)
(* facts about the specification functions *)

Lemma born_app o p : exists l, born (o :: p) = born p ++ l.
Proof.
  destruct o; simpl; try (exists []; rewrite app_nil_r; reflexivity); try (eexists; reflexivity).
  destruct (nth_error (born p) x) as [[| |]|]; try (eexists; reflexivity); exists []; rewrite app_nil_r; reflexivity.
Qed.
Lemma born_mono o p x a : nth_error (born p) x = Some a -> nth_error (born (o :: p)) x = Some a.
Proof. intros H. destruct (born_app o p) as (l & ->). rewrite nth_error_app1; auto. apply nth_error_Some. congruence. Qed.

Lemma exists_ctx_iff h x : exists_ctx h x = true <-> nth_error (born h) x <> None.
Proof. unfold exists_ctx. rewrite Nat.ltb_lt. symmetry. apply nth_error_Some. Qed.

Lemma exists_mono o p x : exists_ctx p x = true -> exists_ctx (o :: p) x = true.
Proof.
  rewrite !exists_ctx_iff. intros H. destruct (nth_error (born p) x) eqn:E; [|congruence]. rewrite (born_mono _ _ _ _ E). discriminate.
Qed.

Lemma reset_exists h x : was_reset h x = true -> exists_ctx h x = true.
Proof.
  induction h as [|o p IH]; simpl; [discriminate|].
  intros H. assert (K : exists_ctx p x = true); [|apply exists_mono; auto].
  destruct o; auto. apply orb_true_iff in H as [H|H]; auto. apply andb_true_iff in H as (_ & H); auto.
Qed.

Lemma nth_snoc {A} (l : list A) a x b : nth_error (l ++ [a]) x = Some b ->
  nth_error l x = Some b \/ (x = List.length l /\ b = a).
Proof.
  intros H. destruct (Nat.lt_ge_cases x (List.length l)) as [L|L]; [rewrite nth_error_app1 in H; auto|].
  rewrite nth_error_app2 in H by auto. destruct (x - List.length l)%nat as [|[|?]] eqn:E; try discriminate.
  right. inversion H. split; auto. lia.
Qed.
Lemma nth_snoc_last {A} (l : list A) a : nth_error (l ++ [a]) (List.length l) = Some a.
Proof. rewrite nth_error_app2, Nat.sub_diag; auto. Qed.

Lemma req_root h : forall x c, nth_error (born h) x = Some (Req c) -> nth_error (born h) c = Some Root.
Proof.
  induction h as [|o p IH]; intros x c H; [destruct x; discriminate|].
  apply born_mono.
  destruct o; simpl in H; try (apply (IH x); exact H).
  - apply nth_snoc in H as [H|(_ & H)]; [eauto|discriminate].
  - apply nth_snoc in H as [H|(_ & H)]; [eauto|discriminate].
  - destruct (nth_error (born p) x0) as [[|c'|]|] eqn:E; eauto.
    + apply nth_snoc in H as [H|(_ & H)]; [eauto|]. inversion H; subst. auto.
    + apply nth_snoc in H as [H|(_ & H)]; [eauto|]. inversion H; subst. eauto.
Qed.

Lemma reset_mono o p x : was_reset p x = true -> was_reset (o :: p) x = true.
Proof. intros H. destruct o; simpl; auto. rewrite H. apply orb_true_r. Qed.

(* a storage that some context uses *)
Definition valid (h : list cop) (s : slot) : Prop :=
  match s with
  | SConn c => nth_error (born h) c = Some Root
  | SPriv x => req_slot h x = Some (SPriv x)
  end.

Lemma conn_slot_valid h x s : conn_slot h x = Some s -> valid h s.
Proof.
  unfold conn_slot. destruct (nth_error (born h) x) as [[|c|]|] eqn:E; intros H; inversion H; subst; simpl.
  - auto.
  - eapply req_root; eauto.
  - unfold req_slot. rewrite E. auto.
Qed.
Lemma req_slot_valid h x s : req_slot h x = Some s -> valid h s.
Proof.
  intros H. destruct s as [c|y]; simpl.
  - unfold req_slot in H. destruct (nth_error (born h) x) as [[|d|]|] eqn:E; try discriminate.
    destruct (was_reset h x); inversion H; subst. eapply req_root; eauto.
  - assert (y = x) as ->; auto. unfold req_slot in H. destruct (nth_error (born h) x) as [[|d|]|]; try congruence.
    destruct (was_reset h x); congruence.
Qed.

(* calls that only store *)
Definition plain_op (o : cop) : bool :=
  match o with CAccept | CDatagram _ | CRead _ _ | CReset _ => false | _ => true end.

Lemma plain_born o p : plain_op o = true -> born (o :: p) = born p.
Proof. destruct o; simpl; intros; congruence. Qed.
Lemma plain_stream o p x : plain_op o = true -> stream_of (o :: p) x = stream_of p x.
Proof. destruct o; simpl; intros; congruence. Qed.
Lemma plain_reset o p x : plain_op o = true -> was_reset (o :: p) x = was_reset p x.
Proof. destruct o; simpl; intros; congruence. Qed.
Lemma plain_req o p x : plain_op o = true -> req_slot (o :: p) x = req_slot p x.
Proof. intros H. unfold req_slot. rewrite plain_born, plain_reset by auto. reflexivity. Qed.
Lemma plain_conn o p x : plain_op o = true -> conn_slot (o :: p) x = conn_slot p x.
Proof. intros H. unfold conn_slot. rewrite plain_born by auto. reflexivity. Qed.
Lemma plain_valid o p s : plain_op o = true -> (valid (o :: p) s <-> valid p s).
Proof. intros H. destruct s; cbn [valid]. rewrite plain_born by auto; reflexivity. rewrite plain_req by auto. reflexivity. Qed.

(* ------------------------------------------------------------------ *)
Section Inv.
  Context (hc : hcodec).

  Record Inv (h : list cop) (w : world) (rho : slot -> nat) : Prop := {
    i_len : List.length (w_ctxs w) = List.length (born h);
    i_ctx : forall x c, nth_error (w_ctxs w) x = Some c ->
      c_stream c = stream_of h x /\
      c_tcp c = (match nth_error (born h) x with Some Gram => false | _ => true end) /\
      (exists s, req_slot h x = Some s /\ c_pr c = rho s) /\
      (c_tcp c = true -> exists s, conn_slot h x = Some s /\ c_pc c = Some (rho s));
    i_inj : forall s t, valid h s -> valid h t -> rho s = rho t -> s = t;
    i_lt : forall s, valid h s -> (rho s < w_next w)%nat;
    i_val : forall s k, valid h s -> Load (w_heap w) (rho s) k = val hc h s k;
    i_new : forall r k, (w_next w <= r)%nat -> Load (w_heap w) r k = None;
    i_chans : w_chans w = beats_made h }.

  Lemma inv_same o p w rho : plain_op o = true -> beats_made (o :: p) = beats_made p -> Inv p w rho ->
    (forall s k, valid p s -> val hc (o :: p) s k = val hc p s k) -> Inv (o :: p) w rho.
  Proof.
    intros P B [L C J T W N K] Hv. constructor.
    - rewrite plain_born by auto. exact L.
    - intros x c H. rewrite plain_stream, plain_born, plain_req, plain_conn by auto. auto.
    - intros s t Vs Vt. apply J; [apply plain_valid in Vs|apply plain_valid in Vt]; auto.
    - intros s Vs. apply T. apply plain_valid in Vs; auto.
    - intros s k Vs. apply plain_valid in Vs; auto. rewrite Hv by auto. auto.
    - auto.
    - congruence.
  Qed.

  Lemma inv_store o p w rho s0 k0 v0 : plain_op o = true -> beats_made (o :: p) = beats_made p -> Inv p w rho -> valid p s0 ->
    (forall s k, valid p s -> val hc (o :: p) s k = if slot_eqb s0 s && keqb k k0 then Some v0 else val hc p s k) ->
    Inv (o :: p) (set_heap w (Store (w_heap w) (rho s0) k0 v0)) rho.
  Proof.
    intros P B [L C J T W N K] V0 Hv. constructor; cbn [w_ctxs w_next w_heap w_chans set_heap].
    - rewrite plain_born by auto. exact L.
    - intros x c H. rewrite plain_stream, plain_born, plain_req, plain_conn by auto. auto.
    - intros s t Vs Vt. apply J; [apply plain_valid in Vs|apply plain_valid in Vt]; auto.
    - intros s Vs. apply T. apply plain_valid in Vs; auto.
    - intros s k Vs. apply plain_valid in Vs; auto. rewrite Hv by auto. rewrite Load_Store, W by auto.
      replace (Nat.eqb (rho s) (rho s0)) with (slot_eqb s0 s); auto.
      destruct (slot_eqb s0 s) eqn:E.
      + apply slot_eqb_eq in E. subst. symmetry. apply Nat.eqb_refl.
      + symmetry. apply Nat.eqb_neq. intros Q. apply J in Q; auto. subst. rewrite slot_eqb_refl in E. discriminate.
    - intros r k Hr. rewrite Load_Store, N by auto. replace (Nat.eqb r (rho s0)) with false; auto.
      symmetry. apply Nat.eqb_neq. intros ->. specialize (T s0 V0). lia.
    - congruence.
  Qed.

  (* the same for HeartBeatChan, which also counts its calls *)
  Lemma inv_tick x p w rho : Inv p w rho -> beats_made (CHeart x :: p) = S (beats_made p) ->
    (forall s k, valid p s -> val hc (CHeart x :: p) s k = val hc p s k) ->
    Inv (CHeart x :: p) (World (w_ctxs w) (w_heap w) (w_next w) (S (w_chans w))) rho.
  Proof.
    intros [L C J T W N K] B Hv. constructor; cbn [w_ctxs w_heap w_next w_chans].
    - exact L.
    - exact C.
    - intros s t Vs Vt. apply J; [apply plain_valid in Vs|apply plain_valid in Vt]; auto.
    - intros s Vs. apply T. apply plain_valid in Vs; auto.
    - intros s k Vs. apply plain_valid in Vs; auto. rewrite Hv by auto. auto.
    - auto.
    - congruence.
  Qed.
  Lemma inv_tick_store x p w rho s0 k0 v0 : Inv p w rho -> beats_made (CHeart x :: p) = S (beats_made p) -> valid p s0 ->
    (forall s k, valid p s -> val hc (CHeart x :: p) s k = if slot_eqb s0 s && keqb k k0 then Some v0 else val hc p s k) ->
    Inv (CHeart x :: p) (World (w_ctxs w) (Store (w_heap w) (rho s0) k0 v0) (w_next w) (S (w_chans w))) rho.
  Proof.
    intros [L C J T W N K] B V0 Hv. constructor; cbn [w_ctxs w_next w_heap w_chans].
    - exact L.
    - exact C.
    - intros s t Vs Vt. apply J; [apply plain_valid in Vs|apply plain_valid in Vt]; auto.
    - intros s Vs. apply T. apply plain_valid in Vs; auto.
    - intros s k Vs. apply plain_valid in Vs; auto. rewrite Hv by auto. rewrite Load_Store, W by auto.
      replace (Nat.eqb (rho s) (rho s0)) with (slot_eqb s0 s); auto.
      destruct (slot_eqb s0 s) eqn:E.
      + apply slot_eqb_eq in E. subst. symmetry. apply Nat.eqb_refl.
      + symmetry. apply Nat.eqb_neq. intros Q. apply J in Q; auto. subst. rewrite slot_eqb_refl in E. discriminate.
    - intros r k Hr. rewrite Load_Store, N by auto. replace (Nat.eqb r (rho s0)) with false; auto.
      symmetry. apply Nat.eqb_neq. intros ->. specialize (T s0 V0). lia.
    - congruence.
  Qed.

  Lemma inv_ctx h w rho x c : Inv h w rho -> nth_error (w_ctxs w) x = Some c -> exists wh, nth_error (born h) x = Some wh.
  Proof.
    intros I H. destruct (nth_error (born h) x) eqn:E; eauto. apply nth_error_None in E. rewrite <- (i_len _ _ _ I) in E.
    apply nth_error_None in E. congruence.
  Qed.

  Lemma inv_noctx h w rho x : Inv h w rho -> nth_error (w_ctxs w) x = None -> nth_error (born h) x = None.
  Proof. intros I H. apply nth_error_None. rewrite <- (i_len _ _ _ I). apply nth_error_None. auto. Qed.

  Lemma noctx_slots h x : nth_error (born h) x = None -> conn_slot h x = None /\ req_slot h x = None /\ exists_ctx h x = false.
  Proof.
    intros H. unfold conn_slot, req_slot. rewrite H. split; [auto|split; auto].
    apply not_true_iff_false. rewrite exists_ctx_iff. congruence.
  Qed.

  (* what per-connection stores do *)
  Lemma setconn_slot h w rho x c k v : Inv h w rho -> nth_error (w_ctxs w) x = Some c ->
    exists s, conn_slot h x = Some s /\ valid h s /\
      setCtxPerConn c k v w = Some (set_heap w (Store (w_heap w) (rho s) k v)).
  Proof.
    intros I H. destruct (inv_ctx _ _ _ _ _ I H) as (wh & Hw).
    destruct (i_ctx _ _ _ I _ _ H) as (_ & Ht & (s & Hs & Hpr) & Hpc). rewrite Hw in Ht.
    unfold setCtxPerConn, is_udp. destruct (c_tcp c) eqn:Et.
    - destruct Hpc as (s' & Hs' & Hpc); auto. rewrite Hpc. simpl. exists s'. split; auto. split; auto. eapply conn_slot_valid; eauto.
    - destruct wh; try discriminate. exists (SPriv x). unfold conn_slot, req_slot in *. rewrite Hw in *. inversion Hs; subst.
      split; auto. split. { simpl. unfold req_slot. rewrite Hw. auto. }
      simpl. unfold SetCtxPerRequest. rewrite Hpr. auto.
  Qed.
  Lemma setconn_tick h w rho x c k v n : Inv h w rho -> nth_error (w_ctxs w) x = Some c ->
    exists s, conn_slot h x = Some s /\ valid h s /\
      setCtxPerConn c k v (World (w_ctxs w) (w_heap w) (w_next w) n) = Some (World (w_ctxs w) (Store (w_heap w) (rho s) k v) (w_next w) n).
  Proof.
    intros I H. destruct (setconn_slot h w rho x c k v I H) as (s & Hs & V & E). exists s. split; auto. split; auto.
    unfold setCtxPerConn, SetCtxPerRequest, set_heap in *. cbn [w_ctxs w_heap w_next w_chans] in *.
    destruct (is_udp c); [inversion E; congruence|]. destruct (c_pc c); inversion E; congruence.
  Qed.
  Lemma getconn_slot h w rho x c k : Inv h w rho -> nth_error (w_ctxs w) x = Some c ->
    exists s, conn_slot h x = Some s /\ valid h s /\ GetCtxPerConn c k w = val hc h s k.
  Proof.
    intros I H. destruct (inv_ctx _ _ _ _ _ I H) as (wh & Hw).
    destruct (i_ctx _ _ _ I _ _ H) as (_ & Ht & (s & Hs & Hpr) & Hpc). rewrite Hw in Ht.
    unfold GetCtxPerConn, is_udp. destruct (c_tcp c) eqn:Et.
    - destruct Hpc as (s' & Hs' & Hpc); auto. rewrite Hpc. simpl. exists s'. split; auto.
      assert (V : valid h s') by (eapply conn_slot_valid; eauto). split; auto. apply (i_val _ _ _ I). auto.
    - destruct wh; try discriminate. exists (SPriv x). unfold conn_slot, req_slot in *. rewrite Hw in *. inversion Hs; subst.
      split; auto. assert (V : valid h (SPriv x)). { simpl. unfold req_slot. rewrite Hw. auto. }
      split; auto. simpl. unfold GetCtxPerRequest. rewrite Hpr. apply (i_val _ _ _ I). auto.
  Qed.
  Lemma getreq_slot h w rho x c k : Inv h w rho -> nth_error (w_ctxs w) x = Some c ->
    exists s, req_slot h x = Some s /\ valid h s /\ c_pr c = rho s /\ GetCtxPerRequest c k w = val hc h s k.
  Proof.
    intros I H. destruct (i_ctx _ _ _ I _ _ H) as (_ & Ht & (s & Hs & Hpr) & Hpc).
    assert (V : valid h s) by (eapply req_slot_valid; eauto). exists s. split; auto. split; auto. split; auto.
    unfold GetCtxPerRequest. rewrite Hpr. apply (i_val _ _ _ I). auto.
  Qed.

  Lemma new_slots o p a : born (o :: p) = born p ++ [a] -> (forall x, was_reset (o :: p) x = was_reset p x) ->
    (forall x, x <> List.length (born p) -> conn_slot (o :: p) x = conn_slot p x /\ req_slot (o :: p) x = req_slot p x) /\
    was_reset (o :: p) (List.length (born p)) = false.
  Proof.
    intros Hb Hr. split.
    - intros x N. unfold conn_slot, req_slot. rewrite Hr, Hb.
      destruct (Nat.lt_ge_cases x (List.length (born p))) as [L|L].
      + rewrite nth_error_app1 by auto. auto.
      + assert (Q : nth_error (born p) x = None) by (apply nth_error_None; auto).
        assert (Q' : nth_error (born p ++ [a]) x = None) by (apply nth_error_None; rewrite app_length; simpl; lia).
        rewrite Q, Q'. auto.
    - rewrite Hr. apply not_true_iff_false. intros H. apply reset_exists in H. unfold exists_ctx in H. apply Nat.ltb_lt in H. lia.
  Qed.

  (* steps that create storage: [F] says which slots are new *)
  Lemma inv_new o p w w' rho rho' (F : slot -> bool) : Inv p w rho ->
    List.length (w_ctxs w') = List.length (born (o :: p)) -> w_chans w' = w_chans w -> beats_made (o :: p) = beats_made p ->
    w_heap w' = w_heap w -> (w_next w <= w_next w')%nat ->
    (forall s, F s = false -> rho' s = rho s) ->
    (forall s, F s = true -> (w_next w <= rho' s < w_next w')%nat) ->
    (forall s t, F s = true -> F t = true -> rho' s = rho' t -> s = t) ->
    (forall s, F s = false -> valid (o :: p) s -> valid p s) ->
    (forall s k, F s = false -> valid p s -> val hc (o :: p) s k = val hc p s k) ->
    (forall s k, F s = true -> val hc (o :: p) s k = None) ->
    (forall x c, nth_error (w_ctxs w') x = Some c ->
      c_stream c = stream_of (o :: p) x /\
      c_tcp c = (match nth_error (born (o :: p)) x with Some Gram => false | _ => true end) /\
      (exists s, req_slot (o :: p) x = Some s /\ c_pr c = rho' s) /\
      (c_tcp c = true -> exists s, conn_slot (o :: p) x = Some s /\ c_pc c = Some (rho' s))) ->
    Inv (o :: p) w' rho'.
  Proof.
    intros I L Hc Hb Hh Hn R0 R1 RJ V0 W0 W1 C. destruct I as [L0 C0 J T W N K]. constructor; auto.
    - intros s t Vs Vt E. destruct (F s) eqn:Fs, (F t) eqn:Ft; auto.
      + exfalso. rewrite (R0 _ Ft) in E. specialize (R1 _ Fs). specialize (T _ (V0 _ Ft Vt)). lia.
      + exfalso. rewrite (R0 _ Fs) in E. specialize (R1 _ Ft). specialize (T _ (V0 _ Fs Vs)). lia.
      + apply J; auto. rewrite <- !R0; auto.
    - intros s Vs. destruct (F s) eqn:Fs. specialize (R1 _ Fs). lia. rewrite R0 by auto. specialize (T _ (V0 _ Fs Vs)). lia.
    - intros s k Vs. rewrite Hh. destruct (F s) eqn:Fs.
      + rewrite W1 by auto. apply N. specialize (R1 _ Fs). lia.
      + rewrite R0, W0 by auto. apply W. auto.
    - intros r k Hr. rewrite Hh. apply N. lia.
    - congruence.
  Qed.

  Lemma val_nonexistent p s k : match s with SConn x => exists_ctx p x | SPriv x => exists_ctx p x end = false -> val hc p s k = None.
  Proof.
    intros H. induction p as [|o p IH]; auto.
    assert (E : match s with SConn x => exists_ctx p x | SPriv x => exists_ctx p x end = false).
    { destruct s as [x|x]; apply not_true_iff_false; intros K; apply (exists_mono o) in K; congruence. }
    specialize (IH E).
    assert (NC : forall y, is_slot (conn_slot p y) s = false).
    { intros y. destruct (conn_slot p y) as [t|] eqn:Q; auto. simpl. apply not_true_iff_false. intros K. apply slot_eqb_eq in K. subst t.
      apply conn_slot_valid in Q. destruct s as [x|x]; simpl in Q.
      - apply not_true_iff_false in E. apply E. apply exists_ctx_iff. congruence.
      - apply not_true_iff_false in E. apply E. apply exists_ctx_iff. unfold req_slot in Q. destruct (nth_error (born p) x); congruence. }
    assert (NR : forall y, is_slot (req_slot p y) s = false).
    { intros y. destruct (req_slot p y) as [t|] eqn:Q; auto. simpl. apply not_true_iff_false. intros K. apply slot_eqb_eq in K. subst t.
      apply req_slot_valid in Q. destruct s as [x|x]; simpl in Q.
      - apply not_true_iff_false in E. apply E. apply exists_ctx_iff. congruence.
      - apply not_true_iff_false in E. apply E. apply exists_ctx_iff. unfold req_slot in Q. destruct (nth_error (born p) x); congruence. }
    destruct o; simpl; rewrite ?NC, ?NR; simpl; auto.
    destruct (match s with SConn _ => false | SPriv y => Nat.eqb x y end && exists_ctx p x); auto.
  Qed.

  Lemma stream_nonexistent p x : exists_ctx p x = false -> stream_of p x = of_bytes [].
  Proof.
    induction p as [|o p IH]; intros H; auto.
    assert (E : exists_ctx p x = false). { apply not_true_iff_false; intros K; apply (exists_mono o) in K; congruence. }
    specialize (IH E). destruct o; simpl; auto.
    - destruct (Nat.eqb x (List.length (born p))) eqn:Q; auto. apply Nat.eqb_eq in Q. exfalso.
      unfold exists_ctx in H. apply Nat.ltb_ge in H. simpl in H. rewrite app_length in H. simpl in H. lia.
    - destruct (nth_error (born p) x0) as [[| |]|] eqn:Q; auto.
      + replace (Nat.eqb x (List.length (born p)) || Nat.eqb x x0) with false; auto. symmetry. apply orb_false_iff. split.
        * apply Nat.eqb_neq. intros ->. unfold exists_ctx in H. simpl in H. rewrite Q in H. apply Nat.ltb_ge in H. rewrite app_length in H. simpl in H. lia.
        * apply Nat.eqb_neq. intros ->. apply not_true_iff_false in E. apply E. apply exists_ctx_iff. congruence.
      + replace (Nat.eqb x (List.length (born p)) || Nat.eqb x x0) with false; auto. symmetry. apply orb_false_iff. split.
        * apply Nat.eqb_neq. intros ->. unfold exists_ctx in H. simpl in H. rewrite Q in H. apply Nat.ltb_ge in H. rewrite app_length in H. simpl in H. lia.
        * apply Nat.eqb_neq. intros ->. apply not_true_iff_false in E. apply E. apply exists_ctx_iff. congruence.
  Qed.

  Lemma last_not_exists p : exists_ctx p (List.length (born p)) = false.
  Proof. unfold exists_ctx. apply Nat.ltb_irrefl. Qed.

  Lemma ctx_exists p w rho x c : Inv p w rho -> nth_error (w_ctxs w) x = Some c -> (x < List.length (born p))%nat.
  Proof. intros I H. rewrite <- (i_len _ _ _ I). apply nth_error_Some. congruence. Qed.

  Lemma inv_accept p w rho : Inv p w rho -> exists rho', Inv (CAccept :: p) (NewContext w) rho'.
  Proof.
    intros I. destruct (new_slots CAccept p Root eq_refl (fun x => eq_refl)) as (Hs & Hr).
    set (n := List.length (born p)) in *.
    exists (fun s => if slot_eqb (SConn n) s then w_next w else if slot_eqb (SPriv n) s then S (w_next w) else rho s).
    assert (Hn : nth_error (born (CAccept :: p)) n = Some Root) by apply nth_snoc_last.
    apply inv_new with (w := w) (rho := rho) (F := fun s => slot_eqb (SConn n) s || slot_eqb (SPriv n) s); cbn [NewContext w_ctxs w_heap w_next w_chans]; auto.
    - change (born (CAccept :: p)) with (born p ++ [Root]). rewrite !app_length, (i_len _ _ _ I). auto.
    - intros s F. apply orb_false_iff in F as (-> & ->). auto.
    - intros s F. destruct (slot_eqb (SConn n) s); [lia|]. destruct (slot_eqb (SPriv n) s); [lia|discriminate].
    - intros s t Fs Ft.
      destruct (slot_eqb (SConn n) s) eqn:A1; [|destruct (slot_eqb (SPriv n) s) eqn:A2; [|discriminate]];
      (destruct (slot_eqb (SConn n) t) eqn:B1; [|destruct (slot_eqb (SPriv n) t) eqn:B2; [|discriminate]]); intros Q; try lia.
      apply slot_eqb_eq in A1, B1; congruence. apply slot_eqb_eq in A2, B2; congruence.
    - intros s F V. apply orb_false_iff in F as (E1 & E2). destruct s as [c|x]; simpl in V, E1, E2 |- *.
      + apply nth_snoc in V as [V|(V & _)]; auto. subst. unfold n in E1. rewrite Nat.eqb_refl in E1. discriminate.
      + apply Nat.eqb_neq in E2. rewrite <- (proj2 (Hs x (not_eq_sym E2))). exact V.
    - intros s k F. apply orb_true_iff in F as [F|F]; apply slot_eqb_eq in F; subst s; simpl; apply val_nonexistent; apply last_not_exists.
    - intros x c H. apply nth_snoc in H as [H|(-> & ->)].
      + pose proof (ctx_exists _ _ _ _ _ I H) as L. destruct (Hs x) as (H1 & H2); [unfold n; lia|].
        destruct (i_ctx _ _ _ I _ _ H) as (A & B & (s & C1 & C2) & D). rewrite H1, H2.
        split; [exact A|]. split. { rewrite B. destruct (inv_ctx _ _ _ _ _ I H) as (wh & Hw). rewrite Hw, (born_mono _ _ _ _ Hw). auto. }
        assert (G : forall s, (req_slot p x = Some s \/ conn_slot p x = Some s) -> slot_eqb (SConn n) s = false /\ slot_eqb (SPriv n) s = false).
        { intros t Ht. assert (V : valid p t) by (destruct Ht; [eapply req_slot_valid|eapply conn_slot_valid]; eauto).
          destruct t as [c'|x']; simpl in V |- *; (split; auto); apply Nat.eqb_neq; intros <-.
          - assert (K : nth_error (born p) n <> None) by congruence. apply nth_error_Some in K. unfold n in K. lia.
          - unfold req_slot in V. destruct (nth_error (born p) n) eqn:Q; [|discriminate].
            assert (K : nth_error (born p) n <> None) by congruence. apply nth_error_Some in K. unfold n in K. lia. }
        split.
        * exists s. destruct (G s (or_introl C1)) as (-> & ->). auto.
        * intros Ht. destruct (D Ht) as (s' & D1 & D2). exists s'. destruct (G s' (or_intror D1)) as (-> & ->). auto.
      + rewrite (i_len _ _ _ I). fold n. cbn [c_stream c_tcp c_pr c_pc]. rewrite Hn.
        unfold req_slot, conn_slot. rewrite Hn. split. { simpl. symmetry. apply stream_nonexistent. apply last_not_exists. }
        split; auto. split.
        * exists (SPriv n). split; auto. simpl. rewrite Nat.eqb_refl. auto.
        * intros _. exists (SConn n). split; auto. simpl. rewrite Nat.eqb_refl. auto.
  Qed.

  Lemma inv_datagram p w rho s : Inv p w rho -> exists rho', Inv (CDatagram s :: p) (NewUDPContext s w) rho'.
  Proof.
    intros I. destruct (new_slots (CDatagram s) p Gram eq_refl (fun x => eq_refl)) as (Hs & Hr).
    set (n := List.length (born p)) in *.
    exists (fun s => if slot_eqb (SPriv n) s then w_next w else rho s).
    assert (Hn : nth_error (born (CDatagram s :: p)) n = Some Gram) by apply nth_snoc_last.
    apply inv_new with (w := w) (rho := rho) (F := fun s => slot_eqb (SPriv n) s); cbn [NewUDPContext w_ctxs w_heap w_next w_chans]; auto.
    - change (born (CDatagram s :: p)) with (born p ++ [Gram]). rewrite !app_length, (i_len _ _ _ I). auto.
    - intros t ->. auto.
    - intros t ->. lia.
    - intros t u A B. apply slot_eqb_eq in A, B. congruence.
    - intros t F V. destruct t as [c|x]; simpl in V, F |- *.
      + apply nth_snoc in V as [V|(_ & V)]; auto. discriminate.
      + apply Nat.eqb_neq in F. rewrite <- (proj2 (Hs x (not_eq_sym F))). exact V.
    - intros t k F. apply slot_eqb_eq in F; subst t; simpl; apply val_nonexistent; apply last_not_exists.
    - intros x c H. apply nth_snoc in H as [H|(-> & ->)].
      + pose proof (ctx_exists _ _ _ _ _ I H) as L. destruct (Hs x) as (H1 & H2); [unfold n; lia|].
        destruct (i_ctx _ _ _ I _ _ H) as (A & B & (t & C1 & C2) & D). rewrite H1, H2.
        split. { rewrite A. simpl. replace (Nat.eqb x (List.length (born p))) with false; auto. symmetry. apply Nat.eqb_neq. lia. }
        split. { rewrite B. destruct (inv_ctx _ _ _ _ _ I H) as (wh & Hw). rewrite Hw, (born_mono _ _ _ _ Hw). auto. }
        assert (G : forall s, (req_slot p x = Some s \/ conn_slot p x = Some s) -> slot_eqb (SPriv n) s = false).
        { intros u Ht. assert (V : valid p u) by (destruct Ht; [eapply req_slot_valid|eapply conn_slot_valid]; eauto).
          destruct u as [c'|x']; simpl in V |- *; auto; apply Nat.eqb_neq; intros <-.
          unfold req_slot in V. destruct (nth_error (born p) n) eqn:Q; [|discriminate].
            assert (K : nth_error (born p) n <> None) by congruence. apply nth_error_Some in K. unfold n in K. lia. }
        split.
        * exists t. rewrite (G t (or_introl C1)). auto.
        * intros Ht. destruct (D Ht) as (s' & D1 & D2). exists s'. rewrite (G s' (or_intror D1)). auto.
      + rewrite (i_len _ _ _ I). fold n. cbn [c_stream c_tcp c_pr c_pc]. rewrite Hn.
        unfold req_slot, conn_slot. rewrite Hn. split. { simpl. fold n. rewrite Nat.eqb_refl. auto. }
        split; auto. split.
        * exists (SPriv n). split; auto. simpl. rewrite Nat.eqb_refl. auto.
        * discriminate.
  Qed.

  Lemma inv_read p w rho y s c : Inv p w rho -> nth_error (w_ctxs w) y = Some c -> c_tcp c = true ->
    exists rho', Inv (CRead y s :: p) (read_message y c s w) rho'.
  Proof.
    intros I Hc Ht. destruct (inv_ctx _ _ _ _ _ I Hc) as (wh & Hw).
    assert (exists d, born (CRead y s :: p) = born p ++ [Req d] /\ conn_slot p y = Some (SConn d)) as (d & Hb & Hd).
    { simpl. rewrite Hw. unfold conn_slot. rewrite Hw. destruct (i_ctx _ _ _ I _ _ Hc) as (_ & B & _). rewrite Hw, Ht in B.
      destruct wh; try discriminate; eexists; split; reflexivity. }
    destruct (new_slots (CRead y s) p (Req d) Hb (fun x => eq_refl)) as (Hs & Hr).
    set (n := List.length (born p)) in *. exists rho.
    assert (Hn : nth_error (born (CRead y s :: p)) n = Some (Req d)) by (rewrite Hb; apply nth_snoc_last).
    assert (St : forall x, stream_of (CRead y s :: p) x = if Nat.eqb x n || Nat.eqb x y then s else stream_of p x).
    { intros x. simpl. rewrite Hw. destruct (i_ctx _ _ _ I _ _ Hc) as (_ & B & _). rewrite Hw, Ht in B. destruct wh; auto; discriminate. }
    apply inv_new with (w := w) (rho := rho) (F := fun _ => false); cbn [read_message w_ctxs w_heap w_next w_chans]; try discriminate; auto.
    - rewrite Hb, !app_length, upd_length, (i_len _ _ _ I). auto.
    - intros t _ V. destruct t as [c'|x]; cbn [valid] in V |- *.
      + rewrite Hb in V. apply nth_snoc in V as [V|(_ & V)]; auto. discriminate.
      + destruct (Nat.eq_dec x n) as [->|Nx].
        * unfold req_slot in V. rewrite Hn, Hr in V. discriminate.
        * rewrite <- (proj2 (Hs x Nx)). exact V.
    - intros x c0 H. rewrite St.
      destruct (i_ctx _ _ _ I _ _ Hc) as (A & B & (t & C1 & C2) & D). destruct (D Ht) as (t' & D1 & D2).
      apply nth_snoc in H as [H|(-> & ->)].
      + rewrite nth_upd in H. destruct (Nat.eqb x y) eqn:Exy.
        * apply Nat.eqb_eq in Exy. subst x. rewrite Hc in H. inversion H; subst c0. cbn [set_stream c_stream c_tcp c_pr c_pc].
          rewrite orb_true_r. pose proof (ctx_exists _ _ _ _ _ I Hc) as L. destruct (Hs y) as (H1 & H2); [unfold n; lia|].
          rewrite H1, H2, (born_mono _ _ _ _ Hw). split; auto. split; [rewrite Hw in B; exact B|]. split; [eauto|]. intros _. eauto.
        * pose proof (ctx_exists _ _ _ _ _ I H) as L. destruct (Hs x) as (H1 & H2); [unfold n; lia|].
          replace (Nat.eqb x n) with false by (symmetry; apply Nat.eqb_neq; unfold n; lia). simpl orb. cbv iota.
          destruct (inv_ctx _ _ _ _ _ I H) as (wh' & Hw'). rewrite H1, H2, (born_mono _ _ _ _ Hw').
          pose proof (i_ctx _ _ _ I _ _ H) as Q. rewrite Hw' in Q. exact Q.
      + rewrite upd_length, (i_len _ _ _ I). fold n. rewrite Nat.eqb_refl. cbn [orb copyContext set_stream c_stream c_tcp c_pr c_pc].
        rewrite Hn. unfold req_slot, conn_slot. rewrite Hn, Hr. rewrite D2. split; auto. split; auto.
        rewrite Hd in D1. inversion D1; subst t'. split; [exists (SConn d); auto|]. intros _. exists (SConn d). auto.
  Qed.

  Lemma inv_reset p w rho y c : Inv p w rho -> nth_error (w_ctxs w) y = Some c ->
    exists rho', Inv (CReset y :: p) (Reset y c w) rho'.
  Proof.
    intros I Hc. destruct (inv_ctx _ _ _ _ _ I Hc) as (wh & Hw).
    assert (Ey : exists_ctx p y = true) by (apply exists_ctx_iff; congruence).
    exists (fun s => if slot_eqb (SPriv y) s then w_next w else rho s).
    assert (Cs : forall x, conn_slot (CReset y :: p) x = conn_slot p x) by reflexivity.
    assert (Rs : forall x, x <> y -> req_slot (CReset y :: p) x = req_slot p x).
    { intros x Nx. unfold req_slot. simpl. apply Nat.eqb_neq in Nx. rewrite Nx. reflexivity. }
    assert (Ry : req_slot (CReset y :: p) y = Some (SPriv y)).
    { unfold req_slot. simpl. rewrite Hw, Nat.eqb_refl, Ey. simpl. destruct wh; reflexivity. }
    apply inv_new with (w := w) (rho := rho) (F := fun s => slot_eqb (SPriv y) s); cbn [Reset w_ctxs w_heap w_next w_chans]; auto.
    - rewrite upd_length. exact (i_len _ _ _ I).
    - intros t ->. auto.
    - intros t ->. lia.
    - intros t u A B. apply slot_eqb_eq in A, B. congruence.
    - intros t F V. destruct t as [c'|x]; simpl in F |- *; auto. apply Nat.eqb_neq in F. simpl in V. rewrite Rs in V by auto. exact V.
    - intros t k F V. cbn [val]. rewrite F. reflexivity.
    - intros t k F. cbn [val]. rewrite F, Ey. reflexivity.
    - intros x c0 H. rewrite Cs. change (stream_of (CReset y :: p) x) with (stream_of p x). change (born (CReset y :: p)) with (born p).
      rewrite nth_upd in H. destruct (Nat.eqb x y) eqn:Exy.
      + apply Nat.eqb_eq in Exy. subst x. rewrite Hc in H. inversion H; subst c0. cbn [c_stream c_tcp c_pr c_pc].
        destruct (i_ctx _ _ _ I _ _ Hc) as (A & B & _ & D). split; auto. split; auto. split.
        * exists (SPriv y). split; auto. simpl. rewrite Nat.eqb_refl. auto.
        * intros Ht. destruct (D Ht) as (s & D1 & D2). exists s. split; auto.
          unfold conn_slot in D1. rewrite Hw in D1, B. rewrite Ht in B. destruct wh; inversion D1; subst; auto. discriminate.
      + destruct (i_ctx _ _ _ I _ _ H) as (A & B & (s & C1 & C2) & D). apply Nat.eqb_neq in Exy. rewrite Rs by auto.
        split; auto. split; auto. split.
        * exists s. split; auto. destruct s as [d|z]; simpl; auto. assert (z = x) as ->.
          { unfold req_slot in C1. destruct (nth_error (born p) x) as [[| |]|]; try congruence. destruct (was_reset p x); congruence. }
          replace (Nat.eqb y x) with false by (symmetry; apply Nat.eqb_neq; auto). auto.
        * intros Ht. destruct (D Ht) as (s' & D1 & D2). exists s'. split; auto.
          destruct (inv_ctx _ _ _ _ _ I H) as (wh' & Hw'). unfold conn_slot in D1. rewrite Hw' in D1, B. rewrite Ht in B.
          destruct wh'; inversion D1; subst; auto. discriminate.
  Qed.

  Lemma is_slot_eq o s : is_slot (Some o) s = slot_eqb o s.
  Proof. reflexivity. Qed.

  Lemma inv_step o p w rho : Inv p w rho -> exists rho', Inv (o :: p) (cstep hc o w) rho'.
  Proof.
    intros I. destruct o as [|s|x s|x k v|x k v|x u|x|x|x|x]; cbn [cstep].
    - eapply inv_accept; eauto.
    - eapply inv_datagram; eauto.
    - unfold on. destruct (nth_error (w_ctxs w) x) as [c|] eqn:Hc.
      + destruct (c_tcp c) eqn:Ht; [eapply inv_read; eauto|].
        exists rho. destruct (inv_ctx _ _ _ _ _ I Hc) as (wh & Hw). destruct (i_ctx _ _ _ I _ _ Hc) as (_ & B & _). rewrite Hw, Ht in B.
        destruct wh; try discriminate.
        assert (Hb : born (CRead x s :: p) = born p) by (simpl; rewrite Hw; auto).
        assert (Hs : forall z, stream_of (CRead x s :: p) z = stream_of p z) by (intros z; simpl; rewrite Hw; auto).
        destruct I as [L C J T W N K].
        assert (HV : forall t, valid (CRead x s :: p) t <-> valid p t).
        { intros [d|z]; cbn [valid]; rewrite ?Hb; unfold req_slot; rewrite ?Hb; reflexivity. }
        constructor; auto.
        * rewrite Hb. auto.
        * intros z c0 H0. rewrite Hs, Hb. unfold req_slot, conn_slot. rewrite Hb. apply C. auto.
        * intros t u V1 V2. apply J; apply HV; auto.
        * intros t V. apply T. apply HV; auto.
        * intros t k V. apply W. apply HV; auto.
      + exists rho. pose proof (inv_noctx _ _ _ _ I Hc) as Hw.
        assert (Hb : born (CRead x s :: p) = born p) by (simpl; rewrite Hw; auto).
        assert (Hs : forall z, stream_of (CRead x s :: p) z = stream_of p z) by (intros z; simpl; rewrite Hw; auto).
        destruct I as [L C J T W N K].
        assert (HV : forall t, valid (CRead x s :: p) t <-> valid p t).
        { intros [d|z]; cbn [valid]; rewrite ?Hb; unfold req_slot; rewrite ?Hb; reflexivity. }
        constructor; auto.
        * rewrite Hb. auto.
        * intros z c0 H0. rewrite Hs, Hb. unfold req_slot, conn_slot. rewrite Hb. apply C. auto.
        * intros t u V1 V2. apply J; apply HV; auto.
        * intros t V. apply T. apply HV; auto.
        * intros t k V. apply W. apply HV; auto.
    - unfold on. destruct (nth_error (w_ctxs w) x) as [c|] eqn:Hc.
      + unfold SetCtxPerConn. destruct (reserved k) eqn:Rk.
        * exists rho. simpl. apply inv_same; auto. intros s k' V. cbn [val]. rewrite Rk. rewrite andb_false_r. auto.
        * destruct (setconn_slot _ _ _ _ _ k v I Hc) as (s & Hs & V & ->). exists rho. simpl orsame. apply inv_store; auto.
          intros t k' Vt. cbn [val]. rewrite Hs, Rk, is_slot_eq. simpl negb. rewrite andb_true_r. auto.
      + exists rho. apply inv_same; auto. intros s k' V. cbn [val].
        destruct (noctx_slots _ _ (inv_noctx _ _ _ _ I Hc)) as (-> & _). auto.
    - unfold on. destruct (nth_error (w_ctxs w) x) as [c|] eqn:Hc.
      + destruct (getreq_slot _ _ _ _ _ k I Hc) as (s & Hs & V & Hpr & _). exists rho. unfold SetCtxPerRequest. rewrite Hpr.
        apply inv_store; auto. intros t k' Vt. cbn [val]. rewrite Hs, is_slot_eq. auto.
      + exists rho. apply inv_same; auto. intros s k' V. cbn [val].
        destruct (noctx_slots _ _ (inv_noctx _ _ _ _ I Hc)) as (_ & -> & _). auto.
    - unfold on. destruct (nth_error (w_ctxs w) x) as [c|] eqn:Hc.
      + unfold SetUsername. destruct (setconn_slot _ _ _ _ _ k_username (VStr u) I Hc) as (s & Hs & V & ->). exists rho. simpl orsame. apply inv_store; auto.
        intros t k' Vt. cbn [val]. rewrite Hs, is_slot_eq. auto.
      + exists rho. apply inv_same; auto. intros s k' V. cbn [val].
        destruct (noctx_slots _ _ (inv_noctx _ _ _ _ I Hc)) as (-> & _). auto.
    - unfold on. destruct (nth_error (w_ctxs w) x) as [c|] eqn:Hc.
      + destruct (getreq_slot _ _ _ _ _ k_router I Hc) as (s & Hs & V & Hpr & Hg). exists rho. unfold RouterType, routerType. rewrite Hg.
        destruct (i_ctx _ _ _ I _ _ Hc) as (Hst & _). rewrite Hst.
        destruct (is_string (val hc p s k_router)) eqn:Is.
        * assert (exists t, val hc p s k_router = Some (VStr t)) as (t & Et). { destruct (val hc p s k_router) as [[| |]|]; try discriminate; eauto. }
          rewrite Et. simpl. apply inv_same; auto. intros s' k' V'. cbn [val]. rewrite Hs, is_slot_eq.
          destruct (slot_eqb s s') eqn:Es; auto. destruct (keqb k' (KStr "router_type")) eqn:Ek; auto.
          apply slot_eqb_eq in Es. apply keqb_eq in Ek. subst. cbn [andb]. change (KStr "router_type") with k_router. rewrite Et. reflexivity.
        * assert (Q : match val hc p s k_router with Some (VStr t) => Ok (t, true) | _ => (t <- own_router_type hc (stream_of p x) ;; Ok (t, false)) end
            = (t <- own_router_type hc (stream_of p x) ;; Ok (t, false))). { destruct (val hc p s k_router) as [[| |]|]; try discriminate; auto. }
          rewrite Q. destruct (own_router_type hc (stream_of p x)) as [t| |] eqn:Eo; simpl rbind; cbv iota.
          -- simpl snd. rewrite Hpr. apply inv_store; auto. intros s' k' V'. cbn [val]. rewrite Hs, is_slot_eq.
             destruct (slot_eqb s s') eqn:Es; auto. destruct (keqb k' (KStr "router_type")) eqn:Ek; auto.
             { apply slot_eqb_eq in Es. subst s'. pose proof Ek as Ek'. apply keqb_eq in Ek'. subst k'. cbn [andb]. change (KStr "router_type") with k_router in *. rewrite Is. simpl negb. cbv iota. rewrite Eo. rewrite keqb_refl. reflexivity. }
             { cbn [andb]. change k_router with (KStr "router_type"). rewrite Ek. auto. }
          -- simpl. apply inv_same; auto. intros s' k' V'. cbn [val]. rewrite Eo. destruct (_ && _ && _); auto.
          -- simpl. apply inv_same; auto. intros s' k' V'. cbn [val]. rewrite Eo. destruct (_ && _ && _); auto.
      + exists rho. apply inv_same; auto. intros s k' V. cbn [val].
        destruct (noctx_slots _ _ (inv_noctx _ _ _ _ I Hc)) as (_ & -> & _). auto.
    - unfold on. destruct (nth_error (w_ctxs w) x) as [c|] eqn:Hc.
      + destruct (getreq_slot _ _ _ _ _ k_url I Hc) as (s & Hs & V & Hpr & Hg). exists rho. unfold GetURLPattern. rewrite Hg.
        destruct (i_ctx _ _ _ I _ _ Hc) as (Hst & _). rewrite Hst.
        destruct (is_string (val hc p s k_url)) eqn:Is.
        * assert (exists t, val hc p s k_url = Some (VStr t)) as (t & Et). { destruct (val hc p s k_url) as [[| |]|]; try discriminate; eauto. }
          rewrite Et. simpl. apply inv_same; auto. intros s' k' V'. cbn [val]. rewrite Hs, is_slot_eq.
          destruct (slot_eqb s s') eqn:Es; auto. destruct (keqb k' (KStr "url_pattern")) eqn:Ek; auto.
          apply slot_eqb_eq in Es. apply keqb_eq in Ek. subst. cbn [andb]. change (KStr "url_pattern") with k_url. rewrite Et. reflexivity.
        * assert (Q : forall A (a : string -> A) (b : A), match val hc p s k_url with Some (VStr t) => a t | _ => b end = b). { intros. destruct (val hc p s k_url) as [[| |]|]; try discriminate; auto. }
          rewrite (Q _ (fun q => (Ok q, w))). destruct (URLPatternOf hc (stream_of p x)) as [t| |] eqn:Eo; cbv iota.
          -- simpl snd. rewrite Hpr. apply inv_store; auto. intros s' k' V'. cbn [val]. rewrite Hs, is_slot_eq.
             destruct (slot_eqb s s') eqn:Es; auto. destruct (keqb k' (KStr "url_pattern")) eqn:Ek; auto.
             { apply slot_eqb_eq in Es. subst s'. pose proof Ek as Ek'. apply keqb_eq in Ek'. subst k'. cbn [andb]. change (KStr "url_pattern") with k_url in *. rewrite Is. simpl negb. cbv iota. rewrite Eo. rewrite keqb_refl. reflexivity. }
             { cbn [andb]. change k_url with (KStr "url_pattern"). rewrite Ek. auto. }
          -- simpl. apply inv_same; auto. intros s' k' V'. cbn [val]. rewrite Eo. destruct (_ && _ && _); auto.
          -- simpl. apply inv_same; auto. intros s' k' V'. cbn [val]. rewrite Eo. destruct (_ && _ && _); auto.
      + exists rho. apply inv_same; auto. intros s k' V. cbn [val].
        destruct (noctx_slots _ _ (inv_noctx _ _ _ _ I Hc)) as (_ & -> & _). auto.
    - unfold on. destruct (nth_error (w_ctxs w) x) as [c|] eqn:Hc; [eapply inv_reset; eauto|].
      exists rho. pose proof (inv_noctx _ _ _ _ I Hc) as Hw. destruct (noctx_slots _ _ Hw) as (_ & _ & Ex).
      destruct I as [L C J T W N K].
      assert (HR : forall z, req_slot (CReset x :: p) z = req_slot p z).
      { intros z. unfold req_slot. simpl. destruct (Nat.eqb z x) eqn:E; auto. apply Nat.eqb_eq in E. subst z. rewrite Ex. auto. }
      assert (HV : forall t, valid (CReset x :: p) t <-> valid p t).
      { intros [d|z]; cbn [valid]; rewrite ?HR; reflexivity. }
      constructor; auto.
      * intros z c0 H0. rewrite HR. exact (C z c0 H0).
      * intros t u V1 V2. apply J; apply HV; auto.
      * intros t V. apply T. apply HV; auto.
      * intros t k V. cbn [val]. rewrite Ex, andb_false_r. apply W. apply HV; auto.
    - unfold on. destruct (nth_error (w_ctxs w) x) as [c|] eqn:Hc.
      + exists rho. destruct (inv_ctx _ _ _ _ _ I Hc) as (wh & Hw).
        assert (Ex : exists_ctx p x = true) by (apply exists_ctx_iff; congruence).
        assert (Hg : GetCtxPerConn c k_heart w = GetCtxPerConn c k_heart (World (w_ctxs w) (w_heap w) (w_next w) (S (w_chans w)))) by reflexivity.
        destruct (getconn_slot _ _ _ _ _ k_heart I Hc) as (s & Hs & V & Hv).
        destruct (setconn_tick _ _ _ _ _ k_heart (VChan (w_chans w)) (S (w_chans w)) I Hc) as (s' & Hs' & _ & Hst).
        rewrite Hs in Hs'. inversion Hs'; subst s'.
        unfold HeartBeatChan. rewrite Hv. cbv zeta.
        destruct (is_chan (val hc p s k_heart)) eqn:Is.
        * assert (exists m, val hc p s k_heart = Some (VChan m)) as (m & Em). { destruct (val hc p s k_heart) as [[| |]|]; try discriminate; eauto. }
          rewrite Em. apply inv_tick; auto. { cbn [beats_made]. rewrite Ex. reflexivity. }
          intros s' k' V'. cbn [val]. rewrite Hs, is_slot_eq.
          destruct (slot_eqb s s') eqn:Es; auto. destruct (keqb k' (KStr "tcpx-heart-beat-channel")) eqn:Ek; auto.
          apply slot_eqb_eq in Es. apply keqb_eq in Ek. subst. cbn [andb]. change (KStr "tcpx-heart-beat-channel") with k_heart. rewrite Em. reflexivity.
        * assert (Q : forall A (a : nat -> A) (b : A), match val hc p s k_heart with Some (VChan t) => a t | _ => b end = b). { intros. destruct (val hc p s k_heart) as [[| |]|]; try discriminate; auto. }
          rewrite (Q _ (fun m => Some (m, World (w_ctxs w) (w_heap w) (w_next w) (S (w_chans w))))). rewrite Hst.
          apply inv_tick_store; auto. { cbn [beats_made]. rewrite Ex. reflexivity. }
          intros s' k' V'. cbn [val]. rewrite Hs, is_slot_eq, (i_chans _ _ _ I).
          destruct (slot_eqb s s') eqn:Es; auto. destruct (keqb k' (KStr "tcpx-heart-beat-channel")) eqn:Ek; auto.
          { apply slot_eqb_eq in Es. subst s'. pose proof Ek as Ek'. apply keqb_eq in Ek'. subst k'. cbn [andb]. change (KStr "tcpx-heart-beat-channel") with k_heart in *. rewrite Is. simpl negb. cbv iota. rewrite keqb_refl. reflexivity. }
          { cbn [andb]. change k_heart with (KStr "tcpx-heart-beat-channel"). rewrite Ek. auto. }
      + exists rho. destruct (noctx_slots _ _ (inv_noctx _ _ _ _ I Hc)) as (Hn & _ & Ex). apply inv_same; auto.
        { cbn [beats_made]. rewrite Ex. reflexivity. }
        intros s k' V. cbn [val]. rewrite Hn. auto.
  Qed.

  Lemma inv_all h : exists rho, Inv h (crun hc h) rho.
  Proof.
    induction h as [|o p (rho & I)].
    - exists (fun _ => O). constructor; simpl; auto.
      + intros [|x] c H; discriminate.
      + intros [c|x] t V; simpl in V. destruct c; discriminate. unfold req_slot in V. simpl in V. destruct x; discriminate.
      + intros [c|x] V; simpl in V. destruct c; discriminate. unfold req_slot in V. simpl in V. destruct x; discriminate.
    - exact (inv_step o p _ rho I).
  Qed.

  (* the two reads, in terms of the history *)
  Theorem stores_exact h x c k : nth_error (w_ctxs (crun hc h)) x = Some c ->
    (exists s, conn_slot h x = Some s /\ GetCtxPerConn c k (crun hc h) = val hc h s k) /\
    (exists s, req_slot h x = Some s /\ GetCtxPerRequest c k (crun hc h) = val hc h s k) /\
    c_stream c = stream_of h x.
  Proof.
    intros H. destruct (inv_all h) as (rho & I). split; [|split].
    - destruct (getconn_slot _ _ _ _ _ k I H) as (s & A & _ & B). eauto.
    - destruct (getreq_slot _ _ _ _ _ k I H) as (s & A & _ & _ & B). eauto.
    - apply (i_ctx _ _ _ I _ _ H).
  Qed.

  Lemma ctx_born h x : (exists c, nth_error (w_ctxs (crun hc h)) x = Some c) <-> exists_ctx h x = true.
  Proof.
    destruct (inv_all h) as (rho & I). rewrite exists_ctx_iff. split.
    - intros (c & H). destruct (inv_ctx _ _ _ _ _ I H) as (wh & ->). discriminate.
    - intros H. destruct (nth_error (w_ctxs (crun hc h)) x) eqn:E; eauto. apply (inv_noctx _ _ _ _ I) in E. congruence.
  Qed.
End Inv.
