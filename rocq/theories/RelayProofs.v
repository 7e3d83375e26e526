(* What handlers send to other connections (C140). *)
From Verif Require Export SpecRelay AnsProofs.

Lemma for_app t l l' : for_conn t (l ++ l') = for_conn t l ++ for_conn t l'.
Proof. unfold for_conn. rewrite filter_app, map_app. reflexivity. Qed.

Lemma for_flat {A} t (f : A -> list post) L : for_conn t (flat_map f L) = flat_map (fun a => for_conn t (f a)) L.
Proof. induction L as [|a L IH]; cbn [flat_map]; auto. rewrite for_app, IH. reflexivity. Qed.

Lemma for_begins t l l' : begins_with l l' -> begins_with (for_conn t l) (for_conn t l').
Proof. intros (rest & ->). exists (for_conn t rest). apply for_app. Qed.

Lemma in_for t l b : In b (for_conn t l) <-> In (t, b) l.
Proof.
  unfold for_conn. rewrite in_map_iff. split.
  - intros ([t1 b1] & E & H). apply filter_In in H as (H & G). cbn in E. subst b1. unfold goes_to in G. cbn [fst] in G. apply Nat.eqb_eq in G. subst t1. exact H.
  - intros H. exists (t, b). split; [reflexivity|]. apply filter_In. split; [exact H|]. apply Nat.eqb_refl.
Qed.

Lemma for_perm t l l' : Permutation l l' -> Permutation (for_conn t l) (for_conn t l').
Proof.
  intros H. unfold for_conn. apply Permutation_map. induction H as [|x l l' H IH|x z l|l l' l'' H IH H' IH']; cbn [filter].
  - constructor.
  - destruct (goes_to t x); [constructor; exact IH|exact IH].
  - destruct (goes_to t x), (goes_to t z); try reflexivity. constructor.
  - eapply Permutation_trans; eauto.
Qed.

Lemma in_to_msg {Bk} k n (p : Bk) out : In p (to_msg k n out) <-> In (k, n, p) out.
Proof.
  unfold to_msg. rewrite in_map_iff. split.
  - intros ([[k1 n1] p1] & E & H). cbn [block] in E. subst p1. apply filter_In in H as (H & G). cbn [of_msg] in G. apply andb_prop in G as (G1 & G2). apply Nat.eqb_eq in G1, G2. subst. exact H.
  - intros H. exists (k, n, p). split; [reflexivity|]. apply filter_In. split; [exact H|]. cbn [of_msg]. rewrite !Nat.eqb_refl. reflexivity.
Qed.

Lemma p_C140_each : forall say streams l y t, arun say (asys0 streams) l = Some y ->
  (forall k n, begins_with (for_conn t (say k n)) (for_conn t (to_msg k n (a_out y)))) /\
  (forall b, In b (arrived t (a_out y)) -> exists k n, In (LBegin k n) (y_log (a_sys y)) /\ In b (for_conn t (say k n))) /\
  (forall k n, In (LEnd k n) (y_log (a_sys y)) -> for_conn t (to_msg k n (a_out y)) = for_conn t (say k n)).
Proof.
  intros say streams l y t H. destruct (p_C139_each_answer _ _ _ _ H) as (A1 & A2 & A3 & _). split; [|split].
  - intros k n. apply for_begins, A1.
  - intros b Hb. unfold arrived in Hb. apply in_for, in_map_iff in Hb as ([[k n] p] & E & Hb). cbn [block] in E. subst p. exists k, n. split; [eapply A2; eauto|].
    apply in_for. destruct (A1 k n) as (rest & E). rewrite E. apply in_or_app. left. apply in_to_msg. exact Hb.
  - intros k n E. rewrite (A3 k n E). reflexivity.
Qed.

Lemma add_one {A P} (g g' : P -> list A) x L1 p L2 : ~ In p L1 -> ~ In p L2 -> g' p = x :: g p -> (forall q, q <> p -> g' q = g q) ->
  Permutation (x :: flat_map g (L1 ++ p :: L2)) (flat_map g' (L1 ++ p :: L2)).
Proof.
  intros N1 N2 E D. assert (R : forall L, ~ In p L -> flat_map g' L = flat_map g L).
  { induction L as [|q L IH]; intros N; cbn [flat_map]; auto. rewrite IH by (intros Z; apply N; right; exact Z). rewrite D; [reflexivity|]. intros ->. apply N. left. reflexivity. }
  rewrite !flat_map_app. cbn [flat_map]. rewrite (R L1 N1), (R L2 N2), E. cbn [app]. apply Permutation_middle.
Qed.

Lemma sorted_out {Bk} (L : list (nat * nat)) : NoDup L -> forall out : list (sent Bk), (forall k n b, In (k, n, b) out -> In (k, n) L) ->
  Permutation out (flat_map (fun p => filter (of_msg (fst p) (snd p)) out) L).
Proof.
  intros N. induction out as [|[[k n] b] out IH]; intros H.
  - clear. induction L as [|p L IH]; cbn [flat_map filter app]; auto.
  - assert (I : In (k, n) L) by (eapply H; left; reflexivity). apply in_split in I as (L1 & L2 & ->).
    eapply Permutation_trans; [apply perm_skip, IH; intros; eapply H; right; eauto|]. apply NoDup_remove_2 in N. apply add_one; try (intros Z; apply N, in_or_app; auto; fail).
    + cbn [filter of_msg fst snd]. rewrite !Nat.eqb_refl. reflexivity.
    + intros [k1 n1] Q. cbn [filter of_msg fst snd]. destruct (Nat.eqb_spec k k1), (Nat.eqb_spec n n1); cbn [andb]; auto. congruence.
Qed.

Lemma nodup_pairs (f : nat -> list nat) : (forall k, NoDup (f k)) -> forall L, NoDup L -> NoDup (flat_map (fun k => map (pair k) (f k)) L).
Proof.
  intros F. induction L as [|k L IH]; intros N; cbn [flat_map]; [constructor|]. inversion N as [|? ? N1 N2]; subst. specialize (IH N2). specialize (F k).
  assert (D : forall n, ~ In (k, n) (flat_map (fun k => map (pair k) (f k)) L)).
  { intros n Z. apply in_flat_map in Z as (k1 & Z1 & Z2). apply in_map_iff in Z2 as (n1 & Z2 & _). inversion Z2; subst. auto. }
  induction F as [|n l F1 F2 IHF]; cbn [map app]; auto. constructor; auto. intros Z. apply in_app_or in Z as [Z|Z]; [|exact (D _ Z)]. apply in_map_iff in Z as (n1 & Z & Z1). inversion Z; subst. auto.
Qed.

Lemma nodup_everything streams : NoDup (everything streams).
Proof. unfold everything. apply (nodup_pairs (fun k => seq 0 (messages (nth k streams [])))); [intros k; apply seq_NoDup|apply seq_NoDup]. Qed.

Lemma out_known {Bk} (ans : nat -> nat -> list Bk) streams l y : arun ans (asys0 streams) l = Some y -> forall k n b, In (k, n, b) (a_out y) -> In (k, n) (everything streams).
Proof.
  intros H k n b X. destruct (p_C139_each_answer _ _ _ _ H) as (_ & A2 & _). destruct (arun_orun _ _ _ _ H) as (l' & O). cbn [a_sys asys0] in O. destruct (p_C95_each_once _ _ _ O) as (_ & O2 & _).
  destruct (O2 k n (or_introl (A2 _ _ _ X))) as (E & HE & Hn). eapply in_everything; eauto.
Qed.

Lemma known_message streams k n : In (k, n) (everything streams) -> exists E, nth_error streams k = Some E /\ (n < messages E)%nat.
Proof.
  unfold everything. intros H. apply in_flat_map in H as (k1 & H1 & H2). apply in_map_iff in H2 as (n1 & E & H2). inversion E; subst. apply in_seq in H1, H2.
  exists (nth k streams []). split; [apply nth_error_nth'|]; lia.
Qed.

Lemma flat_ext {A C} (f g : A -> list C) L : (forall a, In a L -> f a = g a) -> flat_map f L = flat_map g L.
Proof. induction L as [|a L IH]; intros H; cbn [flat_map]; auto. rewrite (H a) by (left; reflexivity). rewrite IH by (intros; apply H; right; auto). reflexivity. Qed.

Lemma map_flat {A C D} (h : C -> D) (f : A -> list C) L : map h (flat_map f L) = flat_map (fun a => map h (f a)) L.
Proof. induction L as [|a L IH]; cbn [flat_map map]; auto. rewrite map_app, IH. reflexivity. Qed.

Lemma all_for_everything t say streams : all_for t say streams = for_conn t (flat_map (fun p => say (fst p) (snd p)) (everything streams)).
Proof.
  unfold all_for, everything. rewrite for_flat. generalize (seq 0 (List.length streams)) as L. induction L as [|k L IH]; cbn [flat_map]; auto. rewrite flat_map_app, <- IH. f_equal.
  generalize (seq 0 (messages (nth k streams []))) as M. induction M as [|n M IM]; cbn [flat_map map]; auto. rewrite IM. reflexivity.
Qed.

Lemma p_C140_all : forall say streams l y t, arun say (asys0 streams) l = Some y -> a_quiet say y -> y_dead (a_sys y) = false ->
  Permutation (arrived t (a_out y)) (all_for t say streams).
Proof.
  intros say streams l y t H Q D. rewrite all_for_everything. unfold arrived. apply for_perm.
  eapply Permutation_trans; [apply Permutation_map, (sorted_out (everything streams) (nodup_everything streams)); exact (out_known _ _ _ _ H)|].
  rewrite map_flat. destruct (p_C139_each_answer _ _ _ _ H) as (_ & _ & _ & A & _). specialize (A Q D).
  rewrite (flat_ext _ (fun p => say (fst p) (snd p))); [reflexivity|]. intros [k n] I. cbn [fst snd]. destruct (known_message _ _ _ I) as (E & HE & Hn). exact (A k E n HE Hn).
Qed.

Lemma p_C140_ends : forall say streams, (forall E b m, In E streams -> In (SPipe b m) E -> m <= 0) -> exists N, forall l y, arun say (asys0 streams) l = Some y ->
  (List.length l <= N)%nat /\ exists l' y', arun say y l' = Some y' /\ a_quiet say y' /\ forall t, Permutation (arrived t (a_out y')) (all_for t say streams).
Proof.
  intros say streams W. destruct (p_C139_ends say streams W) as (N & H). exists N. intros l y R. destruct (H l y R) as (L & l' & y' & R' & Q & A). split; [exact L|].
  exists l', y'. split; [exact R'|]. split; [exact Q|]. intros t. assert (R2 : arun say (asys0 streams) (l ++ l') = Some y') by (rewrite arun_app, R; exact R').
  apply (p_C140_all _ _ _ _ t R2 Q). assert (N0 : nonil (a_sys (@asys0 post streams))) by (split; [reflexivity|]; split; [|split; constructor]; apply Forall_forall; intros E HE b m; apply (W E b m HE)).
  destruct (steps_bound _ _ _ _ N0 R2) as ((DD & _) & _). exact DD.
Qed.

Lemma p_C140_order : forall say streams l y t k,
  (forall pre body missing post, arun say (asys0 streams) l = Some y -> nth_error streams k = Some (pre ++ SPipe body missing :: post) ->
    begins_with (flat_map (fun n => for_conn t (say k n)) (seq (messages pre) (List.length body))) (for_conn t (to_range k (messages pre) (List.length body) (a_out y)))) /\
  (forall E, nth_error streams k = Some E -> polite say k (asys0 streams) l y ->
    begins_with (flat_map (fun n => for_conn t (say k n)) (seq 0 (messages E))) (for_conn t (to_conn k (a_out y)))).
Proof.
  intros say streams l y t k. split.
  - intros pre body missing post H HE. rewrite <- for_flat. apply for_begins. eapply p_C139_batch; eauto.
  - intros E HE P. rewrite <- for_flat. apply for_begins. apply (p_C139_waiting _ _ _ _ _ _ HE P).
Qed.

Lemma p_C140_read : forall say streams l y t lim rest en r, arun say (asys0 streams) l = Some y ->
  (forall k n b, In (t, b) (say k n) -> frame lim b) -> segmentation (concat (arrived t (a_out y)) ++ rest) en r ->
  exists r', recv (FirstBlockOfLimitMaxByte lim) (List.length (arrived t (a_out y))) r = (arrived t (a_out y), RdOk tt, r') /\ segmentation rest en r'.
Proof.
  intros say streams l y t lim rest en r H F G. apply recv_frames; [|exact G]. apply Forall_forall. intros b Hb. destruct (p_C140_each _ _ _ _ t H) as (_ & A & _).
  destruct (A b Hb) as (k & n & _ & I). apply in_for in I. eapply F; eauto.
Qed.

Lemma p_C140_order_refuted : forall m1 m2 b1 b2, let say := fun k n => match k, n with 0%nat, 0%nat => [(1%nat, b1)] | 0%nat, 1%nat => [(1%nat, b2)] | _, _ => [] end in
  exists l y, arun say (asys0 [[SDispatch m1; SDispatch m2]; []]) l = Some y /\ a_quiet say y /\ y_dead (a_sys y) = false /\ arrived 1 (a_out y) = [b2; b1].
Proof.
  intros m1 m2 b1 b2. cbv zeta. exists [ADo AAccept; ADo AAccept; ADo AAccept; ADo AAccept; ADo (AReader 0); ADo (AReader 0); ADo (ATask 0); ADo (ATask 1); AWrite 1; ADo (ATask 1); AWrite 0; ADo (ATask 0)].
  eexists. split; [cbv; reflexivity|]. split; [|split; reflexivity].
  intros [[|[|[|k]]|[|[|j]]]|[|[|j]]]; try reflexivity; try (destruct k; reflexivity); destruct j; reflexivity.
Qed.
