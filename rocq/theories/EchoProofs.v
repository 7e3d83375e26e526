(* C121: the raw example. NODEMO *)
From Verif Require Export SpecEcho ReaderFacts.

Lemma read_step k r bs r' : (0 < k)%nat -> plain r -> read_one k r = Some (bs, None, r') ->
  plain r' /\ total_bytes r = bs ++ total_bytes r' /\ ends r = ends r' /\ (read_budget r' < read_budget r)%nat /\ (List.length bs <= k)%nat.
Proof.
  intros Hk P H. destruct r as [|[b|e|b e] r]; cbn [read_one] in H; try discriminate.
  - inversion P; subst. destruct (Nat.leb_spec (List.length b) k) as [L|L]; injection H as <- <-.
    + repeat split; auto. cbn [read_budget]. lia.
    + repeat split.
      * constructor; auto.
      * cbn [total_bytes]. rewrite app_assoc, firstn_skipn. reflexivity.
      * cbn [read_budget]. rewrite skipn_length. lia.
      * rewrite firstn_length. lia.
  - inversion P; contradiction.
Qed.
Lemma read_fails k r bs e r' : plain r -> read_one k r = Some (bs, Some e, r') -> bs = [] /\ total_bytes r = [] /\ ends r = Fails e.
Proof.
  intros P H. destruct r as [|[b|x|b x] r]; cbn [read_one] in H; try discriminate.
  - destruct (List.length b <=? k)%nat; discriminate.
  - injection H as <- <- <-. auto.
  - inversion P; contradiction.
Qed.
Lemma read_waits k r : read_one k r = None -> r = [].
Proof. destruct r as [|[b|x|b x] r]; cbn [read_one]; auto; try discriminate; destruct (List.length b <=? k)%nat; discriminate. Qed.

Definition loop_end (en : ending) : list echo_out := match en with StaysOpen => [] | Fails e => [EcFailed e] end.
Definition loop_back (en : ending) : bool := match en with StaysOpen => false | Fails _ => true end.
Lemma echo_loop_all fuel : forall r, (read_budget r < fuel)%nat -> plain r ->
  exists ps, echo_loop fuel r = (answered ps ++ loop_end (ends r), loop_back (ends r)) /\ concat ps = total_bytes r /\
    Forall (fun p => (List.length p <= 500)%nat) ps.
Proof.
  induction fuel as [|f IH]; intros r Hf P; [lia|]. cbn [echo_loop].
  destruct (read_one 500 r) as [[[bs [e|]] r']|] eqn:R.
  - destruct (read_fails 500 r bs e r' P R) as (_ & T & E). rewrite E, T. exists []. repeat split. constructor.
  - destruct (read_step 500 r bs r' ltac:(lia) P R) as (P' & T & E & B & L).
    destruct (IH r' ltac:(lia) P') as (ps & -> & C & F). exists (bs :: ps). rewrite T, E. cbn [concat]. rewrite C. repeat split. constructor; auto.
  - apply read_waits in R. subst. exists []. repeat split. constructor.
Qed.
Lemma echo_conn_is r : echo_conn r = Some (echo_expand r
  [RChain (EEnter 0); RChain (EEff 1); RChain (EEnter 1); RChain (EEff 2); RChain (EEnter 2); RChain (EEff 3); RCloseConn]).
Proof. unfold echo_conn. change (raw_conn (build echo_ops) echo_behave (-1) (Some (User 3)) Unset) with
  (Some [RChain (EEnter 0); RChain (EEff 1); RChain (EEnter 1); RChain (EEff 2); RChain (EEnter 2); RChain (EEff 3); RCloseConn]). reflexivity. Qed.

Lemma p_C121_prints_what_came : forall bs en r, segmentation bs en r ->
  exists ps, echo_conn r = Some (EcPrint "before raw message in" :: EcPrint "use middleware 1" :: answered ps ++
      match en with StaysOpen => [] | Fails e => [EcFailed e; EcClosed] end) /\
    concat ps = bs /\ Forall (fun p => (List.length p <= 500)%nat) ps.
Proof.
  intros bs en r (P & T & E). rewrite echo_conn_is. cbn [echo_expand].
  destruct (echo_loop_all (echo_fuel r) r ltac:(unfold echo_fuel; lia) P) as (ps & -> & C & F). exists ps. rewrite E, C, T. split; [|split; auto].
  destruct en as [|e]; cbn [loop_end loop_back]; [reflexivity|]. rewrite <- app_assoc. reflexivity.
Qed.

Lemma echo_loop_each en : forall msgs fuel, (List.length msgs < fuel)%nat -> Forall (fun m => (List.length m <= 500)%nat) msgs ->
  echo_loop fuel (one_read_each msgs (no_more en)) = (answered msgs ++ loop_end en, loop_back en).
Proof.
  induction msgs as [|m msgs IH]; intros fuel Hf F; (destruct fuel as [|fuel]; [cbn in Hf; lia|]).
  - destruct en; reflexivity.
  - inversion F; subst. cbn [echo_loop one_read_each map app read_one]. destruct (Nat.leb_spec (List.length m) 500) as [_|L]; [|lia].
    change (map RData msgs ++ no_more en) with (one_read_each msgs (no_more en)). cbn [List.length] in Hf. rewrite IH by (auto; lia). reflexivity.
Qed.
Lemma budget_each msgs tail : (List.length msgs <= read_budget (one_read_each msgs tail))%nat.
Proof. unfold one_read_each. induction msgs as [|m msgs IH]; [cbn; lia|]. cbn [map app List.length read_budget]. unfold bytes in *. lia. Qed.

Lemma p_C121_one_answer_partial : forall msgs en, Forall (fun m => (List.length m <= 500)%nat) msgs ->
  exists os, echo_conn (one_read_each msgs (no_more en)) = Some os /\
    echo_pieces os = msgs /\ echo_written os = map (fun _ => str_bytes "hello,I am server.") msgs.
Proof.
  intros msgs en F. rewrite echo_conn_is. cbn [echo_expand].
  rewrite echo_loop_each; [|pose proof (budget_each msgs (no_more en)); unfold echo_fuel, bytes in *; lia|auto].
  assert (A : forall t, echo_pieces (answered msgs ++ t) = msgs ++ echo_pieces t /\
    echo_written (answered msgs ++ t) = map (fun _ => str_bytes "hello,I am server.") msgs ++ echo_written t).
  { intros t. clear F. induction msgs as [|m msgs (IH & IH')]; [auto|]. cbn [answered flat_map app]. change (flat_map _ msgs) with (answered msgs).
    unfold echo_pieces, echo_written in *. cbn [flat_map app map]. rewrite IH, IH'. auto. }
  eexists. split; [reflexivity|]. destruct en as [|e]; cbn [loop_end loop_back].
  - destruct (A []) as (A1 & A2). split; cbn [echo_pieces echo_written flat_map app]; [etransitivity; [exact A1|]|etransitivity; [exact A2|]]; apply app_nil_r.
  - rewrite <- app_assoc. destruct (A ([EcFailed e] ++ [EcClosed])) as (A1 & A2). split; cbn [echo_pieces echo_written flat_map app]; [etransitivity; [exact A1|]|etransitivity; [exact A2|]]; apply app_nil_r.
Qed.

Lemma pieces_answered ps t : echo_pieces (answered ps ++ t) = ps ++ echo_pieces t /\ List.length (echo_written (answered ps ++ t)) = (List.length ps + List.length (echo_written t))%nat.
Proof.
  induction ps as [|m ps (IH & IH')]; [auto|]. cbn [answered flat_map app]. change (flat_map _ ps) with (answered ps).
  unfold echo_pieces, echo_written in *. cbn [flat_map app List.length]. rewrite IH, IH'. auto.
Qed.
Lemma concat_short {A} (ps : list (list A)) n : Forall (fun p => (List.length p <= n)%nat) ps -> (List.length (concat ps) <= List.length ps * n)%nat.
Proof. intros F. induction F; cbn [concat List.length]; [lia|]. rewrite app_length. lia. Qed.

Lemma p_C121_one_answer_refuted :
  (forall m1 m2, (List.length (m1 ++ m2) <= 500)%nat -> exists r os, segmentation (m1 ++ m2) StaysOpen r /\
    echo_conn r = Some os /\ echo_pieces os = [m1 ++ m2] /\ List.length (echo_written os) = 1%nat) /\
  (forall m en r, (500 < List.length m)%nat -> segmentation m en r -> exists os, echo_conn r = Some os /\ (2 <= List.length (echo_written os))%nat) /\
  (forall a b, (1 <= List.length a <= 500)%nat -> (1 <= List.length b <= 500)%nat -> exists r os, segmentation (a ++ b) StaysOpen r /\
    echo_conn r = Some os /\ echo_pieces os = [a; b] /\ List.length (echo_written os) = 2%nat).
Proof.
  split; [|split].
  - intros m1 m2 L. destruct (p_C121_one_answer_partial [m1 ++ m2] StaysOpen) as (os & E & P & W); [constructor; auto|].
    exists (one_read_each [m1 ++ m2] []), os. split; [repeat split|]. { repeat constructor. } { cbn. apply app_nil_r. } repeat split; auto. rewrite W. reflexivity.
  - intros m en r L S. destruct (p_C121_prints_what_came m en r S) as (ps & E & C & F). eexists. split; [exact E|].
    cbn [echo_written flat_map app]. change (flat_map _ (answered ps ++ ?t)) with (echo_written (answered ps ++ t)).
    match goal with |- (2 <= List.length (echo_written (answered ps ++ ?t)))%nat => destruct (pieces_answered ps t) as (_ & ->) end.
    pose proof (concat_short ps 500 F) as Q. rewrite C in Q. destruct ps as [|p [|q ps]]; cbn [List.length] in *; lia.
  - intros a b La Lb. destruct (p_C121_one_answer_partial [a; b] StaysOpen) as (os & E & P & W); [constructor; [lia|constructor; [lia|constructor]]|].
    exists (one_read_each [a; b] []), os. split; [repeat split|]. { repeat constructor. } { cbn. rewrite app_nil_r. reflexivity. } repeat split; auto. rewrite W. reflexivity.
Qed.

Lemma p_C121_client_prints : forall bs en r, segmentation bs en r ->
  exists ps, echo_client r = map EsLine ps ++ match en with StaysOpen => [] | Fails e => [EsError e; EsExit 1] end /\
    concat ps = bs /\ Forall (fun p => (List.length p <= 500)%nat) ps.
Proof.
  intros bs en r (P & T & E). subst bs en. unfold echo_client. assert (Hf : (read_budget r < echo_fuel r)%nat) by (unfold echo_fuel; lia).
  revert P Hf. generalize (echo_fuel r) as fuel. intros fuel. revert r. induction fuel as [|f IH]; intros r P Hf; [lia|]. cbn [echo_recv].
  destruct (read_one 500 r) as [[[bs [e|]] r']|] eqn:R.
  - destruct (read_fails 500 r bs e r' P R) as (_ & T & E). rewrite E, T. exists []. repeat split. constructor.
  - destruct (read_step 500 r bs r' ltac:(lia) P R) as (P' & T & E & B & L).
    destruct (IH r' P' ltac:(lia)) as (ps & -> & C & F). exists (bs :: ps). rewrite T, E. cbn [concat]. rewrite C. repeat split. constructor; auto.
  - apply read_waits in R. subst. exists []. repeat split. constructor.
Qed.
