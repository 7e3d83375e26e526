(* C111, C112: the servers of the middleware examples *)
From Verif Require Export SpecGuard WireProofs ServerProofs Demo.
From Coq Require Import Sorted.

Lemma guard_plan_anchor r : plan_of r anchor_server = match r with ById id => if id =? 1 then RunChain [User 0; User 1] else Unrouted | _ => Unrouted end.
Proof.
  destruct r as [id|u|]; [|reflexivity|reflexivity]. unfold plan_of, anchor_server. cbn -[Z.eqb]. unfold plan_id. cbn -[Z.eqb].
  destruct (Z.eqb_spec id 1) as [->|]; reflexivity.
Qed.

Lemma guard_plan_router r : plan_of r router_server = match r with ById id => if id =? 1 then RunChain [User 0; User 1] else Unrouted | _ => Unrouted end.
Proof.
  destruct r as [id|u|]; [|reflexivity|reflexivity]. unfold plan_of, router_server. cbn -[Z.eqb]. unfold plan_id. cbn -[Z.eqb].
  destruct (Z.eqb_spec id 1) as [->|]; reflexivity.
Qed.

Lemma guard_chain {V} (E : env V) zero c :
  run_plan (guard_behave E zero c) (-1) (RunChain [User 0; User 1]) =
  Some match HeaderOf (e_hdr E) (c_stream c) with
  | Panic => ([EEnter 0], Panicked)
  | Err _ => ([EEnter 0; EEff eServerError; EAbort], Returned)
  | Ok hd =>
      match hget "Authorization" hd with
      | None => ([EEnter 0; EEff eMissing; EAbort], Returned)
      | Some (JStr k) => if String.eqb k "a client secret key" then
          match Bind E (JsonMarshaller E) c (Some zero) with
          | Panic => ([EEnter 0; EEnter 1], Panicked)
          | Err _ => ([EEnter 0; EEnter 1; EEff eBadBody; EEff ePrintAfter], Returned)
          | Ok _ => ([EEnter 0; EEnter 1; EEff ePrintLogin; EEff eToken; EEff ePrintAfter], Returned)
          end
          else ([EEnter 0; EEff eInvalid; EAbort], Returned)
      | Some _ => ([EEnter 0; EEff eInvalid; EAbort], Returned)
      end
  end.
Proof.
  assert (Hz : forall n, (0 <? Z.of_nat (S n)) = true) by (intros; apply Z.ltb_lt; lia).
  unfold run_plan, run_from, act_chain. cbn [List.length seq ch_handlers Nat.add]. change (-1 + 1) with 0.
  cbn [loop ch_handlers List.length ch_beh]. rewrite Hz. change (ABORT <=? 0) with false. cbv iota.
  change (Z.to_nat 0) with 0%nat. cbn [nth_error nth guard_behave]. unfold beforeLogin.
  destruct (HeaderOf (e_hdr E) (c_stream c)) as [hd|e|]; [|reflexivity|reflexivity].
  destruct (hget "Authorization" hd) as [[| | | |k| |]|]; try reflexivity.
  destruct (String.eqb k "a client secret key"); [|reflexivity].
  cbn [exec]. change (0 + 1) with 1. change (1 <? Z.of_nat 2) with true. change (ABORT <=? 1) with false. cbv iota.
  change (Z.to_nat 1) with 1%nat. cbn [nth_error nth guard_behave]. unfold login.
  destruct (Bind E (JsonMarshaller E) c (Some zero)); reflexivity.
Qed.

Lemma guard_eq {V} (E : env V) zero c w m : m = anchor_server \/ m = router_server ->
  guard_handles E zero m c w =
  match fst (route (e_hdr E) c w) with
  | Ok (ById id) => if id =? 1 then run_plan (guard_behave E zero c) (-1) (RunChain [User 0; User 1]) else Some ([], Returned)
  | Ok _ => Some ([], Returned)
  | _ => Some ([], Panicked)
  end.
Proof.
  intros Hm. unfold guard_handles, handleMiddleware.
  assert (Hom : m_onmsg m = None) by (destruct Hm as [->| ->]; reflexivity). rewrite Hom.
  destruct (fst (route (e_hdr E) c w)) as [rt|e|]; try reflexivity.
  destruct Hm as [->| ->]; [rewrite guard_plan_anchor|rewrite guard_plan_router]; destruct rt as [id|u|]; try reflexivity; destruct (id =? 1); reflexivity.
Qed.

Lemma HeaderOf_key hc s hd : gwf s -> HeaderOf hc s = Ok hd ->
  hunmarshal hc (slice (gbytes s) 16 (16 + Z.to_nat (signed (field (gbytes s) 8)))) = Ok hd.
Proof.
  intros Hw. unfold HeaderOf. destruct (HeaderBytesOf s) as [r|e|] eqn:Hr; try discriminate. cbn [rwrap rbind].
  destruct (hunmarshal hc (gbytes r)) as [h|e|] eqn:Hu; try discriminate. cbn [rwrap]. intros H. injection H as <-.
  destruct (p_C05_body_region_partial s r Hw) as [H _]. destruct (H Hr) as (_ & _ & Hg). rewrite <- Hg. exact Hu.
Qed.

Lemma message_header hc s id hd : is_message hc s id hd -> HeaderOf hc s = Ok hd.
Proof.
  intros (Hw & Hid & Hl & hdr & body & HL & Hu).
  destruct (p_C03_accessors_agree id hdr body (gbytes s) [] s Hid HL Hl Hw (eq_sym (app_nil_r _))) as (_ & _ & _ & _ & (r & Hr & Hg) & _).
  unfold HeaderOf. rewrite Hr. cbn [rwrap rbind]. rewrite Hg, Hu. reflexivity.
Qed.

Lemma p_C111_login_guarded : forall V (E : env V) zero m c w tr st,
  m = anchor_server \/ m = router_server -> gwf (c_stream c) ->
  guard_handles E zero m c w = Some (tr, st) ->
  In (EEnter 1) tr \/ In (EEff ePrintLogin) tr \/ In (EEff eToken) tr ->
  has_key (e_hdr E) (gbytes (c_stream c)).
Proof.
  intros V E zero m c w tr st Hm Hw. rewrite (guard_eq E zero c w m Hm).
  intros He Hin.
  assert (Hc : run_plan (guard_behave E zero c) (-1) (RunChain [User 0; User 1]) = Some (tr, st)).
  { destruct (fst (route (e_hdr E) c w)) as [[id|u|]|e|].
    1: destruct (id =? 1); [exact He|].
    all: injection He as <- <-; destruct Hin as [[]|[[]|[]]]. }
  rewrite guard_chain in Hc. clear He.
  destruct (HeaderOf (e_hdr E) (c_stream c)) as [hd|e|] eqn:Hh.
  2,3: injection Hc as <- <-; cbn in Hin; unfold eServerError, ePrintLogin, eToken in Hin; intuition discriminate.
  exists hd. split; [exact (HeaderOf_key _ _ _ Hw Hh)|].
  destruct (hget "Authorization" hd) as [[| | | |k| |]|].
  5: destruct (String.eqb k "a client secret key") eqn:Ek; [apply String.eqb_eq in Ek; rewrite Ek; reflexivity|].
  all: injection Hc as <- <-; cbn in Hin; unfold eMissing, eInvalid, ePrintLogin, eToken in Hin; intuition discriminate.
Qed.

Lemma p_C111_login_answered_partial : forall V (E : env V) zero m c w hd,
  m = anchor_server \/ m = router_server -> is_message (e_hdr E) (c_stream c) 1 hd ->
  fst (route (e_hdr E) c w) = Ok (ById 1) -> Bind E (JsonMarshaller E) c (Some zero) <> Panic ->
  exists tr, guard_handles E zero m c w = Some (tr, Returned) /\
    (hget "Authorization" hd = Some (JStr "a client secret key") ->
       (forall x, Bind E (JsonMarshaller E) c (Some zero) = Ok x -> replies tr = [eToken]) /\
       (forall e, Bind E (JsonMarshaller E) c (Some zero) = Err e -> replies tr = [eBadBody]) /\ In (EEff ePrintAfter) tr) /\
    (hget "Authorization" hd = None -> replies tr = [eMissing] /\ ~ In (EEff ePrintAfter) tr) /\
    (forall v, hget "Authorization" hd = Some v -> v <> JStr "a client secret key" -> replies tr = [eInvalid] /\ ~ In (EEff ePrintAfter) tr).
Proof.
  intros V E zero m c w hd Hm Hmsg Hr Hb. rewrite (guard_eq E zero c w m Hm), Hr. change (1 =? 1) with true. cbv iota.
  rewrite guard_chain, (message_header _ _ _ _ Hmsg).
  destruct (hget "Authorization" hd) as [v|] eqn:Hv.
  2:{ eexists. split; [reflexivity|]. split; [discriminate|]. split; [|discriminate]. intros _. split; [reflexivity|]. cbn. unfold eMissing, ePrintAfter. intuition discriminate. }
  assert (Hbad : v <> JStr "a client secret key" ->
    match v with JStr k => if String.eqb k "a client secret key" then
          match Bind E (JsonMarshaller E) c (Some zero) with
          | Panic => ([EEnter 0; EEnter 1], Panicked)
          | Err _ => ([EEnter 0; EEnter 1; EEff eBadBody; EEff ePrintAfter], Returned)
          | Ok _ => ([EEnter 0; EEnter 1; EEff ePrintLogin; EEff eToken; EEff ePrintAfter], Returned)
          end
          else ([EEnter 0; EEff eInvalid; EAbort], Returned) | _ => ([EEnter 0; EEff eInvalid; EAbort], Returned) end = ([EEnter 0; EEff eInvalid; EAbort], Returned)).
  { intros Hne. destruct v as [| | | |k| |]; try reflexivity. destruct (String.eqb_spec k "a client secret key") as [->|]; [contradiction|reflexivity]. }
  assert (Hdec : v = JStr "a client secret key" \/ v <> JStr "a client secret key").
  { destruct v as [| | | |k| |]; try (right; discriminate). destruct (string_dec k "a client secret key") as [->|Hk]; [left; reflexivity|right; congruence]. }
  destruct Hdec as [->|Hne].
  - cbn [String.eqb]. change (String.eqb "a client secret key" "a client secret key") with true. cbv iota.
    destruct (Bind E (JsonMarshaller E) c (Some zero)) as [x|e|]; [| |contradiction]; eexists; (split; [reflexivity|]); (split; [|split; [discriminate|intros v0 H0 H1; congruence]]); intros _; (split; [|split]); try discriminate; try (intros; reflexivity); cbn; auto 10.
  - rewrite (Hbad Hne). eexists. split; [reflexivity|]. split; [congruence|]. split; [discriminate|].
    intros v0 _ _. split; [reflexivity|]. cbn. unfold eInvalid, ePrintAfter. intuition discriminate.
Qed.

Lemma p_C111_same_servers : forall V (E : env V) zero c w, guard_handles E zero anchor_server c w = guard_handles E zero router_server c w.
Proof. intros. rewrite !guard_eq by auto. reflexivity. Qed.

(* a login request that carries the key *)
Definition login_block (hd : list (string * jv)) : bytes :=
  match PackWithMarshaller demo_env (Msg 1 (Some hd) (Some "tcpx"%string)) None with Ok b => b | _ => [] end.
Definition key_header : list (string * jv) := [("Authorization"%string, JStr "a client secret key")].
(* the history of a connection on which messages with the given bytes arrive, each handled before the next *)
Fixpoint reads (l : list bytes) (n : nat) : list cop :=
  match l with [] => [] | b :: r => [CRead 0 (of_bytes b); CRouter n] ++ reads r (S n) end.

Lemma p_C111_every_login_answered_refuted :
  let h := CRead 0 (of_bytes (login_block key_header)) :: rev (reads [url_block] 1) ++ [CAccept] in
  exists c, nth_error (w_ctxs (crun json_hdr h)) 2 = Some c /\
    gbytes (c_stream c) = login_block key_header /\ has_key json_hdr (login_block key_header) /\
    guard_handles demo_env ""%string anchor_server c (crun json_hdr h) = Some ([], Returned).
Proof.
  eexists. split; [vm_compute; reflexivity|]. split; [vm_compute; reflexivity|]. split; [|vm_compute; reflexivity].
  eexists. split; vm_compute; reflexivity.
Qed.

Lemma count_plan id : count_steps (plan_of (ById id) count_server) = if id =? 3 then [User 0; User 1] else [].
Proof.
  unfold plan_of, count_server. cbn -[Z.eqb]. unfold plan_id. cbn -[Z.eqb]. destruct (Z.eqb_spec id 3) as [->|]; reflexivity.
Qed.

Definition fresh2 (l : list hdl) : bool := match l with [User 0; User 1] => true | _ => false end.
Definition mid1 (l : list hdl) : bool := match l with [User 1] => true | _ => false end.
Definition cnt (f : list hdl -> bool) (l : list (list hdl)) : nat := List.length (filter f l).
Definition b2n (b : bool) : nat := if b then 1%nat else 0%nat.

Lemma cnt_upd f l g x y : nth_error l g = Some x -> (cnt f (upd l g y) + b2n (f x) = cnt f l + b2n (f y))%nat.
Proof.
  revert g. induction l as [|a l IH]; intros [|g] H; try discriminate; cbn in H.
  - injection H as ->. unfold cnt. cbn. destruct (f x), (f y); cbn; lia.
  - specialize (IH g H). unfold cnt in *. cbn. destruct (f a); cbn; lia.
Qed.

Lemma cnt_app f l x : cnt f (l ++ [x]) = (cnt f l + b2n (f x))%nat.
Proof. unfold cnt. rewrite filter_app, app_length. cbn. destruct (f x); reflexivity. Qed.

Lemma cnt_pos f l g x : nth_error l g = Some x -> f x = true -> (1 <= cnt f l)%nat.
Proof.
  revert g. induction l as [|a l IH]; intros [|g] H Hf; try discriminate; cbn in H; unfold cnt in *; cbn.
  - injection H as ->. rewrite Hf. cbn. lia.
  - specialize (IH g H Hf). destruct (f a); cbn; lia.
Qed.

Definition counted (s : cst) : Z := Z.of_nat (List.length (k_replies s)) + Z.of_nat (cnt mid1 (k_todo s)).
Record kinv (s : cst) (n : nat) : Prop := KI {
  ki_shape : Forall (fun l => l = [User 0; User 1] \/ l = [User 1] \/ l = []) (k_todo s);
  ki_sum : (List.length (k_replies s) + cnt mid1 (k_todo s) + cnt fresh2 (k_todo s) = n)%nat;
  ki_times : k_times s = to_int32 (counted s);
  ki_done : forall g v, In (g, v) (k_replies s) -> nth_error (k_todo s) g = Some [];
  ki_once : NoDup (map fst (k_replies s));
  ki_vals : Z.of_nat n < 2 ^ 31 -> forall g v, In (g, v) (k_replies s) -> 1 <= v <= counted s;
  ki_sorted : Z.of_nat n < 2 ^ 31 -> StronglySorted Z.le (map snd (k_replies s));
  ki_last : Z.of_nat n < 2 ^ 31 -> forall l v, map snd (k_replies s) = l ++ [v] -> (cnt mid1 (k_todo s) + cnt fresh2 (k_todo s) = 0)%nat -> v = counted s }.

Lemma Forall_upd {A} (P : A -> Prop) l g y : Forall P l -> P y -> Forall P (upd l g y).
Proof. intros H Hy. revert g. induction H; intros [|g]; cbn; constructor; auto. Qed.

Lemma nth_error_upd {A} (l : list A) g h y : nth_error (upd l g y) h = if Nat.eqb h g then match nth_error l g with Some _ => Some y | None => None end else nth_error l h.
Proof.
  revert g h. induction l as [|a l IH]; intros [|g] [|h]; cbn; try reflexivity.
  - destruct (Nat.eqb h g); reflexivity.
  - rewrite IH. reflexivity.
Qed.

Lemma NoDup_one_more {A} (l : list A) x : NoDup l -> ~ In x l -> NoDup (l ++ [x]).
Proof.
  induction 1 as [|a l Ha Hl IH]; intros Hx; cbn; [constructor; [intros []|constructor]|].
  constructor; [|apply IH; intros Hi; apply Hx; right; exact Hi]. intros Hi. apply in_app_or in Hi. destruct Hi as [Hi|[<-|[]]]; [contradiction|]. apply Hx. left. reflexivity.
Qed.

Lemma sorted_snoc (l : list Z) v : StronglySorted Z.le l -> (forall x, In x l -> x <= v) -> StronglySorted Z.le (l ++ [v]).
Proof.
  induction 1 as [|a l Hs IH Hf]; intros Hv; cbn.
  - constructor; constructor.
  - constructor; [apply IH; intros x Hx; apply Hv; right; exact Hx|].
    apply Forall_app. split; [exact Hf|]. constructor; [apply Hv; left; reflexivity|constructor].
Qed.

Lemma to_int32_succ t : to_int32 (to_int32 t + 1) = to_int32 (t + 1).
Proof.
  rewrite <- (to_int32_mod (to_int32 t + 1)), <- (to_int32_mod (t + 1)). f_equal.
  assert (Hk : exists k, to_int32 t = t + k * 2 ^ 32).
  { unfold to_int32. cbv zeta. pose proof (Z.div_mod t two32 ltac:(unfold two32; lia)) as Hd. change (2 ^ 32) with two32. change two32 with 4294967296 in *.
    destruct (_ <? _); [exists (- (t / 4294967296))|exists (- (t / 4294967296) - 1)]; lia. }
  destruct Hk as [k ->]. replace (t + k * 2 ^ 32 + 1) with (t + 1 + k * 2 ^ 32) by lia. apply Z.mod_add. discriminate.
Qed.

Lemma kinv_step e s s' n : kinv s n -> kstep e s = Some s' ->
  kinv s' (n + match e with KArrive id => b2n (id =? 3)%Z | _ => 0 end)%nat.
Proof.
  intros K H. destruct e as [id|g]; cbn [kstep] in H.
  - injection H as <-. rewrite count_plan.
    assert (Hm : mid1 (if id =? 3 then [User 0; User 1] else []) = false) by (destruct (id =? 3); reflexivity).
    assert (Hf : fresh2 (if id =? 3 then [User 0; User 1] else []) = (id =? 3)) by (destruct (id =? 3); reflexivity).
    assert (Hco : counted (Cst (k_times s) (k_todo s ++ [if id =? 3 then [User 0; User 1] else []]) (k_replies s)) = counted s).
    { unfold counted. cbn [k_todo k_replies]. rewrite cnt_app, Hm. cbn [b2n]. lia. }
    constructor; rewrite ?Hco; cbn [k_todo k_replies k_times].
    + apply Forall_app. split; [apply K|]. constructor; [|constructor]. destruct (id =? 3); auto.
    + rewrite !cnt_app, Hm, Hf. pose proof (ki_sum _ _ K). cbn [b2n]. lia.
    + apply K.
    + intros g v Hin. pose proof (ki_done _ _ K g v Hin) as Hn. rewrite nth_error_app1; [exact Hn|]. apply nth_error_Some. congruence.
    + apply K.
    + intros Hn. apply (ki_vals _ _ K). lia.
    + intros Hn. apply (ki_sorted _ _ K). lia.
    + intros Hn l v Hl Hz. apply (ki_last _ _ K) with (l := l); [lia|exact Hl|]. rewrite !cnt_app in Hz. lia.
  - rewrite Nat.add_0_r. destruct (nth_error (k_todo s) g) as [t|] eqn:Hg; [|discriminate].
    pose proof (proj1 (Forall_forall _ _) (ki_shape _ _ K) t (nth_error_In _ _ Hg)) as Ht.
    destruct Ht as [->|[->| ->]]; [| |discriminate].
    + injection H as <-.
      pose proof (cnt_upd mid1 (k_todo s) g _ [User 1] Hg) as C1. pose proof (cnt_upd fresh2 (k_todo s) g _ [User 1] Hg) as C2.
      cbn [mid1 fresh2 b2n] in C1, C2. pose proof (ki_sum _ _ K) as Hs.
      assert (Hco : counted (Cst (to_int32 (k_times s + 1)) (upd (k_todo s) g [User 1]) (k_replies s)) = counted s + 1).
      { unfold counted. cbn [k_todo k_replies]. lia. }
      constructor; rewrite ?Hco; cbn [k_todo k_replies k_times].
      * apply Forall_upd; [apply K|auto].
      * lia.
      * rewrite (ki_times _ _ K). apply to_int32_succ.
      * intros h v Hin. rewrite nth_error_upd. destruct (Nat.eqb_spec h g) as [->|]; [|exact (ki_done _ _ K h v Hin)].
        rewrite (ki_done _ _ K g v Hin) in Hg. discriminate.
      * apply K.
      * intros Hn h v Hin. pose proof (ki_vals _ _ K Hn h v Hin). lia.
      * apply K.
      * intros Hn l v Hl Hz. lia.
    + injection H as <-.
      pose proof (cnt_upd mid1 (k_todo s) g _ [] Hg) as C1. pose proof (cnt_upd fresh2 (k_todo s) g _ [] Hg) as C2.
      cbn [mid1 fresh2 b2n] in C1, C2. pose proof (ki_sum _ _ K) as Hs.
      assert (Hlen : List.length (k_replies s ++ [(g, k_times s)]) = S (List.length (k_replies s))) by (rewrite app_length; cbn; lia).
      assert (Hco : counted (Cst (k_times s) (upd (k_todo s) g []) (k_replies s ++ [(g, k_times s)])) = counted s).
      { unfold counted. cbn [k_todo k_replies]. rewrite Hlen. lia. }
      assert (Hv : Z.of_nat n < 2 ^ 31 -> k_times s = counted s).
      { intros Hn. rewrite (ki_times _ _ K). apply to_int32_id. unfold is_int32, two31, counted. lia. }
      constructor; rewrite ?Hco; cbn [k_todo k_replies k_times].
      * apply Forall_upd; [apply K|auto].
      * rewrite Hlen. lia.
      * apply K.
      * intros h v Hin. rewrite nth_error_upd, Hg. apply in_app_or in Hin. destruct Hin as [Hin|[Hin|[]]].
        -- rewrite (ki_done _ _ K h v Hin). destruct (Nat.eqb h g); reflexivity.
        -- injection Hin as <- <-. rewrite Nat.eqb_refl. reflexivity.
      * rewrite map_app. cbn [map fst]. apply NoDup_one_more; [apply K|]. intros Hin. apply in_map_iff in Hin. destruct Hin as ([h v] & Hf & Hin).
        cbn in Hf. subst h. rewrite (ki_done _ _ K g v Hin) in Hg. discriminate.
      * intros Hn h v Hin. apply in_app_or in Hin. destruct Hin as [Hin|[Hin|[]]]; [exact (ki_vals _ _ K Hn h v Hin)|].
        injection Hin as <- <-. rewrite (Hv Hn). pose proof (cnt_pos mid1 (k_todo s) g _ Hg eq_refl). unfold counted. lia.
      * intros Hn. rewrite map_app. apply sorted_snoc; [apply (ki_sorted _ _ K Hn)|]. cbn [snd]. intros x Hx.
        apply in_map_iff in Hx. destruct Hx as ([h v] & Hf & Hin). cbn in Hf. subst x. rewrite (Hv Hn). apply (ki_vals _ _ K Hn h v Hin).
      * intros Hn l v Hl _. rewrite map_app in Hl. cbn [map snd] in Hl. apply app_inj_tail in Hl. destruct Hl as [_ <-]. apply Hv. exact Hn.
Qed.

Lemma times_asked_cons e l : times_asked (e :: l) = (match e with KArrive id => b2n (id =? 3)%Z | _ => 0 end + times_asked l)%nat.
Proof. unfold times_asked. destruct e as [id|g]; cbn [filter]; [|reflexivity]. destruct (id =? 3); reflexivity. Qed.

Lemma kinv_run l : forall s n s', kinv s n -> krun l s = Some s' -> kinv s' (n + times_asked l)%nat.
Proof.
  induction l as [|e l IH]; intros s n s' K H; cbn [krun] in H.
  - injection H as <-. replace (n + times_asked [])%nat with n by (cbn; lia). exact K.
  - destruct (kstep e s) as [s1|] eqn:Hs; [|discriminate]. rewrite times_asked_cons, Nat.add_assoc. eapply IH; [|exact H]. eapply kinv_step; eassumption.
Qed.

Lemma kinv0 : kinv cst0 0.
Proof.
  constructor; cbn; try (intros; contradiction); try constructor; try reflexivity.
  intros _ l v H. destruct l; discriminate.
Qed.

Lemma p_C112_count_partial : forall l s, krun l cst0 = Some s -> Z.of_nat (times_asked l) < 2 ^ 31 ->
  NoDup (map fst (k_replies s)) /\
  (forall g v, In (g, v) (k_replies s) -> 1 <= v <= Z.of_nat (times_asked l)) /\
  StronglySorted Z.le (map snd (k_replies s)) /\
  (Forall (fun t => t = []) (k_todo s) ->
     List.length (k_replies s) = times_asked l /\ k_times s = Z.of_nat (times_asked l) /\
     forall r g v, k_replies s = r ++ [(g, v)] -> v = Z.of_nat (times_asked l)).
Proof.
  intros l s H Hl. pose proof (kinv_run l cst0 0 s kinv0 H) as K. cbn [Nat.add] in K.
  pose proof (ki_sum _ _ K) as Hs.
  split; [apply K|]. split; [intros g v Hin; pose proof (ki_vals _ _ K Hl g v Hin) as Hv; unfold counted in Hv; lia|].
  split; [apply (ki_sorted _ _ K Hl)|]. intros Hd.
  assert (Hz : forall f, f [] = false -> cnt f (k_todo s) = 0%nat).
  { clear Hs. intros f Hf. unfold cnt. induction Hd as [|t r Ht _ IH]; [reflexivity|]. subst t. cbn. rewrite Hf. exact IH. }
  rewrite (Hz mid1 eq_refl), (Hz fresh2 eq_refl) in Hs.
  assert (Hc : counted s = Z.of_nat (times_asked l)) by (unfold counted; rewrite (Hz mid1 eq_refl); lia).
  split; [lia|]. split; [rewrite (ki_times _ _ K), Hc; apply to_int32_id; unfold is_int32, two31; lia|].
  intros r g v Hr. rewrite <- Hc. apply (ki_last _ _ K Hl (map snd r)); [rewrite Hr, map_app; reflexivity|].
  rewrite (Hz mid1 eq_refl), (Hz fresh2 eq_refl). reflexivity.
Qed.

(* n requests, each handled before the next arrives *)
Fixpoint one_by_one (n g : nat) : list kev := match n with O => [] | S m => KArrive 3 :: KStep g :: KStep g :: one_by_one m (S g) end.

Lemma one_by_one_run n : forall d r t, krun (one_by_one n (List.length d)) (Cst (to_int32 t) d r) <> None /\
  forall s, krun (one_by_one n (List.length d)) (Cst (to_int32 t) d r) = Some s -> k_times s = to_int32 (t + Z.of_nat n) /\
    (n <> 0%nat -> exists g, In (g, to_int32 (t + Z.of_nat n)) (k_replies s)).
Proof.
  induction n as [|n IH]; intros d r t.
  - cbn. split; [discriminate|]. intros s H. injection H as <-. cbn. rewrite Z.add_0_r. split; [reflexivity|]. intros []; reflexivity.
  - cbn [one_by_one krun kstep k_todo k_times k_replies]. rewrite count_plan. change (3 =? 3) with true. cbv iota.
    rewrite nth_error_app2, Nat.sub_diag by lia. cbn [nth_error k_todo k_times k_replies].
    assert (Hu : forall y, upd (d ++ [[User 0; User 1]]) (List.length d) y = d ++ [y]) by (intros y; clear; induction d; cbn; congruence).
    rewrite Hu. rewrite nth_error_app2, Nat.sub_diag by lia. cbn [nth_error k_todo k_times k_replies].
    assert (Hu2 : upd (d ++ [[User 1]]) (List.length d) [] = d ++ [[]]) by (clear; induction d; cbn; congruence).
    rewrite Hu2.
    assert (Ht : to_int32 (to_int32 t + 1) = to_int32 (t + 1)) by apply to_int32_succ.
    rewrite Ht.
    pose proof (IH (d ++ [[]]) (r ++ [(List.length d, to_int32 (t + 1))]) (t + 1)) as [I1 I2].
    rewrite app_length in I1, I2. cbn [List.length] in I1, I2. rewrite Nat.add_1_r in I1, I2.
    split; [exact I1|]. intros s Hs. destruct (I2 s Hs) as [I3 I4].
    replace (t + Z.of_nat (S n)) with (t + 1 + Z.of_nat n) by lia. split; [exact I3|]. intros _.
    destruct n as [|n]; [|apply I4; discriminate]. cbn in Hs. injection Hs as <-. cbn [k_replies]. rewrite Z.add_0_r. exists (List.length d). apply in_or_app. right. left. reflexivity.
Qed.

Lemma p_C112_count_refuted :
  (forall l, (forall id, In (KArrive id) l -> id <> 3) -> forall s, krun l cst0 = Some s -> k_times s = 0) /\
  (exists s, krun [KArrive 3; KArrive 3; KStep 0; KStep 1; KStep 0; KStep 1] cst0 = Some s /\ k_replies s = [(0%nat, 2); (1%nat, 2)]) /\
  (exists l s g, krun l cst0 = Some s /\ Z.of_nat (times_asked l) = 2 ^ 31 /\ In (g, - 2 ^ 31) (k_replies s)).
Proof.
  split; [|split].
  - intros l Hl s H. pose proof (kinv_run l cst0 0 s kinv0 H) as K. cbn [Nat.add] in K.
    assert (Ha : times_asked l = 0%nat).
    { clear H K. induction l as [|e l IH]; [reflexivity|]. rewrite times_asked_cons, IH by (intros id Hin; apply Hl; right; exact Hin).
      destruct e as [id|g]; [|reflexivity]. destruct (Z.eqb_spec id 3) as [->|]; [|reflexivity]. exfalso. apply (Hl 3); [left; reflexivity|reflexivity]. }
    rewrite (ki_times _ _ K). pose proof (ki_sum _ _ K) as Hs. rewrite Ha in Hs. replace (counted s) with 0 by (unfold counted; lia). reflexivity.
  - eexists. split; vm_compute; reflexivity.
  - destruct (one_by_one_run (Z.to_nat (2 ^ 31)) [] [] 0) as [H1 H2]. change (to_int32 0) with 0 in H1, H2. change (List.length (@nil (list hdl))) with 0%nat in H1, H2.
    change (Cst 0 [] []) with cst0 in H1, H2.
    destruct (krun (one_by_one (Z.to_nat (2 ^ 31)) 0) cst0) as [s|] eqn:Hs; [|contradiction].
    destruct (H2 s eq_refl) as [_ Hg]. rewrite Z.add_0_l, Z2Nat.id in Hg by lia. destruct Hg as [g Hg]; [lia|].
    exists (one_by_one (Z.to_nat (2 ^ 31)) 0), s, g. split; [exact Hs|]. split; [|exact Hg].
    assert (Ha : forall n k, times_asked (one_by_one n k) = n). { clear. induction n as [|n IH]; intros k; [reflexivity|]. cbn [one_by_one]. rewrite !times_asked_cons, IH. reflexivity. }
    rewrite Ha. apply Z2Nat.id. lia.
Qed.
