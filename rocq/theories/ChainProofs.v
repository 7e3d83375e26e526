(* C21-C23: the middleware chain.  NODEMO *)
From Verif Require Export ChainFacts.

Lemma p_C21_chain_is_gin_partial : forall c, Z.of_nat (List.length (ch_handlers c)) <= 2019 ->
  exists t s o rest, run_chain c = Some (t, s, o) /\ gin_chain (ch_beh c) (ch_handlers c) t s rest /\
    forall t' s' rest', gin_chain (ch_beh c) (ch_handlers c) t' s' rest' -> t' = t /\ s' = s.
Proof.
  intros c H. destruct (run_chain_ok c) as (t & s & o & E & _ & G).
  specialize (G H). exists t, s, o, (rest_at c o). split; [auto|]. split; [auto|].
  intros t' s' rest' G'. destruct (proj1 (gin_det (ch_beh c)) _ _ _ _ G _ _ _ G') as (-> & -> & _). auto.
Qed.

Lemma p_C21_long_chain_refuted : exists c t s o rest,
  List.length (ch_handlers c) = 2020%nat /\ run_chain c = Some (t, s, o) /\
  gin_chain (ch_beh c) (ch_handlers c) (map EEnter (ch_handlers c)) Returned rest /\
  t <> map EEnter (ch_handlers c).
Proof.
  set (c := Chain (repeat 1%nat 2020) (fun _ => [])).
  destruct (run_chain_ok c) as (t & s & o & E & _ & _).
  exists c, t, s, o, []. split; [apply repeat_length|]. split; [auto|]. split.
  - unfold c. cbn [ch_handlers ch_beh]. clear. generalize 2020%nat. induction n; cbn [repeat map].
    + constructor.
    + change (EEnter 1 :: map EEnter (repeat 1%nat n)) with (EEnter 1 :: [] ++ map EEnter (repeat 1%nat n)).
      econstructor; [constructor|]. exact IHn.
  - assert (L : option_map (fun x => List.length (fst (fst x))) (run_chain c) = Some 2019%nat) by (vm_compute; reflexivity).
    rewrite E in L. cbn [option_map fst] in L. intros D. rewrite D in L.
    rewrite map_length in L. unfold c in L. cbn [ch_handlers] in L. rewrite repeat_length in L. discriminate.
Qed.

Lemma p_C22_all_in_order_partial : forall c t s o, Z.of_nat (List.length (ch_handlers c)) <= 2019 ->
  run_chain c = Some (t, s, o) -> ~ In EAbort t ->
  (s = Returned -> entered t = ch_handlers c) /\
  (exists rest, ch_handlers c = entered t ++ rest) /\
  ((forall h, In h (ch_handlers c) -> ~ In APanic (ch_beh c h) /\ ~ In AAbort (ch_beh c h)) -> s = Returned).
Proof.
  intros c t s o H E N. destruct (run_chain_ok c) as (t' & s' & o' & E' & _ & G).
  rewrite E in E'. inversion E'; subst. specialize (G H).
  destruct (proj1 (gin_all (ch_beh c)) _ _ _ _ G N) as [A R]. split; [|split].
  - intros ->. rewrite A at 1. rewrite (R eq_refl), app_nil_r. reflexivity.
  - eauto.
  - intros Hh. destruct (proj1 (gin_clean (ch_beh c)) _ _ _ _ G) as (-> & _); auto.
    intros h Hi. destruct (Hh h Hi). auto.
Qed.

Lemma p_C22_well_behaved_partial : forall c, Z.of_nat (List.length (ch_handlers c)) <= 2019 ->
  (forall h, In h (ch_handlers c) -> ~ In APanic (ch_beh c h) /\ ~ In AAbort (ch_beh c h)) ->
  exists t o, run_chain c = Some (t, Returned, o) /\ entered t = ch_handlers c.
Proof.
  intros c H Hh. destruct (run_chain_ok c) as (t & s & o & E & _ & G). specialize (G H).
  destruct (proj1 (gin_clean (ch_beh c)) _ _ _ _ G) as (-> & N & _).
  { intros h Hi. destruct (Hh h Hi). auto. }
  exists t, o. split; auto. apply (p_C22_all_in_order_partial c t Returned o H E N). reflexivity.
Qed.

Lemma p_C22_long_chain_refuted : exists c t o,
  (forall h, In h (ch_handlers c) -> ch_beh c h = []) /\
  run_chain c = Some (t, Returned, o) /\ List.length (entered t) = 2019%nat /\
  List.length (ch_handlers c) = 2020%nat.
Proof.
  set (c := Chain (repeat 1%nat 2020) (fun _ => [])).
  assert (L : option_map (fun x => (List.length (entered (fst (fst x))), snd (fst x))) (run_chain c) = Some (2019%nat, Returned)) by (vm_compute; reflexivity).
  destruct (run_chain c) as [[[t s] o]|] eqn:E; [|discriminate].
  cbn [option_map fst snd] in L.
  exists c, t, o. split; [auto|]. split; [|split].
  - rewrite E. congruence.
  - congruence.
  - apply repeat_length.
Qed.

Lemma p_C23_abort_stops : forall c, exists t s o, run_chain c = Some (t, s, o) /\
  forall a b, t = a ++ EAbort :: b -> entered b = [].
Proof.
  intros c. destruct (run_chain_ok c) as (t & s & o & E & Q & _). exists t, s, o. split; auto.
Qed.
