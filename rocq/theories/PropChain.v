(* Property theorems. Each is closed by the lemma of the same name in ChainProofs.v. *)
From Verif Require Export ChainProofs.

(* C21.  For chains of at most 2019 handlers (the code's ABORT offset): the chain shows exactly
   the trace of the gin-style reference and ends the same way, for any handlers; and the
   reference determines the trace.  Includes recovery middleware and panicking handlers. *)
Theorem C21_chain_is_gin_partial : forall c, Z.of_nat (List.length (ch_handlers c)) <= 2019 ->
  exists t s o rest, run_chain c = Some (t, s, o) /\ gin_chain (ch_beh c) (ch_handlers c) t s rest /\
    forall t' s' rest', gin_chain (ch_beh c) (ch_handlers c) t' s' rest' -> t' = t /\ s' = s.
Proof. exact p_C21_chain_is_gin_partial. Qed.
Print Assumptions C21_chain_is_gin_partial.

Example C21_example :
  let c := Chain [1; 2; 3; 4]%nat (fun h => match h with
     | 1%nat => [AEff 10; ANextRec; AEff 11; ANext]
     | 2%nat => [ANext; APanic]
     | 3%nat => [AEff 30]
     | _ => [AAbort; AEff 40; ANext] end) in
  run_chain c = Some ([EEnter 1; EEff 10; EEnter 2; EEnter 3; EEff 30; EEnter 4; EAbort; EEff 40; EEff 11]%nat,
                      Returned, 2023).
Proof. reflexivity. Qed.

(* C21, the missing part: a chain of 2020 handlers that do nothing stops before the last one,
   while the reference enters all of them. *)
Theorem C21_long_chain_refuted : exists c t s o rest,
  List.length (ch_handlers c) = 2020%nat /\ run_chain c = Some (t, s, o) /\
  gin_chain (ch_beh c) (ch_handlers c) (map EEnter (ch_handlers c)) Returned rest /\
  t <> map EEnter (ch_handlers c).
Proof. exact p_C21_long_chain_refuted. Qed.
Print Assumptions C21_long_chain_refuted.

(* C22.  Up to 2019 handlers: if no Abort happens, the handlers entered are all of them, once
   each, in order, when the chain returns; and a prefix of them when it ends in a panic. *)
Theorem C22_all_in_order_partial : forall c t s o, Z.of_nat (List.length (ch_handlers c)) <= 2019 ->
  run_chain c = Some (t, s, o) -> ~ In EAbort t ->
  (s = Returned -> entered t = ch_handlers c) /\
  (exists rest, ch_handlers c = entered t ++ rest) /\
  ((forall h, In h (ch_handlers c) -> ~ In APanic (ch_beh c h) /\ ~ In AAbort (ch_beh c h)) -> s = Returned).
Proof. exact p_C22_all_in_order_partial. Qed.
Print Assumptions C22_all_in_order_partial.

Example C22_panic_example :
  let c := Chain [7; 8; 9]%nat (fun h => match h with 8%nat => [APanic] | _ => [ANext] end) in
  exists o, run_chain c = Some ([EEnter 7; EEnter 8]%nat, Panicked, o) /\ ~ In EAbort [EEnter 7; EEnter 8]%nat /\
  entered [EEnter 7; EEnter 8]%nat = [7; 8]%nat.
Proof. eexists. split; [reflexivity|]. split; [intros [H|[H|[]]]; discriminate|reflexivity]. Qed.

(* C22 also from the handlers' side: handlers that neither abort nor panic are all entered. *)
Theorem C22_well_behaved_partial : forall c, Z.of_nat (List.length (ch_handlers c)) <= 2019 ->
  (forall h, In h (ch_handlers c) -> ~ In APanic (ch_beh c h) /\ ~ In AAbort (ch_beh c h)) ->
  exists t o, run_chain c = Some (t, Returned, o) /\ entered t = ch_handlers c.
Proof. exact p_C22_well_behaved_partial. Qed.
Print Assumptions C22_well_behaved_partial.

Example C22_example :
  let c := Chain [7; 8; 9]%nat (fun h => match h with 7%nat => [ANext; AEff 1; ANext] | 8%nat => [AEff 2] | _ => [ANext] end) in
  exists t o, run_chain c = Some (t, Returned, o) /\ entered t = [7; 8; 9]%nat.
Proof.
  intros c. apply (C22_well_behaved_partial c).
  - simpl. discriminate.
  - simpl. intros h [<-|[<-|[<-|[]]]]; simpl; intuition discriminate.
Qed.

(* C22 is false for longer chains: with 2020 handlers doing nothing, the last never runs. *)
Theorem C22_long_chain_refuted : exists c t o,
  (forall h, In h (ch_handlers c) -> ch_beh c h = []) /\
  run_chain c = Some (t, Returned, o) /\ List.length (entered t) = 2019%nat /\
  List.length (ch_handlers c) = 2020%nat.
Proof. exact p_C22_long_chain_refuted. Qed.
Print Assumptions C22_long_chain_refuted.

(* C23.  For chains of any length: in the trace nothing is entered after an Abort. *)
Theorem C23_abort_stops : forall c, exists t s o, run_chain c = Some (t, s, o) /\
  forall a b, t = a ++ EAbort :: b -> entered b = [].
Proof. exact p_C23_abort_stops. Qed.
Print Assumptions C23_abort_stops.

Example C23_example : exists t s o, run_chain (Chain [1; 2; 3]%nat (fun h => match h with 1%nat => [ANext; ANext] | 2%nat => [AAbort; AEff 5; ANext] | _ => [] end)) = Some (t, s, o) /\
  t = [EEnter 1; EEnter 2]%nat ++ EAbort :: [EEff 5].
Proof. repeat eexists. Qed.
