(* Property theorems. Each is closed by the lemma of the same name in SliceProofs.v. *)
From Verif Require Export SliceProofs.

(* C102, the part that holds: AddHandler and UseGlobal copy.  Whatever the program does later with
   the slices it passed, and whatever else is registered, the own middlewares of an id stay what
   the call gave them and the global middlewares only grow at the end.
   Example: C102_ids_case. *)
Theorem C102_ids : forall extra h o,
  (forall id l, holds (slrun extra h) (PSelf id) = Some l -> holds (slrun extra (h ++ [o])) (PSelf id) = Some l) /\
  (forall id f, aget id (ss_handlers (slrun extra h)) = Some f -> aget id (ss_handlers (slrun extra (h ++ [o]))) = Some f) /\
  (forall id a ms f, o = SAdd id a -> value (slrun extra h) a = ms ++ [f] -> ms <> [] -> holds (slrun extra h) (PSelf id) = None -> holds (slrun extra (h ++ [o])) (PSelf id) = Some ms) /\
  exists l, holds (slrun extra h) PGlobal = Some l /\
    holds (slrun extra (h ++ [o])) PGlobal = Some (l ++ match o with SGlobal a => value (slrun extra h) a | _ => [] end).
Proof. exact p_C102_ids. Qed.
Print Assumptions C102_ids.

(* ... and a pattern whose handlers are listed in the calls to Any holds exactly what MuxModel.v
   says, whatever the program does with slices it passes elsewhere.
   Example: C102_case. *)
Theorem C102_literal_partial : forall extra h p, literal p h -> holds (slrun extra h) (PUrl p) = aget p (m_urls (build (lits h))).
Proof. exact p_C102_literal_partial. Qed.
Print Assumptions C102_literal_partial.

(* C102 is false for a slice with room left passed to Any: the doubled list is built in the
   program's own array, and the program's next append to its slice changes the route.
   Example: C102_case. *)
Theorem C102_append_refuted : forall extra l spare x p, (2 <= List.length l <= List.length spare)%nat ->
  holds (slrun extra [SMake l spare; SAny p (Var 0)]) (PUrl p) = Some (l ++ l) /\
  holds (slrun extra [SMake l spare; SAny p (Var 0); SAppend 0 [x]]) (PUrl p) = Some (l ++ x :: tl l).
Proof. exact p_C102_append_refuted. Qed.
Print Assumptions C102_append_refuted.

(* ... and an element written later is what the route runs. *)
Theorem C102_write_refuted : forall extra f spare x p,
  holds (slrun extra [SMake [f] spare; SAny p (Var 0)]) (PUrl p) = Some [f] /\ holds (slrun extra [SMake [f] spare; SAny p (Var 0); SWrite 0 0 x]) (PUrl p) = Some [x].
Proof. exact p_C102_write_refuted. Qed.
Print Assumptions C102_write_refuted.

(* the usual way to share middlewares between patterns: srv.Any("/a", common...), then
   srv.Any("/b", append(common, h)...): h ends up in the route of /a *)
Example C102_case : let extra := fun _ _ => 0%nat in let h := [SMake [User 1; User 2] (repeat Beat 6); SAny "/a" (Var 0); SAppend 0 [User 3]; SAny "/b" (Var 1)] in
  holds (slrun extra h) (PUrl "/a") = Some [User 1; User 2; User 3; User 1] /\ holds (slrun extra h) (PUrl "/b") = Some [User 1; User 2; User 3; User 1; User 2; User 3] /\
  literal "/c" (h ++ [SAny "/c" (Lit [User 4; User 5])]) /\ holds (slrun extra (h ++ [SAny "/c" (Lit [User 4; User 5])])) (PUrl "/c") = Some [User 4; User 5; User 4; User 5].
Proof. cbv zeta. split; [reflexivity|]. split; [reflexivity|]. split; [|reflexivity]. intros i H. cbn in H. intuition discriminate. Qed.

Example C102_ids_case : let h := [SMake [User 1; User 2] []; SAdd 7 (Var 0); SWrite 0 0 (User 9)] in
  holds (slrun (fun _ _ => 3%nat) h) (PSelf 7) = Some [User 1] /\ holds (slrun (fun _ _ => 3%nat) h) (PVar 0) = Some [User 9; User 2].
Proof. split; reflexivity. Qed.
