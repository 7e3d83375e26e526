(* Property theorems. Each is closed by the lemma of the same name in RaceProofs.v. *)
From Verif Require Export RaceProofs.

(* C80: whatever the goroutines do with the pool (Online, Offline, SendToUsername, CloseConn, the
   loop of Stop(true)), no reachable state has two of them at the map with one of them writing. *)
Theorem C80_no_race : forall s0 s, lock_start s0 -> lsteps s0 s -> ~ map_race s.
Proof. exact p_C80_no_race. Qed.
Print Assumptions C80_no_race.

(* two goroutines, one about to look a name up, the other about to lock: the writer has to wait *)
Example C80_case : let s0 := LS [] MFree [LConn true None false] [prog_get "u"; prog_online 0 "u"] [] in
  lock_start s0 /\ exists s, lsteps s0 s /\ (exists r, nth_error (ls_threads s) 0 = Some (ILookup "u" :: r)) /\
    (exists r, nth_error (ls_threads s) 1 = Some (ILock :: r)) /\ forall s', ~ lact 1 s s'.
Proof.
  intros s0. split.
  - split; [reflexivity|split; [reflexivity|split; [reflexivity|]]]. intros p [<-|[<-|[]]].
    + apply (cp_get _ "u" []). constructor.
    + apply (cp_online _ 0 "u" None false []); [reflexivity|constructor].
  - eexists. split; [|split; [|split]].
    + eapply ls_more; [eapply ls_more; [apply ls_refl|]|].
      * exists 0%nat. eapply (l_rlock_free _ 0%nat); reflexivity.
      * exists 1%nat. eapply (l_name _ 1%nat); reflexivity.
    + eexists. reflexivity.
    + eexists. reflexivity.
    + intros s' H. inversion H; subst; cbn in *; discriminate.
Qed.
