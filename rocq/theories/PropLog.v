(* Property theorems. Each is closed by the lemma of the same name in LogProofs.v. *)
From Verif Require Export LogProofs.

(* C108, what holds: after any configuration calls the logger prints, in debug mode, one line with the
   values given to it, a space between two, and nothing in any other mode *)
Theorem C108_logger_partial : forall deco cs info, exists s, words s info /\ Println deco (configured cs) info = if (last_mode cs =? DEBUG)%Z then [Stdout (deco s)] else [].
Proof. exact p_C108_logger_partial. Qed.
Print Assumptions C108_logger_partial.

Example C108_logger_case : Println (fun s => s) (configured [CMode RELEASE; CFlags 0; CMode DEBUG]) ["a["; "]"; "[b]"] = [Stdout "a[ ] [b]"] /\ Println (fun s => s) (configured [CMode RELEASE]) ["a"] = [].
Proof. split; reflexivity. Qed.

(* C108 is false: in release mode the library still prints, exactly when one of these eight things happens, a datagram coming in among them
   Example: C108_release_case. *)
Theorem C108_release_refuted : forall deco stamp cs h, last_mode cs = RELEASE -> (prints deco stamp (configured cs) h <> [] <-> bypasses h = true).
Proof. exact p_C108_release_refuted. Qed.
Print Assumptions C108_release_refuted.

(* ... and SetLogFlags changes nothing of what is printed, since Println never uses the *log.Logger *)
Theorem C108_flags_refuted : forall deco stamp cs f h, prints deco stamp (configured (app cs [CFlags f])) h = prints deco stamp (configured cs) h.
Proof. exact p_C108_flags_refuted. Qed.
Print Assumptions C108_flags_refuted.

(* ... and the line about a recovered panic of a heartbeat watcher shows a verb instead of being formatted
   Example: C108_release_case. *)
Theorem C108_verb_refuted : forall deco stamp cs e, last_mode cs = DEBUG -> prints deco stamp (configured cs) (HBeatPanic e) = [Stdout (deco ("recover from : %v " ++ e))] /\
  prints deco stamp (configured cs) (HHeader e) = [Stdout (deco ("header decode err: %s " ++ e))].
Proof. exact p_C108_verb_refuted. Qed.
Print Assumptions C108_verb_refuted.

(* C108: every text the library prints, in every mode *)
Theorem C108_texts : forall deco stamp cs h, prints deco stamp (configured cs) h =
  app (unlogged stamp h) (if (last_mode cs =? DEBUG)%Z then map (fun t => Stdout (deco t)) (logged h) else []).
Proof. exact p_C108_texts. Qed.
Print Assumptions C108_texts.

Example C108_release_case : last_mode [CMode RELEASE; CFlags 3] = RELEASE /\ prints (fun s => s) (fun s => s) (configured [CMode RELEASE; CFlags 3]) HStop = [Stdout "graceful stop"] /\
  prints (fun s => s) (fun s => s) (configured [CMode RELEASE; CFlags 3]) (HReadErr "eof") = [] /\ last_mode [CFlags 1] = DEBUG /\
  prints (fun s => s) (fun s => s) (configured []) (HBeat "1.2.3.4:5" "[0]") = [Stdout "recv '1.2.3.4:5' heartbeat: [0]"].
Proof. repeat split. Qed.
