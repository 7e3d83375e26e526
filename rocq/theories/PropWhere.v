(* Property theorems. Each is closed by the lemma of the same name in WhereProofs.v. *)
From Verif Require Export WhereProofs.

(* C127 (first part).  After any calls, with panics recovered, a Use panics for misuse exactly when
   it meets a key that is in use, and the text lists the places of all Use and UnUse calls of that
   key that took effect, oldest first, under their headings.
   Example: C127_case. *)
Theorem C127_use_text_partial : forall h s l t,
  snd (wcall s (AUse l) (wrun h)) = Misuse t <->
  Nat.even (List.length l) = true /\ exists k n, use_stops s l (notes h) k n /\
    t = ("can't Use(" ++ k ++ ", handler) more than twice when the first anchor middleware has not called UnUse(" ++ k ++
         ") yet, they're at:" ++ newline ++ listing k n)%string.
Proof. exact p_C127_use_text_partial. Qed.
Print Assumptions C127_use_text_partial.

(* ... and UnUse panics for misuse exactly when it meets a key that was used before and is not in
   use now.
   Example: C127_case. *)
Theorem C127_unuse_text_partial : forall h s ks t,
  snd (wcall s (AUnUse ks) (wrun h)) = Misuse t <->
  exists k n, unuse_stops s ks (notes h) k n /\
    t = ("can't UnUse(" ++ k ++ ") when call UnUse times is bigger than call Use, they're at :" ++ newline ++ listing k n)%string.
Proof. exact p_C127_unuse_text_partial. Qed.
Print Assumptions C127_unuse_text_partial.

(* ... so every earlier Use and UnUse of the key that took effect is named
   Example: C127_case. *)
Theorem C127_earlier_named : forall h s c t x f, In x (notes h) ->
  c = AUse [UKey (n_key x); UFn f] \/ c = AUnUse [n_key x] ->
  snd (wcall s c (wrun h)) = Misuse t -> occurs (site_text (n_at x)) t.
Proof. exact p_C127_earlier_named. Qed.
Print Assumptions C127_earlier_named.

(* ... and the records of places change nothing else: every call leaves the routes and middleware as
   the registration calls of C06 to C16 do, and panics exactly when those do. *)
Theorem C127_same_effect : forall s a w,
  w_mux (fst (wcall s a w)) = fst (api_step a (w_mux w)) /\ (snd (wcall s a w) = Fine <-> snd (api_step a (w_mux w)) = false).
Proof. exact p_C127_same_effect. Qed.
Print Assumptions C127_same_effect.

(* The misusing call itself is not named: its place is recorded after the test. *)
Theorem C127_offender_refuted : exists h s c t,
  snd (wcall s c (wrun h)) = Misuse t /\ String.index 0 (site_text s) t = None.
Proof. exact p_C127_offender_refuted. Qed.
Print Assumptions C127_offender_refuted.

Example C127_case :
  let h := [(Site "main.go" 10, AUse [UKey "log"; UFn (User 1); UKey "key"; UFn (User 2)]);
            (Site "main.go" 12, AUnUse ["log"%string]); (Site "main.go" 12, ACall (OAdd 1 [] (User 3)));
            (Site "more.go" 7, AUse [UKey "log"; UFn (User 1)])]%nat in
  snd (wcall (Site "more.go" 9) (AUse [UKey "new"; UFn (User 4); UKey "log"; UFn (User 1)])%nat (wrun h)) =
  Misuse ("can't Use(log, handler) more than twice when the first anchor middleware has not called UnUse(log) yet, they're at:"
    ++ newline ++ "------------------- Use -----------------------" ++ newline ++ "main.go:10" ++ newline ++ "more.go:7"
    ++ newline ++ "------------------- UnUse ---------------------" ++ newline ++ "main.go:12")%string /\
  newline = String "010" EmptyString.
Proof. vm_compute. split; reflexivity. Qed.
