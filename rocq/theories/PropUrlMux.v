(* Property theorems. Each is closed by the lemma of the same name in UrlMuxProofs.v. *)
From Verif Require Export UrlMuxProofs.

(* C103: the handlers of a pattern are those of its successful registrations, in order. *)
Theorem C103_routes : forall h p, aget p (um_routes (urun h)) = match registered p h with [] => None | a => Some (concat (map fst a)) end.
Proof. exact p_C103_routes. Qed.
Print Assumptions C103_routes.

(* ... the place of each of them is on record
   Example: C103_case. *)
Theorem C103_places : forall h p r, aget p (um_info (urun h)) = Some r -> rt_where r = map snd (registered p h).
Proof. exact p_C103_places. Qed.
Print Assumptions C103_places.

(* ... once locked, every further registration is refused and nothing changes, ...
   Example: C103_case. *)
Theorem C103_locked : forall h1 h2 o, um_routes (urun (h1 ++ ULock :: h2)) = um_routes (urun h1) /\ um_info (urun (h1 ++ ULock :: h2)) = um_info (urun h1) /\
  (o <> ULock -> snd (ustep (urun (h1 ++ ULock :: h2)) o) = UError).
Proof. exact p_C103_locked. Qed.
Print Assumptions C103_locked.

(* ... and with PanicOnExistRouter a second registration panics, changes nothing and names the
   places of the earlier ones.
   Example: C103_case. *)
Theorem C103_conflict : forall h p l w, um_readonly (urun h) = false -> um_strict (urun h) = true -> registered p h <> [] ->
  ustep (urun h) (UAdd p l w) = (urun h, UPanic w (lines (map snd (registered p h)))).
Proof. exact p_C103_conflict. Qed.
Print Assumptions C103_conflict.

Example C103_case : let h := [UAdd "/a" [User 1] "x.go:1"; UAdd "/a" [User 2] "x.go:2"; UStrict] in
  um_readonly (urun h) = false /\ um_strict (urun h) = true /\ registered "/a" h = [([User 1], "x.go:1"); ([User 2], "x.go:2")]%string /\
  ustep (urun h) (UAdd "/a" [User 3] "x.go:3") = (urun h, UPanic "x.go:3" ("x.go:1" ++ newline ++ "x.go:2")) /\
  registered "/a" (h ++ [UAdd "/a" [User 3] "x.go:3"; ULock; UAdd "/b" [User 4] "x.go:4"]) = registered "/a" h /\ registered "/b" (h ++ [ULock; UAdd "/b" [User 4] "x.go:4"]) = [].
Proof. cbv zeta. repeat split. Qed.
