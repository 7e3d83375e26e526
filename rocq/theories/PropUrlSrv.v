(* Property theorems. Each is closed by the lemma of the same name in UrlSrvProofs.v. *)
From Verif Require Export UrlSrvProofs.

(* C137 (first part).  After any calls of the registration API, made from any places and with panics
   recovered, the routes of the server are those of a URLMux on which the calls of Any were made ...
   Example: C137_case. *)
Theorem C137_same_routes : forall dir h, m_urls (build (map snd h)) = um_routes (srv_urls dir h).
Proof. exact p_C137_same_routes. Qed.
Print Assumptions C137_same_routes.

(* ... which refuses none of them and panics at none of them.
   Example: C137_case. *)
Theorem C137_never_refused : forall dir h p l w, snd (ustep (srv_urls dir h) (UAdd p l w)) = UNil.
Proof. exact p_C137_never_refused. Qed.
Print Assumptions C137_never_refused.

(* C137 (second part).  The handlers of a pattern are those of the calls of Any with it, in order, a
   single handler once and several handlers twice.
   Example: C137_case. *)
Theorem C137_handlers : forall h p, aget p (m_urls (build (map snd h))) =
  match anys p h with [] => None | a => Some (concat (map (fun x => copies (snd x)) a)) end.
Proof. exact p_C137_handlers. Qed.
Print Assumptions C137_handlers.

(* C137 (third part).  What is on record about where a pattern was registered is, for each such call,
   the line of the library that passed it on ...
   Example: C137_case. *)
Theorem C137_recorded_partial : forall dir h p r, aget p (um_info (srv_urls dir h)) = Some r ->
  rt_where r = flat_map (fun x => match snd x with [_] => [(dir ++ "/mux.go:74")%string] | _ => [(dir ++ "/tcpx.go:351")%string; (dir ++ "/mux.go:74")%string] end) (anys p h).
Proof. exact p_C137_recorded_partial. Qed.
Print Assumptions C137_recorded_partial.

(* ... so the places of the application are not on record, and nothing tells one application's
   registrations from another's.
   Example: C137_case. *)
Theorem C137_places_refuted : 
  ~ (forall dir h p r w, aget p (um_info (srv_urls dir h)) = Some r -> In w (app_places p h) -> In w (rt_where r)) /\
  (forall dir h h', map snd h = map snd h' -> srv_urls dir h = srv_urls dir h').
Proof. exact p_C137_places_refuted. Qed.
Print Assumptions C137_places_refuted.

Example C137_case : let h := [("app.go:9", OAny "/a" [User 3]); ("app.go:8", OAdd 5 [] (User 4)); ("app.go:7", OAny "/a" [User 1; User 2])]%string in
  anys "/a" h = [("app.go:7", [User 1; User 2]); ("app.go:9", [User 3])]%string /\
  aget "/a"%string (m_urls (build (map snd h))) = Some [User 1; User 2; User 1; User 2; User 3] /\
  aget "/a"%string (um_info (srv_urls "/go/tcpx" h)) = Some (Rt "/a" 0 ["/go/tcpx/tcpx.go:351"; "/go/tcpx/mux.go:74"; "/go/tcpx/mux.go:74"]%string) /\
  app_places "/a" h = ["app.go:7"; "app.go:9"]%string.
Proof. cbv zeta. repeat split. Qed.
