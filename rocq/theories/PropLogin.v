(* Property theorems: C123: the url-pattern example..
   Each is closed by the lemma of the same name in LoginProofs.v. *)
From Verif Require Export LoginProofs.
From Verif Require Import Demo.

(* C123, the server: whatever is sent to it and in whatever order its goroutines run, it writes only
   the token, as the answer to a message it has handled that names the pattern /login/ and whose
   body decodes, and never two answers to the same message.
   Example: C123_case. *)
Theorem C123_answers : forall {V} (E : env V) zero token h s, lrun_ E zero token h = Some s ->
  NoDup (map fst (lv_sent s)) /\
  forall y b, In (y, b) (lv_sent s) -> token_block E token b /\ In y (handled_ h) /\
    exists k m, message_of h y k m /\ URLPatternOf (e_hdr E) m = Ok "/login/"%string /\ decodes E zero m.
Proof. exact @p_C123_answers. Qed.
Print Assumptions C123_answers.

(* C123, the part of "every login is answered" that holds: on a connection all of whose messages ask
   for a pattern, a message is answered exactly when it has been handled, asks for /login/ and its
   body decodes.  Missing: connections with messages routed by number, see C123_mixed_refuted.
   Example: C123_case. *)
Theorem C123_logins_answered_partial : forall {V} (E : env V) zero token h s y k m b,
  lrun_ E zero token h = Some s -> message_of h y k m -> only_patterns E h k -> token_block E token b ->
  (In (y, b) (lv_sent s) <-> In y (handled_ h) /\ asks_login E m /\ decodes E zero m).
Proof. exact @p_C123_logins_answered_partial. Qed.
Print Assumptions C123_logins_answered_partial.

(* C123, a whole connection: when every message of the connection is a login whose body decodes and
   every goroutine has run, the server has written the token on it exactly as many times as messages came.
   Example: C123_case. *)
Theorem C123_one_token_each : forall {V} (E : env V) zero token h s k b,
  lrun_ E zero token h = Some s -> token_block E token b ->
  (forall m, In (GRead k m) h -> asks_login E m /\ decodes E zero m) ->
  (forall y, In y (came h) -> In y (handled_ h)) ->
  written_on h s k = repeat b (messages_on h k).
Proof. exact @p_C123_one_token_each. Qed.
Print Assumptions C123_one_token_each.

(* C123, the client: from a stream of answers and of blocks with other patterns, however cut into
   reads, it prints one line for each, in order: the token (lr: what the token's JSON is as a
   LoginResponse) for an answer; then it waits for more, or prints the error when the connection
   has failed.
   Example: C123_case. *)
Theorem C123_client_shows : forall {V} (E : env V) token zr lr bs ls en r j,
  hdr_roundtrips (e_hdr E) (Some [("Router-Type"%string, JStr "URL_PATTERN"); ("Router-Pattern-Value"%string, JStr "/login/")]) ->
  (forall tb, e_json E token = Ok tb -> e_unjson E tb (Some zr) = Ok lr) ->
  Forall2 (fun b l => token_block E token b /\ blen b < 2 ^ 31 /\ l = SToken lr \/
    is_block b /\ l = SOther /\ exists u, URLPatternOf (e_hdr E) (of_bytes b) = Ok u /\ u <> "/login/"%string) bs ls ->
  segmentation (concat bs) en r ->
  exists tl, login_client E zr (List.length bs + S j) r = ls ++ tl /\
    match en with StaysOpen => tl = [] | Fails e => exists e', same_failure e e' /\ tl = [SError (EWrap e')] end.
Proof. exact @p_C123_client_shows. Qed.
Print Assumptions C123_client_shows.

(* C123, what the answer is: one message with id 0, whose header names the pattern /login/ and whose body is the
   JSON of the token.
   Example: C123_meaning_case. *)
Theorem C123_token : forall {V} (E : env V) token b, token_block E token b -> blen b - 4 < 2 ^ 32 ->
  exists hdr body, hmarshal (e_hdr E) (Some [("Router-Type"%string, JStr "URL_PATTERN"); ("Router-Pattern-Value"%string, JStr "/login/")]) = Ok hdr /\
    e_json E token = Ok body /\ frame_layout 0 hdr body b.
Proof. exact @p_C123_token. Qed.
Print Assumptions C123_token.

(* C123, what it takes to log in: the body of the message is JSON that fits a User; an empty one does.
   Example: C123_meaning_case. *)
Theorem C123_decodes : forall {V} (E : env V) zero id hdr body hd s, gwf s -> is_int32 id -> frame_layout id hdr body (gbytes s) -> blen (gbytes s) < 2 ^ 32 ->
  hunmarshal (e_hdr E) hdr = Ok hd ->
  (decodes E zero s <-> body = [] \/ exists v, e_unjson E body (Some zero) = Ok v).
Proof. exact @p_C123_decodes. Qed.
Print Assumptions C123_decodes.

(* C123 is false of connections that also carry messages routed by number: a message with a number
   and a login come on one connection; when the message with the number is handled first the
   login is never answered, when the login is handled first it is. *)
Theorem C123_mixed_refuted : exists (E : env string) zero token s0 s1 b,
  asks_login E s1 /\ decodes E zero s1 /\ token_block E token b /\
  (exists s, lrun_ E zero token [GRun 1; GRun 0; GRead 0 s1; GRead 0 s0; GAccept] = Some s /\ lv_sent s = []) /\
  (exists s, lrun_ E zero token [GRun 0; GRun 1; GRead 0 s1; GRead 0 s0; GAccept] = Some s /\ lv_sent s = [(2%nat, b)]).
Proof. exact p_C123_mixed_refuted. Qed.
Print Assumptions C123_mixed_refuted.

(* two clients, one with two logins, one with a login and another pattern; the goroutines run in
   another order than the messages came *)
Example C123_case : let l := of_bytes (url_block_of "/login/") in let o := of_bytes url_block in
  let h := [GRun 0; GRun 3; GRun 1; GRun 2; GRead 1 o; GRead 0 l; GRead 1 l; GRead 0 l; GAccept; GAccept]%nat in
  asks_login demo_env l /\ decodes demo_env ""%string l /\ only_patterns demo_env h 1 /\
  hdr_roundtrips (e_hdr demo_env) (url_header "/login/") /\
  exists s b, lrun_ demo_env ""%string "t"%string h = Some s /\ token_block demo_env "t"%string b /\ blen b < 2 ^ 31 /\
    written_on h s 0 = [b; b] /\ written_on h s 1 = [b] /\ (forall y, In y (came h) -> In y (handled_ h)) /\
    login_client demo_env ""%string 3 [RData (firstn 7 (b ++ b)); RData (skipn 7 (b ++ b)); RFail EEOF] =
      [SToken "t"%string; SToken "t"%string; SError (EWrap EEOF)].
Proof.
  cbv zeta. split; [apply login_demo|]. split; [eexists; vm_compute; reflexivity|]. split.
  - intros m I. assert (m = of_bytes (url_block_of "/login/") \/ m = of_bytes url_block) as [-> | ->].
    { repeat (destruct I as [I|I]; [try discriminate I; injection I as <-; auto|]). destruct I. }
    + apply pattern_of_asks, login_demo.
    + exists 0, (url_header "/x/"). split; [apply url_demo_x|reflexivity].
  - split; [apply json_hdr_roundtrips; reflexivity|]. eexists. eexists. split; [vm_compute; reflexivity|]. split; [vm_compute; reflexivity|]. split; [vm_compute; reflexivity|].
    split; [vm_compute; reflexivity|]. split; [vm_compute; reflexivity|]. split; [|vm_compute; reflexivity].
    intros y I. repeat (destruct I as [I|I]; [subst y; vm_compute; auto 8|]). destruct I.
Qed.

Example C123_meaning_case : (exists b, token_block demo_env "t"%string b /\ blen b - 4 < 2 ^ 32) /\
  (exists hdr body, frame_layout 0 hdr body (url_block_of "/login/") /\ hunmarshal (e_hdr demo_env) hdr = Ok (url_header "/login/")) /\
  decodes demo_env ""%string (of_bytes (url_block_of "/login/")).
Proof.
  split; [eexists; split; [vm_compute; reflexivity|vm_compute; reflexivity]|]. split.
  - destruct url_demo_login as (_ & _ & _ & hdr & body & F & H). rewrite gbytes_of_bytes in F. exists hdr, body. split; [exact F|exact H].
  - eexists. vm_compute. reflexivity.
Qed.
