(* Property theorems: C117: what the example clients show.
   Each is closed by the lemma of the same name in ShowProofs.v. *)
From Verif Require Export ShowProofs.
From Verif Require Import Demo.

(* C117, the part that holds for the clients around conn.Read: when every read brings one message,
   alone or with more behind it, the body of that message is shown.
   Example: C117_case. *)
Theorem C117_reads_partial : forall ms blocks extras r,
  holds ms blocks -> List.length extras = List.length blocks ->
  Forall (fun c => (List.length c <= 500)%nat) (map (fun p => fst p ++ snd p) (combine blocks extras)) ->
  fst (read_client (List.length ms) (map (fun p => RData (fst p ++ snd p)) (combine blocks extras) ++ r)) = map snd ms.
Proof. exact p_C117_reads_partial. Qed.
Print Assumptions C117_reads_partial.

(* C117, in full for the clients around FirstBlockOf (chat and middleware): however the server's
   messages are cut up and run together on the way, exactly they are shown, in order.
   Example: C117_case. *)
Theorem C117_blocks : forall drop ms blocks rest en r,
  holds ms blocks -> segmentation (concat blocks ++ rest) en r ->
  exists r', segmentation rest en r' /\
    forall k, show_blocks drop (List.length ms + k) r = (ms ++ fst (show_blocks drop k r'), snd (show_blocks drop k r')).
Proof. exact p_C117_blocks. Qed.
Print Assumptions C117_blocks.

(* ... and then the stream's end, or a failure in the middle of a message, leaves the loop, while a
   stream that stays open is waited for: nothing else is shown.
   Example: C117_case. *)
Theorem C117_stream_ends : forall drop ms blocks part b en r k,
  holds ms blocks -> is_block b -> prefix_of part b -> part <> b -> segmentation (concat blocks ++ part) en r ->
  show_blocks drop (List.length ms + S k) r = (ms, match en with StaysOpen => Waiting | Fails _ => LeftLoop end).
Proof. exact p_C117_stream_ends. Qed.
Print Assumptions C117_stream_ends.

(* A block too short to be a message, less than 16 bytes: the middleware clients leave the loop, the
   chat client goes on with an empty body and, below 8 bytes, with id 0.
   Example: C117_short_case. *)
Theorem C117_short_block : forall ms blocks b rest en r,
  holds ms blocks -> is_block b -> blen b < 16 -> segmentation (concat blocks ++ b ++ rest) en r ->
  (forall k, show_blocks false (List.length ms + S k) r = (ms, LeftLoop)) /\
  exists r', segmentation rest en r' /\ forall k, show_blocks true (List.length ms + S k) r =
    (ms ++ (if blen b <? 8 then 0 else signed (field b 4), []) :: fst (show_blocks true k r'), snd (show_blocks true k r')).
Proof. exact p_C117_short_block. Qed.
Print Assumptions C117_short_block.

(* C117, chat: the messages the chat server writes (ids 6 and 200) are shown on the panel one after
   another, given that they decode to what was encoded. *)
Theorem C117_chat_panel : forall dec enc l,
  (forall m, In m l -> (cm_id m = 6 \/ cm_id m = 200) /\ dec (enc m) = Some (cm_message m, cm_from m)) ->
  panels dec (map (fun m => (cm_id m, enc m)) l) = (map chat_text l, true).
Proof. exact p_C117_chat_panel. Qed.
Print Assumptions C117_chat_panel.

(* C117, chat: a message whose body does not decode ends the client (panic(e)) after the messages
   before it, provided its id is one the client looks at; other ids show nothing.
   Example: C117_chat_stops_case. *)
Theorem C117_chat_stops : forall dec l1 m l2 ts, panels dec l1 = (ts, true) ->
  (In (fst m) [6; 200; 400; 500] -> dec (snd m) = None -> panels dec (l1 ++ m :: l2) = (ts, false)) /\
  (~ In (fst m) [6; 200; 400; 500] -> panels dec (l1 ++ m :: l2) = (ts ++ fst (panels dec l2), snd (panels dec l2))).
Proof. exact p_C117_chat_stops. Qed.
Print Assumptions C117_chat_stops.

(* C117 fails for the clients around conn.Read.  Whatever arrives and however, no line is longer than
   500 bytes: a longer body is never shown. *)
Theorem C117_long_refuted : forall r line, shows r line -> blen line <= 500.
Proof. exact p_C117_long_refuted. Qed.
Print Assumptions C117_long_refuted.

(* C117 fails: of two messages that arrive together the second is not shown, though the client goes
   on reading.
   Example: C117_case. *)
Theorem C117_together_refuted : forall id1 hdr1 body1 b1 b2,
  is_int32 id1 -> frame_layout id1 hdr1 body1 b1 -> (List.length (b1 ++ b2) <= 500)%nat ->
  forall n, read_client (S (S n)) [RData (b1 ++ b2)] = ([body1], Waiting).
Proof. exact p_C117_together_refuted. Qed.
Print Assumptions C117_together_refuted.

(* C117 fails: of a message whose first read brings only a part of it an empty line is shown, and its
   body only if what comes later reads like a message with that body.
   Example: C117_case. *)
Theorem C117_split_refuted : forall id hdr body b part tail r,
  frame_layout id hdr body b -> blen b < 2 ^ 31 -> b = part ++ tail -> tail <> [] -> (List.length part <= 500)%nat ->
  fst (read_client 1 (RData part :: r)) = [[]].
Proof. exact p_C117_split_refuted. Qed.
Print Assumptions C117_split_refuted.

(* C117 fails: a message can end the client, cut in two at the right place. *)
Theorem C117_crash_refuted : exists id hdr body b part tail, is_int32 id /\ frame_layout id hdr body b /\ b = part ++ tail /\
  List.length b = 36%nat /\ read_client 2 [RData part; RData tail] = ([[]], Crashed).
Proof. exact p_C117_crash_refuted. Qed.
Print Assumptions C117_crash_refuted.

(* C117: two messages in three pieces, by both kinds of client *)
Example C117_case : exists ms blocks pieces,
  holds ms blocks /\ List.length ms = 2%nat /\ segmentation (concat blocks) StaysOpen (map RData pieces) /\ List.length pieces = 3%nat /\
  show_blocks true 3 (map RData pieces) = (ms, Waiting) /\ show_blocks false 3 (map RData pieces) = (ms, Waiting) /\
  fst (read_client 4 (map RData pieces)) <> map snd ms /\
  fst (read_client 2 (map RData blocks)) = map snd ms.
Proof.
  set (h := list_ascii_of_string "null"). set (x := list_ascii_of_string "hello"). set (y := list_ascii_of_string "goodbye").
  set (b1 := assemble 6 h x). set (b2 := assemble (-200) h y).
  exists [(6, x); (-200, y)], [b1; b2], [firstn 10 b1; skipn 10 b1 ++ firstn 3 b2; skipn 3 b2].
  split.
  { repeat constructor; exists h; cbn [fst snd]; (split; [apply assemble_layout; vm_compute; reflexivity|]);
      (split; [unfold is_int32, two31; lia|vm_compute; reflexivity]). }
  split; [reflexivity|]. split.
  { split; [repeat constructor|]. split; vm_compute; reflexivity. }
  split; [reflexivity|]. split; [vm_compute; reflexivity|]. split; [vm_compute; reflexivity|].
  split; [vm_compute; discriminate|vm_compute; reflexivity].
Qed.

Example C117_short_case : let b := [byte_of 0; byte_of 0; byte_of 0; byte_of 4; byte_of 0; byte_of 0; byte_of 0; byte_of 6] in
  let m := assemble 6 (list_ascii_of_string "null") (list_ascii_of_string "hello") in
  is_block b /\ blen b < 16 /\ holds [(6, list_ascii_of_string "hello")] [m] /\
  show_blocks false 3 [RData (m ++ b ++ m)] = ([(6, list_ascii_of_string "hello")], LeftLoop) /\
  show_blocks true 3 [RData (m ++ b ++ m)] = ([(6, list_ascii_of_string "hello"); (6, []); (6, list_ascii_of_string "hello")], Going) /\
  show_blocks true 3 [RData (m ++ b); RFail EEOF] = ([(6, list_ascii_of_string "hello"); (6, [])], LeftLoop).
Proof.
  cbv zeta. split; [unfold is_block; repeat split; vm_compute; congruence|]. split; [reflexivity|]. split.
  { repeat constructor. exists (list_ascii_of_string "null"). cbn [fst snd]. split; [apply assemble_layout; vm_compute; reflexivity|]. split; [unfold is_int32, two31; lia|vm_compute; reflexivity]. }
  repeat split; vm_compute; reflexivity.
Qed.

Example C117_chat_stops_case : let dec b := match b with [] => None | _ => Some ("hi", "bob")%string end in
  panels dec [(6, [byte_of 1]); (77, []); (200, []); (6, [byte_of 1])] = (["bob: hi"]%string, false).
Proof. reflexivity. Qed.
