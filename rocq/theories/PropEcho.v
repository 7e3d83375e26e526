(* Property theorems. Each is closed by the lemma of the same name in EchoProofs.v. *)
From Verif Require Export EchoProofs.

(* C121: however the client's bytes are cut into reads, both middlewares print once, first; then the
   server prints exactly the bytes received, in order, in pieces of at most 500 bytes, and answers
   each piece.  When the connection fails it prints the error and closes, once; until then it
   does not close.
   Example: C121_case. *)
Theorem C121_prints_what_came : forall bs en r, segmentation bs en r ->
  exists ps, echo_conn r = Some (EcPrint "before raw message in" :: EcPrint "use middleware 1" :: answered ps ++
      match en with StaysOpen => [] | Fails e => [EcFailed e; EcClosed] end) /\
    concat ps = bs /\ Forall (fun p => (List.length p <= 500)%nat) ps.
Proof. exact p_C121_prints_what_came. Qed.
Print Assumptions C121_prints_what_came.

(* C121, the part of "one answer per message" that holds: when every message is at most 500 bytes
   and arrives in a Read of its own, the server prints the messages and answers each once.
   Missing: TCP gives no such guarantee, see C121_one_answer_refuted. *)
Theorem C121_one_answer_partial : forall msgs en, Forall (fun m => (List.length m <= 500)%nat) msgs ->
  exists os, echo_conn (one_read_each msgs (no_more en)) = Some os /\
    echo_pieces os = msgs /\ echo_written os = map (fun _ => str_bytes "hello,I am server.") msgs.
Proof. exact p_C121_one_answer_partial. Qed.
Print Assumptions C121_one_answer_partial.

Example C121_one_answer_case : echo_conn (one_read_each [str_bytes "a"; str_bytes "bc"] (no_more (Fails EEOF))) =
  Some [EcPrint "before raw message in"; EcPrint "use middleware 1"; EcGot (str_bytes "a"); EcWrote (str_bytes "hello,I am server.");
        EcGot (str_bytes "bc"); EcWrote (str_bytes "hello,I am server."); EcFailed EEOF; EcClosed] /\
  Forall (fun m => (List.length m <= 500)%nat) [str_bytes "a"; str_bytes "bc"].
Proof. split; [vm_compute; reflexivity|]. repeat constructor. Qed.

(* C121 is false: two messages that arrive together get one answer; a message of more than 500
   bytes gets several however it arrives; and any message of two bytes or more can get two.
   Example: C121_case. *)
Theorem C121_one_answer_refuted :
  (forall m1 m2, (List.length (m1 ++ m2) <= 500)%nat -> exists r os, segmentation (m1 ++ m2) StaysOpen r /\
    echo_conn r = Some os /\ echo_pieces os = [m1 ++ m2] /\ List.length (echo_written os) = 1%nat) /\
  (forall m en r, (500 < List.length m)%nat -> segmentation m en r -> exists os, echo_conn r = Some os /\ (2 <= List.length (echo_written os))%nat) /\
  (forall a b, (1 <= List.length a <= 500)%nat -> (1 <= List.length b <= 500)%nat -> exists r os, segmentation (a ++ b) StaysOpen r /\
    echo_conn r = Some os /\ echo_pieces os = [a; b] /\ List.length (echo_written os) = 2%nat).
Proof. exact p_C121_one_answer_refuted. Qed.
Print Assumptions C121_one_answer_refuted.

(* C121, the client: it prints exactly the bytes the server wrote, in pieces of at most 500 bytes,
   and when the connection fails prints the error and exits with status 1. *)
Theorem C121_client_prints : forall bs en r, segmentation bs en r ->
  exists ps, echo_client r = map EsLine ps ++ match en with StaysOpen => [] | Fails e => [EsError e; EsExit 1] end /\
    concat ps = bs /\ Forall (fun p => (List.length p <= 500)%nat) ps.
Proof. exact p_C121_client_prints. Qed.
Print Assumptions C121_client_prints.

(* the example's own message, in one read and in two; the connection then breaks *)
Example C121_case :
  segmentation (str_bytes "hello,I am client.") (Fails EEOF) [RData (str_bytes "hello,I am client."); RFail EEOF] /\
  echo_conn [RData echo_hello; RFail EEOF] =
    Some [EcPrint "before raw message in"; EcPrint "use middleware 1"; EcGot (str_bytes "hello,I am client.");
          EcWrote (str_bytes "hello,I am server."); EcFailed EEOF; EcClosed] /\
  echo_conn [RData (str_bytes "hello,"); RData (str_bytes "I am client.")] =
    Some [EcPrint "before raw message in"; EcPrint "use middleware 1"; EcGot (str_bytes "hello,"); EcWrote (str_bytes "hello,I am server.");
          EcGot (str_bytes "I am client."); EcWrote (str_bytes "hello,I am server.")] /\
  echo_client [RData (str_bytes "hello,I am server.hello,I am server."); RFail EEOF] =
    [EsLine (str_bytes "hello,I am server.hello,I am server."); EsError EEOF; EsExit 1].
Proof. split; [repeat split; repeat constructor|]. vm_compute. auto. Qed.
