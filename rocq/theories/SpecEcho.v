(* What is asked of the raw example, in terms of what is shown and written. *)
From Verif Require Export EchoModel SpecReader.

(* the bytes printed as received, piece by piece *)
Definition echo_pieces (os : list echo_out) : list bytes :=
  flat_map (fun o => match o with EcGot bs => [bs] | _ => [] end) os.
(* the bytes written to the client *)
Definition echo_written (os : list echo_out) : list bytes :=
  flat_map (fun o => match o with EcWrote bs => [bs] | _ => [] end) os.
(* one answer directly after each piece *)
Definition answered (pieces : list bytes) : list echo_out :=
  flat_map (fun bs => [EcGot bs; EcWrote (str_bytes "hello,I am server.")]) pieces.
(* each of the messages arrives in a Read of its own *)
Definition one_read_each (msgs : list bytes) (tail : reader) : reader := map RData msgs ++ tail.
(* a reader that has nothing more to give, for now or for ever *)
Definition no_more (en : ending) : reader := match en with StaysOpen => [] | Fails e => [RFail e] end.
