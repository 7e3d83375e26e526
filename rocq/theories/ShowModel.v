(* Model of what the example clients show of what the server sends them: the loops around conn.Read
   in examples/modules/online-offline/client/client.go:36-48, graceful/graceful-stop/client/client.go:20-33,
   graceful/graceful-restart/client/client.go:20-33, and the loops around FirstBlockOf in
   examples/modules/chat/client_1/main.go:66-104 (client_2 is the same) and
   middleware/*/client/main.go:35-71.  No proofs in this file. *)
From Verif Require Export ReaderModel.

(* how a loop stands: it goes on, waits in Read, has left for an error (os.Exit, return), or a panic
   has ended the process *)
Inductive standing := Going | Waiting | LeftLoop | Crashed.

(* the buffer of 500 bytes after a Read of bs into it *)
Definition filled (buf bs : bytes) : bytes := bs ++ skipn (List.length bs) buf.

(* client.go:36-48, [n] times around the loop: the line printed of each read (46-47; the error of
   BodyBytesOf is dropped and its slice is then nil; the printing of the raw bytes is left out) *)
Fixpoint show_reads (n : nat) (buf : bytes) (r : reader) : list bytes * standing :=
  match n with
  | O => ([], Going)
  | S n' =>
      match read_one (List.length buf) r with
      | None => ([], Waiting)
      | Some (_, Some _, _) => ([], LeftLoop)
      | Some (bs, None, r') =>
          let buf' := filled buf bs in
          match BodyBytesOf (GS buf' (List.length bs)) with
          | Panic => ([], Crashed)
          | Ok bf => let '(l, s) := show_reads n' buf' r' in (gbytes bf :: l, s)
          | Err _ => let '(l, s) := show_reads n' buf' r' in ([] :: l, s)
          end
      end
  end.
Definition read_client (n : nat) (r : reader) : list bytes * standing := show_reads n (repeat zero 500) r.

(* chat/client_1/main.go:66-77, middleware/*/client/main.go:38-52: what reaches the switch, the id and the body of each block.
   chat drops the error of BodyBytesOf (then nil) and that of MessageIDOf (then 0); the others leave. *)
Fixpoint show_blocks (drop : bool) (n : nat) (r : reader) : list (Z * bytes) * standing :=
  match n with
  | O => ([], Going)
  | S n' =>
      match FirstBlockOf r with
      | (RdBlocked, _) => ([], Waiting)
      | (RdErr _, _) => ([], LeftLoop)
      | (RdPanic, _) => ([], Crashed)
      | (RdOk buf, r') =>
          match BodyBytesOf (of_bytes buf), MessageIDOf (of_bytes buf) with
          | Panic, _ | _, Panic => ([], Crashed)
          | Ok bf, Ok id => let '(l, s) := show_blocks drop n' r' in ((id, gbytes bf) :: l, s)
          | b, i =>
              if drop then
                let '(l, s) := show_blocks drop n' r' in
                ((match i with Ok id => id | _ => 0 end, match b with Ok bf => gbytes bf | _ => [] end) :: l, s)
              else ([], LeftLoop)
          end
      end
  end.

(* chat/client_1/main.go:79-101: the text for the panel; [dec]: json.Unmarshal into the two fields
   of ResponseTo, message and from_user.  None: panic(e). *)
Definition panel (dec : bytes -> option (string * string)) (m : Z * bytes) : option (list string) :=
  let '(id, bf) := m in
  if (id =? 400) || (id =? 200) || (id =? 500) then
    match dec bf with Some (msg, _) => Some ["message: " ++ msg]%string | None => None end
  else if id =? 6 then
    match dec bf with Some (msg, from) => Some [from ++ ": " ++ msg]%string | None => None end
  else Some [].
Fixpoint panels (dec : bytes -> option (string * string)) (l : list (Z * bytes)) : list string * bool :=
  match l with
  | [] => ([], true)
  | m :: r =>
      match panel dec m with
      | None => ([], false)
      | Some t => let '(ts, ok) := panels dec r in (t ++ ts, ok)
      end
  end.
