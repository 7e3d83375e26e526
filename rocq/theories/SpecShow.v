(* What the clients are expected to show. *)
From Verif Require Export SpecReader ShowModel ChatModel.

(* the messages, id and body, are what the blocks hold *)
Definition holds (ms : list (Z * bytes)) (blocks : list bytes) : Prop :=
  Forall2 (fun m b => exists hdr, frame_layout (fst m) hdr (snd m) b /\ is_int32 (fst m) /\ blen b < 2 ^ 31) ms blocks.

(* all lines shown, whatever the number of reads *)
Definition shows (r : reader) (line : bytes) : Prop := exists n, In line (fst (read_client n r)).

(* the text the chat client should show of a message of the chat server *)
Definition chat_text (m : cmsg) : string :=
  if cm_id m =? 6 then (cm_from m ++ ": " ++ cm_message m)%string else ("message: " ++ cm_message m)%string.
