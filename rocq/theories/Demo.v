(* Concrete instances used only by the Examples: encoders for string bodies.
   Not a model of any library code. *)
From Verif Require Export JsonModel.

(* a body encoder with a one-byte tag (so that no encoding is empty) *)
Definition tag_enc (t : ascii) (s : string) : res bytes := Ok (t :: str_bytes s).
Definition tag_dec (t : ascii) (b : bytes) (d : option string) : res string :=
  match d, b with
  | None, _ => Err (EMsg "nil dest")
  | Some _, c :: r => if Ascii.eqb c t then Ok (string_of_list_ascii r) else Err (EMsg "bad tag")
  | Some _, [] => Err (EMsg "empty")
  end.

Definition demo_env : env string :=
  Env json_hdr
    (tag_enc "j") (tag_dec "j") (tag_enc "x") (tag_dec "x") (tag_enc "t") (tag_dec "t")
    (tag_enc "y") (tag_dec "y") (tag_enc "p") (tag_dec "p").

(* four bytes of a number *)
Definition be4 (z : Z) : bytes :=
  [byte_of (z / 16777216); byte_of (z / 65536); byte_of (z / 256); byte_of z].

Definition demo_msg (id : Z) (s : string) : message string :=
  Msg id (Some [("Router-Type"%string, JStr "MESSAGE_ID")]) (Some s).
Definition demo_block (id : Z) (s : string) : bytes :=
  match PackWithMarshaller demo_env (demo_msg id s) None with Ok b => b | _ => [] end.

(* an id-routed and two URL-routed messages *)
Definition id_block : bytes := demo_block 5 "a".
Definition url_block_of (u : string) : bytes :=
  match MessagePack demo_env (NewURLPatternMessage u (Some "b"%string)) (Some (JsonMarshaller demo_env)) with Ok b => b | _ => [] end.
Definition url_block : bytes := url_block_of "/x/".
Definition url_block2 : bytes := url_block_of "/y/".

(* the first block of a pipelined batch *)
Definition pipe_block (marker : string) (s : string) : bytes :=
  match PackWithMarshaller demo_env (Msg 9 (Some [("[tcpx-buffer-in-serial]"%string, JStr marker)]) (Some s)) None with Ok b => b | _ => [] end.
