(* Model of a post to the stream checker of all-language-clients: what the Go client sends
   (all-language-clients/go/main.go:29-80 and its siblings) and what the service reads from any request's
   body (all-language-clients/main.go:14-44).  No proofs in this file.
   Transport by HTTP is not modelled: the body sent is the body read. *)
From Verif Require Export ToolModel WorldModel ProtoModel.

(* json.Marshal of go/main.go:29-32 Param: the fields in the order of the struct, a []byte as base64 *)
Definition param_json (stream : option bytes) (name : string) : bytes :=
  cLB :: enc_string "stream" ++ cCL :: (match stream with None => str_bytes "null" | Some b => cDQ :: b64_encode b ++ [cDQ] end) ++
  cCO :: enc_string "marshal_name" ++ cCL :: enc_string name ++ [cRB].

(* go/main.go:42-67 (and 83-104, 121-141, 158-178, 195-216): pack a user with message id 1, post it under the
   name of its format.  A failure panics. *)
Definition client_posts {V} (E : env V) (mar : marshaller V) (name : string) (user : V) : res bytes :=
  match PackxPack E mar 1 (Some user) [] with
  | Ok buf => Ok (param_json (Some buf) name)
  | _ => Panic
  end.

(* main.go:40-44 Param; the stream with the room the decoder left behind it *)
Record param := Param { p_stream : gslice; p_name : string }.

(* how encoding/json compares a key with the name of a field: letters of either case, and U+017F for s
   (both names have an s, neither has a k) *)
Definition lower (c : ascii) : ascii := if (65 <=? code c) && (code c <=? 90) then byte_of (code c + 32) else c.
Fixpoint fold_key (b : bytes) : bytes :=
  match b with
  | c :: r =>
      match r with
      | d :: r' => if (code c =? 197) && (code d =? 191) then "s"%char :: fold_key r' else lower c :: fold_key r
      | [] => [lower c]
      end
  | [] => []
  end.
Definition names_field (field key : string) : bool := bytes_eqb (fold_key (str_bytes key)) (str_bytes field).

(* one member of the object; None: Unmarshal reports an error (it goes on, but main.go:45-49 looks only at the
   error).  A null leaves a string alone and makes a slice nil.  base64 decodes into
   make([]byte, len/4*3).  Simplification: an array of numbers, which a []byte may also be read from, is
   an error here. *)
Definition read_member (p : param) (key : string) (v : jv) : option param :=
  if names_field "stream" key then
    match v with
    | JNull => Some (Param (json_slice [] 0) (p_name p))
    | JStr s =>
        match b64_decode (str_bytes s) with
        | Ok b => Some (Param (json_slice b (List.length (str_bytes s) / 4 * 3 - List.length b)) (p_name p))
        | _ => None
        end
    | _ => None
    end
  else if names_field "marshal_name" key then
    match v with
    | JNull => Some p
    | JStr s => Some (Param (p_stream p) s)
    | _ => None
    end
  else Some p.

(* the members of an object from the start of a key, in their order *)
Fixpoint read_members (fuel : nat) (b : bytes) (p : param) : option (param * bytes) :=
  match fuel with
  | O => None
  | S f =>
      match skip_ws b with
      | c :: r =>
          if Ascii.eqb c cDQ then
            match parse_str r with
            | Some (k, r1) =>
                match skip_ws r1 with
                | c1 :: r2 =>
                    if Ascii.eqb c1 cCL then
                      match parse_value f r2 with
                      | Some (v, r3) =>
                          match read_member p k v, skip_ws r3 with
                          | Some p', c3 :: r4 =>
                              if Ascii.eqb c3 cCO then read_members f r4 p'
                              else if Ascii.eqb c3 cRB then Some (p', r4)
                              else None
                          | _, _ => None
                          end
                      | None => None
                      end
                    else None
                | [] => None
                end
            | None => None
            end
          else None
      | [] => None
      end
  end.

(* main.go:19-25 Bind into the zero Param, the body read without error; None = an error.  A null is no
   error and changes nothing. *)
Definition param0 : param := Param (json_slice [] 0) "".
Definition bind_param (body : bytes) : option (gslice * string) :=
  match skip_ws body with
  | c :: r =>
      if Ascii.eqb c cLB then
        match match skip_ws r with
              | c2 :: r2 => if Ascii.eqb c2 cRB then Some (param0, r2) else read_members (List.length body) (c2 :: r2) param0
              | [] => None
              end with
        | Some (p, rest) => match skip_ws rest with [] => Some (p_stream p, p_name p) | _ => None end
        | None => None
        end
      else
        match strip (str_bytes "null") (c :: r) with
        | Some rest => match skip_ws rest with [] => Some (p_stream param0, p_name param0) | _ => None end
        | None => None
        end
  | [] => None
  end.

(* main.go:34-88: what the service answers to a request's body *)
Definition serves_post {V} (E : env V) (u : users) (body : bytes) : answer := stream_check E u (bind_param body).

(* go/main.go:42-80 with model/user.pb.go: the service's user for every format is an empty message here, as only
   the name "protobuf" is posted *)
Definition user_env : env pbmsg :=
  let no := fun _ => Err (EMsg "unused") in let no2 := fun _ _ => Err (EMsg "unused") in
  Env json_hdr no no2 no no2 no no2 no no2 pb_marshal (fun b d => match d with Some _ => pb_unmarshal b | None => Err (EMsg "unused") end).
Definition no_user : pbmsg := PbMsg [] [].
Definition empty_users : users := Users no_user no_user no_user no_user no_user.
