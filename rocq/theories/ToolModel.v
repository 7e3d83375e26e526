(* Model of the programs that come with the library to help writers of clients in other languages:
   the stream checker all-language-clients/main.go:32-86 and the programs of
   examples/modules/pack-detail (<format>/encode/main.go, <format>/decode/main.go), which write out
   and take apart a message by hand.  No proofs in this file. *)
From Verif Require Export WireModel.

Section Tools.
  Context {V : Type} (E : env V).

  (* the five user values that requests are decoded into, main.go:46-59 *)
  Record users := Users { u_json : V; u_xml : V; u_toml : V; u_yaml : V; u_proto : V }.

  (* what the caller of the HTTP service gets.  A panic in the handler is recovered by net/http,
     which closes the connection: no answer. *)
  Inductive answer := Answers (status : Z) (ms : option (message V)) | NoAnswer.

  (* main.go:60-74, the switch *)
  Definition user_for (u : users) (name : string) : option V :=
    if String.eqb name "json" then Some (u_json u)
    else if String.eqb name "xml" then Some (u_xml u)
    else if String.eqb name "toml" || String.eqb name "tml" then Some (u_toml u)
    else if String.eqb name "yaml" || String.eqb name "yml" then Some (u_yaml u)
    else if String.eqb name "protobuf" || String.eqb name "proto" then Some (u_proto u)
    else None.

  (* main.go:30-81, the handler.  [param] is what c.Bind decoded from the request's body, None when
     it failed.  The error texts are left out, and the encoding of the answer: message, header and
     user always have a JSON encoding. *)
  Definition stream_check (u : users) (param : option (gslice * string)) : answer :=
    match param with
    | None => Answers 400 None                                                       (* 42-46 *)
    | Some (stream, name) =>
        match user_for u name with
        | None => Answers 400 None                                                   (* 71-73 *)
        | Some user =>
            match UnpackWithMarshallerName E stream (Some user) name with            (* 75 *)
            | Ok m => Answers 200 (Some m)                                           (* 80 *)
            | Err _ => Answers 400 None                                              (* 76-79 *)
            | Panic => NoAnswer
            end
        end
    end.

  (* encoding/json decodes a []byte from base64 into make([]byte, DecodedLen(len(text))), cut to the
     bytes found: [spare] zero bytes are left behind them.  Padding leaves up to two, each newline in
     the text more. *)
  Definition json_slice (b : bytes) (spare : nat) : gslice := GS (b ++ repeat (byte_of 0) spare) (List.length b).

  (* pack-detail/json/encode/main.go:10-59 and the same for the other formats, as a function of what
     the program has as constants; [enc] is the format's encoder.  messageID is an int. *)
  Definition detail_encode (enc : V -> res bytes) (messageID : Z) (hdr : header) (payload : option V) : res bytes :=
    match hmarshal (e_hdr E) hdr with
    | Ok headerBuf =>
        match match payload with None => Ok [] | Some v => enc v end with
        | Ok bodyBuf =>
            let messageIDBuf := put_uint32 (to_uint32 messageID) in
            let headerLengthBuf := put_uint32 (to_uint32 (blen headerBuf)) in
            let bodyLengthBuf := put_uint32 (to_uint32 (blen bodyBuf)) in
            let content := messageIDBuf ++ headerLengthBuf ++ bodyLengthBuf ++ headerBuf ++ bodyBuf in
            let lengthBuf := put_uint32 (to_uint32 (blen content)) in
            Ok (lengthBuf ++ content)
        | _ => Panic                                 (* panic(e) *)
        end
    | _ => Panic
    end.

  (* pack-detail/json/decode/main.go:14-31: the four numbers, header and body as printed.  The errors
     of the two decoders are dropped: the variables then keep their zero value (a decoder may also
     leave part of the value behind; not represented). *)
  Record detail := Detail { d_length : Z; d_id : Z; d_headerLength : Z; d_bodyLength : Z; d_header : header; d_body : V }.
  Definition detail_decode (dec : bytes -> option V -> res V) (zero : V) (buf : gslice) : res detail :=
    s04 <- gsub buf 0 4 ;; length <- uint32_of s04 ;;
    s48 <- gsub buf 4 8 ;; messageID <- uint32_of s48 ;;
    s812 <- gsub buf 8 12 ;; headerLength <- uint32_of s812 ;;
    s1216 <- gsub buf 12 16 ;; bodyLength <- uint32_of s1216 ;;
    sh <- gsub buf 16 (to_uint32 (16 + headerLength)) ;;
    h <- match hunmarshal (e_hdr E) (gbytes sh) with Ok h => Ok h | Err _ => Ok None | Panic => Panic end ;;
    sb <- gsub buf (to_uint32 (16 + headerLength)) (to_uint32 (to_uint32 (16 + headerLength) + bodyLength)) ;;
    v <- match dec (gbytes sb) (Some zero) with Ok v => Ok v | Err _ => Ok zero | Panic => Panic end ;;
    Ok (Detail length messageID headerLength bodyLength h v).
End Tools.
Arguments Answers {V}. Arguments NoAnswer {V}. Arguments Users {V}.
