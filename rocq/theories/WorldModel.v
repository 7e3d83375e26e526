(* Model of the helloworld example, examples/modules/helloworld/server/server.go:9-17 and
   client/main.go:11-32, with what encoding/json and encoding/base64 do for a []byte (neither is
   part of /repo; see the comments).  No proofs in this file. *)
From Verif Require Export JsonModel BindModel ServerModel.

(* encoding/base64 StdEncoding *)
Definition b64_alphabet : bytes := list_ascii_of_string "ABCDEFGHIJKLMNOPQRSTUVWXYZabcdefghijklmnopqrstuvwxyz0123456789+/".
Definition b64_char (i : Z) : ascii := nth (Z.to_nat i) b64_alphabet "="%char.
Definition b64_val (c : ascii) : option Z :=
  match find (fun i => Ascii.eqb (b64_char (Z.of_nat i)) c) (seq 0 64) with Some i => Some (Z.of_nat i) | None => None end.

(* Encode: three bytes at a time, then what is left *)
Fixpoint b64_encode (src : bytes) : bytes :=
  match src with
  | a :: b :: c :: r =>
      let val := code a * 65536 + code b * 256 + code c in
      b64_char (val / 262144 mod 64) :: b64_char (val / 4096 mod 64) :: b64_char (val / 64 mod 64) :: b64_char (val mod 64) :: b64_encode r
  | [a; b] =>
      let val := code a * 65536 + code b * 256 in
      [b64_char (val / 262144 mod 64); b64_char (val / 4096 mod 64); b64_char (val / 64 mod 64); "="%char]
  | [a] =>
      let val := code a * 65536 in
      [b64_char (val / 262144 mod 64); b64_char (val / 4096 mod 64); "="%char; "="%char]
  | [] => []
  end.

(* Decode: line ends are skipped; a quantum of four characters gives three bytes, the bits left
   over in a padded one are not looked at; nothing may follow padding.  [q]: the quantum so far *)
Definition is_nl (c : ascii) : bool := Ascii.eqb c "010"%char || Ascii.eqb c "013"%char.
Fixpoint skip_nl (b : bytes) : bytes := match b with c :: r => if is_nl c then skip_nl r else b | [] => [] end.
Definition quantum (x y z w : Z) : bytes :=
  let val := x * 262144 + y * 4096 + z * 64 + w in [byte_of (val / 65536); byte_of (val / 256); byte_of val].
Definition b64_pad (r : bytes) (q : list Z) : res bytes :=
  match q with
  | [x; y] =>
      match skip_nl r with
      | c :: r' => if Ascii.eqb c "="%char then match skip_nl r' with [] => Ok (firstn 1 (quantum x y 0 0)) | _ => Err (EMsg "illegal base64 data") end
                   else Err (EMsg "illegal base64 data")
      | [] => Err (EMsg "illegal base64 data")
      end
  | [x; y; z] => match skip_nl r with [] => Ok (firstn 2 (quantum x y z 0)) | _ => Err (EMsg "illegal base64 data") end
  | _ => Err (EMsg "illegal base64 data")
  end.
Fixpoint b64_go (src : bytes) (q : list Z) : res bytes :=
  match src with
  | [] => match q with [] => Ok [] | _ => Err (EMsg "illegal base64 data") end
  | c :: r =>
      match b64_val c with
      | Some v =>
          match q with
          | [x; y; z] => rest <- b64_go r [] ;; Ok (quantum x y z v ++ rest)
          | _ => b64_go r (q ++ [v])
          end
      | None => if is_nl c then b64_go r q else if Ascii.eqb c "="%char then b64_pad r q else Err (EMsg "illegal base64 data")
      end
  end.
Definition b64_decode (src : bytes) : res bytes := b64_go src [].

(* json.Marshal of a []byte (None = nil), json.Unmarshal into a *[]byte.  Simplification: an array
   of numbers, which Unmarshal also accepts, is an error here *)
Definition json_of_slice (v : option bytes) : res bytes :=
  Ok match v with None => str_bytes "null" | Some b => cDQ :: b64_encode b ++ [cDQ] end.
Definition slice_of_json (src : bytes) (dest : option (option bytes)) : res (option bytes) :=
  match dest with
  | None => Err (EMsg "json: Unmarshal(nil)")
  | Some _ =>
      match parse_value (S (List.length src)) src with
      | Some (v, r) =>
          match skip_ws r, v with
          | [], JNull => Ok None
          | [], JStr s => b <- b64_decode (str_bytes s) ;; Ok (Some b)
          | _, _ => Err (EMsg "json: error")
          end
      | None => Err (EMsg "json: syntax error")
      end
  end.

(* the other formats do not occur *)
Definition slice_env : env (option bytes) :=
  let no := fun _ => Err (EMsg "unused") in let no2 := fun _ _ => Err (EMsg "unused") in
  Env json_hdr json_of_slice slice_of_json no no2 no no2 no no2 no no2.

(* client/main.go:17-22, for any slice in the place of "hello world" *)
Definition world_packs (message : option bytes) : res bytes :=
  PackWithMarshaller slice_env (Msg 1 None (Some message)) None.

Definition slice_text (v : option bytes) : bytes := match v with Some b => b | None => [] end.
(* server.go:11-15: the line printed; None = Bind panics and nothing is printed.  The variable stays
   nil when Bind fails (the error is not looked at); srv.Packx has JsonMarshaller (10) *)
Definition world_line (b : bytes) : option bytes :=
  match PackxUnpack slice_env (JsonMarshaller slice_env) (of_bytes b) (Some None) with
  | Ok m => Some (match msg_body m with Some v => slice_text v | None => [] end)
  | Err _ => Some []
  | Panic => None
  end.
(* one connection (no limit is set: tcpx.go:50): for every message dispatched, in the order
   of arrival, what its handler prints; the handlers run concurrently *)
Definition world_prints (r : reader) : list (option bytes) :=
  flat_map (fun e => match e with SDispatch b => [world_line b] | SPipe l _ => map world_line l | _ => [] end) (fst (serve_reads json_hdr 0 r)).
