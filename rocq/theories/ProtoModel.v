(* The three protobuf messages of the repository (all-language-clients/model/user.pb.go User,
   examples/sayHello/server/pb/sayHello.pb.go SayHelloRequest and SayHelloReponse): each has one string field
   with number 1, proto3, and keeps unknown fields (XXX_unrecognized).  Marshalling and unmarshalling are
   those of github.com/golang/protobuf v1.4.2 (go.mod) over google.golang.org/protobuf, which is not part
   of /repo: ProtobufMarshaller (marshaller.go:88-110) calls proto.Marshal and proto.Unmarshal.  No proofs in this file.
   Simplifications: a nil pointer is not represented; error texts are left out. *)
From Verif Require Export JsonModel BindModel ServerModel.

(* user.pb.go:23-28; the fields that carry no data are left out *)
Record pbmsg := PbMsg { pb_text : bytes; pb_rest : bytes }.

(* utf8.Valid: one character a time (the table of accepted second bytes is Go's acceptRanges) *)
Definition within (lo hi : Z) (c : ascii) : bool := (lo <=? code c) && (code c <=? hi).
Definition cont := within 128 191.
Fixpoint valid_utf8 (b : bytes) : bool :=
  match b with
  | [] => true
  | c0 :: r0 =>
      if within 0 127 c0 then valid_utf8 r0
      else match r0 with
      | c1 :: r1 =>
          if within 194 223 c0 then cont c1 && valid_utf8 r1
          else match r1 with
          | c2 :: r2 =>
              if within 224 239 c0 then
                within (if code c0 =? 224 then 160 else 128) (if code c0 =? 237 then 159 else 191) c1 && cont c2 && valid_utf8 r2
              else match r2 with
              | c3 :: r3 =>
                  within 240 244 c0 && within (if code c0 =? 240 then 144 else 128) (if code c0 =? 244 then 143 else 191) c1 &&
                  cont c2 && cont c3 && valid_utf8 r3
              | [] => false
              end
          | [] => false
          end
      | [] => false
      end
  end.

(* protowire.AppendVarint: seven bits at a time, the lowest first; a uint64 takes at most ten bytes *)
Fixpoint put_varint_aux (k : nat) (v : Z) : bytes :=
  match k with
  | O => [byte_of v]
  | S k' => if v <? 128 then [byte_of v] else byte_of (v mod 128 + 128) :: put_varint_aux k' (v / 128)
  end.
Definition put_varint := put_varint_aux 9.
(* protowire.ConsumeVarint: the tenth byte may only be 0 or 1 *)
Fixpoint get_varint_aux (k : nat) (b : bytes) : option (Z * bytes) :=
  match b with
  | [] => None
  | c :: r =>
      match k with
      | O => if code c <? 2 then Some (code c, r) else None
      | S k' => if code c <? 128 then Some (code c, r)
                else match get_varint_aux k' r with Some (x, r') => Some (code c - 128 + 128 * x, r') | None => None end
      end
  end.
Definition get_varint := get_varint_aux 9.
(* protowire.ConsumeBytes *)
Definition get_bytes (b : bytes) : option (bytes * bytes) :=
  match get_varint b with
  | Some (n, r) => if n <=? blen r then Some (firstn (Z.to_nat n) r, skipn (Z.to_nat n) r) else None
  | None => None
  end.
Definition drop (n : nat) (b : bytes) : option bytes := if (n <=? List.length b)%nat then Some (skipn n b) else None.

(* protowire.ConsumeFieldValue but for groups: the bytes behind the value *)
Definition skip_scalar (wt : Z) (b : bytes) : option bytes :=
  if wt =? 0 then match get_varint b with Some (_, r) => Some r | None => None end
  else if wt =? 1 then drop 8 b
  else if wt =? 2 then match get_bytes b with Some (_, r) => Some r | None => None end
  else if wt =? 5 then drop 4 b
  else None.
(* ... and inside groups: [open] has the numbers of those not ended yet, the innermost first.  The code
   recurses instead.  Every round takes a byte at least: the length of b is fuel enough. *)
Fixpoint skip_groups (fuel : nat) (open : list Z) (b : bytes) : option bytes :=
  match open with
  | [] => Some b
  | num :: open' =>
      match fuel with
      | O => None
      | S f =>
          match get_varint b with
          | None => None
          | Some (tag, r) =>
              if (tag / 8 <? 1) || (two31 - 1 <? tag / 8) then None                       (* ConsumeTag *)
              else if tag mod 8 =? 4 then if tag / 8 =? num then skip_groups f open' r else None
              else if tag mod 8 =? 3 then skip_groups f (tag / 8 :: open) r
              else match skip_scalar (tag mod 8) r with Some r' => skip_groups f open r' | None => None end
          end
      end
  end.
Definition skip_value (num wt : Z) (b : bytes) : option bytes :=
  if wt =? 3 then skip_groups (List.length b) [num] b else skip_scalar wt b.

(* MessageInfo.unmarshalPointer in impl: one field a round *)
Definition pb_bad {A} : res A := Err (EMsg "proto: cannot parse").
Fixpoint take_fields (fuel : nat) (m : pbmsg) (b : bytes) : res pbmsg :=
  match b with
  | [] => Ok m
  | _ =>
      match fuel with
      | O => pb_bad
      | S f =>
          match get_varint b with
          | None => pb_bad
          | Some (tag, r) =>
              if (tag / 8 <? 1) || (2 ^ 29 - 1 <? tag / 8) then pb_bad
              else if tag mod 8 =? 4 then pb_bad
              else if (tag / 8 =? 1) && (tag mod 8 =? 2) then
                match get_bytes r with
                | Some (v, r') => if valid_utf8 v then take_fields f (PbMsg v (pb_rest m)) r' else pb_bad
                | None => pb_bad
                end
              else match skip_value (tag / 8) (tag mod 8) r with
                | Some r' => take_fields f (PbMsg (pb_text m) (pb_rest m ++ put_varint tag ++ firstn (List.length r - List.length r') r)) r'
                | None => pb_bad
                end
          end
      end
  end.
(* proto.Unmarshal clears the message first *)
Definition pb_unmarshal (b : bytes) : res pbmsg := take_fields (List.length b) (PbMsg [] []) b.

(* proto.Marshal: tag 1<<3|2; an empty string is left out; unknown fields come last *)
Definition pb_marshal (m : pbmsg) : res bytes :=
  match pb_text m with
  | [] => Ok (pb_rest m)
  | t => if valid_utf8 t then Ok (byte_of 10 :: put_varint (blen t) ++ t ++ pb_rest m) else Err (EMsg "string field contains invalid UTF-8")
  end.
