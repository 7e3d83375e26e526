(* The protobuf encoding of a message with one string field, from the words of the encoding guide, and
   Unicode's UTF-8.  No proofs in this file. *)
From Verif Require Export ProtoModel.

(* UTF-8 of a Unicode scalar value *)
Definition scalar (n : Z) : Prop := 0 <= n < 1114112 /\ ~ (55296 <= n < 57344).
Definition utf8_of (n : Z) : bytes :=
  if n <? 128 then [byte_of n]
  else if n <? 2048 then [byte_of (192 + n / 64); byte_of (128 + n mod 64)]
  else if n <? 65536 then [byte_of (224 + n / 4096); byte_of (128 + n / 64 mod 64); byte_of (128 + n mod 64)]
  else [byte_of (240 + n / 262144); byte_of (128 + n / 4096 mod 64); byte_of (128 + n / 64 mod 64); byte_of (128 + n mod 64)].
Definition utf8_text (b : bytes) : Prop := exists cs, Forall scalar cs /\ b = flat_map utf8_of cs.

(* a varint: base 128, lowest digit first, the high bit set in all bytes but the last; at most ten bytes
   and 64 bits *)
Definition base128 (bs : bytes) : Z := fold_right (fun c a => code c mod 128 + 128 * a) 0 bs.
Definition varint (v : Z) (bs : bytes) : Prop :=
  0 <= v < 2 ^ 64 /\ v = base128 bs /\ (List.length bs <= 10)%nat /\
  exists l z, bs = l ++ [z] /\ Forall (fun c => 128 <= code c) l /\ code z < 128.
(* the shortest one *)
Definition shortest (v : Z) (bs : bytes) : Prop := varint v bs /\ (v = 0 -> List.length bs = 1%nat) /\ (v <> 0 -> 128 ^ (Z.of_nat (List.length bs) - 1) <= v).

(* the bytes of a value of field number n with wire type t; a group ends with its own number *)
Inductive value : Z -> Z -> bytes -> Prop :=
  | v_varint n x v : varint x v -> value n 0 v
  | v_fixed64 n v : List.length v = 8%nat -> value n 1 v
  | v_bytes n l p : varint (blen p) l -> value n 2 (l ++ p)
  | v_fixed32 n v : List.length v = 4%nat -> value n 5 v
  | v_group n g e : items g -> varint (8 * n + 4) e -> value n 3 (g ++ e)
with items : bytes -> Prop :=
  | i_nil : items []
  | i_cons n t tag v rest : 1 <= n < 2 ^ 31 -> 0 <= t < 8 -> varint (8 * n + t) tag -> value n t v -> items rest -> items (tag ++ v ++ rest).

(* b is read as m: the last text counts, what is not field 1 as a string is kept, with a shortest tag *)
Inductive reads_as : bytes -> pbmsg -> Prop :=
  | r_nil : reads_as [] (PbMsg [] [])
  | r_text b m tag l t : reads_as b m -> varint 10 tag -> varint (blen t) l -> utf8_text t -> reads_as (b ++ tag ++ l ++ t) (PbMsg t (pb_rest m))
  | r_other b m n t tag v stag : reads_as b m -> 1 <= n < 2 ^ 29 -> 0 <= t < 8 -> ~ (n = 1 /\ t = 2) -> varint (8 * n + t) tag -> value n t v ->
      shortest (8 * n + t) stag -> reads_as (b ++ tag ++ v) (PbMsg (pb_text m) (pb_rest m ++ stag ++ v)).
