(* Independent vocabulary for the wire-format properties.  Nothing here refers to
   how the library computes anything. *)
From Verif Require Export Base.

(* the unsigned number whose big-endian digits are [bs] *)
Definition be_val (bs : bytes) : Z := fold_left (fun a b => a * 256 + code b) bs 0.

(* bytes lo, lo+1, ..., hi-1 of a stream *)
Definition slice (bs : bytes) (lo hi : nat) : bytes := firstn (hi - lo) (skipn lo bs).

(* the four length/id fields of a stream, as unsigned numbers *)
Definition field (bs : bytes) (off : nat) : Z := be_val (slice bs off (off + 4)).

(* two's complement reading of an unsigned 32-bit field *)
Definition signed (u : Z) : Z := if u <? 2 ^ 31 then u else u - 2 ^ 32.

(* The documented layout (packx.go:281-286, README "pack detail"). *)
Definition frame_layout (id : Z) (hdr body block : bytes) : Prop :=
  exists l i h b : bytes,
    List.length l = 4%nat /\ List.length i = 4%nat /\ List.length h = 4%nat /\ List.length b = 4%nat /\
    block = l ++ i ++ h ++ b ++ hdr ++ body /\
    be_val l = blen block - 4 /\
    be_val i = id mod 2 ^ 32 /\
    be_val h = blen hdr /\
    be_val b = blen body.

(* [p] is a prefix of [q] *)
Definition prefix_of (p q : bytes) : Prop := exists r, q = p ++ r.

(* value at [k] after applying maps in order, the last one mentioning k winning *)
Fixpoint last_mention {V} (k : string) (ms : list (list (string * V))) : option V :=
  match ms with
  | [] => None
  | m :: rest => match last_mention k rest with
                 | Some v => Some v
                 | None => aget k m
                 end
  end.
