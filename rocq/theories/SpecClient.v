(* Independent vocabulary for the client-side properties. *)
From Verif Require Export SpecWire SpecHeader.

(* A call of PipeJSON as the documentation describes it: id, value, id, value, ... *)
Inductive pairing {V A} (is_id : Z -> A -> Prop) (is_val : option V -> A -> Prop)
  : list (Z * option V) -> list A -> Prop :=
| pair_nil : pairing is_id is_val [] []
| pair_cons z v a b ps l : is_id z a -> is_val v b -> pairing is_id is_val ps l ->
    pairing is_id is_val ((z, v) :: ps) (a :: b :: l).

(* [b] is the wire form of (id, header, json value) *)
Definition json_block {V} (E : env V) (h : header) (p : Z * option V) (b : bytes) : Prop :=
  exists hb bb, hmarshal (e_hdr E) h = Ok hb /\ body_encoding E None (snd p) bb /\
    blen b = 16 + blen hb + blen bb /\ (12 + blen hb + blen bb < 2 ^ 32 -> frame_layout (fst p) hb bb b).

(* the io.Writer contract: n <= len(p), and n < len(p) only together with an error *)
Definition writer_contract (buf : bytes) (n : nat) (e : option gerr) : Prop :=
  (n <= List.length buf)%nat /\ ((n < List.length buf)%nat -> e <> None).
