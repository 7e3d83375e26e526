(* What a request to the stream checker looks like, in any client's hand. *)
From Verif Require Export PostModel SpecTool SpecWorld SpecProto.

(* a JSON object with these members, in this order *)
Definition object_text (m : list (string * jv)) : bytes :=
  cLB :: join_comma (map (fun kv => enc_string (fst kv) ++ cCL :: enc (snd kv)) m) ++ [cRB].

(* the key is the name, in letters of either case *)
Definition spells (name key : string) : Prop :=
  Forall2 (fun c d => code d = code c \/ 97 <= code c <= 122 /\ code d = code c - 32) (str_bytes name) (str_bytes key).

(* every member of that name has this value, and there is one *)
Definition only_value (name : string) (m : list (string * jv)) (v : jv) : Prop :=
  (exists k, In (k, v) m /\ spells name k) /\ forall k v', In (k, v') m -> spells name k -> v' = v.

(* what JSON allows between tokens (RFC 8259, section 2) *)
Definition blank (b : bytes) : Prop := Forall (fun c => In (code c) [32; 9; 10; 13]) b.

(* a key of any bytes counts as the name: letters of either case, and the long s (U+017F, bytes 197 191) for an s *)
Inductive counts_as : bytes -> bytes -> Prop :=
| counts_nil : counts_as [] []
| counts_letter c d n k : code d = code c \/ 97 <= code c <= 122 /\ code d = code c - 32 -> counts_as n k -> counts_as (c :: n) (d :: k)
| counts_long c d e n k : code c = 115 -> code d = 197 -> code e = 191 -> counts_as n k -> counts_as (c :: n) (d :: e :: k).
