(* RFC 4648, section 4, from its words: the bits of the bytes, in groups of six. *)
From Verif Require Export WorldModel SpecReader SpecServer SpecHeader.

(* bit number i of z, and the w lowest bits of z, highest first *)
Definition bit (z : Z) (i : nat) : bool := Z.odd (z / 2 ^ Z.of_nat i).
Definition bits (w : nat) (z : Z) : list bool := map (bit z) (rev (seq 0 w)).

(* e is the base64 text of b: characters of the alphabet, each standing for six bits, which are the
   bits of b and fewer than six zeros; then '=' until the length is a multiple of four *)
Definition rfc4648 (b e : bytes) : Prop :=
  exists idx pad fill,
    e = map (fun i => nth i (list_ascii_of_string "ABCDEFGHIJKLMNOPQRSTUVWXYZabcdefghijklmnopqrstuvwxyz0123456789+/") "="%char) idx ++ repeat "="%char pad /\
    Forall (fun i => (i < 64)%nat) idx /\
    flat_map (fun i => bits 6 (Z.of_nat i)) idx = flat_map (fun c => bits 8 (code c)) b ++ repeat false fill /\
    (fill < 6)%nat /\ (pad < 3)%nat /\ exists n, List.length e = (4 * n)%nat.

(* what string(v) gives for a byte slice; nil has no bytes *)
Definition as_line (v : option bytes) : bytes := match v with Some b => b | None => [] end.
