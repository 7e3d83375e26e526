(* What C133 means: the bytes of a message, and what a receiver of a stream is given.  No proofs in
   this file. *)
From Verif Require Export PyModel SpecReader SpecWire.

(* the bytes the client's serializer makes of a body, and the body it makes of bytes *)
Definition writes {H B} (E : pyenv H B) (s : string) (b : B) (bs : bytes) : Prop :=
  (s = "json"%string /\ y_dumps E b = Some bs) \/ (s = "protobuf"%string /\ y_ser E b = Some bs).
Definition reads {H B} (E : pyenv H B) (s : string) (bs : bytes) (b : B) : Prop :=
  (s = "json"%string /\ y_loads E bs = Some b) \/ (s = "protobuf"%string /\ y_parse E bs = Some b).

(* a concrete client: headers are given as their bytes (json.dumps of them), bodies are lists of decimal
   digits in json, arbitrary bytes in protobuf; json.loads refuses no digits at all *)
Definition is_digit (c : ascii) : bool := (48 <=? code c) && (code c <=? 57).
Definition digits_env : pyenv bytes bytes :=
  PyEnv Some (fun b => if negb (List.length b =? 0)%nat && forallb is_digit b then Some b else None)
    (fun b => if negb (List.length b =? 0)%nat && forallb is_digit b then Some b else None) Some Some.
