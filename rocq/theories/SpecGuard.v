(* What the middleware examples are expected to do. *)
From Verif Require Export SpecEnd GuardModel.
From Coq Require Export Sorted.

(* the stream's header region decodes to a header with the client's key *)
Definition has_key (hc : hcodec) (bs : bytes) : Prop :=
  exists hd, hunmarshal hc (slice bs 16 (16 + Z.to_nat (signed (field bs 8)))) = Ok hd /\
    hget "Authorization" hd = Some (JStr "a client secret key").

(* the replies among what is seen: all effects but the two lines printed *)
Definition is_reply (n : Z) : bool := negb (n =? ePrintLogin) && negb (n =? ePrintAfter).
Definition replies (t : list ev) : list Z := flat_map (fun e => match e with EEff n => if is_reply n then [n] else [] | _ => [] end) t.

(* how many messages with id 3 arrived *)
Definition times_asked (l : list kev) : nat := List.length (filter (fun e => match e with KArrive id => id =? 3 | _ => false end) l).
