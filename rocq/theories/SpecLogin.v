(* The url-pattern example from its events alone (newest first): which messages came, which were
   handled, which are logins. *)
From Verif Require Export LoginModel SpecEnd SpecReader.

(* the contexts made, in order: a connection's own, or a message (with its connection) *)
Fixpoint made (h : list lev_) : list (option (nat * gslice)) :=
  match h with
  | [] => []
  | GAccept :: p => made p ++ [None]
  | GRead k s :: p => made p ++ [Some (k, s)]
  | GRun _ :: p => made p
  end.
(* the contexts of the messages that came, in order *)
Fixpoint came (h : list lev_) : list nat :=
  match h with
  | [] => []
  | GRead k s :: p => came p ++ [List.length (made p)]
  | _ :: p => came p
  end.
(* the contexts of the messages handled, newest first *)
Fixpoint handled_ (h : list lev_) : list nat :=
  match h with
  | [] => []
  | GRun i :: p => match nth_error (came p) i with Some y => y :: handled_ p | None => handled_ p end
  | _ :: p => handled_ p
  end.

(* context y is that of a message s that came on connection k *)
Definition message_of (h : list lev_) (y k : nat) (s : gslice) : Prop := nth_error (made h) y = Some (Some (k, s)).
(* the buffers written on connection k *)
Definition written_on (h : list lev_) (s : lsrv) (k : nat) : list bytes :=
  map snd (filter (fun yb => match nth_error (made h) (fst yb) with Some (Some (k', _)) => Nat.eqb k' k | _ => false end) (lv_sent s)).
(* how many messages came on connection k *)
Definition messages_on (h : list lev_) (k : nat) : nat :=
  List.length (filter (fun e => match e with GRead k' _ => Nat.eqb k' k | _ => false end) h).

Section S.
  Context {V : Type} (E : env V) (zero token : V).
  (* a message that asks for the pattern /login/ *)
  Definition asks_login (s : gslice) : Prop :=
    exists id hd, is_message (e_hdr E) s id hd /\ asked_routing hd id = ByURL "/login/".
  (* a message of which the handler can decode the body *)
  Definition decodes (s : gslice) : Prop :=
    exists m, PackxUnpack E (JsonMarshaller E) s (Some zero) = Ok m.
  (* every message of connection k asks for a pattern *)
  Definition only_patterns (h : list lev_) (k : nat) : Prop :=
    forall s, In (GRead k s) h -> exists id hd, is_message (e_hdr E) s id hd /\ asked_type hd = "URL_PATTERN"%string.
  (* the answer: the token under the pattern /login/ *)
  Definition token_block (b : bytes) : Prop :=
    MessagePack E (NewURLPatternMessage "/login/" (Some token)) (Some (JsonMarshaller E)) = Ok b.
End S.
