(* Who can be reached in the chat, from the events alone (newest first). *)
From Verif Require Export ChatModel SpecPool.

(* the pool calls the events amount to: message 1 is a login, 3 a logout *)
Definition call_of (e : cev) : list pop :=
  match e with
  | HConnect => [PAccept]
  | HGone c => [PClose c]
  | HMsg c id login _ =>
      if (id =? 1)%Z then match login with Some u => [POnline c u] | None => [] end
      else if (id =? 3)%Z then [POffline c] else []
  | HFinish _ => []
  end.
Definition calls (h : list cev) : list pop := flat_map call_of h ++ [PWithPool true].

(* connection d is where u is to be found: the last to have logged in as u, nobody of that name
   logged out or left since, and it was never closed *)
Definition found_at (h : list cev) (u : string) (d : nat) : Prop :=
  last_online (calls h) 0 u = Some d /\ dropped_since (calls h) 0 u = false /\ was_closed (calls h) d = false.

(* the well-formed requests to send, oldest first: sender, message, to whom *)
Fixpoint sends_of (h : list cev) : list (nat * string * string) :=
  match h with
  | [] => []
  | HMsg c id _ (Some (m, u)) :: p => if (id =? 5)%Z then sends_of p ++ [(c, m, u)] else sends_of p
  | _ :: p => sends_of p
  end.
(* a request to send that cannot be decoded *)
Definition malformed (e : cev) : bool :=
  match e with HMsg _ id _ None => (id =? 5)%Z | _ => false end.
