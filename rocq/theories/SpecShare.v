(* The statements of C129: which connection a context belongs to, and which histories differ only in
   the context a call was made on. *)
From Verif Require Export ShareModel.

(* for every context, in the order they were made: its connection, and whether it is a message's copy *)
Fixpoint contexts (h : list sop) : list (nat * bool) :=
  match h with
  | [] => []
  | SAccept :: p => contexts p ++ [(List.length (filter (fun o => match o with SAccept => true | _ => false end) p), false)]
  | SMessage i :: p => match nth_error (contexts p) i with Some (c, _) => contexts p ++ [(c, true)] | None => contexts p end
  | _ :: p => contexts p
  end.
Definition belongs (h : list sop) (i c : nat) : Prop := exists b, nth_error (contexts h) i = Some (c, b).
Definition is_copy (h : list sop) (i c : nat) : Prop := nth_error (contexts h) i = Some (c, true).

(* the same call on contexts of the same connection; stores per request are made on the same context,
   or both on copies *)
Inductive alike (h h' : list sop) : sop -> sop -> Prop :=
| al_same o : match o with SWithPool _ | SNewPool | SAccept => True | _ => False end -> alike h h' o o
| al_message i i' c : belongs h i c -> belongs h' i' c -> alike h h' (SMessage i) (SMessage i')
| al_online i i' c u : belongs h i c -> belongs h' i' c -> alike h h' (SOnline i u) (SOnline i' u)
| al_offline i i' c : belongs h i c -> belongs h' i' c -> alike h h' (SOffline i) (SOffline i')
| al_close i i' c : belongs h i c -> belongs h' i' c -> alike h h' (SClose i) (SClose i')
| al_conn i i' c k v : belongs h i c -> belongs h' i' c -> alike h h' (SSetConn i k v) (SSetConn i' k v)
| al_req i i' c k v : is_copy h i c -> is_copy h' i' c -> alike h h' (SSetReq i k v) (SSetReq i' k v).

Inductive alike_all : list sop -> list sop -> Prop :=
| aa_nil : alike_all [] []
| aa_cons h h' o o' : alike_all h h' -> alike h h' o o' -> alike_all (o :: h) (o' :: h').

(* the calls as the model with one record per connection has them *)
Definition on_conn (h : list sop) (i : nat) (f : nat -> pop) : list pop :=
  match nth_error (contexts h) i with Some (c, _) => [f c] | None => [] end.
Definition presence1 (h : list sop) (o : sop) : list pop :=
  match o with
  | SWithPool b => [PWithPool b]
  | SNewPool => [PNewPool]
  | SAccept => [PAccept]
  | SMessage _ => []
  | SOnline i u => on_conn h i (fun c => POnline c u)
  | SOffline i => on_conn h i POffline
  | SClose i => on_conn h i PClose
  | SSetConn _ _ _ => []
  | SSetReq i k v =>
      match nth_error (contexts h) i with
      | Some (c, true) => if keqb k k_username then [PStoreName c v] else []
      | _ => []
      end
  end.
Fixpoint presence (h : list sop) : list pop :=
  match h with [] => [] | o :: p => presence1 p o ++ presence p end.
