(* Who is online in the online-offline example, from the events alone (newest first). *)
From Verif Require Export PresModel SpecPool.

(* the messages that arrived, oldest first *)
Fixpoint msgs_of (h : list pres_ev) : list pres_job :=
  match h with
  | [] => []
  | NMsg c id login :: p => msgs_of p ++ [(c, id, login)]
  | _ :: p => msgs_of p
  end.
(* the messages handled and the ends of connections, newest first *)
Inductive deed := DDid (j : pres_job) | DGone (c : nat).
Fixpoint deeds (h : list pres_ev) : list deed :=
  match h with
  | [] => []
  | NRun i :: p => match nth_error (msgs_of p) i with Some j => DDid j :: deeds p | None => deeds p end
  | NGone c :: p => DGone c :: deeds p
  | _ :: p => deeds p
  end.
Definition deed_conn (d : deed) : nat := match d with DDid (c, _, _) => c | DGone c => c end.
(* a message that logs in or out; a login needs a name that can be decoded and is not empty *)
Definition matters (d : deed) : bool :=
  match d with
  | DDid (_, id, Some u) => (id =? 1)%Z && negb (String.eqb u "") || (id =? 3)%Z
  | DDid (_, id, None) => (id =? 3)%Z
  | DGone _ => true
  end.
(* the last thing that mattered for connection c was a login *)
Definition logged_in (ds : list deed) (c : nat) : bool :=
  match find (fun d => Nat.eqb (deed_conn d) c && matters d) ds with
  | Some (DDid (_, id, _)) => (id =? 1)%Z
  | _ => false
  end.
(* messages handled under name u are those of c, and c uses no other name *)
Definition own_name (ds : list deed) (c : nat) (u : string) : Prop :=
  forall d v, In (DDid (d, 1, Some v)) ds -> v <> EmptyString -> (d = c <-> v = u).

(* the message is a login that can be decoded, empty name or not *)
Definition login_msg (d : deed) : bool := match d with DDid (_, id, Some _) => (id =? 1)%Z | _ => false end.
(* everything that arrived has been handled *)
Definition all_handled (s : pres) : Prop := Forall (fun j => j = None) (pr_jobs s).
(* the messages of connection c, oldest first *)
Definition of_conn (c : nat) (js : list pres_job) : list pres_job := filter (fun j => Nat.eqb (fst (fst j)) c) js.
(* the messages of c have been handled in the order they arrived, all of them *)
Definition in_order (h : list pres_ev) (c : nat) : Prop :=
  map DDid (rev (of_conn c (msgs_of h))) = filter (fun d => match d with DDid (d, _, _) => Nat.eqb d c | DGone _ => false end) (deeds h).
