(* What a configuration should mean, read off the list of API calls alone (the newest first):
   no anchor indexes, no windows, no maps. *)
From Verif Require Export MuxModel.

(* is the key Use'd and not yet UnUse'd *)
Fixpoint in_use (k : string) (h : list op) : bool :=
  match h with
  | [] => false
  | OUse k' _ :: p => if String.eqb k k' then true else in_use k p
  | OUnUse k' :: p => if String.eqb k k' then false else in_use k p
  | _ :: p => in_use k p
  end.

(* has a UnUse of the key taken effect *)
Fixpoint ever_unused (k : string) (h : list op) : bool :=
  match h with
  | [] => false
  | OUnUse k' :: p => (String.eqb k k' && in_use k p) || ever_unused k p
  | _ :: p => ever_unused k p
  end.

(* is there a call UnUse(k) *)
Definition unuse_called (k : string) (h : list op) : bool :=
  existsb (fun o => match o with OUnUse k' => String.eqb k k' | _ => false end) h.

(* the keys ever Use'd, in order of first Use, and the function given first *)
Fixpoint first_uses (h : list op) : list (string * hdl) :=
  match h with
  | [] => []
  | OUse k f :: p => if ahas k (first_uses p) then first_uses p else first_uses p ++ [(k, f)]
  | _ :: p => first_uses p
  end.

(* the function given to the newest Use(k, f) that took effect *)
Fixpoint latest_use (k : string) (h : list op) : option hdl :=
  match h with
  | [] => None
  | OUse k' f :: p => if String.eqb k k' && negb (in_use k p) then Some f else latest_use k p
  | _ :: p => latest_use k p
  end.

Fixpoint globals (h : list op) : list hdl :=
  match h with
  | [] => []
  | OGlobal l :: p => globals p ++ l
  | _ :: p => globals p
  end.

(* the heartbeat id and whether heartbeats go through middleware; the auth id likewise *)
Fixpoint beat_id (h : list op) : Z :=
  match h with
  | [] => 0
  | OBeat _ _ id :: _ => id
  | ORewrite id _ :: _ => id
  | _ :: p => beat_id p
  end.
Fixpoint beat_through (h : list op) : bool :=
  match h with
  | [] => false
  | OBeat _ thr _ :: _ => thr
  | _ :: p => beat_through p
  end.
Fixpoint auth_id (h : list op) : Z :=
  match h with
  | [] => 0
  | OAuth _ _ id _ :: _ => id
  | _ :: p => auth_id p
  end.
Fixpoint auth_through (h : list op) : bool :=
  match h with
  | [] => false
  | OAuth _ thr _ _ :: _ => thr
  | _ :: p => auth_through p
  end.
Fixpoint onmessage (h : list op) : option hdl :=
  match h with
  | [] => None
  | OOnMessage f :: _ => f
  | _ :: p => onmessage p
  end.

(* the own middlewares of an id: those of the first AddHandler call for it that had any *)
Fixpoint own (id : Z) (h : list op) : list hdl :=
  match h with
  | [] => []
  | OAdd i ms _ :: p =>
      match own id p with
      | [] => if id =? i then ms else []
      | l => l
      end
  | _ :: p => own id p
  end.

(* A registration in force: the handler, the calls made before it, the calls made after it. *)
Record reg := Reg { r_fn : hdl; r_before : list op; r_after : list op }.
Definition later (o : op) (r : option reg) : option reg :=
  option_map (fun r => Reg (r_fn r) (r_before r) (o :: r_after r)) r.

(* The registration serving an id.  A registration call is refused while another one is in
   force; RewriteHeartBeatHandler first ends the one of the current heartbeat id. *)
Fixpoint serving (id : Z) (h : list op) : option reg :=
  match h with
  | [] => None
  | o :: p =>
      let old := later o (serving id p) in
      let add f := match old with Some r => Some r | None => Some (Reg f p []) end in
      match o with
      | OAdd i ms f =>
          if id =? i then
            match ms, own id p with
            | _ :: _, _ :: _ => old         (* refused: the id already has own middlewares *)
            | _, _ => add f
            end
          else old
      | OBeat true _ i => if id =? i then add Beat else old
      | OAuth true _ i f => if id =? i then add f else old
      | ORewrite i f =>
          if id =? beat_id p then if id =? i then Some (Reg f p []) else None
          else if id =? i then add f else old
      | _ => old
      end
  end.

(* the handlers of a url pattern and its (first) registration *)
Fixpoint url_handlers (u : string) (h : list op) : list hdl :=
  match h with
  | [] => []
  | OAny u' l :: p => url_handlers u p ++
      (if String.eqb u u' then if (1 <? List.length l)%nat then l ++ l else l else [])
  | _ :: p => url_handlers u p
  end.
Fixpoint url_serving (u : string) (h : list op) : option reg :=
  match h with
  | [] => None
  | o :: p =>
      match later o (url_serving u p), o with
      | Some r, _ => Some r
      | None, OAny u' (f :: _) => if String.eqb u u' then Some (Reg f p []) else None
      | None, _ => None
      end
  end.

(* Is a registration covered by a key: the claim ... *)
Definition covered (k : string) (r : reg) : bool := in_use k (r_before r).
(* ... and what the code does: a Use after an UnUse counts only once it has been UnUse'd *)
Definition effectively_covered (k : string) (r : reg) : bool :=
  in_use k (r_before r) && (negb (ever_unused k (r_before r)) || unuse_called k (r_after r)).

Definition covering (cov : string -> reg -> bool) (r : reg) (h : list op) : list hdl :=
  map snd (filter (fun kf => cov (fst kf) r) (first_uses h)).

(* the chain of a request for an id / a pattern, given the rule for coverage *)
Definition spec_plan (cov : string -> reg -> bool) (h : list op) (id : Z) : plan :=
  match serving id h with
  | None => Unrouted
  | Some r =>
      if (id =? beat_id h) && negb (beat_through h) then Direct (r_fn r)
      else if (id =? auth_id h) && negb (auth_through h) then Direct (r_fn r)
      else RunChain (globals h ++ covering cov r h ++ own id h ++ [r_fn r])
  end.
Definition spec_url_plan (cov : string -> reg -> bool) (h : list op) (u : string) : plan :=
  match url_serving u h with
  | None => Unrouted
  | Some r => RunChain (globals h ++ covering cov r h ++ url_handlers u h)
  end.

(* is the newest call refused (does it panic), given the calls before it *)
Definition refused (o : op) (p : list op) : bool :=
  match o with
  | OUse k _ => in_use k p
  | OUnUse k => negb (in_use k p)
  | OAdd id ms _ =>
      match ms, own id p with
      | _ :: _, _ :: _ => true
      | _, _ => match serving id p with Some _ => true | None => false end
      end
  | OAny u l =>
      match l with
      | [] => true
      | _ => match url_serving u p with Some _ => true | None => false end
      end
  | OBeat true _ id => match serving id p with Some _ => true | None => false end
  | OAuth true _ id _ => match serving id p with Some _ => true | None => false end
  | ORewrite id _ =>
      if id =? beat_id p then false else match serving id p with Some _ => true | None => false end
  | _ => false
  end.

(* no call of the history was refused *)
Fixpoint no_refusal (h : list op) : Prop :=
  match h with
  | [] => True
  | o :: p => refused o p = false /\ no_refusal p
  end.

(* no key is Use'd again after it has been UnUse'd *)
Fixpoint no_reuse (h : list op) : Prop :=
  match h with
  | [] => True
  | OUse k _ :: p => ever_unused k p = false /\ no_reuse p
  | _ :: p => no_reuse p
  end.

(* the heartbeat / auth ids that were configured at all *)
Fixpoint configured_beat (h : list op) : option Z :=
  match h with
  | [] => None
  | OBeat _ _ id :: _ => Some id
  | ORewrite id _ :: _ => Some id
  | _ :: p => configured_beat p
  end.
Fixpoint configured_auth (h : list op) : option Z :=
  match h with
  | [] => None
  | OAuth _ _ id _ :: _ => Some id
  | _ :: p => configured_auth p
  end.

Definition rewrites (o : op) : bool := match o with ORewrite _ _ => true | _ => false end.
