(* Messages the server itself asks for (heartbeats, authentication): what it takes for them to
   reach the handler installed for them. *)
From Verif Require Export SpecEnd.

(* the call asks clients for messages with this id and installs f for them *)
Inductive asks_for (id : Z) : op -> hdl -> Prop :=
| asks_beats thr : asks_for id (OBeat true thr id) Beat
| asks_auth thr f : asks_for id (OAuth true thr id f) f.

(* the functions a call hands over *)
Definition given (o : op) : list hdl :=
  match o with
  | OUse _ f => [f]
  | OGlobal l => l
  | OAdd _ ms f => f :: ms
  | OAny _ l => l
  | ORewrite _ f => [f]
  | OAuth _ _ _ f => [f]
  | OOnMessage (Some f) => [f]
  | _ => []
  end.

(* a function that neither aborts the chain nor panics *)
Definition steady (behave : hdl -> list act) (f : hdl) : Prop := ~ In AAbort (behave f) /\ ~ In APanic (behave f).

(* no function handed over for anything but messages with this id has effect n *)
Definition only_for (behave : hdl -> list act) (q : list op) (id n : Z) : Prop :=
  forall o g, In o q -> In g (given o) -> (forall f, ~ asks_for id o f) -> ~ In (AEff n) (behave g).
