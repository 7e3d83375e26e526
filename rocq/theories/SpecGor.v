(* Lifetimes of goroutines. *)
From Verif Require Export GorModel.

(* a goroutine of this kind still runs for context c *)
Definition runs_for (w : gworld) (k : gkind) (c : nat) : Prop := In (G k c true) (gw_gors w).
(* only the program's own functions run for c any more *)
Definition gone (w : gworld) (c : nat) : Prop := forall k, runs_for w k c -> k = GHandler \/ k = GRaw.
Definition from_src (w : gworld) (c : nat) (s : gsrc) : Prop := exists k, nth_error (gw_ctxs w) c = Some k /\ gc_src k = s.

(* how many goroutines run *)
Definition live (w : gworld) : nat := List.length (filter g_live (gw_gors w)).
(* how many datagrams have arrived *)
Definition datagrams (os : list gop) : nat := List.length (filter (fun o => match o with GNew FromUdp => true | _ => false end) os).

(* the step neither closes a connection nor stops the server *)
Definition harmless (o : gop) : Prop :=
  match o with GClose _ => False | GStop _ => False | GEnd _ WDone => True | GEnd _ _ => False | _ => True end.
(* only goroutines ending because their connection is closed: no timer, no peer, no stopped server
   is needed *)
Definition only_ends (os : list gop) : Prop := forall o, In o os -> exists i, o = GEnd i WSock \/ o = GEnd i WRecv.

(* the reasons for which a goroutine closes its connection when it ends *)
Definition closes (k : gkind) (y : why) : Prop :=
  match k with
  | GReader | GRaw => True
  | GHandler => False
  | GBroadcast => y = WAll
  | GBeat => y = WAll \/ y = WStop \/ y = WTime
  | GAuth => y = WAll \/ y = WTime \/ y = WDeny
  end.

(* the server is stopped after these steps, oldest first *)
Definition stopped (os : list gop) : bool := fold_left (fun b o => match o with GStop _ => true | GStart => false | _ => b end) os false.
(* a Stop(true) of a server with signals has been among them *)
Definition all_signalled (signals : bool) (os : list gop) : Prop := signals = true /\ In (GStop true) os.
