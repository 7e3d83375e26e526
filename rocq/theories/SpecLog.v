(* What C108 says of logging. *)
From Verif Require Export LogModel.

(* the configuration calls a program made, oldest first *)
Inductive lcall := CMode (m : Z) | CFlags (f : Z).
Definition configured (cs : list lcall) : lg :=
  fold_left (fun l c => match c with CMode m => SetLogMode m l | CFlags f => SetLogFlags f l end) cs lg0.

(* the mode last set, DEBUG if none was *)
Definition last_mode (cs : list lcall) : Z :=
  fold_left (fun m c => match c with CMode m' => m' | CFlags _ => m end) cs DEBUG.

(* a line made of words *)
Definition words (s : string) (l : list string) : Prop := s = String.concat " " l.

(* the happenings whose text does not go through the logger *)
Definition bypasses (h : happening) : bool :=
  match h with HAcceptErr _ | HStop | HStart _ _ | HSignal _ | HExitPanic _ | HDefer _ | HDatagram _ | HDebug _ => true | _ => false end.

(* what is printed past the logger *)
Definition unlogged (stamp : string -> string) (h : happening) : list out :=
  match h with
  | HAcceptErr e => [Stderr (stamp e)]
  | HStop => [Stdout "graceful stop"]
  | HStart net addr => [Stdout ("graceful restart " ++ net ++ " server on " ++ addr)]
  | HSignal s => [Stdout ("receive signal: " ++ s); Stdout "prepare to stop server"]
  | HExitPanic e => [Stdout ("panic from " ++ e)]
  | HDefer e => [Stdout ("recover from " ++ e)]
  | HDatagram n => [Stdout n]
  | HDebug e => [Stdout e]
  | _ => []
  end.
(* and through it, line by line *)
Definition logged (h : happening) : list string :=
  match h with
  | HBeat ip st => ["recv '" ++ ip ++ "' heartbeat: " ++ st]
  | HPanic e => ["recover from panic " ++ e]
  | HListenPanic e st => ["recover from panic " ++ e; st]
  | HBeatPanic e => ["recover from : %v " ++ e]
  | HReadErr e | HRoute e => [e]
  | HAuthLate => ["connection auth time out, closed"]
  | HAuthFail => ["connection auth fail, closed"]
  | HHeader e => ["header decode err: %s " ++ e]
  | HStartErr e st => [e ++ st]
  | _ => []
  end.
