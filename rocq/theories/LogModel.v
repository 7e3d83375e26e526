(* Model of log.go and of the places where the library prints: log.go:19-58 and the print statements of
   tcpx.go, context.go and utils.go.  No proofs in this file.
   A value is given by its rendering with %v.  errorx.NewFromStringWithDepth, which puts file and line
   before the text (log.go:40), is a function `deco` from text to text.  log.Println, which writes to stderr with a
   timestamp, is a function `stamp`.  The fixed text between error and stack (tcpx.go:1200, 1206) is left out. *)
From Coq Require Export List String Ascii Bool ZArith.
Export ListNotations.
Open Scope string_scope.

Definition DEBUG : Z := 1.      (* log.go:13 *)
Definition RELEASE : Z := 2.    (* log.go:15 *)

(* log.go:19-22; the flags of the *log.Logger inside *)
Record lg := Lg { lg_flags : Z; lg_mode : Z }.

(* log.go:44-48: the initial Logger; LstdFlags|Llongfile = 3|8 *)
Definition lg0 : lg := Lg 11 DEBUG.

(* log.go:26-27, 50-52 *)
Definition SetLogMode (m : Z) (l : lg) : lg := Lg (lg_flags l) m.
(* log.go:31-32, 55-57 *)
Definition SetLogFlags (f : Z) (l : lg) : lg := Lg f (lg_mode l).

(* fmt.Sprintf("%v", info) of a slice: its elements between brackets, a space between two *)
Fixpoint spaced (l : list string) : string :=
  match l with [] => "" | [a] => a | a :: r => a ++ " " ++ spaced r end.
Definition sprint_slice (l : list string) : string := "[" ++ spaced l ++ "]".

(* strings.TrimPrefix and strings.TrimSuffix *)
Definition trim_prefix (p s : string) : string :=
  if prefix p s then substring (length p) (length s - length p) s else s.
Definition trim_suffix (p s : string) : string :=
  if ((length p <=? length s)%nat && (substring (length s - length p) (length p) s =? p))%bool
  then substring 0 (length s - length p) s else s.

Inductive out := Stdout (s : string) | Stderr (s : string).

Section Print.
  Context (deco stamp : string -> string).

  (* log.go:35-42 *)
  Definition Println (l : lg) (info : list string) : list out :=
    let rs := trim_suffix "]" (trim_prefix "[" (sprint_slice info)) in
    if (lg_mode l =? DEBUG)%Z then [Stdout (deco rs)] else [].

  (* what happens in the library that it prints something about *)
  Inductive happening :=
  | HBeat (ip stream : string)            (* the heartbeat handler ran, tcpx.go:208, 228 *)
  | HPanic (e : string)                   (* a recovered panic of a reading goroutine or UDP loop, tcpx.go:469, 555, 656 *)
  | HListenPanic (e stack : string)       (* of a listening loop, tcpx.go:424-425, 492-493 *)
  | HBeatPanic (e : string)               (* of a heartbeat watcher, tcpx.go:1033 *)
  | HReadErr (e : string)                 (* reading a message or datagram fails, tcpx.go:571, 578, 593, 674, 693 *)
  | HAcceptErr (e : string)               (* tcpx.go:444, 522; e as Sprintf leaves it *)
  | HRoute (e : string)                   (* a message that is not routed, tcpx.go:869, 893, 899, 951, 957 *)
  | HAuthLate | HAuthFail                 (* tcpx.go:1095, 1104 *)
  | HHeader (e : string)                  (* context.go:707 *)
  | HStop                                 (* tcpx.go:1141 *)
  | HStart (net addr : string)            (* one goroutine of Start, tcpx.go:1203 *)
  | HStartErr (e stack : string)          (* tcpx.go:1200, 1206 *)
  | HSignal (s : string)                  (* BeforeExit got a signal, tcpx.go:1128-1129 *)
  | HExitPanic (e : string)               (* tcpx.go:1123 *)
  | HDefer (e : string)                   (* Defer without handlers, utils.go:59 *)
  | HDatagram (n : string)                (* a read of a datagram returned, tcpx.go:726: its length *)
  | HDebug (e : string).                  (* Debug could not encode its value, utils.go:22 *)

  Definition prints (l : lg) (h : happening) : list out :=
    match h with
    | HBeat ip st => Println l ["recv '" ++ ip ++ "' heartbeat:"; st]
    | HPanic e => Println l ["recover from panic " ++ e]
    | HListenPanic e st => app (Println l ["recover from panic " ++ e]) (Println l [st])
    | HBeatPanic e => Println l ["recover from : %v"; e]
    | HReadErr e => Println l [e]
    | HAcceptErr e => [Stderr (stamp e)]
    | HRoute e => Println l [e]
    | HAuthLate => Println l ["connection auth time out, closed"]
    | HAuthFail => Println l ["connection auth fail, closed"]
    | HHeader e => Println l ["header decode err: %s"; e]
    | HStop => [Stdout "graceful stop"]
    | HStart net addr => [Stdout ("graceful restart " ++ net ++ " server on " ++ addr)]
    | HStartErr e st => Println l [e ++ st]
    | HSignal s => [Stdout ("receive signal: " ++ s); Stdout "prepare to stop server"]
    | HExitPanic e => [Stdout ("panic from " ++ e)]
    | HDefer e => [Stdout ("recover from " ++ e)]
    | HDatagram n => [Stdout n]
    | HDebug e => [Stdout e]
    end.
End Print.
