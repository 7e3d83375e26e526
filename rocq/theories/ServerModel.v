(* Model of the servers' receive loops and of the goroutines they start: tcpx.go:489-609
   (ListenAndServeTCP), 633-732 (ListenAndServeUDP, ReadAllUDP), 853-999 (handleMiddleware and
   the functions it calls, handlePipe), 1230-1264 (isPipe).  No proofs in this file. *)
From Verif Require Export ReaderModel StrModel ChainModel CtxModel.

(* ------------------------------------------------------------------ *)
(* The TCP receive loop *)

Section Serve.
  Context (hc : hcodec) (maxByte : Z).

  (* tcpx.go:1230-1264 isPipe: whether, and how many further blocks.  int arithmetic on length - 1
     is unbounded here: it wraps for -2^63 only, and restN + 1 is -2^63 again.  For a JSON null
     reflect.TypeOf(nil).Name() is a nil dereference (1247). *)
  Definition isPipe (block : gslice) : res (bool * Z) :=
    header <- rwrap (HeaderOf hc block) ;;
    if Nat.eqb (hlen header) 0 then Ok (false, 0) else
    match hget PIPED header with
    | None => Ok (false, 0)
    | Some (JStr pipeArgs) =>
        match Split ";"%char (str_bytes pipeArgs) with
        | [a; b] =>
            match Atoi b with
            | None => Err (EMsg "bad pipe args length")
            | Some length => if bytes_eqb a (str_bytes "enable") then Ok (true, length - 1) else Ok (false, 0)
            end
        | _ => Err (EMsg "bad pipe args, should format as 'enable:<length>'")
        end
    | Some JNull => Panic
    | Some _ => Err (EMsg "bad pipe args, should format as a  string")
    end.

  (* what the connection's goroutine does that others can see, in order.
     [SPipe l missing]: go handlePipe of the contexts of the blocks l followed by [missing] nil
     pointers (the entries of ctxs the loop 583-596 did not fill; it fills from the front). *)
  Inductive sev :=
  | SConnect
  | SDispatch (b : bytes)
  | SPipe (l : list bytes) (missing : Z)
  | SOnClose
  | SCloseConn.

  (* how the loop stands: left by break, by a panic (recovered, 555-560), or inside a read;
     [SFuel] never happens (ServerFacts.v) *)
  Inductive sres := SEnded | SPanicked | SWaiting | SFuel.

  (* tcpx.go:583-598: n more blocks.  An error other than a panic ends this loop only. *)
  Inductive pres := PDone | PPanicked | PWaiting | PFuel.
  Fixpoint pipe_rest (fuel : nat) (n : Z) (r : reader) : list bytes * Z * pres * reader :=
    match fuel with
    | O => ([], n, PFuel, r)
    | S f =>
        if n <=? 0 then ([], 0, PDone, r) else
        match FirstBlockOfLimitMaxByte maxByte r with
        | (RdOk b, r1) => match pipe_rest f (n - 1) r1 with (l, m, p, r2) => (b :: l, m, p, r2) end
        | (RdErr _, r1) => ([], n, PDone, r1)
        | (RdPanic, r1) => ([], n, PPanicked, r1)
        | (RdBlocked, r1) => ([], n, PWaiting, r1)
        end
    end.

  (* tcpx.go:585-586 make([]*Context, n) and ctxs[0]: panics for n <= 0, and for a slice of more
     than 2^48 bytes.  Running out of memory below that is not modelled. *)
  Definition make_ok (n : Z) : bool := (0 <? n) && (n <=? 2 ^ 45).

  (* tcpx.go:566-604, the loop.  Every block is read into memory of its own, so the Stream of a
     copied context never changes; its slice is taken to have no spare capacity (none of the
     accessors used here looks beyond len). *)
  Fixpoint serve (fuel : nat) (r : reader) : list sev * sres :=
    match fuel with
    | O => ([], SFuel)
    | S f =>
        match FirstBlockOfLimitMaxByte maxByte r with
        | (RdErr _, _) => ([], SEnded)
        | (RdPanic, _) => ([], SPanicked)
        | (RdBlocked, _) => ([], SWaiting)
        | (RdOk b, r1) =>
            match isPipe (of_bytes b) with
            | Err _ => ([], SEnded)
            | Panic => ([], SPanicked)
            | Ok (false, _) => match serve f r1 with (t, s) => (SDispatch b :: t, s) end
            | Ok (true, restN) =>
                if make_ok (restN + 1) then
                  match pipe_rest f restN r1 with
                  | (l, missing, PDone, r2) => match serve f r2 with (t, s) => (SPipe (b :: l) missing :: t, s) end
                  | (_, _, PPanicked, _) => ([], SPanicked)
                  | (_, _, PWaiting, _) => ([], SWaiting)
                  | (_, _, PFuel, _) => ([], SFuel)
                  end
                else ([], SPanicked)
            end
        end
    end.

  (* everything a reader will deliver *)
  Fixpoint supply (r : reader) : nat :=
    match r with
    | [] => 0
    | RData bs :: r' => List.length bs + supply r'
    | RFail _ :: r' => supply r'
    | RDataFail bs _ :: r' => List.length bs + supply r'
    end.
  Definition serve_reads (r : reader) : list sev * sres := serve (S (supply r)) r.

  (* User callbacks: not set, or set and whether they panic. *)
  Inductive callback := Unset | Set_ (panics : bool).

  (* tcpx.go:537-606: OnConnect runs in the accept loop; the deferred OnClose runs before the
     deferred CloseConn, both on every way out, and the recover comes last.  While the loop waits
     in a read neither has run. *)
  Definition on_close (c : callback) : list sev := match c with Unset => [] | Set_ _ => [SOnClose] end.
  Definition connection (onClose : callback) (r : reader) : list sev :=
    match serve_reads r with
    | (t, SWaiting) => t
    | (t, _) => t ++ on_close onClose ++ [SCloseConn]
    end.

  (* tcpx.go:515-607, the accept loop, for the connections that arrive: the events of each, and
     whether the loop still accepts.  A panicking OnConnect unwinds ListenAndServeTCP itself, whose
     recover (490-496) makes it return; that connection is neither read nor closed. *)
  Fixpoint accept_loop (onConnect onClose : callback) (rs : list reader) : list (list sev) * bool :=
    match rs with
    | [] => ([], true)
    | r :: rest =>
        match onConnect with
        | Set_ true => ([[SConnect]], false)
        | _ => let (l, go_on) := accept_loop onConnect onClose rest in
               (((match onConnect with Unset => [] | Set_ _ => [SConnect] end) ++ connection onClose r) :: l, go_on)
        end
    end.
End Serve.

(* ------------------------------------------------------------------ *)
(* The handling goroutines.  A goroutine that panics without a recover ends the process; neither
   handleMiddleware nor handlePipe recovers. *)

Section Handle.
  Context (hc : hcodec) (m : mux) (behave : hdl -> list act).

  Definition act_chain (l : list hdl) : chain := Chain (seq 0 (List.length l)) (fun i => behave (nth i l Beat)).

  (* tcpx.go:874-992: run what was chosen.  [off] = ctx.offset of the request's context; -1
     unless OnConnect changed the connection's (copyContext, context.go:95).
     Direct: handler(ctx) with no ctx.handlers, so a ctx.Next inside finds nothing to run. *)
  Definition run_from (off : Z) (c : chain) := loop c (List.length (ch_handlers c) + 2) (off + 1).
  Definition run_plan (off : Z) (p : plan) : option (list ev * status) :=
    match p with
    | Unrouted => Some ([], Returned)
    | PlanPanic => Some ([], Panicked)
    | Direct f => match exec (fun o => run_from o (act_chain [])) (behave f) off with Some (t, s, _) => Some (t, s) | None => None end
    | RunChain l => match run_from off (act_chain l) with Some (t, s, _) => Some (t, s) | None => None end
    end.

  (* tcpx.go:853-871 handleMiddleware for a request context c, w being the stores at that time *)
  Definition handleMiddleware (off : Z) (c : ctx) (w : world) : option (list ev * status) :=
    match m_onmsg m with
    | Some f => run_plan off (plan_onmessage f m)
    | None =>
        match fst (route hc c w) with
        | Ok rt => run_plan off (plan_of rt m)
        | _ => Some ([], Panicked)
        end
    end.

  (* tcpx.go:994-999 handlePipe.  None is a nil *Context: both ctx.handlers (875) and the copying
     call of the value method RouterType (859) dereference it. *)
  Fixpoint handlePipe (off : Z) (l : list (option (ctx * world))) : option (list ev * status) :=
    match l with
    | [] => Some ([], Returned)
    | None :: _ => Some ([], Panicked)
    | Some (c, w) :: r =>
        match handleMiddleware off c w with
        | None => None
        | Some (t, Panicked) => Some (t, Panicked)
        | Some (t, Returned) => match handlePipe off r with Some (t', s) => Some (t ++ t', s) | None => None end
        end
    end.
End Handle.

(* ------------------------------------------------------------------ *)
(* The UDP receive loop *)

(* tcpx.go:714-732 ReadAllUDP with a buffer of the given size (4096 by default): the kernel drops
   what does not fit *)
Definition ReadAllUDP (size : nat) (datagram : bytes) : gslice :=
  let n := Nat.min size (List.length datagram) in
  GS (firstn n datagram ++ repeat "000"%char (size - n)) n.

(* tcpx.go:662-706: the Streams handed to go handleMiddleware, one goroutine and one fresh context
   each, for the datagrams that arrive; false = a panic (recovered, 657-661) ended the loop *)
Fixpoint serve_udp (size : nat) (ds : list bytes) : list gslice * bool :=
  match ds with
  | [] => ([], true)
  | d :: rest =>
      match FirstBlockOfBytes (ReadAllUDP size d) with
      | Ok s => let (l, b) := serve_udp size rest in (s :: l, b)
      | Err _ => serve_udp size rest             (* logged, continue *)
      | Panic => ([], false)
      end
  end.
