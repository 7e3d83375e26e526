(* Model of the middleware chain: context.go:551-588 (Abort, Next, isAbort, Reset).
   No proofs in this file. *)
From Verif Require Export Base.

(* What user handlers can do that matters to the chain.  A handler is user code; it is
   represented by the list of things it does, in order.
   [AEff n]     : some effect visible to the user,
   [ANext]      : ctx.Next(),
   [ANextRec]   : func() { defer func() { recover() }(); ctx.Next() }()  (recovery middleware),
   [AAbort]     : ctx.Abort(),
   [APanic]     : panic.
   Handlers that call ctx.Reset/ctx.ResetOffset themselves are not represented. *)
Inductive act := AEff (n : Z) | ANext | ANextRec | AAbort | APanic.

(* what an observer sees *)
Inductive ev := EEnter (h : nat) | EEff (n : Z) | EAbort.

(* how a call ends *)
Inductive status := Returned | Panicked.

(* context.go:17 *)
Definition ABORT : Z := 2019.

(* A chain: the handlers (identified by a number) and what each does. *)
Record chain := Chain { ch_handlers : list nat; ch_beh : nat -> list act }.

(* the effects of one handler body.  [next] is ctx.Next as a function of ctx.offset, giving
   the trace, how it ended, and the new offset; None = out of fuel *)
Section Exec.
  Context (next : Z -> option (list ev * status * Z)).
  Fixpoint exec (acts : list act) (off : Z) : option (list ev * status * Z) :=
    match acts with
    | [] => Some ([], Returned, off)
    | AEff n :: r =>
        match exec r off with Some (t, s, o) => Some (EEff n :: t, s, o) | None => None end
    | ANext :: r =>
        match next off with
        | Some (t1, Returned, o1) =>
            match exec r o1 with Some (t2, s, o2) => Some (t1 ++ t2, s, o2) | None => None end
        | x => x
        end
    | ANextRec :: r =>
        match next off with
        | Some (t1, _, o1) =>
            match exec r o1 with Some (t2, s, o2) => Some (t1 ++ t2, s, o2) | None => None end
        | None => None
        end
    | AAbort :: r => (* context.go:552-554: ctx.offset = ABORT *)
        match exec r ABORT with Some (t, s, o) => Some (EAbort :: t, s, o) | None => None end
    | APanic :: _ => Some ([], Panicked, off)
    end.
End Exec.

(* context.go:559-569 Next, after ctx.offset++: the for loop starting at offset [off].
   s := len(ctx.handlers) is read once; nothing changes handlers while the chain runs.
   isAbort (583-588): offset >= ABORT.  Next(off) is [loop (off + 1)], and the loop's
   ctx.offset++ after a handler returned leads to [loop (off' + 1)] too.
   Fuel bounds the nesting depth; ChainFacts.v proves [length handlers + 2] suffices. *)
Fixpoint loop (c : chain) (fuel : nat) (off : Z) : option (list ev * status * Z) :=
  match fuel with
  | O => None
  | S f =>
      if off <? Z.of_nat (List.length (ch_handlers c)) then
        if ABORT <=? off then Some ([], Returned, off)
        else
          match nth_error (ch_handlers c) (Z.to_nat off) with
          | None => Some ([], Panicked, off)      (* index out of range: negative offset *)
          | Some h =>
              match exec (fun o => loop c f (o + 1)) (ch_beh c h) off with
              | Some (t1, Returned, o1) =>
                  match loop c f (o1 + 1) with
                  | Some (t2, s, o2) => Some (EEnter h :: t1 ++ t2, s, o2)
                  | None => None
                  end
              | Some (t1, Panicked, o1) => Some (EEnter h :: t1, Panicked, o1)
              | None => None
              end
          end
      else Some ([], Returned, off)
  end.

(* the dispatch functions' ctx.Next() on a fresh request context, whose offset is -1
   (context.go:185, 212; tcpx.go:883-886 and alike) *)
Definition run_chain (c : chain) : option (list ev * status * Z) :=
  loop c (List.length (ch_handlers c) + 2) (-1 + 1).
