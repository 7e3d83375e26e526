(* Model of a chain whose handlers may call ctx.Reset and ctx.ResetOffset: context.go:551-588 with
   the list of handlers as part of the state (ChainModel leaves these two calls out).  A machine with
   an explicit stack, since a chain need not end.  No proofs in this file.
   What a handler does may depend on how many handler calls were made before. *)
From Verif Require Export ChainModel.

Inductive ract := REff (n : Z) | RNext | RNextRec | RAbort | RPanic | RReset | RResetOffset.

Inductive frame :=
| FBody (l : list ract)      (* a handler, with what is left of it *)
| FCheck (s : Z)             (* Next before the test of its loop; s as in context.go:561 *)
| FAfter (s : Z)             (* Next while a handler it called runs *)
| FRec.                      (* a function that recovers *)

Record rst := RS {
  x_off : Z; x_hs : list nat;          (* ctx.offset, ctx.handlers *)
  x_calls : nat;                       (* handler calls so far *)
  x_trace : list ev;                   (* oldest first *)
  x_stack : list frame;
  x_end : option status }.

(* a panic unwinds to the innermost function that recovers, and is out if there is none *)
Fixpoint unwind (st : list frame) : option (list frame) :=
  match st with [] => None | FRec :: r => Some r | _ :: r => unwind r end.

Section Machine.
  Context (beh : nat -> nat -> list ract).     (* call number, handler *)

  Definition rpanic (x : rst) : rst :=
    match unwind (x_stack x) with
    | Some r => RS (x_off x) (x_hs x) (x_calls x) (x_trace x) r None
    | None => RS (x_off x) (x_hs x) (x_calls x) (x_trace x) [] (Some Panicked)
    end.

  Definition rstep (x : rst) : option rst :=
    let to off hs tr st := Some (RS off hs (x_calls x) tr st None) in
    match x_end x with
    | Some _ => None
    | None =>
        match x_stack x with
        | [] => Some (RS (x_off x) (x_hs x) (x_calls x) (x_trace x) [] (Some Returned))
        | FBody [] :: r => to (x_off x) (x_hs x) (x_trace x) r
        | FBody (a :: l) :: r =>
            match a with
            | REff n => to (x_off x) (x_hs x) (x_trace x ++ [EEff n]) (FBody l :: r)
            | RNext => to (x_off x + 1) (x_hs x) (x_trace x) (FCheck (Z.of_nat (List.length (x_hs x))) :: FBody l :: r)          (* 560-561 *)
            | RNextRec => to (x_off x + 1) (x_hs x) (x_trace x) (FCheck (Z.of_nat (List.length (x_hs x))) :: FRec :: FBody l :: r)
            | RAbort => to ABORT (x_hs x) (x_trace x ++ [EAbort]) (FBody l :: r)                                                (* 552-554 *)
            | RPanic => Some (rpanic x)
            | RReset => to (-1) [] (x_trace x) (FBody l :: r)                                                                   (* 574-582: handlers[:0] *)
            | RResetOffset => to (-1) (x_hs x) (x_trace x) (FBody l :: r)                                                       (* 570-572 *)
            end
        | FCheck s :: r =>                                                                                                      (* 562-567 *)
            if x_off x <? s then
              if ABORT <=? x_off x then to (x_off x) (x_hs x) (x_trace x) r
              else match (if x_off x <? 0 then None else nth_error (x_hs x) (Z.to_nat (x_off x))) with
                   | None => Some (rpanic x)                                                                                    (* index out of range *)
                   | Some h => Some (RS (x_off x) (x_hs x) (S (x_calls x)) (x_trace x ++ [EEnter h]) (FBody (beh (x_calls x) h) :: FAfter s :: r) None)
                   end
            else to (x_off x) (x_hs x) (x_trace x) r
        | FAfter s :: r => to (x_off x + 1) (x_hs x) (x_trace x) (FCheck s :: r)                                                 (* 562: ctx.offset++ *)
        | FRec :: r => to (x_off x) (x_hs x) (x_trace x) r
        end
    end.

  (* n steps *)
  Fixpoint rsteps (n : nat) (x : rst) : option rst :=
    match n with O => Some x | S m => match rstep x with Some y => rsteps m y | None => None end end.

  (* the dispatch functions call ctx.Next() on a fresh context, whose offset is -1 (tcpx.go:883-886 and alike) *)
  Definition rstart (hs : list nat) : rst := RS 0 hs 0 [] [FCheck (Z.of_nat (List.length hs))] None.
  (* the heartbeat and auth handlers are called without a chain (tcpx.go:902-910) *)
  Definition rdirect (l : list ract) : rst := RS (-1) [] 0 [] [FBody l] None.
End Machine.
