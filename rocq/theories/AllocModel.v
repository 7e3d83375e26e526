(* Model of the memory a connection's goroutine asks for while receiving: the make and append calls
   whose size depends on what the peer sent - packx.go:436, 448-456, 463, 480-488 and
   tcpx.go:585.  Control flow as in ReaderModel and ServerModel, whose functions it calls.
   What the header decoder and copyContext allocate is not counted.  No proofs in this file. *)
From Verif Require Export ServerModel.

(* [MBytes n]: a byte slice of length n; [MCtxs n]: a slice of n pointers *)
Inductive mk := MBytes (n : Z) | MCtxs (n : Z).

Section Makes.
  Context (hc : hcodec) (maxByte : Z).

  (* packx.go:436-456, 463-488 by way of 90-95: the length bytes; unless the length is beyond the
     limit (or negative, where make panics) the content; and what append returns *)
  Definition block_makes (r : reader) : list mk :=
    MBytes 4 ::
    match readUntil 4 r with
    | (RdOk info, r') =>
        match LengthOf (of_bytes info) with
        | Ok length =>
            if negb (maxByte <=? 0) && (to_int32 maxByte <? length) then [] else
            if length <? 0 then [] else
            MBytes length ::
            match readUntil (Z.to_nat length) r' with
            | (RdOk _, _) => [MBytes (4 + length)]
            | _ => []
            end
        | _ => []
        end
    | _ => []
    end.

  (* tcpx.go:583-598 *)
  Fixpoint pipe_makes (fuel : nat) (n : Z) (r : reader) : list mk :=
    match fuel with
    | O => []
    | S f =>
        if n <=? 0 then [] else
        block_makes r ++
        match FirstBlockOfLimitMaxByte maxByte r with
        | (RdOk _, r1) => pipe_makes f (n - 1) r1
        | _ => []
        end
    end.

  (* tcpx.go:566-604 *)
  Fixpoint serve_makes (fuel : nat) (r : reader) : list mk :=
    match fuel with
    | O => []
    | S f =>
        block_makes r ++
        match FirstBlockOfLimitMaxByte maxByte r with
        | (RdOk b, r1) =>
            match isPipe hc (of_bytes b) with
            | Ok (false, _) => serve_makes f r1
            | Ok (true, restN) =>
                if make_ok (restN + 1) then
                  MCtxs (restN + 1) :: pipe_makes f restN r1 ++
                  match pipe_rest maxByte f restN r1 with
                  | (_, _, PDone, r2) => serve_makes f r2
                  | _ => []
                  end
                else []
            | _ => []
            end
        | _ => []
        end
    end.

  Definition makes (r : reader) : list mk := serve_makes (S (supply r)) r.
End Makes.
