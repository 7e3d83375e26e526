(* Data races in terms of the threads' next instructions: two goroutines are about to touch the same
   unprotected location and one of them writes. *)
From Verif Require Export PoolModel.

(* the goroutine's next step writes to / accesses the map cp.Clients *)
Definition map_write (i : instr) : Prop := match i with ISet _ _ | IDel _ => True | _ => False end.
Definition map_access (i : instr) : Prop :=
  match i with ISet _ _ | IDel _ | ILookup _ | IGetDel _ | IRange => True | _ => False end.
Definition map_race (s : lstate) : Prop :=
  exists t1 t2 i1 i2 r1 r2, t1 <> t2 /\
    nth_error (ls_threads s) t1 = Some (i1 :: r1) /\ nth_error (ls_threads s) t2 = Some (i2 :: r2) /\
    map_write i1 /\ map_access i2.
