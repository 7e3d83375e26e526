(* Goroutines as sequences of accesses: what a goroutine does to shared variables and to one
   sync.RWMutex, and which goroutines it starts.  Used by FieldModel (the fields of a TcpX) and
   CtxFieldModel (the fields of a Context), where the sequences are taken from the code.
   Values are not modelled: a branch is a choice of the sequence.  A new reader is admitted while a
   writer waits (the runtime lets it wait), so every schedule of the runtime is one here.
   No proofs in this file. *)
From Verif Require Export CtxModel.

Section Machine.
  Context {X : Type}.

  (* what a goroutine still has to do *)
  Inductive acts :=
  | PEnd
  | PLock (k : acts) | PUnlock (k : acts) | PRLock (k : acts) | PRUnlock (k : acts)
  | PRd (x : X) (k : acts) | PWr (x : X) (k : acts)
  | PGo (p : acts) (k : acts).                      (* go p *)

  (* first all of p, then q *)
  Fixpoint pthen (p q : acts) : acts :=
    match p with
    | PEnd => q
    | PLock k => PLock (pthen k q)
    | PUnlock k => PUnlock (pthen k q)
    | PRLock k => PRLock (pthen k q)
    | PRUnlock k => PRUnlock (pthen k q)
    | PRd x k => PRd x (pthen k q)
    | PWr x k => PWr x (pthen k q)
    | PGo r k => PGo r (pthen k q)
    end.

  Fixpoint times (n : nat) (f : acts -> acts) (k : acts) : acts :=
    match n with O => k | S m => f (times m f k) end.

  (* the RWMutex: free, held by n+1 readers, held by one writer *)
  Inductive rwm := RwFree | RwRead (n : nat) | RwWrite.

  Record mach := Mach { mc_lock : rwm; mc_threads : list acts }.

  (* goroutine t does its next step *)
  Inductive astep : mach -> mach -> Prop :=
  | a_lock ts t k : nth_error ts t = Some (PLock k) -> astep (Mach RwFree ts) (Mach RwWrite (upd ts t k))
  | a_unlock ts t k : nth_error ts t = Some (PUnlock k) -> astep (Mach RwWrite ts) (Mach RwFree (upd ts t k))
  | a_rlock ts t k : nth_error ts t = Some (PRLock k) -> astep (Mach RwFree ts) (Mach (RwRead 0) (upd ts t k))
  | a_rlock_more n ts t k : nth_error ts t = Some (PRLock k) -> astep (Mach (RwRead n) ts) (Mach (RwRead (S n)) (upd ts t k))
  | a_runlock ts t k : nth_error ts t = Some (PRUnlock k) -> astep (Mach (RwRead 0) ts) (Mach RwFree (upd ts t k))
  | a_runlock_more n ts t k : nth_error ts t = Some (PRUnlock k) -> astep (Mach (RwRead (S n)) ts) (Mach (RwRead n) (upd ts t k))
  | a_read l ts t x k : nth_error ts t = Some (PRd x k) -> astep (Mach l ts) (Mach l (upd ts t k))
  | a_write l ts t x k : nth_error ts t = Some (PWr x k) -> astep (Mach l ts) (Mach l (upd ts t k))
  | a_go l ts t p k : nth_error ts t = Some (PGo p k) -> astep (Mach l ts) (Mach l (upd ts t k ++ [p])).

  Inductive asteps : mach -> mach -> Prop :=
  | as_refl m : asteps m m
  | as_step m m1 m2 : asteps m m1 -> astep m1 m2 -> asteps m m2.

  Definition launch (ts : list acts) : mach := Mach RwFree ts.
End Machine.
Arguments acts : clear implicits.
Arguments mach : clear implicits.
