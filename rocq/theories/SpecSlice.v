(* What the handler lists hold. *)
From Verif Require Export SliceModel.

(* the functions found at a place *)
Definition holds (st : slices) (x : place) : option (list hdl) := option_map (contents (ss_mem st)) (slice_at st x).
(* the functions an argument stands for when the call is made *)
Definition value (st : slices) (a : arg) : list hdl :=
  match a with Lit l => l | Var i => match holds st (PVar i) with Some l => l | None => [] end end.

(* every registration of the pattern lists its handlers in the call *)
Definition literal (p : string) (h : list slop) : Prop := forall i, ~ In (SAny p (Var i)) h.
(* these calls as MuxModel.v has them, the newest first *)
Definition lits (h : list slop) : list op := rev (flat_map (fun o => match o with SAny p (Lit l) => [OAny p l] | _ => [] end) h).
