(* What a URLMux should do, by its history of calls. *)
From Verif Require Export UrlMuxModel.

(* the calls that count: those before the first LockWrite *)
Fixpoint before_lock (h : list uop) : list uop :=
  match h with [] => [] | ULock :: _ => [] | o :: r => o :: before_lock r end.
(* the registrations of pattern p that succeed: all of them until PanicOnExistRouter is called, the
   first one only afterwards *)
Fixpoint accepted (p : string) (strict known : bool) (h : list uop) : list (list hdl * string) :=
  match h with
  | [] => []
  | UStrict :: r => accepted p true known r
  | ULock :: r => accepted p strict known r
  | UAdd q l w :: r =>
      if String.eqb q p then (if (strict && known)%bool then accepted p strict known r else (l, w) :: accepted p strict true r)
      else accepted p strict known r
  end.
Definition registered (p : string) (h : list uop) : list (list hdl * string) := accepted p false false (before_lock h).
(* strings one per line *)
Definition lines (l : list string) : string := String.concat (String (Ascii.ascii_of_nat 10) EmptyString) l.
