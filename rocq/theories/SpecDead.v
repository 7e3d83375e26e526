(* Which deadline a socket is supposed to have, read off the history of calls (newest first). *)
From Verif Require Export DeadModel.

(* the time a call gives for reading, for writing *)
Definition read_arg (o : dset) : option instant := match o with DBoth t | DRead t => Some t | DWrite _ => None end.
Definition write_arg (o : dset) : option instant := match o with DBoth t | DWrite t => Some t | DRead _ => None end.

(* what the program configured: the newest SetDeadline or SetReadDeadline (resp. SetWriteDeadline) *)
Fixpoint asked_read (h : list dop) : instant :=
  match h with
  | [] => None
  | DServer o :: p => match read_arg o with Some t => t | None => asked_read p end
  | _ :: p => asked_read p
  end.
Fixpoint asked_write (h : list dop) : instant :=
  match h with
  | [] => None
  | DServer o :: p => match write_arg o with Some t => t | None => asked_write p end
  | _ :: p => asked_write p
  end.
(* the same, SetDeadline left out *)
Fixpoint only_read (h : list dop) : instant :=
  match h with [] => None | DServer (DRead t) :: _ => t | _ :: p => only_read p end.
Fixpoint only_write (h : list dop) : instant :=
  match h with [] => None | DServer (DWrite t) :: _ => t | _ :: p => only_write p end.

(* socket k has deadlines d; socket of context c *)
Definition has_dl (w : dworld) (k : nat) (d : sdl) : Prop := exists s, nth_error (dw_socks w) k = Some s /\ sk_dl s = d.
Definition sock_of (w : dworld) (c : nat) : option nat := nth_error (dw_ctxs w) c.

(* none of the calls in the history is a deadline call of a context of socket k *)
Definition quiet (w : dworld) (k : nat) (o : dop) : Prop := forall c e, o = DCtx c e -> sock_of w c <> Some k.
(* every read of socket k happens at or after t *)
Definition late (k : nat) (t : Z) (o : dop) : Prop := forall now, o = DRecv k now -> t <= now.
