(* How a chain run ends. *)
From Verif Require Export ResetModel.

(* it comes to an end, having entered these handlers *)
Definition ends_as (beh : nat -> nat -> list ract) (x : rst) (s : status) (ran : list nat) : Prop :=
  exists n y, rsteps beh n x = Some y /\ x_end y = Some s /\
    flat_map (fun e => match e with EEnter h => [h] | _ => [] end) (x_trace y) = ran.
(* it never comes to an end *)
Definition runs_forever (beh : nat -> nat -> list ract) (x : rst) : Prop :=
  forall n, exists y, rsteps beh n x = Some y /\ x_end y = None.

(* only effects *)
Definition plain (l : list ract) : Prop := forall a, In a l -> exists n, a = REff n.
(* handlers that do the same on every call *)
Definition always (b : nat -> list ract) : nat -> nat -> list ract := fun _ h => b h.
(* neither Reset nor ResetOffset *)
Definition no_reset (l : list ract) : Prop := ~ In RReset l /\ ~ In RResetOffset l.
Definition as_ract (a : act) : ract :=
  match a with AEff n => REff n | ANext => RNext | ANextRec => RNextRec | AAbort => RAbort | APanic => RPanic end.
