(* gin's chain semantics, written without any index: a handler runs with "the rest of the
   chain" in hand; Next runs the rest there and then, Abort discards it, and whatever is left
   of it runs after the handler returns. *)
From Verif Require Export ChainModel.

Section Gin.
  Context (beh : nat -> list act).

  (* [gin_chain hs tr st rest]: running handlers hs shows tr and ends as st; when it panicked,
     [rest] are the handlers not yet entered. *)
  Inductive gin_chain : list nat -> list ev -> status -> list nat -> Prop :=
  | gin_done : gin_chain [] [] Returned []
  | gin_handler h hs t1 rest t2 st rest' :
      gin_body (beh h) hs t1 Returned rest -> gin_chain rest t2 st rest' ->
      gin_chain (h :: hs) (EEnter h :: t1 ++ t2) st rest'
  | gin_handler_panics h hs t1 rest :
      gin_body (beh h) hs t1 Panicked rest -> gin_chain (h :: hs) (EEnter h :: t1) Panicked rest
  (* [gin_body acts rest tr st rest']: a handler body doing acts with [rest] in hand *)
  with gin_body : list act -> list nat -> list ev -> status -> list nat -> Prop :=
  | gin_end rest : gin_body [] rest [] Returned rest
  | gin_eff n r rest t st rest' :
      gin_body r rest t st rest' -> gin_body (AEff n :: r) rest (EEff n :: t) st rest'
  | gin_next r rest t1 rest1 t2 st rest' :
      gin_chain rest t1 Returned rest1 -> gin_body r rest1 t2 st rest' ->
      gin_body (ANext :: r) rest (t1 ++ t2) st rest'
  | gin_next_panics r rest t1 rest1 :
      gin_chain rest t1 Panicked rest1 -> gin_body (ANext :: r) rest t1 Panicked rest1
  | gin_next_recovered r rest t1 st1 rest1 t2 st rest' :
      gin_chain rest t1 st1 rest1 -> gin_body r rest1 t2 st rest' ->
      gin_body (ANextRec :: r) rest (t1 ++ t2) st rest'
  | gin_abort r rest t st rest' :
      gin_body r [] t st rest' -> gin_body (AAbort :: r) rest (EAbort :: t) st rest'
  | gin_panic r rest : gin_body (APanic :: r) rest [] Panicked rest.
End Gin.
Scheme gin_chain_mut := Minimality for gin_chain Sort Prop
  with gin_body_mut := Minimality for gin_body Sort Prop.
Combined Scheme gin_mut from gin_chain_mut, gin_body_mut.

(* handlers entered, in order *)
Definition entered (t : list ev) : list nat :=
  flat_map (fun e => match e with EEnter h => [h] | _ => [] end) t.
