(* Model of a URLMux used on its own, with its lock, its conflict panic and the places where routes
   were registered: url-mux.go:20-85, routeInfo.go:5-19.  No proofs in this file.
   The handler lists are values here; SliceModel.v has them as slices. *)
From Verif Require Export MuxModel.

(* routeInfo.go:5-9 *)
Record route := Rt { rt_pattern : string; rt_id : Z; rt_where : list string }.
(* routeInfo.go:11-16 Merge *)
Definition Merge (r r2 : route) : route :=
  if (String.eqb (rt_pattern r) (rt_pattern r2) || (rt_id r =? rt_id r2))%bool then Rt (rt_pattern r) (rt_id r) (rt_where r ++ rt_where r2) else r.
(* strings.Join(l, "\n"), routeInfo.go:17-19 Location *)
Definition newline : string := String (ascii_of_nat 10) EmptyString.
Fixpoint join (l : list string) : string :=
  match l with [] => EmptyString | [x] => x | x :: r => (x ++ newline ++ join r)%string end.
Definition Location (r : route) : string := join (rt_where r).

(* url-mux.go:20-30, 32-38.  URLAnchorMap is set by the Mux only (MuxModel.v). *)
Record urlmux := UM { um_routes : list (string * list hdl); um_info : list (string * route); um_readonly : bool; um_strict : bool }.
Definition NewURLMux : urlmux := UM [] [] false false.

(* a call returns nil, an error, or panics; the panic's text names the new place and, below it, the
   Location of the existing route *)
Inductive uret := UNil | UError | UPanic (new : string) (existing : string).

(* url-mux.go:41-70; [place] is what runtime.Caller gives.  A missing entry of urlRouteInfo is the
   zero Route. *)
Definition UAddHandler (p : string) (l : list hdl) (place : string) (m : urlmux) : urlmux * uret :=
  if um_readonly m then (m, UError)
  else
    let info := Rt p 0 [place] in
    match aget p (um_routes m) with
    | Some h =>
        if um_strict m then (m, UPanic place (Location (match aget p (um_info m) with Some r => r | None => Rt "" 0 [] end)))
        else (UM (aset p (h ++ l) (um_routes m)) (aset p (match aget p (um_info m) with Some r => Merge r info | None => info end) (um_info m)) (um_readonly m) (um_strict m), UNil)
    | None => (UM (aset p l (um_routes m)) (aset p (match aget p (um_info m) with Some r => Merge r info | None => info end) (um_info m)) (um_readonly m) (um_strict m), UNil)
    end.
(* url-mux.go:73-80 *)
Definition PanicOnExistRouter (m : urlmux) : urlmux * uret :=
  if um_readonly m then (m, UError) else (UM (um_routes m) (um_info m) (um_readonly m) true, UNil).
(* url-mux.go:83-85 *)
Definition LockWrite (m : urlmux) : urlmux := UM (um_routes m) (um_info m) true (um_strict m).

Inductive uop := UAdd (p : string) (l : list hdl) (place : string) | UStrict | ULock.
Definition ustep (m : urlmux) (o : uop) : urlmux * uret :=
  match o with
  | UAdd p l place => UAddHandler p l place m
  | UStrict => PanicOnExistRouter m
  | ULock => (LockWrite m, UNil)
  end.
(* the calls in order; panics are recovered *)
Definition urun (h : list uop) : urlmux := fold_left (fun m o => fst (ustep m o)) h NewURLMux.
