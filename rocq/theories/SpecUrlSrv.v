(* What the routes of a server and the places on record for them should be. *)
From Verif Require Export UrlSrvModel.

(* the calls of Any with that pattern and at least one handler, in the order they were made: the
   place of the application and the handlers *)
Definition anys (p : string) (h : list sited) : list (string * list hdl) :=
  flat_map (fun c => match snd c with OAny q (f :: l) => if String.eqb q p then [(fst c, f :: l)] else [] | _ => [] end) (rev h).
(* one handler is registered once, several are registered twice *)
Definition copies (l : list hdl) : list hdl := match l with [f] => [f] | _ => l ++ l end.
(* the places of the application that registered a pattern *)
Definition app_places (p : string) (h : list sited) : list string := map fst (anys p h).
