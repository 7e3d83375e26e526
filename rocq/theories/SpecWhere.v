(* What the panic of a misused Use or UnUse should say, read off the calls alone. *)
From Verif Require Export WhereModel.

(* a Use (true) or UnUse (false) of a key that took effect, and where *)
Record note := Note { n_use : bool; n_key : string; n_at : site }.

(* with the newest note first: is the key in use, was it ever *)
Fixpoint stands (k : string) (n : list note) : bool :=
  match n with
  | [] => false
  | x :: r => if String.eqb k (n_key x) then n_use x else stands k r
  end.
Definition known (k : string) (n : list note) : bool := existsb (fun x => String.eqb k (n_key x)) n.

(* a call acts on its keys from left to right until one is misused *)
Fixpoint note_uses (s : site) (l : list uarg) (n : list note) : list note :=
  match l with
  | UKey k :: UFn f :: r => if stands k n then n else note_uses s r (Note true k s :: n)
  | _ => n
  end.
Fixpoint note_unuses (s : site) (ks : list string) (n : list note) : list note :=
  match ks with
  | k :: r => if stands k n then note_unuses s r (Note false k s :: n) else n
  | [] => n
  end.
Definition note_call (s : site) (a : api) (n : list note) : list note :=
  match a with
  | AUse l => if Nat.even (List.length l) then note_uses s l n else n
  | ACall (OUse k f) => note_uses s [UKey k; UFn f] n
  | AUnUse ks => note_unuses s ks n
  | ACall (OUnUse k) => note_unuses s [k] n
  | _ => n
  end.
Definition notes (h : list (site * api)) : list note :=
  fold_left (fun n c => note_call (fst c) (snd c) n) h [].

(* the places where the key was used (or unused), oldest first *)
Definition places (b : bool) (k : string) (n : list note) : list string :=
  rev (map (fun x => site_text (n_at x)) (filter (fun x => String.eqb k (n_key x) && Bool.eqb b (n_use x)) n)).

(* the key a call is stopped at, and what had taken effect by then *)
Inductive use_stops (s : site) : list uarg -> list note -> string -> list note -> Prop :=
| us_here k f r n : stands k n = true -> use_stops s (UKey k :: UFn f :: r) n k n
| us_later k f r n k' n' : stands k n = false ->
    use_stops s r (Note true k s :: n) k' n' -> use_stops s (UKey k :: UFn f :: r) n k' n'.
Inductive unuse_stops (s : site) : list string -> list note -> string -> list note -> Prop :=
| uu_here k r n : stands k n = false -> known k n = true -> unuse_stops s (k :: r) n k n
| uu_later k r n k' n' : stands k n = true ->
    unuse_stops s r (Note false k s :: n) k' n' -> unuse_stops s (k :: r) n k' n'.

(* lines, each but the last followed by a newline *)
Definition lines (l : list string) (last : string) : string :=
  fold_right (fun x t => (x ++ newline ++ t)%string) last l.
(* the places, one a line, under their two headings *)
Definition listing (k : string) (n : list note) : string :=
  let head := "------------------- Use -----------------------"%string :: places true k n in
  match rev (places false k n) with
  | [] => lines head "------------------- UnUse ---------------------"
  | x :: r => lines (head ++ "------------------- UnUse ---------------------"%string :: rev r) x
  end.

Definition occurs (a t : string) : Prop := exists x y, t = (x ++ a ++ y)%string.
