(* Model of the handler lists as Go slices: which arrays the mux keeps and whose they are
   (tcpx.go:320-362; mux.go:59, 72-81, 216-236; url-mux.go:41-70).  No proofs in this file.
   Every slice begins at the beginning of its array, so that a slice is an array and a length and
   its capacity is the array's size; re-slicing from the middle is left out. *)
From Verif Require Export MuxModel CtxModel.

Record slice := Sl { sl_arr : nat; sl_len : nat }.
Definition memory := list (list hdl).
Definition array (m : memory) (k : nat) : list hdl := nth k m [].
Definition contents (m : memory) (s : slice) : list hdl := firstn (sl_len s) (array m (sl_arr s)).

Definition write_at (a : list hdl) (i : nat) (l : list hdl) : list hdl := firstn i a ++ l ++ skipn (i + List.length l) a.
(* The built-in append: in place when the capacity suffices, otherwise into a new array.  How much
   larger than needed the new array is, is up to the runtime: [extra] of the old capacity and the
   needed size.  The cells beyond the length hold nil; they are never read, Beat stands for them. *)
Definition go_append (extra : nat -> nat -> nat) (m : memory) (s : slice) (l : list hdl) : memory * slice :=
  let cap := List.length (array m (sl_arr s)) in
  let need := (sl_len s + List.length l)%nat in
  if (need <=? cap)%nat
  then (upd m (sl_arr s) (write_at (array m (sl_arr s)) (sl_len s) l), Sl (sl_arr s) need)
  else (m ++ [contents m s ++ l ++ repeat Beat (extra cap need)], Sl (List.length m) need).

(* where slices are kept: the program's own variables, GlobalMiddlewares, MessageIDSelfMiddleware
   and urlPatternMux *)
Inductive place := PVar (i : nat) | PGlobal | PSelf (id : Z) | PUrl (p : string).
Record slices := SS {
  ss_mem : memory; ss_vars : list slice; ss_globals : slice; ss_self : list (Z * slice); ss_urls : list (string * slice);
  ss_handlers : list (Z * hdl) }.
(* mux.go:59 *)
Definition slices0 : slices := SS [repeat Beat 10] [] (Sl 0 0) [] [] [].
Definition slice_at (st : slices) (x : place) : option slice :=
  match x with
  | PVar i => nth_error (ss_vars st) i
  | PGlobal => Some (ss_globals st)
  | PSelf id => aget id (ss_self st)
  | PUrl p => aget p (ss_urls st)
  end.
(* a variable that does not exist yet is new *)
Definition put (st : slices) (x : place) (s : slice) : slices :=
  match x with
  | PVar i => SS (ss_mem st) (ss_vars st ++ [s]) (ss_globals st) (ss_self st) (ss_urls st) (ss_handlers st)
  | PGlobal => SS (ss_mem st) (ss_vars st) s (ss_self st) (ss_urls st) (ss_handlers st)
  | PSelf id => SS (ss_mem st) (ss_vars st) (ss_globals st) (aset id s (ss_self st)) (ss_urls st) (ss_handlers st)
  | PUrl p => SS (ss_mem st) (ss_vars st) (ss_globals st) (ss_self st) (aset p s (ss_urls st)) (ss_handlers st)
  end.
Definition next_var (st : slices) : place := PVar (List.length (ss_vars st)).
Definition set_mem (st : slices) (m : memory) : slices := SS m (ss_vars st) (ss_globals st) (ss_self st) (ss_urls st) (ss_handlers st).
Definition add_handler (st : slices) (id : Z) (f : hdl) : slices :=
  SS (ss_mem st) (ss_vars st) (ss_globals st) (ss_self st) (ss_urls st) (aset id f (ss_handlers st)).
(* x = append(s, l...) *)
Definition append_to (extra : nat -> nat -> nat) (st : slices) (x : place) (s : slice) (l : list hdl) : slices :=
  let (m, s') := go_append extra (ss_mem st) s l in put (set_mem st m) x s'.

(* the variadic argument: f(xs...) passes the caller's slice itself, f(a, b) a new array that
   nobody else holds *)
Inductive arg := Var (i : nat) | Lit (l : list hdl).
Definition pass (st : slices) (a : arg) : option (slices * slice) :=
  match a with
  | Var i => match nth_error (ss_vars st) i with Some s => Some (st, s) | None => None end
  | Lit l => Some (set_mem st (ss_mem st ++ [l]), Sl (List.length (ss_mem st)) (List.length l))
  end.

(* url-mux.go:49-58 AddURLPatternHandler *)
Definition addurl (extra : nat -> nat -> nat) (p : string) (s : slice) (st : slices) : slices :=
  match aget p (ss_urls st) with
  | Some h => append_to extra st (PUrl p) h (contents (ss_mem st) s)
  | None => put st (PUrl p) s
  end.

Inductive slop :=
| SMake (l spare : list hdl)              (* x := a slice holding l, with room for some more *)
| SAppend (i : nat) (l : list hdl)        (* y := append(x, l...) *)
| SWrite (i k : nat) (f : hdl)            (* x[k] = f *)
| SGlobal (a : arg)                       (* srv.UseGlobal *)
| SAdd (id : Z) (a : arg)                 (* srv.AddHandler *)
| SAny (p : string) (a : arg).            (* srv.Any *)

(* panics are recovered and leave what was done before *)
Definition slstep (extra : nat -> nat -> nat) (st : slices) (o : slop) : slices :=
  match o with
  | SMake l spare => put (set_mem st (ss_mem st ++ [l ++ spare])) (next_var st) (Sl (List.length (ss_mem st)) (List.length l))
  | SAppend i l => match nth_error (ss_vars st) i with Some s => append_to extra st (next_var st) s l | None => st end
  | SWrite i k f =>
      match nth_error (ss_vars st) i with
      | Some s => if (k <? sl_len s)%nat then set_mem st (upd (ss_mem st) (sl_arr s) (upd (array (ss_mem st) (sl_arr s)) k f)) else st
      | None => st
      end
  | SGlobal a =>                                                              (* mux.go:235 *)
      match pass st a with
      | Some (st, s) => append_to extra st PGlobal (ss_globals st) (contents (ss_mem st) s)
      | None => st
      end
  | SAdd id a =>                                                              (* tcpx.go:329-344, mux.go:216-229 *)
      match pass st a with
      | Some (st, s) =>
          match rev (contents (ss_mem st) s) with
          | [] => st
          | f :: ms =>
              if ((1 <? sl_len s)%nat && ahas id (ss_self st))%bool then st
              else
                let st := if (1 <? sl_len s)%nat
                  then append_to extra (set_mem st (ss_mem st ++ [repeat Beat 10])) (PSelf id) (Sl (List.length (ss_mem st)) 0) (rev ms)
                  else st in
                if ahas id (ss_handlers st) then st else add_handler st id f
          end
      | None => st
      end
  | SAny p a =>                                                               (* tcpx.go:346-362, mux.go:72-81 *)
      match pass st a with
      | Some (st, s) =>
          if (sl_len s =? 0)%nat then st
          else
            let st := if (1 <? sl_len s)%nat then addurl extra p s st else st in
            addurl extra p s st
      | None => st
      end
  end.
Definition slrun (extra : nat -> nat -> nat) (h : list slop) : slices := fold_left (slstep extra) h slices0.
