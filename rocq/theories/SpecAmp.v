(* How much memory is asked for in all, against what was received. *)
From Verif Require Export SpecAlloc.

(* the bytes a peer sends, all of them *)
Fixpoint received (r : reader) : Z :=
  match r with
  | [] => 0
  | RData bs :: r' => blen bs + received r'
  | RFail _ :: r' => received r'
  | RDataFail bs _ :: r' => blen bs + received r'
  end.
(* the sizes of all byte buffers together *)
Definition buffers (l : list mk) : Z := fold_right (fun m a => match m with MBytes n => n + a | MCtxs _ => a end) 0 l.
(* the number of slices of pointers *)
Definition batches (l : list mk) : Z := fold_right (fun m a => match m with MBytes _ => a | MCtxs _ => 1 + a end) 0 l.
