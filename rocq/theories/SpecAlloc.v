(* How much memory is asked for. *)
From Verif Require Export SpecServer AllocModel.

(* the size asked for, in bytes (pointers have eight) *)
Definition size (m : mk) : Z := match m with MBytes n => n | MCtxs n => 8 * n end.
Definition is_buffer (m : mk) : Prop := match m with MBytes _ => True | MCtxs _ => False end.

(* one frame: its four length bytes, its content, and the whole *)
Definition frame_buffers (b : bytes) : list mk := [MBytes 4; MBytes (blen b - 4); MBytes (blen b)].
(* what handing on a part of the stream costs *)
Definition asked_for (e : sev) : list mk :=
  match e with
  | SDispatch b => frame_buffers b
  | SPipe (b :: l) _ => frame_buffers b ++ MCtxs (1 + Z.of_nat (List.length l)) :: flat_map frame_buffers l
  | _ => []
  end.
