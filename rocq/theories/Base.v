(* Shared vocabulary: Go results, errors, bytes, finite maps.
   Nothing in this file models tcpx itself; it fixes how Go values are represented. *)
From Coq Require Export ZArith Ascii String Bool Lia.
From Coq Require Export List.
Export ListNotations.
Global Open Scope Z_scope.
Global Open Scope list_scope.

(* ------------------------------------------------------------------ *)
(* Results of Go calls.  [Ok] = returned normally with nil error,
   [Err] = returned a non-nil error, [Panic] = the call panicked.      *)

(* The identity of errors the code (or a caller) can distinguish.
   [EEOF] is io.EOF, [EIO n] any other transport error, [EMsg s] an error
   created by the library (message text abbreviated), [EWrap e] = errorx.Wrap(e)
   (a wrapped io.EOF is no longer == io.EOF). *)
Inductive gerr : Type :=
| EEOF
| EIO (n : Z)
| EMsg (s : string)
| EWrap (e : gerr).

Inductive res (A : Type) : Type :=
| Ok (a : A)
| Err (e : gerr)
| Panic.
Arguments Ok {A} a.
Arguments Err {A} e.
Arguments Panic {A}.

Definition rbind {A B} (r : res A) (k : A -> res B) : res B :=
  match r with
  | Ok a => k a
  | Err e => Err e
  | Panic => Panic
  end.
Notation "x <- e ;; k" := (rbind e (fun x => k))
  (at level 61, e at next level, right associativity).

(* rewrap an error, as in  if e != nil { return errorx.Wrap(e) } *)
Definition rwrap {A} (r : res A) : res A :=
  match r with
  | Ok a => Ok a
  | Err e => Err (EWrap e)
  | Panic => Panic
  end.

Definition is_panic {A} (r : res A) : bool :=
  match r with Panic => true | _ => false end.
Definition is_ok {A} (r : res A) : bool :=
  match r with Ok _ => true | _ => false end.

(* ------------------------------------------------------------------ *)
(* Bytes *)

Notation byte := ascii (only parsing).
Definition bytes := list ascii.

Definition code (b : ascii) : Z := Z.of_N (N_of_ascii b).
(* Go conversion byte(x) of an integer *)
Definition byte_of (z : Z) : ascii := ascii_of_N (Z.to_N (z mod 256)).

Definition blen (b : bytes) : Z := Z.of_nat (List.length b).

(* ASCII text of a Coq string literal *)
Definition str_bytes (s : string) : bytes := list_ascii_of_string s.

(* ------------------------------------------------------------------ *)
(* Machine integers *)

Definition two32 : Z := 4294967296.
Definition two31 : Z := 2147483648.
(* Go conversion uint32(x) *)
Definition to_uint32 (z : Z) : Z := z mod two32.
(* Go conversion int32(x) *)
Definition to_int32 (z : Z) : Z :=
  let u := z mod two32 in if u <? two31 then u else u - two32.
Definition is_int32 (z : Z) : Prop := - two31 <= z < two31.

(* ------------------------------------------------------------------ *)
(* Finite maps as association lists.  Go map iteration order is not
   represented: statements only use lookups.                            *)

Class EqK (K : Type) := { keqb : K -> K -> bool;
                          keqb_eq : forall x y, keqb x y = true <-> x = y }.
#[global] Instance EqK_string : EqK string := {| keqb := String.eqb; keqb_eq := String.eqb_eq |}.
#[global] Instance EqK_Z : EqK Z := {| keqb := Z.eqb; keqb_eq := Z.eqb_eq |}.
#[global] Instance EqK_nat : EqK nat := {| keqb := Nat.eqb; keqb_eq := Nat.eqb_eq |}.

Section Assoc.
  Context {K V : Type} {E : EqK K}.

  Fixpoint aget (k : K) (m : list (K * V)) : option V :=
    match m with
    | [] => None
    | (k', v) :: m' => if keqb k k' then Some v else aget k m'
    end.

  Fixpoint adel (k : K) (m : list (K * V)) : list (K * V) :=
    match m with
    | [] => []
    | (k', v) :: m' => if keqb k k' then adel k m' else (k', v) :: adel k m'
    end.

  Definition aset (k : K) (v : V) (m : list (K * V)) : list (K * V) :=
    (k, v) :: adel k m.

  Definition ahas (k : K) (m : list (K * V)) : bool :=
    match aget k m with Some _ => true | None => false end.
End Assoc.
