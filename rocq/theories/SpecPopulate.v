(** Specification of what a setter of a list of packets leaves in the buffer
    (C85).  Nothing of the model is used. *)
From Coq Require Import ZArith List.
From Verif Require Import Base.
Import ListNotations.
Open Scope Z_scope.

(** The bytes that reach the buffer when the elements [xs], each standing for
    the bytes [E x], are stored one after the other into an area of [room]
    bytes and the check whether they still fit comes after every element: the
    elements that fit and the first one that does not. *)
Fixpoint written {A} (E : A -> buf) (room : Z) (xs : list A) : buf :=
  match xs with
  | [] => []
  | x :: r => E x ++ if blen (E x) <=? room then written E (room - blen (E x)) r else []
  end.

(** Bytes [0, n) of both buffers agree. *)
Definition same_before (n : Z) (b b' : buf) : Prop :=
  length b' = length b /\ firstn (Z.to_nat n) b' = firstn (Z.to_nat n) b.
