(** Rust run-time vocabulary shared by all model files: results with explicit
    panics, fixed-width unsigned arithmetic, slices.  Nothing in this file is
    specific to libpacket; it writes down the standard-library behaviour the
    repository relies on. *)
From Coq Require Import ZArith List Bool String.
Import ListNotations.
Open Scope Z_scope.

(** Why a Rust computation does not return: the different sources of [panic!]
    that occur in /repo, plus unbounded recursion or iteration. *)
Inductive err :=
| EIndex      (* slice / index out of range *)
| EOverflow   (* arithmetic overflow with overflow checks on *)
| EAssert     (* assert! *)
| EUnwrap     (* Option::unwrap on None, expect *)
| EUnimpl     (* unimplemented!() *)
| EDiverge.   (* endless loop / endless recursion *)

Inductive res (A : Type) :=
| Ok (a : A)
| Panic (e : err).
Arguments Ok {A} a.
Arguments Panic {A} e.

Definition bind {A B} (x : res A) (f : A -> res B) : res B :=
  match x with Ok a => f a | Panic e => Panic e end.

Notation "x <- e1 ;; e2" := (bind e1 (fun x => e2))
  (at level 61, e1 at next level, right associativity).
Notation "' p <- e1 ;; e2" := (bind e1 (fun p => e2))
  (at level 61, p pattern, e1 at next level, right associativity).

Definition is_ok {A} (x : res A) : bool :=
  match x with Ok _ => true | Panic _ => false end.

Definition rmap {A B} (f : A -> B) (x : res A) : res B :=
  match x with Ok a => Ok (f a) | Panic e => Panic e end.

(** Overflow profile: [Checked] = debug builds (overflow panics), [Wrapping] =
    release builds (two's complement wrap-around). *)
Inductive mode := Checked | Wrapping.

(** Unsigned [w]-bit addition, subtraction, multiplication. *)
Definition ovf (m : mode) (w : Z) (r : Z) : res Z :=
  if (0 <=? r) && (r <? 2 ^ w) then Ok r
  else match m with Checked => Panic EOverflow | Wrapping => Ok (r mod 2 ^ w) end.
Definition add_u (m : mode) (w a b : Z) : res Z := ovf m w (a + b).
Definition sub_u (m : mode) (w a b : Z) : res Z := ovf m w (a - b).
Definition mul_u (m : mode) (w a b : Z) : res Z := ovf m w (a * b).

(** [saturating_sub] on unsigned integers. *)
Definition sat_sub (a b : Z) : Z := Z.max 0 (a - b).

(** [x as uW]. *)
Definition cast_u (w x : Z) : Z := x mod 2 ^ w.

(** [x << s] and [x >> s] on [w]-bit unsigned integers: a shift amount of at
    least [w] is an overflow (panic, or masked amount when wrapping); bits
    shifted out are dropped silently. *)
Definition shl_u (m : mode) (w x s : Z) : res Z :=
  if (0 <=? s) && (s <? w) then Ok ((Z.shiftl x s) mod 2 ^ w)
  else match m with
       | Checked => Panic EOverflow
       | Wrapping => Ok ((Z.shiftl x (s mod w)) mod 2 ^ w)
       end.
Definition shr_u (m : mode) (w x s : Z) : res Z :=
  if (0 <=? s) && (s <? w) then Ok (Z.shiftr x s)
  else match m with
       | Checked => Panic EOverflow
       | Wrapping => Ok (Z.shiftr x (s mod w))
       end.

(** [usize] is 64 bits wide (assumption of the model, see DESIGN.md). *)
Definition usize : Z := 64.

(** Buffers.  A byte is a [Z]; [bytes_ok] says that all of them are bytes. *)
Definition buf := list Z.
Definition byte_ok (x : Z) : Prop := 0 <= x < 256.
Definition bytes_ok (b : buf) : Prop := Forall byte_ok b.
Definition blen (b : buf) : Z := Z.of_nat (List.length b).

(** A slice of Rust is never longer than [isize::MAX] bytes. *)
Definition buf_ok (b : buf) : Prop := bytes_ok b /\ blen b < 2 ^ 63.

(** [b[i]]. *)
Definition idx (b : buf) (i : Z) : res Z :=
  if (0 <=? i) && (i <? blen b) then Ok (nth (Z.to_nat i) b 0) else Panic EIndex.

(** [&b[lo..hi]]. *)
Definition slice (b : buf) (lo hi : Z) : res buf :=
  if (0 <=? lo) && (lo <=? hi) && (hi <=? blen b)
  then Ok (firstn (Z.to_nat (hi - lo)) (skipn (Z.to_nat lo) b))
  else Panic EIndex.

(** [&b[lo..]]. *)
Definition slice_from (b : buf) (lo : Z) : res buf :=
  if (0 <=? lo) && (lo <=? blen b)
  then Ok (skipn (Z.to_nat lo) b)
  else Panic EIndex.

(** A mutation of the packet buffer: the new contents (also when it panics half
    way) and whether it panicked. *)
Definition mut := buf -> buf * res unit.

Definition mret : mut := fun b => (b, Ok tt).
Definition mpanic (e : err) : mut := fun b => (b, Panic e).
Definition mseq (f g : mut) : mut := fun b =>
  let '(b1, r) := f b in
  match r with Ok _ => g b1 | Panic e => (b1, Panic e) end.
Fixpoint mseqs (fs : list mut) : mut :=
  match fs with
  | [] => mret
  | f :: r => mseq f (mseqs r)
  end.

(** Replace element [i] of a list. *)
Fixpoint upd_nat {A} (l : list A) (i : nat) (v : A) : list A :=
  match l, i with
  | [], _ => []
  | _ :: r, O => v :: r
  | x :: r, S j => x :: upd_nat r j v
  end.

(** [b[i] = v]. *)
Definition store (b : buf) (i v : Z) : buf * res unit :=
  if (0 <=? i) && (i <? blen b) then (upd_nat b (Z.to_nat i) v, Ok tt)
  else (b, Panic EIndex).

(** [b[lo..].write(bs)]: overwrite the bytes at [lo..lo+len bs] (used for
    [copy_from_slice] after its bounds have been checked). *)
Definition splice (b : buf) (lo : nat) (bs : buf) : buf :=
  firstn lo b ++ bs ++ skipn (lo + List.length bs) b.

(** [b[lo..hi].copy_from_slice(vals)] where [hi = lo + vals.len()]. *)
Definition copy_at (m : mode) (b : buf) (lo : Z) (vals : buf) : buf * res unit :=
  match add_u m usize lo (blen vals) with
  | Panic e => (b, Panic e)
  | Ok hi =>
      if (0 <=? lo) && (lo <=? hi) && (hi <=? blen b) then
        (* copy_from_slice asserts equal lengths *)
        if hi - lo =? blen vals then (splice b (Z.to_nat lo) vals, Ok tt)
        else (b, Panic EAssert)
      else (b, Panic EIndex)
  end.

(** Lift a mutation of [&mut b[lo..]] to a mutation of [b]. *)
Definition on_tail (lo : nat) (f : mut) : mut := fun b =>
  let '(t, r) := f (skipn lo b) in (firstn lo b ++ t, r).
