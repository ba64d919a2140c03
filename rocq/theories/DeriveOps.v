(** Model of the byte-level code emitted by derive/src/gen.rs for one
    fixed-width integer (getter and setter bodies). *)
From Coq Require Import ZArith List Bool.
From Verif Require Import Base DeriveUtil.
Import ListNotations.
Open Scope Z_scope.

(** Build configuration: overflow profile of the crate using the macro, of the
    macro crate itself, and the endianness of the machine. *)
Record cfg := Cfg { c_mode : mode; c_macro : mode; c_host_le : bool }.

(** A primitive type [u<size><be|le|he>] (derive/src/parse.rs:16). *)
Record prim := Prim { p_size : Z; p_end : endian }.

(** Width of the Rust integer behind [u<size>..]: the aliases of
    core/src/types.rs (u1..u8 = u8, u9..u16 = u16, u17..u32 = u32, u33..u64 =
    u64).  The alias tables are verified separately in CoreTypes.v. *)
Definition container (size : Z) : Z :=
  if size <=? 8 then 8 else if size <=? 16 then 16 else if size <=? 32 then 32 else 64.

(** derive/src/gen.rs:793-803, the statements [let b_i = ...] for the bytes
    [i..] and the final or of all of them. *)
Fixpoint get_multi (m : mode) (w : Z) (ops : list getop) (b : buf) (co i acc : Z) : res Z :=
  match ops with
  | [] => Ok acc
  | op :: r =>
      p <- add_u m usize co i ;;
      x <- idx b p ;;
      v <- eval_getop m w op x ;;
      get_multi m w r b co (i + 1) (Z.lor acc v)
  end.

(** derive/src/gen.rs:774-806 *)
Definition gen_get_ops (m : mode) (w : Z) (ops : list getop) (b : buf) (co : Z) : res Z :=
  match ops with
  | [op] => x <- idx b co ;; eval_getop m w op x
  | _ => get_multi m w ops b co 0 0
  end.

(** derive/src/gen.rs:755-768: one assignment per byte, in order.  (When the
    old byte is not needed the Rust code does not read it first; the store is
    bounds-checked all the same.) *)
Fixpoint gen_set_ops (m : mode) (w : Z) (ops : list setop) (co i val : Z) : mut :=
  match ops with
  | [] => mret
  | op :: r => fun b =>
      match (p <- add_u m usize co i ;; x <- idx b p ;;
             y <- eval_setop m w op x val ;; Ok (p, y)) with
      | Panic e => (b, Panic e)
      | Ok (p, y) => mseq (fun b => store b p y) (gen_set_ops m w r co (i + 1) val) b
      end
  end.

(** derive/src/gen.rs:127 and 302: the operations of a primitive starting
    [bit_offset] bits into the header.  [None]: the macro panics ([unwrap] of
    [None], or arithmetic overflow in a checked macro build). *)
Definition plan (c : cfg) (bit_offset : Z) (p : prim) : option (list getop) :=
  match operations (c_macro c) (c_host_le c) (bit_offset mod 8) (p_size p) (p_end p) with
  | Ok r => r
  | Panic _ => None
  end.

(** Body of a generated getter (derive/src/gen.rs:477-521) at byte offset
    [co].  A field the macro rejects has no getter; the model panics. *)
Definition prim_get (c : cfg) (bit_offset : Z) (p : prim) (b : buf) (co : Z) : res Z :=
  match plan c bit_offset p with
  | Some ops => gen_get_ops (c_mode c) (container (p_size p)) ops b co
  | None => Panic EUnwrap
  end.

(** Body of a generated setter (derive/src/gen.rs:525-569). *)
Definition prim_set (c : cfg) (bit_offset : Z) (p : prim) (val co : Z) : mut :=
  match plan c bit_offset p with
  | Some ops => gen_set_ops (c_mode c) (container (p_size p)) (to_mutator ops) co 0 val
  | None => mpanic EUnwrap
  end.
