(** Models the text of the getter and setter bodies: the strings the macro builds for
    one fixed-width integer before it hands them to [syn::parse_str].  (DeriveOps.v
    models what those bodies compute.) *)
From Coq Require Import String Ascii ZArith NArith List Bool DecimalString.
From Verif Require Import Base DeriveUtil.
Import ListNotations.
Open Scope string_scope.
Open Scope Z_scope.

(** [{}] of a non-negative integer (std): its decimal digits. *)
Definition dec (n : Z) : string := NilZero.string_of_uint (N.to_uint (Z.to_N n)).

(** derive/src/util.rs:122-147, [radix16_u8] and [radix16_u64] (their loop is
    [radix16] of DeriveUtil.v). *)
Definition hex (n : Z) : string := string_of_list_ascii (radix16 n).

(** derive/src/util.rs:49-55 and 169-175: the three forms of a shift.  [shift] is the
    difference of two u8 as i16; [shift.abs()] is printed. *)
Definition shift_text (mask_str : string) (shift : Z) : string :=
  if shift =? 0 then mask_str
  else if shift <? 0 then mask_str ++ " << " ++ dec (Z.abs shift)
  else mask_str ++ " >> " ++ dec (Z.abs shift).

(** derive/src/util.rs:38-57, [Display for GetOperation] *)
Definition get_op_text (op : getop) : string :=
  let mask_str :=
    if negb (g_mask op =? 255) then "({} & 0x" ++ hex (g_mask op) ++ ")" else "{}" in
  shift_text mask_str (g_shiftr op - g_shiftl op).

(** derive/src/util.rs:149-185, [Display for SetOperation] *)
Definition set_op_text (op : setop) : string :=
  let should_save := negb (s_save op =? 0) in
  let save_str := if should_save then "({packet} & 0x" ++ hex (s_save op) ++ ")" else "" in
  let mask_str :=
    if negb (s_vmask op =? 255) then "({val} & 0x" ++ hex (s_vmask op) ++ ")" else "{val}" in
  let shift_str := shift_text mask_str (s_shiftr op - s_shiftl op) in
  if should_save
  then "{packet} = (" ++ save_str ++ " | (" ++ shift_str ++ ") as u8) as u8"
  else "{packet} = (" ++ shift_str ++ ") as u8".

(** [str::replace] (std) for a non-empty pattern: occurrences are replaced from left
    to right and do not overlap; [skip] bytes of the current one are still to pass. *)
Fixpoint replace_from (skip : nat) (pat by_ s : string) : string :=
  match s with
  | "" => ""
  | String a r =>
      match skip with
      | S k => replace_from k pat by_ r
      | O => if prefix pat s then by_ ++ replace_from (String.length pat - 1) pat by_ r
             else String a (replace_from 0 pat by_ r)
      end
  end.
Definition replace (pat by_ s : string) : string := replace_from 0 pat by_ s.

(** A line feed. *)
Definition newline : string := String "010" "".

(** derive/src/gen.rs:755-768, [gen_set_ops] up to [parse_str] *)
Definition set_stmt (name : string) (idx : Z) (op : setop) : string :=
  replace "{val}" "val" (replace "{packet}" (name ++ "[co + " ++ dec idx ++ "]") (set_op_text op))
  ++ ";" ++ newline.
Fixpoint set_stmts (name : string) (idx : Z) (ops : list setop) : string :=
  match ops with
  | [] => ""
  | op :: r => set_stmt name idx op ++ set_stmts name (idx + 1) r
  end.
Definition set_body (name : string) (ops : list setop) : string :=
  "{" ++ set_stmts name 0 ops ++ "}".

(** derive/src/gen.rs:775-784, [build_return]: [max] terms, the last separator cut
    off.  With [max = 0] the subtraction of 3 would overflow; [operations] never
    returns an empty list. *)
Fixpoint return_terms (i : Z) (n : nat) : string :=
  match n with
  | O => ""
  | S k => "b" ++ dec i ++ " | " ++ return_terms (i + 1) k
  end.
Definition build_return (max : nat) : string :=
  let ret := return_terms 0 max in substring 0 (String.length ret - 3) ret.

(** derive/src/gen.rs:774-806, [gen_get_ops] up to [parse_str] *)
Definition get_stmt (name ty : string) (idx : Z) (op : getop) : string :=
  "let b" ++ dec idx ++ " = (" ++
  replace "{}" ("(" ++ name ++ "[co + " ++ dec idx ++ "] as " ++ ty ++ ")") (get_op_text op) ++
  ") as " ++ ty ++ ";" ++ newline.
Fixpoint get_stmts (name ty : string) (idx : Z) (ops : list getop) : string :=
  match ops with
  | [] => ""
  | op :: r => get_stmt name ty idx op ++ get_stmts name ty (idx + 1) r
  end.
Definition get_body (name ty : string) (ops : list getop) : string :=
  "{" ++
  match ops with
  | [op] => replace "{}" ("(" ++ name ++ "[co] as " ++ ty ++ ")") (get_op_text op)
  | _ => get_stmts name ty 0 ops ++ newline ++ build_return (List.length ops) ++ newline
  end ++ "}".

(** derive/src/gen.rs:174, 212, 488, 499, 536, 547: the expressions passed as [name]. *)
Definition buffer_names : list string := ["packet"; "self.packet"; "_self.packet"].
