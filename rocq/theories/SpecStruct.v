(** Specification of packet structs: when the values of a struct belong
    together, and the bytes the struct stands for. *)
From Coq Require Import String ZArith List Bool.
From Verif Require Import Base BitSpec DeriveUtil DeriveOps DeriveGen SpecPacket.
Import ListNotations.
Open Scope Z_scope.

(** The fields of a struct by name. *)
Definition struct_env (fs : schema) (xs : list val) : env := fun n =>
  match find (fun p => String.eqb (fst p) n) (combine (map f_name fs) xs) with
  | Some (_, v) => Ok v
  | None => Panic EDiverge
  end.

Section Struct.
(** Bytes and well-formedness of the packets inside vectors, by field name. *)
Variable ie : string -> list val -> buf.
Variable iw : string -> list val -> Prop.

(** A value of the type of a field: integers fit their width. *)
Definition typed_val (f : field) (x : val) : Prop :=
  match f_ty f, x with
  | TPrim p, VInt z => 0 <= z < 2 ^ p_size p
  | TMisc ps, VTup l => Forall2 (fun p z => 0 <= z < 2 ^ p_size p) ps l
  | TVecPrim _, VBytes l => bytes_ok l
  | TVecPkt _, VPkts l => Forall (iw (f_name f)) l
  | _, _ => False
  end.
Definition typed (fs : schema) (xs : list val) : Prop := Forall2 typed_val fs xs.

(** Every vector has the number of bytes its length attribute says, computed
    from the other fields of the struct. *)
Definition consistent (fs : schema) (xs : list val) : Prop :=
  Forall2 (fun f x => match f_len f with
                      | Some le => forall r, le (struct_env fs xs) r = Ok (blen (vec_bytes ie (f_name f) x))
                      | None => True
                      end) fs xs.

(** The bytes of a struct. *)
Definition wire (c : cfg) (fs : schema) (xs : list val) : buf := pack (encode (c_host_le c) ie fs xs).

Definition struct_ok (c : cfg) (fs : schema) (xs : list val) : Prop :=
  typed fs xs /\ consistent fs xs /\ blen (wire c fs xs) < 2 ^ 63.
End Struct.
