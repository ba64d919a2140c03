(** Packets inside packets: what a stack of protocol layers is on the wire, and
    the program a user writes to take it apart. *)
From Coq Require Import String ZArith List Bool.
From Verif Require Import Base DeriveUtil DeriveOps DeriveGen Protocols SpecStruct SpecProto.
Import ListNotations.
Open Scope Z_scope.

(** The bytes of the payload field of a struct. *)
Definition payload_val (fs : schema) (xs : list val) : option buf :=
  match find (fun p => f_payload (fst p)) (combine fs xs) with
  | Some (_, VBytes p) => Some p
  | _ => None
  end.

(** One layer: a protocol of the crate and a struct for it. *)
Record layer := Layer { y_name : string; y_schema : schema; y_struct : list val }.

(** [w] is the wire form of the layers [ls] (outermost first) around [data]:
    the payload of every struct is the wire form of the layers inside it. *)
Fixpoint stacked (c : cfg) (ls : list layer) (data w : buf) : Prop :=
  match ls with
  | [] => w = data
  | l :: r => exists inner, stacked c r data inner /\
      In (y_name l, y_schema l) (crate_schemas c) /\
      packet_ok c (y_name l) (y_schema l) (y_struct l) /\
      payload_val (y_schema l) (y_struct l) = Some inner /\
      w = packet_wire c (y_name l) (y_schema l) (y_struct l)
  end.

(** Taking a buffer apart with the crate: for every layer [XPacket::new(b)?],
    [from_packet()], and on with [payload()]. *)
Fixpoint peel (c : cfg) (fss : list schema) (b : buf) : res (option (list (list val) * buf)) :=
  match fss with
  | [] => Ok (Some ([], b))
  | fs :: r =>
      match new fs b with
      | None => Ok None
      | Some p =>
          xs <- from_packet c fs p ;;
          inner <- payload c fs p ;;
          o <- peel c r inner ;;
          Ok (match o with Some (xss, d) => Some (xs :: xss, d) | None => None end)
      end
  end.

(** Putting it together: every struct is written with [populate] into a fresh
    zeroed buffer of the size of its wire form, the innermost first; [put] says
    how the payload is placed in the struct. *)
Definition with_payload (fs : schema) (xs : list val) (p : buf) : list val :=
  map (fun q => if f_payload (fst q) then VBytes p else snd q) (combine fs xs).
Fixpoint build (c : cfg) (ls : list layer) (data : buf) : buf * res unit :=
  match ls with
  | [] => (data, Ok tt)
  | l :: r =>
      match build c r data with
      | (inner, Ok _) =>
          let xs := with_payload (y_schema l) (y_struct l) inner in
          populate c (y_schema l) xs (repeat 0 (length (packet_wire c (y_name l) (y_schema l) xs)))
      | e => e
      end
  end.

(** [d] is a contiguous part of [b]. *)
Definition part_of (d b : buf) : Prop := exists pre post, b = pre ++ d ++ post.

(** Editing an inner layer in place: for every layer [MutableXPacket::new(b)],
    on with [payload_mut()], and finally the edit [f] of the innermost bytes.
    [f] returns the bytes it leaves and whether it panicked; a failing [new] is
    an [unwrap] that panics. *)
Fixpoint edit (c : cfg) (fss : list schema) (f : buf -> buf * res unit) (b : buf) : buf * res unit :=
  match fss with
  | [] => f b
  | fs :: r =>
      match new fs b with
      | None => (b, Panic EUnwrap)
      | Some p =>
          match payload_window c fs p with
          | Panic e => (b, Panic e)
          | Ok None => (b, snd (edit c r f []))
          | Ok (Some (lo, hi)) =>
              let '(s, o) := edit c r f (firstn (Z.to_nat (hi - lo)) (skipn (Z.to_nat lo) p)) in
              (splice b (Z.to_nat lo) s, o)
          end
      end
  end.

(** The two layers are the same but for the payload. *)
Definition same_header (l k : layer) : Prop :=
  y_name k = y_name l /\ y_schema k = y_schema l /\
  exists p, y_struct k = with_payload (y_schema l) (y_struct l) p.
