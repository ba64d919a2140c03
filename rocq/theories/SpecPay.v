(** Where the payload of any struct starts and ends, and the [PacketSize] of its packet types. *)
From Coq Require Import String Ascii ZArith List Bool.
From Verif Require Import FmtText RustLex DeriveParse EmitText EmitGen SpecAny SpecBody.
Import ListNotations.
Open Scope string_scope.
Open Scope Z_scope.

(** An offset: whole bytes of the fixed part plus the lengths of lists before it
    (current_offset, derive/src/gen.rs:63-71). *)
Definition place_of (bits : Z) (lens : list (list ttree)) : list ttree := TLit true (dec (bits / 8) ++ "usize") :: flat_map (fun l => TPunct "+" :: l) lens.
(** The lengths of the fields with [#[length]], in order; a length function is given the
    buffer from the place of its field on (gen.rs:103-113, 362-364). *)
Fixpoint lens_from (bits : Z) (lens : list (list ttree)) (ps : list pfield) : list (list ttree) :=
  match ps with
  | [] => lens
  | p :: r => lens_from (bits + bits_taken p) (match pf_len p with Some l => lens ++ [length_expr (place_of bits lens) l] | None => lens end)%list r
  end.
Definition place (ps : list pfield) : list ttree := place_of (all_bits ps) (lens_from 0 [] ps).
(** The end of the payload [p] after the fields [a]: the end of the buffer, or its length
    later (gen.rs:114-124). *)
Definition payload_end (a : list pfield) (p : pfield) : list ttree :=
  match pf_len p with Some l => place a ++ TPunct "+" :: length_expr (place a) l | None => trees_of "self.packet.len()" end%list.

(** [impl<'a> libpacket_core::Trait for Name<'a>] with these tokens inside. *)
Definition trait_holds (trait_ name : string) (part l : list ttree) : Prop :=
  exists body, l = (trees_of "impl<'a> libpacket_core::" ++ [TIdent trait_] ++ trees_of "for" ++ [TIdent name] ++ trees_of "<'a>" ++ [TGroup "{}" body])%list /\ contains body part.
(** gen.rs:642-649 *)
Definition payload_fn (from upto : list ttree) : list ttree :=
  (trees_of "fn payload<'p>(&'p self) -> &'p [u8]" ++
   [TGroup "{}" (trees_of "let start =" ++ from ++ trees_of "; let end = std::cmp::min" ++ [TGroup "()" (upto ++ trees_of ", self.packet.len()")] ++
     trees_of "; if self.packet.len() <= start { return &[]; } &self.packet[start..end]")])%list.
Definition payload_mut_fn (from upto : list ttree) : list ttree :=
  (trees_of "fn payload_mut<'p>(&'p mut self) -> &'p mut [u8]" ++
   [TGroup "{}" (trees_of "let start =" ++ from ++ trees_of "; let end = std::cmp::min" ++ [TGroup "()" (upto ++ trees_of ", self.packet.len()")] ++
     trees_of "; if self.packet.len() <= start { return &mut []; } &mut self.packet[start..end]")])%list.
(** gen.rs:580-582 and 587-589 *)
Definition sized_fn (size : list ttree) : list ttree := (trees_of "fn packet_size(&self) -> usize" ++ [TGroup "{}" size])%list.
