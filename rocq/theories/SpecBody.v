(** The bodies of [populate], [packet_size] and [from_packet], as tokens. *)
From Coq Require Import String Ascii ZArith List Bool.
From Verif Require Import FmtText RustLex DeriveParse EmitText EmitGen SpecAny.
Import ListNotations.
Open Scope string_scope.
Open Scope Z_scope.

(** [self.set_x(packet.x);], with [&] for lists (derive/src/gen.rs:368-372). *)
Definition set_call (p : pfield) : list ttree :=
  [TIdent "self"; TPunct "."; TIdent ("set_" ++ pf_name p);
   TGroup "()" (match pf_ty p with RVector _ => [TPunct "&"] | _ => [] end ++ [TIdent "packet"; TPunct "."; TIdent (pf_name p)])%list; TPunct ";"].
(** [+ _packet.x.len()] (parse.rs:186, gen.rs:365-367, 390). *)
Definition plus_len (p : pfield) : list ttree :=
  if pf_struct_len p then [TPunct "+"; TIdent "_packet"; TPunct "."; TIdent (pf_name p); TPunct "."; TIdent "len"; TGroup "()" []] else [].
(** [x: self.get_x(),] (gen.rs:691-696). *)
Definition get_call (p : pfield) : list ttree :=
  [TIdent (pf_name p); TPunct ":"; TIdent "self"; TPunct "."; TIdent ("get_" ++ pf_name p); TGroup "()" []; TPunct ","].

(** The tokens [part] stand in [l]; in the [impl] block of type [name]. *)
Definition contains (l part : list ttree) : Prop := exists a b, l = (a ++ part ++ b)%list.
Definition impl_holds (name : string) (part l : list ttree) : Prop :=
  exists body, l = (trees_of "impl<'a>" ++ [TIdent name] ++ trees_of "<'a>" ++ [TGroup "{}" body])%list /\ contains body part.
(** gen.rs:375-387 *)
Definition populate_fn (base : string) (ps : list pfield) : list ttree :=
  (trees_of "pub fn populate" ++ [TGroup "()" (trees_of "&mut self, packet: &" ++ [TIdent base]); TGroup "{}" (flat_map set_call ps)])%list.
(** gen.rs:454-458: the bits of the fixed part in bytes, rounded down, plus lengths. *)
Definition packet_size_fn (base : string) (ps : list pfield) : list ttree :=
  (trees_of "pub fn packet_size" ++ [TGroup "()" (trees_of "_packet: &" ++ [TIdent base])] ++ trees_of "-> usize" ++
   [TGroup "{}" (TLit true (dec (all_bits ps / 8) ++ "usize") :: flat_map plus_len ps)])%list.
(** gen.rs:447-449 *)
Definition minimum_fn (bytes : Z) : list ttree := (trees_of "pub const fn minimum_packet_size() -> usize" ++ [TGroup "{}" [TLit true (dec bytes ++ "usize")]])%list.
(** gen.rs:698-708 and 709-719 *)
Definition from_packet_impl (name base : string) (ps : list pfield) : list ttree :=
  (trees_of "impl<'p> libpacket_core::FromPacket for" ++ [TIdent name] ++ trees_of "<'p>" ++
   [TGroup "{}" (trees_of "type T =" ++ [TIdent base] ++ trees_of "; #[inline] fn from_packet(&self) ->" ++ [TIdent base;
      TGroup "{}" (trees_of "use libpacket_core::Packet;" ++ [TIdent base; TGroup "{}" (flat_map get_call ps)])])])%list.
