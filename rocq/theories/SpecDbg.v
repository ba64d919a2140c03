(** [Debug] and the iterator of any struct. *)
From Coq Require Import String Ascii ZArith List Bool.
From Verif Require Import RustLex DeriveParse EmitText EmitGen.
Import ListNotations.
Open Scope string_scope.
Open Scope Z_scope.

(** The names of the fields that are not the payload (derive/src/gen.rs:726-727). *)
Definition visible (ps : list pfield) : list string := map pf_name (filter (fun p => negb (pf_payload p)) ps).
Definition dq : string := String (ascii_of_nat 34) "".
(** gen.rs:739-744 and 746-751: [write!(fmt, "...", self.get_a(), self.get_b(),)] *)
Definition debug_impl (name fmt : string) (names : list string) : list ttree :=
  (trees_of "impl<'p> std::fmt::Debug for" ++ [TIdent name] ++ trees_of "<'p>" ++
   [TGroup "{}" (trees_of ("#[cfg_attr(feature = " ++ dq ++ "clippy" ++ dq ++ ", allow(used_underscore_binding))] fn fmt(&self, fmt: &mut std::fmt::Formatter) -> std::fmt::Result") ++
      [TGroup "{}" (trees_of "write!" ++ [TGroup "()" (trees_of "fmt," ++ [TLit false (dq ++ fmt ++ dq); TPunct ","] ++
         flat_map (fun n => [TIdent "self"; TPunct "."; TIdent ("get_" ++ n); TGroup "()" []; TPunct ","]) names)])])])%list.
(** gen.rs:660-682: the iterator over packets in a slice. *)
Definition iterator_items (iter packet : string) : list ttree :=
  (trees_of "pub struct" ++ [TIdent iter] ++ trees_of "<'a> { buf: &'a [u8], } impl<'a> Iterator for" ++ [TIdent iter] ++ trees_of "<'a>" ++
   [TGroup "{}" (trees_of "type Item =" ++ [TIdent packet] ++ trees_of "<'a>; fn next(&mut self) -> Option<" ++ [TIdent packet] ++ trees_of "<'a>>" ++
      [TGroup "{}" (trees_of "use libpacket_core::PacketSize; use std::cmp::min; if self.buf.len() > 0" ++
         [TGroup "{}" (trees_of "if let Some(ret) =" ++ [TIdent packet] ++
            trees_of "::new(self.buf) { let start = min(ret.packet_size(), self.buf.len()); self.buf = &self.buf[start..]; return Some(ret); }")] ++ trees_of "None")] ++
      trees_of "fn size_hint(&self) -> (usize, Option<usize>) { (0, None) }")])%list.
