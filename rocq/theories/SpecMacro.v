(** What the derive macro is expected to emit for a struct, part by part. *)
From Coq Require Import String Ascii ZArith List Bool.
From Verif Require Import Base DeriveUtil DeriveOps DeriveParse RustLex FmtText EmitText EmitGen.
Import ListNotations.
Open Scope string_scope.
Open Scope Z_scope.

Definition in_quotes (s : string) : string := String quote_char (s ++ String quote_char "").

(** derive/src/gen.rs:25-41: the two structs. *)
Definition want_struct (base : string) (mutable : bool) : list ttree :=
  (trees_of "#[derive(PartialEq)] pub struct" ++ [TIdent (packet_name mutable base)] ++ trees_of "<'p>" ++
   [TGroup "{}" (trees_of "packet: libpacket_core::" ++ [TIdent (if mutable then "MutPacketData" else "PacketData")] ++ trees_of "<'p>,")])%list.
(** derive/src/gen.rs:722-753: [Debug]: the format string of FmtText.v (used by C88) and the
    getters of the fields that are not the payload, in order. *)
Definition shown (ps : list pfield) : list string := map pf_name (filter (fun p => negb (pf_payload p)) ps).
Definition debug_with (name : string) (text : ttree) (getters : list (list ttree)) : list ttree :=
  (trees_of "impl<'p> std::fmt::Debug for" ++ [TIdent name] ++ trees_of "<'p>" ++
   [TGroup "{}" (trees_of ("#[cfg_attr(feature = " ++ in_quotes "clippy" ++ ", allow(used_underscore_binding))]") ++
                 trees_of "fn fmt(&self, fmt: &mut std::fmt::Formatter) -> std::fmt::Result" ++
      [TGroup "{}" (trees_of "write!" ++ [TGroup "()" (trees_of "fmt," ++ [text; TPunct ","] ++ List.concat (map (fun g => g ++ [TPunct ","]) getters))])])])%list.
Definition want_debug (base : string) (mutable : bool) (ps : list pfield) : option (list ttree) :=
  match packet_fmt (packet_name mutable base) (shown ps) with
  | Some f => Some (debug_with (packet_name mutable base) (TLit false (in_quotes f))
                      (map (fun n => [TIdent "self"; TPunct "."; TIdent ("get_" ++ n); TGroup "()" []]) (shown ps)))
  | None => None
  end.

Fixpoint together {A} (l : list (option (list A))) : option (list A) :=
  match l with
  | [] => Some []
  | x :: r => match x, together r with Some a, Some b => Some (a ++ b)%list | _, _ => None end
  end.
(** derive/src/lib.rs:172-191: the parts in order; EmitGen.v has the parts C93, C94 and C95
    run. *)
Definition want_parts (m : mode) (host_le : bool) (base : string) (ps : list pfield) : list (option (list ttree)) :=
  [Some (want_struct base false); Some (want_struct base true);
   emit_impl m host_le false base ps; emit_impl m host_le true base ps;
   emit_packet m host_le base ps false false; emit_packet m host_le base ps true false; emit_packet m host_le base ps true true;
   emit_size m host_le base ps; Some (emit_iterable base); Some (emit_converters base ps);
   want_debug base false ps; want_debug base true ps].
Definition want_code (m : mode) (host_le : bool) (base : string) (ps : list pfield) : option (list ttree) :=
  together (want_parts m host_le base ps).
