(** The methods a packet type has, read off the tokens of its [impl] block. *)
From Coq Require Import String Ascii ZArith List Bool.
From Verif Require Import RustLex DeriveParse EmitText EmitGen.
Import ListNotations.
Open Scope string_scope.

(** The first group: after the name of a function, its parameters. *)
Fixpoint params (l : list ttree) : option (list ttree) :=
  match l with
  | [] => None
  | TGroup d g :: _ => if String.eqb d "()" then Some g else None
  | _ :: r => params r
  end.
(** The functions declared in the body of an [impl], in order. *)
Fixpoint declared (l : list ttree) : list (string * option (list ttree)) :=
  match l with
  | [] => []
  | t :: r =>
      (match t, r with
       | TIdent k, TIdent n :: q => if String.eqb k "fn" then [(n, params q)] else []
       | _, _ => []
       end ++ declared r)%list
  end.
Definition receiver (args : option (list ttree)) : string :=
  match args with
  | Some (TPunct "&" :: TIdent "mut" :: TIdent "self" :: _) => "&mut self"
  | Some (TPunct "&" :: TIdent "self" :: _) => "&self"
  | Some (TPunct "&" :: TPunct "'" :: TIdent _ :: TIdent "self" :: _) => "&self"
  | Some (TIdent "self" :: _) => "self"
  | Some _ => ""
  | None => "?"
  end.
Definition signatures (l : list ttree) : list (string * string) := map (fun d => (fst d, receiver (snd d))) (declared l).

(** Documented methods: the templates of derive/src/gen.rs:136-162, 175-232, 247-283, 336-361, 377-466, 510-569. *)
Definition common_methods : list (string * string) :=
  [("new", ""); ("owned", ""); ("to_immutable", "&self"); ("consume_to_immutable", "self"); ("minimum_packet_size", ""); ("packet_size", "")].
Definition getters (p : pfield) : list (string * string) :=
  let n := pf_name p in
  match pf_ty p with
  | RVector t =>
      app (if pf_payload p then [] else [("get_" ++ n ++ "_raw", "&self")])
          match t with RMisc _ => [("get_" ++ n, "&self"); ("get_" ++ n ++ "_iter", "&self")] | _ => [("get_" ++ n, "&self")] end
  | _ => [("get_" ++ n, "&self")]
  end.
Definition setters (p : pfield) : list (string * string) :=
  let n := pf_name p in
  match pf_ty p with
  | RVector _ => app (if pf_payload p then [] else [("get_" ++ n ++ "_raw_mut", "&mut self")]) [("set_" ++ n, "&mut self")]
  | _ => [("set_" ++ n, "&mut self")]
  end.
(** An [impl] block for the type [name] with exactly the methods [ms]. *)
Definition impl_with (name : string) (ms : list (string * string)) (l : list ttree) : Prop :=
  exists body, l = (trees_of "impl<'a>" ++ [TIdent name] ++ trees_of "<'a>" ++ [TGroup "{}" body])%list /\ signatures body = ms.

(** Fields whose methods have different names: no field is called like another, like a list
    that is not the payload with [_raw] or [_raw_mut], or like a list of packets with [_iter]. *)
Definition names_differ (ps : list pfield) : Prop :=
  NoDup (map pf_name ps) /\
  forall p q, In p ps -> In q ps ->
    (forall t, pf_ty p = RVector t -> pf_payload p = false -> pf_name q <> pf_name p ++ "_raw" /\ pf_name q <> pf_name p ++ "_raw_mut") /\
    (forall t, pf_ty p = RVector (RMisc t) -> pf_name q <> pf_name p ++ "_iter").
