(** What the emitted iterator and the emitted conversions do when they are run from their
    text: the context they are run in. *)
From Coq Require Import String Ascii ZArith List Bool.
From Verif Require Import Base DeriveUtil DeriveOps DeriveGen DeriveParse Protocols Quic FmtText
  RustLex RustSyntax RustItem RustSem RustMethod RustExec CrateText SpecSource SpecItem EmitText GenText EmitGen SpecEmit.
Import ListNotations.
Open Scope string_scope.
Open Scope Z_scope.

(** ** The iterator (derive/src/gen.rs:655-685) *)

(** [next] is run on the bytes the iterator holds, the place [self.buf].  It refers to
    [XPacket::new] and [packet_size] of an XPacket, which are what the model says. *)
Definition next_sig (base f : string) : option RustSem.shape :=
  if String.eqb f (type_name base false ++ "::new") then Some SVal
  else if String.eqb f (type_name base false ++ "::packet_size") then Some (SInt Usize)
  else None.
Definition next_fun (c : cfg) (base : string) (fs : schema) (f : string) (args : list rv) : option answer :=
  if String.eqb f (type_name base false ++ "::new")
  then match args with [VA _ d] => Some (AVal (Ok (made base false (new fs d)))) | _ => None end
  else if String.eqb f (type_name base false ++ "::packet_size")
  then match args with [VP _ d] => Some (AInt Usize (packet_size c fs d)) | _ => None end
  else None.
Definition run_iter (c : cfg) (base : string) (fs : schema) (me : meth) (b : buf) : ran :=
  match bind_args (fn_params (m_fn me)) [VSelf] with
  | Some s =>
      let t := int_ty (fn_ret (m_fn me)) in
      finished "self.buf"
        (exec (c_mode c) crate_const (next_sig base) emit_hint "self.buf" (fun _ => next_fun c base fs) no_act t t
           (fn_body (m_fn me)) (s ++ [("self.buf", VA (Some U8) b)])%list)
  | None => Unknown
  end.
(** What a call of [next] does to an iterator over [b]: the item and what is left. *)
Definition steps (base : string) (o : ran) (b : buf) (r : res (option (buf * buf))) : Prop :=
  o = match r with
      | Ok None => Returned (VO None) b
      | Ok (Some (item, rest)) => Returned (VO (Some (VP (type_name base false) item))) rest
      | Panic e => Panicked e b
      end.
(** [for item in iter]: the items, and the panic that ends the loop if there is one;
    [None] if it has not ended after [n] calls of [next]. *)
Fixpoint drain (step : buf -> ran) (n : nat) (b : buf) : option (list buf * option err) :=
  match n with
  | O => None
  | S k =>
      match step b with
      | Returned (VO None) _ => Some ([], None)
      | Returned (VO (Some (VP _ item))) rest => option_map (fun '(l, e) => (item :: l, e)) (drain step k rest)
      | Panicked e _ => Some ([], Some e)
      | _ => None
      end
  end.
(** What the loop should show: every item starts where the one before it ends, and the
    loop ends when the rest is empty or too short for another one, or with the panic of
    [packet_size]. *)
Inductive items_of (c : cfg) (fs : schema) : buf -> list buf -> option err -> Prop :=
| items_end : forall b, b = [] \/ blen b < minimum_packet_size fs -> items_of c fs b [] None
| items_panic : forall b e, b <> [] -> minimum_packet_size fs <= blen b -> packet_size c fs b = Panic e -> items_of c fs b [] (Some e)
| items_more : forall b n item rest l e, b <> [] -> minimum_packet_size fs <= blen b -> packet_size c fs b = Ok n ->
    item = b -> (b = firstn (Z.to_nat n) b ++ rest)%list -> items_of c fs rest l e -> items_of c fs b (item :: l) e.
