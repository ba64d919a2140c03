(** The planning and printing functions of the derive crate and the hand-written methods,
    constants and conversions of the crate as their source text defines them: the meaning
    of a text (RustAst.v, RustEval.v) in the context of the constants it mentions and of
    the functions it calls, which are run from their own texts. *)
From Coq Require Import String Ascii ZArith List Bool.
From Verif Require Import Base DeriveUtil DeriveOps DeriveGen Protocols RustAst RustEval CrateText2.
From Verif Require RustSem SpecItem MacAddr Checksum Quic FmtText.
Import ListNotations.
Open Scope string_scope.
Open Scope Z_scope.

(** ** Where names are looked up *)

Fixpoint all_of {A B} (f : A -> option (list B)) (l : list A) : option (list B) :=
  match l with
  | [] => Some []
  | a :: r => match f a, all_of f r with Some x, Some y => Some (x ++ y)%list | _, _ => None end
  end.
Fixpoint texts_of (mod_ : string) (l : list (string * list string)) : list string :=
  match l with [] => [] | (x, t) :: r => if String.eqb x mod_ then t else texts_of mod_ r end.
(** The functions of a module. *)
Definition code_of (mod_ : string) : option (list func) := all_of read_funcs (texts_of mod_ code_texts).
Fixpoint func_named (f : string) (l : list func) : option func :=
  match l with [] => None | g :: r => if String.eqb (fu_name g) f then Some g else func_named f r end.
Definition find_fn (mod_ f : string) : option func :=
  match code_of mod_ with Some l => func_named f l | None => None end.
(** The constants of a module: a literal of an integer type, or one wrapped by a constructor. *)
Definition const_val (t : string) (e : xp) : option wv :=
  match e with
  | YInt _ z => match num_ty t with Some u => Some (XI (Some u) z) | None => None end
  | YCall c [YInt _ z] => if String.eqb c t then Some (XE c [XI None z]) else None
  | _ => None
  end.
Fixpoint const_vals (l : list (string * string * xp)) : env :=
  match l with
  | [] => []
  | (x, t, e) :: r => match const_val t e with Some v => (x, v) :: const_vals r | None => const_vals r end
  end.
Definition consts_of (mod_ : string) : env :=
  match all_of read_consts (texts_of mod_ const_texts) with Some l => const_vals l | None => [] end.

(** The macro crate has its own overflow profile. *)
Definition mode_of (c : cfg) (mod_ : string) : mode := if String.eqb mod_ "derive" then c_macro c else c_mode c.
Definition cfg_of (c : cfg) (x : string) : option bool :=
  if String.eqb x "cfg target_endian little" then Some (c_host_le c) else None.

(** The types rustc gives to literals without a suffix: from the type of the result or of
    the operand they meet. *)
Definition hint_table : list (string * string * nt) :=
  [("get_mask", "mask", tu8); ("mask_high_bits", "mask", tu64); ("num_bits_set", "count", tu64);
   ("Frame::new", "Frame::Padding", tusize); ("MacAddr::from_str", "i", tusize);
   ("TcpOption::timestamp", "length", tu8); ("TcpOption::mss", "length", tu8); ("TcpOption::wscale", "length", tu8);
   ("TcpOption::sack_perm", "length", tu8); ("TcpOption::selective_ack", "length", tu8)].
Definition hint_of (f x : string) : option nt :=
  match find (fun p => String.eqb (fst (fst p)) f && String.eqb (snd (fst p)) x)%bool hint_table with
  | Some (_, t) => Some t
  | None => None
  end.
(** The types the called functions return. *)
Definition sig_table : list (string * shape) :=
  [("radix16_u8", HStr); ("radix16_u64", HStr); ("bits_remaining_in_byte", HInt tusize); ("round_down", HInt tusize);
   ("get_mask", HPair tusize tu8); ("get_shiftl", HInt tu8); ("get_shiftr", HInt tu8); ("to_little_endian", HList);
   ("mask_high_bits", HInt tu64); ("num_bits_set", HInt tu64); ("build_return", HStr);
   ("QuicPacket::remaining", HBytes); ("QuicPacket::version", HOptObj "Version" tu32); ("QuicPacket::token", HOptBytes);
   ("QuicPacket::packet_number", HOptInt tu64); ("QuicPacket::dest_id", HBytes); ("QuicPacket::src_id", HOptBytes);
   ("QuicPacket::frames", HOptBytes); ("Frame::remaining", HBytes); ("Frame::ty", HObj "FrameType" tu8);
   ("LongPacketType::new", HObj "LongPacketType" tu8); ("MacAddr::zero", HObjs "MacAddr" tu8);
   ("MacAddr::broadcast", HObjs "MacAddr" tu8); ("MacAddr::from", HObjs "MacAddr" tu8);
   ("MacAddr::is_local", HBool); ("MacAddr::is_multicast", HBool); ("ParseMacAddrErr::description", HStr)].
Definition sig_of (f : string) : option shape :=
  match find (fun p => String.eqb (fst p) f) sig_table with Some (_, h) => Some h | None => None end.

(** The packet types of src/quic.rs and the schemas of their structs. *)
Fixpoint packet_named {K} (name : K -> string) (sc : K -> cfg -> schema) (ty : string) (l : list K) : option (cfg -> schema) :=
  match l with
  | [] => None
  | k :: r => if String.eqb ty (cat (name k) "Packet") then Some (sc k) else packet_named name sc ty r
  end.
Definition packet_type (ty : string) : option (cfg -> schema) :=
  match packet_named FmtText.quic_struct (fun k c => Quic.quic_schema c k) ty FmtText.quic_kinds with
  | Some sc => Some sc
  | None => packet_named FmtText.frame_struct (fun k _ => Quic.frame_schema k) ty FmtText.frame_kinds
  end.
Fixpoint looked {A} (x : string) (l : list (string * A)) : option A :=
  match l with [] => None | (y, a) :: r => if String.eqb x y then Some a else looked x r end.
Fixpoint cut_prefix (p s : string) : option string :=
  match p, s with
  | "", _ => Some s
  | String a p', String b s' => if Ascii.eqb a b then cut_prefix p' s' else None
  | _, _ => None
  end.
Fixpoint cut_suffix (p s : string) : option string :=
  if String.eqb p s then Some ""
  else match s with "" => None | String a r => option_map (String a) (cut_suffix p r) end.
(** The types of the fields whose getters are called: src/quic.rs:203-243, 621-838. *)
Definition wrapped_fields : list (string * (string * nt)) := [("version", ("Version", tu32)); ("ty", ("FrameType", tu8))].
Definition vector_fields : list string := ["token"; "dest_id"; "src_id"].
(** What the derive macro emits for a packet type: the constructor and the reading methods,
    as modelled (C92 to C95 are about the emitted text). *)
Definition packet_new (c : cfg) (ty : string) (sc : schema) (b : list Z) (k : wv -> fin) : fin :=
  match new sc b with Some p => k (XE "Some" [XP ty p]) | None => k (XE "None" []) end.
Definition packet_method (c : cfg) (sc : schema) (x : string) (p : list Z) : option ((wv -> fin) -> fin) :=
  if String.eqb x "packet" then Some (fun k => k (XA (Some tu8) p))
  else if String.eqb x "payload" then Some (fun k => wlift (payload c sc p) (fun l => k (XA (Some tu8) l)))
  else match cut_prefix "get_" x with
       | None => None
       | Some f =>
           match cut_suffix "_raw" f with
           | Some g => Some (fun k => wlift (get_raw c sc g p) (fun l => k (XA (Some tu8) l)))
           | None =>
               match looked f wrapped_fields with
               | Some (t, u) => Some (fun k => wlift (int_of (get c sc f p)) (fun z => k (XE t [XI (Some u) z])))
               | None =>
                   if existsb (String.eqb f) vector_fields
                   then Some (fun k => wlift (bytes_of (get c sc f p)) (fun l => k (XA (Some tu8) l)))
                   else None
               end
           end
       end.
(** What the texts use from outside: [syn::parse_str] keeps the text it is given (C68 says
    what the text means); the methods of packets; [octets] and [packet_number], whose own
    texts are run in C91; the derived [Default] of [MacAddr]. *)
Definition outside (c : cfg) (f : string) (l : list wv) : option ((wv -> fin) -> fin) :=
  match l with
  | [] => if String.eqb f "MacAddr::default" then Some (fun k => k (XE "MacAddr" (repeat (XI (Some tu8) 0) 6))) else None
  | [v] =>
      if String.eqb f "syn::parse_str" then Some (fun k => k (XE "Ok" [v]))
      else match v with
           | XP ty p =>
               match packet_type ty, cut_prefix (cat ty "::") f with
               | Some sc, Some x => packet_method c (sc c) x p
               | _, _ => None
               end
           | XA (Some (Un RustSem.U8)) b =>
               if String.eqb f "packet_number"
               then Some (fun k => wlift (Quic.packet_number (c_mode c) b) (fun z => k (XI (Some tu64) z)))
               else match cut_suffix "::new" f with
                    | Some ty => match packet_type ty with Some sc => Some (packet_new c ty (sc c) b) | None => None end
                    | None => None
                    end
           | XI (Some (Un RustSem.U32)) z =>
               if String.eqb f "u32::octets" then Some (fun k => k (XA (Some tu8) (Checksum.octets_u32 z))) else None
           | XI (Some (Un RustSem.U16)) z =>
               if String.eqb f "u16::octets" then Some (fun k => k (XA (Some tu8) (Checksum.octets_u16 z))) else None
           | _ => None
           end
  | _ => None
  end.

(** ** Running *)

Definition run_in (c : cfg) (mod_ f : string) (funs : string -> list wv -> option (res wv)) (rounds : nat) (g : func) (args : list wv) : fin :=
  run_func (mode_of c mod_) (cfg_of c) (consts_of mod_) (outside c) funs sig_of (hint_of f) rounds g args.
Definition answer (o : fin) : option (res wv) :=
  match o with FDone v => Some (Ok v) | FPan e => Some (Panic e) | _ => None end.
(** A call from the text of module [mod_], where calls are followed [d] deep. *)
Fixpoint linked (c : cfg) (rounds d : nat) (mod_ f : string) (args : list wv) : option (res wv) :=
  match d with
  | O => None
  | S d' =>
      match find_fn mod_ f with
      | Some g => answer (run_in c mod_ f (linked c rounds d' mod_) rounds g args)
      | None => None
      end
  end.
Definition run_at (c : cfg) (rounds d : nat) (mod_ f : string) (args : list wv) : fin :=
  match find_fn mod_ f with
  | Some g => run_in c mod_ f (linked c rounds d mod_) rounds g args
  | None => FStuck
  end.
(** No chain of calls is longer than this. *)
Definition call_depth : nat := 4.
Definition run (c : cfg) (rounds : nat) (mod_ f : string) (args : list wv) : fin :=
  run_at c rounds call_depth mod_ f args.

(** ** Values of the model *)

Definition outcome {A} (inj : A -> wv) (r : res A) : fin :=
  match r with Ok a => FDone (inj a) | Panic e => FPan e end.
Definition u8_v (z : Z) : wv := XI (Some tu8) z.
Definition u64_v (z : Z) : wv := XI (Some tu64) z.
Definition usize_v (z : Z) : wv := XI (Some tusize) z.
Definition pair_v (p : Z * Z) : wv := XT [usize_v (fst p); u8_v (snd p)].
Definition endian_v (e : endian) : wv :=
  XE (match e with Big => "Endianness::Big" | Little => "Endianness::Little" | Host => "Endianness::Host" end) [].
Definition getop_v (o : getop) : wv :=
  XR "GetOperation" [("mask", u8_v (g_mask o)); ("shiftl", u8_v (g_shiftl o)); ("shiftr", u8_v (g_shiftr o))].
Definition setop_v (o : setop) : wv :=
  XR "SetOperation" [("save_mask", u8_v (s_save o)); ("value_mask", u64_v (s_vmask o));
                     ("shiftl", u8_v (s_shiftl o)); ("shiftr", u8_v (s_shiftr o))].
Definition plan_v (l : list getop) : wv := XL (map getop_v l).
Definition opt_v {A} (inj : A -> wv) (o : option A) : wv :=
  match o with Some a => XE "Some" [inj a] | None => XE "None" [] end.

(** Values of the types of the fields. *)
Definition is_u8 (z : Z) : Prop := 0 <= z < 256.
Definition is_usize (z : Z) : Prop := 0 <= z < 2 ^ 64.
Definition getop_ok (o : getop) : Prop := is_u8 (g_mask o) /\ is_u8 (g_shiftl o) /\ is_u8 (g_shiftr o).
Definition setop_ok (o : setop) : Prop :=
  is_u8 (s_save o) /\ 0 <= s_vmask o < 2 ^ 64 /\ is_u8 (s_shiftl o) /\ is_u8 (s_shiftr o).
