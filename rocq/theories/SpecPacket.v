(** Specification of packet descriptions: the bit string a packet struct
    stands for.  The encoding is the concatenation of the encodings of the
    fields in declaration order.  Only the data types of descriptions and values
    come from DeriveGen.v; none of its functions is used, except inside [codec]
    which names the operations a packet type offers. *)
From Coq Require Import String ZArith List Bool.
From Verif Require Import Base BitSpec DeriveUtil DeriveOps DeriveGen.
Import ListNotations.
Open Scope Z_scope.

(** [b'] is [b] with the bits from position [o] on replaced by [bs]. *)
Definition bits_written (b : buf) (o : nat) (bs : list bool) (b' : buf) : Prop :=
  List.length b' = List.length b /\
  bytes_ok b' /\
  bits_of b' = firstn o (bits_of b) ++ bs ++ skipn (o + List.length bs) (bits_of b).

(** Byte order of an integer on a host. *)
Definition big_endian (host_le : bool) (e : endian) : bool :=
  match e with Big => true | Little => false | Host => negb host_le end.

(** Bits of one integer. *)
Definition enc_prim (host_le : bool) (p : prim) (v : Z) : list bool :=
  if big_endian host_le (p_end p) then bits_of_Z (Z.to_nat (p_size p)) v
  else bits_of (le_bytes (Z.to_nat (p_size p / 8)) v).

Fixpoint enc_args (h : bool) (ps : list prim) (vs : list Z) : list bool :=
  match ps, vs with
  | p :: ps', v :: vs' => enc_prim h p v ++ enc_args h ps' vs'
  | _, _ => []
  end.

(** The bytes of a variable-length value.  [ie] gives the encoders of the
    packet types that appear inside vectors, by field name. *)
Definition vec_bytes (ie : string -> list val -> buf) (n : string) (x : val) : buf :=
  match x with
  | VBytes l => l
  | VPkts l => concat (map (ie n) l)
  | _ => []
  end.

Definition enc_field (h : bool) (ie : string -> list val -> buf) (f : field) (x : val) : list bool :=
  match f_ty f, x with
  | TPrim p, VInt z => enc_prim h p z
  | TMisc args, VTup l => enc_args h args l
  | _, _ => bits_of (vec_bytes ie (f_name f) x)
  end.

Fixpoint encode (h : bool) (ie : string -> list val -> buf) (fs : schema) (xs : list val) : list bool :=
  match fs, xs with
  | f :: fs', x :: xs' => enc_field h ie f x ++ encode h ie fs' xs'
  | _, _ => []
  end.

(** The value read back for a written value: integers lose the bits that do not
    fit their field. *)
Fixpoint norm_args (ps : list prim) (vs : list Z) : list Z :=
  match ps, vs with
  | p :: ps', v :: vs' => (v mod 2 ^ p_size p) :: norm_args ps' vs'
  | _, _ => []
  end.
Definition norm_val (t : fty) (x : val) : val :=
  match t, x with
  | TPrim p, VInt z => VInt (z mod 2 ^ p_size p)
  | TMisc args, VTup l => VTup (norm_args args l)
  | _, _ => x
  end.
Fixpoint norm_vals (fs : schema) (xs : list val) : list val :=
  match fs, xs with
  | f :: fs', x :: xs' => norm_val (f_ty f) x :: norm_vals fs' xs'
  | _, _ => []
  end.

(** Bytes of a bit string whose length is a multiple of eight. *)
Fixpoint pack_n (n : nat) (l : list bool) : buf :=
  match n with
  | O => []
  | S k => Z_of_bits (firstn 8 l) :: pack_n k (skipn 8 l)
  end.
Definition pack (l : list bool) : buf := pack_n (List.length l / 8) l.

(** Where an integer may be placed: big-endian ones wherever the macro supports
    it, little-endian ones at byte boundaries. *)
Definition place_ok (h : bool) (bit : Z) (p : prim) : Prop :=
  1 <= p_size p <= 64 /\
  if big_endian h (p_end p) then bit mod 8 + p_size p mod 8 <= 8
  else bit mod 8 = 0 /\ p_size p mod 8 = 0.
Fixpoint places_ok (h : bool) (bit : Z) (ps : list prim) : Prop :=
  match ps with
  | [] => True
  | p :: r => place_ok h bit p /\ places_ok h (bit + p_size p) r
  end.

Definition is_vec (t : fty) : bool :=
  match t with TVecPrim _ | TVecPkt _ => true | _ => false end.

(** What it means for a packet type [k] to implement the encoder [E] on the
    structs satisfying [W]. *)
Record codec (k : pkt_sem) (E : list val -> buf) (W : list val -> Prop) := {
  cd_bytes : forall x, W x -> bytes_ok (E x);
  cd_min : forall x, W x -> 0 < blen (E x) /\ k_min k <= blen (E x);
  cd_size : forall x t, W x -> bytes_ok t -> blen (E x ++ t) < 2 ^ 63 ->
    k_size k (E x ++ t) = Ok (blen (E x));
  cd_from : forall x t, W x -> bytes_ok t -> blen (E x ++ t) < 2 ^ 63 ->
    k_from k (E x ++ t) = Ok x;
  cd_populate : forall x b, W x -> bytes_ok b -> blen b < 2 ^ 63 -> blen (E x) <= blen b ->
    k_populate k x b = (E x ++ skipn (List.length (E x)) b, Ok tt) }.

Section Fits.
Variable h : bool.
Variable ie : string -> list val -> buf.
Variable iw : string -> list val -> Prop.
(** What is asked of a length attribute: [lok le env v after] where [v] are the
    bytes of the field and [after] the bits that follow them. *)
Variable lok : lenexpr -> env -> buf -> list bool -> Prop.

Definition val_fits (bit : Z) (f : field) (x : val) : Prop :=
  match f_ty f, x with
  | TPrim p, VInt z => 0 <= z /\ place_ok h bit p
  | TMisc args, VTup l =>
      List.length l = List.length args /\ Forall (fun z => 0 <= z) l /\ places_ok h bit args
  | TVecPrim p, VBytes l => p_size p = 8 /\ bytes_ok l /\ bit mod 8 = 0
  | TVecPkt k, VPkts l =>
      codec k (ie (f_name f)) (iw (f_name f)) /\ Forall (iw (f_name f)) l /\ bit mod 8 = 0
  | _, _ => False
  end.

(** The struct [xs] fits the description [fs] (fields from bit [bit] on, getters
    of the earlier fields in [e]); [tail] are the bits after the packet. *)
Fixpoint fits (fs : schema) (xs : list val) (bit : Z) (e : list (string * res val))
    (tail : list bool) : Prop :=
  match fs, xs with
  | [], [] => True
  | f :: fs', x :: xs' =>
      let after := encode h ie fs' xs' ++ tail in
      val_fits bit f x /\
      match f_len f with
      | None => is_vec (f_ty f) = true -> fs' = [] /\ tail = []
      | Some le => is_vec (f_ty f) = true /\
                   lok le (lookup e) (vec_bytes ie (f_name f) x) after
      end /\
      fits fs' xs' (bit + fixed_bits (f_ty f))
           (e ++ [(f_name f, Ok (norm_val (f_ty f) x))]) tail
  | _, _ => False
  end.
End Fits.

(** Every vector declares its length (derive/src/parse.rs:185-193 makes this
    optional for the last field). *)
Definition closed (fs : schema) : Prop :=
  Forall (fun f => is_vec (f_ty f) = true -> f_len f <> None) fs.

(** For decoding, the attribute must give the length of the field when the
    field and what follows are in place. *)
Definition lok_dec (le : lenexpr) (e : env) (v : buf) (after : list bool) : Prop :=
  forall rest, bytes_ok rest -> bits_of rest = bits_of v ++ after ->
    le e (Ok rest) = Ok (blen v).

(** For encoding, it must moreover allow the field before it is written,
    whatever the buffer holds there. *)
Definition lok_enc (le : lenexpr) (e : env) (v : buf) (after : list bool) : Prop :=
  (forall rest, exists n, le e (Ok rest) = Ok n /\ blen v <= n < 2 ^ 63) /\
  (forall t, bytes_ok t -> le e (Ok (v ++ t)) = Ok (blen v)).

(** A packed sequence of packets fills the buffer [s] exactly. *)
Inductive tiles (k : pkt_sem) : buf -> Prop :=
| tiles_nil : tiles k []
| tiles_cons : forall s n, k_size k s = Ok n -> 0 < n <= blen s -> k_min k <= blen s ->
    tiles k (skipn (Z.to_nat n) s) -> tiles k s.

(** What a packet type must satisfy for a parsed packet to be re-encodable. *)
Definition decodable (k : pkt_sem) (E : list val -> buf) (W : list val -> Prop) : Prop :=
  forall b x n, bytes_ok b -> blen b < 2 ^ 63 -> k_from k b = Ok x ->
    k_size k b = Ok n -> n <= blen b -> E x = firstn (Z.to_nat n) b /\ W x.

(** Static conditions on a description; [inner] is what is asked of the packet
    types inside vectors. *)
Fixpoint schema_ok (h : bool) (inner : string -> pkt_sem -> Prop) (fs : schema) (bit : Z) : Prop :=
  match fs with
  | [] => True
  | f :: r =>
      match f_ty f with
      | TPrim p => place_ok h bit p /\ f_len f = None
      | TMisc args => places_ok h bit args /\ f_len f = None
      | TVecPrim p => p_size p = 8 /\ bit mod 8 = 0 /\ (f_len f = None -> r = [])
      | TVecPkt k => inner (f_name f) k /\ bit mod 8 = 0 /\ (f_len f = None -> r = [])
      end /\ schema_ok h inner r (bit + fixed_bits (f_ty f))
  end.

(** Length attributes that only look at the values of earlier fields, not at the
    bytes that follow. *)
Definition len_plain (le : lenexpr) : Prop := forall e r r', le e r = le e r'.
Definition lens_plain (fs : schema) : Prop :=
  Forall (fun f => match f_len f with Some le => len_plain le | None => True end) fs.

(** Reading fixed fields: the value spelled by a bit string. *)
Definition dec_prim (h : bool) (p : prim) (l : list bool) : Z :=
  if big_endian h (p_end p) then Z_of_bits l else le_val (pack l).
Fixpoint dec_args (h : bool) (ps : list prim) (l : list bool) : list Z :=
  match ps with
  | [] => []
  | p :: r => dec_prim h p (firstn (Z.to_nat (p_size p)) l)
              :: dec_args h r (skipn (Z.to_nat (p_size p)) l)
  end.
Definition dec_fixed (h : bool) (t : fty) (l : list bool) : val :=
  match t with
  | TPrim p => VInt (dec_prim h p l)
  | TMisc args => VTup (dec_args h args l)
  | _ => VBytes []
  end.

(** Writing fixed fields. *)
Definition enc_fixed (h : bool) (t : fty) (x : val) : list bool :=
  match t, x with
  | TPrim p, VInt z => enc_prim h p z
  | TMisc args, VTup l => enc_args h args l
  | _, _ => []
  end.

Definition fixed_ok (h : bool) (bit : Z) (t : fty) : Prop :=
  match t with
  | TPrim p => place_ok h bit p
  | TMisc args => places_ok h bit args
  | _ => False
  end.

(** A value of the Rust type of a fixed field. *)
Definition fixed_val (t : fty) (x : val) : Prop :=
  match t, x with
  | TPrim p, VInt z => 0 <= z
  | TMisc args, VTup l => List.length l = List.length args /\ Forall (fun z => 0 <= z) l
  | _, _ => False
  end.

(** Field [f] named [n] comes after the fields [pre]. *)
Definition field_at (fs : schema) (n : string) (pre : schema) (f : field) : Prop :=
  (exists post, fs = pre ++ f :: post) /\ f_name f = n /\ ~ In n (map f_name pre).

(** The bytes [a .. a+n-1] of a buffer, as far as they exist. *)
Definition clip (b : buf) (a n : Z) : buf := firstn (Z.to_nat n) (skipn (Z.to_nat a) b).

(** The sequence of buffers an iterator over packed packets hands out. *)
Inductive items (k : pkt_sem) : buf -> list buf -> Prop :=
| items_done : forall b, ~ (0 < blen b /\ k_min k <= blen b) -> items k b []
| items_step : forall b n l, 0 < blen b -> k_min k <= blen b -> k_size k b = Ok n ->
    items k (skipn (Z.to_nat n) b) l -> items k b (b :: l).

(** [f] is the payload field and comes after the fields [pre]. *)
Definition payload_at (fs : schema) (pre : schema) (f : field) : Prop :=
  (exists post, fs = pre ++ f :: post) /\ f_payload f = true /\
  Forall (fun g => f_payload g = false) pre.

(** A buffer operation that never changes the number of bytes, whether it
    succeeds or panics. *)
Definition keeps (f : mut) : Prop := forall b, List.length (fst (f b)) = List.length b.

(** Packet types whose populate() keeps the length. *)
Definition keeps_inner (t : fty) : Prop :=
  match t with TVecPkt k => forall x, keeps (k_populate k x) | _ => True end.

(** A length attribute that reads only the named fields. *)
Definition reads_only (le : lenexpr) (ns : list string) : Prop :=
  forall e e' r r', (forall n, In n ns -> e n = e' n) -> le e r = le e' r'.

(** Descriptions without vectors of packets. *)
Definition no_pkts (fs : schema) : Prop :=
  Forall (fun f => match f_ty f with TVecPkt _ => False | _ => True end) fs.

(** ** Positions, stated with the getters only *)

(** Number of fixed bits of a field and of a list of fields. *)
Fixpoint widths (ps : list prim) : Z :=
  match ps with [] => 0 | p :: r => p_size p + widths r end.
Definition bit_width (t : fty) : Z :=
  match t with TPrim p => p_size p | TMisc ps => widths ps | _ => 0 end.
Fixpoint header_bits (fs : schema) : Z :=
  match fs with [] => 0 | f :: r => bit_width (f_ty f) + header_bits r end.

(** [G] gives the results of the getters on the buffer [b].  The field after
    [pre] starts at bit [pos] of [b] ([bit] fixed bits and [acc] variable bytes
    come before [pre]). *)
Fixpoint pos_after (G : env) (b : buf) (pre : schema) (bit acc pos : Z) : Prop :=
  match pre with
  | [] => pos = bit + 8 * acc
  | f :: r =>
      match f_len f with
      | None => pos_after G b r (bit + bit_width (f_ty f)) acc pos
      | Some le => exists n, 0 <= n /\ le G (slice_from b (bit / 8 + acc)) = Ok n /\
                     pos_after G b r (bit + bit_width (f_ty f)) (acc + n) pos
      end
  end.

(** The number of bytes of a variable field that starts at byte [a]: its length
    attribute, or all that is left. *)
Definition own_len (G : env) (b : buf) (a : Z) (f : field) (len : Z) : Prop :=
  match f_len f with
  | None => len = blen b
  | Some le => le G (slice_from b a) = Ok len
  end.

(** A length attribute looks only at the fields [names]. *)
Definition reads (le : lenexpr) (names : list string) : Prop :=
  forall e e' r, (forall n, In n names -> e n = e' n) -> le e r = le e' r.

(** Field names are distinct, no width is negative, and length attributes look at
    earlier fields only (otherwise the generated getters call each other
    forever). *)
Fixpoint scoped (seen : list string) (fs : schema) : Prop :=
  match fs with
  | [] => True
  | f :: r =>
      match f_len f with Some le => reads le seen | None => True end /\
      0 <= bit_width (f_ty f) /\
      ~ In (f_name f) seen /\ scoped (seen ++ [f_name f]) r
  end.

(** A fixed field [f] of the header: no field before it has variable length. *)
Definition header_field (h : bool) (fs : schema) (n : string) (pre : schema) (f : field) : Prop :=
  (exists post, fs = pre ++ f :: post) /\ f_name f = n /\
  Forall (fun g => f_len g = None) pre /\
  fixed_ok h (header_bits pre) (f_ty f).

(** A sequence of setter calls. *)
Fixpoint run (c : cfg) (fs : schema) (ops : list (string * val)) : mut :=
  match ops with
  | [] => mret
  | (n, x) :: r => mseq (set c fs n x) (run c fs r)
  end.

(** What a cell holds after a sequence of writes: the last value written to it,
    cut to its width, or what it held before. *)
Definition last_write (n : string) (t : fty) (ops : list (string * val)) (old : res val) : res val :=
  fold_left (fun cur o => if String.eqb (fst o) n then Ok (norm_val t (snd o)) else cur) ops old.

(** An integer of [n] bits that starts at bit [pos] is placed as the macro
    supports it. *)
Definition supported (pos n : Z) : Prop := 1 <= n <= 64 /\ pos mod 8 + n mod 8 <= 8.

(** The length attribute of some field of [pre] panics with [e], the ones before
    it do not. *)
Fixpoint pos_fails (G : env) (b : buf) (pre : schema) (bit acc : Z) (e : err) : Prop :=
  match pre with
  | [] => False
  | f :: r =>
      match f_len f with
      | None => pos_fails G b r (bit + bit_width (f_ty f)) acc e
      | Some le =>
          le G (slice_from b (bit / 8 + acc)) = Panic e \/
          exists n, 0 <= n /\ acc + n < 2 ^ 63 /\ le G (slice_from b (bit / 8 + acc)) = Ok n /\
            pos_fails G b r (bit + bit_width (f_ty f)) (acc + n) e
      end
  end.

(** Every vector of packets in [b] is filled exactly by its elements. *)
Definition vecs_tile (c : cfg) (fs : schema) (b : buf) : Prop :=
  Forall (fun f => match f_ty f with
                   | TVecPkt k => forall s, get_raw c fs (f_name f) b = Ok s -> tiles k s
                   | _ => True
                   end) fs.

(** Declared lengths stay small. *)
Definition lens_small (c : cfg) (fs : schema) : Prop :=
  forall b f le r n, buf_ok b -> In f fs -> f_len f = Some le ->
    le (fun x => get c fs x b) r = Ok n -> 0 <= n < 2 ^ 32.
