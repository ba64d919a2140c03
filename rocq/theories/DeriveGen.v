(** Model of the code emitted by derive/src/gen.rs for one packet description:
    an interpreter that takes the description (as accepted by
    derive/src/parse.rs) and gives the meaning of every emitted method. *)
From Coq Require Import ZArith List Bool String.
From Verif Require Import Base DeriveUtil DeriveOps.
Import ListNotations.
Open Scope Z_scope.

(** Values of struct fields.  A packet struct is the list of its fields'
    values in declaration order.  [VTup] is a constructed ("Misc") type, given
    by the arguments of its [new] (derive/src/gen.rs:357) = its
    [to_primitive_values()] (gen.rs:345); the model takes these two to be
    inverse, which is checked for the address types in CorePacket.v and
    MacAddr.v.  [VBytes] is a [Vec] of integers, [VPkts] a [Vec] of packet
    structs. *)
Inductive val :=
| VInt (z : Z)
| VTup (l : list Z)
| VBytes (l : list Z)
| VPkts (l : list (list val)).

(** What the code of an enclosing packet uses of another packet type
    (derive/src/gen.rs:241-290): minimum_packet_size(), packet_size(),
    from_packet() and populate(). *)
Record pkt_sem := PktSem {
  k_min : Z;
  k_size : buf -> res Z;
  k_from : buf -> res (list val);
  k_populate : list val -> mut }.

(** derive/src/parse.rs:14-22.  [TVecPrim] = Vec<uN>, [TVecPkt] = Vec<Packet>. *)
Inductive fty :=
| TPrim (p : prim)
| TMisc (args : list prim)
| TVecPrim (p : prim)
| TVecPkt (k : pkt_sem).

(** Results of the getters of earlier fields, by name. *)
Definition env := string -> res val.

(** A length attribute (derive/src/parse.rs:86-114): an expression over the
    getters of other fields ([env]) and over the rest of the packet from this
    field on (the token [...], gen.rs:104-110), cast to usize. *)
Definition lenexpr := env -> res buf -> res Z.

(** derive/src/parse.rs:24-33 (without spans; struct_length is determined by
    the type, parse.rs:186). *)
Record field := Field {
  f_name : string;
  f_ty : fty;
  f_len : option lenexpr;
  f_payload : bool }.

Definition schema := list field.

(** Number of fixed bits of a field (derive/src/gen.rs:130 and 326). *)
Definition args_bits (l : list prim) : Z := fold_right (fun p a => p_size p + a) 0 l.
Definition fixed_bits (t : fty) : Z :=
  match t with
  | TPrim p => p_size p
  | TMisc l => args_bits l
  | _ => 0
  end.

Section Interp.
Variable c : cfg.
Let m := c_mode c.

(** derive/src/gen.rs:63-71: the offset expression [bit/8 + len_1 + ... ],
    evaluated from left to right. *)
Definition current_offset (bit : Z) (lens : list (res Z)) : res Z :=
  fold_left (fun acc l => a <- acc ;; x <- l ;; add_u m usize a x) lens (Ok (bit / 8)).

(** derive/src/gen.rs:142-145, 182-186, 265-269: the byte range of a variable
    field, clipped to the packet. [len] is [None] when the field has no
    length attribute (then self.packet.len() is used, gen.rs:112). *)
Definition len_or_all (len : option (res Z)) (b : buf) : res Z :=
  match len with Some l => l | None => Ok (blen b) end.
Definition var_range (co : res Z) (len : option (res Z)) (b : buf) : res (Z * Z) :=
  start <- co ;;
  l <- len_or_all len b ;;
  e <- add_u m usize start l ;;
  Ok (start, Z.min e (blen b)).
Definition var_slice (co : res Z) (len : option (res Z)) (b : buf) : res buf :=
  '(lo, hi) <- var_range co len b ;;
  slice b lo hi.

(** derive/src/gen.rs:187-193: the loop of the getter of a Vec of integers;
    [Vec::with_capacity(n)] is taken to have capacity exactly [n].
    The element operations are always big-endian (gen.rs:172). *)
Fixpoint vec_get_loop (p : prim) (s : buf) (k : nat) (co : Z) : res (list Z) :=
  match k with
  | O => Ok []
  | S k' =>
      v <- prim_get c 0 (Prim (p_size p) Big) s co ;;
      co' <- add_u m usize co (p_size p / 8) ;;
      r <- vec_get_loop p s k' co' ;;
      Ok (v :: r)
  end.

(** derive/src/gen.rs:664-678: one step of the iterator over packed packets:
    the packet handed out (a view of the whole remaining buffer) and what is
    left. *)
Definition iter_next (k : pkt_sem) (b : buf) : res (option (buf * buf)) :=
  if (0 <? blen b) && (k_min k <=? blen b) then
    sz <- k_size k b ;;
    Ok (Some (b, skipn (Z.to_nat (Z.min sz (blen b))) b))
  else Ok None.

(** Collecting the iterator with [g] applied to every item
    (derive/src/gen.rs:252-258).  The loop ends because every step shortens
    the buffer; a step that consumes nothing repeats forever (model:
    EDiverge).  [fuel] > number of bytes suffices. *)
Fixpoint iter_collect {A} (k : pkt_sem) (g : buf -> res A) (fuel : nat) (b : buf) : res (list A) :=
  match fuel with
  | O => Panic EDiverge
  | S fuel' =>
      n <- iter_next k b ;;
      match n with
      | None => Ok []
      | Some (item, rest) =>
          x <- g item ;;
          if blen rest =? blen b then Panic EDiverge
          else (r <- iter_collect k g fuel' rest ;; Ok (x :: r))
      end
  end.
Definition iter_all {A} (k : pkt_sem) (g : buf -> res A) (b : buf) : res (list A) :=
  iter_collect k g (S (List.length b)) b.

(** derive/src/gen.rs:300-328 and 350-359: getter of a constructed field; every
    argument's offset is recomputed from the running bit offset. *)
Fixpoint misc_get (args : list prim) (bit : Z) (lens : list (res Z)) (b : buf) : res (list Z) :=
  match args with
  | [] => Ok []
  | p :: r =>
      co <- current_offset bit lens ;;
      v <- prim_get c bit p b co ;;
      vs <- misc_get r (bit + p_size p) lens b ;;
      Ok (v :: vs)
  end.

(** The getter of a field. *)
Definition field_get (f : field) (bit : Z) (lens : list (res Z)) (len : option (res Z)) (b : buf)
  : res val :=
  match f_ty f with
  | TPrim p =>                                     (* gen.rs:126-131, 477-521 *)
      co <- current_offset bit lens ;;
      rmap VInt (prim_get c bit p b co)
  | TMisc args => rmap VTup (misc_get args bit lens b)
  | TVecPrim p =>                                  (* gen.rs:175-195 *)
      s <- var_slice (current_offset bit lens) len b ;;
      rmap VBytes (vec_get_loop p s (List.length s) 0)
  | TVecPkt k =>                                   (* gen.rs:252-271 *)
      s <- var_slice (current_offset bit lens) len b ;;
      rmap VPkts (iter_all k (k_from k) s)
  end.

(** A field together with everything the generated code knows about its
    position in a given buffer. *)
Record loc := Loc {
  l_field : field;
  l_bit : Z;                      (* bit offset among the fixed fields *)
  l_lens : list (res Z);          (* declared lengths of the fields before it *)
  l_len : option (res Z);         (* its own declared length *)
  l_get : res val }.              (* its getter *)

Definition l_co (l : loc) : res Z := current_offset (l_bit l) (l_lens l).

Definition lookup (e : list (string * res val)) : env := fun n =>
  match find (fun p => String.eqb (fst p) n) e with
  | Some (_, v) => v
  | None => Panic EDiverge
  end.

(** derive/src/gen.rs:84-112 and 362-364: position of every field.  A length
    attribute is pushed on the offset list of later fields whatever the type
    of the field. *)
Fixpoint layout_from (b : buf) (fs : schema) (bit : Z) (lens : list (res Z))
    (e : list (string * res val)) : list loc :=
  match fs with
  | [] => []
  | f :: r =>
      let rest := co <- current_offset bit lens ;; slice_from b co in
      let len := match f_len f with
                 | Some le => Some (le (lookup e) rest)
                 | None => None
                 end in
      let g := field_get f bit lens len b in
      Loc f bit lens len g ::
      layout_from b r (bit + fixed_bits (f_ty f))
        (match len with Some l => lens ++ [l] | None => lens end)
        (e ++ [(f_name f, g)])
  end.
Definition layout (b : buf) (fs : schema) : list loc := layout_from b fs 0 [] [].

Definition find_field (b : buf) (fs : schema) (n : string) : option loc :=
  find (fun l => String.eqb (f_name (l_field l)) n) (layout b fs).

(** get_<n>(). Asking for a field the packet does not have does not compile;
    the model panics. *)
Definition get (fs : schema) (n : string) (b : buf) : res val :=
  match find_field b fs n with
  | Some l => l_get l
  | None => Panic EUnimpl
  end.

(** get_<n>_raw() (derive/src/gen.rs:133-147) and get_<n>_raw_mut() (148-159):
    the byte range they expose and its contents. *)
Definition raw_range (fs : schema) (n : string) (b : buf) : res (Z * Z) :=
  match find_field b fs n with
  | Some l => var_range (l_co l) (l_len l) b
  | None => Panic EUnimpl
  end.
Definition get_raw (fs : schema) (n : string) (b : buf) : res buf :=
  '(lo, hi) <- raw_range fs n b ;; slice b lo hi.

(** get_<n>_iter() (derive/src/gen.rs:260-271): the buffer of the iterator. *)
Definition get_iter (fs : schema) (n : string) (b : buf) : res buf := get_raw fs n b.

(** ** Setters *)

Definition lift_set (r : res Z) (f : Z -> mut) : mut := fun b =>
  match r with Ok x => f x b | Panic e => (b, Panic e) end.

(** derive/src/gen.rs:317-325 and 336-349.  The offset of an argument is an
    expression without reference to the packet (otherwise the generated code,
    which names the packet [_self] there, does not compile), so it is evaluated
    once. *)
Fixpoint misc_set (args : list prim) (vals : list Z) (bit : Z) (lens : list (res Z)) : mut :=
  match args, vals with
  | p :: r, v :: vs =>
      mseq (lift_set (current_offset bit lens) (fun co => prim_set c bit p v co))
           (misc_set r vs (bit + p_size p) lens)
  | _, _ => mret
  end.

(** derive/src/gen.rs:211-220: element-wise store of a Vec of integers. *)
Fixpoint vec_set_loop (p : prim) (vals : list Z) (co : Z) : mut :=
  match vals with
  | [] => mret
  | v :: r => fun b =>
      mseq (prim_set c 0 (Prim (p_size p) Big) v co)
           (lift_set (add_u m usize co (p_size p / 8)) (fun co' => vec_set_loop p r co')) b
  end.

(** derive/src/gen.rs:282-287: store of a Vec of packets.  [packet_size()] is
    asked after the element has been populated. *)
Fixpoint pkts_set_loop (k : pkt_sem) (vals : list (list val)) (co : Z) (e : Z) : mut :=
  match vals with
  | [] => mret
  | v :: r => fun b =>
      match slice_from b co with                     (* &mut self.packet[current_offset..] *)
      | Panic x => (b, Panic x)
      | Ok t =>
          if blen t <? k_min k then (b, Panic EUnwrap)   (* ::new(..).unwrap() *)
          else
            mseq (on_tail (Z.to_nat co) (k_populate k v))
              (fun b =>
                 match (s <- k_size k (skipn (Z.to_nat co) b) ;; add_u m usize co s) with
                 | Panic x => (b, Panic x)
                 | Ok co' => if co' <=? e then pkts_set_loop k r co' e b else (b, Panic EAssert)
                 end) b
      end
  end.

(** The setter of a located field.  A value of the wrong shape does not
    type-check in Rust; the model panics. *)
Definition field_set (l : loc) (v : val) : mut := fun b =>
  match f_ty (l_field l), v with
  | TPrim p, VInt z =>                              (* gen.rs:525-569 *)
      lift_set (l_co l) (fun co => prim_set c (l_bit l) p z co) b
  | TMisc args, VTup vs => misc_set args vs (l_bit l) (l_lens l) b
  | TVecPrim p, VBytes vs =>                        (* gen.rs:196-232 *)
      lift_set (l_co l) (fun co b =>
        match (match l_len l with
               | Some r => n <- r ;; if blen vs <=? n then Ok tt else Panic EAssert
               | None => Ok tt
               end) with
        | Panic e => (b, Panic e)
        | Ok _ => if p_size p =? 8 then copy_at m b co vs else vec_set_loop p vs co b
        end) b
  | TVecPkt k, VPkts vs =>                          (* gen.rs:278-288 *)
      lift_set (l_co l) (fun co b =>
        match (n <- len_or_all (l_len l) b ;; add_u m usize co n) with
        | Panic e => (b, Panic e)
        | Ok e => pkts_set_loop k vs co e b
        end) b
  | _, _ => (b, Panic EUnimpl)
  end.

(** set_<n>(v). *)
Definition set (fs : schema) (n : string) (v : val) : mut := fun b =>
  match find_field b fs n with
  | Some l => field_set l v b
  | None => (b, Panic EUnimpl)
  end.

(** derive/src/gen.rs:368-384: populate() calls the setters in declaration
    order; every call looks at the buffer as left by the previous one.
    [i] is the index of the next field. *)
Fixpoint populate_from (fs : schema) (i : nat) (vs : list val) : mut :=
  match vs with
  | [] => mret
  | v :: r =>
      mseq (fun b => match nth_error (layout b fs) i with
                     | Some l => field_set l v b
                     | None => (b, Panic EUnimpl)
                     end)
           (populate_from fs (S i) r)
  end.
Definition populate (fs : schema) (vs : list val) : mut := populate_from fs 0 vs.

(** ** Whole-packet methods *)

Definition total_bits (fs : schema) : Z := fold_right (fun f a => fixed_bits (f_ty f) + a) 0 fs.

(** derive/src/gen.rs:391-395 and 444-449 *)
Definition minimum_packet_size (fs : schema) : Z :=
  if total_bits fs mod 8 =? 0 then total_bits fs / 8 else total_bits fs / 8 + 1.

(** derive/src/gen.rs:410-429: [new] and [owned] (which differ only in who owns
    the bytes, see CorePacket.v). *)
Definition new (fs : schema) (b : buf) : option buf :=
  if minimum_packet_size fs <=? blen b then Some b else None.

(** derive/src/gen.rs:471 and 571-592: the PacketSize trait. *)
Definition all_lens (ls : list loc) : list (res Z) :=
  flat_map (fun l => match l_len l with Some r => [r] | None => [] end) ls.
Definition packet_size (fs : schema) (b : buf) : res Z :=
  current_offset (total_bits fs) (all_lens (layout b fs)).

(** derive/src/gen.rs:390 and 451-458, derive/src/parse.rs:186:
    [XPacket::packet_size(&X)] adds the number of elements of every Vec. *)
Definition vec_count (v : val) : list (res Z) :=
  match v with
  | VBytes l => [Ok (Z.of_nat (List.length l))]
  | VPkts l => [Ok (Z.of_nat (List.length l))]
  | _ => []
  end.
Definition struct_packet_size (fs : schema) (x : list val) : res Z :=
  current_offset (total_bits fs) (flat_map vec_count x).

(** derive/src/gen.rs:90-93, 114-124 and 644-649: the window of payload() and
    payload_mut().  [None] = the empty slice returned when the packet ends
    before the payload. *)
Definition payload_bounds (fs : schema) (b : buf) : res Z * res Z :=
  match find (fun l => f_payload (l_field l)) (layout b fs) with
  | None => (Ok 0, Ok 0)
  | Some l =>
      (l_co l,
       match l_len l with
       | Some n => co <- l_co l ;; x <- n ;; add_u m usize co x
       | None => Ok (blen b)
       end)
  end.
Definition payload_window (fs : schema) (b : buf) : res (option (Z * Z)) :=
  let '(lower, upper) := payload_bounds fs b in
  start <- lower ;;
  u <- upper ;;
  let e := Z.min u (blen b) in
  if blen b <=? start then Ok None
  else (_ <- slice b start e ;; Ok (Some (start, e))).
Definition payload (fs : schema) (b : buf) : res buf :=
  w <- payload_window fs b ;;
  match w with
  | None => Ok []
  | Some (lo, hi) => slice b lo hi
  end.
(** Writing [data] at position [at_] of the slice returned by payload_mut(). *)
Definition payload_mut_write (fs : schema) (at_ : nat) (data : buf) (b : buf) : buf * res unit :=
  match payload_window fs b with
  | Panic e => (b, Panic e)
  | Ok None => match data with [] => (b, Ok tt) | _ => (b, Panic EIndex) end
  | Ok (Some (lo, hi)) =>
      if Z.of_nat at_ + blen data <=? hi - lo
      then (splice b (Z.to_nat lo + at_) data, Ok tt)
      else (b, Panic EIndex)
  end.

(** derive/src/gen.rs:687-720: from_packet() calls every getter in order. *)
Fixpoint seq_res {A} (l : list (res A)) : res (list A) :=
  match l with
  | [] => Ok []
  | x :: r => a <- x ;; t <- seq_res r ;; Ok (a :: t)
  end.
Definition from_packet (fs : schema) (b : buf) : res (list val) :=
  seq_res (map l_get (layout b fs)).

(** derive/src/gen.rs:722-753: the values printed by Debug (the payload is
    left out). *)
Definition debug_values (fs : schema) (b : buf) : res (list val) :=
  seq_res (map l_get (filter (fun l => negb (f_payload (l_field l))) (layout b fs))).

(** The packet type as seen by an enclosing packet. *)
Definition sem_of (fs : schema) : pkt_sem :=
  PktSem (minimum_packet_size fs) (packet_size fs) (from_packet fs) (populate fs).

End Interp.
