(** QUIC, from RFC 9000: variable-length integers (section 16), packets
    (section 17) and frames (section 19). *)
From Coq Require Import String ZArith List Bool.
From Verif Require Import Base BitSpec DeriveUtil DeriveOps DeriveGen Quic.
Import ListNotations.
Open Scope Z_scope.

(** What the parsers are given: any bytes, fewer than 2^61 of them (positions
    computed from 62-bit lengths then fit usize). *)
Definition dgram (b : buf) : Prop := bytes_ok b /\ blen b < 2 ^ 61.

(** ** Variable-length integers *)

(** A value together with the number of bytes chosen for it. *)
Record vi := VI { vi_width : Z; vi_value : Z }.
Definition vi_ok (x : vi) : Prop :=
  (vi_width x = 1 \/ vi_width x = 2 \/ vi_width x = 4 \/ vi_width x = 8) /\
  0 <= vi_value x < 2 ^ (8 * vi_width x - 2).
(** The two most significant bits hold the base-2 logarithm of the width, the
    others the value in network byte order. *)
Definition vi_bytes (x : vi) : buf :=
  be_bytes (Z.to_nat (vi_width x)) (Z.log2 (vi_width x) * 2 ^ (8 * vi_width x - 2) + vi_value x).
(** [p] consists of exactly [n] encoded integers. *)
Inductive varints : Z -> buf -> Prop :=
| varints_none : varints 0 []
| varints_more : forall x n r, vi_ok x -> varints n r -> varints (n + 1) (vi_bytes x ++ r).

(** ** Reading consecutive fields *)

(** How many bytes a field takes. *)
Inductive width :=
| WByte                            (* one byte *)
| WFixed (n : Z)                   (* n bytes *)
| WByteOf (f : string)             (* as many as the byte field f says *)
| WVarint                          (* a variable-length integer *)
| WOpt (present : bool)            (* a variable-length integer, or nothing *)
| WVarints (n : Z)                 (* n variable-length integers *)
| WVarintsOf (per : Z) (f : string) (* per * f variable-length integers *)
| WOf (f : string)                 (* as many as the integer f says *)
| WDataOf (f : string)             (* as many as f says; all that is left if f is absent *)
| WRestOf (f g : string).          (* as many as the integer f says, less the bytes of g *)
Definition wire := list (string * width).

(** The value of an encoded integer: its bytes without the two top bits. *)
Definition vi_read (l : buf) : Z := be_val l mod 2 ^ (8 * blen l - 2).
(** The bytes of an earlier field. *)
Fixpoint bytes_at (f : string) (seen : list (string * buf)) : buf :=
  match seen with
  | [] => []
  | (n, l) :: r => if String.eqb n f then l else bytes_at f r
  end.
(** The length of the integer at the start of [s], and of [n] of them. *)
Definition vi_size (s : buf) : option Z :=
  match s with [] => None | x :: _ => Some (2 ^ (x / 64)) end.
Fixpoint vis_size (fuel : nat) (n : Z) (s : buf) : option Z :=
  if n <=? 0 then Some 0
  else match fuel, vi_size s with
       | S fuel', Some k =>
           if k <=? blen s
           then match vis_size fuel' (n - 1) (skipn (Z.to_nat k) s) with
                | Some r => Some (k + r)
                | None => None
                end
           else None
       | _, _ => None
       end.

(** The length of the field at the start of [s]; [None] = it cannot be
    determined. *)
Definition width_size (w : width) (seen : list (string * buf)) (s : buf) : option Z :=
  match w with
  | WByte => Some 1
  | WFixed n => Some n
  | WByteOf f => Some (be_val (bytes_at f seen))
  | WVarint => vi_size s
  | WOpt false => Some 0
  | WOpt true => vis_size (List.length s) 1 s
  | WVarints n => vis_size (List.length s) n s
  | WVarintsOf per f => vis_size (List.length s) (per * vi_read (bytes_at f seen)) s
  | WOf f => Some (vi_read (bytes_at f seen))
  | WDataOf f => match bytes_at f seen with [] => Some (blen s) | l => Some (vi_read l) end
  | WRestOf f g =>
      let n := vi_read (bytes_at f seen) - blen (bytes_at g seen) in
      if 0 <=? n then Some n else None
  end.
(** The fields in order, and what follows them; [None] if the bytes end before
    the fields do, or a length is negative. *)
Fixpoint read_fields (w : wire) (seen : list (string * buf)) (s : buf)
  : option (list (string * buf) * buf) :=
  match w with
  | [] => Some (seen, s)
  | (n, k) :: r =>
      match width_size k seen s with
      | Some len =>
          if len <=? blen s
          then read_fields r (seen ++ [(n, firstn (Z.to_nat len) s)]) (skipn (Z.to_nat len) s)
          else None
      | None => None
      end
  end.

(** ** Packets, RFC 9000 17.2 *)

Local Open Scope string_scope.
(** Long header with packet number, after the version. *)
Definition ids_wire : wire :=
  [("dest_id_len", WByte); ("dest_id", WByteOf "dest_id_len");
   ("src_id_len", WByte); ("src_id", WByteOf "src_id_len")].
Definition token_wire : wire := [("token_length", WVarint); ("token", WOf "token_length")].
Definition long_wire (token : bool) (pn_len : Z) : wire :=
  (ids_wire ++ (if token then token_wire else []) ++
   [("length", WVarint); ("packet_number", WFixed pn_len); ("frames", WRestOf "length" "packet_number")])%list.

(** ** Frames, RFC 9000 19 *)

(** The fields after the type.  [per] is the number of integers per ACK range:
    2 in the RFC (a gap and a length, 19.3.1), 1 in the crate. *)
Definition frame_wire (per t : Z) : option wire :=
  if (t =? 0)%Z || (t =? 1)%Z || (t =? 30)%Z then Some []                              (* 19.1, 19.2, 19.20 *)
  else if (t =? 2)%Z || (t =? 3)%Z then                                                (* 19.3 *)
    Some [("largest_acknowledged", WVarint); ("ack_delay", WVarint); ("ack_range_count", WVarint);
          ("first_ack_range", WVarint); ("ack_range", WVarintsOf per "ack_range_count");
          ("ecn_counts", WVarints (if (t =? 3)%Z then 3 else 0))]
  else if (t =? 4)%Z then                                                              (* 19.4 *)
    Some [("stream_id", WVarint); ("application_protocol_error_code", WVarint); ("final_size", WVarint)]
  else if (t =? 5)%Z then                                                              (* 19.5 *)
    Some [("stream_id", WVarint); ("application_protocol_error_code", WVarint)]
  else if (t =? 6)%Z then                                                              (* 19.6 *)
    Some [("offset", WVarint); ("length", WVarint); ("crypto_payload", WOf "length")]
  else if (t =? 7)%Z then                                                              (* 19.7 *)
    Some [("token_length", WVarint); ("token", WOf "token_length")]
  else if (8 <=? t)%Z && (t <=? 15)%Z then                                             (* 19.8 *)
    Some [("stream_id", WVarint); ("offset", WOpt (Z.testbit t 2)); ("length", WOpt (Z.testbit t 1));
          ("stream_data", WDataOf "length")]
  else if (t =? 16)%Z || (t =? 20)%Z then Some [("max_data", WVarint)]                 (* 19.9, 19.12 *)
  else if (t =? 17)%Z || (t =? 21)%Z then                                              (* 19.10, 19.13 *)
    Some [("stream_id", WVarint); ("max_stream_data", WVarint)]
  else if (18 <=? t)%Z && (t <=? 19)%Z || (22 <=? t)%Z && (t <=? 23)%Z then            (* 19.11, 19.14 *)
    Some [("max_streams", WVarint)]
  else if (t =? 24)%Z then                                                             (* 19.15 *)
    Some [("sequence_number", WVarint); ("retire_prior_to", WVarint); ("length", WByte);
          ("connection_id", WByteOf "length"); ("stateless_reset_token", WFixed 16)]
  else if (t =? 25)%Z then Some [("sequence_number", WVarint)]                         (* 19.16 *)
  else if (26 <=? t)%Z && (t <=? 27)%Z then Some [("data", WFixed 8)]                  (* 19.17, 19.18 *)
  else if (28 <=? t)%Z && (t <=? 29)%Z then                                            (* 19.19 *)
    Some [("error_code", WVarint); ("frame_type", WOpt (t =? 28)%Z);
          ("reason_phrase_length", WVarint); ("reason_phrase", WOf "reason_phrase_length")]
  else None.
Local Close Scope string_scope.

(** The value of a field as the getters report it. *)
Definition shown (w : width) (l : buf) : val :=
  match w with WByte => VInt (be_val l) | _ => VBytes l end.

(** ** Sequences of frames *)

(** A frame starts at [b] and [rest] follows it (as the crate measures it). *)
Definition reads_frame (b rest : buf) : Prop :=
  exists t s w seen, b = t :: s /\ frame_wire 1 t = Some w /\ read_fields w [] s = Some (seen, rest).
(** [r] is what is left of [b] after some frames. *)
Inductive reached : buf -> buf -> Prop :=
| reached_here : forall b, reached b b
| reached_next : forall b s r, reads_frame b s -> reached s r -> reached b r.
(** No frame type, or a NEW_CONNECTION_ID type with nothing after it (the
    constructor of that packet wants two bytes). *)
Definition unknown_frame (r : buf) : Prop := (exists t s, r = t :: s /\ 30 < t) \/ r = [24].
(** A known frame that does not end before the buffer does. *)
Definition truncated_frame (r : buf) : Prop :=
  r <> [24] /\ exists t s w, r = t :: s /\ frame_wire 1 t = Some w /\ read_fields w [] s = None.

(** The frames [l] cover [b] from left to right; each of them views the buffer
    from its first byte on, and padding frames are maximal runs of zero bytes. *)
Inductive tiles (c : cfg) : buf -> list frame -> Prop :=
| tiles_nil : tiles c [] []
| tiles_padding : forall n r l, (1 <= n)%nat -> nth 0 r 1 <> 0 -> tiles c r l ->
    tiles c (repeat 0 n ++ r) (Frame FPadding (repeat 0 n ++ r) (Z.of_nat n) :: l)
| tiles_frame : forall k t own r l, k <> FPadding -> t <> 0 -> frame_kind_of t = Some k ->
    get_raw c (frame_schema k) "remaining"%string (t :: own ++ r) = Ok r -> tiles c r l ->
    tiles c (t :: own ++ r) (Frame k (t :: own ++ r) 0 :: l).

(** ** Frames as a sender writes them *)

Inductive rframe :=
| RPadding | RPing | RHandshakeDone
| RAck (largest delay count first : vi) (ranges : list (vi * vi)) (ecn : option (vi * vi * vi))
| RResetStream (id code size : vi)
| RStopSending (id code : vi)
| RCrypto (offset len : vi) (data : buf)
| RNewToken (len : vi) (token : buf)
| RStream (fin : bool) (id : vi) (offset len : option vi) (data : buf)
| RMaxData (v : vi) | RMaxStreamData (id v : vi) | RMaxStreams (uni : bool) (v : vi)
| RDataBlocked (v : vi) | RStreamDataBlocked (id v : vi) | RStreamsBlocked (uni : bool) (v : vi)
| RNewConnectionId (seq retire : vi) (id token : buf)
| RRetireConnectionId (seq : vi)
| RPathChallenge (data : buf) | RPathResponse (data : buf)
| RConnectionClose (code : vi) (frame_type : option vi) (len : vi) (reason : buf).

Definition opt_bytes (x : option vi) : buf := match x with Some v => vi_bytes v | None => [] end.
Definition ranges_vi (r : list (vi * vi)) : list vi := flat_map (fun p => [fst p; snd p]) r.
Definition ecn_vi (e : option (vi * vi * vi)) : list vi :=
  match e with Some (a, b, d) => [a; b; d] | None => [] end.
Definition vis_bytes (l : list vi) : buf := flat_map vi_bytes l.
Definition bit_if (b : bool) (n : Z) : Z := if b then n else 0.
Definition is_some {A} (o : option A) : bool := match o with Some _ => true | None => false end.

(** RFC 9000 section 19, table 3: the type, and the fields after it. *)
Definition rtype (f : rframe) : Z :=
  match f with
  | RPadding => 0 | RPing => 1
  | RAck _ _ _ _ _ e => 2 + bit_if (is_some e) 1
  | RResetStream _ _ _ => 4 | RStopSending _ _ => 5 | RCrypto _ _ _ => 6 | RNewToken _ _ => 7
  | RStream fin _ o l _ => 8 + bit_if (is_some o) 4 + bit_if (is_some l) 2 + bit_if fin 1
  | RMaxData _ => 16 | RMaxStreamData _ _ => 17 | RMaxStreams uni _ => 18 + bit_if uni 1
  | RDataBlocked _ => 20 | RStreamDataBlocked _ _ => 21 | RStreamsBlocked uni _ => 22 + bit_if uni 1
  | RNewConnectionId _ _ _ _ => 24 | RRetireConnectionId _ => 25
  | RPathChallenge _ => 26 | RPathResponse _ => 27
  | RConnectionClose _ ft _ _ => 28 + bit_if (negb (is_some ft)) 1
  | RHandshakeDone => 30
  end.
Definition rfields (f : rframe) : list val :=
  let v x := VBytes (vi_bytes x) in
  match f with
  | RPadding | RPing | RHandshakeDone => []
  | RAck la d n f r e => [v la; v d; v n; v f; VBytes (vis_bytes (ranges_vi r)); VBytes (vis_bytes (ecn_vi e))]
  | RResetStream i e s => [v i; v e; v s]
  | RStopSending i e => [v i; v e]
  | RCrypto o l d => [v o; v l; VBytes d]
  | RNewToken l t => [v l; VBytes t]
  | RStream _ i o l d => [v i; VBytes (opt_bytes o); VBytes (opt_bytes l); VBytes d]
  | RMaxData x | RMaxStreams _ x | RDataBlocked x | RStreamsBlocked _ x | RRetireConnectionId x => [v x]
  | RMaxStreamData i x | RStreamDataBlocked i x => [v i; v x]
  | RNewConnectionId s r i t => [v s; v r; VInt (blen i); VBytes i; VBytes t]
  | RPathChallenge d | RPathResponse d => [VBytes d]
  | RConnectionClose e ft l r => [v e; VBytes (opt_bytes ft); v l; VBytes r]
  end.
Definition val_bytes (x : val) : buf := match x with VBytes l => l | VInt z => [z] | _ => [] end.
Definition rencode (f : rframe) : buf := rtype f :: flat_map val_bytes (rfields f).
Definition rencodes (l : list rframe) : buf := flat_map rencode l.
Definition rkind (f : rframe) : frame_kind :=
  match f with
  | RPadding => FPadding | RPing => FPing | RAck _ _ _ _ _ _ => FAck | RResetStream _ _ _ => FResetStream
  | RStopSending _ _ => FStopSending | RCrypto _ _ _ => FCrypto | RNewToken _ _ => FNewToken
  | RStream _ _ _ _ _ => FStream | RMaxData _ => FMaxData | RMaxStreamData _ _ => FMaxStreamData
  | RMaxStreams _ _ => FMaxStreams | RDataBlocked _ => FDataBlocked
  | RStreamDataBlocked _ _ => FStreamDataBlocked | RStreamsBlocked _ _ => FStreamsBlocked
  | RNewConnectionId _ _ _ _ => FNewConnectionId | RRetireConnectionId _ => FRetireConnectionId
  | RPathChallenge _ => FPathChallenge | RPathResponse _ => FPathResponse
  | RConnectionClose _ _ _ _ => FConnectionClose | RHandshakeDone => FHandshakeDone
  end.

(** Well-formed frames.  [last] says that nothing follows: only then may a
    STREAM frame leave out its length. *)
Definition data_ok (len : vi) (d : buf) : Prop := vi_ok len /\ vi_value len = blen d /\ bytes_ok d.
Definition opt_ok (x : option vi) : Prop := match x with Some v => vi_ok v | None => True end.
Definition rframe_ok (last : bool) (f : rframe) : Prop :=
  match f with
  | RPadding | RPing | RHandshakeDone => True
  | RAck la d n f r e =>
      vi_ok la /\ vi_ok d /\ vi_ok n /\ vi_ok f /\ vi_value n = Z.of_nat (List.length r) /\
      Forall vi_ok (ranges_vi r) /\ Forall vi_ok (ecn_vi e)
  | RResetStream i e s => vi_ok i /\ vi_ok e /\ vi_ok s
  | RStopSending i e => vi_ok i /\ vi_ok e
  | RCrypto o l d => vi_ok o /\ data_ok l d
  | RNewToken l t => data_ok l t
  | RStream _ i o l d =>
      vi_ok i /\ opt_ok o /\
      match l with Some x => data_ok x d | None => last = true /\ bytes_ok d end
  | RMaxData x | RMaxStreams _ x | RDataBlocked x | RStreamsBlocked _ x | RRetireConnectionId x => vi_ok x
  | RMaxStreamData i x | RStreamDataBlocked i x => vi_ok i /\ vi_ok x
  | RNewConnectionId s r i t =>
      vi_ok s /\ vi_ok r /\ bytes_ok i /\ blen i < 256 /\ bytes_ok t /\ blen t = 16
  | RPathChallenge d | RPathResponse d => bytes_ok d /\ blen d = 8
  | RConnectionClose e ft l r => vi_ok e /\ opt_ok ft /\ data_ok l r
  end.
(** The frames the crate measures right: ACK frames have no ranges. *)
Definition no_ranges (f : rframe) : Prop :=
  match f with RAck _ _ _ _ r _ => r = [] | _ => True end.
Fixpoint rframes_ok (l : list rframe) : Prop :=
  match l with
  | [] => True
  | f :: r => rframe_ok (match r with [] => true | _ => false end) f /\ rframes_ok r
  end.

(** The frames of a sequence as a reader should see them: one entry per frame,
    runs of padding joined. *)
Fixpoint grouped (l : list rframe) : list frame :=
  match l with
  | [] => []
  | f :: r =>
      match rkind f, grouped r with
      | FPadding, Frame FPadding _ n :: q => Frame FPadding (rencodes l) (n + 1) :: q
      | FPadding, q => Frame FPadding (rencodes l) 1 :: q
      | k, q => Frame k (rencodes l) 0 :: q
      end
  end.

(** ** Where a packet with a length field ends *)

(** RFC 9000 17.2: the two low bits of the first byte are one less than the
    length of the packet number. *)
Definition pn_size (b : buf) : Z := nth 0 b 0 mod 4 + 1.
Definition head_wire (token : bool) : wire :=
  ids_wire ++ (if token then token_wire else []) ++ [("length"%string, WVarint)].
Definition has_token (k : quic_kind) : bool := match k with QInitial => true | _ => false end.
Definition has_length (k : quic_kind) : bool :=
  match k with QInitial | QZeroRtt | QHandshake => true | _ => false end.

(** What follows the packet at the start of [b].  The packet number takes [n]
    bytes, of which [k] are there; the length counts the packet number and the
    frames.  In the RFC [v >= n = k], and the packet ends [v] bytes after the
    length field. *)
Definition long_rest (m : mode) (token : bool) (b : buf) : res buf :=
  match read_fields (head_wire token) [] (skipn 5 b) with
  | None => Panic EIndex
  | Some (seen, s) =>
      let n := pn_size b in
      let v := vi_read (bytes_at "length" seen) in
      let k := Z.min n (blen s) in
      if (v <? k) && match m with Checked => true | Wrapping => false end then Panic EOverflow
      else if n + v - k <=? blen s then Ok (skipn (Z.to_nat (n + v - k)) s)
      else Panic EIndex
  end.

(** ** The kinds of packets, RFC 9000 17.2, 17.3 and RFC 8999 *)

Definition version_of (b : buf) : Z := be_val (firstn 4 (skipn 1 b)).
(** The form bit says whether the header is long.  A long header with version 0
    is a version negotiation packet.  All other packets have the fixed bit set.
    [None] = not a QUIC version 1 packet. *)
Definition rfc_kind (b : buf) : option quic_kind :=
  let x := nth 0 b 0 in
  if Z.testbit x 7 then
    if version_of b =? 0 then Some QVersionNegotiation
    else if Z.testbit x 6 then
      match (x / 16) mod 4 with
      | 0 => Some QInitial | 1 => Some QZeroRtt | 2 => Some QHandshake | _ => Some QRetry
      end
    else None
  else if Z.testbit x 6 then Some QOneRtt else None.

(** The packets [l] cover the datagram [b] from left to right; each of them
    views the bytes from its first one on, and the next one starts where
    remaining() does. *)
Inductive chain (c : cfg) : buf -> list quic -> Prop :=
| chain_nil : chain c [] []
| chain_next : forall k own r l, own <> [] -> quic_remaining c (Quic k (own ++ r)) = Ok r -> chain c r l ->
    chain c (own ++ r) (Quic k (own ++ r) :: l).

(** ** Packets as a sender writes them *)

Inductive rpacket :=
| RLong (k : quic_kind) (reserved version : Z) (dest src : buf) (token : option (vi * buf))
        (len : vi) (number frames : buf)
| RRetry (unused version : Z) (dest src token : buf)
| RNegotiation (unused : Z) (dest src versions : buf)
| ROneRtt (flags : Z) (dest number payload : buf).
Definition id_bytes (d : buf) : buf := blen d :: d.
Definition rpacket_bytes (p : rpacket) : buf :=
  match p with
  | RLong k r v d s t l n f =>
      (192 + 16 * match k with QInitial => 0 | QZeroRtt => 1 | _ => 2 end + 4 * r + (blen n - 1)) ::
      be_bytes 4 v ++ id_bytes d ++ id_bytes s ++
      match t with Some (tl, td) => vi_bytes tl ++ td | None => [] end ++ vi_bytes l ++ n ++ f
  | RRetry u v d s t => (240 + u) :: be_bytes 4 v ++ id_bytes d ++ id_bytes s ++ t
  | RNegotiation u d s vs => (128 + u) :: [0; 0; 0; 0] ++ id_bytes d ++ id_bytes s ++ vs
  | ROneRtt fl d n p => (64 + 4 * fl + (blen n - 1)) :: d ++ n ++ p
  end.
Definition id_ok (d : buf) : Prop := bytes_ok d /\ blen d < 256.
Definition number_ok (n : buf) : Prop := bytes_ok n /\ 1 <= blen n <= 4.
Definition rpacket_ok (p : rpacket) : Prop :=
  match p with
  | RLong k r v d s t l n f =>
      has_length k = true /\ 0 <= r < 4 /\ 0 < v < 2 ^ 32 /\ id_ok d /\ id_ok s /\
      match t with
      | Some (tl, td) => k = QInitial /\ data_ok tl td
      | None => k <> QInitial
      end /\
      vi_ok l /\ vi_value l = blen n + blen f /\ number_ok n /\ bytes_ok f
  | RRetry u v d s t => 0 <= u < 16 /\ 0 < v < 2 ^ 32 /\ id_ok d /\ id_ok s /\ bytes_ok t
  | RNegotiation u d s vs => 0 <= u < 128 /\ id_ok d /\ id_ok s /\ bytes_ok vs
  | ROneRtt fl d n p => 0 <= fl < 16 /\ bytes_ok d /\ blen d = 8 /\ number_ok n /\ bytes_ok p
  end.
Definition has_end (p : rpacket) : bool := match p with RLong _ _ _ _ _ _ _ _ _ => true | _ => false end.
(** Only the last packet of a datagram may be one without a length field. *)
Fixpoint rpackets_ok (l : list rpacket) : Prop :=
  match l with
  | [] => True
  | p :: r => rpacket_ok p /\ (r <> [] -> has_end p = true) /\ rpackets_ok r
  end.
Definition rpackets_bytes (l : list rpacket) : buf := flat_map rpacket_bytes l.
Definition rpacket_kind (p : rpacket) : quic_kind :=
  match p with
  | RLong k _ _ _ _ _ _ _ _ => k
  | RRetry _ _ _ _ _ => QRetry | RNegotiation _ _ _ _ => QVersionNegotiation | ROneRtt _ _ _ _ => QOneRtt
  end.
Fixpoint rpackets_views (l : list rpacket) : list quic :=
  match l with
  | [] => []
  | p :: r => Quic (rpacket_kind p) (rpackets_bytes l) :: rpackets_views r
  end.
(** What the accessors of a packet must report. *)
Definition reports (c : cfg) (p : rpacket) (q : quic) : Prop :=
  match p with
  | RLong k r v d s t l n f =>
      quic_version c q = Ok (Some v) /\ quic_token c q = Ok (option_map snd t) /\
      quic_packet_number c q = Ok (Some (be_val n)) /\ quic_dest_id c q = Ok d /\
      quic_src_id c q = Ok (Some s) /\ quic_frames c q = Ok (Some f)
  | RRetry u v d s t =>
      quic_version c q = Ok (Some v) /\ quic_token c q = Ok None /\
      quic_packet_number c q = Ok None /\ quic_dest_id c q = Ok d /\
      quic_src_id c q = Ok (Some s) /\ quic_frames c q = Ok None /\
      get_raw c retry "retry_token" (q_buf q) = Ok t
  | RNegotiation u d s vs =>
      quic_version c q = Ok None /\ quic_token c q = Ok None /\
      quic_packet_number c q = Ok None /\ quic_dest_id c q = Ok d /\
      quic_src_id c q = Ok (Some s) /\ quic_frames c q = Ok None /\
      get_raw c version_negotiation "supported_versions" (q_buf q) = Ok vs
  | ROneRtt fl d n p =>
      quic_version c q = Ok None /\ quic_token c q = Ok None /\
      quic_packet_number c q = Ok (Some (be_val n)) /\ quic_dest_id c q = Ok d /\
      quic_src_id c q = Ok None /\ quic_frames c q = Ok (Some p)
  end.
