(** src/quic.rs: variable-length integers, the packet and frame descriptions,
    the splitting of a datagram into packets and of a packet's contents into
    frames. *)
From Coq Require Import String ZArith List Bool.
From Verif Require Import Base DeriveUtil DeriveOps DeriveGen Protocols.
Import ListNotations.
Open Scope Z_scope.

(** ** Integers *)

(** src/quic.rs:169-173: [1 << (rest[0] >> 6)]. *)
Definition varint_length (rest : buf) : res Z :=
  match rest with
  | [] => Panic EIndex
  | x :: _ => Ok (Z.shiftl 1 (Z.shiftr x 6))
  end.

(** src/quic.rs:175-181.  [length << 8] drops high bits silently, and the
    addition cannot overflow. *)
Definition varint_step (length v : Z) : Z := cast_u 64 (Z.shiftl length 8) + v.
Definition varint (bytes : buf) : res Z :=
  match bytes with
  | [] => Panic EIndex
  | x :: r => Ok (fold_left varint_step r (Z.land x 63))
  end.

(** src/quic.rs:183-187.  With more than eight bytes, [8 - bytes.len()]
    overflows; without overflow checks the slice index is then out of range. *)
Definition packet_number (m : mode) (bytes : buf) : res Z :=
  s <- sub_u m usize 8 (blen bytes) ;;
  if 8 <? s then Panic EIndex
  else Ok (fold_left (fun a v => a * 256 + v) (repeat 0 (Z.to_nat s) ++ bytes) 0).

(** src/quic.rs:189-199.  Each round of the loop consumes at least one byte or
    panics, so [S (length bytes)] rounds are enough; [split_at] panics like an
    index out of range.  The sum stays below the length of the buffer. *)
Fixpoint n_varints_loop (fuel : nat) (n : Z) (bytes : buf) : res Z :=
  if n <=? 0 then Ok 0
  else match fuel, bytes with
       | S fuel', x :: _ =>
           let vlen := Z.shiftl 1 (Z.shiftr x 6) in
           if vlen <=? blen bytes
           then rmap (fun r => vlen + r) (n_varints_loop fuel' (n - 1) (skipn (Z.to_nat vlen) bytes))
           else Panic EIndex
       | _, _ => Panic EIndex
       end.
Definition n_varints (n : Z) (bytes : buf) : res Z := n_varints_loop (List.length bytes) n bytes.

(** ** Length attributes *)

(** "varint_length(...)" *)
Definition len_varint : lenexpr := fun _ r => s <- r ;; varint_length s.
(** "varint(&n)" *)
Definition len_of_varint (n : string) : lenexpr := fun e _ => l <- bytes_of (e n) ;; varint l.
(** "n_varints(k, ...)" for an expression k over the fields *)
Definition len_n_varints (k : env -> res Z) : lenexpr := fun e r =>
  n <- k e ;; s <- r ;; n_varints n s.
(** "packet_number_len + 1": u2 is u8, so this is an addition of bytes *)
Definition len_packet_number (c : cfg) : lenexpr := fun e _ =>
  n <- int_of (e "packet_number_len"%string) ;; add_u (c_mode c) 8 n 1.
(** "varint(&length) - packet_number.len()" *)
Definition len_frames (c : cfg) : lenexpr := fun e _ =>
  l <- bytes_of (e "length"%string) ;;
  v <- varint l ;;
  p <- bytes_of (e "packet_number"%string) ;;
  sub_u (c_mode c) usize v (blen p).
(** A field without #[payload] and without length attribute. *)
Definition last_bytes (n : string) : field := fld n bytes_ty.
(** A varint field: Vec<u8> with length "varint_length(...)". *)
Definition vint (n : string) : field := vfld n bytes_ty len_varint.

(** ** Packets *)

(** src/quic.rs:201-214 *)
Definition version_negotiation : schema :=
  [one "header_form" 1; int "unused" 7; int "version" 32; int "dest_id_len" 8;
   vfld "dest_id" bytes_ty (len_of_int "dest_id_len" (fun n => n));
   int "src_id_len" 8;
   vfld "src_id" bytes_ty (len_of_int "src_id_len" (fun n => n));
   last_bytes "supported_versions"].

(** Common start of the long headers, src/quic.rs:218-232, 249-263, 276-290. *)
Definition long_start : schema :=
  [one "header_form" 1; one "fixed_bit" 1; one "long_packet_type" 2; int "reserved" 2;
   int "packet_number_len" 2; one "version" 32; int "dest_id_len" 8;
   vfld "dest_id" bytes_ty (len_of_int "dest_id_len" (fun n => n));
   int "src_id_len" 8;
   vfld "src_id" bytes_ty (len_of_int "src_id_len" (fun n => n))].
(** Common end, src/quic.rs:237-244, 264-271, 291-298. *)
Definition long_end (c : cfg) : schema :=
  [vint "length";
   vfld "packet_number" bytes_ty (len_packet_number c);
   vfld "frames" bytes_ty (len_frames c);
   last_bytes "remaining"].

(** src/quic.rs:216-245 *)
Definition initial (c : cfg) : schema :=
  long_start ++ [vint "token_length"; vfld "token" bytes_ty (len_of_varint "token_length")] ++
  long_end c.
(** src/quic.rs:247-272 and 274-299 *)
Definition zero_rtt (c : cfg) : schema := long_start ++ long_end c.
Definition handshake (c : cfg) : schema := long_start ++ long_end c.

(** src/quic.rs:301-319 *)
Definition retry : schema :=
  [one "header_form" 1; one "fixed_bit" 1; one "long_packet_type" 2; int "unused" 4;
   one "version" 32; int "dest_id_len" 8;
   vfld "dest_id" bytes_ty (len_of_int "dest_id_len" (fun n => n));
   int "src_id_len" 8;
   vfld "src_id" bytes_ty (len_of_int "src_id_len" (fun n => n));
   last_bytes "retry_token"].

(** src/quic.rs:321-335 *)
Definition one_rtt (c : cfg) : schema :=
  [int "header_form" 1; int "fixed_bit" 1; int "spin_bit" 1; int "reserved_bits" 2;
   int "key_phase" 1; int "packet_number_len" 2;
   vfld "dest_id" bytes_ty (len_const 8);
   vfld "packet_number" bytes_ty (len_packet_number c);
   pall "payload"].

(** src/quic.rs:3-11: a packet of a datagram, with the bytes it views. *)
Inductive quic_kind := QVersionNegotiation | QInitial | QZeroRtt | QHandshake | QRetry | QOneRtt.
Record quic := Quic { q_kind : quic_kind; q_buf : buf }.
Definition quic_schema (c : cfg) (k : quic_kind) : schema :=
  match k with
  | QVersionNegotiation => version_negotiation
  | QInitial => initial c
  | QZeroRtt => zero_rtt c
  | QHandshake => handshake c
  | QRetry => retry
  | QOneRtt => one_rtt c
  end.

(** src/quic.rs:125-134 *)
Definition quic_remaining (c : cfg) (q : quic) : res buf :=
  match q_kind q with
  | QInitial | QZeroRtt | QHandshake => get_raw c (quic_schema c (q_kind q)) "remaining" (q_buf q)
  | _ => Ok []
  end.

(** src/quic.rs:20-41: the kind chosen for a packet of at least five bytes.
    [packet[0]] and [packet[1..5]] exist there. *)
Definition quic_classify (packet : buf) : option quic_kind :=
  let b0 := nth 0 packet 0 in
  let header_form := 0 <? Z.land b0 128 in
  let fixed_bit := 0 <? Z.land b0 64 in
  if fixed_bit && negb header_form then Some QOneRtt
  else if forallb (fun x => x =? 0) (firstn 4 (skipn 1 packet)) then Some QVersionNegotiation
  else if fixed_bit then
    let t := Z.land (Z.shiftr b0 4) 3 in
    if t =? 0 then Some QInitial
    else if t =? 1 then Some QZeroRtt
    else if t =? 2 then Some QHandshake
    else if t =? 3 then Some QRetry
    else None
  else None.

(** src/quic.rs:14-49.  [None] = the function returns None.  The loop continues
    with the remaining bytes; [EDiverge] stands for a round that does not
    shorten them. *)
Fixpoint quic_loop (c : cfg) (fuel : nat) (packet : buf) (packets : list quic)
  : res (option (list quic)) :=
  match packet with
  | [] => Ok (Some packets)
  | _ =>
      match fuel with
      | O => Panic EDiverge
      | S fuel' =>
          if blen packet <? 5 then Ok None
          else match quic_classify packet with
               | None => Ok None
               | Some k =>
                   match new (quic_schema c k) packet with
                   | None => Ok None
                   | Some p =>
                       let q := Quic k p in
                       remaining <- quic_remaining c q ;;
                       quic_loop c fuel' remaining (packets ++ [q])
                   end
               end
      end
  end.
Definition quic_new (c : cfg) (packet : buf) : res (option (list quic)) :=
  quic_loop c (List.length packet) packet [].

(** ** Accessors of a packet *)

Definition q_get (c : cfg) (q : quic) (n : string) : res val :=
  get c (quic_schema c (q_kind q)) n (q_buf q).

(** src/quic.rs:51-60 *)
Definition quic_version (c : cfg) (q : quic) : res (option Z) :=
  match q_kind q with
  | QVersionNegotiation | QOneRtt => Ok None
  | _ => rmap Some (int_of (q_get c q "version"))
  end.
(** src/quic.rs:62-67 *)
Definition quic_token (c : cfg) (q : quic) : res (option buf) :=
  match q_kind q with
  | QInitial => rmap Some (bytes_of (q_get c q "token"))
  | _ => Ok None
  end.
(** src/quic.rs:69-79 *)
Definition quic_packet_number (c : cfg) (q : quic) : res (option Z) :=
  match q_kind q with
  | QVersionNegotiation | QRetry => Ok None
  | k => l <- get_raw c (quic_schema c k) "packet_number" (q_buf q) ;;
         rmap Some (packet_number (c_mode c) l)
  end.
(** src/quic.rs:81-90 and 92-101 *)
Definition quic_dest_id (c : cfg) (q : quic) : res buf := bytes_of (q_get c q "dest_id").
Definition quic_src_id (c : cfg) (q : quic) : res (option buf) :=
  match q_kind q with
  | QOneRtt => Ok None
  | _ => rmap Some (bytes_of (q_get c q "src_id"))
  end.
(** src/quic.rs:103-112 *)
Definition quic_packet (q : quic) : buf := q_buf q.
(** src/quic.rs:114-123 *)
Definition quic_frames (c : cfg) (q : quic) : res (option buf) :=
  match q_kind q with
  | QVersionNegotiation | QRetry => Ok None
  | QOneRtt => rmap Some (payload c (one_rtt c) (q_buf q))
  | k => rmap Some (get_raw c (quic_schema c k) "frames" (q_buf q))
  end.

(** src/quic.rs:137-167: the lines printed by Display, with the values printed
    in them; FmtText.v has the text. *)
Inductive quic_line :=
| LType (k : quic_kind) | LVersion (v : Z) | LToken (t : buf) | LNumber (n : Z)
| LDest (d : buf) | LSrc (s : buf) | LPayload (n : Z).
Definition opt_line {A} (f : A -> quic_line) (o : option A) : list quic_line :=
  match o with Some x => [f x] | None => [] end.
Definition quic_display (c : cfg) (q : quic) : res (list quic_line) :=
  v <- quic_version c q ;;
  t <- quic_token c q ;;
  n <- quic_packet_number c q ;;
  d <- quic_dest_id c q ;;
  s <- quic_src_id c q ;;
  p <- quic_frames c q ;;
  Ok ([LType (q_kind q)] ++ opt_line LVersion v ++ opt_line LToken t ++ opt_line LNumber n ++
      [LDest d] ++ opt_line LSrc s ++ opt_line (fun l => LPayload (blen l)) p).

(** ** Frames *)

(** src/quic.rs:620-625 (Padding), 627-632 (Ping), 833-838 (HandshakeDone) *)
Definition ty_field : field := one "ty" 8.
Definition bare_frame : schema := [ty_field; last_bytes "remaining"].
(** The condition on the type in "n_varints(if ... ty ... {a} else {b}, ...)". *)
Definition ty_of (e : env) : res Z := int_of (e "ty"%string).

(** src/quic.rs:634-651 *)
Definition ack_frame : schema :=
  [ty_field; vint "largest_acknowledged"; vint "ack_delay"; vint "ack_range_count";
   vint "first_ack_range";
   vfld "ack_range" bytes_ty
     (len_n_varints (fun e => l <- bytes_of (e "ack_range_count"%string) ;; varint l));
   vfld "ecn_counts" bytes_ty
     (len_n_varints (fun e => rmap (fun t => if t =? 3 then 3 else 0) (ty_of e)));
   last_bytes "remaining"].
(** src/quic.rs:653-664 *)
Definition reset_stream_frame : schema :=
  [ty_field; vint "stream_id"; vint "application_protocol_error_code"; vint "final_size";
   last_bytes "remaining"].
(** src/quic.rs:666-675 *)
Definition stop_sending_frame : schema :=
  [ty_field; vint "stream_id"; vint "application_protocol_error_code"; last_bytes "remaining"].
(** src/quic.rs:677-688 *)
Definition crypto_frame : schema :=
  [ty_field; vint "offset"; vint "length"; vfld "crypto_payload" bytes_ty (len_of_varint "length");
   last_bytes "remaining"].
(** src/quic.rs:690-699 *)
Definition new_token_frame : schema :=
  [ty_field; vint "token_length"; vfld "token" bytes_ty (len_of_varint "token_length");
   last_bytes "remaining"].
(** src/quic.rs:701-715 *)
Definition stream_frame : schema :=
  [ty_field; vint "stream_id";
   vfld "offset" bytes_ty
     (len_n_varints (fun e => rmap (fun t => if 0 <? Z.land t 4 then 1 else 0) (ty_of e)));
   vfld "length" bytes_ty
     (len_n_varints (fun e => rmap (fun t => if 0 <? Z.land t 2 then 1 else 0) (ty_of e)));
   pfld "stream_data" (fun e r =>
     l <- bytes_of (e "length"%string) ;;
     match l with [] => rmap blen r | _ => varint l end);
   last_bytes "remaining"].
(** src/quic.rs:717-723 (MaxData), 746-752 (DataBlocked) *)
Definition max_data_frame : schema := [ty_field; vint "max_data"; last_bytes "remaining"].
(** src/quic.rs:726-734 (MaxStreamData), 755-763 (StreamDataBlocked) *)
Definition max_stream_data_frame : schema :=
  [ty_field; vint "stream_id"; vint "max_stream_data"; last_bytes "remaining"].
(** src/quic.rs:737-743 (MaxStreams), 766-772 (StreamsBlocked) *)
Definition max_streams_frame : schema := [ty_field; vint "max_streams"; last_bytes "remaining"].
(** src/quic.rs:775-788 *)
Definition new_connection_id_frame : schema :=
  [ty_field; vint "sequence_number"; vint "retire_prior_to"; int "length" 8;
   vfld "connection_id" bytes_ty (len_of_int "length" (fun n => n));
   vfld "stateless_reset_token" bytes_ty (len_const 16); last_bytes "remaining"].
(** src/quic.rs:791-797 *)
Definition retire_connection_id_frame : schema :=
  [ty_field; vint "sequence_number"; last_bytes "remaining"].
(** src/quic.rs:800-806 (PathChallenge), 809-815 (PathResponse) *)
Definition path_frame : schema :=
  [ty_field; vfld "data" bytes_ty (len_const 8); last_bytes "remaining"].
(** src/quic.rs:818-831 *)
Definition connection_close_frame : schema :=
  [ty_field; vint "error_code";
   vfld "frame_type" bytes_ty
     (len_n_varints (fun e => rmap (fun t => if t =? 29 then 0 else 1) (ty_of e)));
   vint "reason_phrase_length";
   vfld "reason_phrase" bytes_ty (len_of_varint "reason_phrase_length");
   last_bytes "remaining"].

(** src/quic.rs:465-487 *)
Inductive frame_kind :=
| FPadding | FPing | FAck | FResetStream | FStopSending | FCrypto | FNewToken | FStream | FMaxData
| FMaxStreamData | FMaxStreams | FDataBlocked | FStreamDataBlocked | FStreamsBlocked
| FNewConnectionId | FRetireConnectionId | FPathChallenge | FPathResponse | FConnectionClose
| FHandshakeDone.
Definition frame_schema (k : frame_kind) : schema :=
  match k with
  | FPadding | FPing | FHandshakeDone => bare_frame
  | FAck => ack_frame
  | FResetStream => reset_stream_frame
  | FStopSending => stop_sending_frame
  | FCrypto => crypto_frame
  | FNewToken => new_token_frame
  | FStream => stream_frame
  | FMaxData | FDataBlocked => max_data_frame
  | FMaxStreamData | FStreamDataBlocked => max_stream_data_frame
  | FMaxStreams | FStreamsBlocked => max_streams_frame
  | FNewConnectionId => new_connection_id_frame
  | FRetireConnectionId => retire_connection_id_frame
  | FPathChallenge | FPathResponse => path_frame
  | FConnectionClose => connection_close_frame
  end.
(** A frame: its variant and bytes; for Padding also the count of the variant's
    second component (0 for the other variants, which have none). *)
Record frame := Frame { fr_kind : frame_kind; fr_buf : buf; fr_count : Z }.

(** src/quic.rs:494-527 with the constants of 840-876: first match wins. *)
Definition frame_kind_of (t : Z) : option frame_kind :=
  if t =? 0 then Some FPadding
  else if t =? 1 then Some FPing
  else if (t =? 2) || (t =? 3) then Some FAck
  else if t =? 4 then Some FResetStream
  else if t =? 5 then Some FStopSending
  else if t =? 6 then Some FCrypto
  else if t =? 7 then Some FNewToken
  else if (8 <=? t) && (t <=? 15) then Some FStream
  else if t =? 16 then Some FMaxData
  else if t =? 17 then Some FMaxStreamData
  else if (t =? 18) || (t =? 19) then Some FMaxStreams
  else if t =? 20 then Some FDataBlocked
  else if t =? 21 then Some FStreamDataBlocked
  else if (t =? 22) || (t =? 23) then Some FStreamsBlocked
  else if t =? 24 then Some FNewConnectionId
  else if t =? 25 then Some FRetireConnectionId
  else if t =? 26 then Some FPathChallenge
  else if t =? 27 then Some FPathResponse
  else if (t =? 28) || (t =? 29) then Some FConnectionClose
  else if t =? 30 then Some FHandshakeDone
  else None.

(** src/quic.rs:588-611, 538-561 and 563-586 *)
Definition frame_remaining (c : cfg) (f : frame) : res buf :=
  get_raw c (frame_schema (fr_kind f)) "remaining" (fr_buf f).
Definition frame_ty (c : cfg) (f : frame) : res Z :=
  int_of (get c (frame_schema (fr_kind f)) "ty" (fr_buf f)).
Definition frame_payload (c : cfg) (f : frame) : res buf :=
  payload c (frame_schema (fr_kind f)) (fr_buf f).

(** src/quic.rs:530-533: a Padding after a Padding adds to its count.  The count
    is at most the number of bytes, so the addition does not overflow. *)
Definition is_padding (k : frame_kind) : bool := match k with FPadding => true | _ => false end.
Fixpoint push_frame (frames : list frame) (f : frame) : list frame :=
  match frames with
  | [] => [f]
  | [g] => if is_padding (fr_kind g) && is_padding (fr_kind f)
           then [Frame (fr_kind g) (fr_buf g) (fr_count g + fr_count f)]
           else [g; f]
  | g :: r => g :: push_frame r f
  end.

(** src/quic.rs:490-536 *)
Fixpoint frame_loop (c : cfg) (fuel : nat) (packet : buf) (frames : list frame)
  : res (option (list frame)) :=
  match packet with
  | [] => Ok (Some frames)
  | t :: _ =>
      match fuel with
      | O => Panic EDiverge
      | S fuel' =>
          match frame_kind_of t with
          | None => Ok None
          | Some k =>
              match new (frame_schema k) packet with
              | None => Ok None
              | Some p =>
                  let f := Frame k p (if is_padding k then 1 else 0) in
                  remaining <- frame_remaining c f ;;
                  frame_loop c fuel' remaining (push_frame frames f)
              end
          end
      end
  end.
Definition frame_new (c : cfg) (packet : buf) : res (option (list frame)) :=
  frame_loop c (List.length packet) packet [].
