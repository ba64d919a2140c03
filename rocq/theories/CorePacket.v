(** Model of core/src/packet.rs and of the wrapper structs emitted by
    derive/src/gen.rs. *)
From Coq Require Import String ZArith List Bool.
From Verif Require Import Base DeriveUtil DeriveOps DeriveGen MacAddr.
Import ListNotations.
Open Scope Z_scope.

(** ** Packet data *)

(** core/src/packet.rs:82-89.  A [Vec<u8>] and a [&[u8]] are their bytes. *)
Inductive packet_data := Owned (v : buf) | Borrowed (s : buf).

(** core/src/packet.rs:117-124 *)
Inductive mut_packet_data := MOwned (v : buf) | MBorrowed (s : buf).

(** core/src/packet.rs:93-98 *)
Definition pd_slice (p : packet_data) : buf := match p with Owned d => d | Borrowed d => d end.
(** core/src/packet.rs:128-133 *)
Definition mpd_slice (p : mut_packet_data) : buf := match p with MOwned d => d | MBorrowed d => d end.
(** core/src/packet.rs:106-108 and 153-155 *)
Definition pd_len (p : packet_data) : Z := blen (pd_slice p).
Definition mpd_len (p : mut_packet_data) : Z := blen (mpd_slice p).
(** core/src/packet.rs:136-141: what [as_mut_slice] borrows is replaced in
    place. *)
Definition mpd_store (p : mut_packet_data) (d : buf) : mut_packet_data :=
  match p with MOwned _ => MOwned d | MBorrowed _ => MBorrowed d end.
(** core/src/packet.rs:101-103 and 144-149 *)
Definition pd_to_immutable (p : packet_data) : packet_data := p.
Definition mpd_to_immutable (p : mut_packet_data) : packet_data :=
  match p with MOwned d => Owned d | MBorrowed d => Borrowed d end.

(** Equality of slices (std). *)
Fixpoint bytes_eqb (a b : buf) : bool :=
  match a, b with
  | [], [] => true
  | x :: a', y :: b' => (x =? y) && bytes_eqb a' b'
  | _, _ => false
  end.
(** core/src/packet.rs:83: derived [PartialEq]. *)
Definition pd_eqb (p q : packet_data) : bool :=
  match p, q with
  | Owned a, Owned b => bytes_eqb a b
  | Borrowed a, Borrowed b => bytes_eqb a b
  | _, _ => false
  end.
(** core/src/packet.rs:118 *)
Definition mpd_eqb (p q : mut_packet_data) : bool :=
  match p, q with
  | MOwned a, MOwned b => bytes_eqb a b
  | MBorrowed a, MBorrowed b => bytes_eqb a b
  | _, _ => false
  end.

(** core/src/packet.rs:61-80, 111-115 and 158-168: the index operators pass
    through to the slice. *)
Definition pd_index (p : packet_data) (i : Z) : res Z := idx (pd_slice p) i.
Definition pd_range (p : packet_data) (lo hi : Z) : res buf := slice (pd_slice p) lo hi.
Definition pd_range_from (p : packet_data) (lo : Z) : res buf := slice_from (pd_slice p) lo.
Definition pd_range_to (p : packet_data) (hi : Z) : res buf := slice (pd_slice p) 0 hi.
Definition pd_range_full (p : packet_data) : buf := pd_slice p.
Definition mpd_range_full (p : mut_packet_data) : buf := mpd_slice p.

(** ** The emitted wrapper structs *)

(** derive/src/gen.rs:25-41, with derived [PartialEq]. *)
Record xpacket := XPacket { x_data : packet_data }.
Record mxpacket := MXPacket { mx_data : mut_packet_data }.
Definition x_eqb (p q : xpacket) : bool := pd_eqb (x_data p) (x_data q).
Definition mx_eqb (p q : mxpacket) : bool := mpd_eqb (mx_data p) (mx_data q).

(** derive/src/gen.rs:409-429 *)
Definition x_new (fs : schema) (b : buf) : option xpacket :=
  if minimum_packet_size fs <=? blen b then Some (XPacket (Borrowed b)) else None.
Definition x_owned (fs : schema) (b : buf) : option xpacket :=
  if minimum_packet_size fs <=? blen b then Some (XPacket (Owned b)) else None.
Definition mx_new (fs : schema) (b : buf) : option mxpacket :=
  if minimum_packet_size fs <=? blen b then Some (MXPacket (MBorrowed b)) else None.
Definition mx_owned (fs : schema) (b : buf) : option mxpacket :=
  if minimum_packet_size fs <=? blen b then Some (MXPacket (MOwned b)) else None.

(** derive/src/gen.rs:431-442 *)
Definition x_to_immutable (p : xpacket) : xpacket := XPacket (Borrowed (pd_slice (x_data p))).
Definition mx_to_immutable (p : mxpacket) : xpacket := XPacket (Borrowed (mpd_slice (mx_data p))).
Definition x_consume_to_immutable (p : xpacket) : xpacket := XPacket (pd_to_immutable (x_data p)).
Definition mx_consume_to_immutable (p : mxpacket) : xpacket := XPacket (mpd_to_immutable (mx_data p)).

(** derive/src/gen.rs:636-639: packet() and packet_mut(). *)
Definition x_packet (p : xpacket) : buf := pd_range_full (x_data p).
Definition mx_packet (p : mxpacket) : buf := mpd_range_full (mx_data p).
Definition mx_packet_store (p : mxpacket) (d : buf) : mxpacket := MXPacket (mpd_store (mx_data p) d).

(** The emitted methods only look at [self.packet] through the index operators
    and [len()]; DeriveGen.v gives their meaning on the bytes. *)
Definition x_get (c : cfg) (fs : schema) (n : string) (p : xpacket) : res val := get c fs n (x_packet p).
Definition mx_get (c : cfg) (fs : schema) (n : string) (p : mxpacket) : res val := get c fs n (mx_packet p).
Definition x_get_raw (c : cfg) (fs : schema) (n : string) (p : xpacket) : res buf := get_raw c fs n (x_packet p).
Definition mx_get_raw (c : cfg) (fs : schema) (n : string) (p : mxpacket) : res buf := get_raw c fs n (mx_packet p).
Definition x_payload (c : cfg) (fs : schema) (p : xpacket) : res buf := payload c fs (x_packet p).
Definition mx_payload (c : cfg) (fs : schema) (p : mxpacket) : res buf := payload c fs (mx_packet p).
Definition x_packet_size (c : cfg) (fs : schema) (p : xpacket) : res Z := packet_size c fs (x_packet p).
Definition mx_packet_size (c : cfg) (fs : schema) (p : mxpacket) : res Z := packet_size c fs (mx_packet p).
Definition x_from_packet (c : cfg) (fs : schema) (p : xpacket) : res (list val) := from_packet c fs (x_packet p).
Definition mx_from_packet (c : cfg) (fs : schema) (p : mxpacket) : res (list val) := from_packet c fs (mx_packet p).
Definition mx_mutate (f : mut) (p : mxpacket) : mxpacket * res unit :=
  let '(d, r) := f (mx_packet p) in (mx_packet_store p d, r).

(** ** clone_from *)

(** Memory, and a slice as a region of it. *)
Definition mem := Z -> Z.
Record region := Region { r_base : Z; r_len : nat }.
Definition mem_read (h : mem) (r : region) : buf :=
  map (fun i => h (r_base r + Z.of_nat i)) (List.seq 0 (r_len r)).
Definition mem_write (h : mem) (a v : Z) : mem := fun x => if x =? a then v else h x.

(** [ptr::copy_nonoverlapping(src, dst, n)] (std); bytes in ascending order,
    which makes no difference when the regions do not overlap (otherwise it is
    undefined behaviour). *)
Fixpoint copy_nonoverlapping (h : mem) (src dst : Z) (n : nat) : mem :=
  match n with
  | O => h
  | S k => copy_nonoverlapping (mem_write h dst (h src)) (src + 1) (dst + 1) k
  end.

(** core/src/packet.rs:31-42 *)
Definition clone_from (h : mem) (self other : region) : mem * res unit :=
  if (r_len other <=? r_len self)%nat
  then (copy_nonoverlapping h (r_base other) (r_base self) (r_len other), Ok tt)
  else (h, Panic EAssert).

(** ** Primitive values of the address types *)

(** core/src/packet.rs:179-184 *)
Definition mac_to_primitive_values (m : mac) : list Z := [mac0 m; mac1 m; mac2 m; mac3 m; mac4 m; mac5 m].

(** std::net::Ipv4Addr: four octets; [new] and [octets]. *)
Record ipv4addr := Ipv4Addr { v4_octets : list Z }.
Definition ipv4_new (a b c d : Z) : ipv4addr := Ipv4Addr [a; b; c; d].
(** core/src/packet.rs:186-193 *)
Definition ipv4_to_primitive_values (x : ipv4addr) : res (list Z) :=
  let o := v4_octets x in
  a <- idx o 0 ;; b <- idx o 1 ;; c <- idx o 2 ;; d <- idx o 3 ;; Ok [a; b; c; d].

(** std::net::Ipv6Addr: sixteen octets; [new] stores the segments in network
    order and [segments] reads them back. *)
Record ipv6addr := Ipv6Addr { v6_octets : list Z }.
Definition ipv6_new (segs : list Z) : ipv6addr :=
  Ipv6Addr (flat_map (fun s => [s / 256; s mod 256]) segs).
Fixpoint be16s (o : list Z) : list Z :=
  match o with
  | a :: b :: r => (a * 256 + b) :: be16s r
  | _ => []
  end.
Definition ipv6_segments (x : ipv6addr) : list Z := be16s (v6_octets x).
(** core/src/packet.rs:195-211 *)
Definition ipv6_to_primitive_values (x : ipv6addr) : res (list Z) :=
  let s := ipv6_segments x in
  a <- idx s 0 ;; b <- idx s 1 ;; c <- idx s 2 ;; d <- idx s 3 ;;
  e <- idx s 4 ;; f <- idx s 5 ;; g <- idx s 6 ;; h <- idx s 7 ;; Ok [a; b; c; d; e; f; g; h].
