(** TCP options: constructors, writing and reading back. *)
From Coq Require Import String ZArith List Bool Lia ZifyBool ZifyNat.
From Verif Require Import Base BitSpec DeriveUtil DeriveOps BaseFacts BitFacts
  DeriveUtilProofs DeriveOpsProofs DeriveLEProofs DeriveGen SpecPacket DeriveGenProofs DeriveInvProofs
  DeriveAccProofs DeriveVarProofs DeriveApiProofs DerivePropProofs DerivePropProofs2 Protocols ProtoFacts
  SpecStruct DeriveStructProofs Checksum ChecksumProofs2
  ProtoMethods SpecProto ProtoPayloadProofs ProtoSplitProofs ProtoOptionProofs ProtoStructProofs.
Import ListNotations.
Open Scope Z_scope.
Ltac Zify.zify_post_hook ::= Z.to_euclidean_division_equations.

Lemma good_bytes : forall o, parts_good o -> bytes_ok (parts_bytes o) /\ blen (parts_bytes o) < 256.
Proof.
  intros [[x l] d] [(X & -> & ->)|(X & -> & L & B)]; cbn [parts_bytes app].
  - split; [|reflexivity]. constructor; [unfold byte_ok; lia|constructor].
  - split.
    + constructor; [unfold byte_ok; lia|]. constructor; [|exact B]. unfold byte_ok, blen in *. lia.
    + unfold blen in *. cbn [List.length]. lia.
Qed.

Lemma app_nil_b : forall b : buf, bits_of (b ++ []) = bits_of b.
Proof. intros. now rewrite app_nil_r. Qed.

Section T.
Variable c : cfg.

Lemma option_wire : forall o, parts_good o ->
  elem_wire c "Tcp" "options" (parts_struct o) = parts_bytes o /\ elem_ok c "Tcp" "options" (parts_struct o).
Proof.
  intros o G. assert (GB := good_bytes o G). destruct o as [[x l] d]. destruct GB as [GB GL].
  assert (W : elem_wire c "Tcp" "options" (tcp_mk x l d) = x :: l ++ d).
  { unfold elem_wire, elem_schema, wire. apply pack_unique; [exact GB|].
    cbn [String.eqb Ascii.eqb Bool.eqb tcp_option encode tcp_mk enc_field f_ty one fld vfld pfld bytes_ty vec_bytes f_name enc_args].
    unfold enc_prim. cbn [p_size p_end big_endian Z.to_nat].
    change (x :: l ++ d) with ([x] ++ l ++ d). rewrite !bits_of_app, !app_nil_r. reflexivity. }
  split; [exact W|]. unfold elem_ok, struct_ok. unfold elem_wire in W. split; [|split].
  - unfold elem_schema. cbn [String.eqb Ascii.eqb Bool.eqb]. inversion_clear GB as [|? ? BX BR].
    apply Forall_app in BR. destruct BR as [BL BD].
    constructor; [|constructor; [exact BL|constructor; [exact BD|constructor]]].
    constructor; [|constructor]. exact BX.
  - unfold elem_schema. cbn [String.eqb Ascii.eqb Bool.eqb].
    constructor; [exact I|constructor; [|constructor; [|constructor]]]; intros r.
    + cbv [f_len vfld len_of_int struct_env tcp_option tcp_mk parts_struct map f_name one fld pfld combine find fst
           String.eqb Ascii.eqb Bool.eqb int_of bind rmap vec_bytes]. f_equal. unfold tcp_option_length.
      destruct G as [(X & -> & ->)|(X & -> & _)].
      * assert (x = 0 \/ x = 1) as [->| ->] by lia; reflexivity.
      * replace ((x =? 0) || (x =? 1)) with false by lia. reflexivity.
    + cbv [f_len vfld pfld len_of_int struct_env tcp_option tcp_mk parts_struct map f_name one fld combine find fst
           String.eqb Ascii.eqb Bool.eqb bytes_of bind rmap vec_bytes]. f_equal. unfold tcp_option_payload_length.
      destruct G as [(X & -> & ->)|(X & -> & L & _)]; [reflexivity|].
      unfold blen in *. destruct (2 <=? _) eqn:Q; lia.
  - unfold parts_struct. rewrite W. cbn [parts_bytes] in GL. lia.
Qed.

Lemma opts_prefix : forall os t l, Forall parts_good os -> opts tcp_num tcp_mk t l ->
  opts tcp_num tcp_mk (concat (map parts_bytes os) ++ t) (map parts_struct os ++ l).
Proof.
  induction os as [|[[x le] d] os IH]; intros t l F H; [exact H|]. inversion_clear F as [|? ? G F'].
  cbn [map concat]. rewrite <- app_assoc. cbn [parts_bytes parts_struct]. cbn [app].
  destruct G as [(X & -> & ->)|(X & -> & L & B)].
  - cbn [app]. apply opts_one; [exact (proj2 X)|]. now apply IH.
  - cbn [app].
    assert (N : Z.to_nat (2 + blen d - 2) = length d) by (unfold blen; lia).
    replace d with (firstn (Z.to_nat (2 + blen d - 2)) (d ++ concat (map parts_bytes os) ++ t)) at 4
      by (rewrite N; apply firstn_app_exact; reflexivity).
    apply opts_tlv; [exact (proj1 X)|]. rewrite N, skipn_app_exact by reflexivity. now apply IH.
Qed.

Lemma clip_splice : forall (b bytes : buf) a n, 0 <= a -> a + blen bytes <= blen b -> blen bytes <= n ->
  clip (splice b (Z.to_nat a) bytes) a n = bytes ++ clip b (a + blen bytes) (n - blen bytes).
Proof.
  intros b bytes a n A H N. unfold clip, splice, blen in *.
  rewrite skipn_app_exact by (rewrite firstn_length; lia).
  rewrite firstn_app. rewrite firstn_all2 by lia. f_equal. f_equal; [lia|]. f_equal. lia.
Qed.

Lemma field_splice : forall (b bytes : buf) a o w, (o + w <= 8 * a)%nat -> (a <= length b)%nat ->
  field_val (splice b a bytes) o w = field_val b o w.
Proof.
  intros b bytes a o w H L. unfold field_val. f_equal. unfold field_bits, splice.
  rewrite bits_of_app, bits_firstn. rewrite <- (firstn_skipn (8 * a) (bits_of b)) at 2.
  rewrite !skipn_app. rewrite !firstn_app, !skipn_length, !firstn_length, bits_of_length.
  replace (w - (Nat.min (8 * a) (8 * length b) - o))%nat with 0%nat by lia. rewrite !firstn_O. reflexivity.
Qed.

Lemma bytes_concat : forall os, Forall parts_good os -> bytes_ok (concat (map parts_bytes os)).
Proof.
  intros os F. induction F as [|o os G F IH]; [constructor|].
  cbn [map concat]. apply Forall_app. split; [apply good_bytes, G|exact IH].
Qed.

Theorem tcp_options_set : forall b os, buf_ok b -> new (tcp c) b = Some b -> Forall parts_good os ->
  let n := Z.max 0 (4 * field_val b 96 4 - 20) in
  let bytes := concat (map parts_bytes os) in
  20 + blen bytes <= blen b ->
  (blen bytes <= n ->
     exists b', set c (tcp c) "options" (VPkts (map parts_struct os)) b = (b', Ok tt) /\
       b' = splice b 20 bytes /\
       forall l, opts tcp_num tcp_mk (clip b (20 + blen bytes) (n - blen bytes)) l ->
         get c (tcp c) "options" b' = Ok (VPkts (map parts_struct os ++ l))) /\
  (n < blen bytes -> exists b', set c (tcp c) "options" (VPkts (map parts_struct os)) b = (b', Panic EAssert)).
Proof.
  intros b os BO NW F n bytes H.
  assert (L20 := new_min _ _ NW). change (minimum_packet_size (tcp c)) with 20 in L20.
  assert (V := field_val_range b 96 4). change (2 ^ Z.of_nat 4) with 16 in V.
  assert (EQ : concat (map (elem_wire c "Tcp" "options") (map parts_struct os)) = bytes).
  { unfold bytes. clear - F. induction F as [|o os G F IH]; [reflexivity|].
    cbn [map concat]. rewrite IH. f_equal. apply option_wire, G. }
  assert (WF : Forall (elem_ok c "Tcp" "options") (map parts_struct os)).
  { clear - F. induction F as [|o os G F IH]; constructor; [apply option_wire, G|exact IH]. }
  pose (f := vfld "options" (TVecPkt (sem_of c tcp_option)) (len_of_int "data_offset" tcp_options_length)).
  destruct (elem_sound c "Tcp" (tcp c) f (sem_of c tcp_option)) as [CD _].
  { unfold crate_schemas. cbn [In]. intuition. } { cbn [tcp In]. intuition. } { reflexivity. }
  hg c b BO (tcp c) 4%nat 4 (tcp_scoped c) NW G.
  destruct (api_set_pkts c (elem_wire c "Tcp") (elem_ok c "Tcp") b (tcp c) (firstn 10 (tcp c)) f (skipn 11 (tcp c)) 160
              (sem_of c tcp_option) n (map parts_struct os)) as [OK BAD];
    auto using tcp_scoped; try (unfold n; lia).
  { cbn [firstn tcp pos_after f_len int one ip4 fld f_ty]. reflexivity. }
  { unfold own_len, f. cbn [f_len vfld]. unfold len_of_int, int_of. rewrite G. cbn [bind rmap]. unfold tcp_options_length.
    f_equal. unfold n. destruct (5 <? field_val b 96 4) eqn:Q; lia. }
  { change (f_name f) with "options"%string. rewrite EQ. exact H. }
  change (f_name f) with "options"%string in OK, BAD. rewrite EQ in OK, BAD.
  split; [|exact BAD]. intros Q. exists (splice b 20 bytes). split; [exact (OK Q)|]. split; [reflexivity|].
  intros l O.
  assert (LB : length (splice b 20 bytes) = length b) by (apply splice_length; unfold blen in *; lia).
  assert (BO' : buf_ok (splice b 20 bytes)).
  { destruct BO as [B1 B2]. split; [|unfold blen in *; lia]. unfold splice.
    apply Forall_app. split; [now apply bytes_firstn|]. apply Forall_app. split; [now apply bytes_concat|].
    now apply bytes_skipn. }
  assert (NW' : new (tcp c) (splice b 20 bytes) = Some (splice b 20 bytes)).
  { unfold new in *. unfold blen in *. rewrite LB. destruct (_ <=? _) in *; [reflexivity|discriminate]. }
  destruct (tcp_parse c _ BO' NW') as [P _]. apply P.
  rewrite field_splice by (unfold blen in *; lia).
  change (splice b 20 bytes) with (splice b (Z.to_nat 20) bytes). fold n. rewrite (clip_splice b bytes 20 n ltac:(discriminate) H Q).
  apply opts_prefix; auto.
Qed.

(** ** Constructors *)

Lemma be_bytes_facts : forall n v, bytes_ok (be_bytes n v) /\ length (be_bytes n v) = n.
Proof.
  induction n; intros v; [repeat constructor|]. cbn [be_bytes]. destruct (IHn (v / 256)) as [B L]. split.
  - apply Forall_app. split; [exact B|]. constructor; [unfold byte_ok; lia|constructor].
  - rewrite app_length, L. cbn [List.length]. lia.
Qed.

Lemma acks_bytes : forall acks, Forall (fun x => 0 <= x < 2 ^ 32) acks ->
  flat_map octets_u32 acks = flat_map (be_bytes 4) acks /\ bytes_ok (flat_map (be_bytes 4) acks) /\
  blen (flat_map (be_bytes 4) acks) = 4 * Z.of_nat (length acks).
Proof.
  induction acks as [|a acks IH]; intros F; [repeat constructor|]. inversion_clear F as [|? ? A F'].
  destruct (IH F') as (E & B & L). cbn [flat_map]. destruct (octets_be a ltac:(lia)) as (_ & O & _ & _).
  destruct (be_bytes_facts 4 a) as [BA LA]. rewrite O, E. split; [reflexivity|]. split.
  - now apply Forall_app.
  - unfold blen in *. rewrite app_length, LA. cbn [List.length]. lia.
Qed.

Theorem constructors_good : forall m,
  (opt_nop = parts_struct (1, [], []) /\ parts_good (1, [], [])) /\
  (opt_sack_perm = parts_struct (4, [2], []) /\ parts_good (4, [2], [])) /\
  (forall v, 0 <= v < 256 -> opt_wscale v = parts_struct (3, [3], [v]) /\ parts_good (3, [3], [v])) /\
  (forall v, 0 <= v < 65536 -> opt_mss v = parts_struct (2, [4], be_bytes 2 v) /\ parts_good (2, [4], be_bytes 2 v)) /\
  (forall x y, 0 <= x < 2 ^ 32 -> 0 <= y < 2 ^ 32 ->
     opt_timestamp x y = parts_struct (8, [10], be_bytes 4 x ++ be_bytes 4 y) /\
     parts_good (8, [10], be_bytes 4 x ++ be_bytes 4 y)) /\
  (forall acks, Forall (fun x => 0 <= x < 2 ^ 32) acks -> (length acks < 64)%nat ->
     let o := (5, [2 + 4 * Z.of_nat (length acks)], flat_map (be_bytes 4) acks) in
     opt_selective_ack m acks = Ok (parts_struct o) /\ parts_good o).
Proof.
  intros m. unfold parts_good, tcp_option_good.
  split; [split; [reflexivity|left; lia || auto]|]. { repeat split; lia. }
  split; [split; [reflexivity|right]|]. { repeat split; try lia. constructor. }
  split; [|split; [|split]].
  - intros v V. split; [reflexivity|right]. repeat split; try lia; try reflexivity.
    constructor; [exact V|constructor].
  - intros v V. destruct (octets_be v ltac:(lia)) as (_ & _ & O & _). destruct (be_bytes_facts 2 v) as [B L].
    split; [unfold opt_mss; rewrite O; reflexivity|right]. unfold blen. rewrite L. repeat split; try lia; auto.
  - intros x y X Y. destruct (octets_be x ltac:(lia)) as (_ & OX & _ & _). destruct (octets_be y ltac:(lia)) as (_ & OY & _ & _).
    destruct (be_bytes_facts 4 x) as [BX LX]. destruct (be_bytes_facts 4 y) as [BY LY].
    split; [unfold opt_timestamp; rewrite OX, OY; reflexivity|right].
    unfold blen. rewrite app_length, LX, LY. repeat split; try lia. now apply Forall_app.
  - intros acks F LN. destruct (acks_bytes acks F) as (E & B & L). cbv zeta. split.
    + unfold opt_selective_ack. rewrite E. rewrite L.
      replace (cast_u 8 (4 * Z.of_nat (length acks))) with (4 * Z.of_nat (length acks))
        by (unfold cast_u; change (2 ^ 8) with 256; lia).
      rewrite add_u_in by (change (2 ^ 8) with 256; lia). reflexivity.
    + right. rewrite L. repeat split; try lia; auto.
Qed.

Theorem selective_ack_wrong : forall m acks, Forall (fun x => 0 <= x < 2 ^ 32) acks -> (64 <= length acks)%nat ->
  Z.of_nat (length acks) < 2 ^ 60 ->
  exists n, opt_selective_ack m acks = Ok (tcp_mk 5 [n] (flat_map (be_bytes 4) acks)) /\
    n = 2 + 4 * Z.of_nat (length acks) mod 256 /\ 0 <= n < 256 /\ n <> 2 + blen (flat_map (be_bytes 4) acks) /\
    forall rest, bytes_ok rest -> blen rest < 2 ^ 60 ->
      from_packet c tcp_option (5 :: n :: flat_map (be_bytes 4) acks ++ rest) =
      Ok (tcp_mk 5 [n] (flat_map (be_bytes 4) (firstn (length acks mod 64) acks))).
Proof.
  intros m acks F LN LB. destruct (acks_bytes acks F) as (E & B & L).
  exists (2 + 4 * Z.of_nat (length acks) mod 256). split.
  - unfold opt_selective_ack. rewrite E, L. unfold cast_u. change (2 ^ 8) with 256.
    rewrite add_u_in by (change (2 ^ 8) with 256; lia). reflexivity.
  - split; [reflexivity|]. split; [lia|]. split; [lia|]. intros rest BR LR.
    set (n := 2 + 4 * Z.of_nat (length acks) mod 256).
    assert (BO : buf_ok (5 :: n :: flat_map (be_bytes 4) acks ++ rest)).
    { split.
      - constructor; [unfold byte_ok; lia|]. constructor; [unfold byte_ok, n; lia|]. now apply Forall_app.
      - unfold blen in *. cbn [List.length]. rewrite app_length. lia. }
    destruct (tcp_option_facts c _ _ BO) as [_ P]. rewrite P. unfold tlv_from, tcp_num.
    cbn [Z.ltb Z.compare Pos.compare Pos.compare_cont]. do 2 f_equal.
    replace (Z.to_nat (n - 2)) with (4 * (length acks mod 64))%nat by (unfold n; lia).
    generalize (Nat.mod_le (length acks) 64 ltac:(lia)). generalize (length acks mod 64)%nat.
    intros k K. clear - K. revert k K. induction acks as [|a acks IH]; intros k K.
    + cbn [List.length] in K. replace k with 0%nat by lia. reflexivity.
    + destruct k; [reflexivity|]. cbn [List.length] in K. cbn [flat_map firstn].
      destruct (be_bytes_facts 4 a) as [_ LA]. rewrite <- app_assoc.
      replace (4 * S k)%nat with (length (be_bytes 4 a) + 4 * k)%nat by lia.
      rewrite firstn_app_2. f_equal. apply IH. lia.
Qed.
End T.
