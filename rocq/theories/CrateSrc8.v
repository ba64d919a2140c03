(** The runs of CrateSrc1 to CrateSrc7 at the call depth of [run], as the properties state them. *)
From Coq Require Import String ZArith List Bool Lia.
From Verif Require Import Base DeriveUtil DeriveOps DeriveGen Protocols Quic SpecQuic MacAddr SpecMac ProtoMethods RustAst RustEval CrateText2 SpecSource2 SpecSource3
  MacAddrProofs QuicSeqProofs QuicPacketProofs QuicRecoverProofs QuicRfcProofs CrateSrc1 CrateSrc2 CrateSrc3 CrateSrc4 CrateSrc5 CrateSrc6 CrateSrc7.
From Verif Require Names FmtText.
Import ListNotations.
Open Scope string_scope.
Open Scope Z_scope.

Lemma display_runs : forall c rounds z,
  run c rounds "ethernet" "EtherType::fmt" [XE "EtherType" [XI (Some tu16) z]] = FDone (XS (Names.ethertype_name z)) /\
  run c rounds "ip" "IpNextHeaderProtocol::fmt" [XE "IpNextHeaderProtocol" [XI (Some tu8) z]] = FDone (XS (Names.ip_name z)) /\
  run c rounds "quic" "HeaderForm::fmt" [XE "HeaderForm" [XI (Some tu8) z]] = FDone (XS (Names.header_form_name z)) /\
  run c rounds "quic" "FixedBit::fmt" [XE "FixedBit" [XI (Some tu8) z]] = FDone (XS (Names.fixed_bit_name z)) /\
  run c rounds "quic" "LongPacketType::fmt" [XE "LongPacketType" [XI (Some tu8) z]] = FDone (XS (Names.long_type_name z)) /\
  run c rounds "quic" "FrameType::fmt" [frame_type_v z] = FDone (XS (Names.frame_type_name z)) /\
  run c rounds "quic" "Version::fmt" [version_v z] = FDone (XS (Names.version_display z)).
Proof.
  intros. unfold run. split; [apply ethertype_src |]. split; [apply ip_name_src |]. split; [apply header_form_src |].
  split; [apply fixed_bit_src |]. split; [apply long_type_src |]. split; [apply frame_type_src | apply version_src].
Qed.
Lemma newtype_runs : forall mo ty text s, In (mo, ty, text) tuple_texts -> read_newtype text = Some (ty, [s]) ->
  forall c rounds t z, num_ty s = Some t ->
  run c rounds mo (ty ++ "::new") [XI (Some t) z] = FDone (XE ty [XI (Some t) z]) /\
  run c rounds mo (ty ++ "::to_primitive_values") [XE ty [XI (Some t) z]] = FDone (XT [XI (Some t) z]).
Proof. intros. unfold run. eapply newtype_src; eassumption. Qed.
Lemma mac_runs : forall c rounds,
  (forall x0 x1 x2 x3 x4 x5, run c rounds "mac" "MacAddr::new" (map u8_v [x0; x1; x2; x3; x4; x5]) = FDone (mac_v (mac_new x0 x1 x2 x3 x4 x5))) /\
  run c rounds "mac" "MacAddr::zero" [] = FDone (mac_v mac_zero) /\
  run c rounds "mac" "MacAddr::broadcast" [] = outcome mac_v mac_broadcast /\
  forall x,
  run c rounds "mac" "MacAddr::is_zero" [mac_v x] = FDone (XB (is_zero x)) /\
  run c rounds "mac" "MacAddr::is_broadcast" [mac_v x] = outcome XB (is_broadcast x) /\
  run c rounds "mac" "MacAddr::is_local" [mac_v x] = FDone (XB (is_local x)) /\
  run c rounds "mac" "MacAddr::is_universal" [mac_v x] = FDone (XB (is_universal x)) /\
  run c rounds "mac" "MacAddr::is_multicast" [mac_v x] = FDone (XB (is_multicast x)) /\
  run c rounds "mac" "MacAddr::is_unicast" [mac_v x] = FDone (XB (is_unicast x)).
Proof.
  intros. unfold run, call_depth. split; [intros; apply mac_new_src |]. split; [apply mac_zero_src |]. split; [apply mac_broadcast_src |].
  intros x. split; [apply mac_is_zero_src |]. split; [apply mac_is_broadcast_src |]. split; [apply mac_local_src |].
  split; [apply mac_universal_src |]. split; [apply mac_multicast_src | apply mac_unicast_src].
Qed.
Lemma mac_array_runs : forall c rounds x a,
  run c rounds "mac" "MacAddr::from" [bytes_v a] = outcome mac_v (mac_from_array a) /\
  run c rounds "mac" "EtherAddr::from" [mac_v x] = FDone (bytes_v (mac_to_array x)) /\
  run c rounds "mac" "MacAddr::eq" [mac_v x; bytes_v a] = outcome XB (mac_eq_array x a).
Proof. intros. unfold run, call_depth. split; [apply mac_from_src |]. split; [apply mac_to_src | apply mac_eq_src]. Qed.
Lemma mac_text_runs : forall c rounds x e s,
  run c rounds "mac" "MacAddr::fmt" [mac_v x] = FDone (XS (mac_display x)) /\
  run c rounds "mac" "MacAddr::debug_fmt" [mac_v x] = FDone (XS (mac_display x)) /\
  run c rounds "mac" "ParseMacAddrErr::fmt" [mac_err_v e] = FDone (XS (mac_err_text e)) /\
  run c rounds "mac" "MacAddr::from_str" [XS s] = FDone (parsed_v (mac_from_str s)).
Proof.
  intros. unfold run, call_depth. split; [apply mac_display_src |]. split; [apply mac_debug_src |]. split; [apply mac_err_src | apply mac_from_str_src].
Qed.
Lemma mac_trip_runs : forall c rounds x, mac_ok x -> exists t,
  run c rounds "mac" "MacAddr::fmt" [mac_v x] = FDone (XS t) /\
  run c rounds "mac" "MacAddr::from_str" [XS t] = FDone (XE "Ok" [mac_v x]).
Proof.
  intros c rounds x X. exists (mac_display x). unfold run. rewrite mac_display_src, mac_from_str_src.
  split; [reflexivity |]. now rewrite (display_parse x X).
Qed.
Lemma option_runs : forall c rounds,
  run c rounds "tcp" "TcpOption::nop" [] = FDone (option_v opt_nop) /\
  run c rounds "tcp" "TcpOption::sack_perm" [] = FDone (option_v opt_sack_perm) /\
  (forall z, run c rounds "tcp" "TcpOption::wscale" [u8_v z] = FDone (option_v (opt_wscale z))) /\
  (forall z, run c rounds "tcp" "TcpOption::mss" [XI (Some tu16) z] = FDone (option_v (opt_mss z))) /\
  (forall x y, run c rounds "tcp" "TcpOption::timestamp" [XI (Some tu32) x; XI (Some tu32) y] = FDone (option_v (opt_timestamp x y))) /\
  (forall l, run c rounds "tcp" "TcpOption::selective_ack" [XA (Some tu32) l] = outcome option_v (opt_selective_ack (c_mode c) l)).
Proof.
  intros. unfold run. split; [apply opt_nop_src |]. split; [apply opt_sack_perm_src |]. split; [intro; apply opt_wscale_src |].
  split; [intro; apply opt_mss_src |]. split; [intros; apply opt_timestamp_src | intro; apply opt_sack_src].
Qed.

Lemma quic_runs : forall c rounds q,
  run c rounds "quic" "QuicPacket::version" [quic_v q] = outcome (opt_v version_v) (quic_version c q) /\
  run c rounds "quic" "QuicPacket::token" [quic_v q] = outcome (opt_v bytes_v) (quic_token c q) /\
  run c rounds "quic" "QuicPacket::packet_number" [quic_v q] = outcome (opt_v u64_v) (quic_packet_number c q) /\
  run c rounds "quic" "QuicPacket::dest_id" [quic_v q] = outcome bytes_v (quic_dest_id c q) /\
  run c rounds "quic" "QuicPacket::src_id" [quic_v q] = outcome (opt_v bytes_v) (quic_src_id c q) /\
  run c rounds "quic" "QuicPacket::packet" [quic_v q] = FDone (bytes_v (quic_packet q)) /\
  run c rounds "quic" "QuicPacket::frames" [quic_v q] = outcome (opt_v bytes_v) (quic_frames c q) /\
  run c rounds "quic" "QuicPacket::remaining" [quic_v q] = outcome bytes_v (quic_remaining c q) /\
  run c rounds "quic" "QuicPacket::fmt" [quic_v q] = outcome XS (FmtText.quic_display_text c q).
Proof.
  intros. unfold run, call_depth. split; [apply quic_version_src |]. split; [apply quic_token_src |]. split; [apply quic_packet_number_src |].
  split; [apply quic_dest_id_src |]. split; [apply quic_src_id_src |]. split; [apply quic_packet_src |]. split; [apply quic_frames_src |].
  split; [apply quic_remaining_src | apply quic_fmt_src].
Qed.
Lemma quic_new_runs : forall c rounds b, dgram b -> (List.length b < rounds)%nat ->
  run c rounds "quic" "QuicPacket::new" [bytes_v b] = outcome (opt_v quics_v) (quic_new c b).
Proof. intros c rounds b D R. unfold run, call_depth. apply quic_new_src; [unfold blen; lia | apply (quic_tiles c b D)]. Qed.
Lemma frame_runs : forall c rounds f,
  run c rounds "quic" "Frame::ty" [frame_v f] = outcome frame_type_v (frame_ty c f) /\
  run c rounds "quic" "Frame::payload" [frame_v f] = outcome bytes_v (frame_payload c f) /\
  run c rounds "quic" "Frame::remaining" [frame_v f] = outcome bytes_v (frame_remaining c f) /\
  run c rounds "quic" "Frame::fmt" [frame_v f] = outcome XS (rmap Names.frame_type_name (frame_ty c f)).
Proof.
  intros. unfold run, call_depth. split; [apply frame_ty_src |]. split; [apply frame_payload_src |]. split; [apply frame_remaining_src | apply frame_fmt_src].
Qed.
Lemma frame_new_runs : forall c rounds b, dgram b -> (List.length b < rounds)%nat ->
  run c rounds "quic" "Frame::new" [bytes_v b] = outcome (opt_v frames_v) (frame_new c b).
Proof.
  intros c rounds b D R. unfold run, call_depth. apply frame_new_src; [unfold blen; lia | | apply (frames_tile c b D)].
  destruct D as [_ L]. revert L. change (2 ^ 61) with 2305843009213693952. change (2 ^ 63) with 9223372036854775808. lia.
Qed.
Lemma quic_tiles_runs : forall c rounds b v, dgram b -> (List.length b < rounds)%nat ->
  run c rounds "quic" "QuicPacket::new" [bytes_v b] = FDone v ->
  v = XE "None" [] \/ exists l, v = XE "Some" [quics_v l] /\ chain c b l.
Proof.
  intros c rounds b v D R H. rewrite quic_new_runs in H by assumption. destruct (quic_tiles c b D) as [_ T].
  destruct (quic_new c b) as [[l |] | e]; cbn [outcome opt_v] in H; [injection H as <- | injection H as <-; now left | discriminate H].
  right. exists l. split; [reflexivity | now apply T].
Qed.
Lemma frame_tiles_runs : forall c rounds b v, dgram b -> (List.length b < rounds)%nat ->
  run c rounds "quic" "Frame::new" [bytes_v b] = FDone v ->
  v = XE "None" [] \/ exists l, v = XE "Some" [frames_v l] /\ tiles c b l.
Proof.
  intros c rounds b v D R H. rewrite frame_new_runs in H by assumption. destruct (frames_tile c b D) as [_ T].
  destruct (frame_new c b) as [[l |] | e]; cbn [outcome opt_v] in H; [injection H as <- | injection H as <-; now left | discriminate H].
  right. exists l. split; [reflexivity | now apply T].
Qed.
Lemma mac_accepts_runs : forall c rounds s x0 x1 x2 x3 x4 x5,
  run c rounds "mac" "MacAddr::from_str" [XS s] = FDone (XE "Ok" [mac_v (MacAddr x0 x1 x2 x3 x4 x5)]) <->
  exists l, s = String.concat ":" l /\ Forall2 octet l [x0; x1; x2; x3; x4; x5].
Proof.
  intros. unfold run. rewrite mac_from_str_src, <- from_str_iff. unfold parsed_v. destruct (mac_from_str s) as [[] | e].
  - unfold mac_v, u8_v. cbn. split; intro H; injection H; intros; subst; reflexivity.
  - split; discriminate.
Qed.
Lemma packets_recovered_runs : forall c rounds l, rpackets_ok l -> blen (rpackets_bytes l) < 2 ^ 61 ->
  (List.length (rpackets_bytes l) < rounds)%nat ->
  run c rounds "quic" "QuicPacket::new" [bytes_v (rpackets_bytes l)] = FDone (XE "Some" [quics_v (rpackets_views l)]).
Proof.
  intros c rounds l O L R. rewrite quic_new_runs; [| split; [now apply rpackets_bytes_ok | exact L] | exact R].
  now rewrite (proj1 (packets_recovered c l O L)).
Qed.
Lemma frames_recovered_runs : forall c rounds l, rframes_ok l -> Forall no_ranges l -> blen (rencodes l) < 2 ^ 61 ->
  (List.length (rencodes l) < rounds)%nat ->
  run c rounds "quic" "Frame::new" [bytes_v (rencodes l)] = FDone (XE "Some" [frames_v (grouped l)]).
Proof.
  intros c rounds l O NR L R. rewrite frame_new_runs; [| split; [now apply rframes_bytes | exact L] | exact R].
  now rewrite (proj1 (frames_recovered c l O NR L)).
Qed.
Lemma frames_outcomes_runs : forall c rounds b, dgram b -> (List.length b < rounds)%nat ->
  let r := run c rounds "quic" "Frame::new" [bytes_v b] in
  ((exists l, r = FDone (XE "Some" [frames_v l])) <-> reached b []) /\
  (r = FDone (XE "None" []) <-> exists x, reached b x /\ unknown_frame x) /\
  (r = FPan EIndex <-> exists x, reached b x /\ truncated_frame x) /\
  ((exists l, r = FDone (XE "Some" [frames_v l])) \/ r = FDone (XE "None" []) \/ r = FPan EIndex).
Proof.
  intros c rounds b D R. cbv zeta. rewrite frame_new_runs by assumption.
  destruct (frames_outcomes c b D) as (S & N & P & I). revert S N P I.
  destruct (frame_new c b) as [[l |] | e]; cbn [outcome opt_v]; intros S N P I.
  - split; [rewrite <- S; split; eauto |]. split; [rewrite <- N; split; discriminate |].
    split; [rewrite <- P; split; [discriminate | intros [? H]; discriminate H] | left; eauto].
  - split; [rewrite <- S; split; intros [? H]; discriminate H |]. split; [rewrite <- N; tauto |].
    split; [rewrite <- P; split; [discriminate | intros [? H]; discriminate H] | auto].
  - split; [rewrite <- S; split; intros [? H]; discriminate H |]. split; [rewrite <- N; split; discriminate |].
    rewrite (I e eq_refl) in *. split; [rewrite <- P; split; eauto | auto].
Qed.
