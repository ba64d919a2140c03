(** The printed form of QUIC packets. *)
From Coq Require Import String Ascii ZArith List Bool Lia ZifyBool ZifyNat.
From Verif Require Import Base BitSpec DeriveUtil DeriveOps BaseFacts BitFacts DeriveUtilProofs DeriveOpsProofs
  DeriveLEProofs DeriveGen SpecPacket DeriveGenProofs DeriveAccProofs DeriveInvProofs DeriveApiProofs ProtoSplitProofs.
From Verif Require Import StackProofs Protocols ProtoFacts Quic SpecQuic QuicIntProofs QuicRecoverProofs Names SpecNames NamesProofs EmitText.
From Verif Require Import FmtText SpecFmt SpecQuicText FmtProofs FmtValueProofs.
Import ListNotations.
Open Scope string_scope.
Open Scope Z_scope.

(** ** Lines can be told apart *)

Definition line_ok (l : quic_line) : Prop :=
  match l with
  | LType _ => True
  | LVersion v => 0 <= v < 2 ^ 32
  | LToken b | LDest b | LSrc b => bytes_ok b
  | LNumber n | LPayload n => 0 <= n
  end.
Definition line_char (a : ascii) : bool := negb (Ascii.eqb a "010").
Lemma version_chars : forall n v, chars_in line_char (fmt_0nx n v) = true.
Proof.
  induction n as [|n IH]; intros v; [reflexivity|]. cbn [fmt_0nx]. rewrite chars_app, IH. cbn [chars_in andb].
  rewrite andb_true_r.
  assert (R : 0 <= v mod 16 < 16) by (apply Z.mod_pos_bound; lia). revert R. generalize (v mod 16). intros x X.
  assert (S : forallb (fun x => line_char (MacAddr.hex_digit x)) [0; 1; 2; 3; 4; 5; 6; 7; 8; 9; 10; 11; 12; 13; 14; 15] = true)
    by (vm_compute; reflexivity).
  rewrite forallb_forall in S. apply S. cbn [In]. lia.
Qed.
Lemma newline_stops : forall r, stops digit_char (newline ++ r).
Proof. reflexivity. Qed.
Lemma line_split : forall l l' r r', line_ok l -> line_ok l' ->
  quic_line_text l ++ r = quic_line_text l' ++ r' -> l = l' /\ r = r'.
Proof.
  intros l l' r r' O O' E. unfold quic_line_text in E. rewrite !sapp_assoc in E.
  destruct l, l'; cbn [line_ok] in *; try (cbn [append] in E; discriminate E); rewrite ?sapp_assoc in E; apply app_cancel in E.
  - apply (run_split line_char) in E; try reflexivity; try (destruct k; reflexivity); try (destruct k0; reflexivity).
    destruct E as [E1 E2]. assert (k = k0) by (revert E1; destruct k, k0; cbn; congruence). subst.
    apply app_cancel in E2. auto.
  - unfold version_display in E. rewrite !sapp_assoc in E. apply app_cancel in E.
    apply (run_split line_char) in E; try reflexivity; try apply version_chars.
    destruct E as [E1 E2]. apply app_cancel in E2. split; [|exact E2].
    destruct (fmt_0nx_value 8 v O) as [_ V1]. destruct (fmt_0nx_value 8 v0 O') as [_ V2]. rewrite E1 in V1. congruence.
  - apply bytes_split in E; auto using bytes_nonneg. destruct E as [-> E]. apply app_cancel in E. auto.
  - apply dec_split in E; auto using newline_stops. destruct E as [-> E]. apply app_cancel in E. auto.
  - apply bytes_split in E; auto using bytes_nonneg. destruct E as [-> E]. apply app_cancel in E. auto.
  - apply bytes_split in E; auto using bytes_nonneg. destruct E as [-> E]. apply app_cancel in E. auto.
  - apply dec_split in E; auto using newline_stops. destruct E as [-> E]. apply app_cancel in E. auto.
Qed.
Lemma lines_split : forall ls ls', Forall line_ok ls -> Forall line_ok ls' ->
  String.concat "" (map quic_line_text ls) = String.concat "" (map quic_line_text ls') -> ls = ls'.
Proof.
  intros ls ls' F F' E. rewrite !concat_nil in E. revert ls' F' E.
  induction ls as [|l ls IH]; intros [|l' ls'] F' E; cbn [map fold_right] in E.
  - reflexivity.
  - destruct l'; discriminate.
  - destruct l; discriminate.
  - inversion F; inversion F'; subst. apply line_split in E; auto. destruct E as [-> E]. f_equal. auto.
Qed.

(** ** The values in them *)

Section Values.
Variable c : cfg.

Lemma get_typed : forall fs n b v, schema_ok (c_host_le c) (fun _ _ => True) fs 0 -> total_bits fs < 2 ^ 60 -> buf_ok b ->
  get c fs n b = Ok v -> exists f, In f fs /\ f_name f = n /\ kind_typed (f_ty f) v.
Proof.
  intros fs n b v OK TB B G. unfold get, find_field in G.
  destruct (find _ _) as [l|] eqn:F; [|discriminate]. apply find_some in F. destruct F as [F N]. apply String.eqb_eq in N.
  assert (T := layout_typed c fs 0 [] [] b OK ltac:(lia) ltac:(lia) B). fold (layout c b fs) in T.
  rewrite Forall_forall in T. exists (l_field l). split; [|split; [exact N|exact (T l F v G)]].
  rewrite <- (layout_fields c b fs 0 [] []). fold (layout c b fs). now apply in_map.
Qed.
Lemma quic_bits : forall k, total_bits (quic_schema c k) < 2 ^ 60.
Proof. intros k. destruct k; reflexivity. Qed.
Lemma bytes_of_ok : forall q n l, buf_ok (q_buf q) -> bytes_of (q_get c q n) = Ok l -> bytes_ok l.
Proof.
  intros q n l B H. unfold bytes_of, q_get in H. apply bind_ok in H. destruct H as (v & G & H).
  apply get_typed in G; auto using quic_ok, quic_bits. destruct G as (f & _ & _ & K).
  destruct v as [| |l'|]; try discriminate. injection H as <-. destruct (f_ty f); try contradiction. exact (proj1 K).
Qed.
Definition small (w : Z) (t : fty) : bool :=
  match t with TPrim p => p_size p <=? w | TMisc ps => forallb (fun p => p_size p <=? w) ps | _ => true end.
Lemma int_of_ok : forall q n w z, buf_ok (q_buf q) -> 0 <= w ->
  forallb (fun f => negb (String.eqb (f_name f) n) || small w (f_ty f)) (quic_schema c (q_kind q)) = true ->
  int_of (q_get c q n) = Ok z -> 0 <= z < 2 ^ w.
Proof.
  intros q n w z B W F H. unfold int_of, q_get in H. apply bind_ok in H. destruct H as (v & G & H).
  apply get_typed in G; auto using quic_ok, quic_bits. destruct G as (f & IN & N & K).
  rewrite forallb_forall in F. specialize (F f IN). rewrite N, String.eqb_refl in F. cbn [negb orb] in F.
  destruct v as [y|l| |]; try discriminate; destruct (f_ty f) as [p|ps| |]; try contradiction; cbn [kind_typed small] in *.
  - injection H as <-. assert (2 ^ p_size p <= 2 ^ w) by (apply Z.pow_le_mono_r; lia). lia.
  - destruct l as [|y [|]]; try discriminate. injection H as <-. inversion K as [|p ? ps' ? R K2]; subst.
    cbn [forallb] in F. apply andb_prop in F. destruct F as [F _].
    assert (2 ^ p_size p <= 2 ^ w) by (apply Z.pow_le_mono_r; lia). lia.
Qed.
Lemma raw_ok : forall fs n b s, buf_ok b -> get_raw c fs n b = Ok s -> bytes_ok s.
Proof.
  intros fs n b s B H. unfold get_raw in H. apply bind_ok in H. destruct H as ([lo hi] & _ & H).
  apply slice_inv in H. destruct H as (_ & _ & ->). apply bytes_firstn, bytes_skipn, B.
Qed.
Lemma fold_nonneg : forall l a, bytes_ok l -> 0 <= a -> 0 <= fold_left (fun a v => a * 256 + v) l a.
Proof.
  induction l as [|x l IH]; intros a B A; cbn [fold_left]; [exact A|]. inversion B as [|? ? [X _] ?]; subst. apply IH; auto. lia.
Qed.
Lemma zeros_ok : forall n l, bytes_ok l -> bytes_ok (repeat 0 n ++ l)%list.
Proof. induction n as [|n IH]; intros l B; [exact B|]. cbn [repeat app]. constructor; [unfold byte_ok; lia|]. exact (IH l B). Qed.
Lemma rmap_some : forall (r : res buf) x, rmap Some r = Ok x -> exists y, r = Ok y /\ x = Some y.
Proof. intros [y|] x H; [|discriminate]. injection H as <-. eauto. Qed.
Lemma rmap_some' : forall (r : res Z) x, rmap Some r = Ok x -> exists y, r = Ok y /\ x = Some y.
Proof. intros [y|] x H; [|discriminate]. injection H as <-. eauto. Qed.

Definition lines (k : quic_kind) (v : option Z) (t : option buf) (n : option Z) (d : buf) (s : option buf) (p : option Z) :=
  ([LType k] ++ opt_line LVersion v ++ opt_line LToken t ++ opt_line LNumber n ++ [LDest d] ++ opt_line LSrc s ++ opt_line LPayload p)%list.
Lemma display_lines : forall q ls, quic_display c q = Ok ls -> exists v t n d s p,
  quic_version c q = Ok v /\ quic_token c q = Ok t /\ quic_packet_number c q = Ok n /\ quic_dest_id c q = Ok d /\
  quic_src_id c q = Ok s /\ quic_frames c q = Ok p /\ ls = lines (q_kind q) v t n d s (option_map blen p).
Proof.
  intros q ls H. unfold quic_display in H.
  repeat (apply bind_ok in H; destruct H as (? & ? & H)). injection H as <-. do 6 eexists.
  repeat (split; [eassumption|]). unfold lines. destruct x4; reflexivity.
Qed.
Lemma lines_ok : forall q v t n d s p, buf_ok (q_buf q) ->
  quic_version c q = Ok v -> quic_token c q = Ok t -> quic_packet_number c q = Ok n -> quic_dest_id c q = Ok d ->
  quic_src_id c q = Ok s -> Forall line_ok (lines (q_kind q) v t n d s (option_map blen p)).
Proof.
  intros q v t n d s p B V T N D S. unfold lines. rewrite !Forall_app.
  repeat match goal with |- _ /\ _ => split end.
  - constructor; [exact I|constructor].
  - assert (forall z, v = Some z -> 0 <= z < 2 ^ 32).
    { intros z ->. unfold quic_version in V.
      destruct (q_kind q) eqn:K; lazymatch type of V with Ok None = _ => discriminate V | _ => idtac end; apply rmap_some' in V; destruct V as (y & V & E); injection E as <-;
        (eapply int_of_ok; [exact B|lia| |exact V]); rewrite K; reflexivity. }
    destruct v; constructor; [now apply H|constructor].
  - assert (forall z, t = Some z -> bytes_ok z).
    { intros z ->. unfold quic_token in T.
      destruct (q_kind q) eqn:K; lazymatch type of T with Ok None = _ => discriminate T | _ => idtac end; apply rmap_some in T; destruct T as (y & T & E); injection E as <-.
      exact (bytes_of_ok _ _ _ B T). }
    destruct t; constructor; [now apply H|constructor].
  - assert (forall z, n = Some z -> 0 <= z).
    { intros z ->. unfold quic_packet_number in N.
      destruct (q_kind q) eqn:K; lazymatch type of N with Ok None = _ => discriminate N | _ => idtac end; apply bind_ok in N; destruct N as (l & R & N);
        assert (BL := raw_ok _ _ _ _ B R); apply rmap_some' in N; destruct N as (y & N & E); injection E as <-;
        unfold packet_number in N; apply bind_ok in N; destruct N as (w & _ & N); (destruct (8 <? w); [discriminate N|]);
        injection N as <-; apply fold_nonneg; auto using zeros_ok; lia. }
    destruct n; constructor; [now apply H|constructor].
  - constructor; [|constructor]. exact (bytes_of_ok _ _ _ B D).
  - assert (forall z, s = Some z -> bytes_ok z).
    { intros z ->. unfold quic_src_id in S.
      destruct (q_kind q) eqn:K; lazymatch type of S with Ok None = _ => discriminate S | _ => idtac end; apply rmap_some in S; destruct S as (y & S & E); injection E as <-;
        exact (bytes_of_ok _ _ _ B S). }
    destruct s; constructor; [now apply H|constructor].
  - destruct p; constructor; [|constructor]. cbn [line_ok]. unfold blen. lia.
Qed.

Definition lines_version (l : list quic_line) : option Z := fold_right (fun x r => match x with LVersion v => Some v | _ => r end) None l.
Definition lines_token (l : list quic_line) : option buf := fold_right (fun x r => match x with LToken v => Some v | _ => r end) None l.
Definition lines_number (l : list quic_line) : option Z := fold_right (fun x r => match x with LNumber v => Some v | _ => r end) None l.
Definition lines_dest (l : list quic_line) : option buf := fold_right (fun x r => match x with LDest v => Some v | _ => r end) None l.
Definition lines_src (l : list quic_line) : option buf := fold_right (fun x r => match x with LSrc v => Some v | _ => r end) None l.
Definition lines_payload (l : list quic_line) : option Z := fold_right (fun x r => match x with LPayload v => Some v | _ => r end) None l.
Lemma lines_inj : forall k v t n d s p k' v' t' n' d' s' p', lines k v t n d s p = lines k' v' t' n' d' s' p' ->
  k = k' /\ v = v' /\ t = t' /\ n = n' /\ d = d' /\ s = s' /\ p = p'.
Proof.
  intros k v t n d s p k' v' t' n' d' s' p' E.
  assert (A : forall k v t n d s p, let l := lines k v t n d s p in
    hd_error l = Some (LType k) /\ lines_version l = v /\ lines_token l = t /\ lines_number l = n /\ lines_dest l = Some d /\
    lines_src l = s /\ lines_payload l = p).
  { clear. intros k v t n d s p. destruct v, t, n, s, p; repeat split. }
  destruct (A k v t n d s p) as (A1 & A2 & A3 & A4 & A5 & A6 & A7).
  destruct (A k' v' t' n' d' s' p') as (B1 & B2 & B3 & B4 & B5 & B6 & B7). rewrite <- E in B1, B2, B3, B4, B5, B6, B7.
  repeat split; congruence.
Qed.

Theorem display_injective : forall q q' s, buf_ok (q_buf q) -> buf_ok (q_buf q') ->
  quic_display_text c q = Ok s -> quic_display_text c q' = Ok s ->
  q_kind q = q_kind q' /\ quic_version c q = quic_version c q' /\ quic_token c q = quic_token c q' /\
  quic_packet_number c q = quic_packet_number c q' /\ quic_dest_id c q = quic_dest_id c q' /\
  quic_src_id c q = quic_src_id c q' /\
  rmap (option_map blen) (quic_frames c q) = rmap (option_map blen) (quic_frames c q').
Proof.
  intros q q' s B B' D D'. unfold quic_display_text in *. apply bind_ok in D, D'.
  destruct D as (ls & L & D). destruct D' as (ls' & L' & D'). injection D as <-. injection D' as E.
  apply display_lines in L, L'.
  destruct L as (v & t & n & d & r & p & V & T & N & DI & S & P & ->).
  destruct L' as (v' & t' & n' & d' & r' & p' & V' & T' & N' & DI' & S' & P' & ->).
  apply lines_split in E; [|eapply lines_ok; eassumption|eapply lines_ok; eassumption].
  apply lines_inj in E. destruct E as (E1 & E2 & E3 & E4 & E5 & E6 & E7). rewrite V, V', T, T', N, N', DI, DI', S, S', P, P'.
  cbn [rmap]. repeat split; congruence.
Qed.

(** ** Packets written by a sender *)

Lemma display_reports : forall p q, rpacket_ok p -> q_kind q = rpacket_kind p -> reports c p q ->
  quic_display_text c q = Ok (packet_text p).
Proof.
  intros p q O K R. unfold quic_display_text, quic_display. destruct p as [k r v d s t l n f|u v d s t|u d s vs|fl d n f]; cbn [reports rpacket_kind] in *.
  - destruct R as (-> & -> & -> & -> & -> & ->). cbn [bind]. rewrite K. cbn [opt_line option_map app].
    destruct O as (HL & _). destruct t as [[tl td]|]; cbn [option_map snd opt_line app packet_text]; rewrite concat_nil; cbn [map fold_right];
      unfold quic_line_text, line, byte_list, debug_list; rewrite sapp_nil; fold newline; destruct k; try discriminate; reflexivity.
  - destruct R as (-> & -> & -> & -> & -> & -> & _). cbn [bind]. rewrite K. cbn [opt_line app packet_text]. rewrite concat_nil. cbn [map fold_right].
    unfold quic_line_text. rewrite sapp_nil. reflexivity.
  - destruct R as (-> & -> & -> & -> & -> & -> & _). cbn [bind]. rewrite K. cbn [opt_line app packet_text]. rewrite concat_nil. cbn [map fold_right].
    unfold quic_line_text. rewrite sapp_nil. reflexivity.
  - destruct R as (-> & -> & -> & -> & -> & ->). cbn [bind]. rewrite K. cbn [opt_line app packet_text]. rewrite concat_nil. cbn [map fold_right].
    unfold quic_line_text. rewrite sapp_nil. reflexivity.
Qed.
Theorem sent_displayed : forall l, rpackets_ok l -> blen (rpackets_bytes l) < 2 ^ 61 ->
  exists qs, quic_new c (rpackets_bytes l) = Ok (Some qs) /\
    Forall2 (fun p q => quic_display_text c q = Ok (packet_text p)) l qs.
Proof.
  intros l O B. destruct (packets_recovered c l O B) as [Q R]. exists (rpackets_views l). split; [exact Q|].
  assert (G : forall pre post, l = (pre ++ post)%list -> rpackets_ok post ->
    Forall2 (fun p q => quic_display_text c q = Ok (packet_text p)) post (rpackets_views post)).
  { intros pre post. revert pre. induction post as [|p post IH]; intros pre E OP; cbn [rpackets_views]; constructor.
    - destruct OP as (O1 & _). apply display_reports; [exact O1|reflexivity|]. exact (R pre p post E).
    - apply (IH (pre ++ [p])%list); [now rewrite <- app_assoc|apply OP]. }
  exact (G [] l eq_refl O).
Qed.
End Values.
