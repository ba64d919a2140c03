(** The values getters return have the form their types promise; the printed text of the
    crate's packets. *)
From Coq Require Import String Ascii ZArith List Bool Lia ZifyBool ZifyNat.
From Verif Require Import Base BitSpec DeriveUtil DeriveOps BaseFacts BitFacts DeriveUtilProofs DeriveOpsProofs
  DeriveLEProofs DeriveGen SpecPacket DeriveGenProofs DeriveAccProofs DeriveInvProofs DeriveApiProofs ProtoSplitProofs.
From Verif Require Import StackProofs Protocols ProtoFacts Quic QuicFrameProofs QuicLongProofs QuicPacketProofs QuicRecoverProofs.
From Verif Require Import FmtText SpecFmt FmtProofs.
Import ListNotations.
Open Scope Z_scope.
Ltac Zify.zify_post_hook ::= Z.to_euclidean_division_equations.

(** What the getter of a field of type [t] returns. *)
Definition kind_typed (t : fty) (v : val) : Prop :=
  match t, v with
  | TPrim p, VInt z => 0 <= z < 2 ^ p_size p
  | TMisc ps, VTup l => Forall2 (fun p z => 0 <= z < 2 ^ p_size p) ps l
  | TVecPrim _, VBytes l => buf_ok l
  | TVecPkt k, VPkts l => Forall (fun xs => exists s, buf_ok s /\ k_from k s = Ok xs) l
  | _, _ => False
  end.

Section Typed.
Variable c : cfg.

Lemma offset_range : forall lens bit co, 0 <= bit < 2 ^ 60 -> current_offset c bit lens = Ok co -> 0 <= co < 2 ^ 64.
Proof.
  intros lens bit co B. unfold current_offset.
  assert (S : forall l acc co, (forall a, acc = Ok a -> 0 <= a < 2 ^ 64) ->
    fold_left (fun acc l => a <- acc ;; x <- l ;; add_u (c_mode c) usize a x) l acc = Ok co -> 0 <= co < 2 ^ 64).
  { induction l as [|x l IH]; intros acc d A H; cbn [fold_left] in H; [now apply A|].
    eapply IH; [|exact H]. intros a Q. apply bind_ok in Q. destruct Q as (a0 & A0 & Q).
    apply bind_ok in Q. destruct Q as (x0 & X0 & Q). unfold add_u, ovf in Q. change usize with 64 in Q.
    destruct ((0 <=? a0 + x0) && (a0 + x0 <? 2 ^ 64)) eqn:Z; [injection Q as <-; lia|].
    destruct (c_mode c); [discriminate|]. injection Q as <-. apply Z.mod_pos_bound. lia. }
  apply S. intros a Q. injection Q as <-. lia.
Qed.

Lemma prim_far : forall bit p b co, place_ok (c_host_le c) bit p -> 0 <= bit -> bytes_ok b -> blen b < 2 ^ 63 ->
  0 <= co < 2 ^ 64 -> blen b <= co -> prim_get c bit p b co = Panic EIndex.
Proof.
  intros bit p b co PL BI B L C H. destruct (place_lossless c bit p PL BI) as (LL & S1 & S2 & S3).
  destruct (plan_lossless c bit p LL) as (ops & P & WF & LN & NE & _).
  unfold prim_get. rewrite P.
  assert (X : idx b co = Panic EIndex).
  { unfold idx. destruct (0 <=? co) eqn:Q; [|reflexivity]. cbn [andb]. destruct (co <? blen b) eqn:Q2; [lia|]. reflexivity. }
  destruct ops as [|op [|op2 ops]]; [congruence|cbn [gen_get_ops]; now rewrite X|].
  cbn [gen_get_ops get_multi]. unfold add_u, ovf. rewrite Z.add_0_r. change usize with 64.
  destruct ((0 <=? co) && (co <? 2 ^ 64)) eqn:Q; [|lia]. cbn [bind]. now rewrite X.
Qed.

Lemma prim_range : forall bit p b co v, place_ok (c_host_le c) bit p -> 0 <= bit -> bytes_ok b -> blen b < 2 ^ 63 ->
  0 <= co < 2 ^ 64 -> prim_get c bit p b co = Ok v -> 0 <= v < 2 ^ p_size p.
Proof.
  intros bit p b co v PL BI B L C G.
  destruct (Z.le_gt_cases (blen b) co) as [Q|Q]; [rewrite prim_far in G by auto; discriminate|].
  destruct (Z.le_gt_cases (8 * co + bit mod 8 + p_size p) (8 * blen b)) as [R|R].
  - destruct (enc_of_get c bit p b co PL BI ltac:(lia) B L R) as (w & W & RG & _). rewrite G in W. injection W as ->. exact RG.
  - rewrite prim_get_out in G by (auto; lia). discriminate.
Qed.

Lemma misc_range : forall ps bit lens b vs, places_ok (c_host_le c) bit ps -> 0 <= bit -> bit + args_bits ps < 2 ^ 60 ->
  bytes_ok b -> blen b < 2 ^ 63 -> misc_get c ps bit lens b = Ok vs ->
  Forall2 (fun p z => 0 <= z < 2 ^ p_size p) ps vs.
Proof.
  induction ps as [|p ps IH]; intros bit lens b vs PL BI BB B L G; cbn [misc_get] in G.
  - injection G as <-. constructor.
  - destruct PL as [PL PS]. cbn [args_bits fold_right] in BB. fold (args_bits ps) in BB.
    pose proof (args_bits_nonneg _ _ _ PS) as AB. assert (SZ : 1 <= p_size p) by (destruct PL; lia).
    apply bind_ok in G. destruct G as (co & CO & G). apply bind_ok in G. destruct G as (v & GV & G).
    apply bind_ok in G. destruct G as (r & GR & G). injection G as <-. constructor.
    + eapply prim_range; [exact PL|..|exact GV]; auto. eapply offset_range; [|exact CO]. lia.
    + eapply IH; [exact PS|..|exact GR]; auto; lia.
Qed.

Lemma collected : forall A k (g : buf -> res A) fuel b l, buf_ok b -> iter_collect k g fuel b = Ok l ->
  Forall (fun x => exists s, buf_ok s /\ g s = Ok x) l.
Proof.
  intros A k g. induction fuel as [|fuel IH]; intros b l B H; cbn [iter_collect] in H; [discriminate|].
  apply bind_ok in H. destruct H as (n & N & H). destruct n as [[item rest]|]; [|injection H as <-; constructor].
  unfold iter_next in N. destruct ((0 <? blen b) && (k_min k <=? blen b)); [|discriminate].
  apply bind_ok in N. destruct N as (sz & SZ & N). injection N as <- <-.
  apply bind_ok in H. destruct H as (x & X & H). destruct (_ =? _); [discriminate|].
  apply bind_ok in H. destruct H as (r & R & H). injection H as <-. constructor; [eauto|].
  eapply IH; [|exact R]. destruct B as [B L]. split; [now apply bytes_skipn|].
  unfold blen in *. rewrite skipn_length. lia.
Qed.

Lemma sliced : forall co len b s, buf_ok b -> var_slice c co len b = Ok s -> buf_ok s.
Proof.
  intros co len b s [B L] H. unfold var_slice in H. apply bind_ok in H. destruct H as ([lo hi] & _ & H).
  apply slice_inv in H. destruct H as (H1 & H2 & ->). split; [now apply bytes_firstn, bytes_skipn|].
  unfold blen in *. rewrite firstn_length, skipn_length. lia.
Qed.

Lemma field_typed : forall f r bit lens len b v, schema_ok (c_host_le c) (fun _ _ => True) (f :: r) bit ->
  0 <= bit -> bit + fixed_bits (f_ty f) < 2 ^ 60 -> buf_ok b -> field_get c f bit lens len b = Ok v ->
  kind_typed (f_ty f) v.
Proof.
  intros f r bit lens len b v OK BI BB B G. cbn [schema_ok] in OK. destruct OK as [OK _].
  unfold field_get in G. destruct (f_ty f) as [p|ps|p|k] eqn:T; cbn [fixed_bits kind_typed] in *.
  - destruct OK as [PL _]. assert (SZ : 1 <= p_size p) by (destruct PL; lia).
    apply bind_ok in G. destruct G as (co & CO & G).
    destruct (prim_get c bit p b co) as [z|] eqn:P; [|discriminate]. injection G as <-.
    eapply prim_range; [exact PL|..|exact P]; auto; try apply B. eapply offset_range; [|exact CO]. lia.
  - destruct OK as [PL _]. destruct (misc_get c ps bit lens b) as [vs|] eqn:P; [|discriminate]. injection G as <-.
    eapply misc_range; [exact PL|..|exact P]; auto; apply B.
  - destruct OK as [S8 _]. apply bind_ok in G. destruct G as (s & VS & G). apply sliced in VS; auto.
    rewrite vec_get_u8_all in G by (auto; apply VS). injection G as <-. exact VS.
  - apply bind_ok in G. destruct G as (s & VS & G). apply sliced in VS; auto.
    destruct (iter_all k (k_from k) s) as [l|] eqn:IT; [|discriminate]. injection G as <-.
    eapply collected; [exact VS|exact IT].
Qed.

Lemma layout_typed : forall fs bit lens e b, schema_ok (c_host_le c) (fun _ _ => True) fs bit ->
  0 <= bit -> bit + total_bits fs < 2 ^ 60 -> buf_ok b ->
  Forall (fun l => forall v, l_get l = Ok v -> kind_typed (f_ty (l_field l)) v) (layout_from c b fs bit lens e).
Proof.
  induction fs as [|f fs IH]; intros bit lens e b OK BI BB B; [constructor|].
  cbn [total_bits fold_right] in BB. fold (total_bits fs) in BB.
  assert (NN : 0 <= fixed_bits (f_ty f)).
  { cbn [schema_ok] in OK. destruct OK as [OK _]. destruct (f_ty f); cbn [fixed_bits]; try lia.
    - destruct OK as [[SZ _] _]. lia.
    - destruct OK as [PL _]. exact (args_bits_nonneg _ _ _ PL). }
  assert (NT : 0 <= total_bits fs).
  { cbn [schema_ok] in OK. destruct OK as [_ OK]. clear - OK. revert OK. generalize (bit + fixed_bits (f_ty f)) as q. clear.
    induction fs as [|f fs IH]; intros bit OK; [vm_compute; discriminate|]. cbn [schema_ok total_bits fold_right] in *.
    destruct OK as [OK R]. apply IH in R. fold (total_bits fs). destruct (f_ty f); cbn [fixed_bits]; try lia.
    - destruct OK as [[SZ _] _]. lia.
    - destruct OK as [PL _]. pose proof (args_bits_nonneg _ _ _ PL). lia. }
  cbn [layout_from]. constructor.
  - cbn [l_field l_get]. intros v G. eapply field_typed; [exact OK|..|exact G]; auto; lia.
  - apply IH; auto; try lia. cbn [schema_ok] in OK. apply OK.
Qed.

Lemma filter_fields : forall (P : field -> bool) ls,
  filter P (map l_field ls) = map l_field (filter (fun l => P (l_field l)) ls).
Proof.
  intros P. induction ls as [|l ls IH]; [reflexivity|]. cbn [map filter]. rewrite IH.
  destruct (P (l_field l)); reflexivity.
Qed.

Lemma filtered_typed : forall (P : field -> bool) fs b vs, schema_ok (c_host_le c) (fun _ _ => True) fs 0 ->
  total_bits fs < 2 ^ 60 -> buf_ok b ->
  seq_res (map l_get (filter (fun l => P (l_field l)) (layout c b fs))) = Ok vs ->
  Forall2 (fun f v => kind_typed (f_ty f) v) (filter P fs) vs.
Proof.
  intros P fs b vs OK TB B H. apply seq_res_combine in H.
  assert (T := layout_typed fs 0 [] [] b OK ltac:(lia) ltac:(lia) B). fold (layout c b fs) in T.
  assert (E : filter P fs = map l_field (filter (fun l => P (l_field l)) (layout c b fs))).
  { rewrite <- filter_fields. f_equal. symmetry. apply layout_fields. }
  rewrite E. clear E.
  assert (F : Forall (fun l => forall v, l_get l = Ok v -> kind_typed (f_ty (l_field l)) v) (filter (fun l => P (l_field l)) (layout c b fs))).
  { rewrite Forall_forall in *. intros l IN. apply filter_In in IN. apply T. apply IN. }
  clear T. induction H as [|l v ls vs G H IH]; cbn [map]; constructor.
  - inversion F; subst. auto.
  - apply IH. now inversion F.
Qed.
End Typed.

(** ** The crate's packets *)

Definition flat_match (f : flat) (t : fty) : bool :=
  match f, t with
  | FInt, TPrim _ => true
  | FNew n, TMisc [_] => chars_in ident_char n
  | FMac, TMisc l => (length l =? 6)%nat && forallb (fun p => p_size p =? 8) l
  | FIp4, TMisc l => (length l =? 4)%nat && forallb (fun p => p_size p =? 8) l
  | FIp6, TMisc l => (length l =? 8)%nat && forallb (fun p => p_size p =? 16) l
  | FBytes, TVecPrim _ => true
  | _, _ => false
  end.

Lemma pairs_length : forall A B (R : A -> B -> Prop) l l', Forall2 R l l' -> length l = length l'.
Proof. intros A B R l l' H. induction H; cbn [length]; congruence. Qed.
Lemma sizes_ok : forall n ps l, forallb (fun p => p_size p =? n) ps = true ->
  Forall2 (fun p z => 0 <= z < 2 ^ p_size p) ps l -> Forall (fun z => 0 <= z < 2 ^ n) l.
Proof.
  intros n ps l F H. induction H as [|p z ps l R H IH]; [constructor|]. cbn [forallb] in F.
  apply andb_prop in F. destruct F as [F1 F2]. apply Z.eqb_eq in F1. constructor; [now rewrite <- F1|auto].
Qed.

Lemma flat_kind : forall f t v, flat_match f t = true -> kind_typed t v -> flat_typed f v.
Proof.
  intros f t v M K. destruct f, t as [p|ps|p|k]; try discriminate; destruct v as [z|l|l|l]; try contradiction;
    cbn [kind_typed flat_typed flat_match] in *; try (exact K || exact (proj1 K) || lia).
  - destruct ps as [|p [|q ps]]; try discriminate. inversion K as [|? z ? l' R K2]; subst. inversion K2; subst. lia.
  - apply andb_prop in M. destruct M as [L M]. apply Nat.eqb_eq in L. rewrite <- (pairs_length _ _ _ _ _ K). split; [exact L|].
    eapply Forall_impl; [|exact (sizes_ok 8 _ _ M K)]. intros a A. exact A.
  - apply andb_prop in M. destruct M as [L M]. apply Nat.eqb_eq in L. rewrite <- (pairs_length _ _ _ _ _ K). split; [exact L|].
    eapply Forall_impl; [|exact (sizes_ok 8 _ _ M K)]. intros a A. exact A.
  - apply andb_prop in M. destruct M as [L M]. apply Nat.eqb_eq in L. split; [rewrite <- (pairs_length _ _ _ _ _ K); exact L|].
    eapply Forall_impl; [|exact (sizes_ok 16 _ _ M K)]. intros a A. exact A.
Qed.

(** What is to be checked of a field of struct [n]: its printed form suits its type, and
    inner packets are those of a struct of the crate with flat fields. *)
Definition field_fits (c : cfg) (n : string) (f : field) : Prop :=
  ident (f_name f) /\
  match f_ty f with
  | TVecPkt k =>
      let t := field_type n (f_name f) in
      exists gs, In (t, gs) (crate_schemas c) /\ assoc [] (crate_schemas c) t = gs /\ k = sem_of c gs /\
        ident t /\ (length gs =? 0)%nat = false /\ forallb (fun g => chars_in ident_char (f_name g) && flat_match (flat_of t g) (f_ty g)) gs = true
  | t => flat_match (flat_of n f) t = true
  end.
Definition packet_fits (c : cfg) (p : string * schema) : Prop :=
  ident (fst p) /\ scoped [] (snd p) /\ schema_ok (c_host_le c) (fun _ _ => True) (snd p) 0 /\
  total_bits (snd p) < 2 ^ 60 /\ Forall (field_fits c (fst p)) (snd p).

Ltac in_tac := first [left; reflexivity | right; in_tac].
Ltac fits_tac :=
  repeat (apply Forall_cons; [split; [reflexivity|first [reflexivity |
    cbn [f_ty f_name fld vfld pfld]; eexists; split; [in_tac|repeat split]]]|]); apply Forall_nil.

Lemma crate_fits : forall c, Forall (fun p => Forall (field_fits c (fst p)) (snd p)) (crate_schemas c).
Proof. intros c. repeat (apply Forall_cons; [cbn [fst snd]; fits_tac|]). apply Forall_nil. Qed.
Lemma quic_fits : forall c k, Forall (field_fits c (quic_struct k)) (quic_schema c k).
Proof. intros c k. destruct k; fits_tac. Qed.
Lemma frame_fits : forall c k, Forall (field_fits c (frame_struct k)) (frame_schema k).
Proof. intros c k. destruct k; fits_tac. Qed.

Lemma quic_scoped : forall c k, scoped [] (quic_schema c k).
Proof.
  intros c k. destruct k; cbn [quic_schema].
  - apply negotiation_scoped.
  - exact (long_scoped c true).
  - exact (long_scoped c false).
  - exact (long_scoped c false).
  - apply retry_scoped.
  - apply rtt_scoped.
Qed.
Lemma quic_ok : forall c k, schema_ok (c_host_le c) (fun _ _ => True) (quic_schema c k) 0.
Proof.
  intros c k. destruct k; cbn [quic_schema];
    unfold version_negotiation, initial, zero_rtt, handshake, retry, one_rtt, long_start, long_end, vint, last_bytes; ok_tac.
Qed.
Lemma frame_ok : forall h k, schema_ok h (fun _ _ => True) (frame_schema k) 0.
Proof.
  intros h k. destruct k; cbn [frame_schema];
    unfold bare_frame, ack_frame, reset_stream_frame, stop_sending_frame, crypto_frame, new_token_frame,
      stream_frame, max_data_frame, max_stream_data_frame, max_streams_frame, new_connection_id_frame,
      retire_connection_id_frame, path_frame, connection_close_frame, ty_field, vint, last_bytes; ok_tac.
Qed.

Lemma all_fit : forall c, Forall (packet_fits c) (all_packets c).
Proof.
  intros c. unfold all_packets. rewrite !Forall_app. split; [|split].
  - assert (N : Forall (fun p => ident (fst p) /\ total_bits (snd p) < 2 ^ 60) (crate_schemas c)).
    { repeat (apply Forall_cons; [split; reflexivity|]). apply Forall_nil. }
    assert (F := crate_fits c). rewrite Forall_forall in *. intros [n fs] IN.
    destruct (N _ IN) as [N1 N2]. destruct (crate_well_formed c n fs IN) as (W1 & W2 & _).
    repeat split; auto; try exact (F _ IN).
  - apply Forall_map, Forall_forall. intros k _. repeat split; cbn [fst snd]; auto using quic_scoped, quic_ok, quic_fits; destruct k; reflexivity.
  - apply Forall_map, Forall_forall. intros k _. repeat split; cbn [fst snd]; auto using frame_scoped, frame_ok, frame_fits; destruct k; reflexivity.
Qed.

Lemma names_distinct : forall c n fs fs', In (n, fs) (all_packets c) -> In (n, fs') (all_packets c) -> fs = fs'.
Proof.
  intros c. assert (D : NoDup (map fst (all_packets c))).
  { replace (map fst (all_packets c)) with (map fst (all_packets (Cfg Checked Checked true))) by reflexivity.
    assert (X : (fix nodup l := match l with [] => true | x :: r => negb (existsb (String.eqb x) r) && nodup r end)
       (map fst (all_packets (Cfg Checked Checked true))) = true) by (vm_compute; reflexivity).
    revert X. generalize (map fst (all_packets (Cfg Checked Checked true))). clear. induction l as [|x l IH]; intros X; constructor.
    - apply andb_prop in X. destruct X as [X _]. intros I. apply negb_true_iff in X.
      assert (Q : existsb (String.eqb x) l = true) by (apply existsb_exists; exists x; auto using String.eqb_refl). congruence.
    - apply IH. apply andb_prop in X. apply X. }
  revert D. generalize (all_packets c). clear. induction l as [|[m gs] l IH]; intros D n fs fs' I I'; [contradiction|].
  inversion D as [|? ? N D2]; subst. destruct I as [I|I], I' as [I'|I'].
  - congruence.
  - injection I as -> ->. contradict N. apply in_map_iff. exists (n, fs'). auto.
  - injection I' as -> ->. contradict N. apply in_map_iff. exists (n, fs). auto.
  - eapply IH; eauto.
Qed.
