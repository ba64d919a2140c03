(** Proofs about packets inside packets. *)
From Coq Require Import String ZArith List Bool Lia ZifyBool ZifyNat.
From Verif Require Import Base BitSpec DeriveUtil DeriveOps DeriveGen SpecPacket SpecStruct Protocols SpecProto SpecStack.
From Verif Require Import BaseFacts DeriveGenProofs DeriveAccProofs ProtoFacts ProtoSplitProofs ProtoStructProofs DeriveStructProofs DeriveApiProofs.
Import ListNotations.
Open Scope Z_scope.
Ltac Zify.zify_post_hook ::= Z.to_euclidean_division_equations.

Section P.
Variable c : cfg.
Let m := c_mode c.

Lemma slice_part : forall b lo hi s, slice b lo hi = Ok s -> part_of s b.
Proof.
  intros b lo hi s H. apply slice_inv in H. destruct H as (A & B & ->).
  exists (firstn (Z.to_nat lo) b), (skipn (Z.to_nat (hi - lo)) (skipn (Z.to_nat lo) b)).
  rewrite firstn_skipn. now rewrite firstn_skipn.
Qed.

Lemma part_refl : forall b, part_of b b.
Proof. intros b. exists [], []. now rewrite app_nil_r. Qed.
Lemma part_nil : forall b, part_of [] b.
Proof. intros b. exists [], b. reflexivity. Qed.
Lemma part_trans : forall a b d, part_of a b -> part_of b d -> part_of a d.
Proof.
  intros a b d (p & q & ->) (r & s & ->). exists (r ++ p), (q ++ s). rewrite !app_assoc. reflexivity.
Qed.

Lemma payload_part : forall fs b p, payload c fs b = Ok p -> part_of p b.
Proof.
  intros fs b p H. unfold payload in H. destruct (payload_window c fs b) as [[[lo hi]|]|e]; cbn [bind] in H; try discriminate.
  - now apply slice_part in H.
  - injection H as <-. apply part_nil.
Qed.

Theorem peel_part : forall fss b xss d, peel c fss b = Ok (Some (xss, d)) -> part_of d b /\ length xss = length fss.
Proof.
  induction fss as [|fs r IH]; intros b xss d H; cbn [peel] in H.
  - injection H as <- <-. split; [apply part_refl|reflexivity].
  - unfold new in H. destruct (minimum_packet_size fs <=? blen b); [|discriminate].
    destruct (from_packet c fs b) as [xs|]; cbn [bind] in H; [|discriminate].
    destruct (payload c fs b) as [inner|] eqn:P; cbn [bind] in H; [|discriminate].
    destruct (peel c r inner) as [[[xss' d']|]|] eqn:Q; cbn [bind] in H; try discriminate.
    injection H as <- <-. apply IH in Q. destruct Q as [Q1 Q2]. split; [|cbn [length]; congruence].
    eapply part_trans; [exact Q1|]. eapply payload_part. exact P.
Qed.

(** The payload() of a packet is the payload field of the struct it is parsed to. *)
Lemma seq_res_combine : forall (ls : list loc) xs, seq_res (map l_get ls) = Ok xs ->
  Forall2 (fun l x => l_get l = Ok x) ls xs.
Proof.
  induction ls as [|l ls IH]; intros xs H; cbn [map seq_res] in H.
  - injection H as <-. constructor.
  - destruct (l_get l) as [v|] eqn:G; cbn [bind] in H; [|discriminate].
    destruct (seq_res (map l_get ls)) as [t|] eqn:T; cbn [bind] in H; [|discriminate].
    injection H as <-. constructor; auto.
Qed.

Lemma find_payload : forall ls xs f p, Forall2 (fun l x => l_get l = Ok x) ls xs ->
  find (fun q => f_payload (fst q)) (combine (map l_field ls) xs) = Some (f, VBytes p) ->
  exists l, find (fun l => f_payload (l_field l)) ls = Some l /\ l_get l = Ok (VBytes p) /\ l_field l = f.
Proof.
  induction 1 as [|l x ls xs G F IH]; cbn [map combine find]; [discriminate|].
  cbn [fst]. destruct (f_payload (l_field l)) eqn:P; intros H.
  - injection H as <- ->. exists l. auto.
  - destruct (IH H) as (l' & A & B & D). exists l'. auto.
Qed.

Lemma layout_get : forall b fs l, In l (layout c b fs) ->
  l_get l = field_get c (l_field l) (l_bit l) (l_lens l) (l_len l) b.
Proof.
  intros b fs. unfold layout. generalize 0 (@nil (res Z)) (@nil (string * res val)).
  induction fs as [|f fs IH]; intros bit lens e l IN; cbn [layout_from In] in IN; [tauto|].
  destruct IN as [<-|IN]; [reflexivity|]. exact (IH _ _ _ _ IN).
Qed.

Lemma window_of_get : forall b co len s, buf_ok b -> var_slice c co len b = Ok s ->
  exists start, co = Ok start /\
  exists u, match len with Some n => co' <- co ;; x <- n ;; add_u m usize co' x | None => Ok (blen b) end = Ok u /\
    (if blen b <=? start then s = [] else slice b start (Z.min u (blen b)) = Ok s).
Proof.
  intros b co len s [_ BL] V. unfold var_slice, var_range in V. fold m in V.
  destruct co as [start|]; cbn [bind] in V; [|discriminate]. exists start. split; [reflexivity|]. cbn [bind].
  destruct len as [n|]; cbn [len_or_all bind] in V.
  - destruct n as [x|]; cbn [bind] in V |- *; [|discriminate].
    destruct (add_u m usize start x) as [u|]; cbn [bind] in V; [|discriminate]. exists u. split; [reflexivity|].
    destruct (blen b <=? start) eqn:Q; [|exact V].
    apply slice_inv in V. destruct V as (V1 & V2 & ->). replace (Z.min u (blen b) - start) with 0 by lia. reflexivity.
  - destruct (add_u m usize start (blen b)) as [u|] eqn:A; cbn [bind] in V; [|discriminate].
    exists (blen b). split; [reflexivity|].
    apply slice_inv in V. destruct V as (V1 & V2 & VS).
    destruct (blen b <=? start) eqn:Q.
    + rewrite VS. replace (Z.min u (blen b) - start) with 0 by lia. reflexivity.
    + rewrite Z.min_id, slice_ok by lia. rewrite VS. f_equal.
      unfold blen in *. rewrite !firstn_all2; try reflexivity; rewrite skipn_length; try lia.
      rewrite add_u_in in A by (change usize with 64; lia). injection A as <-. lia.
Qed.

Lemma payload_of_get : forall b fs l p q, buf_ok b ->
  find (fun l => f_payload (l_field l)) (layout c b fs) = Some l -> f_ty (l_field l) = TVecPrim p -> p_size p = 8 ->
  l_get l = Ok (VBytes q) -> payload c fs b = Ok q.
Proof.
  intros b fs l p q B F T P G. assert (B' := B). destruct B' as [B1 B2].
  rewrite (layout_get b fs l) in G by (apply find_some in F; tauto).
  unfold field_get in G. rewrite T in G.
  destruct (var_slice c (current_offset c (l_bit l) (l_lens l)) (l_len l) b) as [s|] eqn:V; cbn [bind] in G; [|discriminate].
  assert (PS : part_of s b).
  { unfold var_slice in V. destruct (var_range _ _ _ _) as [[lo hi]|]; cbn [bind] in V; [|discriminate]. now apply slice_part in V. }
  assert (OK : bytes_ok s /\ blen s < 2 ^ 63).
  { destruct PS as (x & y & ->). unfold bytes_ok, blen in *. rewrite !Forall_app in B1. rewrite !app_length in B2. split; [tauto|lia]. }
  rewrite vec_get_u8_all in G by tauto. cbn [rmap] in G. injection G as <-.
  destruct (window_of_get b _ _ s B V) as (start & C & u & U & W).
  unfold payload, payload_window, payload_bounds. rewrite F. unfold l_co. fold m. rewrite C in U |- *. cbn [bind] in U |- *.
  rewrite U. cbn [bind]. destruct (blen b <=? start) eqn:Q; cbn [bind]; [now rewrite W|]. rewrite W. cbn [bind]. exact W.
Qed.

(** Protocols whose payload field is a vector of bytes: all of the crate. *)
Lemma crate_payload_bytes : forall n fs, In (n, fs) (crate_schemas c) ->
  forall f, In f fs -> f_payload f = true -> exists p, f_ty f = TVecPrim p /\ p_size p = 8.
Proof.
  intros n fs IN. unfold crate_schemas in IN. cbn [In] in IN.
  repeat match goal with H : _ \/ _ |- _ => destruct H as [H|H] end; try tauto; injection IN as <- <-;
  intros f I P;
  repeat (destruct I as [<-|I]; [try discriminate P; eexists; split; reflexivity|]); destruct I.
Qed.

Theorem payload_is_field : forall n fs b xs q, In (n, fs) (crate_schemas c) -> buf_ok b ->
  from_packet c fs b = Ok xs -> payload_val fs xs = Some q -> payload c fs b = Ok q.
Proof.
  intros n fs b xs q IN B FP PV. unfold from_packet in FP. apply seq_res_combine in FP.
  unfold payload_val in PV.
  destruct (find (fun p => f_payload (fst p)) (combine fs xs)) as [[f v]|] eqn:F; [|discriminate].
  destruct v as [| |v|]; try discriminate. injection PV as ->.
  assert (LF := layout_fields c b fs 0 [] []). fold (layout c b fs) in LF. rewrite <- LF in F at 1.
  destruct (find_payload _ _ _ _ FP F) as (l & FL & G & E).
  destruct (crate_payload_bytes n fs IN (l_field l)) as (p & T & P8).
  - rewrite <- LF. apply in_map. apply find_some in FL. tauto.
  - apply find_some in FL. tauto.
  - eapply payload_of_get; eauto.
Qed.

(** The wire form of a struct is a buffer the view type accepts. *)
Lemma wire_accepted : forall n fs xs, In (n, fs) (crate_schemas c) -> packet_ok c n fs xs ->
  buf_ok (packet_wire c n fs xs) /\ new fs (packet_wire c n fs xs) = Some (packet_wire c n fs xs).
Proof.
  intros n fs xs IN OK. assert (OK' := OK). destruct OK' as (T & _ & L).
  destruct (crate_well_formed c n fs IN) as (S & SO & LP). destruct (crate_header c n fs IN) as (M & HB & _).
  split; [split; [apply pack_bytes|exact L]|].
  assert (SC : schema_ok (c_host_le c) (fun m k => codec k (elem_wire c n m) (elem_ok c n m)) fs 0).
  { eapply schema_ok_inner; [exact SO|]. intros f k IF TY. now apply (elem_sound c n fs). }
  destruct (wire_bits c (elem_wire c n) (elem_ok c n) fs xs SC T M) as [_ W]. fold (packet_wire c n fs xs) in W.
  unfold new, minimum_packet_size. rewrite header_bits_total in *.
  rewrite M. cbn [Z.eqb].
  destruct (Z.leb_spec (total_bits fs / 8) (blen (packet_wire c n fs xs))) as [Q|Q]; [reflexivity|lia].
Qed.

Lemma zeros_ok : forall n, Z.of_nat n < 2 ^ 63 -> buf_ok (repeat 0 n).
Proof.
  intros n H. split; [|unfold blen; rewrite repeat_length; exact H].
  apply Forall_forall. intros x IN. apply repeat_spec in IN. subst. unfold byte_ok. lia.
Qed.

Theorem peel_stacked : forall ls data w, stacked c ls data w ->
  peel c (map y_schema ls) w = Ok (Some (map y_struct ls, data)).
Proof.
  induction ls as [|l r IH]; intros data w H; cbn [stacked map peel] in H |- *; [now subst|].
  destruct H as (inner & SI & IN & OK & PV & ->).
  destruct (wire_accepted _ _ _ IN OK) as [B N]. rewrite N.
  destruct (crate_roundtrip c _ _ _ _ IN OK B eq_refl) as [_ FP]. rewrite FP. cbn [bind].
  rewrite (payload_is_field _ _ _ _ _ IN B FP PV). cbn [bind].
  rewrite (IH _ _ SI). reflexivity.
Qed.

(** A struct has one payload field, so filling it in changes that field alone. *)
Lemma with_payload_id : forall fs xs p, length fs = length xs ->
  (length (filter f_payload fs) <= 1)%nat -> payload_val fs xs = Some p -> with_payload fs xs p = xs.
Proof.
  unfold payload_val, with_payload.
  induction fs as [|f fs IH]; intros [|x xs] p L ONE H; try discriminate; cbn [combine map find fst snd] in *.
  cbn [filter] in ONE. destruct (f_payload f) eqn:P.
  - destruct x; try discriminate. injection H as ->. f_equal. cbn [length] in *.
    assert (F0 : filter f_payload fs = []) by (destruct (filter f_payload fs); [reflexivity|cbn [length] in ONE; lia]).
    assert (L' : length fs = length xs) by lia. clear - F0 L'. revert xs L'.
    induction fs as [|g fs IH]; intros [|x xs] L; try discriminate; cbn [combine map]; auto.
    cbn [filter] in F0. cbn [fst snd]. destruct (f_payload g); [discriminate|]. f_equal. apply IH; cbn [length] in L; auto.
  - f_equal. apply IH; auto.
Qed.

Lemma with_payload_twice : forall fs xs p q, length fs = length xs ->
  with_payload fs (with_payload fs xs p) q = with_payload fs xs q.
Proof.
  unfold with_payload. induction fs as [|f fs IH]; intros [|x xs] p q L; try discriminate; cbn [combine map fst snd]; auto.
  f_equal; [destruct (f_payload f); reflexivity|]. apply IH. cbn [length] in L. lia.
Qed.

Lemma crate_one_payload : forall n fs, In (n, fs) (crate_schemas c) -> (length (filter f_payload fs) <= 1)%nat.
Proof.
  intros n fs IN. unfold crate_schemas in IN. cbn [In] in IN.
  repeat (destruct IN as [IN|IN]; [injection IN as <- <-; vm_compute; auto|]). contradiction IN.
Qed.

Theorem build_stacked : forall ls blanks data w, stacked c ls data w ->
  Forall2 same_header ls blanks ->
  build c blanks data = (w, Ok tt).
Proof.
  intros ls blanks data w H F. revert data w H.
  induction F as [|l k ls ks (E1 & E2 & p & E3) F IH]; intros data w H; cbn [stacked build] in H |- *; [now subst|].
  destruct H as (inner & SI & IN & OK & PV & ->). rewrite (IH _ _ SI). cbv zeta. rewrite E1, E2, E3.
  assert (LN : length (y_schema l) = length (y_struct l)) by (destruct OK as (T & _); eapply Forall2_len; exact T).
  rewrite with_payload_twice by exact LN.
  rewrite with_payload_id; [|exact LN|exact (crate_one_payload _ _ IN)|exact PV].
  destruct (wire_accepted _ _ _ IN OK) as [[_ B] N].
  apply (crate_roundtrip c _ _ _ _ IN OK).
  - apply zeros_ok. exact B.
  - unfold blen. now rewrite repeat_length.
Qed.
End P.
