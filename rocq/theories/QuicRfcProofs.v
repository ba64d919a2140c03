(** Frames written as RFC 9000 says are read back. *)
From Coq Require Import String ZArith List Bool Lia ZifyBool ZifyNat.
From Verif Require Import Base BaseFacts BitSpec DeriveUtil DeriveOps DeriveGen Quic SpecQuic
  QuicIntProofs QuicWalkProofs QuicFrameProofs QuicSeqProofs.
Import ListNotations.
Open Scope Z_scope.
Ltac Zify.zify_post_hook ::= Z.to_euclidean_division_equations.

Lemma read_step : forall n k w seen l s, width_size k seen (l ++ s) = Some (blen l) ->
  read_fields ((n, k) :: w) seen (l ++ s) = read_fields w (seen ++ [(n, l)]) s.
Proof.
  intros n k w seen l s W. cbn [read_fields]. rewrite W, blen_app'. assert (P := blen_pos s).
  destruct (blen l <=? blen l + blen s) eqn:Q; [|lia].
  rewrite firstn_app_exact, skipn_app_exact by reflexivity. reflexivity.
Qed.
Lemma vi_len : forall x, vi_ok x -> blen (vi_bytes x) = vi_width x.
Proof. intros x V. apply (vi_bytes_ok x V). Qed.
Lemma vi_some : forall x, vi_ok x -> vi_bytes x <> [].
Proof. intros x V E. assert (L := vi_len x V). rewrite E in L. destruct V as [V _]. unfold blen in L. cbn in L. lia. Qed.
Lemma read_vi : forall n w seen x s, vi_ok x ->
  read_fields ((n, WVarint) :: w) seen (vi_bytes x ++ s) = read_fields w (seen ++ [(n, vi_bytes x)]) s.
Proof. intros n w seen x s V. apply read_step. cbn [width_size]. now rewrite vi_size_bytes, vi_len. Qed.
Lemma vis_varints : forall l, Forall vi_ok l -> varints (Z.of_nat (List.length l)) (vis_bytes l).
Proof.
  induction l as [|x l IH]; intros F; [constructor|]. inversion F; subst.
  cbn [List.length vis_bytes flat_map]. rewrite Nat2Z.inj_succ. unfold Z.succ. constructor; auto.
Qed.
Lemma read_vis : forall k n w seen l s N, Forall vi_ok l ->
  width_size k seen (vis_bytes l ++ s) = vis_size (List.length (vis_bytes l ++ s)) N (vis_bytes l ++ s) ->
  N = Z.of_nat (List.length l) ->
  read_fields ((n, k) :: w) seen (vis_bytes l ++ s) = read_fields w (seen ++ [(n, vis_bytes l)]) s.
Proof.
  intros k n w seen l s N F W ->. apply read_step. rewrite W.
  apply (vis_size_complete _ _ (vis_varints l F)). rewrite app_length. lia.
Qed.
Lemma read_opt : forall n w seen o s, opt_ok o ->
  read_fields ((n, WOpt (is_some o)) :: w) seen (opt_bytes o ++ s) = read_fields w (seen ++ [(n, opt_bytes o)]) s.
Proof.
  intros n w seen [x|] s V; cbn [is_some opt_bytes].
  - assert (E : vi_bytes x = vis_bytes [x]) by (cbn [vis_bytes flat_map]; now rewrite app_nil_r).
    rewrite E. apply (read_vis _ _ _ _ [x] s 1); auto.
  - apply read_step. reflexivity.
Qed.
Lemma read_data : forall k n w seen x d s, data_ok x d ->
  width_size k seen (d ++ s) = Some (vi_read (vi_bytes x)) ->
  read_fields ((n, k) :: w) seen (d ++ s) = read_fields w (seen ++ [(n, d)]) s.
Proof.
  intros k n w seen x d s (V & E & B) W. apply read_step. rewrite W, vi_read_bytes by auto. now rewrite E.
Qed.
Lemma read_fixed : forall m n w seen d s, blen d = m ->
  read_fields ((n, WFixed m) :: w) seen (d ++ s) = read_fields w (seen ++ [(n, d)]) s.
Proof. intros m n w seen d s <-. now apply read_step. Qed.

Lemma bytes_ok_app : forall a b, bytes_ok a -> bytes_ok b -> bytes_ok (a ++ b).
Proof. intros a b A B. apply Forall_app. auto. Qed.
Lemma vi_bytes_bytes : forall x, vi_ok x -> bytes_ok (vi_bytes x).
Proof. intros x V. apply (vi_bytes_ok x V). Qed.
Lemma vis_bytes_bytes : forall l, Forall vi_ok l -> bytes_ok (vis_bytes l).
Proof.
  induction l as [|x l IH]; intros F; [constructor|]. inversion F; subst. cbn [vis_bytes flat_map].
  apply bytes_ok_app; auto. now apply vi_bytes_bytes.
Qed.
Lemma opt_bytes_bytes : forall o, opt_ok o -> bytes_ok (opt_bytes o).
Proof. intros [x|] V; [now apply vi_bytes_bytes|constructor]. Qed.

Lemma rframe_bytes : forall last f, rframe_ok last f -> bytes_ok (rencode f).
Proof.
  intros last f OK. unfold rencode. constructor.
  - destruct f; cbn [rtype]; unfold byte_ok, bit_if;
      repeat match goal with |- context [if ?b then _ else _] => destruct b end; lia.
  - destruct f; cbn [rframe_ok rfields flat_map val_bytes app] in *; unfold data_ok in *;
      repeat match goal with |- context [_ ++ []] => rewrite app_nil_r end;
      repeat match goal with H : _ /\ _ |- _ => destruct H end;
      try match goal with H : match ?o with Some _ => _ | None => _ end |- _ => destruct o; unfold data_ok in * end;
      repeat match goal with H : _ /\ _ |- _ => destruct H end;
      repeat first [ apply bytes_ok_app | apply vi_bytes_bytes | apply vis_bytes_bytes | apply opt_bytes_bytes
                   | assumption | constructor ];
      cbn [opt_ok]; auto.
    apply blen_pos.
Qed.

(** One frame. *)
Ltac rd := repeat rewrite <- app_assoc; repeat rewrite app_nil_r.
Ltac wire_tac := match goal with |- frame_wire _ _ = _ => reflexivity end.

Lemma rframe_read : forall last f rest, rframe_ok last f -> no_ranges f -> (last = true -> rest = []) ->
  exists w seen, frame_wire 1 (rtype f) = Some w /\
    read_fields w [] (flat_map val_bytes (rfields f) ++ rest) = Some (seen, rest) /\
    shown_fields w seen = rfields f.
Proof.
  intros last f rest OK NR LR.
  destruct f as [| | |la d n f r e|i e s|i e|o l d|l t|fin i o l d|v|i v|uni v|v|i v|uni v|sq r i t|sq|d|d|e ft l r];
    cbn [rframe_ok no_ranges] in OK, NR; cbn [rfields flat_map val_bytes].
  - exists [], []. now cbn.
  - exists [], []. now cbn.
  - exists [], []. now cbn.
  - subst r. destruct OK as (V1 & V2 & V3 & V4 & N & _ & V6).
    assert (E3 : exists x, frame_wire 1 (rtype (RAck la d n f [] e)) = Some x /\ x =
      [("largest_acknowledged", WVarint); ("ack_delay", WVarint); ("ack_range_count", WVarint);
          ("first_ack_range", WVarint); ("ack_range", WVarintsOf 1 "ack_range_count");
          ("ecn_counts", WVarints (Z.of_nat (List.length (ecn_vi e))))]%string).
    { destruct e as [[[? ?] ?]|]; cbn; eauto. }
    destruct E3 as (w & W & ->). eexists _, _. split; [exact W|]. rd. change (ranges_vi []) with (@nil vi).
    rewrite !read_vi by auto. cbn [app].
    rewrite (read_vis _ _ _ _ [] _ 0); auto.
    2:{ cbn [width_size vis_bytes flat_map app bytes_at String.eqb Ascii.eqb Bool.eqb].
        rewrite vi_read_bytes by auto. rewrite N. reflexivity. }
    rewrite (read_vis _ _ _ _ (ecn_vi e) _ (Z.of_nat (List.length (ecn_vi e)))); auto.
    cbn [read_fields]. split; [reflexivity|]. reflexivity.
  - destruct OK as (V1 & V2 & V3). eexists _, _. split; [reflexivity|]. rd. rewrite !read_vi by auto.
    split; reflexivity.
  - destruct OK as (V1 & V2). eexists _, _. split; [reflexivity|]. rd. rewrite !read_vi by auto.
    split; reflexivity.
  - destruct OK as (V1 & D). assert (V2 := proj1 D). eexists _, _. split; [reflexivity|]. rd. rewrite !read_vi by auto.
    rewrite (read_data _ _ _ _ l d rest) by auto. split; reflexivity.
  - rename OK into D. assert (V2 := proj1 D). eexists _, _. split; [reflexivity|]. rd. rewrite !read_vi by auto.
    rewrite (read_data _ _ _ _ l t rest) by auto. split; reflexivity.
  - destruct OK as (V1 & V2 & D).
    assert (E3 : exists x, frame_wire 1 (rtype (RStream fin i o l d)) = Some x /\ x =
      [("stream_id", WVarint); ("offset", WOpt (is_some o)); ("length", WOpt (is_some l));
          ("stream_data", WDataOf "length")]%string).
    { destruct fin, o, l; cbn; eauto. }
    destruct E3 as (w & W & ->). eexists _, _. split; [exact W|]. rd. rewrite read_vi, read_opt by auto.
    rewrite read_opt by (destruct l; [exact (proj1 D)|exact I]). cbn [app].
    destruct l as [x|].
    + rewrite (read_data _ _ _ _ x d rest); [|exact D|].
      2:{ cbn [opt_bytes width_size bytes_at String.eqb Ascii.eqb Bool.eqb].
          destruct (vi_bytes x) eqn:Q; [exfalso; eapply vi_some; [exact (proj1 D)|exact Q]|reflexivity]. }
      split; reflexivity.
    + destruct D as [D B]. rewrite (LR D). rewrite read_step.
      * split; reflexivity.
      * cbn [opt_bytes width_size bytes_at String.eqb Ascii.eqb Bool.eqb]. now rewrite app_nil_r.
  - eexists _, _. split; [reflexivity|]. rd. rewrite !read_vi by auto. split; reflexivity.
  - destruct OK as (V1 & V2). eexists _, _. split; [reflexivity|]. rd. rewrite !read_vi by auto. split; reflexivity.
  - exists [("max_streams"%string, WVarint)]. eexists. split; [destruct uni; reflexivity|]. rd. rewrite !read_vi by auto. split; reflexivity.
  - eexists _, _. split; [reflexivity|]. rd. rewrite !read_vi by auto. split; reflexivity.
  - destruct OK as (V1 & V2). eexists _, _. split; [reflexivity|]. rd. rewrite !read_vi by auto. split; reflexivity.
  - exists [("max_streams"%string, WVarint)]. eexists. split; [destruct uni; reflexivity|]. rd. rewrite !read_vi by auto. split; reflexivity.
  - destruct OK as (V1 & V2 & B1 & L1 & B2 & L2). eexists _, _. split; [reflexivity|]. rd. rewrite !read_vi by auto.
    rewrite read_step by reflexivity. rewrite (read_step _ _ _ _ i).
    2:{ cbn [width_size bytes_at String.eqb Ascii.eqb Bool.eqb app]. unfold be_val. cbn [fold_left]. reflexivity. }
    rewrite read_fixed by auto. cbn [app]. split; [reflexivity|]. cbn. unfold be_val. cbn [fold_left].
    repeat f_equal; lia.
  - eexists _, _. split; [reflexivity|]. rd. rewrite !read_vi by auto. split; reflexivity.
  - destruct OK. eexists _, _. split; [reflexivity|]. rd. rewrite read_fixed by auto. split; reflexivity.
  - destruct OK. eexists _, _. split; [reflexivity|]. rd. rewrite read_fixed by auto. split; reflexivity.
  - destruct OK as (V1 & V2 & D). assert (V3 := proj1 D).
    exists [("error_code", WVarint); ("frame_type", WOpt (is_some ft));
          ("reason_phrase_length", WVarint); ("reason_phrase", WOf "reason_phrase_length")]%string.
    eexists. split; [destruct ft; reflexivity|]. rd. rewrite read_vi, read_opt, read_vi by auto.
    rewrite (read_data _ _ _ _ l r rest) by auto. split; reflexivity.
Qed.

(** ** Sequences *)

Lemma rkind_of : forall f, frame_kind_of (rtype f) = Some (rkind f).
Proof.
  intros f. destruct f as [| | |la d n f r e|i e s|i e|o l d|l t|fin i o l d|v|i v|uni v|v|i v|uni v|sq r i t|sq|d|d|e ft l r];
    try reflexivity.
  - now destruct e as [[[? ?] ?]|].
  - now destruct fin, o, l.
  - now destruct uni.
  - now destruct uni.
  - now destruct ft.
Qed.

Section Sequence.
Variable c : cfg.

Lemma singles_loop : forall b l, singles c b l -> forall fuel acc, dgram b -> (List.length b <= fuel)%nat ->
  frame_loop c fuel b acc = Ok (Some (fold_left push_frame l acc)).
Proof.
  intros b l SI. induction SI as [|k t own r l K RF G SI IH]; intros fuel acc D L.
  { now destruct fuel. }
  destruct fuel as [|fuel]; [cbn in L; lia|].
  cbn [frame_loop]. rewrite K. destruct (frame_construct k t (own ++ r) K) as [NW|[_ E]].
  2:{ exfalso. rewrite E in *. eapply (final_stops [24]); [exact D| |exact RF]. right. left. right. reflexivity. }
  rewrite NW. unfold frame_remaining. cbn [fr_kind fr_buf]. rewrite G. cbn [bind fold_left]. apply IH.
  - exact (suffix_dgram (t :: own) r D).
  - cbn [List.length] in L. rewrite app_length in L. lia.
Qed.

Fixpoint rviews (l : list rframe) : list frame :=
  match l with
  | [] => []
  | f :: r => Frame (rkind f) (rencodes l) (if is_padding (rkind f) then 1 else 0) :: rviews r
  end.
Lemma rframes_bytes : forall l, rframes_ok l -> bytes_ok (rencodes l).
Proof.
  induction l as [|f l IH]; intros OK; [constructor|]. destruct OK as [F OK]. cbn [rencodes flat_map].
  apply bytes_ok_app; [eapply rframe_bytes; eauto|auto].
Qed.
Lemma rframe_get : forall last f rest, rframe_ok last f -> no_ranges f -> (last = true -> rest = []) ->
  dgram (rencode f ++ rest) ->
  reads_frame (rencode f ++ rest) rest /\
  get_raw c (frame_schema (rkind f)) "remaining" (rencode f ++ rest) = Ok rest /\
  get c (frame_schema (rkind f)) "ty" (rencode f ++ rest) = Ok (VTup [rtype f]) /\
  from_packet c (frame_schema (rkind f)) (rencode f ++ rest) = Ok (VTup [rtype f] :: rfields f ++ [VBytes rest]).
Proof.
  intros last f rest OK NR LR D. destruct (rframe_read last f rest OK NR LR) as (w & seen & W & R & SH).
  assert (E : rencode f ++ rest = rtype f :: (flat_map val_bytes (rfields f) ++ rest)) by reflexivity.
  assert (RF : reads_frame (rencode f ++ rest) rest) by (rewrite E; repeat eexists; eauto).
  rewrite E in *. split; [exact RF|].
  assert (NW : new (frame_schema (rkind f)) (rtype f :: flat_map val_bytes (rfields f) ++ rest)
               = Some (rtype f :: flat_map val_bytes (rfields f) ++ rest)).
  { destruct (frame_construct (rkind f) (rtype f) (flat_map val_bytes (rfields f) ++ rest) (rkind_of f)) as [NW|[_ X]]; [exact NW|].
    exfalso. rewrite X in *. eapply (final_stops [24]); [exact D| |exact RF]. right. left. right. reflexivity. }
  assert (FR := frame_read c _ _ w _ D (rkind_of f) W NW). rewrite R in FR. destruct FR as (G & P & _).
  rewrite SH in P. split; [exact G|]. split; [|exact P]. apply frame_head; auto.
Qed.
Lemma rviews_singles : forall l, rframes_ok l -> Forall no_ranges l -> dgram (rencodes l) -> singles c (rencodes l) (rviews l).
Proof.
  induction l as [|f l IH]; intros OK NR D; [constructor|]. destruct OK as [F OK]. inversion NR as [|? ? NF NR']; subst.
  assert (LR : (match l with [] => true | _ => false end) = true -> rencodes l = []) by (intros Q; destruct l; [reflexivity|discriminate Q]).
  change (rencodes (f :: l)) with (rencode f ++ rencodes l) in *.
  destruct (rframe_get _ f (rencodes l) F NF LR D) as (RF & G & _).
  cbn [rviews]. change (rencodes (f :: l)) with (rencode f ++ rencodes l).
  unfold rencode at 1 2. cbn [app]. apply singles_cons; auto.
  - apply rkind_of.
  - apply IH; auto. exact (suffix_dgram (rencode f) _ D).
Qed.

Lemma grouped_fold : forall l,
  fold_left push_frame (rviews l) [] = grouped l /\
  forall b n, fold_left push_frame (rviews l) [Frame FPadding b n] =
    match grouped l with
    | Frame FPadding _ m :: q => Frame FPadding b (n + m) :: q
    | q => Frame FPadding b n :: q
    end.
Proof.
  induction l as [|f l [IH1 IH2]]; [split; reflexivity|].
  cbn [rviews grouped]. destruct (is_padding (rkind f)) eqn:P.
  - assert (K : rkind f = FPadding) by (destruct (rkind f); easy). rewrite K. cbn [is_padding]. split.
    + cbn [fold_left push_frame]. rewrite IH2. destruct (grouped l) as [|[[] b' m] q]; try reflexivity.
      now rewrite Z.add_comm.
    + intros b n. cbn [fold_left push_frame fr_kind is_padding andb fr_buf fr_count]. rewrite IH2.
      destruct (grouped l) as [|[[] b' m] q]; try reflexivity. do 2 f_equal. lia.
  - assert (Q : fold_left push_frame (Frame (rkind f) (rencodes (f :: l)) 0 :: rviews l) [] =
                Frame (rkind f) (rencodes (f :: l)) 0 :: grouped l).
    { cbn [fold_left push_frame]. rewrite fold_other by exact P. now rewrite IH1. }
    split.
    + rewrite Q. destruct (rkind f); try reflexivity. discriminate P.
    + intros b n. rewrite fold_pad by exact P. rewrite Q. destruct (rkind f); try reflexivity. discriminate P.
Qed.

Theorem frames_recovered : forall l, rframes_ok l -> Forall no_ranges l -> blen (rencodes l) < 2 ^ 61 ->
  frame_new c (rencodes l) = Ok (Some (grouped l)) /\
  forall pre f post n, l = pre ++ f :: post ->
    frame_ty c (Frame (rkind f) (rencodes (f :: post)) n) = Ok (rtype f) /\
    frame_remaining c (Frame (rkind f) (rencodes (f :: post)) n) = Ok (rencodes post) /\
    from_packet c (frame_schema (rkind f)) (rencodes (f :: post)) =
      Ok (VTup [rtype f] :: rfields f ++ [VBytes (rencodes post)]).
Proof.
  intros l OK NR L. assert (D : dgram (rencodes l)) by (split; [now apply rframes_bytes|exact L]). split.
  - unfold frame_new. rewrite (singles_loop _ (rviews l)); auto.
    + now rewrite (proj1 (grouped_fold l)).
    + now apply rviews_singles.
  - intros pre. revert D OK NR. revert l L.
    induction pre as [|g pre IH]; intros l L D OK NR f post n ->.
    + cbn [app] in *. destruct OK as [F OK]. inversion NR as [|? ? NF NR']; subst.
      assert (LR : (match post with [] => true | _ => false end) = true -> rencodes post = []) by (intros Q; destruct post; [reflexivity|discriminate Q]).
      change (rencodes (f :: post)) with (rencode f ++ rencodes post) in *.
      destruct (rframe_get _ f (rencodes post) F NF LR D) as (RF & G & T & P).
      unfold frame_ty, frame_remaining. cbn [fr_kind fr_buf]. rewrite T, G, P. auto.
    + cbn [app] in *. destruct OK as [F OK]. inversion NR as [|? ? NF NR']; subst.
      change (rencodes (g :: pre ++ f :: post)) with (rencode g ++ rencodes (pre ++ f :: post)) in *.
      apply suffix_dgram in D. eapply IH; eauto. apply D.
Qed.

(** ** ACK frames with ranges *)

Lemma ack_read : forall last la d n f r e rest, rframe_ok last (RAck la d n f r e) ->
  let k := List.length r in let m := List.length (ecn_vi e) in
  let vs := ranges_vi r ++ ecn_vi e in
  exists w seen, frame_wire 1 (rtype (RAck la d n f r e)) = Some w /\
    read_fields w [] (flat_map val_bytes (rfields (RAck la d n f r e)) ++ rest)
      = Some (seen, vis_bytes (skipn (k + m) vs) ++ rest).
Proof.
  intros last la d n f r e rest (V1 & V2 & V3 & V4 & N & V5 & V6) k m vs.
  assert (E3 : exists x, frame_wire 1 (rtype (RAck la d n f r e)) = Some x /\ x =
      [("largest_acknowledged", WVarint); ("ack_delay", WVarint); ("ack_range_count", WVarint);
          ("first_ack_range", WVarint); ("ack_range", WVarintsOf 1 "ack_range_count");
          ("ecn_counts", WVarints (Z.of_nat m))]%string).
  { subst m. destruct e as [[[? ?] ?]|]; cbn; eauto. }
  destruct E3 as (w & W & ->). eexists _, _. split; [exact W|].
  cbn [rfields flat_map val_bytes]. rd.
  rewrite !read_vi by auto. cbn [app].
  assert (FV : Forall vi_ok vs) by (apply Forall_app; auto).
  assert (LR : List.length (ranges_vi r) = (2 * k)%nat).
  { subst k. clear. induction r as [|p r IH]; [reflexivity|]. cbn [ranges_vi flat_map app List.length] in *.
    unfold ranges_vi in IH. lia. }
  assert (LV : List.length vs = (2 * k + m)%nat) by (subst vs m; rewrite app_length; lia).
  assert (VA : forall a b, vis_bytes (a ++ b) = vis_bytes a ++ vis_bytes b) by (intros; apply flat_map_app).
  assert (S : vis_bytes (ranges_vi r) ++ vis_bytes (ecn_vi e) ++ rest =
    vis_bytes (firstn k vs) ++ vis_bytes (firstn m (skipn k vs)) ++ vis_bytes (skipn (k + m) vs) ++ rest).
  { replace (skipn (k + m) vs) with (skipn m (skipn k vs)) by (rewrite skipn_skipn'; f_equal; lia).
    transitivity (vis_bytes vs ++ rest); [subst vs; now rewrite VA, <- app_assoc|].
    rewrite <- (firstn_skipn k vs) at 1. rewrite VA, <- app_assoc. f_equal.
    rewrite <- (firstn_skipn m (skipn k vs)) at 1. now rewrite VA, <- app_assoc. }
  rewrite S.
  assert (F1 : Forall vi_ok (firstn k vs) /\ Forall vi_ok (skipn k vs)) by (apply Forall_app; now rewrite firstn_skipn).
  assert (F2 : Forall vi_ok (firstn m (skipn k vs))).
  { destruct F1 as [_ F1]. rewrite <- (firstn_skipn m (skipn k vs)) in F1. now apply Forall_app in F1. }
  rewrite (read_vis _ _ _ _ (firstn k vs) _ (Z.of_nat k)).
  - rewrite (read_vis _ _ _ _ (firstn m (skipn k vs)) _ (Z.of_nat m)).
    + reflexivity.
    + exact F2.
    + reflexivity.
    + rewrite firstn_length, skipn_length. lia.
  - apply F1.
  - cbn [width_size bytes_at String.eqb Ascii.eqb Bool.eqb]. rewrite vi_read_bytes, N by auto. now rewrite Z.mul_1_l.
  - rewrite firstn_length. lia.
Qed.

Lemma push_prefix : forall pre suf f, suf <> [] -> push_frame (pre ++ suf) f = pre ++ push_frame suf f.
Proof.
  induction pre as [|g pre IH]; intros suf f S; [reflexivity|]. cbn [app].
  replace (push_frame (g :: pre ++ suf) f) with (g :: push_frame (pre ++ suf) f).
  - now rewrite IH.
  - destruct (pre ++ suf) eqn:E; [|reflexivity]. apply app_eq_nil in E. destruct E. contradiction.
Qed.
Definition prepend (pre : list frame) (x : res (option (list frame))) : res (option (list frame)) :=
  match x with Ok (Some l) => Ok (Some (pre ++ l)) | _ => x end.
Lemma loop_prefix : forall fuel b pre suf, suf <> [] ->
  frame_loop c fuel b (pre ++ suf) = prepend pre (frame_loop c fuel b suf).
Proof.
  induction fuel as [|fuel IH]; intros [|t s] pre suf S; cbn [frame_loop]; try reflexivity.
  destruct (frame_kind_of t) as [k|]; [|reflexivity]. destruct (new (frame_schema k) (t :: s)); [|reflexivity].
  destruct (frame_remaining c _); [|reflexivity]. cbn [bind]. rewrite push_prefix by exact S. apply IH.
  destruct suf as [|g [|h suf]]; cbn [push_frame]; try congruence. destruct (_ && _); discriminate.
Qed.
Lemma loop_head : forall fuel b k b' n, is_padding k = false ->
  frame_loop c fuel b [Frame k b' n] = prepend [Frame k b' n] (frame_loop c fuel b []).
Proof.
  intros [|fuel] [|t s] k b' n K; cbn [frame_loop]; try reflexivity.
  destruct (frame_kind_of t) as [k'|]; [|reflexivity]. destruct (new (frame_schema k') (t :: s)); [|reflexivity].
  destruct (frame_remaining c _); [|reflexivity]. cbn [bind push_frame fr_kind]. rewrite K. cbn [andb].
  match goal with |- frame_loop c fuel ?r [?g; ?f] = _ => exact (loop_prefix fuel r [g] [f] ltac:(discriminate)) end.
Qed.
Lemma loop_fuel : forall f1 f2 b acc, dgram b -> (List.length b <= f1)%nat -> (List.length b <= f2)%nat ->
  frame_loop c f1 b acc = frame_loop c f2 b acc.
Proof.
  induction f1 as [|f1 IH]; intros [|f2] [|t s] acc D L1 L2; try reflexivity; try (cbn in L1; lia); try (cbn in L2; lia).
  cbn [frame_loop]. destruct (frame_kind_of t) as [k|] eqn:K; [|reflexivity].
  destruct (frame_construct k t s K) as [NW|[NW E24]]; rewrite NW; [|reflexivity].
  unfold frame_remaining. cbn [fr_kind fr_buf].
  assert (T : byte_ok t) by (destruct D as [B _]; now inversion B).
  assert (exists w, frame_wire 1 t = Some w) as [w W].
  { destruct (frame_wire 1 t) eqn:E; [eauto|]. apply frame_types in E; [|exact T].
    apply frame_kinds in E; [|exact T]. congruence. }
  assert (FR := frame_read c t k w s D K W NW).
  destruct (read_fields w [] s) as [[seen rest]|] eqn:R.
  - destruct FR as (G & _ & own & ->). rewrite G. cbn [bind]. cbn [List.length] in L1, L2. rewrite app_length in L1, L2.
    apply IH; try lia. exact (suffix_dgram (t :: own) rest D).
  - now rewrite FR.
Qed.

Lemma loop_step : forall fuel t s k acc r, frame_kind_of t = Some k -> new (frame_schema k) (t :: s) = Some (t :: s) ->
  get_raw c (frame_schema k) "remaining" (t :: s) = Ok r ->
  frame_loop c (S fuel) (t :: s) acc =
  frame_loop c fuel r (push_frame acc (Frame k (t :: s) (if is_padding k then 1 else 0))).
Proof.
  intros fuel t s k acc r K NW G. cbn [frame_loop]. rewrite K, NW. unfold frame_remaining. cbn [fr_kind fr_buf].
  now rewrite G.
Qed.

Theorem ack_ranges_left : forall la d n f r e rest, rframe_ok false (RAck la d n f r e) -> r <> [] ->
  let b := rencode (RAck la d n f r e) ++ rest in
  let left := skipn (List.length r + List.length (ecn_vi e)) (ranges_vi r ++ ecn_vi e) in
  dgram b ->
  List.length left = List.length r /\
  frame_remaining c (Frame FAck b 0) = Ok (vis_bytes left ++ rest) /\
  vis_bytes left ++ rest <> rest /\
  frame_new c b = match frame_new c (vis_bytes left ++ rest) with
                  | Ok (Some l) => Ok (Some (Frame FAck b 0 :: l))
                  | x => x
                  end.
Proof.
  intros la d n f r e rest OK NE b left D.
  assert (LR : List.length (ranges_vi r) = (2 * List.length r)%nat).
  { clear. induction r as [|p r IH]; [reflexivity|]. cbn [ranges_vi flat_map app List.length] in *.
    unfold ranges_vi in IH. lia. }
  assert (LL : List.length left = List.length r).
  { unfold left. rewrite skipn_length, app_length, LR. lia. }
  destruct (ack_read _ _ _ _ _ _ _ rest OK) as (w & seen & W & R). fold left in R.
  set (fr := RAck la d n f r e) in *.
  assert (E : b = rtype fr :: (flat_map val_bytes (rfields fr) ++ rest)) by reflexivity.
  assert (K := rkind_of fr).
  assert (NW : new (frame_schema FAck) b = Some b).
  { rewrite E. destruct (frame_construct FAck (rtype fr) (flat_map val_bytes (rfields fr) ++ rest) K) as [NW|[_ X]]; [exact NW|].
    exfalso. injection X as X _. unfold fr in X. destruct e; discriminate. }
  assert (FR : get_raw c (frame_schema FAck) "remaining" b = Ok (vis_bytes left ++ rest) /\
               exists own, b = rtype fr :: own ++ (vis_bytes left ++ rest)).
  { rewrite E in *. assert (FR := frame_read c _ _ w _ D K W NW). rewrite R in FR.
    destruct FR as (G & _ & own & X). split; [exact G|]. exists own. now f_equal. }
  destruct FR as (G & own & X).
  assert (F5 : Forall vi_ok left).
  { destruct OK as (_ & _ & _ & _ & _ & V5 & V6). assert (Forall vi_ok (ranges_vi r ++ ecn_vi e)) by (apply Forall_app; auto).
    rewrite <- (firstn_skipn (List.length r + List.length (ecn_vi e))) in H. apply Forall_app in H. apply H. }
  split; [exact LL|]. split; [exact G|]. split.
  - intros Q. assert (Z : vis_bytes left = []).
    { assert (Y := f_equal (@List.length Z) Q). rewrite app_length in Y. destruct (vis_bytes left); [reflexivity|]. cbn in Y. lia. }
    destruct left as [|x left']. { cbn in LL. destruct r; [congruence|]. cbn in LL. discriminate. }
    cbn [vis_bytes flat_map] in Z. apply app_eq_nil in Z. destruct Z as [Z _]. inversion F5; subst. eapply vi_some; eauto.
  - unfold frame_new. rewrite X at 1. cbn [List.length].
    assert (ST : frame_loop c (S (List.length (own ++ vis_bytes left ++ rest))) b [] =
      frame_loop c (List.length (own ++ vis_bytes left ++ rest)) (vis_bytes left ++ rest) [Frame FAck b 0]).
    { rewrite E in *. exact (loop_step _ _ _ FAck [] _ K NW G). }
    rewrite ST. rewrite loop_head by reflexivity.
    assert (DR : dgram (vis_bytes left ++ rest)).
    { rewrite X in D. exact (suffix_dgram (rtype fr :: own) _ D). }
    rewrite (loop_fuel _ (List.length (vis_bytes left ++ rest))); [|exact DR| |lia].
    + destruct (frame_loop c (List.length (vis_bytes left ++ rest)) (vis_bytes left ++ rest) []) as [[l|]|]; reflexivity.
    + rewrite (app_length own). lia.
Qed.

End Sequence.
