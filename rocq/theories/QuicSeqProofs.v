(** Sequences of frames: termination, tiling, and the exact conditions for each
    outcome. *)
From Coq Require Import String ZArith List Bool Lia ZifyBool ZifyNat.
From Verif Require Import Base BaseFacts BitSpec DeriveUtil DeriveOps DeriveGen Quic SpecQuic
  QuicIntProofs QuicWalkProofs QuicFrameProofs.
Import ListNotations.
Open Scope Z_scope.
Ltac Zify.zify_post_hook ::= Z.to_euclidean_division_equations.

(** ** Reading is a function, and frames are not empty *)

Lemma reads_frame_inj : forall b r1 r2, reads_frame b r1 -> reads_frame b r2 -> r1 = r2.
Proof.
  intros b r1 r2 (t & s & w & seen & -> & W & R) (t' & s' & w' & seen' & E & W' & R').
  congruence.
Qed.
Lemma read_fields_suffix : forall w seen0 s seen rest, read_fields w seen0 s = Some (seen, rest) ->
  exists own, s = own ++ rest.
Proof.
  induction w as [|[n k] w IH]; intros seen0 s seen rest; cbn [read_fields].
  - intros [= <- <-]. now exists [].
  - destruct (width_size k seen0 s) as [len|]; [|discriminate]. destruct (len <=? blen s); [|discriminate].
    intros R. apply IH in R. destruct R as [own R]. exists (firstn (Z.to_nat len) s ++ own).
    rewrite <- app_assoc, <- R. symmetry. apply firstn_skipn.
Qed.
Lemma reads_frame_shorter : forall b r, reads_frame b r -> exists t own, b = t :: own ++ r.
Proof.
  intros b r (t & s & w & seen & -> & W & R). apply read_fields_suffix in R. destruct R as [own ->]. eauto.
Qed.
Lemma suffix_dgram : forall p r, dgram (p ++ r) -> dgram r.
Proof.
  intros p r [B L]. apply Forall_app in B as [_ B]. rewrite blen_app' in L. assert (P := blen_pos p). split; [exact B|lia].
Qed.
Lemma reached_dgram : forall b r, reached b r -> dgram b -> dgram r.
Proof.
  intros b r H. induction H as [b|b s r R H IH]; intros D; [exact D|]. apply IH.
  apply reads_frame_shorter in R. destruct R as (t & own & ->). exact (suffix_dgram (t :: own) s D).
Qed.

Definition final (r : buf) : Prop := r = [] \/ unknown_frame r \/ truncated_frame r.
Lemma final_stops : forall r s, dgram r -> final r -> reads_frame r s -> False.
Proof.
  intros r s D F (t & s0 & w & seen & E & W & R).
  destruct F as [->|[[(t' & s' & -> & T)| ->]|(_ & t' & s' & w' & -> & W' & R')]].
  - discriminate.
  - injection E as -> ->. destruct D as [B _]. inversion B; subst.
    apply (frame_types 1) in T; [|assumption]. congruence.
  - injection E as <- <-. vm_compute in W. injection W as <-. vm_compute in R. discriminate.
  - injection E as -> ->. congruence.
Qed.
Lemma reached_final : forall b r1, reached b r1 -> forall r2, dgram b -> final r1 -> reached b r2 -> final r2 -> r1 = r2.
Proof.
  intros b r1 H. induction H as [b|b s r R H IH]; intros r2 D F H2 F2.
  - destruct H2 as [b|b s r R H]; [reflexivity|]. exfalso. eapply final_stops; eauto.
  - destruct H2 as [b|b s' r' R' H'].
    + exfalso. eapply final_stops; eauto.
    + assert (s' = s) by (eapply reads_frame_inj; eauto). subst s'. apply IH; auto.
      apply reads_frame_shorter in R. destruct R as (t & own & ->). exact (suffix_dgram (t :: own) s D).
Qed.
Lemma final_apart : forall r, dgram r ->
  (r = [] -> ~ unknown_frame r /\ ~ truncated_frame r) /\ (unknown_frame r -> ~ truncated_frame r).
Proof.
  intros r D. split.
  - intros ->. split; [intros [(t & s & E & _)|E]; discriminate|intros (_ & t & s & w & E & _); discriminate].
  - intros U (N & t & s & w & -> & W & R). destruct U as [(t' & s' & [= <- <-] & T)|U]; [|congruence].
    destruct D as [B _]. inversion B; subst. apply (frame_types 1) in T; [|assumption]. congruence.
Qed.

(** ** The loop *)

Section Loop.
Variable c : cfg.

(** One entry per frame. *)
Inductive singles : buf -> list frame -> Prop :=
| singles_nil : singles [] []
| singles_cons : forall k t own r l, frame_kind_of t = Some k ->
    reads_frame (t :: own ++ r) r ->
    get_raw c (frame_schema k) "remaining"%string (t :: own ++ r) = Ok r -> singles r l ->
    singles (t :: own ++ r) (Frame k (t :: own ++ r) (if is_padding k then 1 else 0) :: l).

Lemma frame_construct : forall k t s, frame_kind_of t = Some k ->
  new (frame_schema k) (t :: s) = Some (t :: s) \/ new (frame_schema k) (t :: s) = None /\ t :: s = [24].
Proof.
  intros k t s K. unfold new. assert (M := frame_min k). rewrite M.
  destruct s as [|x s].
  - destruct k; try (left; reflexivity).
    right. unfold frame_kind_of in K.
    repeat match type of K with (if ?q then _ else _) = _ => destruct q eqn:?; [try discriminate|] end;
      try discriminate. split; [reflexivity|]. f_equal. lia.
  - left. assert (P := blen_pos s). rewrite !blen_cons.
    destruct k; match goal with |- context [if ?q then _ else _] => destruct q eqn:Q end; auto; lia.
Qed.

Lemma loop_outcome : forall fuel b acc, dgram b -> (List.length b <= fuel)%nat ->
  (exists l, reached b [] /\ singles b l /\ frame_loop c fuel b acc = Ok (Some (fold_left push_frame l acc))) \/
  (exists r, reached b r /\ unknown_frame r /\ frame_loop c fuel b acc = Ok None) \/
  (exists r, reached b r /\ truncated_frame r /\ frame_loop c fuel b acc = Panic EIndex).
Proof.
  induction fuel as [|fuel IH]; intros b acc D L.
  { destruct b; [|cbn in L; lia]. left. exists []. repeat split; constructor. }
  destruct b as [|t s].
  { left. exists []. repeat split; constructor. }
  cbn [frame_loop]. destruct (frame_kind_of t) as [k|] eqn:K.
  2:{ right. left. exists (t :: s). split; [constructor|]. split; [|reflexivity]. left. exists t, s. split; [reflexivity|].
      apply frame_kinds; auto. destruct D as [B _]. now inversion B. }
  assert (T : byte_ok t) by (destruct D as [B _]; now inversion B).
  assert (exists w, frame_wire 1 t = Some w) as [w W].
  { destruct (frame_wire 1 t) eqn:E; [eauto|]. apply frame_types in E; [|exact T].
    apply frame_kinds in E; [|exact T]. congruence. }
  destruct (frame_construct k t s K) as [NW|[NW E24]]; rewrite NW.
  2:{ right. left. exists (t :: s). split; [constructor|]. split; [|reflexivity]. right. exact E24. }
  unfold frame_remaining. cbn [fr_kind fr_buf].
  assert (FR := frame_read c t k w s D K W NW).
  destruct (read_fields w [] s) as [[seen rest]|] eqn:R.
  - destruct FR as (G & _ & own & ->). rewrite G. cbn [bind].
    assert (RF : reads_frame (t :: own ++ rest) rest) by (exists t, (own ++ rest), w, seen; auto).
    destruct (IH rest (push_frame acc (Frame k (t :: own ++ rest) (if is_padding k then 1 else 0))))
      as [(l & RE & SI & E)|[(r & RE & U & E)|(r & RE & U & E)]].
    + exact (suffix_dgram (t :: own) rest D).
    + cbn [List.length] in L. rewrite app_length in L. lia.
    + left. eexists. split; [econstructor; eauto|]. split; [econstructor; eauto|]. exact E.
    + right. left. exists r. split; [econstructor; eauto|]. auto.
    + right. right. exists r. split; [econstructor; eauto|]. auto.
  - rewrite FR. right. right. exists (t :: s). split; [constructor|]. split; [|reflexivity].
    split; [|exists t, s, w; auto]. intros E. rewrite E in NW. injection E as -> ->.
    vm_compute in K. injection K as <-. vm_compute in NW. discriminate.
Qed.

(** ** Grouping the padding *)

Lemma push_app : forall acc g f, push_frame (acc ++ [g]) f = acc ++ push_frame [g] f.
Proof.
  induction acc as [|a acc IH]; intros g f; [reflexivity|]. cbn [app].
  destruct (acc ++ [g]) eqn:E; [destruct acc; discriminate|]. rewrite <- E. 
  replace (push_frame (a :: acc ++ [g]) f) with (a :: push_frame (acc ++ [g]) f) by (rewrite E; reflexivity).
  now rewrite IH.
Qed.
Lemma fold_app : forall l acc g, fold_left push_frame l (acc ++ [g]) = acc ++ fold_left push_frame l [g].
Proof.
  induction l as [|f l IH]; intros acc g; [reflexivity|]. cbn [fold_left]. rewrite push_app.
  cbn [push_frame]. destruct (is_padding (fr_kind g) && is_padding (fr_kind f)).
  - now rewrite IH.
  - change (acc ++ [g; f]) with (acc ++ [g] ++ [f]). rewrite app_assoc, IH.
    change [g; f] with ([g] ++ [f]). now rewrite IH, <- app_assoc.
Qed.
Lemma fold_other : forall l k b n, is_padding k = false ->
  fold_left push_frame l [Frame k b n] = Frame k b n :: fold_left push_frame l [].
Proof.
  intros [|f l] k b n K; [reflexivity|]. cbn [fold_left push_frame fr_kind]. rewrite K. cbn [andb].
  exact (fold_app l [Frame k b n] f).
Qed.
Lemma fold_pad : forall l b n k b' m, is_padding k = false ->
  fold_left push_frame (Frame k b' m :: l) [Frame FPadding b n] = Frame FPadding b n :: fold_left push_frame (Frame k b' m :: l) [].
Proof.
  intros l b n k b' m K. cbn [fold_left push_frame fr_kind]. rewrite K. cbn [is_padding andb].
  exact (fold_app l [Frame FPadding b n] _).
Qed.

Lemma zero_padding : forall t k, frame_kind_of t = Some k -> is_padding k = true <-> t = 0.
Proof.
  intros t k K. unfold frame_kind_of in K.
  repeat match type of K with (if ?q then _ else _) = _ => destruct q eqn:? end; try discriminate;
    injection K as <-; cbn [is_padding]; split; intros; try discriminate; lia.
Qed.
Lemma padding_own : forall own r, reads_frame (0 :: own ++ r) r -> own = [].
Proof.
  intros own r (t & s & w & seen & E & W & R). injection E as <- <-. vm_compute in W. injection W as <-.
  cbn [read_fields] in R. injection R as <- E. assert (X := f_equal (@List.length Z) E). rewrite app_length in X.
  destruct own; [reflexivity|]. cbn in X. lia.
Qed.

Lemma singles_tiles : forall l b, singles b l ->
  tiles c b (fold_left push_frame l []) /\
  forall n, (1 <= n)%nat ->
    tiles c (repeat 0 n ++ b) (fold_left push_frame l [Frame FPadding (repeat 0 n ++ b) (Z.of_nat n)]).
Proof.
  intros l b SI. induction SI as [|k t own r l K RF G SI [IH1 IH2]].
  - split; [constructor|]. intros n N. cbn [fold_left]. apply tiles_padding; [exact N|cbn; lia|constructor].
  - destruct (is_padding k) eqn:P.
    + assert (t = 0) by (apply (zero_padding t k); auto). subst t.
      assert (k = FPadding) by (destruct k; easy). subst k.
      apply padding_own in RF. subst own. cbn [app] in *.
      split.
      * cbn [fold_left push_frame]. exact (IH2 1%nat ltac:(lia)).
      * intros n N. cbn [fold_left push_frame fr_kind is_padding andb fr_buf fr_count].
        assert (E : repeat 0 n ++ 0 :: r = repeat 0 (S n) ++ r).
        { change (0 :: r) with ([0] ++ r). rewrite app_assoc. f_equal. symmetry. apply repeat_cons. }
        rewrite E. replace (Z.of_nat n + 1) with (Z.of_nat (S n)) by lia. apply IH2. lia.
    + assert (t <> 0) by (intros ->; apply (zero_padding 0 k) in K; destruct K as [_ K]; rewrite K in P; easy).
      assert (k <> FPadding) by (intros ->; easy).
      assert (Q : tiles c (t :: own ++ r) (fold_left push_frame (Frame k (t :: own ++ r) 0 :: l) [])).
      { cbn [fold_left push_frame]. rewrite fold_other by exact P. apply tiles_frame; auto. }
      split; [exact Q|]. intros n N. rewrite fold_pad by exact P. apply tiles_padding; auto.
Qed.

End Loop.

(** ** The properties *)

Theorem frames_tile : forall c b, dgram b ->
  frame_new c b <> Panic EDiverge /\ forall l, frame_new c b = Ok (Some l) -> tiles c b l.
Proof.
  intros c b D. unfold frame_new.
  destruct (loop_outcome c (List.length b) b [] D (le_n _)) as [(l & RE & SI & E)|[(r & RE & U & E)|(r & RE & U & E)]];
    rewrite E; (split; [congruence|]); intros l' E'; try discriminate.
  injection E' as <-. apply singles_tiles. exact SI.
Qed.

Theorem frames_outcomes : forall c b, dgram b ->
  ((exists l, frame_new c b = Ok (Some l)) <-> reached b []) /\
  (frame_new c b = Ok None <-> exists r, reached b r /\ unknown_frame r) /\
  ((exists e, frame_new c b = Panic e) <-> exists r, reached b r /\ truncated_frame r) /\
  (forall e, frame_new c b = Panic e -> e = EIndex).
Proof.
  intros c b D. unfold frame_new.
  assert (FF : forall r1 r2, reached b r1 -> final r1 -> reached b r2 -> final r2 -> r1 = r2).
  { intros r1 r2 H1 F1 H2 F2. eapply reached_final; eauto. }
  assert (FU : forall r, unknown_frame r -> final r) by (unfold final; auto).
  assert (FT : forall r, truncated_frame r -> final r) by (unfold final; auto).
  assert (FN : final []) by (now left).
  assert (NU : ~ unknown_frame []) by (intros [(t & s & E & _)|E]; discriminate).
  assert (NT : ~ truncated_frame []) by (intros (_ & t & s & w & E & _); discriminate).
  assert (UT : forall r, reached b r -> unknown_frame r -> truncated_frame r -> False).
  { intros r H U T. exact (proj2 (final_apart r (reached_dgram b r H D)) U T). }
  destruct (loop_outcome c (List.length b) b [] D (le_n _)) as [(l & RE & SI & E)|[(r & RE & U & E)|(r & RE & U & E)]];
    rewrite E; (split; [split|split; [split|split; [split|]]]).
  all: first
    [ congruence
    | intros [? X]; discriminate
    | intros _; eauto; fail
    | intros (r' & H & U'); exfalso; first
        [ apply NU; rewrite (FF [] r'); auto; fail
        | apply NT; rewrite (FF [] r'); auto; fail
        | apply (UT r); auto; rewrite (FF r r'); auto; fail
        | apply (UT r'); auto; rewrite (FF r' r); auto; fail ]
    | intros H; exfalso; first
        [ apply NU; rewrite (FF [] r); auto; fail | apply NT; rewrite (FF [] r); auto; fail ] ].
Qed.
