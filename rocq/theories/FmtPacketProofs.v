(** The printed form of the crate's packets: its exact text, and what can be read off it. *)
From Coq Require Import String Ascii ZArith List Bool Lia ZifyBool ZifyNat.
From Verif Require Import Base BitSpec DeriveUtil DeriveOps BaseFacts BitFacts DeriveUtilProofs DeriveOpsProofs
  DeriveLEProofs DeriveGen SpecPacket DeriveGenProofs DeriveAccProofs DeriveInvProofs DeriveApiProofs ProtoSplitProofs.
From Verif Require Import StackProofs Protocols ProtoFacts Quic.
From Verif Require Import FmtText SpecFmt FmtProofs FmtValueProofs.
Import ListNotations.
Open Scope Z_scope.

Section Packet.
Variable c : cfg.

Lemma shapes_shown : forall n fs, shown_shapes fs (shapes_of c n fs) = map (shape_of c n) (shown fs).
Proof.
  intros n fs. unfold shown_shapes, shapes_of, shown. induction fs as [|f fs IH]; [reflexivity|].
  cbn [map combine filter fst]. destruct (negb (f_payload f)); cbn [map snd]; now rewrite IH.
Qed.
Lemma shown_fits : forall n fs, Forall (field_fits c n) fs -> Forall (field_fits c n) (shown fs).
Proof. intros n fs H. rewrite Forall_forall in *. intros f I. apply filter_In in I. apply H, I. Qed.
Lemma fits_names : forall n fs, Forall (field_fits c n) fs -> Forall ident (map f_name fs).
Proof. intros n fs H. apply Forall_map. eapply Forall_impl; [|exact H]. intros f [I _]. exact I. Qed.
Lemma name_ident : forall m n, ident n -> ident (packet_name m n).
Proof.
  intros m n H. unfold ident, packet_name in *. rewrite !chars_app, H. destruct m; reflexivity.
Qed.

Definition texts (v6 : list Z -> string) (n : string) (fs : schema) (vs : list val) : list string :=
  map (fun p => debug_value v6 (shape_of c n (fst p)) (snd p)) (combine (shown fs) vs).
Lemma texts_shapes : forall v6 n fs vs, texts v6 n fs vs =
  map (fun p => debug_value v6 (fst p) (snd p)) (combine (map (shape_of c n) (shown fs)) vs).
Proof.
  intros v6 n fs. unfold texts. induction (shown fs) as [|f l IH]; intros vs; [reflexivity|].
  destruct vs as [|v vs]; [reflexivity|]. cbn [map combine fst snd]. now rewrite IH.
Qed.

Lemma values_length : forall fs b vs, scoped [] fs -> debug_values c fs b = Ok vs ->
  Forall2 (fun f v => get c fs (f_name f) b = Ok v) (shown fs) vs.
Proof.
  intros fs b vs S H. rewrite debug_gets in H by exact S. fold (shown fs) in H. revert vs H.
  induction (shown fs) as [|f l IH]; intros vs H; cbn [map seq_res] in H.
  - injection H as <-. constructor.
  - destruct (get c fs (f_name f) b) eqn:G; [|discriminate]. cbn [bind] in H.
    apply bind_ok in H. destruct H as (r & R & H). injection H as <-. constructor; auto.
Qed.
Lemma values_of_gets : forall fs b vs, scoped [] fs ->
  Forall2 (fun f v => get c fs (f_name f) b = Ok v) (shown fs) vs -> debug_values c fs b = Ok vs.
Proof.
  intros fs b vs S H. rewrite debug_gets by exact S. fold (shown fs).
  induction H as [|f v l vs G H IH]; [reflexivity|]. cbn [map seq_res]. rewrite G. cbn [bind]. now rewrite IH.
Qed.

Lemma shown_length : forall fs (shapes : list shape), length shapes = length fs -> length (shown_shapes fs shapes) = length (shown fs).
Proof.
  unfold shown_shapes, shown. induction fs as [|f fs IH]; intros [|s shapes] L; try discriminate; [reflexivity|].
  injection L as L. cbn [combine filter fst]. destruct (negb (f_payload f)); cbn [map length]; rewrite IH; auto.
Qed.
Theorem debug_any : forall v6 m base fs shapes b, scoped [] fs -> ident base -> Forall ident (map f_name fs) ->
  length shapes = length fs ->
  (forall vs, Forall2 (fun f v => get c fs (f_name f) b = Ok v) (shown fs) vs ->
     debug_text v6 c m base fs shapes b =
     Ok (printed (packet_name m base) (combine (map f_name (shown fs))
          (map (fun p => debug_value v6 (fst p) (snd p)) (combine (shown_shapes fs shapes) vs))))) /\
  ((exists f e, In f (shown fs) /\ get c fs (f_name f) b = Panic e) -> exists e, debug_text v6 c m base fs shapes b = Panic e).
Proof.
  intros v6 m base fs shapes b S NI NF L. split.
  - intros vs H. assert (D := values_of_gets fs b vs S H). apply pairs_length in H.
    unfold debug_text. rewrite D. cbn [bind]. fold (shown fs).
    destruct (format_packet (packet_name m base) (map f_name (shown fs))
      (map (fun p => debug_value v6 (fst p) (snd p)) (combine (shown_shapes fs shapes) vs))) as (f & F1 & F2).
    + now apply name_ident.
    + rewrite Forall_forall in *. intros x IN. apply NF. apply in_map_iff in IN. destruct IN as (g & <- & IN).
      apply in_map. apply filter_In in IN. apply IN.
    + rewrite !map_length, combine_length, shown_length, <- H by exact L. apply Nat.min_id.
    + now rewrite F1, F2.
  - intros (f & e & F & G). unfold debug_text. destruct (debug_values c fs b) as [vs|e'] eqn:D; [|cbn [bind]; eauto].
    apply values_length in D; auto. exfalso. clear - F G D. induction D as [|g v l vs Q D IH]; [contradiction|].
    destruct F as [->|F]; [congruence|auto].
Qed.

Lemma debug_exact : forall v6 m n fs b vs, packet_fits c (n, fs) -> debug_values c fs b = Ok vs ->
  packet_debug v6 c m n fs b = Ok (printed (packet_name m n) (combine (map f_name (shown fs)) (texts v6 n fs vs))).
Proof.
  intros v6 m n fs b vs (NI & S & OK & TB & FF) D. cbn [fst snd] in *. unfold packet_debug.
  destruct (debug_any v6 m n fs (shapes_of c n fs) b S NI (fits_names n fs FF)) as [E _].
  { unfold shapes_of. apply map_length. }
  rewrite (E vs) by now apply values_length. now rewrite shapes_shown, texts_shapes.
Qed.

Theorem debug_shows : forall v6 m n fs b, In (n, fs) (all_packets c) ->
  (forall vs, Forall2 (fun f v => get c fs (f_name f) b = Ok v) (shown fs) vs ->
     packet_debug v6 c m n fs b =
     Ok (printed (packet_name m n)
          (combine (map f_name (shown fs)) (map (fun p => debug_value v6 (shape_of c n (fst p)) (snd p)) (combine (shown fs) vs))))) /\
  ((exists f e, In f (shown fs) /\ get c fs (f_name f) b = Panic e) -> exists e, packet_debug v6 c m n fs b = Panic e).
Proof.
  intros v6 m n fs b I. assert (A := all_fit c). rewrite Forall_forall in A. specialize (A _ I).
  assert (S : scoped [] fs) by apply A. split.
  - intros vs H. apply debug_exact; auto using values_of_gets.
  - intros (f & e & F & G). unfold packet_debug, debug_text. destruct (debug_values c fs b) as [vs|e'] eqn:D; [|cbn [bind]; eauto].
    apply values_length in D; auto. exfalso. clear - F G D. induction D as [|g v l vs Q D IH]; [contradiction|].
    destruct F as [->|F]; [congruence|auto].
Qed.

(** ** Typing *)

Lemma from_typed : forall t gs s xs, In (t, gs) (crate_schemas c) -> buf_ok s -> from_packet c gs s = Ok xs ->
  Forall2 (fun g x => kind_typed (f_ty g) x) gs xs.
Proof.
  intros t gs s xs I B H. assert (A := all_fit c). rewrite Forall_forall in A.
  destruct (A (t, gs)) as (_ & _ & OK & TB & _); [apply in_or_app; auto|]. cbn [snd] in *.
  unfold from_packet in H.
  assert (E : forall (X : Type) (l : list X), filter (fun _ => true) l = l).
  { intros X l. induction l as [|x l IH]; [reflexivity|]. cbn [filter]. now rewrite IH. }
  assert (F := filtered_typed c (fun _ => true) gs s xs OK TB B). rewrite !E in F. now apply F.
Qed.

Lemma shape_kind : forall n f v, field_fits c n f -> kind_typed (f_ty f) v ->
  shape_typed (shape_of c n f) v /\ shape_named (shape_of c n f).
Proof.
  intros n f v [_ FF] K. unfold shape_of. destruct (f_ty f) as [p|ps|p|k] eqn:T.
  1-3: split; [exact (flat_kind _ _ _ FF K)|exact I].
  destruct FF as (gs & IN & AS & -> & ID & NE & FL). rewrite AS. destruct v as [| | |l]; try contradiction.
  cbn [kind_typed shape_typed shape_named] in *. split.
  - eapply Forall_impl; [|exact K]. intros xs (s & B & F). cbn [sem_of k_from] in F.
    assert (X := from_typed _ _ _ _ IN B F). unfold struct_typed.
    revert FL X. clear. intros FL X. induction X as [|g x gs xs Q X IH]; cbn [map]; constructor.
    + cbn [forallb] in FL. apply andb_prop in FL. destruct FL as [FL _]. apply andb_prop in FL. cbn [snd].
      eapply flat_kind; [apply FL|exact Q].
    + apply IH. cbn [forallb] in FL. apply andb_prop in FL. apply FL.
  - split; [exact ID|]. destruct gs; [discriminate|]. discriminate.
Qed.

Lemma shown_typed : forall n fs b vs, packet_fits c (n, fs) -> buf_ok b -> debug_values c fs b = Ok vs ->
  Forall2 shape_typed (map (shape_of c n) (shown fs)) vs /\ Forall shape_named (map (shape_of c n) (shown fs)).
Proof.
  intros n fs b vs (NI & S & OK & TB & FF) B D. cbn [fst snd] in *.
  assert (T := filtered_typed c (fun f => negb (f_payload f)) fs b vs OK TB B D). fold (shown fs) in T.
  assert (F := shown_fits n fs FF). clear - T F. revert F. induction T as [|f v l vs K T IH]; intros F; cbn [map].
  - split; constructor.
  - inversion F; subst. destruct (shape_kind n f v) as [S1 S2]; auto. destruct IH as [I1 I2]; auto.
Qed.

Lemma name_split : forall m m' n n', In n (map fst (all_packets c)) -> In n' (map fst (all_packets c)) ->
  packet_name m n = packet_name m' n' -> m = m' /\ n = n'.
Proof.
  assert (X : forallb (fun n => forallb (fun n' => forallb (fun m => forallb (fun m' =>
      implb (String.eqb (packet_name m n) (packet_name m' n')) (Bool.eqb m m' && String.eqb n n')) [true; false]) [true; false])
    (map fst (all_packets (Cfg Checked Checked true)))) (map fst (all_packets (Cfg Checked Checked true))) = true)
    by (vm_compute; reflexivity).
  replace (map fst (all_packets c)) with (map fst (all_packets (Cfg Checked Checked true))) by reflexivity.
  intros m m' n n' I I' E. rewrite forallb_forall in X. specialize (X _ I). rewrite forallb_forall in X. specialize (X _ I').
  rewrite forallb_forall in X. specialize (X m ltac:(destruct m; cbn; auto)).
  rewrite forallb_forall in X. specialize (X m' ltac:(destruct m'; cbn; auto)).
  rewrite E, String.eqb_refl in X. cbn [implb] in X. apply andb_prop in X. destruct X as [X1 X2].
  apply Bool.eqb_prop in X1. now apply String.eqb_eq in X2.
Qed.

(** With any text [r] after it. *)
Lemma debug_split : forall v6 m m' n n' fs fs' b b' s s' r r', v6_text v6 ->
  In (n, fs) (all_packets c) -> In (n', fs') (all_packets c) -> buf_ok b -> buf_ok b' ->
  packet_debug v6 c m n fs b = Ok s -> packet_debug v6 c m' n' fs' b' = Ok s' -> (s ++ r = s' ++ r')%string ->
  m = m' /\ n = n' /\ fs = fs' /\ r = r' /\
  forall f, In f (shown fs) -> exists v, get c fs (f_name f) b = Ok v /\ get c fs (f_name f) b' = Ok v.
Proof.
  intros v6 m m' n n' fs fs' b b' s s' r r' V I I' B B' D D' E.
  assert (A := all_fit c). rewrite Forall_forall in A. assert (P := A _ I). assert (P' := A _ I').
  destruct (debug_values c fs b) as [vs|] eqn:X; [|unfold packet_debug, debug_text in D; rewrite X in D; discriminate].
  destruct (debug_values c fs' b') as [vs'|] eqn:X'; [|unfold packet_debug, debug_text in D'; rewrite X' in D'; discriminate].
  rewrite (debug_exact v6 m n fs b vs P X) in D. rewrite (debug_exact v6 m' n' fs' b' vs' P' X') in D'.
  injection D as <-. injection D' as <-. rewrite !texts_shapes in E.
  destruct (shown_typed n fs b vs P B X) as [T N]. destruct (shown_typed n' fs' b' vs' P' B' X') as [T' N'].
  apply (printed_split v6 V) in E; auto.
  - destruct E as (E1 & E2 & E3). apply name_split in E1.
    + destruct E1 as [-> ->]. assert (fs = fs') by (eapply names_distinct; eauto). subst fs' vs'. repeat split; auto.
      assert (S : scoped [] fs) by apply P.
      apply (values_length fs b vs S) in X. apply (values_length fs b' vs S) in X'. clear - X X'.
      intros f F. revert vs X X'. induction (shown fs) as [|g l IH]; intros vs X X'; [contradiction|].
      inversion X; inversion X'; subst. destruct F as [->|F].
      * match goal with H : _ :: _ = _ :: _ |- _ => injection H as <- <- end. eauto.
      * match goal with H : _ :: _ = _ :: _ |- _ => injection H as <- <- end. eauto.
    + apply in_map_iff. exists (n, fs). auto.
    + apply in_map_iff. exists (n', fs'). auto.
  - apply name_ident, P.
  - apply name_ident, P'.
  - intros Q. apply name_split in Q.
    + destruct Q as [-> ->]. assert (fs = fs') by (eapply names_distinct; eauto). subst. auto.
    + apply in_map_iff. exists (n, fs). auto.
    + apply in_map_iff. exists (n', fs'). auto.
  - now rewrite !map_length.
Qed.

Theorem debug_injective : forall v6 m m' n n' fs fs' b b' s, v6_text v6 ->
  In (n, fs) (all_packets c) -> In (n', fs') (all_packets c) -> buf_ok b -> buf_ok b' ->
  packet_debug v6 c m n fs b = Ok s -> packet_debug v6 c m' n' fs' b' = Ok s ->
  m = m' /\ n = n' /\ fs = fs' /\
  forall f, In f (shown fs) -> exists v, get c fs (f_name f) b = Ok v /\ get c fs (f_name f) b' = Ok v.
Proof.
  intros v6 m m' n n' fs fs' b b' s V I I' B B' D D'.
  destruct (debug_split v6 m m' n n' fs fs' b b' s s "" "" V I I' B B' D D' eq_refl) as (H1 & H2 & H3 & _ & H4). auto.
Qed.

Lemma quic_in : forall k, In (quic_struct k, quic_schema c k) (all_packets c).
Proof.
  intros k. unfold all_packets. apply in_or_app. right. apply in_or_app. left.
  apply in_map_iff. exists k. split; [reflexivity|]. destruct k; cbn; tauto.
Qed.
Lemma frame_in : forall k, In (frame_struct k, frame_schema k) (all_packets c).
Proof.
  intros k. unfold all_packets. apply in_or_app. right. apply in_or_app. right.
  apply in_map_iff. exists k. split; [reflexivity|]. destruct k; cbn; tauto.
Qed.
Lemma struct_ident : forall n fs, In (n, fs) (all_packets c) -> ident n.
Proof. intros n fs I. assert (A := all_fit c). rewrite Forall_forall in A. apply (A _ I). Qed.

Theorem quic_debug_injective : forall v6 q q' s, v6_text v6 -> buf_ok (q_buf q) -> buf_ok (q_buf q') ->
  quic_debug v6 c q = Ok s -> quic_debug v6 c q' = Ok s ->
  q_kind q = q_kind q' /\
  forall f, In f (shown (quic_schema c (q_kind q))) -> exists v,
    get c (quic_schema c (q_kind q)) (f_name f) (q_buf q) = Ok v /\
    get c (quic_schema c (q_kind q)) (f_name f) (q_buf q') = Ok v.
Proof.
  intros v6 q q' s V B B' D D'. unfold quic_debug in *. apply bind_ok in D, D'.
  destruct D as (t & T & D). destruct D' as (t' & T' & D'). injection D as <-. injection D' as E.
  apply (run_split word_char) in E; try reflexivity;
    try (eapply chars_imp; [exact ident_word|eapply struct_ident, quic_in]).
  destruct E as [E1 E2]. assert (K : q_kind q = q_kind q') by (revert E1; destruct (q_kind q), (q_kind q'); cbn; congruence).
  split; [exact K|]. injection E2 as E2. symmetry in E2.
  destruct (debug_split v6 _ _ _ _ _ _ _ _ _ _ ")" ")" V (quic_in _) (quic_in _) B B' T T' E2) as (_ & _ & _ & _ & H). exact H.
Qed.
Theorem frame_debug_injective : forall v6 q q' s, v6_text v6 -> buf_ok (fr_buf q) -> buf_ok (fr_buf q') ->
  0 <= fr_count q -> 0 <= fr_count q' ->
  frame_debug v6 c q = Ok s -> frame_debug v6 c q' = Ok s ->
  fr_kind q = fr_kind q' /\ (fr_kind q = FPadding -> fr_count q = fr_count q') /\
  forall f, In f (shown (frame_schema (fr_kind q))) -> exists v,
    get c (frame_schema (fr_kind q)) (f_name f) (fr_buf q) = Ok v /\
    get c (frame_schema (fr_kind q)) (f_name f) (fr_buf q') = Ok v.
Proof.
  intros v6 q q' s V B B' C C' D D'. unfold frame_debug in *. apply bind_ok in D, D'.
  destruct D as (t & T & D). destruct D' as (t' & T' & D'). injection D as <-. injection D' as E.
  apply (run_split word_char) in E; try reflexivity;
    try (eapply chars_imp; [exact ident_word|eapply struct_ident, frame_in]).
  destruct E as [E1 E2]. assert (K : fr_kind q = fr_kind q') by (revert E1; destruct (fr_kind q), (fr_kind q'); cbn; congruence).
  split; [exact K|]. injection E2 as E2. symmetry in E2.
  destruct (debug_split v6 _ _ _ _ _ _ _ _ _ _ _ _ V (frame_in _) (frame_in _) B B' T T' E2) as (_ & _ & _ & E3 & H).
  split; [|exact H]. intros P. rewrite <- K, P in E3. cbn [is_padding append] in E3. injection E3 as E3.
  apply dec_split in E3; auto; try reflexivity. apply E3.
Qed.
End Packet.
