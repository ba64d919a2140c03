(** The texts of the model are the ones of SpecFmt.v. *)
From Coq Require Import String Ascii ZArith List Bool Lia.
From Verif Require Import Base BitSpec DeriveUtil DeriveOps DeriveGen SpecPacket Protocols Quic MacAddr SpecMac MacAddrProofs EmitText
  FmtText SpecFmt FmtProofs FmtValueProofs FmtPacketProofs.
Import ListNotations.
Open Scope string_scope.
Open Scope Z_scope.

Lemma lower_fun : forall a b d, lower a d -> lower b d -> a = b.
Proof. unfold lower. intros a b d A B. congruence. Qed.
Lemma lower_small : forall a d, lower a d -> (d < 16)%nat.
Proof.
  intros a d H. unfold lower in H. destruct (Nat.ltb d 16) eqn:E; [now apply Nat.ltb_lt |]. apply Nat.ltb_ge in E.
  do 16 (destruct d as [| d]; [lia |]). discriminate H.
Qed.
Lemma pair_fun : forall s t v, pair_of s v -> pair_of t v -> s = t.
Proof.
  intros s t v (a & b & d & e & -> & A & B & V) (a' & b' & d' & e' & -> & A' & B' & V').
  pose proof (lower_small _ _ A). pose proof (lower_small _ _ B). pose proof (lower_small _ _ A'). pose proof (lower_small _ _ B').
  assert (d = d') by lia. assert (e = e') by lia. subst d' e'. now rewrite (lower_fun _ _ _ A A'), (lower_fun _ _ _ B B').
Qed.
Lemma pair_text : forall s v, pair_of s v -> s = fmt_02x v.
Proof.
  intros s v H. apply (pair_fun _ _ v H). apply fmt_pair. destruct H as (a & b & d & e & _ & A & B & V).
  pose proof (lower_small _ _ A). pose proof (lower_small _ _ B). split; lia.
Qed.
Section S.
Variable v6 : list Z -> string.
Lemma flat_shows_text : forall f v s, flat_shows v6 f v s -> s = debug_flat v6 f v.
Proof.
  intros f v s H. destruct H; try reflexivity.
  - repeat (destruct l as [| ? l]; [discriminate H |]). destruct l; [| discriminate H].
    repeat match goal with F : Forall2 _ _ (_ :: _) |- _ => inversion F; clear F; subst | F : Forall2 _ _ [] |- _ => inversion F; clear F; subst end.
    repeat match goal with P : pair_of _ _ |- _ => apply pair_text in P; subst end. reflexivity.
  - repeat (destruct l as [| ? l]; [discriminate H |]). destruct l; [| discriminate H]. cbn [map String.concat]. cbn [debug_flat]. reflexivity.
Qed.
Lemma flat_shows_typed : forall f v, flat_typed f v -> flat_shows v6 f v (debug_flat v6 f v).
Proof.
  intros f v T. destruct f, v; cbn [flat_typed] in T; try contradiction; try constructor.
  - destruct l as [| z [| ? ?]]; try contradiction. constructor.
  - destruct T as [L B]. repeat (destruct l as [| ? l]; [discriminate L |]). destruct l; [| discriminate L].
    repeat match goal with F : Forall _ (_ :: _) |- _ => inversion F; clear F; subst end.
    change (debug_flat v6 FMac (VTup [z; z0; z1; z2; z3; z4])) with (String.concat ":" (map fmt_02x [z; z0; z1; z2; z3; z4])).
    constructor; [reflexivity |]. repeat constructor; now apply fmt_pair.
  - destruct T as [L _]. repeat (destruct l as [| ? l]; [discriminate L |]). destruct l; [| discriminate L].
    change (debug_flat v6 FIp4 (VTup [z; z0; z1; z2])) with (String.concat "." (map decimal [z; z0; z1; z2])). now constructor.
Qed.
Lemma fields_shown : forall fields xs us, Forall2 (fun p u => flat_shows v6 (snd (fst p)) (snd p) u) (combine fields xs) us -> List.length xs = List.length fields ->
  map (fun p => fst (fst p) ++ ": " ++ snd p) (combine fields us) =
  map (fun p => fst p ++ ": " ++ snd p) (map (fun p => (fst (fst p), debug_flat v6 (snd (fst p)) (snd p))) (combine fields xs)).
Proof.
  induction fields as [| f fields IH]; intros [| x xs] us H L; try discriminate L; [reflexivity |].
  cbn [combine] in H. inversion H as [| ? u ? us' H1 H2]; subst. cbn [combine map fst snd] in *. rewrite (flat_shows_text _ _ _ H1).
  f_equal. apply IH; [exact H2 | now injection L].
Qed.
Lemma shows_text : forall s v t, shows v6 s v t -> t = debug_value v6 s v.
Proof.
  intros s v t H. destruct H as [f v s H | n fields l ts H]; [exact (flat_shows_text _ _ _ H) |].
  cbn [debug_value]. unfold bracketed, debug_list. do 3 f_equal.
  induction H as [| xs t l ts (us & F & L & ->) H IH]; [reflexivity |]. cbn [map]. f_equal; [| exact IH].
  unfold debug_struct. do 3 f_equal. now rewrite (fields_shown _ _ _ F L).
Qed.
Lemma shows_typed : forall s v, shape_typed s v -> shows v6 s v (debug_value v6 s v).
Proof.
  intros [f | n fields] v T; [constructor; exact (flat_shows_typed _ _ T) |].
  destruct v as [| | | l]; try contradiction. cbn [debug_value shape_typed] in *. constructor.
  induction T as [| xs l T' T IH]; cbn [map]; constructor; [| exact IH].
  unfold struct_typed in T'.
  exists (map (fun p => debug_flat v6 (snd (fst p)) (snd p)) (combine fields xs)).
  assert (F : Forall2 (fun p u => flat_shows v6 (snd (fst p)) (snd p) u) (combine fields xs) (map (fun p => debug_flat v6 (snd (fst p)) (snd p)) (combine fields xs))).
  { clear - T'. induction T' as [| f x fields xs H T IH]; cbn [combine map]; constructor; [exact (flat_shows_typed _ _ H) | exact IH]. }
  assert (L : List.length xs = List.length fields) by (clear - T'; induction T'; cbn; congruence).
  split; [exact F |]. split; [exact L |]. unfold debug_struct. do 3 f_equal. now rewrite (fields_shown _ _ _ F L).
Qed.
End S.
Lemma full_packet : forall m n, full_name m n = packet_name m n.
Proof. now intros []. Qed.
Theorem debug_any_shows : forall c v6 m base fs shapes b, scoped [] fs -> ident base -> Forall ident (map f_name fs) ->
  List.length shapes = List.length fs ->
  (forall vs ts, Forall2 (fun f v => get c fs (f_name f) b = Ok v) (shown fs) vs ->
     Forall2 (fun p t => shows v6 (fst p) (snd p) t) (combine (shown_shapes fs shapes) vs) ts ->
     debug_text v6 c m base fs shapes b = Ok (printed (full_name m base) (combine (map f_name (shown fs)) ts))) /\
  ((exists f e, In f (shown fs) /\ get c fs (f_name f) b = Panic e) -> exists e, debug_text v6 c m base fs shapes b = Panic e).
Proof.
  intros c v6 m base fs shapes b S NI NF L. destruct (debug_any c v6 m base fs shapes b S NI NF L) as [A B]. split; [| exact B].
  intros vs ts V T. rewrite (A vs V), full_packet. do 3 f_equal. clear - T. induction T as [| p t l ts H T IH]; [reflexivity |].
  cbn [map]. f_equal; [symmetry; exact (shows_text _ _ _ _ H) | exact IH].
Qed.
Theorem debug_crate_shows : forall c v6 m n fs b, In (n, fs) (all_packets c) -> buf_ok b ->
  (forall vs, Forall2 (fun f v => get c fs (f_name f) b = Ok v) (shown fs) vs ->
     exists ts, Forall2 (fun p t => shows v6 (shape_of c n (fst p)) (snd p) t) (combine (shown fs) vs) ts /\
       packet_debug v6 c m n fs b = Ok (printed (full_name m n) (combine (map f_name (shown fs)) ts))) /\
  ((exists f e, In f (shown fs) /\ get c fs (f_name f) b = Panic e) -> exists e, packet_debug v6 c m n fs b = Panic e).
Proof.
  intros c v6 m n fs b I BO. destruct (debug_shows c v6 m n fs b I) as [A B]. split; [| exact B].
  intros vs V. exists (map (fun p => debug_value v6 (shape_of c n (fst p)) (snd p)) (combine (shown fs) vs)).
  split; [| now rewrite (A vs V), full_packet].
  assert (P := all_fit c). rewrite Forall_forall in P. specialize (P _ I).
  destruct (shown_typed c n fs b vs P BO (values_of_gets c fs b vs (proj1 (proj2 P)) V)) as [T _].
  clear - T. revert vs T. induction (shown fs) as [| f l IH]; intros vs T; [constructor |].
  cbn [map] in T. inversion T as [| ? v ? vs' H T']; subst. cbn [combine map fst snd]. constructor; [exact (shows_typed _ _ _ H) | exact (IH _ T')].
Qed.
