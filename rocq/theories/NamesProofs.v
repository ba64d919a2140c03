(** Proofs about the name tables. *)
From Coq Require Import String Ascii ZArith List Bool Lia ZifyBool ZifyNat.
From Verif Require Import Base BaseFacts DeriveUtil DeriveOps DeriveGen MacAddr Quic Names SpecQuic SpecNames QuicIntProofs QuicWalkProofs
  QuicFrameProofs QuicSeqProofs.
Import ListNotations.
Open Scope Z_scope.
Ltac Zify.zify_post_hook ::= Z.to_euclidean_division_equations.

(** The arms as a table from values to texts, each constant looked up once. *)
Definition arm_values (consts : list (string * Z)) (a : arm) : list (Z * string) :=
  match a with
  | AConst ns s =>
      flat_map (fun n => match const_value consts n with Some w => [(w, s)] | None => [] end) ns
  | ARange lo hi s => map (fun k => (lo + Z.of_nat k, s)) (seq 0 (Z.to_nat (hi - lo + 1)))
  end.
Definition resolve (consts : list (string * Z)) (arms : list arm) : list (Z * string) :=
  flat_map (arm_values consts) arms.
Fixpoint lookup (t : list (Z * string)) (v : Z) : option string :=
  match t with
  | [] => None
  | (w, s) :: r => if v =? w then Some s else lookup r v
  end.
Definition named (t : list (Z * string)) (v : Z) : string :=
  match lookup t v with Some s => s | None => "unknown"%string end.

Lemma lookup_app : forall a b v, lookup (a ++ b) v = match lookup a v with Some s => Some s | None => lookup b v end.
Proof. induction a as [|[w s] a IH]; intros b v; [reflexivity|]. cbn [app lookup]. destruct (v =? w); [reflexivity|apply IH]. Qed.

Lemma lookup_const : forall t v s, (forall w s', In (w, s') t -> s' = s) ->
  lookup t v = if existsb (fun p => v =? fst p) t then Some s else None.
Proof.
  induction t as [|[w s'] t IH]; intros v s H; [reflexivity|]. cbn [lookup existsb fst].
  destruct (v =? w) eqn:E; cbn [orb].
  - f_equal. apply (H w). now left.
  - apply IH. intros w' s'' I. apply (H w'). now right.
Qed.

Lemma arm_values_lookup : forall consts a v,
  lookup (arm_values consts a) v = if arm_matches consts v a then Some (arm_text a) else None.
Proof.
  intros consts [ns s|lo hi s] v; cbn [arm_values arm_matches arm_text].
  - induction ns as [|n ns IH]; [reflexivity|]. cbn [flat_map existsb]. rewrite lookup_app, IH.
    destruct (const_value consts n); [|reflexivity]. cbn [lookup]. destruct (v =? z); reflexivity.
  - rewrite (lookup_const _ v s).
    + match goal with |- (if ?x then _ else _) = (if ?y then _ else _) => assert (E : x = y) end; [|now rewrite E].
      apply Bool.eq_iff_eq_true. rewrite existsb_exists. split.
      * intros [p [I E]]. apply in_map_iff in I. destruct I as [k [K I]]. subst p. apply in_seq in I. cbn [fst] in E. lia.
      * intros E. exists (lo + Z.of_nat (Z.to_nat (v - lo)), s). split; [|cbn [fst]; lia].
        apply in_map_iff. exists (Z.to_nat (v - lo)). split; [reflexivity|]. apply in_seq. lia.
    + intros w s' I. apply in_map_iff in I. destruct I as [k [K _]]. congruence.
Qed.

Lemma name_of_table : forall consts arms v, name_of consts arms v = named (resolve consts arms) v.
Proof.
  intros consts. induction arms as [|a r IH]; intros v; [reflexivity|].
  cbn [name_of resolve flat_map]. unfold named. rewrite lookup_app, arm_values_lookup.
  destruct (arm_matches consts v a); [reflexivity|]. apply IH.
Qed.

(** Tables with distinct values and distinct texts. *)
Fixpoint distinct {A} (eqb : A -> A -> bool) (l : list A) : bool :=
  match l with
  | [] => true
  | a :: r => negb (existsb (eqb a) r) && distinct eqb r
  end.
Lemma distinct_nodup : forall A (eqb : A -> A -> bool) l, (forall a b, eqb a b = true <-> a = b) ->
  distinct eqb l = true -> NoDup l.
Proof.
  intros A eqb l Q. induction l as [|a r IH]; intros D; [constructor|]. cbn [distinct] in D.
  apply andb_prop in D. destruct D as [N D]. constructor; [|now apply IH].
  intros I. apply negb_true_iff in N. assert (existsb (eqb a) r = true); [|congruence].
  apply existsb_exists. exists a. split; [assumption|now apply Q].
Qed.
Definition good_table (t : list (Z * string)) : bool :=
  distinct Z.eqb (map fst t) && distinct String.eqb (map snd t) &&
  negb (existsb (String.eqb "unknown") (map snd t)).

Lemma lookup_in : forall t v s, lookup t v = Some s -> In (v, s) t.
Proof.
  induction t as [|[w s'] t IH]; intros v s H; [discriminate|]. cbn [lookup] in H.
  destruct (v =? w) eqn:E; [left; f_equal; [lia|congruence]|right; auto].
Qed.
Lemma in_lookup : forall t v s, NoDup (map fst t) -> In (v, s) t -> lookup t v = Some s.
Proof.
  induction t as [|[w s'] t IH]; intros v s N I; [destruct I|]. cbn [lookup map fst] in *. inversion N; subst.
  destruct I as [E|I].
  - injection E as -> ->. now rewrite Z.eqb_refl.
  - destruct (v =? w) eqn:Q; [|auto]. exfalso. apply H1. replace w with v by lia.
    apply in_map_iff. now exists (v, s).
Qed.
Lemma snd_inj : forall (t : list (Z * string)) v w s, NoDup (map snd t) -> In (v, s) t -> In (w, s) t -> v = w.
Proof.
  induction t as [|[a x] t IH]; intros v w s N I J; [destruct I|]. cbn [map snd] in N. inversion N; subst.
  destruct I as [E|I], J as [F|J].
  - congruence.
  - injection E as -> ->. exfalso. apply H1. apply in_map_iff. now exists (w, s).
  - injection F as -> ->. exfalso. apply H1. apply in_map_iff. now exists (v, s).
  - eauto.
Qed.

Lemma named_unambiguous : forall t v w, good_table t = true -> named t v = named t w ->
  v = w \/ (lookup t v = None /\ lookup t w = None).
Proof.
  intros t v w G E. unfold good_table in G. apply andb_prop in G. destruct G as [G U]. apply andb_prop in G.
  destruct G as [_ N]. apply distinct_nodup in N; [|intros; apply String.eqb_eq].
  assert (K : forall s, In s (map snd t) -> s <> "unknown"%string).
  { intros s I F. subst s. apply negb_true_iff in U.
    assert (existsb (String.eqb "unknown") (map snd t) = true); [|congruence].
    apply existsb_exists. exists "unknown"%string. auto. }
  unfold named in E. destruct (lookup t v) as [a|] eqn:A, (lookup t w) as [b|] eqn:B.
  - left. subst b. apply lookup_in in A, B. eapply snd_inj; eauto.
  - exfalso. apply lookup_in in A. apply (K a); [|assumption]. apply in_map_iff. now exists (v, a).
  - exfalso. apply lookup_in in B. apply (K b); [|congruence]. apply in_map_iff. now exists (w, b).
  - auto.
Qed.

(** ** EtherTypes *)

Definition ethertype_table : list (Z * string) := Eval vm_compute in resolve ethertype_consts ethertype_arms.
Lemma ethertype_named : forall v, ethertype_name v = named ethertype_table v.
Proof. intros v. unfold ethertype_name. rewrite name_of_table. reflexivity. Qed.

Lemma named_unknown : forall t v, good_table t = true -> named t v = "unknown"%string <-> ~ In v (map fst t).
Proof.
  intros t v G. unfold good_table in G. apply andb_prop in G. destruct G as [G U]. apply andb_prop in G. destruct G as [D _].
  apply distinct_nodup in D; [|intros; apply Z.eqb_eq]. unfold named. split.
  - intros E I. apply in_map_iff in I. destruct I as [[w s] [F I]]. cbn [fst] in F. subst w.
    rewrite (in_lookup t v s D I) in E. apply negb_true_iff in U.
    assert (existsb (String.eqb "unknown") (map snd t) = true); [|congruence].
    apply existsb_exists. exists s. split; [apply in_map_iff; now exists (v, s)|]. subst s. reflexivity.
  - intros N. destruct (lookup t v) as [s|] eqn:L; [|reflexivity]. exfalso. apply N. apply lookup_in in L.
    apply in_map_iff. now exists (v, s).
Qed.

Lemma ethertype_good : good_table ethertype_table = true.
Proof. vm_compute. reflexivity. Qed.

Lemma ethertype_consts_printed : forall n v, In (n, v) ethertype_consts -> ethertype_name v = n.
Proof.
  intros n v I. rewrite ethertype_named.
  assert (S : forallb (fun p => String.eqb (named ethertype_table (snd p)) (fst p)) ethertype_consts = true) by (vm_compute; reflexivity).
  rewrite forallb_forall in S. apply String.eqb_eq. exact (S (n, v) I).
Qed.

Lemma ethertype_pairs : forall v w, ethertype_name v = ethertype_name w ->
  v = w \/ (ethertype_name v = "unknown"%string /\ ethertype_name w = "unknown"%string).
Proof.
  intros v w E. rewrite !ethertype_named in *. apply named_unambiguous in E; [|exact ethertype_good].
  destruct E as [E|[A B]]; [auto|]. right. unfold named. now rewrite A, B.
Qed.

Lemma ethertype_assigned : forall v s, ethertype_name v = s <->
  In (v, s) assigned_ethertypes \/ (s = "unknown"%string /\ ~ In v (map fst assigned_ethertypes)).
Proof.
  assert (G : good_table assigned_ethertypes = true) by (vm_compute; reflexivity).
  assert (S1 : forallb (fun p => String.eqb (named ethertype_table (fst p)) (snd p)) assigned_ethertypes = true) by (vm_compute; reflexivity).
  assert (S2 : forallb (fun v => existsb (Z.eqb v) (map fst assigned_ethertypes)) (map fst ethertype_table) = true) by (vm_compute; reflexivity).
  rewrite forallb_forall in S1. rewrite forallb_forall in S2.
  assert (A : forall v s, In (v, s) assigned_ethertypes -> named ethertype_table v = s).
  { intros v s I. apply String.eqb_eq. exact (S1 (v, s) I). }
  assert (B : forall v, ~ In v (map fst assigned_ethertypes) -> named ethertype_table v = "unknown"%string).
  { intros v N. apply named_unknown; [exact ethertype_good|]. intros I. apply N. specialize (S2 v I).
    apply existsb_exists in S2. destruct S2 as [x [X E]]. replace v with x by lia. exact X. }
  intros v s. rewrite ethertype_named. split.
  - intros E. destruct (in_dec Z.eq_dec v (map fst assigned_ethertypes)) as [I|N].
    + left. apply in_map_iff in I. destruct I as [[w t] [F I]]. cbn [fst] in F. subst w.
      rewrite (A v t I) in E. now subst t.
    + right. split; [|exact N]. rewrite <- E. now apply B.
  - intros [I|[-> N]]; auto.
Qed.

(** ** IP protocols *)

Definition ip_table : list (Z * string) := Eval vm_compute in resolve ip_consts ip_arms.
Lemma ip_named : forall v, ip_name v = named ip_table v.
Proof. intros v. unfold ip_name. rewrite name_of_table. reflexivity. Qed.
Lemma ip_good : good_table ip_table = true.
Proof. vm_compute. reflexivity. Qed.

Lemma ip_consts_printed : forall n v, In (n, v) ip_consts ->
  ip_name v = n \/ (n = "Ipv6Icmp"%string /\ v = 58 /\ ip_name v = "Icmpv6"%string).
Proof.
  intros n v I. rewrite ip_named.
  assert (S : forallb (fun p => String.eqb (named ip_table (snd p)) (fst p)
    || (String.eqb (fst p) "Ipv6Icmp" && (snd p =? 58) && String.eqb (named ip_table (snd p)) "Icmpv6")) ip_consts = true)
    by (vm_compute; reflexivity).
  rewrite forallb_forall in S. specialize (S (n, v) I). cbn [fst snd] in S.
  apply orb_prop in S. destruct S as [S|S]; [left; now apply String.eqb_eq|right].
  apply andb_prop in S. destruct S as [S P]. apply andb_prop in S. destruct S as [S Q].
  apply String.eqb_eq in S, P. repeat split; auto; lia.
Qed.

Lemma ip_pairs : forall v w, ip_name v = ip_name w ->
  v = w \/ (ip_name v = "unknown"%string /\ ip_name w = "unknown"%string).
Proof.
  intros v w E. rewrite !ip_named in *. apply named_unambiguous in E; [|exact ip_good].
  destruct E as [E|[A B]]; [auto|]. right. unfold named. now rewrite A, B.
Qed.

Definition right_ip_nameb (v : Z) (s : string) : bool :=
  existsb (fun p => (fst p =? v) && String.eqb (snd p) s) other_spelling ||
  (negb (existsb (Z.eqb v) (map fst other_spelling)) && (0 <=? v) && (v <=? 142) &&
   match nth_error iana_keywords (Z.to_nat v) with Some (Some k) => String.eqb (letters s) (letters k) | _ => false end) ||
  ((143 <=? v) && (v <=? 252) && String.eqb s "unknown") ||
  ((v =? 253) && String.eqb s "Test1") || ((v =? 254) && String.eqb s "Test2") || ((v =? 255) && String.eqb s "Reserved").
Lemma right_ip_nameb_ok : forall v s, right_ip_nameb v s = true -> right_ip_name v s.
Proof.
  intros v s H. unfold right_ip_nameb in H. unfold right_ip_name.
  apply orb_prop in H; destruct H as [H|H]; [apply orb_prop in H; destruct H as [H|H]; [apply orb_prop in H; destruct H as [H|H];
    [apply orb_prop in H; destruct H as [H|H]; [apply orb_prop in H; destruct H as [H|H]|]|]|]|].
  - left. apply existsb_exists in H. destruct H as [[w t] [I H]]. cbn [fst snd] in H. apply andb_prop in H.
    destruct H as [A B]. apply String.eqb_eq in B. replace v with w by lia. now subst t.
  - right; left. apply andb_prop in H. destruct H as [H K]. apply andb_prop in H. destruct H as [H L].
    apply andb_prop in H. destruct H as [H M]. split; [|split; [lia|]].
    + intros I. apply negb_true_iff in H. assert (existsb (Z.eqb v) (map fst other_spelling) = true); [|congruence].
      apply existsb_exists. exists v. split; [assumption|lia].
    + destruct (nth_error iana_keywords (Z.to_nat v)) as [[k|]|]; try discriminate K. exists k. split; [reflexivity|now apply String.eqb_eq].
  - right; right; left. apply andb_prop in H. destruct H as [H K]. apply String.eqb_eq in K. split; [lia|assumption].
  - right; right; right; left. apply andb_prop in H. destruct H as [H K]. apply String.eqb_eq in K. split; [lia|assumption].
  - right; right; right; right; left. apply andb_prop in H. destruct H as [H K]. apply String.eqb_eq in K. split; [lia|assumption].
  - right; right; right; right; right. apply andb_prop in H. destruct H as [H K]. apply String.eqb_eq in K. split; [lia|assumption].
Qed.

Lemma ip_iana : forall v, 0 <= v <= 255 -> right_ip_name v (ip_name v).
Proof.
  intros v V. rewrite ip_named. apply right_ip_nameb_ok.
  assert (S : forallb (fun k => right_ip_nameb (Z.of_nat k) (named ip_table (Z.of_nat k))) (seq 0 256) = true)
    by (vm_compute; reflexivity).
  rewrite forallb_forall in S. specialize (S (Z.to_nat v)). rewrite Z2Nat.id in S by lia. apply S. apply in_seq. lia.
Qed.

(** ** QUIC *)

Definition frame_table : list (Z * string) := Eval vm_compute in resolve frame_type_consts frame_type_arms.
Lemma frame_named : forall v, frame_type_name v = named frame_table v.
Proof. intros v. unfold frame_type_name. rewrite name_of_table. reflexivity. Qed.

(** Every value is one of 0 to 30, or matches nothing. *)
Lemma frame_cases : forall (P : Z -> Prop), (forall k, (k <= 30)%nat -> P (Z.of_nat k)) ->
  (forall t, t < 0 \/ 30 < t -> P t) -> forall t, P t.
Proof.
  intros P A B t. destruct (Z_lt_le_dec t 0); [apply B; lia|]. destruct (Z_lt_le_dec 30 t); [apply B; lia|].
  rewrite <- (Z2Nat.id t) by lia. apply A. lia.
Qed.
Lemma lookup_none : forall t v, ~ In v (map fst t) -> lookup t v = None.
Proof.
  intros t v N. destruct (lookup t v) as [s|] eqn:L; [|reflexivity]. exfalso. apply N. apply lookup_in in L.
  apply in_map_iff. now exists (v, s).
Qed.
Lemma frame_outside : forall t, t < 0 \/ 30 < t -> frame_type_name t = "unknown"%string /\ frame_kind_of t = None.
Proof.
  intros t T. split.
  - rewrite frame_named. unfold named. rewrite lookup_none; [reflexivity|]. intros I.
    assert (S : forallb (fun v => (0 <=? v) && (v <=? 30)) (map fst frame_table) = true) by (vm_compute; reflexivity).
    rewrite forallb_forall in S. specialize (S t I). lia.
  - unfold frame_kind_of.
    repeat match goal with |- (if ?x then _ else _) = _ => destruct x eqn:?; [lia|] end. reflexivity.
Qed.

Definition rfc_frame_nameb (t : Z) : string :=
  match find (fun p => (fst (fst p) <=? t) && (t <=? snd (fst p))) rfc_frames with
  | Some p => dashed (snd p)
  | None => "unknown"%string
  end.
Lemma frame_rfc_fun : forall t, frame_type_name t = rfc_frame_nameb t.
Proof.
  intros t. pattern t. apply frame_cases; clear t.
  - intros k K. rewrite frame_named. apply String.eqb_eq.
    assert (S : forallb (fun k => String.eqb (named frame_table (Z.of_nat k)) (rfc_frame_nameb (Z.of_nat k))) (seq 0 31) = true)
      by (vm_compute; reflexivity).
    rewrite forallb_forall in S. apply S. apply in_seq. lia.
  - intros t T. destruct (frame_outside t T) as [-> _]. unfold rfc_frame_nameb.
    destruct (find _ _) as [p|] eqn:F; [|reflexivity]. exfalso. apply find_some in F. destruct F as [I E].
    assert (S : forallb (fun p => (0 <=? fst (fst p)) && (snd (fst p) <=? 30)) rfc_frames = true) by (vm_compute; reflexivity).
    rewrite forallb_forall in S. specialize (S p I). lia.
Qed.
Lemma frame_rfc : forall t,
  (forall lo hi n, In (lo, hi, n) rfc_frames -> lo <= t <= hi -> frame_type_name t = dashed n) /\
  ((forall lo hi n, In (lo, hi, n) rfc_frames -> ~ lo <= t <= hi) -> frame_type_name t = "unknown"%string).
Proof.
  intros t. split.
  - intros lo hi n I B.
    assert (S : forallb (fun p => forallb (fun k => String.eqb (named frame_table (fst (fst p) + Z.of_nat k)) (dashed (snd p)))
       (seq 0 (Z.to_nat (snd (fst p) - fst (fst p) + 1)))) rfc_frames = true) by (vm_compute; reflexivity).
    rewrite forallb_forall in S. specialize (S _ I). cbn [fst snd] in S. rewrite forallb_forall in S.
    specialize (S (Z.to_nat (t - lo))). replace (lo + Z.of_nat (Z.to_nat (t - lo))) with t in S by lia.
    rewrite frame_named. apply String.eqb_eq. apply S. apply in_seq. lia.
  - intros N. rewrite frame_rfc_fun. unfold rfc_frame_nameb.
    destruct (find _ _) as [[[lo hi] n]|] eqn:F; [|reflexivity]. exfalso. apply find_some in F. destruct F as [I E].
    cbn [fst snd] in E. apply (N lo hi n I). lia.
Qed.

(** The name a variant has. *)
Definition kind_name (k : frame_kind) : string :=
  match k with
  | FPadding => "padding" | FPing => "ping" | FAck => "ack" | FResetStream => "reset-stream"
  | FStopSending => "stop-sending" | FCrypto => "crypto" | FNewToken => "new-token" | FStream => "stream"
  | FMaxData => "max-data" | FMaxStreamData => "max-stream-data" | FMaxStreams => "max-streams"
  | FDataBlocked => "data-blocked" | FStreamDataBlocked => "stream-data-blocked" | FStreamsBlocked => "streams-blocked"
  | FNewConnectionId => "new-connection-id" | FRetireConnectionId => "retire-connection-id"
  | FPathChallenge => "path-challenge" | FPathResponse => "path-response" | FConnectionClose => "connection-close"
  | FHandshakeDone => "handshake-done"
  end%string.
Lemma frame_kind_name : forall t, frame_type_name t =
  match frame_kind_of t with Some k => kind_name k | None => "unknown"%string end.
Proof.
  intros t. pattern t. apply frame_cases; clear t.
  - intros k K. rewrite frame_named. apply String.eqb_eq.
    assert (S : forallb (fun k => String.eqb (named frame_table (Z.of_nat k))
       (match frame_kind_of (Z.of_nat k) with Some k => kind_name k | None => "unknown"%string end)) (seq 0 31) = true)
      by (vm_compute; reflexivity).
    rewrite forallb_forall in S. apply S. apply in_seq. lia.
  - intros t T. destruct (frame_outside t T) as [-> ->]. reflexivity.
Qed.
Lemma kind_name_known : forall k, kind_name k <> "unknown"%string.
Proof. destruct k; discriminate. Qed.
Lemma kind_name_inj : forall k l, kind_name k = kind_name l -> k = l.
Proof. destruct k, l; intros E; try reflexivity; discriminate E. Qed.
Lemma frame_names_kinds : forall t u, frame_type_name t = frame_type_name u <-> frame_kind_of t = frame_kind_of u.
Proof.
  intros t u. rewrite !frame_kind_name. split; [|now intros ->].
  destruct (frame_kind_of t) as [k|], (frame_kind_of u) as [l|]; intros E; try reflexivity.
  - f_equal. now apply kind_name_inj.
  - now apply kind_name_known in E.
  - symmetry in E. now apply kind_name_known in E.
Qed.
Lemma frame_unknown : forall t, frame_type_name t = "unknown"%string <-> frame_kind_of t = None.
Proof.
  intros t. rewrite frame_kind_name. destruct (frame_kind_of t) as [k|]; [|tauto].
  split; intros E; [now apply kind_name_known in E|discriminate].
Qed.

(** The frames [Frame::new] returns print the RFC name of their type byte. *)
Lemma tiles_in : forall c b l, tiles c b l -> forall f, In f l ->
  exists t r, fr_buf f = t :: r /\ frame_kind_of t = Some (fr_kind f) /\ exists pre, b = (pre ++ fr_buf f)%list.
Proof.
  intros c b l T. induction T as [|n r l N Z T IH|k t own r l K Z Q G T IH]; intros f I; [destruct I| |].
  - destruct I as [<-|I].
    + cbn [fr_buf fr_kind]. destruct n; [lia|]. exists 0, (repeat 0 n ++ r)%list. split; [reflexivity|]. split; [reflexivity|].
      now exists [].
    + destruct (IH f I) as [u [s [A [B [pre C]]]]]. exists u, s. split; [exact A|]. split; [exact B|].
      exists (repeat 0 n ++ pre)%list. now rewrite <- app_assoc, <- C.
  - destruct I as [<-|I].
    + cbn [fr_buf fr_kind]. exists t, (own ++ r)%list. split; [reflexivity|]. split; [exact Q|]. now exists [].
    + destruct (IH f I) as [u [s [A [B [pre C]]]]]. exists u, s. split; [exact A|]. split; [exact B|].
      exists (t :: own ++ pre)%list. cbn [app]. now rewrite <- app_assoc, <- C.
Qed.

Lemma frame_new_none : forall t r k, new (frame_schema k) (t :: r) = None -> frame_kind_of t = Some k -> t = 24 /\ r = [].
Proof.
  intros t r k N K. unfold new in N. destruct (_ <=? _) eqn:L in N; [discriminate N|].
  assert (M : minimum_packet_size (frame_schema k) = if match k with FNewConnectionId => true | _ => false end then 2 else 1)
    by (destruct k; vm_compute; reflexivity).
  rewrite M in L. unfold blen in L. cbn [List.length] in L.
  assert (R : r = [] /\ k = FNewConnectionId).
  { destruct r; cbn [List.length] in L; destruct k; try lia; auto. }
  destruct R as [-> ->]. split; [|reflexivity]. unfold frame_kind_of in K.
  repeat match type of K with (if ?x then _ else _) = _ => destruct x eqn:?; [try discriminate K; lia|] end. discriminate K.
Qed.
Lemma frames_display : forall c b l f, dgram b -> frame_new c b = Ok (Some l) -> In f l ->
  exists t r, fr_buf f = t :: r /\ byte_ok t /\ frame_kind_of t = Some (fr_kind f) /\ frame_ty c f = Ok t /\
    frame_display c f = Ok (frame_type_name t) /\ frame_type_name t <> "unknown"%string.
Proof.
  intros c b l f D N I. destruct (frames_tile c b D) as [_ T]. specialize (T l N).
  destruct (tiles_in c b l T f I) as [t [r [A [B [pre C]]]]]. exists t, r.
  assert (D' : dgram (fr_buf f)) by (rewrite C in D; exact (suffix_dgram _ _ D)).
  assert (Y : byte_ok t) by (rewrite A in D'; destruct D' as [D' _]; now inversion D').
  assert (G : frame_ty c f = Ok t).
  { unfold frame_ty. rewrite A in *. destruct (new (frame_schema (fr_kind f)) (t :: r)) as [p|] eqn:W.
    - unfold new in W. destruct (_ <=? _) eqn:L in W; [|discriminate W]. 
      rewrite frame_head; [reflexivity|assumption|]. unfold new. now rewrite L.
    - apply frame_new_none in W; [|exact B]. destruct W as [-> ->].
      assert (E : Some FNewConnectionId = Some (fr_kind f)) by exact B. injection E as <-. destruct c as [[] [] []]; vm_compute; reflexivity. }
  repeat split; auto.
  - apply Y.
  - apply Y.
  - unfold frame_display. rewrite G. reflexivity.
  - intros U. apply frame_unknown in U. congruence.
Qed.

(** ** Versions *)

Lemma numeral_app : forall s t acc, numeral_value acc (s ++ t) =
  match numeral_value acc s with Some v => numeral_value v t | None => None end.
Proof.
  induction s as [|a s IH]; intros t acc; [reflexivity|]. cbn [String.append numeral_value].
  destruct (digit_value a); [apply IH|reflexivity].
Qed.
Lemma digit_value_hex : forall d, 0 <= d < 16 -> digit_value (hex_digit d) = Some d.
Proof.
  intros d D. assert (S : forallb (fun k => match digit_value (hex_digit (Z.of_nat k)) with Some x => x =? Z.of_nat k | None => false end)
    (seq 0 16) = true) by (vm_compute; reflexivity).
  rewrite forallb_forall in S. specialize (S (Z.to_nat d)). rewrite Z2Nat.id in S by lia.
  assert (I : In (Z.to_nat d) (seq 0 16)) by (apply in_seq; lia). specialize (S I).
  destruct (digit_value (hex_digit d)); [f_equal; lia|discriminate S].
Qed.
Lemma fmt_0nx_value : forall n x, 0 <= x < 16 ^ Z.of_nat n ->
  String.length (fmt_0nx n x) = n /\ numeral_value 0 (fmt_0nx n x) = Some x.
Proof.
  induction n as [|n IH]; intros x X.
  - cbn in X. assert (x = 0) by lia. subst x. split; reflexivity.
  - assert (P : 16 ^ Z.of_nat (S n) = 16 * 16 ^ Z.of_nat n) by (rewrite Nat2Z.inj_succ, Z.pow_succ_r; lia).
    rewrite P in X. assert (Q : 0 <= x / 16 < 16 ^ Z.of_nat n) by (split; [apply Z.div_pos; lia|apply Z.div_lt_upper_bound; lia]).
    destruct (IH _ Q) as [L V]. cbn [fmt_0nx]. split.
    + clear -L. revert L. generalize (fmt_0nx n (x / 16)). intros s. revert n. induction s as [|a s IHs]; intros n L.
      * cbn in *. lia.
      * cbn [String.append String.length] in *. destruct n; [discriminate L|]. f_equal. apply IHs. lia.
    + rewrite numeral_app, V. cbn [numeral_value]. rewrite digit_value_hex by (apply Z.mod_pos_bound; lia).
      f_equal. assert (E := Z.div_mod x 16). lia.
Qed.
Lemma version_text : forall v, 0 <= v < 2 ^ 32 -> exists s, version_display v = ("0x" ++ s)%string /\
  String.length s = 8%nat /\ numeral_value 0 s = Some v.
Proof.
  intros v V. exists (fmt_0nx 8 v). split; [reflexivity|]. apply fmt_0nx_value. exact V.
Qed.

Lemma long_types : forall v, 0 <= v <= 3 ->
  long_type_name v = nth (Z.to_nat v) ["initial"; "0-rtt"; "handshake"; "retry"]%string "unknown"%string.
Proof. intros v V. assert (C : v = 0 \/ v = 1 \/ v = 2 \/ v = 3) by lia. destruct C as [->|[->|[->| ->]]]; reflexivity. Qed.
Lemma header_bits : forall v, 0 <= v <= 1 ->
  header_form_name v = (if (v =? 0)%Z then "short" else "long")%string /\ (fixed_bit_name v = "1"%string <-> v = 1).
Proof.
  intros v V. assert (C : v = 0 \/ v = 1) by lia. destruct C as [->| ->]; (split; [reflexivity|]); split; intros E; try reflexivity; discriminate E.
Qed.
