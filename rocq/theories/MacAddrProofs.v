(** Proofs about MAC addresses. *)
From Coq Require Import String Ascii ZArith List Bool Lia ZifyBool ZifyNat.
From Verif Require Import Base MacAddr SpecMac.
Import ListNotations.
Open Scope Z_scope.
Ltac Zify.zify_post_hook ::= Z.to_euclidean_division_equations.

(** ** Digits *)

Lemma spells_digit : forall c d, spells c d -> to_digit16 c = Some (Z.of_nat d) /\ (d < 16)%nat.
Proof.
  intros c d. unfold spells, lower.
  do 16 (destruct d as [|d]; [cbn; intros [H|H]; inversion H; subst; (split; [reflexivity|lia])|]).
  cbn. destruct d; intros [H|H]; discriminate.
Qed.

Lemma digit_spells : forall c v, to_digit16 c = Some v -> exists d, v = Z.of_nat d /\ spells c d.
Proof.
  intros c v H. exists (Z.to_nat v).
  destruct c as [[] [] [] [] [] [] [] []]; vm_compute in H; try discriminate; inversion H; subst;
  (split; [reflexivity|]); first [left; reflexivity | right; reflexivity].
Qed.

Lemma digit_range : forall c v, to_digit16 c = Some v -> 0 <= v < 16.
Proof. intros c v H. apply digit_spells in H. destruct H as (d & -> & S). apply spells_digit in S. lia. Qed.

(** The value of a digit string without overflow. *)
Fixpoint hv (acc : Z) (s : string) : option Z :=
  match s with
  | EmptyString => Some acc
  | String c r => match to_digit16 c with Some d => hv (acc * 16 + d) r | None => None end
  end.

Lemma hv_mono : forall s acc v, 0 <= acc -> hv acc s = Some v -> acc <= v.
Proof.
  induction s as [|c s IH]; intros acc v A H; cbn [hv] in H.
  - inversion H. lia.
  - destruct (to_digit16 c) as [d|] eqn:E; [|discriminate]. apply digit_range in E. apply IH in H; lia.
Qed.

Lemma radix_hv : forall s acc v, 0 <= acc <= 255 ->
  (radix_digits acc s = Some v <-> hv acc s = Some v /\ v <= 255).
Proof.
  induction s as [|c s IH]; intros acc v A; cbn [hv radix_digits].
  - split; [intros H; inversion H; subst; split; [auto|lia]|tauto].
  - destruct (to_digit16 c) as [d|] eqn:E.
    + assert (D := digit_range _ _ E). destruct (255 <? acc * 16) eqn:F1.
      * split; [discriminate|]. intros [H L]. apply hv_mono in H; lia.
      * destruct (255 <? acc * 16 + d) eqn:F2.
        -- split; [discriminate|]. intros [H L]. apply hv_mono in H; lia.
        -- apply IH. lia.
    + destruct (255 <? acc * 16); split; try discriminate; intros [H _]; discriminate.
Qed.

Lemma hv_app : forall s t acc, hv acc (s ++ t) = match hv acc s with Some v => hv v t | None => None end.
Proof.
  induction s as [|c s IH]; intros t acc; [reflexivity|]. cbn [append hv]. destruct (to_digit16 c); auto.
Qed.

Lemma digits_hv : forall s v, digits s v -> hv 0 s = Some v /\ s <> EmptyString.
Proof.
  intros s v D. induction D as [c d S|s v c d D [IH NE] S].
  - apply spells_digit in S. destruct S as [S _]. cbn [hv]. rewrite S. split; [f_equal; lia|discriminate].
  - apply spells_digit in S. destruct S as [S _]. rewrite hv_app, IH. cbn [hv]. rewrite S.
    split; [f_equal; lia|]. destruct s; discriminate.
Qed.

Lemma string_snoc : forall s : string, s = EmptyString \/ exists t c, s = (t ++ String c "")%string.
Proof.
  induction s as [|c s IH]; [auto|]. right. destruct IH as [->|(t & d & ->)].
  - exists EmptyString, c. reflexivity.
  - exists (String c t), d. reflexivity.
Qed.

Lemma append_length : forall s t, String.length (s ++ t) = (String.length s + String.length t)%nat.
Proof. induction s; intros; cbn [append String.length]; [auto|]. now rewrite IHs. Qed.

Lemma hv_digits : forall n s v, (String.length s <= n)%nat -> s <> EmptyString -> hv 0 s = Some v -> digits s v.
Proof.
  induction n as [|n IH]; intros s v L NE H.
  - destruct s; [congruence|cbn in L; lia].
  - destruct (string_snoc s) as [->|(t & c & ->)]; [congruence|].
    rewrite hv_app in H. destruct (hv 0 t) as [x|] eqn:E; [|discriminate]. cbn [hv] in H.
    destruct (to_digit16 c) as [d|] eqn:F; [|discriminate]. inversion H; subst.
    apply digit_spells in F. destruct F as (k & -> & S).
    destruct t as [|a t].
    + cbn in E. inversion E; subst. cbn [append]. replace (0 * 16 + Z.of_nat k) with (Z.of_nat k) by lia. now constructor.
    + replace (x * 16 + Z.of_nat k) with (16 * x + Z.of_nat k) by lia. constructor; auto.
      apply IH; auto; [|discriminate]. rewrite append_length in L. cbn [String.length] in *. lia.
Qed.

Lemma digits_iff : forall s v, digits s v <-> s <> EmptyString /\ hv 0 s = Some v.
Proof.
  intros s v. split; intros H.
  - apply digits_hv in H. tauto.
  - destruct H. eapply hv_digits; eauto.
Qed.

Lemma plus_no_digits : forall t v, ~ digits (String "+" t) v.
Proof. intros t v D. apply digits_iff in D. destruct D as [_ D]. cbn in D. discriminate. Qed.

Lemma from_str_radix_octet : forall s v, from_str_radix s = Some v <-> octet s v.
Proof.
  assert (R : forall s v, s <> EmptyString -> (radix_digits 0 s = Some v <-> digits s v /\ v < 256)).
  { intros s v NE. rewrite radix_hv by lia. rewrite digits_iff. intuition lia. }
  intros s v. unfold octet. destruct s as [|c r].
  - cbn. split; [discriminate|]. intros [_ [D|(t & E & _)]]; [|discriminate]. apply digits_hv in D. tauto.
  - unfold from_str_radix. destruct (Ascii.eqb_spec c "+") as [->|NP].
    + destruct r as [|c' r'].
      * cbn [orb Ascii.eqb]. split; [discriminate|]. intros [_ [D|(t & E & D)]].
        -- now apply plus_no_digits in D.
        -- inversion E; subst. apply digits_hv in D. tauto.
      * cbn [orb]. rewrite R by discriminate. split.
        -- intros [D L]. split; [auto|]. right. eauto.
        -- intros [L [D|(t & E & D)]]; [now apply plus_no_digits in D|]. inversion E; subst. auto.
    + assert (Y : (radix_digits 0 (String c r) = Some v) <->
                  (v < 256 /\ (digits (String c r) v \/ exists t, String c r = String "+" t /\ digits t v))).
      { rewrite R by discriminate. split; [tauto|]. intros [L [D|(t & E & D)]]; [tauto|]. inversion E. congruence. }
      destruct r as [|c' r']; [|exact Y]. cbn [orb].
      destruct (Ascii.eqb_spec c "-") as [->|NM]; [|exact Y].
      rewrite <- Y. cbn. tauto.
Qed.

Lemma octet_range : forall s v, octet s v -> 0 <= v < 256.
Proof.
  intros s v [L [D|(t & _ & D)]]; apply digits_hv in D; destruct D as [D _]; apply hv_mono in D; lia.
Qed.

(** ** Splitting at colons *)

Lemma no_colon_cons : forall c s, no_colon (String c s) <-> c <> ":"%char /\ no_colon s.
Proof.
  intros c s. split.
  - intros H. split; [intros ->; apply (H 0%nat); reflexivity|]. intros i. exact (H (S i)).
  - intros [N H] [|i]; cbn; [congruence|apply H].
Qed.
Lemma no_colon_empty : no_colon EmptyString.
Proof. intros [|i]; discriminate. Qed.

Lemma split_nonempty : forall s, split_colon s <> [].
Proof.
  induction s as [|c s IH]; [discriminate|]. cbn [split_colon]. destruct (c =? ":")%char; [discriminate|].
  destruct (split_colon s); discriminate.
Qed.

Lemma concat_cons : forall c h t, String.concat ":" (String c h :: t) = String c (String.concat ":" (h :: t)).
Proof. intros c h t. destruct t; reflexivity. Qed.

Lemma split_pieces : forall s, pieces s (split_colon s).
Proof.
  induction s as [|c s (NE & F & E)].
  - split; [discriminate|]. split; [|reflexivity]. constructor; [apply no_colon_empty|constructor].
  - cbn [split_colon]. destruct (Ascii.eqb_spec c ":") as [->|N].
    + split; [discriminate|]. split; [constructor; [apply no_colon_empty|auto]|].
      destruct (split_colon s) as [|h t]; [congruence|].
      change (String.concat ":" (EmptyString :: h :: t)) with (String ":" (String.concat ":" (h :: t))). now rewrite <- E.
    + destruct (split_colon s) as [|h t]; [congruence|]. split; [discriminate|].
      inversion F; subst. split; [constructor; auto; now apply no_colon_cons|].
      now rewrite concat_cons.
Qed.

Lemma pieces_split : forall l s, pieces s l -> split_colon s = l.
Proof.
  induction l as [|x l IH]; intros s (NE & F & E); [congruence|]. subst s. inversion F as [|? ? NX FL]; subst. clear NE F.
  induction x as [|c x IHx].
  - destruct l as [|y l]; [reflexivity|].
    change (String.concat ":" (EmptyString :: y :: l)) with (String ":" (String.concat ":" (y :: l))).
    cbn [split_colon Ascii.eqb Bool.eqb]. f_equal. apply IH. split; [discriminate|]. auto.
  - apply no_colon_cons in NX. destruct NX as [N NX]. rewrite concat_cons. cbn [split_colon].
    destruct (Ascii.eqb_spec c ":") as [->|_]; [congruence|]. rewrite IHx by auto. reflexivity.
Qed.

Lemma digits_no_colon : forall s v, hv 0 s = Some v -> no_colon s.
Proof.
  intros s. generalize 0. induction s as [|c s IH]; intros a v H; [apply no_colon_empty|].
  cbn [hv] in H. destruct (to_digit16 c) as [d|] eqn:E; [|discriminate]. apply no_colon_cons. split; [|eauto].
  intros ->. discriminate.
Qed.
Lemma octet_no_colon : forall s v, octet s v -> no_colon s.
Proof.
  intros s v [_ [D|(t & -> & D)]]; apply digits_hv in D; destruct D as [D _]; apply digits_no_colon in D; auto.
  apply no_colon_cons. split; [discriminate|auto].
Qed.

(** ** The loop *)

Definition octets (l : list string) (vs : list Z) : Prop := Forall2 octet l vs.

Lemma octet_len : forall s v, octet s v -> negb (String.length s =? 0)%nat = true.
Proof. intros s v H. apply from_str_radix_octet in H. destruct s; [discriminate|reflexivity]. Qed.

Lemma pieces_run : forall l vs parts, octets l vs -> (length parts + length l <= 6)%nat ->
  forall r, mac_pieces (l ++ r) parts = mac_pieces r (parts ++ vs).
Proof.
  intros l vs parts H. revert parts. induction H as [|s v l vs O H IH]; intros parts L r.
  - cbn [app]. now rewrite app_nil_r.
  - cbn [app mac_pieces]. cbn [length] in L. replace (length parts =? 6)%nat with false by lia.
    rewrite (octet_len _ _ O). apply from_str_radix_octet in O. rewrite O.
    rewrite IH by (rewrite app_length; cbn [length]; lia). rewrite <- app_assoc. reflexivity.
Qed.

Definition valid (s : string) : Prop := exists v, octet s v.
Lemma valid_dec : forall s, valid s \/ ~ valid s.
Proof.
  intros s. destruct (from_str_radix s) as [v|] eqn:E.
  - left. exists v. now apply from_str_radix_octet.
  - right. intros [v H]. apply from_str_radix_octet in H. congruence.
Qed.

Lemma pieces_bad : forall s parts r, ~ valid s -> (length parts < 6)%nat -> mac_pieces (s :: r) parts = inr InvalidComponent.
Proof.
  intros s parts r H L. cbn [mac_pieces]. replace (length parts =? 6)%nat with false by lia.
  destruct (from_str_radix s) as [v|] eqn:E; [|reflexivity]. exfalso. apply H. exists v. now apply from_str_radix_octet.
Qed.

(** The valid components at the front. *)
Lemma front : forall n l, (exists k s vs r, l = k ++ s :: r /\ octets k vs /\ ~ valid s /\ (length k < n)%nat) \/
  (exists k vs r, l = k ++ r /\ octets k vs /\ (length k = n \/ ((length k < n)%nat /\ r = []))).
Proof.
  induction n as [|n IH]; intros l.
  - right. exists [], [], l. repeat split; auto. constructor.
  - destruct l as [|s l].
    + right. exists [], [], []. repeat split; auto; [constructor|]. right. cbn. split; [lia|auto].
    + destruct (valid_dec s) as [[v V]|NV].
      * destruct (IH l) as [(k & t & vs & r & -> & O & B & L)|(k & vs & r & -> & O & L)].
        -- left. exists (s :: k), t, (v :: vs), r. repeat split; auto; [constructor; auto|cbn; lia].
        -- right. exists (s :: k), (v :: vs), r. repeat split; auto; [constructor; auto|]. cbn [length]. destruct L as [L|[L ->]]; [left; lia|right; split; [lia|auto]].
      * left. exists [], s, [], l. repeat split; auto; [constructor|cbn; lia].
Qed.

Lemma mac_six : forall vs : list Z, length vs = 6%nat -> exists a b c d e f, vs = [a; b; c; d; e; f].
Proof. intros vs L. do 7 (destruct vs as [|? vs]; try discriminate). repeat eexists. Qed.

Lemma mac_short : forall parts : list Z, (length parts < 6)%nat -> mac_pieces [] parts = inr TooFewComponents.
Proof. intros parts L. do 6 (destruct parts as [|? parts]; [reflexivity|]). cbn [length] in L. lia. Qed.

Lemma octets_length : forall l vs, octets l vs -> length l = length vs.
Proof. intros l vs H. induction H; cbn [length]; congruence. Qed.

(** Everything the parser does. *)
Lemma mac_pieces_cases : forall l,
  (exists k s vs r, l = k ++ s :: r /\ octets k vs /\ ~ valid s /\ (length k < 6)%nat /\ mac_pieces l [] = inr InvalidComponent) \/
  (exists k vs r, l = k ++ r /\ octets k vs /\ length k = 6%nat /\ r <> [] /\ mac_pieces l [] = inr TooManyComponents) \/
  (exists vs, octets l vs /\ (length l < 6)%nat /\ mac_pieces l [] = inr TooFewComponents) \/
  (exists a b c d e f, octets l [a; b; c; d; e; f] /\ mac_pieces l [] = inl (MacAddr a b c d e f)).
Proof.
  intros l. destruct (front 6 l) as [(k & s & vs & r & -> & O & B & L)|(k & vs & r & -> & O & [L|[L ->]])].
  - left. exists k, s, vs, r. repeat split; auto. rewrite (pieces_run k vs) by (auto; cbn; lia).
    apply pieces_bad; auto. cbn [app]. rewrite <- (octets_length _ _ O). lia.
  - assert (LV := octets_length _ _ O). destruct r as [|s r].
    + right. right. right. destruct (mac_six vs) as (a & b & c & d & e & f & ->); [lia|].
      exists a, b, c, d, e, f. rewrite app_nil_r. split; auto.
      rewrite <- (app_nil_r k). rewrite (pieces_run k _ [] O) by (cbn; lia). reflexivity.
    + right. left. exists k, vs, (s :: r). repeat split; auto; [discriminate|].
      rewrite (pieces_run k vs) by (auto; cbn; lia). cbn [app mac_pieces]. rewrite <- LV, L. reflexivity.
  - right. right. left. exists vs. rewrite app_nil_r. repeat split; auto.
    rewrite <- (app_nil_r k). rewrite (pieces_run k vs) by (auto; cbn; lia). apply mac_short. cbn [app].
    rewrite <- (octets_length _ _ O). lia.
Qed.

Lemma octet_fun : forall s v w, octet s v -> octet s w -> v = w.
Proof. intros s v w A B. apply from_str_radix_octet in A, B. congruence. Qed.
Lemma octets_fun : forall l vs ws, octets l vs -> octets l ws -> vs = ws.
Proof.
  intros l vs ws H. revert ws. induction H; intros ws K; inversion K; subst; [auto|]. f_equal; auto. eapply octet_fun; eauto.
Qed.

Theorem from_str_iff : forall s a b c d e f,
  mac_from_str s = inl (MacAddr a b c d e f) <->
  exists l, s = String.concat ":" l /\ Forall2 octet l [a; b; c; d; e; f].
Proof.
  intros s a b c d e f. split; intros H.
  - exists (split_colon s). destruct (split_pieces s) as (_ & _ & E). split; [exact E|].
    unfold mac_from_str in H.
    destruct (mac_pieces_cases (split_colon s)) as [(? & ? & ? & ? & _ & _ & _ & _ & X)|[(? & ? & ? & _ & _ & _ & _ & X)|[(? & _ & _ & X)|(a' & b' & c' & d' & e' & f' & O & X)]]];
    rewrite X in H; try discriminate. inversion H; subst. exact O.
  - destruct H as (l & -> & O). unfold mac_from_str. rewrite (pieces_split l).
    + rewrite <- (app_nil_r l). rewrite (pieces_run l _ [] O); [reflexivity|]. apply octets_length in O. rewrite O. cbn. lia.
    + split; [intros ->; inversion O|]. split; [|reflexivity].
      clear - O. induction O; constructor; auto. eapply octet_no_colon; eauto.
Qed.

(** The three errors. *)
Lemma octets_nth : forall k vs, octets k vs -> forall i s, nth_error k i = Some s -> valid s.
Proof.
  intros k vs H. induction H; intros [|i] s E; cbn in E; try discriminate.
  - inversion E; subst. eexists; eauto.
  - eauto.
Qed.

Lemma nth_error_mid : forall (A : Type) (k : list A) s r i x, nth_error (k ++ s :: r) i = Some x -> (i < length k)%nat -> nth_error k i = Some x.
Proof. intros A k s r i x H L. now rewrite nth_error_app1 in H by auto. Qed.

Theorem from_str_errors : forall s l, pieces s l ->
  (mac_from_str s = inr InvalidComponent <->
     exists i x, (i < 6)%nat /\ nth_error l i = Some x /\ ~ exists v, octet x v) /\
  (mac_from_str s = inr TooManyComponents <->
     (6 < length l)%nat /\ forall i x, (i < 6)%nat -> nth_error l i = Some x -> exists v, octet x v) /\
  (mac_from_str s = inr TooFewComponents <->
     (length l < 6)%nat /\ forall i x, nth_error l i = Some x -> exists v, octet x v).
Proof.
  intros s l P. unfold mac_from_str. rewrite (pieces_split _ _ P). clear P s.
  destruct (mac_pieces_cases l) as [(k & s & vs & r & -> & O & B & L & X)|[(k & vs & r & -> & O & L & NR & X)|[(vs & O & L & X)|(a & b & c & d & e & f & O & X)]]]; rewrite X.
  - assert (N : nth_error (k ++ s :: r) (length k) = Some s) by (rewrite nth_error_app2, Nat.sub_diag by lia; reflexivity).
    split; [|split]; split; intros H; auto; try discriminate.
    + exists (length k), s. auto.
    + exfalso. apply B. destruct H as [_ H]. eapply H; eauto.
    + exfalso. apply B. destruct H as [_ H]. eapply H; eauto.
  - assert (LR : (0 < length r)%nat) by (destruct r; [congruence|cbn; lia]).
    assert (V : forall i x, (i < 6)%nat -> nth_error (k ++ r) i = Some x -> valid x).
    { intros i x I E. rewrite nth_error_app1 in E by lia. eapply octets_nth; eauto. }
    split; [|split]; split; intros H; auto; try discriminate.
    + destruct H as (i & x & I & E & NV). exfalso. apply NV. eapply V; eauto.
    + split; [rewrite app_length; lia|]. exact V.
    + destruct H as [H _]. rewrite app_length in H. lia.
  - assert (V := octets_nth _ _ O). split; [|split]; split; intros H; auto; try discriminate.
    + destruct H as (i & x & I & E & NV). exfalso. apply NV. eapply V; eauto.
    + lia.
  - assert (V := octets_nth _ _ O). assert (L := octets_length _ _ O). cbn [length] in L.
    split; [|split]; split; intros H; try discriminate.
    + destruct H as (i & x & I & E & NV). exfalso. apply NV. eapply V; eauto.
    + lia.
    + lia.
Qed.

(** ** Printing *)

Lemma hex_digit_lower : forall d, 0 <= d < 16 -> lower (hex_digit d) (Z.to_nat d).
Proof.
  intros d D. assert (C : In d [0;1;2;3;4;5;6;7;8;9;10;11;12;13;14;15]) by (cbn [In]; lia).
  cbn [In] in C. repeat (destruct C as [<-|C]; [reflexivity|]). destruct C.
Qed.

Lemma fmt_pair : forall x, byte_ok x -> pair_of (fmt_02x x) x.
Proof.
  intros x X. unfold byte_ok in X. exists (hex_digit (x / 16)), (hex_digit (x mod 16)), (Z.to_nat (x / 16)), (Z.to_nat (x mod 16)).
  split; [reflexivity|]. split; [apply hex_digit_lower; lia|]. split; [apply hex_digit_lower; lia|]. lia.
Qed.

Lemma pair_octet : forall s x, byte_ok x -> pair_of s x -> octet s x.
Proof.
  intros s x X (c1 & c2 & d1 & d2 & -> & L1 & L2 & ->). split; [unfold byte_ok in X; lia|]. left.
  change (String c1 (String c2 "")) with (String c1 "" ++ String c2 "")%string. constructor; [|now left].
  constructor. now left.
Qed.

Lemma display_concat : forall m, mac_display m =
  String.concat ":" [fmt_02x (mac0 m); fmt_02x (mac1 m); fmt_02x (mac2 m); fmt_02x (mac3 m); fmt_02x (mac4 m); fmt_02x (mac5 m)].
Proof. intros [a b c d e f]. reflexivity. Qed.

Theorem display_parse : forall m, mac_ok m -> mac_from_str (mac_display m) = inl m.
Proof.
  intros [a b c d e f] (A & B & C & D & E & F). cbn [mac0 mac1 mac2 mac3 mac4 mac5] in *.
  apply from_str_iff. eexists. split; [apply display_concat|]. cbn [mac0 mac1 mac2 mac3 mac4 mac5].
  repeat (apply Forall2_cons; [apply pair_octet; [assumption|now apply fmt_pair]|]). apply Forall2_nil.
Qed.

Theorem display_shape : forall m, mac_ok m -> String.length (mac_display m) = 17%nat /\
  exists p0 p1 p2 p3 p4 p5, mac_display m = String.concat ":" [p0; p1; p2; p3; p4; p5] /\
    pair_of p0 (mac0 m) /\ pair_of p1 (mac1 m) /\ pair_of p2 (mac2 m) /\
    pair_of p3 (mac3 m) /\ pair_of p4 (mac4 m) /\ pair_of p5 (mac5 m).
Proof.
  intros m (A & B & C & D & E & F). split; [destruct m; reflexivity|].
  do 6 eexists. split; [apply display_concat|]. repeat split; now apply fmt_pair.
Qed.

Theorem display_injective : forall m n, mac_ok m -> mac_ok n -> mac_display m = mac_display n -> m = n.
Proof. intros m n M N E. apply display_parse in M, N. rewrite E in M. congruence. Qed.

(** Non-canonical spellings. *)
Lemma zeros_digits : forall k s v, digits s v -> digits (zeros k ++ s) v.
Proof.
  intros k s v D. apply digits_iff in D. destruct D as [NE D]. apply digits_iff. split.
  - destruct k; [exact NE|discriminate].
  - rewrite hv_app. replace (hv 0 (zeros k)) with (Some 0); [exact D|].
    induction k; [reflexivity|]. cbn [zeros hv to_digit16]. exact IHk.
Qed.

Lemma zeros_length : forall k, String.length (zeros k) = k.
Proof. induction k; cbn [zeros String.length]; auto. Qed.

Lemma Forall2_impl_in : forall (A B : Type) (P Q : A -> B -> Prop) l k,
  Forall2 P l k -> (forall x y, P x y -> Q x y) -> Forall2 Q l k.
Proof. intros A B P Q l k H I. induction H; constructor; auto. Qed.
Lemma Forall2_map_l : forall (A A' B : Type) (g : A -> A') (P : A' -> B -> Prop) l k,
  Forall2 (fun x y => P (g x) y) l k -> Forall2 P (map g l) k.
Proof. intros A A' B g P l k H. induction H; cbn [map]; constructor; auto. Qed.

Lemma Forall2_len : forall (A B : Type) (P : A -> B -> Prop) l k, Forall2 P l k -> length l = length k.
Proof. intros A B P l k H. induction H; cbn [length]; congruence. Qed.

(** ** Predicates *)

Lemma land_bit : forall x k, 0 <= k -> (Z.land x (2 ^ k) =? 2 ^ k) = Z.testbit x k.
Proof.
  intros x k K. destruct (Z.testbit x k) eqn:E.
  - apply Z.eqb_eq. apply Z.bits_inj'. intros n N. rewrite Z.land_spec, Z.pow2_bits_eqb by auto.
    destruct (k =? n) eqn:Q; [|apply andb_false_r]. apply Z.eqb_eq in Q. subst. now rewrite E.
  - apply Z.eqb_neq. intros H. assert (X := f_equal (fun z => Z.testbit z k) H). cbv beta in X.
    rewrite Z.land_spec, Z.pow2_bits_true, E in X by auto. discriminate.
Qed.

Theorem mac_bits : forall m, is_multicast m = Z.testbit (mac0 m) 0 /\ is_local m = Z.testbit (mac0 m) 1 /\
  is_unicast m = negb (Z.testbit (mac0 m) 0) /\ is_universal m = negb (Z.testbit (mac0 m) 1).
Proof.
  intros m. unfold is_unicast, is_universal, is_multicast, is_local, MULTICAST_ADDR_BIT, LOCAL_ADDR_BIT.
  assert (A := land_bit (mac0 m) 0 ltac:(lia)). assert (B := land_bit (mac0 m) 1 ltac:(lia)).
  change (2 ^ 0) with 1 in A. change (2 ^ 1) with 2 in B. rewrite A, B. auto.
Qed.

Lemma mac_eqb_iff : forall x y, mac_eqb x y = true <-> x = y.
Proof.
  intros [a b c d e f] [a' b' c' d' e' f']. unfold mac_eqb. cbn [mac0 mac1 mac2 mac3 mac4 mac5].
  rewrite !andb_true_iff, !Z.eqb_eq. split; [intros (((((-> & ->) & ->) & ->) & ->) & ->); auto|]. intros H; inversion H; tauto.
Qed.

Theorem mac_special : forall m,
  (is_zero m = true <-> mac_to_array m = [0; 0; 0; 0; 0; 0]) /\
  (is_broadcast m = Ok true <-> mac_to_array m = [255; 255; 255; 255; 255; 255]) /\
  (exists b, is_broadcast m = Ok b) /\
  (is_zero m = true -> is_unicast m = true /\ is_universal m = true /\ is_broadcast m = Ok false) /\
  (is_broadcast m = Ok true -> is_multicast m = true /\ is_local m = true /\ is_zero m = false).
Proof.
  intros m.
  assert (B : is_broadcast m = Ok (mac_eqb m (MacAddr 255 255 255 255 255 255))) by reflexivity.
  assert (Zq : is_zero m = true <-> m = mac_zero) by apply mac_eqb_iff.
  assert (Bq : is_broadcast m = Ok true <-> m = MacAddr 255 255 255 255 255 255).
  { rewrite B, <- mac_eqb_iff. split; congruence. }
  assert (AR : forall x y, mac_to_array x = mac_to_array y <-> x = y).
  { intros [a b c d e f] [a' b' c' d' e' f']. cbn. split; [intros H; inversion H; auto|congruence]. }
  split; [rewrite Zq, <- AR; reflexivity|]. split; [rewrite Bq, <- AR; reflexivity|].
  split; [eauto|]. split.
  - intros H. apply Zq in H. subst. auto.
  - intros H. apply Bq in H. subst. auto.
Qed.

(** ** Conversions *)
Theorem array_roundtrip : (forall m, mac_from_array (mac_to_array m) = Ok m) /\
  (forall a : buf, length a = 6%nat -> exists m, mac_from_array a = Ok m /\ mac_to_array m = a) /\
  (forall m (a : buf), length a = 6%nat -> exists b, mac_eq_array m a = Ok b /\ (b = true <-> mac_to_array m = a)).
Proof.
  split; [intros [a b c d e f]; reflexivity|].
  assert (X : forall a : buf, length a = 6%nat -> exists m, mac_from_array a = Ok m /\ mac_to_array m = a).
  { intros a L. do 7 (destruct a as [|? a]; try discriminate). eexists. split; reflexivity. }
  split; [exact X|]. intros m a L. destruct (X a L) as (n & E & A). unfold mac_eq_array. rewrite E. cbn [bind].
  exists (mac_eqb m n). split; [auto|]. rewrite mac_eqb_iff, <- A.
  destruct m as [m0 m1 m2 m3 m4 m5], n as [n0 n1 n2 n3 n4 n5]. cbn. split; [congruence|]. intros H; inversion H; auto.
Qed.

Theorem serde_roundtrip : forall h m, mac_ok m -> mac_visit (mac_serialize h m) = Some m.
Proof.
  intros h m M. destruct h; cbn [mac_serialize mac_visit].
  - now rewrite display_parse.
  - destruct m. reflexivity.
Qed.

Theorem serde_bytes : forall b : buf, (length b <> 6%nat -> mac_visit (SBytes b) = None) /\
  (length b = 6%nat -> exists m, mac_visit (SBytes b) = Some m /\ mac_to_array m = b).
Proof.
  intros b. cbn [mac_visit]. unfold blen. split; intros L.
  - now replace (Z.of_nat (length b) =? 6) with false by lia.
  - rewrite L. destruct array_roundtrip as (_ & X & _). destruct (X b L) as (m & E & A). rewrite E. exists m. split; [reflexivity|exact A].
Qed.

Theorem pieces_exist : forall s, exists l, pieces s l /\ forall k, pieces s k -> k = l.
Proof.
  intros s. exists (split_colon s). split; [apply split_pieces|]. intros k K. apply pieces_split in K. auto.
Qed.

Lemma any_pair_digits : forall s v, any_pair s v -> digits s v /\ v < 256.
Proof.
  intros s v (c1 & c2 & d1 & d2 & -> & A & B & ->).
  assert (P := spells_digit _ _ A). assert (Q := spells_digit _ _ B). split; [|lia].
  change (String c1 (String c2 "")) with (String c1 "" ++ String c2 "")%string. constructor; auto. now constructor.
Qed.

(** Either case, an optional plus sign and any number of leading zeros. *)
Theorem loose_parse : forall ps m k, Forall2 any_pair ps (mac_to_array m) ->
  mac_from_str (String.concat ":" ps) = inl m /\
  mac_from_str (String.concat ":" (map (fun p => zeros k ++ p)%string ps)) = inl m /\
  mac_from_str (String.concat ":" (map (fun p => String "+" (zeros k ++ p))%string ps)) = inl m.
Proof.
  intros l [a b c d e f] k H. cbn [mac_to_array mac0 mac1 mac2 mac3 mac4 mac5] in H.
  assert (Z0 : Forall2 octet l [a; b; c; d; e; f]).
  { eapply Forall2_impl_in; [exact H|]. intros s v A. apply any_pair_digits in A. destruct A. split; auto. }
  assert (Z1 : Forall2 octet (map (fun p => zeros k ++ p)%string l) [a; b; c; d; e; f]).
  { apply Forall2_map_l. eapply Forall2_impl_in; [exact H|]. intros s v A. apply any_pair_digits in A. destruct A.
    split; auto. left. now apply zeros_digits. }
  assert (Z2 : Forall2 octet (map (fun p => String "+" (zeros k ++ p))%string l) [a; b; c; d; e; f]).
  { apply Forall2_map_l. eapply Forall2_impl_in; [exact H|]. intros s v A. apply any_pair_digits in A. destruct A.
    split; auto. right. eexists. split; [reflexivity|]. now apply zeros_digits. }
  repeat split; apply from_str_iff; eexists; (split; [reflexivity|assumption]).
Qed.

Theorem spellings_differ : forall m ps, Forall2 any_pair ps (mac_to_array m) -> forall k j, k <> j ->
  String.concat ":" (map (fun p => String "+" (zeros k ++ p))%string ps) <>
  String.concat ":" (map (fun p => String "+" (zeros j ++ p))%string ps).
Proof.
  intros [a b c d e f] ps H k j N E. apply (f_equal String.length) in E.
  cbn [mac_to_array mac0 mac1 mac2 mac3 mac4 mac5] in H.
  assert (L : length ps = 6%nat) by exact (Forall2_len _ _ _ _ _ H).
  do 7 (destruct ps as [|? ps]; try discriminate).
  cbn [map String.concat] in E.
  repeat (rewrite ?append_length in E; cbn [String.length append] in E; rewrite ?zeros_length in E). lia.
Qed.

(** ** Order *)

Lemma then_cmp_lex : forall a b A B k, 0 <= a < k -> 0 <= b < k ->
  then_cmp (A ?= B) (a ?= b) = (k * A + a ?= k * B + b).
Proof.
  intros a b A B k Ha Hb. unfold then_cmp. destruct (Z.compare_spec A B) as [E|E|E].
  - subst. destruct (Z.compare_spec a b); symmetry; [apply Z.compare_eq_iff|apply Z.compare_lt_iff|apply Z.compare_gt_iff]; lia.
  - symmetry. apply Z.compare_lt_iff. nia.
  - symmetry. apply Z.compare_gt_iff. nia.
Qed.

Theorem mac_cmp_number : forall x y, mac_ok x -> mac_ok y -> mac_cmp x y = (mac_number x ?= mac_number y).
Proof.
  intros x y (X0 & X1 & X2 & X3 & X4 & X5) (Y0 & Y1 & Y2 & Y3 & Y4 & Y5). unfold byte_ok, mac_cmp in *.
  rewrite (then_cmp_lex (mac5 x) (mac5 y) _ _ 256) by lia.
  rewrite (then_cmp_lex _ _ _ _ (2 ^ 16)) by lia. rewrite (then_cmp_lex _ _ _ _ (2 ^ 24)) by lia.
  rewrite (then_cmp_lex _ _ _ _ (2 ^ 32)) by lia. rewrite (then_cmp_lex _ _ _ _ (2 ^ 40)) by lia.
  f_equal; unfold mac_number; lia.
Qed.

Theorem mac_cmp_eq : forall x y, mac_cmp x y = Eq <-> mac_eqb x y = true.
Proof.
  intros x y. unfold mac_cmp, mac_eqb, then_cmp. rewrite !andb_true_iff, !Z.eqb_eq. split.
  - intros H. repeat match goal with H : context [?a ?= ?b] |- _ => destruct (Z.compare_spec a b); try discriminate H end. tauto.
  - intros (((((-> & ->) & ->) & ->) & ->) & ->). rewrite !Z.compare_refl. reflexivity.
Qed.

Lemma hex_cmp : forall a b, 0 <= a < 16 -> 0 <= b < 16 -> Ascii.compare (hex_digit a) (hex_digit b) = (a ?= b).
Proof.
  assert (X : forallb (fun i => forallb (fun j => match Ascii.compare (hex_digit (Z.of_nat i)) (hex_digit (Z.of_nat j)), (Z.of_nat i ?= Z.of_nat j) with
    | Eq, Eq | Lt, Lt | Gt, Gt => true | _, _ => false end) (seq 0 16)) (seq 0 16) = true) by (vm_compute; reflexivity).
  intros a b A B. rewrite forallb_forall in X. specialize (X (Z.to_nat a) ltac:(apply in_seq; lia)).
  rewrite forallb_forall in X. specialize (X (Z.to_nat b) ltac:(apply in_seq; lia)).
  rewrite !Z2Nat.id in X by lia. destruct (Ascii.compare _ _), (a ?= b); congruence.
Qed.

Lemma fmt_cmp : forall a b r s, byte_ok a -> byte_ok b ->
  String.compare (fmt_02x a ++ r) (fmt_02x b ++ s) = then_cmp (a ?= b) (String.compare r s).
Proof.
  intros a b r s A B. unfold byte_ok in *. unfold fmt_02x. cbn [append String.compare].
  rewrite !hex_cmp by lia.
  replace (a ?= b) with (then_cmp (a / 16 ?= b / 16) (a mod 16 ?= b mod 16)).
  - unfold then_cmp. destruct (a / 16 ?= b / 16); destruct (a mod 16 ?= b mod 16); reflexivity.
  - rewrite (then_cmp_lex _ _ _ _ 16) by lia. f_equal; lia.
Qed.

Lemma colon_cmp : forall r s, String.compare (":" ++ r) (":" ++ s) = String.compare r s.
Proof. reflexivity. Qed.

Theorem mac_cmp_text : forall x y, mac_ok x -> mac_ok y -> mac_cmp x y = String.compare (mac_display x) (mac_display y).
Proof.
  intros x y (X0 & X1 & X2 & X3 & X4 & X5) (Y0 & Y1 & Y2 & Y3 & Y4 & Y5). unfold mac_display, mac_cmp.
  do 5 (rewrite fmt_cmp, colon_cmp by assumption; f_equal).
  assert (E : forall s, fmt_02x s = (fmt_02x s ++ "")%string) by reflexivity.
  rewrite (E (mac5 x)), (E (mac5 y)), fmt_cmp by assumption. unfold then_cmp. destruct (_ ?= _); reflexivity.
Qed.

Theorem mac_cmp_ends : forall m, mac_ok m -> mac_cmp mac_zero m <> Gt /\
  exists b, mac_broadcast = Ok b /\ mac_cmp m b <> Gt.
Proof.
  intros m M. split.
  - rewrite mac_cmp_number; [|repeat split; unfold byte_ok; cbn; lia|auto].
    destruct M as (M0 & M1 & M2 & M3 & M4 & M5). unfold byte_ok in *. unfold mac_zero, mac_number. cbn [mac0 mac1 mac2 mac3 mac4 mac5].
    rewrite Z.compare_gt_iff. lia.
  - exists (MacAddr 255 255 255 255 255 255). split; [reflexivity|].
    rewrite mac_cmp_number; [|auto|repeat split; unfold byte_ok; cbn; lia].
    destruct M as (M0 & M1 & M2 & M3 & M4 & M5). unfold byte_ok in *. unfold mac_number. cbn [mac0 mac1 mac2 mac3 mac4 mac5].
    rewrite Z.compare_gt_iff. lia.
Qed.
