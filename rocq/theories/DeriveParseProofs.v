(** Proofs about the front end of the derive macro. *)
From Coq Require Import String Ascii ZArith List Bool Lia ZifyBool ZifyNat.
From Verif Require Import Base BaseFacts DeriveUtil DeriveUtilProofs DeriveLEProofs DeriveOps SpecPacket DerivePropProofs3 DeriveParse SpecParse.
Import ListNotations.
Open Scope Z_scope.
Ltac Zify.zify_post_hook ::= Z.to_euclidean_division_equations.

(** ** Strings *)

Lemma sapp_nil : forall s, (s ++ "")%string = s.
Proof. induction s; cbn [append]; congruence. Qed.
Lemma sapp_assoc : forall a b c, ((a ++ b) ++ c)%string = (a ++ b ++ c)%string.
Proof. induction a; intros; cbn [append]; congruence. Qed.
Lemma slen_app : forall a b, String.length (a ++ b) = (String.length a + String.length b)%nat.
Proof. induction a; intros; cbn [append String.length]; [auto|]. now rewrite IHa. Qed.
Lemma snoc : forall s : string, s = EmptyString \/ exists t c, s = (t ++ String c "")%string.
Proof.
  induction s as [|c s IH]; [auto|]. right. destruct IH as [->|(t & d & ->)].
  - exists EmptyString, c. reflexivity.
  - exists (String c t), d. reflexivity.
Qed.
Lemma substring_all : forall s, substring 0 (String.length s) s = s.
Proof. induction s; cbn [substring String.length]; congruence. Qed.
Lemma substring_app : forall a b, substring 0 (String.length a) (a ++ b) = a.
Proof. induction a; intros b; cbn [substring String.length append]; [destruct b; reflexivity|]. now rewrite IHa. Qed.

(** ** Digits *)

Lemma digit_get : forall c d, String.get d "0123456789" = Some c -> digit_val c = Some (Z.of_nat d).
Proof.
  intros c d. do 10 (destruct d as [|d]; [cbn; intros H; inversion H; subst; reflexivity|]).
  cbn. destruct d; discriminate.
Qed.
Lemma get_digit : forall c v, digit_val c = Some v -> exists d, v = Z.of_nat d /\ String.get d "0123456789" = Some c.
Proof.
  intros c v H. exists (Z.to_nat v).
  destruct c as [[] [] [] [] [] [] [] []]; vm_compute in H; try discriminate; inversion H; subst;
  (split; reflexivity).
Qed.
Lemma digit_val_range : forall c v, digit_val c = Some v -> 0 <= v < 10.
Proof. intros c v. unfold digit_val. destruct (_ && _) eqn:E; intros H; inversion H; lia. Qed.

(** Value without overflow. *)
Fixpoint dv (acc : Z) (s : string) : option Z :=
  match s with
  | EmptyString => Some acc
  | String c r => match digit_val c with Some d => dv (acc * 10 + d) r | None => None end
  end.
Lemma dv_mono : forall s acc v, 0 <= acc -> dv acc s = Some v -> acc <= v.
Proof.
  induction s as [|c s IH]; intros acc v A H; cbn [dv] in H.
  - inversion H. lia.
  - destruct (digit_val c) as [d|] eqn:E; [|discriminate]. apply digit_val_range in E. apply IH in H; lia.
Qed.
Lemma usize_dv : forall s acc v, 0 <= acc < 2 ^ 64 -> (usize_digits acc s = Some v <-> dv acc s = Some v /\ v < 2 ^ 64).
Proof.
  induction s as [|c s IH]; intros acc v A; cbn [dv usize_digits].
  - split; [intros H; inversion H; subst; split; [auto|lia]|tauto].
  - destruct (digit_val c) as [d|] eqn:E; [|split; [discriminate|intros [H _]; discriminate]].
    assert (D := digit_val_range _ _ E). destruct (2 ^ 64 <=? acc * 10) eqn:F1.
    + split; [discriminate|]. intros [H L]. apply dv_mono in H; lia.
    + destruct (2 ^ 64 <=? acc * 10 + d) eqn:F2.
      * split; [discriminate|]. intros [H L]. apply dv_mono in H; lia.
      * apply IH. lia.
Qed.
Lemma dv_app : forall s t acc, dv acc (s ++ t) = match dv acc s with Some v => dv v t | None => None end.
Proof. induction s as [|c s IH]; intros t acc; [reflexivity|]. cbn [append dv]. destruct (digit_val c); auto. Qed.

Lemma decimal_dv : forall s v, decimal s v <-> s <> EmptyString /\ dv 0 s = Some v.
Proof.
  intros s v. split.
  - intros D. induction D as [c d G|s v c d D [NE IH] G].
    + apply digit_get in G. cbn [dv]. rewrite G. split; [discriminate|f_equal; lia].
    + apply digit_get in G. rewrite dv_app, IH. cbn [dv]. rewrite G. split; [destruct s; discriminate|f_equal; lia].
  - enough (X : forall n s v, (String.length s <= n)%nat -> s <> EmptyString -> dv 0 s = Some v -> decimal s v)
      by (intros [A B]; eapply X; eauto).
    clear. induction n as [|n IH]; intros s v L NE H.
    + destruct s; [congruence|cbn in L; lia].
    + destruct (snoc s) as [->|(t & c & ->)]; [congruence|].
      rewrite dv_app in H. destruct (dv 0 t) as [x|] eqn:E; [|discriminate]. cbn [dv] in H.
      destruct (digit_val c) as [d|] eqn:F; [|discriminate]. inversion H; subst.
      apply get_digit in F. destruct F as (k & -> & G). destruct t as [|a t].
      * cbn in E. inversion E; subst. cbn [append]. replace (0 * 10 + Z.of_nat k) with (Z.of_nat k) by lia. now constructor.
      * replace (x * 10 + Z.of_nat k) with (10 * x + Z.of_nat k) by lia. constructor; auto.
        apply IH; auto; [|discriminate]. rewrite slen_app in L. cbn [String.length] in *. lia.
Qed.

Definition no_digit_head (t : string) : Prop := match t with EmptyString => True | String c _ => digit_val c = None end.

Lemma take_digits_app : forall d t v acc, dv acc d = Some v -> no_digit_head t -> take_digits (d ++ t) = (d, t).
Proof.
  induction d as [|c d IH]; intros t v acc H N.
  - cbn [append]. destruct t as [|a t]; [reflexivity|]. cbn [take_digits]. cbn in N. now rewrite N.
  - cbn [dv] in H. destruct (digit_val c) as [x|] eqn:E; [|discriminate]. cbn [append take_digits]. rewrite E.
    now rewrite (IH t v _ H N).
Qed.
Lemma take_digits_split : forall s d t, take_digits s = (d, t) -> s = (d ++ t)%string /\ exists v, dv 0 d = Some v.
Proof.
  assert (X : forall s d t acc, take_digits s = (d, t) -> s = (d ++ t)%string /\ exists v, dv acc d = Some v); [|eauto].
  induction s as [|c s IH]; intros d t acc H; cbn [take_digits] in H.
  - inversion H; subst. split; [reflexivity|]. exists acc. reflexivity.
  - destruct (digit_val c) as [x|] eqn:E.
    + destruct (take_digits s) as [d' t'] eqn:F. inversion H; subst. destruct (IH d' t (acc * 10 + x) eq_refl) as [-> [v V]].
      split; [reflexivity|]. exists v. cbn [dv]. now rewrite E.
    + inversion H; subst. split; [reflexivity|]. exists acc. reflexivity.
Qed.

Lemma ty_suffix_iff : forall t e g, ty_suffix t = Some (e, g) <-> suffix_of t e g.
Proof.
  intros t e g. unfold ty_suffix, suffix_of.
  destruct (String.eqb_spec t "") as [->|N0]; [split; [intros H; inversion H; auto|intros [(_ & -> & ->)|[(H & _)|[(H & _)|(H & _)]]]; [auto|discriminate..]]|].
  destruct (String.eqb_spec t "be") as [->|N1]; [split; [intros H; inversion H; auto|intros [(H & _)|[(_ & -> & ->)|[(H & _)|(H & _)]]]; [discriminate|auto|discriminate..]]|].
  destruct (String.eqb_spec t "he") as [->|N2]; [split; [intros H; inversion H; auto 10|intros [(H & _)|[(H & _)|[(H & _)|(_ & -> & ->)]]]; [discriminate..|auto]]|].
  destruct (String.eqb_spec t "le") as [->|N3]; [split; [intros H; inversion H; auto 10|intros [(H & _)|[(H & _)|[(_ & -> & ->)|(H & _)]]]; [discriminate..|auto|discriminate]]|].
  split; [discriminate|]. tauto.
Qed.
Lemma suffix_head : forall t e g, suffix_of t e g -> no_digit_head t.
Proof. intros t e g [(-> & _)|[(-> & _)|[(-> & _)|(-> & _)]]]; reflexivity. Qed.

Theorem parse_ty_iff : forall s n e g, parse_ty s = Some (n, e, g) <-> int_name s n e g.
Proof.
  intros s n e g. split.
  - unfold parse_ty. destruct s as [|c r]; [discriminate|].
    destruct (ascii_dec c "u") as [->|NU]; [|destruct c as [[] [] [] [] [] [] [] []]; try discriminate; exfalso; apply NU; reflexivity].
    destruct (take_digits r) as [d t] eqn:E. destruct (String.eqb_spec d "") as [->|NE]; [discriminate|].
    destruct (ty_suffix t) as [[e' g']|] eqn:F; [|discriminate].
    destruct (usize_digits 0 d) as [n'|] eqn:G; [|discriminate]. intros H; inversion H; subst.
    apply take_digits_split in E. destruct E as [-> _]. apply ty_suffix_iff in F. apply usize_dv in G; [|lia].
    destruct G as [G L]. exists d, t. split; [reflexivity|]. split; [apply decimal_dv; auto|]. auto.
  - intros (d & t & -> & D & L & S). apply decimal_dv in D. destruct D as [NE D]. cbn [append parse_ty].
    rewrite (take_digits_app d t n 0 D (suffix_head _ _ _ S)).
    destruct (String.eqb_spec d "") as [->|_]; [congruence|]. apply ty_suffix_iff in S. rewrite S.
    assert (X := proj2 (usize_dv d 0 n ltac:(lia)) (conj D L)). now rewrite X.
Qed.

(** ** Types *)

Lemma prefix_starts : forall p s, String.prefix p s = true <-> starts p s.
Proof.
  induction p as [|c p IH]; intros s; cbn [String.prefix].
  - split; [exists s; reflexivity|destruct s; reflexivity].
  - destruct s as [|a s]; [split; [discriminate|intros [r H]; discriminate]|].
    cbn [String.prefix]. destruct (ascii_dec c a) as [->|N].
    + rewrite IH. split; intros [r H]; exists r; [now rewrite H|now inversion H].
    + split; [discriminate|]. intros [r H]. inversion H. congruence.
Qed.

Lemma vec_inner_ok : forall x c, vec_inner ("Vec<" ++ x ++ String c "") = Ok x.
Proof.
  intros x c. unfold vec_inner. rewrite !slen_app. cbn [String.length].
  replace (_ <? 5)%nat with false by lia. f_equal. cbn [append substring].
  replace (4 + (String.length x + 1) - 5)%nat with (String.length x) by lia. apply substring_app.
Qed.
Lemma vec_shape : forall s, starts "Vec<" s -> s = "Vec<"%string \/ exists x c, s = ("Vec<" ++ x ++ String c "")%string.
Proof.
  intros s [r ->]. destruct (snoc r) as [->|(x & c & ->)]; [left; reflexivity|right; eauto].
Qed.
Lemma vec_not_int : forall r, parse_ty ("Vec<" ++ r) = None.
Proof. reflexivity. Qed.

Lemma vec_inj : forall x c y c', ("Vec<" ++ x ++ String c "")%string = ("Vec<" ++ y ++ String c' "")%string -> x = y.
Proof. intros x c y c' E. apply (f_equal vec_inner) in E. rewrite !vec_inner_ok in E. congruence. Qed.

Lemma reads_vec_inv : forall g x c t, reads g ("Vec<" ++ x ++ String c "") t -> exists t', t = RVector t' /\ reads g x t'.
Proof.
  intros g x c t H. remember ("Vec<" ++ x ++ String c "")%string as s eqn:E. destruct H as [s n e gv I _|y c' t' R|s N1 N2 N3].
  - subst. apply parse_ty_iff in I. discriminate.
  - apply vec_inj in E. subst. eauto.
  - exfalso. apply N2. subst. eexists; reflexivity.
Qed.

Theorem parse_type_ok : forall fuel s strict t, (String.length s <= fuel)%nat ->
  (parse_type_fuel fuel s strict = Ok (inl t) <-> reads strict s t).
Proof.
  induction fuel as [|fuel IH]; intros s strict t L.
  - destruct s; [|cbn in L; lia]. cbn. split.
    + intros H; inversion H; subst. apply reads_misc.
      * intros (n & e & g & I). apply parse_ty_iff in I. discriminate.
      * intros [r H2]; discriminate.
      * intros [r H2]; discriminate.
    + intros H. inversion H as [s n e g I|s c t' R EQ|s N1 N2 N3]; subst; [|reflexivity].
      apply parse_ty_iff in I. discriminate.
  - cbn [parse_type_fuel]. destruct (parse_ty s) as [[[n e] g]|] eqn:P.
    + assert (I : int_name s n e g) by now apply parse_ty_iff.
      assert (U : reads strict s t -> t = RPrimitive s n e /\ (strict = false \/ n <= 8 \/ g = true)).
      { intros R. inversion R as [s0 n0 e0 g0 I0 C|x c t' R' EQ|s0 N1 N2 N3]; subst.
        - apply parse_ty_iff in I0. rewrite P in I0. inversion I0; subst. auto.
        - rewrite vec_not_int in P. discriminate.
        - exfalso. apply N1. eauto. }
      destruct (negb strict || (n <=? 8) || g) eqn:C.
      * split; [|intros R; apply U in R; destruct R as [-> _]; auto].
        intros H; inversion H; subst. apply reads_int with g; auto. destruct strict, g; auto; lia.
      * split; [discriminate|]. intros R. apply U in R. destruct R as [_ R]. exfalso. destruct strict, g; try discriminate; lia.
    + assert (NI : ~ exists n e g, int_name s n e g) by (intros (n & e & g & I); apply parse_ty_iff in I; congruence).
      destruct (String.prefix "Vec<" s) eqn:V.
      * apply prefix_starts in V. destruct (vec_shape s V) as [->|(x & c & ->)].
        -- cbn. split; [discriminate|]. intros R. inversion R as [s0 n0 e0 g0 I0 C|x c t' R' EQ|s0 N1 N2 N3]; subst.
           ++ exfalso. apply NI. eauto.
           ++ destruct x; discriminate.
           ++ exfalso. apply N2. exists EmptyString. reflexivity.
        -- rewrite vec_inner_ok. cbn [bind]. rewrite !slen_app in L. cbn [String.length] in L.
           destruct (parse_type_fuel fuel x strict) as [[t'|e]|e] eqn:Q; cbn [bind].
           ++ apply IH in Q; [|lia]. split.
              ** intros H; inversion H; subst. now constructor.
              ** intros R. apply reads_vec_inv in R. destruct R as (t2 & -> & R). apply IH in R; [|lia]. apply IH in Q; [|lia]. congruence.
           ++ split; [discriminate|]. intros R. apply reads_vec_inv in R. destruct R as (t2 & -> & R). apply IH in R; [|lia]. congruence.
           ++ split; [discriminate|]. intros R. apply reads_vec_inv in R. destruct R as (t2 & -> & R). apply IH in R; [|lia]. congruence.
      * assert (NV : ~ starts "Vec<" s) by (rewrite <- prefix_starts; congruence).
        destruct (String.prefix "&" s) eqn:A.
        -- split; [discriminate|]. intros R. inversion R as [s0 n0 e0 g0 I0 C|x c t' R' EQ|s0 N1 N2 N3]; subst.
           ++ exfalso. apply NI. eauto.
           ++ discriminate.
           ++ exfalso. apply N3. now apply prefix_starts.
        -- split.
           ++ intros H; inversion H; subst. apply reads_misc; auto. rewrite <- prefix_starts. congruence.
           ++ intros R. inversion R as [s0 n0 e0 g0 I0 C|x c t' R' EQ|s0 N1 N2 N3]; subst; [| |reflexivity]; exfalso.
              ** apply NI. eauto.
              ** apply NV. eexists. reflexivity.
Qed.

Theorem parse_type_iff : forall s strict t, parse_type s strict = Ok (inl t) <-> reads strict s t.
Proof. intros. apply parse_type_ok. auto. Qed.

Lemma wraps_vec_inv : forall x c core, wraps ("Vec<" ++ x ++ String c "") core ->
  core = ("Vec<" ++ x ++ String c "")%string \/ wraps x core.
Proof.
  intros x c core H. remember ("Vec<" ++ x ++ String c "")%string as s eqn:E. destruct H as [s|y c' core W]; [auto|].
  apply vec_inj in E. subst. auto.
Qed.

Theorem parse_type_err : forall fuel s strict, (String.length s <= fuel)%nat ->
  (parse_type_fuel fuel s strict = Ok (inr EndiannessMissing) <->
     strict = true /\ exists core n e, wraps s core /\ int_name core n e false /\ 8 < n) /\
  (parse_type_fuel fuel s strict = Ok (inr InvalidType) <-> exists core, wraps s core /\ starts "&" core) /\
  ((exists e, parse_type_fuel fuel s strict = Panic e) <-> wraps s "Vec<").
Proof.
  induction fuel as [|fuel IH]; intros s strict L.
  - destruct s; [|cbn in L; lia]. cbn.
    assert (W : forall core, wraps "" core -> core = ""%string) by (intros core H; inversion H; auto; discriminate).
    split; [|split]; (split; [intros H; try discriminate; try (destruct H; discriminate)|]).
    + intros (_ & core & n & e & H & I & _). apply W in H. subst. apply parse_ty_iff in I. discriminate.
    + intros (core & H & [r S]). apply W in H. subst. discriminate.
    + intros H. apply W in H. discriminate.
  - cbn [parse_type_fuel]. destruct (parse_ty s) as [[[n e] g]|] eqn:P.
    + assert (W : forall core, wraps s core -> core = s).
      { intros core H. inversion H as [|x c core' W EQ]; subst; auto. rewrite vec_not_int in P. discriminate. }
      assert (NS : ~ starts "&" s) by (intros [r ->]; discriminate).
      assert (NV : s <> "Vec<"%string) by (intros ->; discriminate).
      assert (I : int_name s n e g) by now apply parse_ty_iff.
      split; [|split].
      * split.
        -- destruct (negb strict || (n <=? 8) || g) eqn:C; [discriminate|]. intros _.
           destruct strict, g; try (exfalso; lia). split; [auto|]. exists s, n, e. split; [constructor|]. split; [auto|]. lia.
        -- intros (-> & core & n' & e' & H & I' & N). apply W in H. subst core. apply parse_ty_iff in I'. rewrite P in I'.
           inversion I'; subst. now replace (negb true || (n' <=? 8) || false) with false by lia.
      * split; [destruct (negb strict || (n <=? 8) || g); discriminate|].
        intros (core & H & S). apply W in H. subst. contradiction.
      * split; [intros [x X]; destruct (negb strict || (n <=? 8) || g); discriminate|]. intros H. apply W in H. congruence.
    + assert (NI : forall n e g, ~ int_name s n e g) by (intros n e g I; apply parse_ty_iff in I; congruence).
      destruct (String.prefix "Vec<" s) eqn:V.
      * apply prefix_starts in V. destruct (vec_shape s V) as [->|(x & c & ->)].
        -- assert (W : forall core, wraps "Vec<" core -> core = "Vec<"%string).
           { intros core H. inversion H as [|x c core' W EQ]; subst; auto. destruct x; discriminate. }
           cbn. split; [|split].
           ++ split; [discriminate|]. intros (_ & core & n & e & H & I & _). apply W in H. subst. exfalso. eapply NI; eauto.
           ++ split; [discriminate|]. intros (core & H & [r S]). apply W in H. subst. discriminate.
           ++ split; [intros _; apply wraps_core|intros _; eexists; reflexivity].
        -- rewrite vec_inner_ok. cbn [bind]. rewrite !slen_app in L. cbn [String.length] in L.
           destruct (IH x strict ltac:(lia)) as (I1 & I2 & I3).
           split; [|split].
           ++ transitivity (parse_type_fuel fuel x strict = Ok (inr EndiannessMissing)).
              { destruct (parse_type_fuel fuel x strict) as [[t'|[|]]|]; cbn [bind]; split; congruence. }
              rewrite I1. split; intros (ST & core & n & e & W & I & N); (split; [exact ST|]); exists core, n, e; (split; [|auto]).
              ** now constructor.
              ** apply wraps_vec_inv in W. destruct W as [->|W]; [exfalso; eapply NI; eauto|auto].
           ++ transitivity (parse_type_fuel fuel x strict = Ok (inr InvalidType)).
              { destruct (parse_type_fuel fuel x strict) as [[t'|[|]]|]; cbn [bind]; split; congruence. }
              rewrite I2. split; intros (core & W & S); exists core; (split; [|auto]).
              ** now constructor.
              ** apply wraps_vec_inv in W. destruct W as [->|W]; [destruct S; discriminate|auto].
           ++ transitivity (exists e, parse_type_fuel fuel x strict = Panic e).
              { destruct (parse_type_fuel fuel x strict) as [[t'|[|]]|]; cbn [bind]; split; intros [e2 E2]; try discriminate; eauto. }
              rewrite I3. split; intros W; [now constructor|]. apply wraps_vec_inv in W. destruct W as [W|W]; [destruct x; discriminate|auto].
      * assert (NV : ~ starts "Vec<" s) by (rewrite <- prefix_starts; congruence).
        assert (W : forall core, wraps s core -> core = s).
        { intros core H. inversion H as [|x c core' W EQ]; subst; auto. exfalso. apply NV. eexists; reflexivity. }
        assert (N2 : s <> "Vec<"%string) by (intros ->; apply NV; exists EmptyString; reflexivity).
        assert (A := prefix_starts "&" s). destruct (String.prefix "&" s).
        -- split; [|split].
           ++ split; [discriminate|]. intros (_ & core & n & e & H & I & _). apply W in H. subst. exfalso. eapply NI; eauto.
           ++ split; [|auto]. intros _. exists s. split; [constructor|tauto].
           ++ split; [intros [x X]; discriminate|]. intros H. apply W in H. congruence.
        -- split; [|split].
           ++ split; [discriminate|]. intros (_ & core & n & e & H & I & _). apply W in H. subst. exfalso. eapply NI; eauto.
           ++ split; [discriminate|]. intros (core & H & S). apply W in H. subst. apply A in S. discriminate.
           ++ split; [intros [x X]; discriminate|]. intros H. apply W in H. congruence.
Qed.

Theorem parse_type_errors : forall s strict,
  (parse_type s strict = Ok (inr EndiannessMissing) <->
     strict = true /\ exists core n e, wraps s core /\ int_name core n e false /\ 8 < n) /\
  (parse_type s strict = Ok (inr InvalidType) <-> exists core, wraps s core /\ starts "&" core) /\
  ((exists e, parse_type s strict = Panic e) <-> wraps s "Vec<").
Proof. intros. apply parse_type_err. auto. Qed.

(** ** Length expressions *)

Section TTree.
Variable P : ttree -> Prop.
Hypothesis H1 : forall s, P (TIdent s).
Hypothesis H2 : forall s, P (TPunct s).
Hypothesis H3 : forall b s, P (TLit b s).
Hypothesis H4 : forall d l, Forall P l -> P (TGroup d l).
Fixpoint ttree_rec' (t : ttree) : P t :=
  match t with
  | TIdent s => H1 s
  | TPunct s => H2 s
  | TLit b s => H3 b s
  | TGroup d l => H4 d l ((fix go (l : list ttree) : Forall P l :=
      match l with [] => Forall_nil P | x :: r => Forall_cons x (ttree_rec' x) (go r) end) l)
  end.
End TTree.

Lemma in_names : forall n names, existsb (String.eqb n) names = if in_dec string_dec n names then true else false.
Proof.
  intros n names. destruct (in_dec string_dec n names) as [I|N].
  - apply existsb_exists. exists n. split; [auto|apply String.eqb_refl].
  - apply Bool.not_true_iff_false. intros H. apply existsb_exists in H. destruct H as (x & I & E).
    apply String.eqb_eq in E. subst. auto.
Qed.

Lemma length_token_iff : forall names t l, length_token names t = Some l <-> ints_only t /\ with_getters names t = l.
Proof.
  intros names t. induction t as [s|s|b s|d k IH] using ttree_rec'; intros l; cbn [length_token ints_only with_getters].
  - rewrite in_names. destruct (in_dec string_dec s names); unfold getter_call; intuition congruence.
  - intuition congruence.
  - destruct b; intuition congruence.
  - match goal with |- context [match ?g k with _ => _ end] => set (go := g) end.
    assert (G : forall l', go k = Some l' <-> fold_right (fun x P => ints_only x /\ P) True k /\ flat_map (with_getters names) k = l').
    { clear l. induction IH as [|x r X IHr IHk]; intros l'.
      - cbn. intuition congruence.
      - subst go. cbn [fold_right flat_map]. destruct (length_token names x) as [a|] eqn:E.
        + destruct (proj1 (X a) eq_refl) as [E1 E2]. clear X.
          match goal with |- context [match ?g r with _ => _ end] => destruct (g r) as [b|] eqn:F end.
          * destruct (proj1 (IHk b) eq_refl) as [F1 F2]. rewrite E2, F2. intuition congruence.
          * split; [discriminate|]. intros [[_ Y] _]. exfalso.
            assert (Q := proj2 (IHk _) (conj Y eq_refl)). congruence.
        + split; [discriminate|]. intros [[Y _] _]. exfalso. assert (Q := proj2 (X _) (conj Y eq_refl)). congruence. }
    destruct (go k) as [l'|] eqn:E.
    + destruct (proj1 (G l') eq_refl) as [A B]. rewrite B. intuition congruence.
    + split; [discriminate|]. intros [Y _]. exfalso. assert (Q := proj2 (G _) (conj Y eq_refl)). congruence.
Qed.

Lemma length_tokens_iff : forall names e l, length_tokens names e = Some l <->
  Forall ints_only e /\ flat_map (with_getters names) e = l.
Proof.
  intros names. induction e as [|x e IH]; intros l; cbn [length_tokens flat_map].
  - intuition (auto; congruence).
  - destruct (length_token names x) as [a|] eqn:E.
    + apply length_token_iff in E. destruct E as [E1 E2]. destruct (length_tokens names e) as [b|] eqn:F.
      * destruct (proj1 (IH b) eq_refl) as [F1 F2]. subst. split; [intros H; inversion H; auto|intros [_ <-]; auto].
      * split; [discriminate|]. intros [H _]. inversion H as [|? ? _ H']; subst. assert (Q := proj2 (IH _) (conj H' eq_refl)). discriminate.
    + split; [discriminate|]. intros [H _]. inversion H as [|? ? H0 _]; subst. assert (Q := proj2 (length_token_iff names x _) (conj H0 eq_refl)). congruence.
Qed.

(** ** Attributes *)

Lemma cons_items_iff : forall l acc out, cons_items l acc = Ok (inl out) <-> exists ts, Forall2 item_reads l ts /\ out = acc ++ ts.
Proof.
  induction l as [|i l IH]; intros acc out; cbn [cons_items].
  - split; [intros H; inversion H; subst; exists []; split; [constructor|now rewrite app_nil_r]|].
    intros (ts & F & ->). inversion F; subst. now rewrite app_nil_r.
  - destruct i as [s|].
    + destruct (parse_type s false) as [[t|e]|e] eqn:E; cbn [bind].
      * rewrite IH. apply parse_type_iff in E. split.
        -- intros (ts & F & ->). exists (t :: ts). split; [constructor; auto|]. now rewrite <- app_assoc.
        -- intros (ts & F & ->). inversion F as [|? t' ? ts' R F']; subst. cbn [item_reads] in R.
           apply parse_type_iff in R. apply parse_type_iff in E. assert (t' = t) by congruence. subst.
           exists ts'. split; [auto|]. now rewrite <- app_assoc.
      * split; [discriminate|]. intros (ts & F & _). inversion F as [|? t' ? ts' R F']; subst. cbn [item_reads] in R.
        apply parse_type_iff in R. congruence.
      * split; [discriminate|]. intros (ts & F & _). inversion F as [|? t' ? ts' R F']; subst. cbn [item_reads] in R.
        apply parse_type_iff in R. congruence.
    + split; [discriminate|]. intros (ts & F & _). inversion F as [|? ? ? ? R _]; subst. contradiction.
Qed.

Lemma item_reads_fun : forall l ts us, Forall2 item_reads l ts -> Forall2 item_reads l us -> ts = us.
Proof.
  intros l ts us H. revert us. induction H as [|i t l ts R H IH]; intros us K; inversion K as [|? u ? us' R' K']; subst; [auto|].
  f_equal; [|auto]. destruct i as [s|]; [|contradiction]. cbn [item_reads] in *.
  apply parse_type_iff in R. apply parse_type_iff in R'. congruence.
Qed.

Definition b2n (b : bool) : nat := if b then 1 else 0.

(** The effect of one acceptable attribute. *)
Definition attr_effect (names : list string) (a : attr) (s s' : astate) : Prop :=
  (b2n (a_seen s) + b2n (payload_mark a) <= 1)%nat /\
  a_payload s' = (a_payload s || payload_mark a)%bool /\
  a_seen s' = (a_seen s || payload_mark a)%bool /\
  a_len s' = match length_given a with Some e => Some (flat_map (with_getters names) e) | None => a_len s end /\
  exists ts, Forall2 item_reads (construct_items a) ts /\ a_cons s' = a_cons s ++ ts.

Lemma step_attr_iff : forall names a s s', step_attr names a s = Ok (inl s') <-> attr_ok a /\ attr_effect names a s s'.
Proof.
  intros names a s s'. unfold attr_effect. destruct s as [c p l n], s' as [c' p' l' n']. cbn [a_cons a_payload a_len a_seen].
  assert (NIL : forall ts, Forall2 item_reads [] ts -> ts = []) by (intros ts F; inversion F; auto).
  destruct a as [|[id|]|[id|] lt|[id|] k]; cbn [step_attr attr_ok payload_mark length_given construct_items].
  - split; [discriminate|tauto].
  - destruct (id =? "payload")%string.
    + destruct n; cbn [b2n a_seen a_cons a_len].
      * split; [discriminate|]. intros (_ & B & _). exfalso. lia.
      * rewrite !orb_true_r. split.
        -- intros H; inversion H; subst. repeat split; auto. exists []. split; [constructor|now rewrite app_nil_r].
        -- intros (_ & _ & -> & -> & -> & ts & F & ->). apply NIL in F. subst. now rewrite app_nil_r.
    + rewrite !orb_false_r. split.
      * intros H; inversion H; subst. repeat split; [destruct n'; cbn; lia|]. exists []. split; [constructor|now rewrite app_nil_r].
      * intros (_ & _ & -> & -> & -> & ts & F & ->). apply NIL in F. subst. now rewrite app_nil_r.
  - rewrite !orb_false_r. split.
    + intros H; inversion H; subst. repeat split; [destruct n'; cbn; lia|]. exists []. split; [constructor|now rewrite app_nil_r].
    + intros (_ & _ & -> & -> & -> & ts & F & ->). apply NIL in F. subst. now rewrite app_nil_r.
  - rewrite !orb_false_r. destruct (String.eqb_spec id "length") as [->|NE].
    + destruct lt as [[e|]|].
      * destruct (length_tokens names e) as [e'|] eqn:E.
        -- apply length_tokens_iff in E. destruct E as [E1 E2]. subst. split.
           ++ intros H; inversion H; subst. split; [split; [auto|eauto]|]. repeat split; [destruct n'; cbn; lia|].
              exists []. split; [constructor|now rewrite app_nil_r].
           ++ intros (_ & _ & -> & -> & -> & ts & F & ->). apply NIL in F. subst. now rewrite app_nil_r.
        -- split; [discriminate|]. intros ((_ & e0 & X & Y) & _). inversion X; subst.
           assert (Q := proj2 (length_tokens_iff names e0 _) (conj Y eq_refl)). congruence.
      * split; [discriminate|]. intros ((_ & e0 & X & Y) & _). discriminate.
      * split; [discriminate|]. intros ((_ & e0 & X & Y) & _). discriminate.
    + split; [discriminate|]. tauto.
  - rewrite !orb_false_r. split.
    + intros H; inversion H; subst. repeat split; [destruct n'; cbn; lia|]. exists []. split; [constructor|now rewrite app_nil_r].
    + intros (_ & _ & -> & -> & -> & ts & F & ->). apply NIL in F. subst. now rewrite app_nil_r.
  - rewrite !orb_false_r. destruct (String.eqb_spec id "construct_with") as [->|NE].
    + destruct k as [|i k].
      * split; [discriminate|]. intros ((_ & X & _) & _). congruence.
      * cbn [a_cons a_payload a_len a_seen]. destruct (cons_items (i :: k) c) as [[out|e]|e] eqn:E; cbn [bind a_cons a_payload a_len a_seen].
        -- apply cons_items_iff in E. destruct E as (ts & F & ->). split.
           ++ intros H; inversion H; subst. split; [split; [auto|split; [discriminate|eauto]]|].
              repeat split; [destruct n'; cbn; lia|]. eauto.
           ++ intros (_ & _ & -> & -> & -> & us & F' & ->). rewrite (item_reads_fun _ _ _ F' F). reflexivity.
        -- split; [discriminate|]. intros ((_ & _ & ts & F) & _).
           assert (Q := proj2 (cons_items_iff (i :: k) c _) (ex_intro _ ts (conj F eq_refl))). congruence.
        -- split; [discriminate|]. intros ((_ & _ & ts & F) & _).
           assert (Q := proj2 (cons_items_iff (i :: k) c _) (ex_intro _ ts (conj F eq_refl))). congruence.
    + split; [discriminate|]. tauto.
  - split; [discriminate|tauto].
Qed.

Definition fold_len (names : list string) (l : list attr) (x : option (list ttree)) : option (list ttree) :=
  fold_left (fun acc a => match length_given a with Some e => Some (flat_map (with_getters names) e) | None => acc end) l x.
Definition marks (l : list attr) : nat := length (filter payload_mark l).

Definition attrs_effect (names : list string) (l : list attr) (s s' : astate) : Prop :=
  (b2n (a_seen s) + marks l <= 1)%nat /\
  a_payload s' = (a_payload s || existsb payload_mark l)%bool /\
  a_seen s' = (a_seen s || existsb payload_mark l)%bool /\
  a_len s' = fold_len names l (a_len s) /\
  exists ts, Forall2 item_reads (flat_map construct_items l) ts /\ a_cons s' = a_cons s ++ ts.

Lemma astate_eq : forall s s', a_cons s = a_cons s' -> a_payload s = a_payload s' -> a_len s = a_len s' -> a_seen s = a_seen s' -> s = s'.
Proof. intros [] []; cbn; congruence. Qed.

Lemma step_attrs_iff : forall names l s s', step_attrs names l s = Ok (inl s') <-> Forall attr_ok l /\ attrs_effect names l s s'.
Proof.
  intros names. induction l as [|a l IH]; intros s s'; cbn [step_attrs].
  - unfold attrs_effect, marks, fold_len. cbn [filter length existsb fold_left flat_map]. rewrite !orb_false_r. split.
    + intros H; inversion H; subst. split; [constructor|]. repeat split; [destruct (a_seen s'); cbn; lia|].
      exists []. split; [constructor|now rewrite app_nil_r].
    + intros (_ & _ & A & B & C & ts & F & D). inversion F; subst. rewrite app_nil_r in D. do 2 f_equal. now apply astate_eq.
  - assert (ST := step_attr_iff names a s). destruct (step_attr names a s) as [[s1|e]|e]; cbn [bind].
    + destruct (proj1 (ST s1) eq_refl) as (AO & A0 & A1 & A2 & A3 & ts & F & A4). rewrite IH. clear ST IH.
      unfold attrs_effect, marks, fold_len. cbn [filter existsb fold_left flat_map].
      rewrite A1, A2, A3, A4. rewrite !orb_assoc. split.
      * intros (FO & B0 & B1 & B2 & B3 & us & G & B4). split; [constructor; auto|]. split.
        { destruct (a_seen s), (payload_mark a); cbn [orb b2n length] in *; lia. }
        split; [exact B1|]. split; [exact B2|]. split; [exact B3|]. exists (ts ++ us).
        split; [now apply Forall2_app|]. now rewrite app_assoc.
      * intros (FO & B0 & B1 & B2 & B3 & us & G & B4). inversion FO as [|? ? FA FL]; subst. split; [auto|]. split.
        { destruct (a_seen s), (payload_mark a); cbn [orb b2n length] in *; lia. }
        split; [exact B1|]. split; [exact B2|]. split; [exact B3|].
        apply Forall2_app_inv_l in G. destruct G as (u1 & u2 & G1 & G2 & ->).
        rewrite (item_reads_fun _ _ _ G1 F) in B4. exists u2. split; [auto|]. now rewrite <- app_assoc.
    + split; [discriminate|]. intros (FO & B0 & B1 & B2 & B3 & us & G & B4). exfalso.
      inversion FO as [|? ? FA FL]; subst. cbn [flat_map] in G. apply Forall2_app_inv_l in G. destruct G as (u1 & u2 & G1 & G2 & ->).
      assert (Q : Ok (inr e) = Ok (inl (AState (a_cons s ++ u1) (a_payload s || payload_mark a)
        (match length_given a with Some e => Some (flat_map (with_getters names) e) | None => a_len s end) (a_seen s || payload_mark a))) :> res (astate + perr)).
      { apply ST. split; [auto|]. unfold attr_effect. cbn [a_cons a_payload a_len a_seen]. unfold marks in B0. cbn [filter] in B0. repeat split; [|eauto].
        destruct (payload_mark a); cbn [b2n length] in *; lia. }
      discriminate.
    + split; [discriminate|]. intros (FO & B0 & B1 & B2 & B3 & us & G & B4). exfalso.
      inversion FO as [|? ? FA FL]; subst. cbn [flat_map] in G. apply Forall2_app_inv_l in G. destruct G as (u1 & u2 & G1 & G2 & ->).
      assert (Q : Panic e = Ok (inl (AState (a_cons s ++ u1) (a_payload s || payload_mark a)
        (match length_given a with Some e => Some (flat_map (with_getters names) e) | None => a_len s end) (a_seen s || payload_mark a))) :> res (astate + perr)).
      { apply ST. split; [auto|]. unfold attr_effect. cbn [a_cons a_payload a_len a_seen]. unfold marks in B0. cbn [filter] in B0. repeat split; [|eauto].
        destruct (payload_mark a); cbn [b2n length] in *; lia. }
      discriminate.
Qed.

(** ** Fields *)

Lemma fold_len_map : forall names l x, fold_len names l (option_map (flat_map (with_getters names)) x) =
  option_map (flat_map (with_getters names)) (fold_left (fun acc a => match length_given a with Some e => Some e | None => acc end) l x).
Proof.
  intros names. induction l as [|a l IH]; intros x; [reflexivity|]. unfold fold_len in *. cbn [fold_left]. rewrite <- IH.
  destruct (length_given a); reflexivity.
Qed.
Lemma others_eq : forall all me, other_names all me = others all me.
Proof.
  unfold other_names, others. induction all as [|f all IH]; intros me; [reflexivity|]. cbn [flat_map]. rewrite IH.
  destruct (sf_name f) as [n|]; [|reflexivity]. cbn [app filter]. destruct (n =? me)%string; reflexivity.
Qed.

Lemma step_field_iff : forall all last f seen p seen', step_field all last f seen = Ok (inl (p, seen')) <->
  field_ok all last f p /\ (b2n seen + marks (sf_attrs f) <= 1)%nat /\ seen' = (seen || existsb payload_mark (sf_attrs f))%bool.
Proof.
  intros all last f seen p seen'. unfold step_field, field_ok. destruct (sf_name f) as [n|]; [|split; [discriminate|intros [(H & _) _]; discriminate]].
  rewrite others_eq.
  assert (ST := step_attrs_iff (others all n) (sf_attrs f) (AState [] false None seen)).
  unfold attrs_effect in ST. cbn [a_seen a_payload a_len a_cons] in ST.
  assert (LN := fold_len_map (others all n) (sf_attrs f) None). cbn [option_map] in LN. rewrite LN in ST. fold (length_of (sf_attrs f)) in ST.
  destruct (step_attrs _ _ _) as [[s|e]|e]; cbn [bind].
  - destruct (proj1 (ST s) eq_refl) as (FO & A0 & A1 & A2 & A3 & ts & F & A4). cbn [orb app] in A1, A4.
    assert (PT := parse_type_iff (sf_ty f) true). destruct (parse_type (sf_ty f) true) as [[ty|e]|e]; cbn [bind].
    + assert (R := proj1 (PT ty) eq_refl).
      assert (U : forall t, reads true (sf_ty f) t -> t = ty) by (intros t T; apply PT in T; congruence).
      destruct p as [pn pt pl ps pp pc]. cbn [pf_name pf_payload pf_len pf_cons pf_ty pf_struct_len].
      assert (KEY : forall sl : bool, sl = is_vec ty ->
        (is_vec ty = true -> last = false -> a_len s <> None) -> ((exists m, ty = RMisc m) -> a_cons s <> []) ->
        (Ok (inl (PField n ty (a_len s) sl (a_payload s) (a_cons s), a_seen s)) = Ok (inl (PField pn pt pl ps pp pc, seen')) :> res (pfield * bool + perr) <->
        (Some n = Some pn /\ Forall attr_ok (sf_attrs f) /\ pp = existsb payload_mark (sf_attrs f) /\
         pl = option_map (flat_map (with_getters (others all pn))) (length_of (sf_attrs f)) /\
         Forall2 item_reads (flat_map construct_items (sf_attrs f)) pc /\ reads true (sf_ty f) pt /\ ps = is_vec pt /\
         (is_vec pt = true -> last = false -> pl <> None) /\ ((exists n0, pt = RMisc n0) -> pc <> [])) /\
        (b2n seen + marks (sf_attrs f) <= 1)%nat /\ seen' = (seen || existsb payload_mark (sf_attrs f))%bool)).
      { intros sl SL V1 V2. split.
        - intros H; inversion H; subst. rewrite A3 in *. repeat split; auto.
        - intros ((N & _ & -> & -> & F2 & R2 & -> & _ & _) & _ & ->). inversion N; subst pn.
          apply U in R2. subst pt. rewrite (item_reads_fun _ _ _ F2 F), A1, A2, A3, A4, SL. reflexivity. }
      destruct ty as [nm sz en|ty'|nm].
      * apply KEY; [reflexivity|discriminate|intros [m M]; discriminate].
      * destruct (negb last && match a_len s with Some _ => false | None => true end) eqn:C.
        -- split; [discriminate|]. intros ((N & _ & _ & -> & _ & R2 & _ & V & _) & _). inversion N; subst pn. apply U in R2. subst pt.
           exfalso. apply andb_true_iff in C. destruct C as [C1 C2]. apply (V eq_refl); [now destruct last|].
           rewrite <- A3. destruct (a_len s); [discriminate|reflexivity].
        -- apply KEY; [reflexivity| |intros [m M]; discriminate]. intros _ L. rewrite L in C. destruct (a_len s); discriminate.
      * destruct (a_cons s) as [|c0 c1] eqn:C.
        -- split; [discriminate|]. intros ((_ & _ & _ & _ & F2 & R2 & _ & _ & V) & _). apply U in R2. subst pt.
           exfalso. apply V; [eauto|]. rewrite (item_reads_fun _ _ _ F2 F), <- A4. reflexivity.
        -- apply KEY; [reflexivity|discriminate|discriminate].
    + split; [discriminate|]. intros ((_ & _ & _ & _ & _ & R2 & _) & _). apply PT in R2. discriminate.
    + split; [discriminate|]. intros ((_ & _ & _ & _ & _ & R2 & _) & _). apply PT in R2. discriminate.
  - split; [discriminate|]. intros ((N & FO & P1 & P2 & P3 & _) & M & _). exfalso.
    assert (Q := proj2 (ST (AState (pf_cons p) (existsb payload_mark (sf_attrs f)) (option_map (flat_map (with_getters (others all n))) (length_of (sf_attrs f))) (seen || existsb payload_mark (sf_attrs f))))).
    cbn [a_seen a_payload a_len a_cons orb app] in Q. lapply Q; [discriminate|]. repeat split; eauto.
  - split; [discriminate|]. intros ((N & FO & P1 & P2 & P3 & _) & M & _). exfalso.
    assert (Q := proj2 (ST (AState (pf_cons p) (existsb payload_mark (sf_attrs f)) (option_map (flat_map (with_getters (others all n))) (length_of (sf_attrs f))) (seen || existsb payload_mark (sf_attrs f))))).
    cbn [a_seen a_payload a_len a_cons orb app] in Q. lapply Q; [discriminate|]. repeat split; eauto.
Qed.

Lemma marks_zero : forall l, existsb payload_mark l = false <-> marks l = 0%nat.
Proof.
  unfold marks. induction l as [|a l IH]; cbn [existsb filter length]; [tauto|].
  destruct (payload_mark a); cbn [orb length]; [split; [discriminate|lia]|exact IH].
Qed.
Lemma marks_app : forall k l, marks (k ++ l) = (marks k + marks l)%nat.
Proof. intros k l. unfold marks. now rewrite filter_app, app_length. Qed.

Definition fields_ok (all l : list sfield) (ps : list pfield) : Prop :=
  length ps = length l /\ forall i f, nth_error l i = Some f -> exists p, nth_error ps i = Some p /\ field_ok all (i =? length l - 1)%nat f p.

Lemma fields_ok_cons : forall all f r p ps, fields_ok all (f :: r) (p :: ps) <->
  field_ok all (match r with [] => true | _ => false end) f p /\ fields_ok all r ps.
Proof.
  intros all f r p ps. unfold fields_ok. cbn [length].
  assert (Z0 : (0 =? S (length r) - 1)%nat = match r with [] => true | _ => false end) by (destruct r; reflexivity).
  assert (ZS : forall i g, nth_error r i = Some g -> (S i =? S (length r) - 1)%nat = (i =? length r - 1)%nat).
  { intros i g I. assert (i < length r)%nat by (apply nth_error_Some; congruence). destruct r; [cbn in H; lia|]. cbn [length]. lia. }
  split.
  - intros [L H]. split.
    + destruct (H 0%nat f eq_refl) as (p' & E & F). cbn in E. inversion E; subst. now rewrite Z0 in F.
    + split; [lia|]. intros i g I. destruct (H (S i) g I) as (p' & E & F). exists p'. split; [auto|]. now rewrite <- (ZS i g I).
  - intros [F [L H]]. split; [lia|]. intros [|i] g I; cbn [nth_error] in *.
    + inversion I; subst. exists p. split; [auto|]. now rewrite Z0.
    + destruct (H i g I) as (p' & E & G). exists p'. split; [auto|]. now rewrite (ZS i g I).
Qed.

Lemma step_fields_iff : forall all l seen ps, step_fields all l seen = Ok (inl ps) <->
  fields_ok all l ps /\ (b2n seen + marks (flat_map sf_attrs l) <= 1)%nat.
Proof.
  intros all. induction l as [|f r IH]; intros seen ps; cbn [step_fields].
  - split.
    + intros H; inversion H; subst. split; [split; [reflexivity|intros [|i] f I; discriminate]|]. destruct seen; cbn; lia.
    + intros [[L _] _]. destruct ps; [reflexivity|discriminate].
  - set (last := match r with [] => true | _ => false end).
    assert (SF := step_field_iff all last f seen). cbn [flat_map]. rewrite marks_app.
    assert (BAD : (forall p s, step_field all last f seen <> Ok (inl (p, s))) ->
      ~ (fields_ok all (f :: r) ps /\ (b2n seen + (marks (sf_attrs f) + marks (flat_map sf_attrs r)) <= 1)%nat)).
    { intros N [FO M]. destruct ps as [|p ps]; [destruct FO; discriminate|]. apply fields_ok_cons in FO. destruct FO as [FO _].
      apply (N p (seen || existsb payload_mark (sf_attrs f))%bool). apply SF. split; [exact FO|]. split; [lia|reflexivity]. }
    destruct (step_field all last f seen) as [[[p s']|e]|e]; cbn [bind].
    + destruct (proj1 (SF p s') eq_refl) as (FP & M & ->).
      assert (SE : (b2n (seen || existsb payload_mark (sf_attrs f)) = b2n seen + marks (sf_attrs f))%nat).
      { destruct (existsb payload_mark (sf_attrs f)) eqn:E.
        - assert (marks (sf_attrs f) <> 0)%nat by (intros Z; apply marks_zero in Z; congruence).
          destruct seen; cbn [b2n orb] in *; lia.
        - apply marks_zero in E. rewrite E. destruct seen; reflexivity. }
      assert (IH' := IH (seen || existsb payload_mark (sf_attrs f))%bool). rewrite SE in IH'.
      destruct (step_fields all r _) as [[qs|e]|e]; cbn [bind].
      * destruct (proj1 (IH' qs) eq_refl) as [FQ MQ]. split.
        -- intros H; inversion H; subst. split; [apply fields_ok_cons; auto|lia].
        -- intros [FO M2]. destruct ps as [|p2 ps]; [destruct FO; discriminate|]. apply fields_ok_cons in FO. destruct FO as [F1 F2].
           assert (Q := proj2 (SF p2 (seen || existsb payload_mark (sf_attrs f))%bool) (conj F1 (conj M eq_refl))).
           assert (M3 : (b2n seen + marks (sf_attrs f) + marks (flat_map sf_attrs r) <= 1)%nat) by (rewrite <- Nat.add_assoc; exact M2). assert (Q2 := proj2 (IH' ps) (conj F2 M3)). congruence.
      * split; [discriminate|]. intros [FO M2]. destruct ps as [|p2 ps]; [destruct FO; discriminate|]. apply fields_ok_cons in FO. destruct FO as [F1 F2].
        assert (M3 : (b2n seen + marks (sf_attrs f) + marks (flat_map sf_attrs r) <= 1)%nat) by (rewrite <- Nat.add_assoc; exact M2). assert (Q2 := proj2 (IH' ps) (conj F2 M3)). congruence.
      * split; [discriminate|]. intros [FO M2]. destruct ps as [|p2 ps]; [destruct FO; discriminate|]. apply fields_ok_cons in FO. destruct FO as [F1 F2].
        assert (M3 : (b2n seen + marks (sf_attrs f) + marks (flat_map sf_attrs r) <= 1)%nat) by (rewrite <- Nat.add_assoc; exact M2). assert (Q2 := proj2 (IH' ps) (conj F2 M3)). congruence.
    + split; [discriminate|]. intros H. exfalso. eapply BAD; [|exact H]. discriminate.
    + split; [discriminate|]. intros H. exfalso. eapply BAD; [|exact H]. discriminate.
Qed.

Theorem parse_packet_iff : forall l ps, parse_packet l = Ok (inl ps) <-> struct_ok l ps.
Proof.
  intros l ps. unfold parse_packet. rewrite step_fields_iff. unfold struct_ok, fields_ok. fold (marks (flat_map sf_attrs l)). cbn [b2n]. tauto.
Qed.

(** ** Code generation *)

Lemma wrapping_sweep : forallb (fun o => forallb (fun s => match operations Wrapping true o s Big with Ok (Some _) => true | _ => false end)
  (zrange 1 64)) (zrange 0 8) = true.
Proof. vm_compute. reflexivity. Qed.

Lemma operations_some : forall m h h' o s e e', (exists ops, operations m h o s e = Ok (Some ops)) -> exists ops, operations m h' o s e' = Ok (Some ops).
Proof.
  intros m h h' o s e e'. unfold operations. destruct (_ || _ || _); [intros [x X]; discriminate|].
  destruct (ops_loop _ _ _ _ _ _ _ _) as [l|]; cbn [bind]; [|intros [x X]; discriminate]. intros _. eexists. reflexivity.
Qed.

Lemma gen_ops_iff : forall m h bit s e, 0 <= s -> (gen_ops m h bit s e = Ok tt <-> int_ok m bit s).
Proof.
  intros m h bit s e S0. unfold gen_ops, int_ok. assert (O : 0 <= bit mod 8 <= 7) by lia.
  destruct (Z.eq_dec s 0) as [->|N0]; [rewrite operations_rejects by lia; cbn [bind]; split; [discriminate|lia]|].
  destruct (Z_lt_dec 64 s) as [G|G]; [rewrite operations_rejects by lia; cbn [bind]; split; [discriminate|lia]|].
  destruct (Z_le_dec (bit mod 8 + s mod 8) 8) as [P|P].
  - destruct (supported_generated m h (bit mod 8) s e O) as (ops & E & _).
    + unfold supported. rewrite Z.mod_mod by lia. lia.
    + rewrite E. cbn [bind]. split; [intros _; split; [lia|auto]|auto].
  - destruct m.
    + rewrite (unsupported_aborts h (bit mod 8) s e O) by (unfold supported; rewrite ?Z.mod_mod by lia; lia). cbn [bind].
      split; [discriminate|]. intros [_ H]. specialize (H eq_refl). lia.
    + destruct (operations_some Wrapping true h (bit mod 8) s Big e) as [ops E].
      { assert (W := wrapping_sweep). rewrite forallb_forall in W. specialize (W (bit mod 8) ltac:(apply in_zrange; lia)).
        rewrite forallb_forall in W. specialize (W s ltac:(apply in_zrange; lia)).
        destruct (operations Wrapping true (bit mod 8) s Big) as [[ops|]|]; try discriminate. eauto. }
      rewrite E. cbn [bind]. split; [intros _; split; [lia|discriminate]|auto].
Qed.

Lemma decimal_nonneg : forall s v, decimal s v -> 0 <= v.
Proof. intros s v H. induction H; lia. Qed.

Fixpoint sized (t : rtype) : Prop :=
  match t with RPrimitive _ n _ => 0 <= n | RVector t' => sized t' | RMisc _ => True end.
Lemma reads_sized : forall b s t, reads b s t -> sized t.
Proof.
  intros b s t H. induction H as [s n e g I _|s c t _ IH|s _ _ _]; cbn [sized]; auto.
  destruct I as (d & u & _ & D & _). now apply decimal_nonneg in D.
Qed.
Lemma items_sized : forall l ts, Forall2 item_reads l ts -> Forall sized ts.
Proof.
  intros l ts H. induction H as [|i t l ts R _ IH]; constructor; auto. destruct i as [s|]; [|contradiction]. eapply reads_sized; eauto.
Qed.

Lemma gen_args_iff : forall m h l bit e, Forall sized l -> (gen_args m h bit l = Ok (inl e) <-> args_ok m bit l e).
Proof.
  intros m h. induction l as [|t l IH]; intros bit e F; cbn [gen_args args_ok].
  - split; [intros H; inversion H; auto|intros ->; auto].
  - inversion F as [|? ? T L]; subst. destruct t as [nm n en|t'|nm]; [|split; [discriminate|tauto]|split; [discriminate|tauto]].
    cbn [sized] in T. assert (G := gen_ops_iff m h bit n en T). destruct (gen_ops m h bit n en) as [[]|x]; cbn [bind].
    + rewrite IH by auto. intuition.
    + split; [discriminate|]. intros [I _]. apply G in I. discriminate.
Qed.

Lemma gen_field_iff : forall m h bit p e, sized (pf_ty p) -> Forall sized (pf_cons p) ->
  (gen_field m h bit p = Ok (inl e) <-> gen_ok1 m bit p e).
Proof.
  intros m h bit p e T L. unfold gen_field, gen_ok1. destruct (pf_ty p) as [nm n en|[nm n en|t|nm]|nm]; cbn [sized] in T.
  - assert (G := gen_ops_iff m h bit n en T). destruct (gen_ops m h bit n en) as [[]|x]; cbn [bind].
    + split; [intros H; assert (bit + n = e) by congruence; intuition|intros [_ <-]; auto].
    + split; [discriminate|]. intros [I _]. apply G in I. discriminate.
  - destruct (n mod 8 =? 0) eqn:E; cbn [negb].
    + assert (G := gen_ops_iff m h 0 n Big T). assert (K : int_ok m 0 n <-> 1 <= n <= 64) by (unfold int_ok; cbn [Z.modulo]; change (0 mod 8) with 0; split; [tauto|split; [tauto|lia]]).
      destruct (gen_ops m h 0 n Big) as [[]|x]; cbn [bind].
      * destruct G as [G _]. specialize (G eq_refl). apply K in G.
        split; [intros H; assert (bit = e) by congruence; repeat split; auto; lia|intros (_ & _ & ->); auto].
      * split; [discriminate|]. intros (_ & I & _). apply K, G in I. discriminate.
    + split; [discriminate|]. lia.
  - split; [discriminate|tauto].
  - split; [intros H; congruence|intros ->; auto].
  - now apply gen_args_iff.
Qed.

Lemma gen_fields_iff : forall m h l bit e, Forall (fun p => sized (pf_ty p) /\ Forall sized (pf_cons p)) l ->
  (gen_fields m h bit l = Ok (inl e) <-> gen_ok m bit l e).
Proof.
  intros m h. induction l as [|p l IH]; intros bit e F; cbn [gen_fields gen_ok].
  - split; [intros H; congruence|intros ->; auto].
  - inversion F as [|? ? [T C] L]; subst. assert (G := gen_field_iff m h bit p).
    destruct (gen_field m h bit p) as [[q|x]|x]; cbn [bind].
    + rewrite IH by auto. split; [intros H; exists q; split; [now apply G|auto]|].
      intros (q' & A & B). apply G in A; auto. congruence.
    + split; [discriminate|]. intros (q' & A & B). apply G in A; auto. discriminate.
    + split; [discriminate|]. intros (q' & A & B). apply G in A; auto. discriminate.
Qed.

Lemma struct_sized : forall l ps, struct_ok l ps -> Forall (fun p => sized (pf_ty p) /\ Forall sized (pf_cons p)) ps.
Proof.
  intros l ps (L & H & _). apply Forall_forall. intros p I. apply In_nth_error in I. destruct I as [i I].
  assert (X : (i < length l)%nat) by (rewrite <- L; apply nth_error_Some; congruence).
  destruct (nth_error l i) as [f|] eqn:E; [|apply nth_error_None in E; lia].
  destruct (H i f E) as (p' & E' & (_ & _ & _ & _ & C & T & _)). assert (p' = p) by congruence. subst. split.
  - eapply reads_sized; eauto.
  - eapply items_sized; eauto.
Qed.

Theorem derive_packet_iff : forall m h l bits, derive_packet m h l = Ok (inl bits) <-> exists ps, struct_ok l ps /\ gen_ok m 0 ps bits.
Proof.
  intros m h l bits. unfold derive_packet. assert (P := parse_packet_iff l). destruct (parse_packet l) as [[ps|e]|e]; cbn [bind].
  - assert (S0 := proj1 (P ps) eq_refl). rewrite gen_fields_iff by (eapply struct_sized; eauto). split; [eauto|].
    intros (qs & Q & G). apply P in Q. congruence.
  - split; [discriminate|]. intros (qs & Q & _). apply P in Q. discriminate.
  - split; [discriminate|]. intros (qs & Q & _). apply P in Q. discriminate.
Qed.
