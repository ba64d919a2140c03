(** Format strings, and reading values back from their text. *)
From Coq Require Import String Ascii ZArith NArith List Bool Lia ZifyBool ZifyNat.
From Coq Require Import Decimal DecimalString DecimalPos DecimalN.
From Verif Require Import Base DeriveUtil DeriveOps DeriveGen MacAddr Quic EmitText FmtText SpecFmt.
From Verif Require Import SpecMac MacAddrProofs.
Import ListNotations.
Open Scope string_scope.
Open Scope Z_scope.

Lemma sapp_assoc : forall a b c : string, (a ++ b) ++ c = a ++ (b ++ c).
Proof. induction a as [|x a IH]; intros b c; [reflexivity|]. cbn [append]. now rewrite IH. Qed.
Lemma sapp_nil : forall a : string, a ++ "" = a.
Proof. induction a as [|x a IH]; [reflexivity|]. cbn [append]. now rewrite IH. Qed.
Lemma concat_nil : forall l, String.concat "" l = fold_right append "" l.
Proof.
  induction l as [|x l IH]; [reflexivity|]. destruct l as [|y l].
  - cbn [String.concat fold_right]. now rewrite sapp_nil.
  - change (String.concat "" (x :: y :: l)) with (x ++ "" ++ String.concat "" (y :: l)). rewrite IH. reflexivity.
Qed.

(** ** Character classes *)

Lemma chars_app : forall p a b, chars_in p (a ++ b) = chars_in p a && chars_in p b.
Proof.
  intros p. induction a as [|x a IH]; intros b; [reflexivity|]. cbn [append chars_in]. rewrite IH.
  now rewrite andb_assoc.
Qed.
Lemma chars_imp : forall (p q : ascii -> bool) s, (forall a, p a = true -> q a = true) -> chars_in p s = true -> chars_in q s = true.
Proof.
  intros p q s I. induction s as [|a s IH]; [reflexivity|]. cbn [chars_in]. intros H.
  apply andb_prop in H. destruct H as [H1 H2]. now rewrite I, IH.
Qed.
Definition all_ascii : list ascii := map ascii_of_nat (seq 0 256).
Lemma in_all_ascii : forall a, In a all_ascii.
Proof.
  intros a. unfold all_ascii. apply in_map_iff. exists (nat_of_ascii a).
  split; [apply ascii_nat_embedding|]. apply in_seq. pose proof (nat_ascii_bounded a). lia.
Qed.
Lemma ascii_forall : forall p : ascii -> bool, forallb p all_ascii = true -> forall a, p a = true.
Proof. intros p H a. rewrite forallb_forall in H. apply H, in_all_ascii. Qed.

Definition plain_char (a : ascii) : bool := negb (Ascii.eqb a "{") && negb (Ascii.eqb a "}").
Lemma ident_plain : forall a, ident_char a = true -> plain_char a = true.
Proof.
  intros a H. generalize (ascii_forall (fun a => implb (ident_char a) (plain_char a)) ltac:(vm_compute; reflexivity) a).
  cbv beta. rewrite H. auto.
Qed.

(** ** Format strings *)

Lemma format_plain : forall s r args, chars_in plain_char s = true ->
  format (s ++ r) args = option_map (append s) (format r args).
Proof.
  induction s as [|a s IH]; intros r args H.
  - cbn [append]. destruct (format r args); reflexivity.
  - cbn [chars_in] in H. apply andb_prop in H. destruct H as [H1 H2]. unfold plain_char in H1.
    apply andb_prop in H1. destruct H1 as [A B]. cbn [append format].
    destruct (Ascii.eqb a "{"); [discriminate|]. destruct (Ascii.eqb a "}"); [discriminate|].
    rewrite IH by assumption. destruct (format r args); reflexivity.
Qed.
Lemma field_fmt_text : forall names acc,
  field_fmt acc names = Some (acc ++ fold_right append "" (map (fun n => n ++ " : {:?}, ") names)).
Proof.
  induction names as [|n r IH]; intros acc; [cbn; now rewrite sapp_nil|].
  cbn [field_fmt]. replace (format "{}{} : {{:?}}, " [acc; n]) with (Some (acc ++ n ++ " : {:?}, ")) by reflexivity.
  rewrite IH. cbn [map fold_right]. f_equal. now rewrite !sapp_assoc.
Qed.
Lemma packet_fmt_text : forall name names, packet_fmt name names =
  Some (name ++ " {{ " ++ fold_right append "" (map (fun n => n ++ " : {:?}, ") names) ++ " }}").
Proof.
  intros name names. unfold packet_fmt. rewrite field_fmt_text. cbn [append].
  set (f := fold_right _ _ _). reflexivity.
Qed.
Lemma format_fields : forall names texts r rest s, Forall ident names -> length texts = length names ->
  format r rest = Some s ->
  format (fold_right append "" (map (fun n => n ++ " : {:?}, ") names) ++ r) (texts ++ rest)%list =
  Some (fold_right append "" (map (fun p => fst p ++ " : " ++ snd p ++ ", ") (combine names texts)) ++ s).
Proof.
  induction names as [|n names IH]; intros texts r rest s I L F; destruct texts as [|t texts]; try discriminate.
  - exact F.
  - inversion I as [|? ? I1 I2]; subst. cbn [map fold_right combine app fst snd].
    rewrite !sapp_assoc, <- app_comm_cons. rewrite format_plain by (eapply chars_imp; [exact ident_plain|exact I1]).
    set (R := fold_right append "" (map (fun n => n ++ " : {:?}, ") names) ++ r).
    replace (format (" : {:?}, " ++ R) (t :: texts ++ rest)%list)
      with (option_map (append " : ") (option_map (append t) (option_map (append ", ") (format R (texts ++ rest)%list))))
      by (cbn; destruct (format R (texts ++ rest)%list); reflexivity).
    unfold R. rewrite (IH texts r rest s I2) by (auto; now injection L). cbn [option_map]. reflexivity.
Qed.
Lemma format_packet : forall name names texts, ident name -> Forall ident names -> length texts = length names ->
  exists f, packet_fmt name names = Some f /\ format f texts = Some (printed name (combine names texts)).
Proof.
  intros name names texts N I L. rewrite packet_fmt_text. eexists. split; [reflexivity|].
  rewrite format_plain by (eapply chars_imp; [exact ident_plain|exact N]). unfold printed.
  rewrite concat_nil.
  set (R := fold_right append "" (map (fun n => n ++ " : {:?}, ") names) ++ " }}").
  replace (format (" {{ " ++ R) texts) with (option_map (append " { ") (format R texts))
    by (cbn; destruct (format R texts); reflexivity).
  unfold R. rewrite <- (app_nil_r texts) at 1. rewrite (format_fields names texts " }}" [] " }" I L) by reflexivity.
  reflexivity.
Qed.

(** ** Decimal numbers *)

Definition digit_char (a : ascii) : bool := between "0" "9" a.
Lemma uint_digits : forall d, chars_in digit_char (NilEmpty.string_of_uint d) = true.
Proof. induction d; cbn [NilEmpty.string_of_uint chars_in]; try rewrite IHd; reflexivity. Qed.
Lemma dec_digits : forall n, chars_in digit_char (dec n) = true.
Proof.
  intros n. unfold dec. destruct (N.to_uint (Z.to_N n)) eqn:E; unfold NilZero.string_of_uint; rewrite <- ?E;
    [reflexivity|..]; rewrite E; apply uint_digits.
Qed.
Lemma to_uint_nonnil : forall n, N.to_uint n <> Nil.
Proof. intros [|p]; [discriminate|]. apply DecimalPos.Unsigned.to_uint_nonnil. Qed.
Lemma dec_injective : forall a b, 0 <= a -> 0 <= b -> dec a = dec b -> a = b.
Proof.
  intros a b A B E. unfold dec in E.
  assert (H : N.to_uint (Z.to_N a) = N.to_uint (Z.to_N b)).
  { apply (f_equal NilZero.uint_of_string) in E.
    rewrite !NilZero.usu in E by apply to_uint_nonnil. congruence. }
  apply (f_equal N.of_uint) in H. rewrite !DecimalN.Unsigned.of_to in H. lia.
Qed.
Lemma dec_nonempty : forall a, dec a <> "".
Proof.
  intros a. unfold dec. pose proof (to_uint_nonnil (Z.to_N a)) as N.
  destruct (N.to_uint (Z.to_N a)); [now contradict N|..]; discriminate.
Qed.

(** ** Words and what follows them *)

Definition word_char (a : ascii) : bool := ident_char a || Ascii.eqb a ":" || Ascii.eqb a ".".
Definition stops (p : ascii -> bool) (r : string) : Prop := match r with "" => True | String a _ => p a = false end.
Definition stop (r : string) : Prop := stops word_char r.

Lemma run_split : forall p s s' r r', chars_in p s = true -> chars_in p s' = true -> stops p r -> stops p r' ->
  s ++ r = s' ++ r' -> s = s' /\ r = r'.
Proof.
  intros p. induction s as [|a s IH]; intros s' r r' S S' R R' E.
  - destruct s' as [|a' s']; [auto|]. cbn [append chars_in] in *. subst r. apply andb_prop in S'. destruct S' as [Q _].
    cbn [stops] in R. congruence.
  - destruct s' as [|a' s'].
    + cbn [append] in E. subst r'. cbn [chars_in stops] in *. apply andb_prop in S. destruct S as [Q _]. congruence.
    + cbn [append chars_in] in *. apply andb_prop in S, S'. injection E as -> E.
      destruct (IH s' r r') as [-> ->]; tauto.
Qed.
Lemma digit_word : forall a, digit_char a = true -> word_char a = true.
Proof.
  intros a H. generalize (ascii_forall (fun a => implb (digit_char a) (word_char a)) ltac:(vm_compute; reflexivity) a).
  cbv beta. rewrite H. auto.
Qed.
Lemma v6_word : forall a, v6_char a = true -> word_char a = true.
Proof.
  intros a H. generalize (ascii_forall (fun a => implb (v6_char a) (word_char a)) ltac:(vm_compute; reflexivity) a).
  cbv beta. rewrite H. auto.
Qed.
Lemma ident_word : forall a, ident_char a = true -> word_char a = true.
Proof. intros a H. unfold word_char. now rewrite H. Qed.
Lemma stop_digits : forall r, stop r -> stops digit_char r.
Proof.
  intros [|a r] H; [exact I|]. cbn [stop stops] in *. destruct (digit_char a) eqn:D; [|reflexivity].
  apply digit_word in D. unfold stop, stops in H. congruence.
Qed.
Lemma dec_split : forall a b r r', 0 <= a -> 0 <= b -> stops digit_char r -> stops digit_char r' ->
  dec a ++ r = dec b ++ r' -> a = b /\ r = r'.
Proof.
  intros a b r r' A B R R' E. apply (run_split digit_char) in E; auto using dec_digits. destruct E as [E ->].
  split; [|reflexivity]. now apply dec_injective.
Qed.
Lemma app_cancel : forall a b c : string, a ++ b = a ++ c -> b = c.
Proof. induction a as [|x a IH]; intros b c E; [exact E|]. injection E as E. auto. Qed.

(** ** Lists *)

Section Lists.
Context {A : Type} (E : A -> string) (P : A -> Prop).
Hypothesis D : forall x x' r r', P x -> P x' -> stop r -> stop r' -> E x ++ r = E x' ++ r' -> x = x' /\ r = r'.
Hypothesis O : forall x r, P x -> exists a t, E x ++ r = String a t /\ a <> "]"%char.

Definition tail_text (l : list A) (r : string) : string := fold_right (fun x s => ", " ++ E x ++ s) ("]" ++ r) l.
Lemma list_text : forall x l r, String.concat ", " (map E (x :: l)) ++ "]" ++ r = E x ++ tail_text l r.
Proof.
  intros x l. revert x. induction l as [|y l IH]; intros x r; [reflexivity|].
  change (String.concat ", " (map E (x :: y :: l))) with (E x ++ ", " ++ String.concat ", " (map E (y :: l))).
  rewrite !sapp_assoc. rewrite IH. reflexivity.
Qed.
Lemma tail_stop : forall l r, stop (tail_text l r).
Proof. intros [|x l] r; reflexivity. Qed.
Lemma tail_split : forall l l' r r', Forall P l -> Forall P l' -> tail_text l r = tail_text l' r' -> l = l' /\ r = r'.
Proof.
  induction l as [|x l IH]; intros l' r r' F F' H; destruct l' as [|x' l']; cbn [tail_text fold_right] in H.
  - injection H as ->. auto.
  - discriminate.
  - discriminate.
  - inversion F; inversion F'; subst. injection H as H. fold (tail_text l r) (tail_text l' r') in H.
    apply D in H; try assumption; try apply tail_stop. destruct H as [-> H]. apply IH in H; try assumption.
    destruct H as [-> ->]. auto.
Qed.
Lemma list_split : forall l l' r r', Forall P l -> Forall P l' ->
  debug_list (map E l) ++ r = debug_list (map E l') ++ r' -> l = l' /\ r = r'.
Proof.
  intros l l' r r' F F' H. unfold debug_list in H. rewrite !sapp_assoc in H. apply app_cancel in H.
  destruct l as [|x l], l' as [|x' l'].
  - cbn [map String.concat append] in H. injection H as ->. auto.
  - rewrite list_text in H. inversion F'; subst. destruct (O x' (tail_text l' r')) as (a & t & Q & N); auto. rewrite Q in H.
    cbn [map String.concat append] in H. injection H as H _. now contradict N.
  - rewrite list_text in H. inversion F; subst. destruct (O x (tail_text l r)) as (a & t & Q & N); auto. rewrite Q in H.
    cbn [map String.concat append] in H. injection H as H _. now contradict N.
  - rewrite !list_text in H. inversion F; inversion F'; subst. apply D in H; auto using tail_stop.
    destruct H as [-> H]. apply tail_split in H; auto. destruct H as [-> ->]. auto.
Qed.
End Lists.

Lemma dec_opens : forall z r, exists a t, dec z ++ r = String a t /\ a <> "]"%char.
Proof.
  intros z r. pose proof (dec_nonempty z) as N. pose proof (dec_digits z) as D.
  destruct (dec z) as [|a t]; [now contradict N|]. exists a, (t ++ r). split; [reflexivity|].
  intros ->. discriminate.
Qed.
Lemma bytes_split : forall l l' r r', Forall (fun z => 0 <= z) l -> Forall (fun z => 0 <= z) l' ->
  debug_list (map dec l) ++ r = debug_list (map dec l') ++ r' -> l = l' /\ r = r'.
Proof.
  intros. eapply (list_split dec (fun z => 0 <= z)); eauto.
  - intros. eapply dec_split; eauto using stop_digits.
  - intros. apply dec_opens.
Qed.

(** ** Values *)

Definition flat_typed (f : flat) (v : val) : Prop :=
  match f, v with
  | FInt, VInt z => 0 <= z
  | FNew _, VTup [z] => 0 <= z
  | FMac, VTup l => length l = 6%nat /\ Forall byte_ok l
  | FIp4, VTup l => length l = 4%nat /\ Forall byte_ok l
  | FIp6, VTup l => groups l
  | FBytes, VBytes l => bytes_ok l
  | _, _ => False
  end.
Definition struct_typed (fields : list (string * flat)) (xs : list val) : Prop :=
  Forall2 (fun p x => flat_typed (snd p) x) fields xs.
Definition shape_typed (s : shape) (v : val) : Prop :=
  match s, v with
  | SFlat f, _ => flat_typed f v
  | SVec _ fields, VPkts l => Forall (struct_typed fields) l
  | _, _ => False
  end.

Lemma bytes_nonneg : forall l, bytes_ok l -> Forall (fun z => 0 <= z) l.
Proof. intros l H. eapply Forall_impl; [|exact H]. intros a [Q _]. exact Q. Qed.
Lemma hex_digit_ok : forall x, 0 <= x < 16 -> v6_char (MacAddr.hex_digit x) = true.
Proof.
  intros x X.
  assert (S : forallb (fun x => v6_char (MacAddr.hex_digit x)) [0; 1; 2; 3; 4; 5; 6; 7; 8; 9; 10; 11; 12; 13; 14; 15] = true)
    by (vm_compute; reflexivity).
  rewrite forallb_forall in S. apply S. cbn [In]. lia.
Qed.
Lemma fmt_02x_ok : forall x, byte_ok x -> chars_in v6_char (fmt_02x x) = true.
Proof.
  intros x [A B]. unfold fmt_02x. cbn [chars_in].
  assert (0 <= x / 16 < 16) by (split; [apply Z.div_pos; lia|apply Z.div_lt_upper_bound; lia]).
  rewrite !hex_digit_ok; auto using Z.mod_pos_bound. apply Z.mod_pos_bound. lia.
Qed.
Lemma mac_word : forall m, mac_ok m -> chars_in word_char (mac_display m) = true.
Proof.
  intros [a b c d e f] (A & B & C & D & E & F). unfold mac_display. cbn [mac0 mac1 mac2 mac3 mac4 mac5] in *.
  rewrite !chars_app. rewrite !(chars_imp v6_char word_char (fmt_02x _) v6_word) by (now apply fmt_02x_ok). reflexivity.
Qed.

Section Decode.
Variable v6 : list Z -> string.
Hypothesis V6 : v6_text v6.

Lemma word_split : forall s s' r r', chars_in word_char s = true -> chars_in word_char s' = true -> stop r -> stop r' ->
  s ++ r = s' ++ r' -> s = s' /\ r = r'.
Proof. exact (run_split word_char). Qed.
Lemma stops_dot : forall r, stops digit_char ("." ++ r).
Proof. reflexivity. Qed.

Lemma flat_split : forall f v v' r r', flat_typed f v -> flat_typed f v' -> stop r -> stop r' ->
  debug_flat v6 f v ++ r = debug_flat v6 f v' ++ r' -> v = v' /\ r = r'.
Proof.
  intros f v v' r r' T T' R R' E. destruct f.
  - destruct v; try contradiction. destruct v'; try contradiction. cbn [flat_typed debug_flat] in *.
    apply dec_split in E; auto using stop_digits. destruct E as [-> ->]. auto.
  - destruct v as [|l| |]; try contradiction. destruct v' as [|l'| |]; try contradiction.
    cbn [flat_typed] in *. destruct l as [|z [|]]; try contradiction. destruct l' as [|z' [|]]; try contradiction.
    cbn [debug_flat] in E. rewrite !sapp_assoc in E. apply app_cancel, app_cancel in E.
    apply dec_split in E; try reflexivity; auto. destruct E as [-> E]. injection E as ->. auto.
  - destruct v as [|l| |]; try contradiction. destruct v' as [|l'| |]; try contradiction.
    cbn [flat_typed] in *. destruct T as [L F], T' as [L' F'].
    destruct l as [|a [|b [|c [|d [|e [|g [|]]]]]]]; try discriminate.
    destruct l' as [|a' [|b' [|c' [|d' [|e' [|g' [|]]]]]]]; try discriminate.
    cbn [debug_flat] in E.
    assert (M : mac_ok (MacAddr a b c d e g)) by (repeat (inversion F as [|? ? ? F0]; subst; clear F; rename F0 into F); unfold mac_ok; cbn; auto 10).
    assert (M' : mac_ok (MacAddr a' b' c' d' e' g')) by (repeat (inversion F' as [|? ? ? F0]; subst; clear F'; rename F0 into F'); unfold mac_ok; cbn; auto 10).
    apply word_split in E; auto using mac_word. destruct E as [E ->]. apply display_injective in E; auto.
    injection E as -> -> -> -> -> ->. auto.
  - destruct v as [|l| |]; try contradiction. destruct v' as [|l'| |]; try contradiction.
    cbn [flat_typed] in *. destruct T as [L F], T' as [L' F'].
    destruct l as [|a [|b [|c [|d [|]]]]]; try discriminate.
    destruct l' as [|a' [|b' [|c' [|d' [|]]]]]; try discriminate.
    apply bytes_nonneg in F, F'. repeat match goal with H : Forall _ (_ :: _) |- _ => inversion H; subst; clear H end.
    cbn [debug_flat] in E. rewrite !sapp_assoc in E.
    apply dec_split in E; auto using stops_dot. destruct E as [-> E]. apply app_cancel in E.
    apply dec_split in E; auto using stops_dot. destruct E as [-> E]. apply app_cancel in E.
    apply dec_split in E; auto using stops_dot. destruct E as [-> E]. apply app_cancel in E.
    apply dec_split in E; auto using stop_digits. destruct E as [-> E]. auto.
  - destruct v as [|l| |]; try contradiction. destruct v' as [|l'| |]; try contradiction.
    cbn [flat_typed debug_flat] in *. destruct V6 as [J C].
    apply word_split in E; auto; try (eapply chars_imp; [exact v6_word|apply C; assumption]).
    destruct E as [E ->]. apply J in E; auto. subst. auto.
  - destruct v as [| |l|]; try contradiction. destruct v' as [| |l'|]; try contradiction.
    cbn [flat_typed debug_flat] in *. apply bytes_split in E; auto using bytes_nonneg. destruct E as [-> ->]. auto.
Qed.

(** Fields of a struct, after the opening brace. *)
Definition field_text (p : string * flat * val) : string := fst (fst p) ++ ": " ++ debug_flat v6 (snd (fst p)) (snd p).
Lemma struct_tail : forall fields xs xs' r r', struct_typed fields xs -> struct_typed fields xs' ->
  fold_right (fun p s => ", " ++ field_text p ++ s) (" }" ++ r) (combine fields xs) =
  fold_right (fun p s => ", " ++ field_text p ++ s) (" }" ++ r') (combine fields xs') -> xs = xs' /\ r = r'.
Proof.
  induction fields as [|[n f] fields IH]; intros xs xs' r r' T T' E; inversion T; inversion T'; subst;
    cbn [combine fold_right] in E.
  - injection E as ->. auto.
  - apply app_cancel in E. unfold field_text at 1 3 in E. cbn [fst snd] in *. rewrite !sapp_assoc in E.
    apply app_cancel, app_cancel in E. apply flat_split in E; auto.
    + destruct E as [-> E]. apply IH in E; auto. destruct E as [-> ->]. auto.
    + destruct (combine fields l'); reflexivity.
    + destruct (combine fields l'0); reflexivity.
Qed.
Lemma concat_fold : forall A (T : A -> string) x l r,
  String.concat ", " (map T (x :: l)) ++ r = T x ++ fold_right (fun p s => ", " ++ T p ++ s) r l.
Proof.
  intros A T x l r. revert x. induction l as [|y l IH]; intros x; [reflexivity|].
  change (String.concat ", " (map T (x :: y :: l))) with (T x ++ ", " ++ String.concat ", " (map T (y :: l))).
  rewrite !sapp_assoc. rewrite IH. reflexivity.
Qed.
Definition struct_text (n : string) (fields : list (string * flat)) (xs : list val) : string :=
  debug_struct n (map (fun p => (fst (fst p), debug_flat v6 (snd (fst p)) (snd p))) (combine fields xs)).
Lemma struct_split : forall n fields xs xs' r r', fields <> [] -> struct_typed fields xs -> struct_typed fields xs' ->
  struct_text n fields xs ++ r = struct_text n fields xs' ++ r' -> xs = xs' /\ r = r'.
Proof.
  intros n fields xs xs' r r' N T T' E. unfold struct_text, debug_struct in E. rewrite !sapp_assoc in E.
  apply app_cancel, app_cancel in E. rewrite !map_map in E. cbn [fst snd] in E.
  destruct fields as [|[m f] fields]; [congruence|]. inversion T; inversion T'; subst. cbn [combine] in E.
  rewrite !(concat_fold _ (fun x : string * flat * val => fst (fst x) ++ ": " ++ debug_flat v6 (snd (fst x)) (snd x))) in E.
  cbn [fst snd] in *. rewrite !sapp_assoc in E. apply app_cancel, app_cancel in E.
  change (fun (p : string * flat * val) (s : string) => ", " ++ (fst (fst p) ++ ": " ++ debug_flat v6 (snd (fst p)) (snd p)) ++ s)
    with (fun (p : string * flat * val) (s : string) => ", " ++ field_text p ++ s) in E.
  apply flat_split in E; auto.
  - destruct E as [-> E]. apply struct_tail in E; auto. destruct E as [-> ->]. auto.
  - destruct (combine fields l'); reflexivity.
  - destruct (combine fields l'0); reflexivity.
Qed.

Definition shape_named (s : shape) : Prop :=
  match s with SFlat _ => True | SVec n fields => ident n /\ fields <> [] end.
Lemma struct_opens : forall n fields xs r, ident n -> exists a t, struct_text n fields xs ++ r = String a t /\ a <> "]"%char.
Proof.
  intros n fields xs r I. unfold struct_text, debug_struct. destruct n as [|a n].
  - do 2 eexists. split; [reflexivity|discriminate].
  - exists a. eexists. split; [reflexivity|]. intros ->. discriminate.
Qed.
Lemma shape_split : forall s v v' r r', shape_named s -> shape_typed s v -> shape_typed s v' -> stop r -> stop r' ->
  debug_value v6 s v ++ r = debug_value v6 s v' ++ r' -> v = v' /\ r = r'.
Proof.
  intros s v v' r r' N T T' R R' E. destruct s as [f|n fields]; cbn [debug_value shape_typed shape_named] in *.
  - eapply flat_split; eauto.
  - destruct v as [| | |l]; try contradiction. destruct v' as [| | |l']; try contradiction.
    change (debug_list (map (struct_text n fields) l) ++ r = debug_list (map (struct_text n fields) l') ++ r') in E.
    eapply (list_split _ (struct_typed fields)) in E; auto.
    + destruct E as [-> ->]. auto.
    + intros. destruct N. eapply struct_split; eauto.
    + intros. apply struct_opens. apply N.
Qed.

(** ** The whole text *)

Lemma entries_split : forall names shapes vs vs' r r', Forall shape_named shapes -> length names = length shapes ->
  Forall2 shape_typed shapes vs -> Forall2 shape_typed shapes vs' ->
  let T vs r := fold_right append "" (map (fun p => fst p ++ " : " ++ snd p ++ ", ")
     (combine names (map (fun p => debug_value v6 (fst p) (snd p)) (combine shapes vs)))) ++ r in
  T vs r = T vs' r' -> vs = vs' /\ r = r'.
Proof.
  induction names as [|n names IH]; intros shapes vs vs' r r' N L V V' T E; destruct shapes as [|s shapes]; try discriminate;
    inversion V; inversion V'; inversion N; subst.
  - auto.
  - unfold T in E. cbn [combine map fold_right fst snd] in E. rewrite !sapp_assoc in E. apply app_cancel, app_cancel in E.
    apply shape_split in E; auto; try reflexivity. destruct E as [-> E]. apply app_cancel in E.
    apply (IH shapes) in E; auto. destruct E as [-> ->]. auto.
Qed.
Lemma printed_split : forall name name' names names' shapes shapes' vs vs' r r', ident name -> ident name' ->
  (name = name' -> names = names' /\ shapes = shapes') ->
  Forall shape_named shapes -> length names = length shapes ->
  Forall2 shape_typed shapes vs -> Forall2 shape_typed shapes' vs' ->
  printed name (combine names (map (fun p => debug_value v6 (fst p) (snd p)) (combine shapes vs))) ++ r =
  printed name' (combine names' (map (fun p => debug_value v6 (fst p) (snd p)) (combine shapes' vs'))) ++ r' ->
  name = name' /\ vs = vs' /\ r = r'.
Proof.
  intros name name' names names' shapes shapes' vs vs' r r' I I' S N L V V' E. unfold printed in E. rewrite !sapp_assoc in E.
  apply word_split in E; try reflexivity; try (eapply chars_imp; [exact ident_word|assumption]).
  destruct E as [Q E]. split; [exact Q|]. destruct (S Q) as [-> ->]. apply app_cancel in E. rewrite !concat_nil in E.
  eapply (entries_split names' shapes') in E; eauto. destruct E as [-> E]. split; [reflexivity|]. now apply app_cancel in E.
Qed.
End Decode.
