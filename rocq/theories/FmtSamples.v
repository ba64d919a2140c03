(** A text for IPv6 addresses, used by the examples about printed packets. *)
From Coq Require Import String Ascii ZArith List Bool Lia ZifyBool ZifyNat.
From Verif Require Import Base BitSpec DeriveUtil DeriveOps DeriveGen Names SpecNames NamesProofs FmtText SpecFmt FmtProofs.
Import ListNotations.
Open Scope string_scope.
Open Scope Z_scope.

(** All eight groups with four digits each. *)
Definition v6_long (l : list Z) : string := String.concat ":" (map (fmt_0nx 4) l).

Lemma hex_chars : forall n v, chars_in v6_char (fmt_0nx n v) = true /\ chars_in (fun a => negb (Ascii.eqb a ":")) (fmt_0nx n v) = true.
Proof.
  induction n as [|n IH]; intros v; [split; reflexivity|]. cbn [fmt_0nx]. rewrite !chars_app. destruct (IH (v / 16)) as [-> ->].
  cbn [chars_in andb]. rewrite !andb_true_r.
  assert (R : 0 <= v mod 16 < 16) by (apply Z.mod_pos_bound; lia). revert R. generalize (v mod 16). intros x X.
  assert (S : forallb (fun x => v6_char (MacAddr.hex_digit x) && negb (Ascii.eqb (MacAddr.hex_digit x) ":"))
    [0; 1; 2; 3; 4; 5; 6; 7; 8; 9; 10; 11; 12; 13; 14; 15] = true) by (vm_compute; reflexivity).
  rewrite forallb_forall in S. apply andb_prop. apply S. cbn [In]. lia.
Qed.
Lemma colons : forall x l r, String.concat ":" (map (fmt_0nx 4) (x :: l)) ++ r =
  fmt_0nx 4 x ++ fold_right (fun y s => ":" ++ fmt_0nx 4 y ++ s) r l.
Proof.
  intros x l r. revert x. induction l as [|y l IH]; intros x; [reflexivity|].
  change (String.concat ":" (map (fmt_0nx 4) (x :: y :: l))) with (fmt_0nx 4 x ++ ":" ++ String.concat ":" (map (fmt_0nx 4) (y :: l))).
  rewrite !sapp_assoc, IH. reflexivity.
Qed.
Lemma groups_split : forall l l', length l = length l' -> Forall (fun x => 0 <= x < 2 ^ 16) l -> Forall (fun x => 0 <= x < 2 ^ 16) l' ->
  fold_right (fun y s => ":" ++ fmt_0nx 4 y ++ s) "" l = fold_right (fun y s => ":" ++ fmt_0nx 4 y ++ s) "" l' -> l = l'.
Proof.
  induction l as [|x l IH]; intros [|x' l'] L F F' E; try discriminate; [reflexivity|].
  inversion F; inversion F'; subst. cbn [fold_right] in E. apply app_cancel in E.
  apply (run_split (fun a => negb (Ascii.eqb a ":"))) in E; try apply hex_chars.
  - destruct E as [E1 E2]. f_equal; [|apply IH; auto].
    destruct (fmt_0nx_value 4 x) as [_ V]; [lia|]. destruct (fmt_0nx_value 4 x') as [_ V']; [lia|]. rewrite E1 in V. congruence.
  - destruct l; reflexivity.
  - destruct l'; reflexivity.
Qed.
Lemma v6_long_text : v6_text v6_long.
Proof.
  split.
  - intros l l' [L F] [L' F'] E. unfold v6_long in E. destruct l as [|x l]; [discriminate|]. destruct l' as [|x' l']; [discriminate|].
    apply (f_equal (fun s => s ++ "")) in E. rewrite !colons in E. apply groups_split; auto; [congruence|].
    cbn [fold_right]. congruence.
  - intros l _. unfold v6_long. induction l as [|x l IH]; [reflexivity|]. destruct l as [|y l].
    + cbn [map String.concat]. apply hex_chars.
    + change (String.concat ":" (map (fmt_0nx 4) (x :: y :: l))) with (fmt_0nx 4 x ++ ":" ++ String.concat ":" (map (fmt_0nx 4) (y :: l))).
      rewrite !chars_app. rewrite IH. destruct (hex_chars 4 x) as [-> _]. reflexivity.
Qed.
