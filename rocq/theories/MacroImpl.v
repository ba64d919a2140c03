(** The functions of the derive macro around the loop over the fields, run from their text. *)
From Coq Require Import String Ascii ZArith List Bool Lia.
From Verif Require Import Base DeriveUtil DeriveOps DeriveParse RustLex RustSyntax RustMethod RustAst RustEval EmitText EmitGen GenCode MacroEval MacroCode MacroFill MacroSym MacroLoop MacroMisc SpecAny MacroRound MacroParts.
Import ListNotations.
Open Scope string_scope.
Open Scope Z_scope.

Section Impl.
Variables (m : mode) (h : bool) (parsed : gv) (base : string) (ps : list pfield).
Notation G := (gev (planned m h) fs_c q_c parsed).
Hypothesis fit : all_bits ps < 2 ^ 64.
Hypothesis texts : all_fine 0 [] ps.

Definition bounds (s : emitted) : gv := GR [("lower", GQ (e_lower s)); ("upper", GQ (e_upper s))].
Lemma total_pos : forall l b o, all_fine b o l -> 0 <= all_bits l.
Proof.
  unfold all_bits. induction l as [| q l IH]; intros b o F; cbn [map fold_right]; [lia |]. destruct F as [[F1 _] F]. apply width_pos in F1. apply IH in F. lia.
Qed.
Lemma whole_loop : forall k mu nm s', (40 <= k)%nat -> emit_fields m h nm ps start = Some s' ->
  each (G k) (QVar "field") loop_body (map gfield ps) (env0 (gpacket base ps) mu nm start) = Done GUnit (env0 (gpacket base ps) mu nm s') /\ 0 <= e_bit s' < 2 ^ 64.
Proof.
  intros k mu nm s' K E. pose proof (total_pos ps 0 [] texts) as TP.
  assert (FT : e_bit start + all_bits ps < 2 ^ 64) by (change (0 + all_bits ps < 2 ^ 64); rewrite Z.add_0_l; exact fit).
  destruct (loop m h parsed (gpacket base ps) mu nm k ps start s' K E texts (Z.le_refl 0) FT) as [W B]. split; [exact W |]. rewrite B. change (e_bit start) with 0 in *. lia.
Qed.
Lemma run_impl : forall k (mu : bool) s', (60 <= k)%nat -> emit_fields m h (type_name base mu) ps start = Some s' ->
  exists env, G k (fu_body f_packet_impl) [("packet", gpacket base ps); ("mutable", GB mu)] =
    Done (GE "Ok" [GT [GQ (impl_from base mu s'); bounds s'; GQ (offset_tokens (e_bit s') (e_offs s'))]]) env.
Proof.
  intros k mu s' K E. do 20 (destruct k as [| k]; [exfalso; lia |]).
  match type of K with (_ <= S ?k)%nat => destruct (whole_loop k mu (type_name base mu) s' ltac:(lia) E) as [W SB] end.
  unfold env0 in W. unfold start in W at 1 2 3 4 5 6 7 8. cbn [e_bit e_offs e_soffs e_acc e_mut e_pop e_lower e_upper] in W.
  unfold f_packet_impl. cbn [fu_body]. unfold gpacket in *. unfold loop_body in W.
  assert (SD : 0 <= e_bit s' / 8 < 2 ^ 63).
  { split; [apply Z.div_pos; lia |]. apply Z.div_lt_upper_bound; lia. }
  destruct (e_bit s' mod 8 =? 0) eqn:M8; destruct mu; eexists.
  all: eapply to_done; [eapply r_block; [sts | ev | drop] | | reflexivity].
  all: unfold impl_from, bounds; rewrite M8; cbv zeta iota; tplnames.
  all: apply (f_equal (fun x => GE "Ok" [GT [GQ x; _; _]])); same.
Qed.

End Impl.
