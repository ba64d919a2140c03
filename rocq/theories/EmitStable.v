(** The emitted code does not depend on how the macro crate was built. *)
From Coq Require Import String Ascii ZArith List Bool Lia.
From Verif Require Import Base BaseFacts DeriveUtil DeriveOps DeriveGen DeriveParse RustSem EmitText RustLex EmitGen EmitWant EmitEq EmitRun EmitOps.
Import ListNotations.
Open Scope string_scope.
Open Scope Z_scope.

Definition getop_eqb (a b : getop) : bool :=
  ((g_mask a =? g_mask b) && (g_shiftl a =? g_shiftl b) && (g_shiftr a =? g_shiftr b))%bool.
Lemma getop_eqb_ok : forall a b, getop_eqb a b = true -> a = b.
Proof.
  intros [x1 x2 x3] [y1 y2 y3] H. unfold getop_eqb in H. cbn in H. apply andb_prop in H. destruct H as [H H3]. apply andb_prop in H. destruct H as [H1 H2].
  apply Z.eqb_eq in H1, H2, H3. congruence.
Qed.
Definition stable_at (bit s : Z) (e : endian) : bool :=
  forallb (fun m => forallb (fun h => opt_eqb (list_eqb getop_eqb) (ops_of Checked true bit s e) (ops_of m h bit s e)) [true; false]) [Checked; Wrapping].
Lemma stable_ops : forall bit s e m h, stable_at bit s e = true -> ops_of m h bit s e = ops_of Checked true bit s e.
Proof.
  intros bit s e m h H. unfold stable_at in H. rewrite forallb_forall in H. assert (IM : In m [Checked; Wrapping]) by (destruct m; cbn; auto).
  specialize (H m IM). rewrite forallb_forall in H. assert (IH : In h [true; false]) by (destruct h; cbn; auto). specialize (H h IH). symmetry.
  refine (opt_eqb_ok _ _ _ _ _ H). intros x _ y Q. refine (list_eqb_ok _ _ _ _ _ Q). apply Forall_forall. intros a _ z. apply getop_eqb_ok.
Qed.
(** A primitive at a bit offset: its operations exist, are the same however the macro was
    built, and its type has the size the model gives it. *)
Definition prim_ready (bit : Z) (t : rtype) : bool :=
  match t with
  | RPrimitive n s e =>
      (stable_at bit s e && match ops_of Checked true bit s e with Some (_ :: _) => true | _ => false end &&
       match int_ty n with Some u => width u =? container s | None => false end)%bool
  | _ => false
  end.
Fixpoint args_ready (bit : Z) (l : list rtype) : bool :=
  match l with [] => true | t :: r => (prim_ready bit t && args_ready (bit + args_size [t]) r)%bool end.
Definition is_u8 (t : rtype) : bool := match t with RPrimitive n s e => (String.eqb n "u8" && (s =? 8) && match e with Big => true | _ => false end)%bool | _ => false end.
Definition ty_ready (bit : Z) (p : pfield) : bool :=
  match pf_ty p with
  | RPrimitive _ _ _ as t => prim_ready bit t
  | RMisc _ => args_ready bit (pf_cons p)
  | RVector (RPrimitive _ _ _ as t) => is_u8 t
  | RVector (RMisc _) => true
  | RVector (RVector _) => false
  end.
Fixpoint tys_ready (bit : Z) (ps : list pfield) : bool :=
  match ps with [] => true | p :: r => (ty_ready bit p && tys_ready (bit + bits_of p) r)%bool end.

Lemma prim_ready_ops : forall bit n s e, prim_ready bit (RPrimitive n s e) = true ->
  exists ops u, (forall m h, ops_of m h bit s e = Some ops) /\ ops <> [] /\ int_ty n = Some u /\ width u = container s /\ ops_at bit (RPrimitive n s e) = ops.
Proof.
  intros bit n s e H. cbn [prim_ready] in H. apply andb_prop in H. destruct H as [H H3]. apply andb_prop in H. destruct H as [H1 H2].
  destruct (ops_of Checked true bit s e) as [[| o l] |] eqn:O; try discriminate. destruct (int_ty n) as [u |]; [| discriminate].
  exists (o :: l), u. split; [intros m h; rewrite (stable_ops _ _ _ m h H1); exact O |]. split; [discriminate |]. split; [reflexivity |].
  split; [now apply Z.eqb_eq |]. cbn [ops_at]. now rewrite O.
Qed.
Lemma misc_stable : forall m h n offs l i bit, args_ready bit l = true -> misc_args m h n offs i bit l = misc_args Checked true n offs i bit l.
Proof.
  intros m h n offs. induction l as [| t l IH]; intros i bit H; [reflexivity |]. cbn [args_ready] in H. apply andb_prop in H. destruct H as [H1 H2].
  destruct t as [ty s e | |]; try discriminate. cbn [misc_args]. destruct (prim_ready_ops _ _ _ _ H1) as (ops & u & O & _).
  rewrite (O m h), (O Checked true), (IH (i + 1) (bit + s)); [reflexivity |]. replace (bit + s) with (bit + args_size [RPrimitive ty s e]); [exact H2 |]. cbn. lia.
Qed.
Lemma misc_bit : forall m h n offs l i bit r, misc_args m h n offs i bit l = Some r -> fst (fst (fst (fst r))) = bit + args_size l.
Proof.
  intros m h n offs. induction l as [| t l IH]; intros i bit r H; [injection H as <-; cbn; lia |]. cbn [misc_args] in H. destruct t as [ty s e | |]; try discriminate.
  destruct (ops_of m h bit s e); [| discriminate]. destruct (misc_args m h n offs (i + 1) (bit + s) l) as [[[[[bit' a] u] g] t] |] eqn:Q; [| discriminate].
  injection H as <-. apply IH in Q. cbn [fst] in *. unfold args_size in *. cbn [fold_right]. lia.
Qed.
Lemma field_stable : forall m h n p s, ty_ready (e_bit s) p = true -> emit_field m h n p s = emit_field Checked true n p s.
Proof.
  intros m h n p s H. unfold ty_ready in H. unfold emit_field. destruct (pf_ty p) as [ty z e | [ty z e | |] |].
  - destruct (prim_ready_ops _ _ _ _ H) as (ops & u & O & _). now rewrite (O m h), (O Checked true).
  - cbn [is_u8] in H. apply andb_prop in H. destruct H as [H _]. apply andb_prop in H. destruct H as [_ H]. apply Z.eqb_eq in H. subst z.
    replace (ops_of m h 0 8 Big) with (ops_of Checked true 0 8 Big) by (destruct m, h; reflexivity). reflexivity.
  - reflexivity.
  - reflexivity.
  - now rewrite (misc_stable m h).
Qed.
Lemma field_bit : forall m h n p s s', emit_field m h n p s = Some s' -> e_bit s' = e_bit s + bits_of p.
Proof.
  intros m h n p s s' H. unfold emit_field in H. unfold bits_of. destruct (pf_ty p) as [ty z e | [ty z e | |] |].
  - destruct (ops_of m h (e_bit s) z e); [| discriminate]. injection H as <-. reflexivity.
  - destruct (negb _); [discriminate |]. destruct (ops_of m h 0 z Big); [| discriminate]. injection H as <-. cbn. lia.
  - discriminate.
  - injection H as <-. cbn. lia.
  - destruct (misc_args m h n (e_offs s) 0 (e_bit s) (pf_cons p)) as [[[[[bit' a] u] g] t] |] eqn:Q; [| discriminate]. injection H as <-.
    cbn [e_bit]. exact (misc_bit _ _ _ _ _ _ _ _ Q).
Qed.
Lemma fields_stable : forall m h n ps s, tys_ready (e_bit s) ps = true -> emit_fields m h n ps s = emit_fields Checked true n ps s.
Proof.
  intros m h n. induction ps as [| p ps IH]; intros s H; [reflexivity |]. cbn [tys_ready] in H. apply andb_prop in H. destruct H as [H1 H2].
  cbn [emit_fields]. rewrite (field_stable m h n p s H1). destruct (emit_field Checked true n p s) as [s' |] eqn:E; [| reflexivity].
  apply IH. now rewrite (field_bit _ _ _ _ _ _ E).
Qed.
Lemma impl_stable : forall m h mu base ps, tys_ready 0 ps = true -> emit_impl m h mu base ps = emit_impl Checked true mu base ps.
Proof. intros m h mu base ps H. unfold emit_impl. now rewrite (fields_stable m h _ ps start H). Qed.
Lemma size_stable : forall m h base ps, tys_ready 0 ps = true -> emit_size m h base ps = emit_size Checked true base ps.
Proof. intros m h base ps H. unfold emit_size. now rewrite (fields_stable m h _ ps start H). Qed.
Lemma packet_stable : forall m h base ps a b, tys_ready 0 ps = true -> emit_packet m h base ps a b = emit_packet Checked true base ps a b.
Proof. intros m h base ps a b H. unfold emit_packet. now rewrite (fields_stable m h _ ps start H). Qed.

(** What an operation gives fits the type. *)
Lemma land_low : forall x k, 0 <= x < 256 -> 0 <= Z.land x k < 256.
Proof.
  intros x k H. assert (E : Z.land x k = Z.land x k mod 2 ^ 8).
  { apply Z.bits_inj'. intros n N. destruct (Z.lt_ge_cases n 8).
    - now rewrite Z.mod_pow2_bits_low.
    - rewrite Z.mod_pow2_bits_high by lia. rewrite Z.land_spec. rewrite <- (Z.mod_small x (2 ^ 8)) by lia. now rewrite Z.mod_pow2_bits_high by lia. }
  rewrite E. apply Z.mod_pos_bound. lia.
Qed.
Lemma fits_any : forall m t op, op_fits m t op.
Proof.
  intros m t op x z X E. unfold eval_getop in E. pose proof (width_pos t) as W.
  assert (P : 2 ^ 8 <= 2 ^ width t) by (apply Z.pow_le_mono_r; lia).
  set (v := if g_mask op =? 255 then x else Z.land x (g_mask op)) in *.
  assert (V : 0 <= v < 256) by (unfold v; destruct (g_mask op =? 255); [exact X | now apply land_low]).
  assert (SR : forall k, 0 <= k -> 0 <= Z.shiftr v k < 2 ^ width t).
  { intros k K. rewrite Z.shiftr_div_pow2 by exact K. assert (0 < 2 ^ k) by (apply Z.pow_pos_nonneg; lia). split; [apply Z.div_pos; lia |].
    apply Z.le_lt_trans with v; [apply Z.div_le_upper_bound; nia | lia]. }
  assert (SL : forall k, 0 <= Z.shiftl v k mod 2 ^ width t < 2 ^ width t) by (intros k; apply Z.mod_pos_bound; lia).
  destruct (g_shiftr op - g_shiftl op =? 0); [injection E as <-; lia |].
  destruct (g_shiftr op - g_shiftl op <? 0) eqn:L.
  - unfold shl_u in E. destruct ((0 <=? _) && (_ <? _))%bool; [injection E as <-; apply SL |]. destruct m; [discriminate | injection E as <-; apply SL].
  - unfold shr_u in E. apply Z.ltb_ge in L. destruct ((0 <=? _) && (_ <? _))%bool; [injection E as <-; now apply SR |].
    destruct m; [discriminate | injection E as <-; apply SR; apply Z.mod_pos_bound; lia].
Qed.
