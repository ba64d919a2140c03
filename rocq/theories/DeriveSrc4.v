(** Plans made from the texts, and the bodies printed for them. *)
From Coq Require Import String Ascii ZArith List Bool Lia ZifyBool ZifyNat.
From Verif Require Import Base DeriveUtil DeriveOps DeriveGen RustAst RustEval CrateText2 SpecSource2 EvalTac DeriveSrc DeriveSrc2 DeriveSrc3 DeriveUtilProofs SpecPacket BitSpec EmitText SpecRust DeriveParse EmitSpecProofs EmitTextProofs.
From Verif Require RustSem DeriveLEProofs FmtText MacAddr Names SourceProofs.
Import ListNotations.
Open Scope string_scope.
Open Scope Z_scope.
From Verif Require Import SpecSource2.
Ltac Zify.zify_post_hook ::= Z.to_euclidean_division_equations.
Definition fits_b (o : getop) : bool :=
  ((0 <=? g_mask o) && (g_mask o <? 256) && (0 <=? g_shiftl o) && (g_shiftl o <? 64) && (0 <=? g_shiftr o) && (g_shiftr o <? 256))%bool.
Definition getop_small (o : getop) : Prop := getop_ok o /\ g_shiftl o < 64.
Lemma fits_small : forall o, fits_b o = true -> getop_small o.
Proof. intros o H. unfold fits_b in H. unfold getop_small, getop_ok, is_u8. lia. Qed.
Definition zs (a : Z) (n : nat) : list Z := map (fun i => a + Z.of_nat i) (seq 0 n).
Lemma in_zs : forall a n x, a <= x < a + Z.of_nat n -> In x (zs a n).
Proof. intros a n x H. unfold zs. apply in_map_iff. exists (Z.to_nat (x - a)). split; [lia | apply in_seq; lia]. Qed.
Lemma be_sweep : forallb (fun o => forallb (fun s => if o + s mod 8 <=? 8 then forallb fits_b (be_ops o s) else true) (zs 1 64)) (zs 0 8) = true.
Proof. vm_compute. reflexivity. Qed.
Lemma be_small : forall o s, placed o s -> Forall getop_small (be_ops o s).
Proof.
  intros o s [O [S P]]. pose proof be_sweep as H. rewrite forallb_forall in H. specialize (H o (in_zs 0 8 o ltac:(lia))). cbv beta in H.
  rewrite forallb_forall in H. specialize (H s (in_zs 1 64 s ltac:(lia))). cbv beta in H. replace (o + s mod 8 <=? 8) with true in H by lia.
  rewrite forallb_forall in H. apply Forall_forall. intros x X. apply fits_small. now apply H.
Qed.
Lemma le_small : forall l, Forall getop_small l -> Forall getop_small (to_little_endian l).
Proof.
  intros l F. rewrite Forall_forall in F. unfold to_little_endian. apply Forall_forall. intros x X. apply in_map_iff in X.
  destruct X as [[a b] [<- X]]. pose proof (in_combine_l _ _ _ _ X) as A. apply in_combine_r in X. apply in_rev in X.
  destruct (F a A) as [[? [? ?]] ?], (F b X) as [[? [? ?]] ?]. cbn [fst snd]. repeat split; cbn [g_mask g_shiftl g_shiftr]; red in H, H0, H1, H3, H4, H5; lia.
Qed.
Lemma plan_small : forall m h o s e ops, placed o s -> operations m h o s e = Ok (Some ops) -> Forall getop_small ops.
Proof.
  intros m h o s e ops P E. rewrite operations_closed in E by exact P. injection E as <-. pose proof (be_small o s P). destruct e; [| | destruct h]; auto using le_small.
Qed.
Lemma setop_of : forall o, getop_small o -> setop_ok (to_setop o).
Proof.
  intros o [[A [B C]] D]. red in A, B, C. unfold to_setop. repeat split; cbn [s_save s_vmask s_shiftl s_shiftr]; try lia; apply Z.mod_pos_bound; reflexivity.
Qed.
Lemma setops_of : forall l, Forall getop_small l -> Forall setop_ok (to_mutator l).
Proof. intros l F. unfold to_mutator. apply Forall_map. eapply Forall_impl; [| exact F]. exact setop_of. Qed.
Lemma terms_short : forall n, (n <= 9)%nat -> slen (return_terms 0 n) < 2 ^ 64.
Proof.
  intros n N. do 10 (destruct n as [| n]; [vm_compute; reflexivity |]). lia.
Qed.
Lemma operations_run : forall c rounds o s e, is_usize o -> is_usize s -> (9 <= rounds)%nat ->
  run c rounds "derive" "operations" [usize_v o; usize_v s; endian_v e] =
  outcome (opt_v plan_v) (operations (c_macro c) (c_host_le c) o s e).
Proof. intros. exact (operations_src c rounds 1 o s e ltac:(assumption) ltac:(assumption) ltac:(assumption)). Qed.
Lemma mutator_run : forall c rounds l, Forall (fun o => getop_ok o /\ g_shiftl o < 64) l -> (65 <= rounds)%nat ->
  run c rounds "derive" "to_mutator" [plan_v l] = FDone (XL (map setop_v (to_mutator l))).
Proof. intros. exact (to_mutator_src c rounds 3 l ltac:(assumption) ltac:(assumption)). Qed.
Lemma getter_text_run : forall c rounds name ty l, Forall getop_ok l -> (List.length l <= 9)%nat -> (17 <= rounds)%nat ->
  run c rounds "derive" "gen_get_ops" [XS name; XS ty; plan_v l] =
  outcome XS (match l, c_macro c with [], Checked => Panic EOverflow | _, _ => Ok (get_body name ty l) end).
Proof. intros. exact (gen_get_ops_src c rounds 2 name ty l ltac:(assumption) (terms_short (List.length l) ltac:(assumption)) ltac:(assumption)). Qed.
Lemma setter_text_run : forall c rounds name l, Forall setop_ok l -> (17 <= rounds)%nat ->
  run c rounds "derive" "gen_set_ops" [XS name; XL (map setop_v l)] = FDone (XS (set_body name l)).
Proof. intros. exact (gen_set_ops_src c rounds 2 name l ltac:(assumption) ltac:(assumption)). Qed.
Lemma display_run : forall c rounds, (17 <= rounds)%nat ->
  (forall z, is_u8 z -> run c rounds "derive" "radix16_u8" [u8_v z] = FDone (XS (hex z))) /\
  (forall z, 0 <= z < 2 ^ 64 -> run c rounds "derive" "radix16_u64" [u64_v z] = FDone (XS (hex z))) /\
  (forall o, getop_ok o -> run c rounds "derive" "GetOperation::fmt" [getop_v o] = FDone (XS (get_op_text o))) /\
  (forall o, setop_ok o -> run c rounds "derive" "SetOperation::fmt" [setop_v o] = FDone (XS (set_op_text o))) /\
  (forall e, run c rounds "derive" "Endianness::fmt" [endian_v e] =
             FDone (XS (match e with Big => "big-endian" | Little => "little-endian" | Host => "host-endian" end))).
Proof.
  intros c rounds R. repeat split; intros.
  - exact (radix16_u8_src c rounds 4 z ltac:(assumption) R).
  - exact (radix16_u64_src c rounds 4 z ltac:(assumption) R).
  - exact (getop_fmt_src c rounds 3 o ltac:(assumption) R).
  - exact (setop_fmt_src c rounds 3 o ltac:(assumption) R).
  - exact (endian_fmt_src c rounds 4 e).
Qed.
Lemma helpers_run : forall c rounds, (65 <= rounds)%nat ->
  (forall o n, is_usize o -> is_usize n -> run c rounds "derive" "get_mask" [usize_v o; usize_v n] = outcome pair_v (get_mask o n)) /\
  (forall o n, 0 <= o <= 8 -> is_usize n -> run c rounds "derive" "bits_remaining_in_byte" [usize_v o; usize_v n] = FDone (usize_v (bits_in_byte o n))) /\
  (forall o s i n, is_usize o -> is_usize s -> 0 <= i < 2 ^ 60 -> 0 <= n < 2 ^ 60 ->
     run c rounds "derive" "get_shiftl" [usize_v o; usize_v s; usize_v i; usize_v n] = outcome u8_v (get_shiftl (c_macro c) o s i n) /\
     run c rounds "derive" "get_shiftr" [usize_v o; usize_v s; usize_v i; usize_v n] = outcome u8_v (get_shiftr (c_macro c) o s i n)) /\
  (forall n, 0 <= n <= 64 -> run c rounds "derive" "mask_high_bits" [u64_v n] = FDone (u64_v (mask_high_bits n))) /\
  (forall l, run c rounds "derive" "to_little_endian" [plan_v l] = FDone (plan_v (to_little_endian l))).
Proof.
  intros c rounds R. repeat split; intros.
  - exact (get_mask_src c rounds 2 o n ltac:(assumption) ltac:(assumption) ltac:(lia)).
  - exact (bits_in_byte_src c rounds 3 o n ltac:(assumption) ltac:(assumption)).
  - exact (get_shiftl_src c rounds 4 o s i n ltac:(assumption) ltac:(assumption) ltac:(assumption) ltac:(assumption)).
  - exact (get_shiftr_src c rounds 4 o s i n ltac:(assumption) ltac:(assumption) ltac:(assumption) ltac:(assumption)).
  - exact (mask_high_bits_src c rounds 4 n ltac:(assumption) R).
  - exact (to_little_endian_src c rounds 4 l).
Qed.

(** From the source to the bits of the field. *)
Lemma place_placed : forall h bit p, place_ok h bit p -> placed (bit mod 8) (p_size p).
Proof. intros h bit p [S P]. unfold placed. destruct (big_endian h (p_end p)); lia. Qed.
Lemma small_ok : forall l, Forall getop_small l -> Forall getop_ok l.
Proof. intros l F. eapply Forall_impl; [| exact F]. intros a [A _]. exact A. Qed.
Lemma placed_plan : forall c bit size e, placed (bit mod 8) size ->
  exists ops, plan c bit (Prim size e) = Some ops /\ operations (c_macro c) (c_host_le c) (bit mod 8) size e = Ok (Some ops) /\
    Forall getop_small ops /\ (1 <= List.length ops <= 9)%nat.
Proof.
  intros c bit size e P. destruct (operations (c_macro c) (c_host_le c) (bit mod 8) size e) as [[ops |] |] eqn:E;
    rewrite operations_closed in E by exact P; try discriminate E.
  exists ops. rewrite <- (operations_closed (c_macro c) (c_host_le c) _ _ e P) in E.
  split; [unfold plan; cbn [p_size p_end]; now rewrite E |]. split; [reflexivity |]. split; [exact (plan_small _ _ _ _ _ _ P E) |].
  apply DeriveLEProofs.operations_length in E. destruct P as [O [S Q]]. unfold num_bytes in E. destruct ((0 <? bit mod 8) || negb (size mod 8 =? 0))%bool eqn:B; lia.
Qed.
Lemma getter_from_source : forall c rounds bit ty size e x name,
  parse_ty ty = Some (size, e, x) -> type_width ty <> None ->
  In name buffer_names -> 0 <= bit -> place_ok (c_host_le c) bit (Prim size e) -> (65 <= rounds)%nat ->
  exists ops text l,
    run c rounds "derive" "operations" [usize_v (bit mod 8); usize_v size; endian_v e] = FDone (XE "Some" [ops]) /\
    run c rounds "derive" "gen_get_ops" [XS name; XS ty; ops] = FDone (XS text) /\
    block text = Some l /\
    forall b co, bytes_ok b -> blen b < 2 ^ 63 -> 0 <= co -> 8 * co + bit mod 8 + size <= 8 * blen b ->
      returns (c_mode c) b [("co", usize)] [("co", co)] l =
      Ok (dec_prim (c_host_le c) (Prim size e) (field_bits b (Z.to_nat (8 * co + bit mod 8)) (Z.to_nat size))).
Proof.
  intros c rounds bit ty size e x name PT TW NM B0 PL R. pose proof (place_placed _ _ _ PL) as P. cbn [p_size] in P.
  destruct (placed_plan c bit size e P) as [ops [E1 [E2 [SM LN]]]].
  destruct (getter_text_value c bit ty size e x name PT TW NM B0 PL) as [ops' [l [E3 [BL V]]]].
  rewrite E1 in E3. injection E3 as <-.
  exists (plan_v ops), (get_body name ty ops), l. split; [| split; [| split; [exact BL | exact V]]].
  - rewrite operations_run by (lia || (unfold is_usize; destruct P as [? [? ?]]; lia)). rewrite E2. reflexivity.
  - rewrite getter_text_run by (lia || exact (small_ok _ SM)). destruct ops; [cbn in LN; lia |]. destruct (c_macro c); reflexivity.
Qed.
Lemma setter_from_source : forall c rounds bit ty size e x name,
  parse_ty ty = Some (size, e, x) -> type_width ty <> None ->
  In name buffer_names -> 0 <= bit -> place_ok (c_host_le c) bit (Prim size e) -> (65 <= rounds)%nat ->
  exists ops mut text l,
    run c rounds "derive" "operations" [usize_v (bit mod 8); usize_v size; endian_v e] = FDone (XE "Some" [ops]) /\
    run c rounds "derive" "to_mutator" [ops] = FDone mut /\
    run c rounds "derive" "gen_set_ops" [XS name; mut] = FDone (XS text) /\
    block text = Some l /\
    forall b co val, bytes_ok b -> blen b < 2 ^ 63 -> 0 <= co -> 0 <= val -> 8 * co + bit mod 8 + size <= 8 * blen b ->
      exists b', assigns (c_mode c) [("co", usize); ("val", container size)] [("co", co); ("val", val)] l b = (b', Ok tt) /\
        bits_written b (Z.to_nat (8 * co + bit mod 8)) (enc_prim (c_host_le c) (Prim size e) val) b'.
Proof.
  intros c rounds bit ty size e x name PT TW NM B0 PL R. pose proof (place_placed _ _ _ PL) as P. cbn [p_size] in P.
  destruct (placed_plan c bit size e P) as [ops [E1 [E2 [SM LN]]]].
  destruct (setter_text_bits c bit ty size e x name PT TW NM B0 PL) as [ops' [l [E3 [BL V]]]].
  rewrite E1 in E3. injection E3 as <-.
  exists (plan_v ops), (XL (map setop_v (to_mutator ops))), (set_body name (to_mutator ops)), l. split; [| split; [| split; [| split; [exact BL | exact V]]]].
  - rewrite operations_run by (lia || (unfold is_usize; destruct P as [? [? ?]]; lia)). rewrite E2. reflexivity.
  - apply mutator_run; [exact SM | exact R].
  - apply setter_text_run; [exact (setops_of _ SM) | lia].
Qed.
