(** The emitted iterator and the emitted conversions do what the model says. *)
From Coq Require Import String Ascii ZArith List Bool Lia.
From Verif Require Import Base BaseFacts DeriveUtil DeriveOps DeriveGen DeriveParse SpecPacket DeriveAccProofs DeriveApiProofs DeriveVarProofs DerivePropProofs2
  Protocols ProtoFacts ProtoStructProofs Quic FmtText RustLex RustSyntax RustItem RustSem RustMethod RustExec CrateText StackProofs
  SpecSource SpecItem ItemProofs ItemLayout EmitText EmitGen SpecEmit SpecEmitIter EmitEq EmitWant EmitTransfer EmitLayout EmitOps EmitRun EmitStable EmitReads
  EmitPkts EmitCheck EmitProofs EmitIter EmitConv.
Import ListNotations.
Open Scope string_scope.
Open Scope Z_scope.

Lemma more_of : forall name mo ps, parsed mo name ps -> conv_ready mo name ps = true /\ emits_more name ps = true.
Proof.
  intros name mo ps (text & sf & IT & RS & PP). assert (SF : struct_fields text = ps) by (unfold struct_fields; now rewrite RS, PP).
  pose proof (proj1 (forallb_forall _ _) conv_all _ IT) as R. cbn beta iota in R. rewrite SF in R. now apply andb_prop in R.
Qed.
Lemma both_long : forall A B (R : A -> B -> Prop) l k, Forall2 R l k -> List.length l = List.length k.
Proof. intros A B R l k H. induction H; cbn [List.length]; congruence. Qed.
Lemma misc_length : forall c qs bit lens b l, misc_get c qs bit lens b = Ok l -> List.length l = List.length qs.
Proof.
  intros c. induction qs as [| q qs IH]; intros bit lens b l H; cbn [misc_get] in H; [injection H as <-; reflexivity |].
  destruct (current_offset c bit lens) as [co |]; [| discriminate]. cbn [bind] in H. destruct (prim_get c bit q b co) as [z |]; [| discriminate]. cbn [bind] in H.
  destruct (misc_get c qs (bit + p_size q) lens b) as [r |] eqn:M; [| discriminate]. injection H as <-. cbn [List.length]. now rewrite (IH _ _ _ _ M).
Qed.
Lemma bits_nonneg : forall c name fs mo ps, In (name, fs) (all_packets c) -> parsed mo name ps -> 0 <= total_bits fs.
Proof.
  intros c name fs mo ps I P. destruct (more_of _ _ _ P) as [R _]. apply andb_prop in R. destruct R as [R _].
  rewrite <- (total_is c name fs mo ps (facts_of _ _ _ _ _ I P)). lia.
Qed.

Section Conv.
Variables (c : cfg) (name : string) (fs : schema) (mo : string) (ps : list pfield) (rounds : nat) (mu : bool) (b : buf).
Hypotheses (I : In (name, fs) (all_packets c)) (FA : facts c mo name ps fs) (B : buf_ok b).
Let RE : readiness mo name ps := ready_is _ _ _ (fa_ready _ _ _ _ _ FA).

Lemma all_typed : forall p, In p ps -> typed c fs p b.
Proof.
  intros p IP v G. destruct (at_field c name fs mo ps rounds mu b I FA B p IP) as (s & l & IS & <- & OK & FF & LG & SR).
  unfold get in G. rewrite FF, LG in G. unfold field_get in G. pose proof OK as ((N & PA & T & SL) & _). unfold field_rv. unfold spot_ready in SR.
  destruct (f_ty (l_field l)) as [q | qs | q | k]; cbn [same_type] in T.
  - destruct T as [n T]. rewrite T. fold (l_co c l) in G. destruct (l_co c l); [| discriminate]. cbn [bind] in G. destruct (prim_get c (l_bit l) q b a); [| discriminate].
    injection G as <-. discriminate.
  - destruct T as [T AR]. rewrite T in *. destruct (misc_get c qs (l_bit l) (l_lens l) b) as [z |] eqn:M; [| discriminate]. injection G as <-.
    rewrite (misc_length _ _ _ _ _ _ M), <- (both_long _ _ _ _ _ AR), PeanoNat.Nat.eqb_refl.
    apply andb_prop in SR. destruct SR as [AD MR].
    destruct (misc_run c rounds mo name mu ps fs name b s l _ _ qs (int_ty (field_type name (pf_name (sp_field s)))) (int_ty (field_type name (pf_name (sp_field s)))) OK B AR AD MR) as (u & -> & _).
    discriminate.
  - destruct T as (x & T & n & ->). rewrite T. destruct (var_slice c (current_offset c (l_bit l) (l_lens l)) (l_len l) b) as [d |]; [| discriminate]. cbn [bind] in G.
    match type of G with rmap _ ?a = _ => destruct a; [| discriminate] end. injection G as <-. discriminate.
  - destruct T as (gs & T & _). rewrite T. destruct (var_slice c (current_offset c (l_bit l) (l_lens l)) (l_len l) b) as [d |]; [| discriminate]. cbn [bind] in G.
    match type of G with rmap _ ?a = _ => destruct a; [| discriminate] end. injection G as <-. discriminate.
Qed.
Lemma from_fields : from_packet c fs b = seq_res (map (fun p => get c fs (pf_name p) b) ps).
Proof.
  unfold from_packet. f_equal. pose proof (all_spots c name fs mo ps rounds mu b I FA B) as S.
  assert (F : forall l, In l (layout c b fs) -> get c fs (f_name (l_field l)) b = l_get l).
  { intros l IL. unfold get, find_field. rewrite find_by_name; [reflexivity | | exact IL].
    rewrite <- (map_map l_field f_name). unfold layout. rewrite layout_fields. rewrite <- (names_same _ _ _ _ _ _ _ (fa_same _ _ _ _ _ FA)). exact (re_names _ _ _ RE). }
  rewrite <- (spots_fields ps 0 []) at 1. rewrite map_map. induction S as [| s l S L Q H IH]; [reflexivity |].
  cbn [map]. destruct Q as ((N & _) & _). rewrite N, (F l (or_introl eq_refl)). f_equal. apply IH. intros x X. apply F. now right.
Qed.
Theorem from_reads : parsed mo name ps ->
  reads (run_meth c rounds mo name mu ps fs (snd (want_from name ps)) [VSelf] b) b (from_packet c fs b) (fun vs r => struct_rv ps vs = Some r).
Proof.
  intros P. destruct (more_of _ _ _ P) as [R _]. rewrite from_fields. apply andb_prop in R. destruct R as [_ R].
  assert (X := proj1 (forallb_forall _ _) R mu (ltac:(destruct mu; [right; left; reflexivity | left; reflexivity]))). cbn beta in X. apply andb_prop in X. destruct X as [_ X].
  rewrite run_meth_self by reflexivity. change (m_items (snd (want_from name ps))) with (@nil fn). change (fn_ret (m_fn (snd (want_from name ps)))) with name.
  pose proof X as Y. unfold from_ready in Y. apply andb_prop in Y. destruct Y as [_ Y]. destruct (int_ty name); [discriminate |].
  exact (from_run c rounds mo name mu ps fs b X (re_names _ _ _ RE) all_typed).
Qed.
Lemma more_method : forall n m, parsed mo name ps -> In (n, m) [want_imm name; want_consume name] -> method_of c mu name ps n = Some m.
Proof.
  intros n m P IM. destruct (more_of _ _ _ P) as [_ E]. unfold method_of, impl_of. rewrite (impl_stable _ _ _ _ _ (re_tys _ _ _ RE)). unfold emits_more in E.
  apply andb_prop in E. destruct E as [E _]. apply andb_prop in E. destruct E as [E _].
  assert (X := proj1 (forallb_forall _ _) E mu (ltac:(destruct mu; [right; left; reflexivity | left; reflexivity]))).
  exact (has_method _ _ _ _ X IM).
Qed.
Theorem imm_runs : parsed mo name ps -> forall n, In n ["to_immutable"; "consume_to_immutable"] -> exists me, method_of c mu name ps n = Some me /\
  run_meth c rounds mo name mu ps fs me [VSelf] b = Returned (VP (type_name name false) b) b.
Proof.
  intros P n IN. destruct (more_of _ _ _ P) as [R _]. apply andb_prop in R. destruct R as [_ R].
  assert (X := proj1 (forallb_forall _ _) R mu (ltac:(destruct mu; [right; left; reflexivity | left; reflexivity]))). cbn beta in X. apply andb_prop in X. destruct X as [X _].
  pose proof X as Y. unfold imm_ready in Y. apply andb_prop in Y. destruct Y as [_ Y].
  destruct IN as [<- | [<- | []]].
  - exists (snd (want_imm name)). split; [apply more_method; [exact P | left; reflexivity] |]. rewrite run_meth_self by reflexivity.
    change (fn_ret (m_fn (snd (want_imm name)))) with (type_name name false ++ "<>")%string. destruct (int_ty (type_name name false ++ "<>")); [discriminate |].
    exact (finished_yields "self.packet" b (state b) _ _ eq_refl (imm_run c rounds mo name mu ps fs b X)).
  - exists (snd (want_consume name)). split; [apply more_method; [exact P | right; left; reflexivity] |].
    assert (Z : run_meth c rounds mo name mu ps fs (snd (want_consume name)) [VSelf] b =
      finished "self.packet" (run c rounds mo name mu ps fs [] (int_ty (type_name name false ++ "<>")) (int_ty (type_name name false ++ "<>")) (fn_body (m_fn (snd (want_consume name)))) (state b))) by reflexivity.
    rewrite Z. destruct (int_ty (type_name name false ++ "<>")); [discriminate |].
    exact (finished_yields "self.packet" b (state b) _ _ eq_refl (consume_run c rounds mo name mu ps fs b X)).
Qed.
End Conv.

Theorem iterator_steps : forall c name fs mod_ ps, In (name, fs) (all_packets c) -> parsed mod_ name ps ->
  exists m1 m2, trait_methods (Some (emit_iterable name)) = [m1; m2] /\ fn_name (m_fn m1) = "next" /\ fn_name (m_fn m2) = "size_hint" /\
    forall b, steps name (run_iter c name fs m1 b) b (iter_next (sem_of c fs) b) /\
      run_iter c name fs m2 b = Returned (VT [RustSem.VI None 0; VO None]) b.
Proof.
  intros c name fs mod_ ps I P. destruct (more_of _ _ _ P) as [_ E]. unfold emits_more in E. apply andb_prop in E. destruct E as [E _]. apply andb_prop in E. destruct E as [_ E].
  exists (snd (want_next name)), (snd want_hint). split; [exact (all_methods_ok _ _ E) |]. split; [reflexivity |]. split; [reflexivity |].
  intros b. split; [exact (next_run c name fs (bits_nonneg c name fs mod_ ps I P) b) | reflexivity].
Qed.
Theorem conversions : forall c name fs mod_ ps, In (name, fs) (all_packets c) -> parsed mod_ name ps ->
  exists m1 m2, trait_methods (Some (emit_converters name ps)) = [m1; m2] /\
    forall me, In me [m1; m2] -> fn_name (m_fn me) = "from_packet" /\ forall rounds mutable b, buf_ok b ->
      reads (run_meth c rounds mod_ name mutable ps fs me [VSelf] b) b (from_packet c fs b) (fun vs r => struct_rv ps vs = Some r).
Proof.
  intros c name fs mod_ ps I P. destruct (more_of _ _ _ P) as [_ E]. unfold emits_more in E. apply andb_prop in E. destruct E as [_ E].
  exists (snd (want_from name ps)), (snd (want_from name ps)). split; [exact (all_methods_ok _ _ E) |].
  intros m IM. assert (m = snd (want_from name ps)) as -> by (destruct IM as [<- | [<- | []]]; reflexivity). split; [reflexivity |].
  intros rounds mu b B. exact (from_reads c name fs mod_ ps rounds mu b I (facts_of _ _ _ _ _ I P) B P).
Qed.
Theorem immutable_twin : forall c name fs mod_ ps, In (name, fs) (all_packets c) -> parsed mod_ name ps ->
  forall rounds mutable n b, In n ["to_immutable"; "consume_to_immutable"] -> exists me, method_of c mutable name ps n = Some me /\
    run_meth c rounds mod_ name mutable ps fs me [VSelf] b = Returned (VP (type_name name false) b) b.
Proof. intros c name fs mod_ ps I P rounds mu n b IN. exact (imm_runs c name fs mod_ ps rounds mu b (facts_of _ _ _ _ _ I P) P n IN). Qed.

(** ** The loop *)

Lemma crate_progress : forall c t gs, In (t, gs) (crate_schemas c) -> forall s n, buf_ok s -> packet_size c gs s = Ok n -> 0 < n.
Proof.
  intros c t gs I s n B P. destruct (crate_well_formed c t gs I) as (S & _). destruct (crate_header c t gs I) as (M & H & L).
  apply (size_pos c gs s n); auto; [exact (crate_lens_small c t gs I) |]. apply Z.mod_divide in M; [| lia]. destruct M as [q Q]. lia.
Qed.
Lemma drained : forall c name fs step, (forall s n, buf_ok s -> packet_size c fs s = Ok n -> 0 < n) ->
  (forall b, steps name (step b) b (iter_next (sem_of c fs) b)) ->
  forall n b, buf_ok b -> (List.length b < n)%nat -> exists l e, drain step n b = Some (l, e) /\ items_of c fs b l e.
Proof.
  intros c name fs step PR ST. induction n as [| n IH]; intros b B L; [lia |]. cbn [drain]. rewrite (ST b). unfold iter_next. cbn [sem_of k_min k_size].
  destruct ((0 <? blen b) && (minimum_packet_size fs <=? blen b))%bool eqn:G.
  - apply andb_prop in G. destruct G as [G1 G2]. apply Z.ltb_lt in G1. apply Z.leb_le in G2. assert (NE : b <> []) by (intros ->; cbn in G1; lia).
    destruct (packet_size c fs b) as [z | e] eqn:SZ; cbn [bind].
    + pose proof (PR b z B SZ) as P. set (r := skipn (Z.to_nat (Z.min z (blen b))) b).
      assert (LR : (List.length r < List.length b)%nat) by (unfold r; rewrite skipn_length; unfold blen in *; lia).
      destruct (IH r (buf_ok_skipn _ _ B) ltac:(lia)) as (l & e & D & I). rewrite D. exists (b :: l), e. split; [reflexivity |].
      apply (items_more c fs b z b r); auto. unfold r. destruct (Z.le_ge_cases z (blen b)) as [Q | Q].
      * rewrite Z.min_l by exact Q. now rewrite firstn_skipn.
      * rewrite Z.min_r by exact Q. unfold blen in *. rewrite firstn_all2 by lia. rewrite skipn_all2 by lia. now rewrite app_nil_r.
    + exists [], (Some e). split; [reflexivity | now apply items_panic].
  - exists [], None. split; [reflexivity |]. apply items_end. apply andb_false_iff in G. destruct G as [G | G].
    + left. destruct b; [reflexivity |]. cbn [blen List.length] in G. unfold blen in G. cbn [List.length] in G. lia.
    + right. lia.
Qed.
Theorem loops : forall c name fs mod_ ps, In (name, fs) (crate_schemas c) -> parsed mod_ name ps ->
  exists m1 m2, trait_methods (Some (emit_iterable name)) = [m1; m2] /\ fn_name (m_fn m1) = "next" /\
    forall b, buf_ok b -> exists l e, drain (run_iter c name fs m1) (S (List.length b)) b = Some (l, e) /\ items_of c fs b l e.
Proof.
  intros c name fs mod_ ps I P. destruct (iterator_steps c name fs mod_ ps) as (m1 & m2 & T & N & _ & H); [unfold all_packets; apply in_or_app; now left | exact P |].
  exists m1, m2. split; [exact T |]. split; [exact N |]. intros b B. apply (drained c name); [exact (crate_progress c name fs I) | intros x; exact (proj1 (H x)) | exact B | lia].
Qed.
