(** The emitted methods that read a packet do what the model says. *)
From Coq Require Import String Ascii ZArith List Bool Lia.
From Verif Require Import Base BaseFacts DeriveUtil DeriveOps DeriveGen DeriveParse SpecPacket DeriveAccProofs DeriveApiProofs
  Protocols Quic FmtText RustLex RustSyntax RustItem RustSem RustMethod RustExec CrateText StackProofs
  SpecSource SpecItem ItemProofs ItemLayout EmitText EmitGen SpecEmit EmitEq EmitWant EmitTransfer EmitLayout EmitOps EmitRun EmitStable EmitReads EmitPkts EmitCheck.
Import ListNotations.
Open Scope string_scope.
Open Scope Z_scope.

(** ** The declaration of a packet *)

Lemma nodup_names_ok : forall l, nodup_names l = true -> NoDup l.
Proof.
  induction l as [| x l IH]; intros H; [constructor |]. cbn [nodup_names] in H. apply andb_prop in H. destruct H as [H1 H2].
  constructor; [| now apply IH]. intros I. apply negb_true_iff in H1. assert (X : existsb (String.eqb x) l = true) by (apply existsb_exists; exists x; split; [exact I | apply String.eqb_refl]). congruence.
Qed.
Lemma one_text : forall mo mo' name text text', In (mo, name, text) crate_structs -> In (mo', name, text') crate_structs -> mo = mo' /\ text = text'.
Proof.
  pose proof (nodup_names_ok _ names_all) as N. revert N. generalize crate_structs. induction l as [| [[m n] t] l IH]; intros N mo mo' name text text' I J; [destruct I |].
  cbn [map fst snd] in N. inversion N as [| ? ? NI ND]; subst.
  destruct I as [I | I], J as [J | J].
  - split; congruence.
  - exfalso. apply NI. injection I as _ -> _. change name with (snd (fst (mo', name, text'))). apply in_map with (f := fun t => snd (fst t)) in J. exact J.
  - exfalso. apply NI. injection J as _ -> _. apply in_map with (f := fun t => snd (fst t)) in I. exact I.
  - exact (IH ND _ _ _ _ _ I J).
Qed.
Record facts (c : cfg) (mo name : string) (ps : list pfield) (fs : schema) : Prop := Facts {
  fa_same : Forall2 (same_field c mo name ps fs) ps fs;
  fa_ready : struct_ready mo name ps = true;
  fa_emits : emits name ps = true
}.
Lemma facts_of : forall c name fs mo ps, In (name, fs) (all_packets c) -> parsed mo name ps -> facts c mo name ps fs.
Proof.
  intros c name fs mo ps I (text & sf & IT & RS & PP). destruct (declared c name fs I) as (mo' & text' & IT' & sf' & ps' & RS' & PP' & F & _).
  destruct (one_text _ _ _ _ _ IT IT') as [-> ->]. rewrite RS in RS'. injection RS' as <-. rewrite PP in PP'. injection PP' as <-.
  assert (SF : struct_fields text' = ps) by (unfold struct_fields; now rewrite RS, PP).
  pose proof (proj1 (forallb_forall _ _) ready_all _ IT') as R. pose proof (proj1 (forallb_forall _ _) emits_all _ IT') as E.
  cbn beta iota in R, E. rewrite SF in *. now constructor.
Qed.

(** ** The conditions *)

Record mood (mo base : string) (mu : bool) (ps : list pfield) : Prop := Mood {
  mo_min : free mo base mu ps "min" = true;
  mo_std : free mo base mu ps "std::cmp::min" = true;
  mo_vec : free mo base mu ps "Vec::with_capacity" = true;
  mo_new : new_ready mo base mu ps "Borrowed" = true;
  mo_own : new_ready mo base mu ps "Owned" = true;
  mo_size : min_ready mo base mu ps = true;
  mo_spots : forallb (spot_ready mo base mu ps) (spots ps 0 []) = true
}.
Record readiness (mo base : string) (ps : list pfield) : Prop := Readiness {
  re_len : forallb (len_ready mo ps) ps = true;
  re_tys : tys_ready 0 ps = true;
  re_names : NoDup (map pf_name ps);
  re_vec : Forall (fun p => pf_struct_len p = is_vec p) ps;
  re_inert : inert ps [] "std::cmp::min" = true;
  re_mood : forall mu, mood mo base mu ps
}.
Lemma ready_is : forall mo base ps, struct_ready mo base ps = true -> readiness mo base ps.
Proof.
  intros mo base ps H. unfold struct_ready in H.
  apply andb_prop in H. destruct H as [H H6]. apply andb_prop in H. destruct H as [H H5]. apply andb_prop in H. destruct H as [H H4].
  apply andb_prop in H. destruct H as [H H3]. apply andb_prop in H. destruct H as [H1 H2].
  assert (M : forall mu, mood mo base mu ps).
  { intros mu. assert (X := proj1 (forallb_forall _ _) H6 mu (ltac:(destruct mu; [right; left; reflexivity | left; reflexivity]))). cbn beta in X.
    apply andb_prop in X. destruct X as [X X5]. apply andb_prop in X. destruct X as [X X4]. apply andb_prop in X. destruct X as [X X3].
    apply andb_prop in X. destruct X as [X1 X2]. cbn [forallb] in X1. apply andb_prop in X1. destruct X1 as [A1 X1]. apply andb_prop in X1. destruct X1 as [A2 X1].
    apply andb_prop in X1. destruct X1 as [A3 _]. now constructor. }
  constructor; try assumption.
  - now apply nodup_names_ok.
  - apply Forall_forall. intros p IP. apply eqb_prop. exact (proj1 (forallb_forall _ _) H4 p IP).
Qed.

(** ** The emitted methods *)

Lemma has_method : forall ms l n m, has_methods ms l = true -> In (n, m) l -> match ms with Some ms => find_meth n ms | None => None end = Some m.
Proof.
  intros ms l n m H I. unfold has_methods in H. destruct ms as [ms |]; [| discriminate].
  pose proof (proj1 (forallb_forall _ _) H _ I) as X. cbn [fst snd] in X. destruct (find_meth n ms) as [m' |]; [| discriminate].
  apply meth_eqb_ok in X. now subst.
Qed.
Lemma emitted : forall c base ps mu n m, emits base ps = true -> tys_ready 0 ps = true -> In (n, m) (want base mu ps) -> method_of c mu base ps n = Some m.
Proof.
  intros c base ps mu n m E T I. unfold method_of, impl_of. rewrite (impl_stable _ _ _ _ _ T). unfold emits in E.
  apply andb_prop in E. destruct E as [E _]. apply andb_prop in E. destruct E as [E _]. apply andb_prop in E. destruct E as [E _].
  apply andb_prop in E. destruct E as [E _]. assert (X := proj1 (forallb_forall _ _) E mu (ltac:(destruct mu; [right; left; reflexivity | left; reflexivity]))).
  exact (has_method _ _ _ _ X I).
Qed.
Lemma all_methods_ok : forall l w, all_methods l w = true -> trait_methods l = map snd w.
Proof.
  intros l w H. unfold all_methods in H. unfold trait_methods. destruct l as [l |]; [| discriminate]. destruct (read_impls l) as [il |]; [| discriminate].
  apply list_eqb_ok in H; [exact H |]. apply Forall_forall. intros x _ y. apply meth_eqb_ok.
Qed.

(** ** Fields *)

Lemma spots_fields : forall ps bit offs, map sp_field (spots ps bit offs) = ps.
Proof. induction ps as [| p ps IH]; intros bit offs; [reflexivity |]. cbn [spots map sp_field]. now rewrite IH. Qed.
Lemma spot_of : forall ps p, In p ps -> exists s, In s (spots ps 0 []) /\ sp_field s = p.
Proof.
  intros ps p I. rewrite <- (spots_fields ps 0 []) in I. apply in_map_iff in I. destruct I as (s & <- & I). now exists s.
Qed.
Lemma Forall2_left : forall A B (R : A -> B -> Prop) l k x, Forall2 R l k -> In x l -> exists y, In y k /\ R x y.
Proof.
  intros A B R l k x H. induction H as [| a b l k Q H IH]; intros I; [destruct I |]. destruct I as [<- | I]; [exists b; split; [now left | exact Q] |].
  destruct (IH I) as (y & J & P). exists y. split; [now right | exact P].
Qed.
Lemma find_by_name : forall L l, NoDup (map (fun l => f_name (l_field l)) L) -> In l L -> find (fun k => String.eqb (f_name (l_field k)) (f_name (l_field l))) L = Some l.
Proof.
  induction L as [| k L IH]; intros l N I; [destruct I |]. cbn [map] in N. inversion N as [| ? ? NI ND]; subst. cbn [find].
  destruct I as [-> | I]; [now rewrite String.eqb_refl |]. destruct (String.eqb (f_name (l_field k)) (f_name (l_field l))) eqn:Q; [| now apply IH].
  exfalso. apply String.eqb_eq in Q. apply NI. rewrite Q. apply in_map_iff. exists l. now split.
Qed.
Lemma names_same : forall c mo name qs gs ps fs, Forall2 (same_field c mo name qs gs) ps fs -> map pf_name ps = map f_name fs.
Proof. intros c mo name qs gs ps fs H. induction H as [| p f ps fs (N & _) H IH]; [reflexivity |]. cbn [map]. now rewrite N, IH. Qed.

Lemma yields_reads : forall b s o A (x : res A) f (ok : A -> rv -> Prop), holds "self.packet" b s ->
  EmitRun.yields "self.packet" b s o (match x with Ok a => Val (f a) | Panic e => Pnc e end) -> (forall a, x = Ok a -> ok a (f a)) ->
  reads (finished "self.packet" o) b x ok.
Proof.
  intros b s o A x f ok H Y K. apply (finished_yields _ _ _ _ _ H) in Y. destruct x as [a | e]; cbn [reads]; [| exact Y].
  exists (f a). split; [exact Y | now apply K].
Qed.
Lemma state_holds : forall b, holds "self.packet" b (state b).
Proof. reflexivity. Qed.

Section Fields.
Variables (c : cfg) (name : string) (fs : schema) (mo : string) (ps : list pfield) (rounds : nat) (mu : bool) (b : buf).
Hypotheses (I : In (name, fs) (all_packets c)) (FA : facts c mo name ps fs) (B : buf_ok b).
Let RE : readiness mo name ps := ready_is _ _ _ (fa_ready _ _ _ _ _ FA).

Lemma all_spots : Forall2 (spot_ok c rounds mo name mu ps fs name b) (spots ps 0 []) (layout c b fs).
Proof. apply spots_layout; [exact I | exact B | exact (fa_same _ _ _ _ _ FA) | exact (re_len _ _ _ RE)]. Qed.
Lemma at_field : forall p, In p ps -> exists s l, In s (spots ps 0 []) /\ sp_field s = p /\ spot_ok c rounds mo name mu ps fs name b s l /\
  find_field c b fs (pf_name p) = Some l /\ l_get l = field_get c (l_field l) (l_bit l) (l_lens l) (l_len l) b /\ spot_ready mo name mu ps s = true.
Proof.
  intros p IP. destruct (spot_of ps p IP) as (s & IS & SF). destruct (Forall2_left _ _ _ _ _ _ all_spots IS) as (l & IL & OK).
  exists s, l. split; [exact IS |]. split; [exact SF |]. split; [exact OK |]. split; [| split].
  - destruct OK as ((N & _) & _). rewrite SF in N. rewrite N. unfold find_field. apply find_by_name; [| exact IL].
    rewrite <- (map_map l_field f_name). unfold layout. rewrite layout_fields. rewrite <- (names_same _ _ _ _ _ _ _ (fa_same _ _ _ _ _ FA)). exact (re_names _ _ _ RE).
  - exact (layout_get c b fs l IL).
  - exact (proj1 (forallb_forall _ _) (mo_spots _ _ _ _ (re_mood _ _ _ RE mu)) s IS).
Qed.
Lemma field_method : forall s n m, In s (spots ps 0 []) -> In (n, m) (want_field_reads (type_name name mu) s) -> method_of c mu name ps n = Some m.
Proof.
  intros s n m IS IM. apply emitted; [exact (fa_emits _ _ _ _ _ FA) | exact (re_tys _ _ _ RE) |]. unfold want. apply in_or_app. right.
  apply in_or_app. right. apply in_or_app. left. apply in_flat_map. now exists s.
Qed.

Theorem getter_runs : forall p, In p ps -> exists me, method_of c mu name ps ("get_" ++ pf_name p) = Some me /\
  reads (run_meth c rounds mo name mu ps fs me [VSelf] b) b (get c fs (pf_name p) b) (shows p).
Proof.
  intros p IP. destruct (at_field p IP) as (s & l & IS & <- & OK & FF & LG & SR). unfold get. rewrite FF, LG. clear LG.
  pose proof (field_method s) as FM. unfold want_field_reads in FM. unfold spot_ready in SR. pose proof OK as ((N & PA & T & SL) & SB & SO & LE). unfold field_get.
  unfold shows. fold (l_co c l).
  destruct (f_ty (l_field l)) as [q | qs | q | k] eqn:FT; cbn [same_type] in T.
  - destruct T as [n T]. rewrite T in *. eexists. split; [apply (FM _ _ IS); left; reflexivity |].
    rewrite run_meth_self by reflexivity. destruct (prim_run c rounds mo name mu ps fs name b s l n q OK B T SR) as (u & U & Y).
    specialize (Y [] (int_ty n) (int_ty n)). cbn [fn_ret want_get me snd m_fn m_items ty_of] in *. cbn [fn_body].
    apply (yields_reads b (state b) _ _ _ (fun v => match v with VInt z => RustSem.VI (Some u) z | _ => VUnit end)); [reflexivity | |].
    + destruct (l_co c l) as [co |]; [| exact Y]. cbn [bind] in *. destruct (prim_get c (l_bit l) q b co); exact Y.
    + intros v V. destruct (l_co c l) as [co |]; [| discriminate]. cbn [bind] in V. destruct (prim_get c (l_bit l) q b co); [| discriminate]. injection V as <-. now rewrite U.
  - destruct T as [T AR]. rewrite T in *. eexists. split; [apply (FM _ _ IS); left; reflexivity |].
    rewrite run_meth_self by reflexivity. apply andb_prop in SR. destruct SR as [AD MR].
    destruct (misc_run c rounds mo name mu ps fs name b s l _ _ qs (int_ty (field_type name (pf_name (sp_field s)))) (int_ty (field_type name (pf_name (sp_field s)))) OK B AR AD MR) as (u & U & Y).
    apply (yields_reads b (state b) _ _ _ (fun v => match v with VTup zs => VC (field_type name (pf_name (sp_field s))) u zs | _ => VUnit end)); [reflexivity | |].
    + destruct (misc_get c qs (l_bit l) (l_lens l) b); exact Y.
    + intros v V. destruct (misc_get c qs (l_bit l) (l_lens l) b); [| discriminate]. injection V as <-. exists u. now split.
  - destruct T as (x & T & n & ->). rewrite T in *. unfold is_u8 in SR. apply andb_prop in SR. destruct SR as [SR EN]. apply andb_prop in SR. destruct SR as [SN SZ].
    apply String.eqb_eq in SN. apply Z.eqb_eq in SZ. destruct (p_end q) eqn:PE; try discriminate. rewrite SZ, SN in *. destruct q as [sz en]. cbn [p_size p_end] in *. subst sz en.
    exists (snd (want_vec_get s (RPrimitive "u8" 8 Big))). split; [apply (FM _ _ IS); apply in_or_app; right; left; reflexivity |].
    rewrite run_meth_self by reflexivity.
    pose proof (vec_run c rounds mo name mu ps fs name b s l None (mo_min _ _ _ _ (re_mood _ _ _ RE mu)) (mo_vec _ _ _ _ (re_mood _ _ _ RE mu)) OK B) as Y. cbn zeta in Y.
    change (int_ty (fn_ret (m_fn (snd (want_vec_get s (RPrimitive "u8" 8 Big)))))) with (@None ity).
    change (m_items (snd (want_vec_get s (RPrimitive "u8" 8 Big)))) with (@nil fn).
    match type of Y with context [EmitRun.yields _ _ _ ?o _] => set (O := o) in * end. clearbody O. cbn iota.
    destruct (var_slice c (l_co c l) (l_len l) b) as [d | e]; cbn [bind rmap reads] in *.
    + destruct (vec_get_loop c {| p_size := 8; p_end := Big |} d (Datatypes.length d) 0) as [x | e]; cbn [bind rmap reads].
      * destruct Y as (k & t & Y & TY). apply (finished_yields _ _ _ _ _ (state_holds b)) in Y. exists (VV k t x). split; [exact Y |]. exists k, t. split; [reflexivity | exact TY].
      * exact (finished_yields _ _ _ _ _ (state_holds b) Y).
    + exact (finished_yields _ _ _ _ _ (state_holds b) Y).
  - destruct T as (gs & T & IG & ->). rewrite T in *. set (ty := field_type name (pf_name (sp_field s))) in *.
    apply andb_prop in SR. destruct SR as [_ PR]. exists (snd (want_pkts_get s ty)). split; [apply (FM _ _ IS); apply in_or_app; right; right; left; reflexivity |].
    rewrite run_meth_self by reflexivity. change (m_items (snd (want_pkts_get s ty))) with (@nil fn).
    change (fn_ret (m_fn (snd (want_pkts_get s ty)))) with ("Vec<" ++ ty ++ ">")%string.
    pose proof (pkts_get_run c rounds mo name mu ps fs b s None ty gs PR IG B) as Y. unfold pkts_get_ready in PR. apply andb_prop in PR. destruct PR as [_ PR].
    destruct (int_ty ("Vec<" ++ ty ++ ">")) eqn:TV; [discriminate |]. clear PR.
    replace (get_iter c fs (pf_name (sp_field s)) b) with (var_slice c (l_co c l) (l_len l) b) in Y by (unfold get_iter, get_raw, raw_range; now rewrite FF).
    apply (yields_reads b (state b) _ _ _ (fun v => match v with VPkts x => VL (map VX x) | _ => VUnit end)); [reflexivity | |].
    + destruct (var_slice c (l_co c l) (l_len l) b) as [d | e]; [| exact Y]. cbn [bind] in *. destruct (iter_all (sem_of c gs) (k_from (sem_of c gs)) d); exact Y.
    + intros v V. destruct (var_slice c (l_co c l) (l_len l) b) as [d | e]; [| discriminate]. cbn [bind] in V. destruct (iter_all (sem_of c gs) (k_from (sem_of c gs)) d); [| discriminate].
      injection V as <-. reflexivity.
Qed.

Lemma raw_reads : forall s l n, spot_ok c rounds mo name mu ps fs name b s l -> find_field c b fs (pf_name (sp_field s)) = Some l ->
  reads (run_meth c rounds mo name mu ps fs (Meth (Fn n [slf] "&[u8]" (raw_ast s (fun e => e))) []) [VSelf] b) b (get_raw c fs (pf_name (sp_field s)) b) shows_bytes.
Proof.
  intros s l n OK FF. rewrite run_meth_self by reflexivity. cbn [m_fn m_items fn_ret fn_body].
  pose proof (raw_run c rounds mo name mu ps fs name b s l None (fun e => e) (fun l => Val (VA (Some U8) l)) (mo_min _ _ _ _ (re_mood _ _ _ RE mu)) OK B) as Y.
  replace (get_raw c fs (pf_name (sp_field s)) b) with (var_slice c (l_co c l) (l_len l) b) by (unfold get_raw, raw_range; now rewrite FF).
  apply (yields_reads b (state b) _ _ _ (fun l => VA (Some U8) l)); [reflexivity | | intros x _; exists (Some U8); split; [reflexivity | now left]].
  apply Y. intros st r e P G E. exact (raw_id c rounds mo name mu ps fs b st r e P None G E).
Qed.
Theorem raw_runs : forall p, In p ps -> is_vec p = true -> pf_payload p = false -> exists me, method_of c mu name ps ("get_" ++ pf_name p ++ "_raw") = Some me /\
  reads (run_meth c rounds mo name mu ps fs me [VSelf] b) b (get_raw c fs (pf_name p) b) shows_bytes.
Proof.
  intros p IP V NP. destruct (at_field p IP) as (s & l & IS & <- & OK & FF & _ & SR). eexists. split; [| exact (raw_reads s l ("get_" ++ pf_name (sp_field s) ++ "_raw") OK FF)].
  apply (field_method s); [exact IS |]. unfold want_field_reads, want_raw. rewrite NP. unfold is_vec in V.
  destruct (pf_ty (sp_field s)) as [| t | ]; try discriminate. destruct t; (left; reflexivity).
Qed.
Theorem iter_runs : forall p, In p ps -> is_pkts p = true -> exists me, method_of c mu name ps ("get_" ++ pf_name p ++ "_iter") = Some me /\
  reads (run_meth c rounds mo name mu ps fs me [VSelf] b) b (get_iter c fs (pf_name p) b) (shows_iter p).
Proof.
  intros p IP V. destruct (at_field p IP) as (s & l & IS & <- & OK & FF & _ & SR). unfold is_pkts in V. unfold spot_ready in SR. unfold shows_iter.
  pose proof (field_method s) as FM. unfold want_field_reads in FM.
  destruct (pf_ty (sp_field s)) as [| t | ]; try discriminate. destruct t as [| | ty]; try discriminate.
  apply andb_prop in SR. destruct SR as [SR _]. apply andb_prop in SR. destruct SR as [SR IT]. destruct (int_ty (ty ++ "Iterable")) eqn:TI; [discriminate |].
  exists (snd (want_iter s ty)). split; [apply (FM _ _ IS); apply in_or_app; right; left; reflexivity |].
  rewrite run_meth_self by reflexivity.
  pose proof (iter_run c rounds mo name mu ps fs name b s l None ty (mo_min _ _ _ _ (re_mood _ _ _ RE mu)) SR OK B) as Y.
  replace (get_iter c fs (pf_name (sp_field s)) b) with (var_slice c (l_co c l) (l_len l) b) by (unfold get_iter, get_raw, raw_range; now rewrite FF).
  cbn [want_iter me snd m_fn m_items fn_ret fn_body]. rewrite TI.
  apply (yields_reads b (state b) _ _ _ (fun l => VP (ty ++ "Iterable") l)); [reflexivity | exact Y | reflexivity].
Qed.

Lemma total_is : total ps = total_bits fs.
Proof. exact (total_eq c mo ps fs name ps fs (fa_same _ _ _ _ _ FA)). Qed.
Lemma size_known : min_known c rounds mo name mu ps fs.
Proof.
  pose proof (mo_size _ _ _ _ (re_mood _ _ _ RE mu)) as R. unfold min_ready in R. unfold min_known.
  set (f := (type_name name mu ++ "::minimum_packet_size")%string) in *.
  pose proof (kind_spec c rounds mo name mu ps fs [] f) as K. destruct (kind_of mo name mu ps [] f) eqn:KO; try discriminate; [| exact K].
  apply andb_prop in R. destruct R as [R R4]. apply andb_prop in R. destruct R as [R R3]. apply andb_prop in R. destruct R as [R1 R2].
  apply String.eqb_eq in R1. apply String.eqb_eq in R2. apply Z.eqb_eq in R4. clearbody f. subst f.
  assert (M : minimum_packet_size fs = minimum_packet_size (ipv4 c)).
  { unfold minimum_packet_size. rewrite <- total_is, R4. reflexivity. }
  unfold emit_sig, emit_fun, len_sig, len_fun. rewrite R2. destruct (getter_of ps "Ipv4Packet::minimum_packet_size"); [discriminate |]. rewrite M.
  split; reflexivity.
Qed.
Lemma whole_method : forall n m, In (n, m) [want_new name mu "new" "&[u8]" "Borrowed"; want_new name mu "owned" "Vec<u8>" "Owned"; want_min ps] ->
  method_of c mu name ps n = Some m.
Proof.
  intros n m IM. apply emitted; [exact (fa_emits _ _ _ _ _ FA) | exact (re_tys _ _ _ RE) |]. unfold want. apply in_or_app. left.
  cbn [In] in *. tauto.
Qed.
Theorem new_runs : forall n, In n ["new"; "owned"] -> exists me, method_of c mu name ps n = Some me /\
  forall d, run_meth c rounds mo name mu ps fs me [VA (Some U8) d] [] = Returned (made name mu (new fs d)) [].
Proof.
  intros n IN. destruct IN as [<- | [<- | []]].
  - exists (snd (want_new name mu "new" "&[u8]" "Borrowed")). split; [apply whole_method; left; reflexivity |]. intros d.
    pose proof (new_run c rounds mo name mu ps fs [] d "new" "&[u8]" "Borrowed" (int_ty (fn_ret (m_fn (snd (want_new name mu "new" "&[u8]" "Borrowed")))))
      (int_ty (fn_ret (m_fn (snd (want_new name mu "new" "&[u8]" "Borrowed"))))) (mo_new _ _ _ _ (re_mood _ _ _ RE mu)) size_known) as Y.
    cbn zeta in Y. apply (finished_yields "self.packet" []) in Y; [exact Y | reflexivity].
  - exists (snd (want_new name mu "owned" "Vec<u8>" "Owned")). split; [apply whole_method; right; left; reflexivity |]. intros d.
    pose proof (new_run c rounds mo name mu ps fs [] d "owned" "Vec<u8>" "Owned" (int_ty (fn_ret (m_fn (snd (want_new name mu "owned" "Vec<u8>" "Owned")))))
      (int_ty (fn_ret (m_fn (snd (want_new name mu "owned" "Vec<u8>" "Owned"))))) (mo_own _ _ _ _ (re_mood _ _ _ RE mu)) size_known) as Y.
    cbn zeta in Y. apply (finished_yields "self.packet" []) in Y; [exact Y | reflexivity].
Qed.
Theorem min_runs : exists me, method_of c mu name ps "minimum_packet_size" = Some me /\
  run_meth c rounds mo name mu ps fs me [] [] = Returned (RustSem.VI (Some Usize) (minimum_packet_size fs)) [].
Proof.
  exists (snd (want_min ps)). split; [apply whole_method; right; right; left; reflexivity |].
  pose proof (min_run c rounds mo name mu ps fs [] [("self.packet", VA (Some U8) [])] (Some Usize) (Some Usize) total_is eq_refl) as Y.
  apply (finished_yields "self.packet" []) in Y; [exact Y | reflexivity].
Qed.
Theorem struct_size_runs : exists me, method_of c mu name ps "packet_size" = Some me /\
  forall vs r, struct_rv ps vs = Some r -> reads (run_meth c rounds mo name mu ps fs me [r] []) [] (struct_packet_size c fs vs) shows_usize.
Proof.
  exists (snd (want_struct_size name ps)). split.
  - apply emitted; [exact (fa_emits _ _ _ _ _ FA) | exact (re_tys _ _ _ RE) |]. unfold want. apply in_or_app. left. right. right. right. left. reflexivity.
  - intros vs r H. unfold struct_rv in H. destruct (struct_fields_rv ps vs) as [sf |] eqn:SF; [| discriminate]. injection H as <-.
    pose proof (struct_size_run c rounds mo name mu ps fs [] vs sf (Some Usize) (Some Usize) total_is (re_vec _ _ _ RE) (re_names _ _ _ RE) SF) as Y.
    apply (yields_reads [] _ _ _ _ (fun z => RustSem.VI (Some Usize) z)) with (ok := shows_usize) in Y; [exact Y | reflexivity | reflexivity].
Qed.
Lemma size_methods : trait_methods (emit_size (c_macro c) (c_host_le c) name ps) = [snd (want_size ps); snd (want_size ps)].
Proof.
  rewrite (size_stable _ _ _ _ (re_tys _ _ _ RE)). pose proof (fa_emits _ _ _ _ _ FA) as E. unfold emits in E.
  apply andb_prop in E. destruct E as [E _]. apply andb_prop in E. destruct E as [E _]. apply andb_prop in E. destruct E as [E _].
  apply andb_prop in E. destruct E as [_ E]. exact (all_methods_ok _ _ E).
Qed.
Lemma size_reads : reads (run_meth c rounds mo name mu ps fs (snd (want_size ps)) [VSelf] b) b (packet_size c fs b) shows_usize.
Proof.
  rewrite run_meth_self by reflexivity.
  pose proof (size_run c rounds mo name mu ps fs name b (Some Usize) (Some Usize) total_is all_spots) as Y.
  apply (yields_reads b (state b) _ _ _ (fun z => RustSem.VI (Some Usize) z)) with (ok := shows_usize) in Y; [exact Y | reflexivity | reflexivity].
Qed.
Lemma packet_reads : forall n, reads (run_meth c rounds mo name mu ps fs (snd (want_packet n)) [VSelf] b) b (Ok b) shows_bytes.
Proof.
  intros n. rewrite run_meth_self by reflexivity. pose proof (means_packet c rounds mo name mu ps fs b n [] None None) as Y.
  apply (finished_yields _ _ _ _ _ (state_holds b)) in Y. exists (VA (Some U8) b). split; [exact Y |]. exists (Some U8). split; [reflexivity | now left].
Qed.
Lemma payload_reads : forall n, reads (run_meth c rounds mo name mu ps fs (snd (want_payload n ps)) [VSelf] b) b (payload c fs b) shows_bytes.
Proof.
  intros n. assert (P : fn_params (m_fn (snd (want_payload n ps))) = [slf] /\ fn_ret (m_fn (snd (want_payload n ps))) = "&[u8]" /\ m_items (snd (want_payload n ps)) = []).
  { unfold want_payload. destruct (bounds_of ps). repeat split. }
  destruct P as (P1 & P2 & P3). rewrite run_meth_self by exact P1. rewrite P2, P3. change (int_ty "&[u8]") with (@None ity).
  destruct (existsb (fun s => pf_payload (sp_field s)) (spots ps 0 [])) eqn:EX.
  - exact (payload_run c rounds mo name mu ps fs name b n (mo_std _ _ _ _ (re_mood _ _ _ RE mu)) (re_inert _ _ _ RE) B EX all_spots).
  - apply (payload_none c rounds mo name mu ps fs name b n (mo_std _ _ _ _ (re_mood _ _ _ RE mu)) (re_inert _ _ _ RE) B); [| exact all_spots].
    destruct (find (fun s => pf_payload (sp_field s)) (spots ps 0 [])) as [s |] eqn:F; [| reflexivity]. apply find_some in F.
    assert (X : existsb (fun s => pf_payload (sp_field s)) (spots ps 0 []) = true) by (apply existsb_exists; now exists s). congruence.
Qed.
Lemma packet_methods : forall of_mut mutable, implb mutable of_mut = true ->
  trait_methods (emit_packet (c_macro c) (c_host_le c) name ps of_mut mutable) =
  [snd (want_packet (if mutable then "packet_mut" else "packet")); snd (want_payload (if mutable then "payload_mut" else "payload") ps)].
Proof.
  intros of_mut mutable IM.
  rewrite (packet_stable _ _ _ _ _ _ (re_tys _ _ _ RE)). pose proof (fa_emits _ _ _ _ _ FA) as E. unfold emits in E.
  apply andb_prop in E. destruct E as [E E3]. apply andb_prop in E. destruct E as [E E2]. apply andb_prop in E. destruct E as [_ E1].
  destruct of_mut, mutable; try discriminate.
  - exact (all_methods_ok _ _ E3).
  - exact (all_methods_ok _ _ E2).
  - exact (all_methods_ok _ _ E1).
Qed.
End Fields.

(** ** For a parsed declaration *)

Theorem getters : forall c name fs mod_ ps, In (name, fs) (all_packets c) -> parsed mod_ name ps ->
  forall rounds mutable b, buf_ok b -> forall p, In p ps ->
  exists me, method_of c mutable name ps ("get_" ++ pf_name p) = Some me /\
    reads (run_meth c rounds mod_ name mutable ps fs me [VSelf] b) b (get c fs (pf_name p) b) (shows p).
Proof. intros c name fs mod_ ps I P rounds mu b B. exact (getter_runs c name fs mod_ ps rounds mu b I (facts_of _ _ _ _ _ I P) B). Qed.
Theorem raw_getters : forall c name fs mod_ ps, In (name, fs) (all_packets c) -> parsed mod_ name ps ->
  forall rounds mutable b, buf_ok b -> forall p, In p ps -> is_vec p = true -> pf_payload p = false ->
  exists me, method_of c mutable name ps ("get_" ++ pf_name p ++ "_raw") = Some me /\
    reads (run_meth c rounds mod_ name mutable ps fs me [VSelf] b) b (get_raw c fs (pf_name p) b) shows_bytes.
Proof. intros c name fs mod_ ps I P rounds mu b B. exact (raw_runs c name fs mod_ ps rounds mu b I (facts_of _ _ _ _ _ I P) B). Qed.
Theorem iterators : forall c name fs mod_ ps, In (name, fs) (all_packets c) -> parsed mod_ name ps ->
  forall rounds mutable b, buf_ok b -> forall p, In p ps -> is_pkts p = true ->
  exists me, method_of c mutable name ps ("get_" ++ pf_name p ++ "_iter") = Some me /\
    reads (run_meth c rounds mod_ name mutable ps fs me [VSelf] b) b (get_iter c fs (pf_name p) b) (shows_iter p).
Proof. intros c name fs mod_ ps I P rounds mu b B. exact (iter_runs c name fs mod_ ps rounds mu b I (facts_of _ _ _ _ _ I P) B). Qed.
Theorem constructors : forall c name fs mod_ ps, In (name, fs) (all_packets c) -> parsed mod_ name ps ->
  forall rounds mutable n, In n ["new"; "owned"] -> exists me, method_of c mutable name ps n = Some me /\
    forall d, run_meth c rounds mod_ name mutable ps fs me [VA (Some U8) d] [] = Returned (made name mutable (new fs d)) [].
Proof. intros c name fs mod_ ps I P rounds mu. exact (new_runs c name fs mod_ ps rounds mu (facts_of _ _ _ _ _ I P)). Qed.
Theorem sizes : forall c name fs mod_ ps, In (name, fs) (all_packets c) -> parsed mod_ name ps ->
  forall rounds mutable,
  (exists me, method_of c mutable name ps "minimum_packet_size" = Some me /\
     run_meth c rounds mod_ name mutable ps fs me [] [] = Returned (RustSem.VI (Some Usize) (minimum_packet_size fs)) []) /\
  (exists me, method_of c mutable name ps "packet_size" = Some me /\
     forall vs r, struct_rv ps vs = Some r ->
       reads (run_meth c rounds mod_ name mutable ps fs me [r] []) [] (struct_packet_size c fs vs) shows_usize) /\
  (exists m1 m2, trait_methods (emit_size (c_macro c) (c_host_le c) name ps) = [m1; m2] /\
     forall me, In me [m1; m2] -> fn_name (m_fn me) = "packet_size" /\ forall b, buf_ok b ->
       reads (run_meth c rounds mod_ name mutable ps fs me [VSelf] b) b (packet_size c fs b) shows_usize).
Proof.
  intros c name fs mod_ ps I P rounds mu. pose proof (facts_of _ _ _ _ _ I P) as FA.
  split; [exact (min_runs c name fs mod_ ps rounds mu FA) |]. split; [exact (struct_size_runs c name fs mod_ ps rounds mu FA) |].
  exists (snd (want_size ps)), (snd (want_size ps)). split; [exact (size_methods c name fs mod_ ps FA) |].
  intros m IM. assert (m = snd (want_size ps)) as -> by (destruct IM as [<- | [<- | []]]; reflexivity). split; [reflexivity |].
  intros b B. exact (size_reads c name fs mod_ ps rounds mu b I FA B).
Qed.
Theorem packet_payload : forall c name fs mod_ ps, In (name, fs) (all_packets c) -> parsed mod_ name ps ->
  forall of_mut mutable, implb mutable of_mut = true ->
  exists m1 m2, trait_methods (emit_packet (c_macro c) (c_host_le c) name ps of_mut mutable) = [m1; m2] /\
    fn_name (m_fn m1) = (if mutable then "packet_mut" else "packet") /\
    fn_name (m_fn m2) = (if mutable then "payload_mut" else "payload") /\
    forall rounds b, buf_ok b ->
      reads (run_meth c rounds mod_ name of_mut ps fs m1 [VSelf] b) b (Ok b) shows_bytes /\
      reads (run_meth c rounds mod_ name of_mut ps fs m2 [VSelf] b) b (payload c fs b) shows_bytes.
Proof.
  intros c name fs mod_ ps I P of_mut mutable IM. pose proof (facts_of _ _ _ _ _ I P) as FA.
  exists (snd (want_packet (if mutable then "packet_mut" else "packet"))), (snd (want_payload (if mutable then "payload_mut" else "payload") ps)).
  split; [exact (packet_methods c name fs mod_ ps FA of_mut mutable IM) |]. split; [reflexivity |].
  split; [unfold want_payload; destruct (bounds_of ps); reflexivity |]. intros rounds b B.
  split; [apply packet_reads | exact (payload_reads c name fs mod_ ps rounds of_mut b I FA B _)].
Qed.
