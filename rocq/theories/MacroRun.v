(** Running the derive macro: lemmas behind C99. *)
From Coq Require Import String Ascii ZArith List Bool.
From Verif Require Import Base DeriveUtil DeriveOps DeriveGen DeriveParse Protocols Quic FmtText RustLex RustSyntax RustItem RustSem RustMethod RustExec
  RustAst EmitText EmitGen SpecEmit EmitWant EmitStable CrateText GenCode MacroEval SpecMacro MacroProofs MacroCheck EmitCheck EmitProofs.
Import ListNotations.
Open Scope string_scope.
Open Scope Z_scope.

Lemma want_stable : forall m h base ps, tys_ready 0 ps = true -> want_code m h base ps = want_code Checked true base ps.
Proof.
  intros m h base ps H. unfold want_code, want_parts.
  generalize (impl_stable m h false base ps H), (impl_stable m h true base ps H), (packet_stable m h base ps false false H),
    (packet_stable m h base ps true false H), (packet_stable m h base ps true true H), (size_stable m h base ps H).
  generalize (emit_impl m h false base ps), (emit_impl m h true base ps), (emit_packet m h base ps false false),
    (emit_packet m h base ps true false), (emit_packet m h base ps true true), (emit_size m h base ps).
  intros a1 a2 a3 a4 a5 a6 -> -> -> -> -> ->. reflexivity.
Qed.
Lemma expands_in : forall code l mo n t, expands_all code l = true -> In (mo, n, t) l -> expands code n (struct_fields t) = true.
Proof. intros code l mo n t H I. unfold expands_all in H. rewrite forallb_forall in H. exact (H _ I). Qed.
Lemma expands_ok : forall code base ps, expands code base ps = true ->
  exists l, run_code code plan_safe (GE "Ok" [gpacket base ps]) base = Some (inl l) /\ want_fast base ps = Some l.
Proof.
  intros code base ps E. unfold expands in E. destruct (run_code code plan_safe (GE "Ok" [gpacket base ps]) base) as [[l |] |]; try discriminate.
  destruct (want_fast base ps) as [r |]; [| discriminate]. apply trees_eqb_ok in E. subst r. exists l. now split.
Qed.
Lemma expansion : forall c name fs mo ps, In (name, fs) (all_packets c) -> parsed mo name ps ->
  exists out, expand (c_macro c) (c_host_le c) name ps = Some (inl out) /\ want_code (c_macro c) (c_host_le c) name ps = Some out.
Proof.
  intros c name fs mo ps I P. destruct (facts_of c name fs mo ps I P) as [_ R _]. apply ready_is in R. destruct R as [_ T _ _ _ _].
  destruct P as (text & sf & IT & RS & PP). assert (SF : struct_fields text = ps) by (unfold struct_fields; now rewrite RS, PP).
  pose proof (expands_in code_read crate_structs mo name text all_expand IT) as E. rewrite SF in E. destruct (expands_ok code_read name ps E) as (l & Q & W). exists l. split.
  - unfold expand. exact (run_below plan_safe (planned (c_macro c) (c_host_le c)) code_read (GE "Ok" [gpacket name ps]) name (inl l) (safe_covers (c_macro c) (c_host_le c)) Q).
  - rewrite (want_stable _ _ _ _ T). exact (want_fast_ok _ _ _ W).
Qed.
Lemma expansion_parts : forall c name fs mo ps, In (name, fs) (all_packets c) -> parsed mo name ps ->
  exists i im p pm pmm z d dm,
    emit_impl (c_macro c) (c_host_le c) false name ps = Some i /\
    emit_impl (c_macro c) (c_host_le c) true name ps = Some im /\
    emit_packet (c_macro c) (c_host_le c) name ps false false = Some p /\
    emit_packet (c_macro c) (c_host_le c) name ps true false = Some pm /\
    emit_packet (c_macro c) (c_host_le c) name ps true true = Some pmm /\
    emit_size (c_macro c) (c_host_le c) name ps = Some z /\
    want_debug name false ps = Some d /\ want_debug name true ps = Some dm /\
    expand (c_macro c) (c_host_le c) name ps =
      Some (inl (want_struct name false ++ want_struct name true ++ i ++ im ++ p ++ pm ++ pmm ++ z ++
                 emit_iterable name ++ emit_converters name ps ++ d ++ dm)%list).
Proof.
  intros c name fs mo ps I P. destruct (expansion c name fs mo ps I P) as (out & E & W). rewrite E. clear E. unfold want_code, want_parts in W.
  generalize (want_struct name false), (want_struct name true), (emit_iterable name), (emit_converters name ps), W. clear W.
  generalize (emit_impl (c_macro c) (c_host_le c) false name ps), (emit_impl (c_macro c) (c_host_le c) true name ps),
    (emit_packet (c_macro c) (c_host_le c) name ps false false), (emit_packet (c_macro c) (c_host_le c) name ps true false),
    (emit_packet (c_macro c) (c_host_le c) name ps true true), (emit_size (c_macro c) (c_host_le c) name ps),
    (want_debug name false ps), (want_debug name true ps).
  intros [i |] [im |] [p |] [pm |] [pmm |] [z |] [d |] [dm |] s1 s2 it cv W; try discriminate.
  exists i, im, p, pm, pmm, z, d, dm. injection W as <-. rewrite app_nil_r. repeat split.
Qed.
(** From the macro to the bytes: a getter found in what the macro emits. *)
Lemma expanded_getters : forall c name fs mo ps, In (name, fs) (all_packets c) -> parsed mo name ps ->
  forall mutable p, In p ps ->
  exists before impl after ms me,
    expand (c_macro c) (c_host_le c) name ps = Some (inl (before ++ impl ++ after)%list) /\
    read_impls impl = Some [ms] /\ find_meth ("get_" ++ pf_name p) ms = Some me /\
    forall rounds b, buf_ok b ->
      reads (run_meth c rounds mo name mutable ps fs me [VSelf] b) b (get c fs (pf_name p) b) (shows p).
Proof.
  intros c name fs mo ps I P mutable p IP.
  destruct (getters c name fs mo ps I P 0%nat mutable [] (conj (Forall_nil _) eq_refl) p IP) as (me & M & _).
  assert (RUN : forall rounds b, buf_ok b -> reads (run_meth c rounds mo name mutable ps fs me [VSelf] b) b (get c fs (pf_name p) b) (shows p)).
  { intros rounds b B. destruct (getters c name fs mo ps I P rounds mutable b B p IP) as (me' & M' & R). rewrite M in M'. injection M' as <-. exact R. }
  destruct (expansion_parts c name fs mo ps I P) as (i & im & p1 & pm & pmm & z & d & dm & Ei & Eim & _ & _ & _ & _ & _ & _ & E).
  unfold method_of, impl_of, one_impl in M. destruct mutable.
  - rewrite Eim in M. destruct (read_impls im) as [[| ms [|]] |] eqn:R; try discriminate M.
    exists (want_struct name false ++ want_struct name true ++ i)%list, im,
      (p1 ++ pm ++ pmm ++ z ++ emit_iterable name ++ emit_converters name ps ++ d ++ dm)%list, ms, me.
    split; [rewrite E; now rewrite <- !app_assoc |]. split; [exact R |]. split; [exact M | exact RUN].
  - rewrite Ei in M. destruct (read_impls i) as [[| ms [|]] |] eqn:R; try discriminate M.
    exists (want_struct name false ++ want_struct name true)%list, i,
      (im ++ p1 ++ pm ++ pmm ++ z ++ emit_iterable name ++ emit_converters name ps ++ d ++ dm)%list, ms, me.
    split; [rewrite E; now rewrite <- !app_assoc |]. split; [exact R |]. split; [exact M | exact RUN].
Qed.
