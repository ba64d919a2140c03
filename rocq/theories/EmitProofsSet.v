(** The emitted methods that change a packet do what the model says. *)
From Coq Require Import String Ascii ZArith List Bool Lia.
From Verif Require Import Base BaseFacts DeriveUtil DeriveOps DeriveGen DeriveParse SpecPacket DeriveAccProofs DeriveApiProofs
  Protocols Quic FmtText RustLex RustSyntax RustItem RustSem RustMethod RustExec CrateText StackProofs
  SpecSource SpecItem ItemProofs ItemLayout EmitText EmitGen SpecEmit EmitEq EmitWant EmitTransfer EmitLayout EmitOps EmitRun EmitStable EmitReads
  EmitSets EmitWrites EmitPkts EmitCheck EmitCheckSet EmitProofs.
Import ListNotations.
Open Scope string_scope.
Open Scope Z_scope.

Lemma sets_of : forall mo name ps, parsed mo name ps -> forallb (spot_set_ready mo name ps) (spots ps 0 []) = true.
Proof.
  intros mo name ps (text & sf & IT & RS & PP). pose proof (proj1 (forallb_forall _ _) set_ready_all _ IT) as R. cbn beta iota in R.
  assert (SF : struct_fields text = ps) by (unfold struct_fields; now rewrite RS, PP). now rewrite SF in R.
Qed.

Section Fields.
Variables (c : cfg) (name : string) (fs : schema) (mo : string) (ps : list pfield) (rounds : nat) (b : buf).
Hypotheses (I : In (name, fs) (all_packets c)) (FA : facts c mo name ps fs) (SR : forallb (spot_set_ready mo name ps) (spots ps 0 []) = true).
Let RE : readiness mo name ps := ready_is _ _ _ (fa_ready _ _ _ _ _ FA).

Lemma field_method_mut : forall s n m, In s (spots ps 0 []) -> In (n, m) (want_field_writes (type_name name true) s) -> method_of c true name ps n = Some m.
Proof.
  intros s n m IS IM. apply emitted; [exact (fa_emits _ _ _ _ _ FA) | exact (re_tys _ _ _ RE) |]. unfold want. cbn iota. apply in_or_app. right.
  apply in_or_app. right. apply in_or_app. right. apply in_flat_map. now exists s.
Qed.
Theorem setter_runs : buf_ok b -> forall p, In p ps -> exists me, method_of c true name ps ("set_" ++ pf_name p) = Some me /\
  forall v r, field_rv p v = Some r -> writes (run_meth c rounds mo name true ps fs me [VSelf; r] b) (set c fs (pf_name p) v b).
Proof.
  intros B p IP. destruct (at_field c name fs mo ps rounds true b I FA B p IP) as (s & l & IS & <- & OK & FF & _ & GR). unfold set. rewrite FF. clear FF.
  pose proof (proj1 (forallb_forall _ _) SR s IS) as SS. unfold spot_set_ready in SS. unfold spot_ready in GR.
  pose proof (field_method_mut s) as FM. unfold want_field_writes in FM. pose proof OK as ((N & PA & T & SL) & SB & SO & LE).
  unfold field_rv, field_set.
  destruct (f_ty (l_field l)) as [q | qs | q | k] eqn:FT; cbn [same_type] in T.
  - destruct T as [n T]. rewrite T in *. exists (snd (want_set s (RPrimitive n (p_size q) (p_end q)))). split; [apply (FM _ _ IS); left; reflexivity |].
    intros v r FR. destruct v as [z | | |]; try discriminate. injection FR as <-.
    destruct (prim_ready_ops _ _ _ _ GR) as (ops & u & _ & _ & TY & _).
    apply run_writes with (x := "val") (ty := n); [reflexivity | reflexivity | reflexivity |]. rewrite TY.
    exact (prim_set_run c rounds mo name true ps fs name b s l n q u z None None OK B GR SS TY).
  - destruct T as [T AR]. rewrite T in *. set (ty := field_type name (pf_name (sp_field s))) in *.
    exists (snd (want_misc_set (type_name name true) s ty)). split; [apply (FM _ _ IS); left; unfold want_misc_set; destruct (set_args 0 (pf_cons (sp_field s))); reflexivity |].
    intros v r FR. destruct v as [| zs | |]; try discriminate. destruct (Nat.eqb (List.length zs) (List.length (pf_cons (sp_field s)))) eqn:LZ; [| discriminate].
    apply PeanoNat.Nat.eqb_eq in LZ. destruct (first_ty (pf_cons (sp_field s))) as [u |] eqn:FU; [| discriminate]. injection FR as <-.
    apply andb_prop in GR. destruct GR as [AD _].
    pose proof (misc_set_run c rounds mo name true ps fs name b s l ty _ qs u zs None OK B AR AD SS FU LZ) as W.
    assert (X : fn_params (m_fn (snd (want_misc_set (type_name name true) s ty))) = [slf; ("val", ty)] /\
                m_items (snd (want_misc_set (type_name name true) s ty)) = set_items (type_name name true) (sp_offs s) 0 (sp_bit s) (pf_cons (sp_field s)) /\
                fn_ret (m_fn (snd (want_misc_set (type_name name true) s ty))) = "")
      by (unfold want_misc_set; destruct (set_args 0 (pf_cons (sp_field s))); repeat split).
    destruct X as (X1 & X2 & X3). apply run_writes with (x := "val") (ty := ty); [exact X1 | reflexivity | reflexivity |]. rewrite X2, X3. exact W.
  - destruct T as (x & T & n & ->). rewrite T in *. unfold is_u8 in GR. apply andb_prop in GR. destruct GR as [GR EN]. apply andb_prop in GR. destruct GR as [SN SZ].
    apply String.eqb_eq in SN. apply Z.eqb_eq in SZ. destruct (p_end q) eqn:PE; try discriminate. rewrite SZ, SN in *. destruct q as [sz en]. cbn [p_size p_end] in *. subst sz en.
    exists (snd (want_vec_set s (RPrimitive "u8" 8 Big))). split; [apply (FM _ _ IS); apply in_or_app; right; left; reflexivity |].
    intros v r FR. destruct v as [| | vs |]; try discriminate. injection FR as <-.
    apply run_writes with (x := "vals") (ty := "&[u8]"); [reflexivity | reflexivity | reflexivity |].
    exact (vec_set_run c rounds mo name true ps fs name b s l None vs OK B).
  - destruct T as (gs & T & IG & ->). rewrite T in *. set (ty := field_type name (pf_name (sp_field s))) in *.
    exists (snd (want_pkts_set s ty)). split; [apply (FM _ _ IS); apply in_or_app; right; left; reflexivity |].
    intros v r FR. destruct v as [| | | vs]; try discriminate. injection FR as <-.
    apply run_writes with (x := "vals") (ty := ("&[" ++ ty ++ "]")%string); [reflexivity | reflexivity | reflexivity |].
    exact (pkts_set_run c rounds mo name true ps fs name b s l None ty gs vs OK B SS IG).
Qed.
Theorem raw_mut_runs : buf_ok b -> forall p, In p ps -> is_vec p = true -> pf_payload p = false -> exists me, method_of c true name ps ("get_" ++ pf_name p ++ "_raw_mut") = Some me /\
  reads (run_meth c rounds mo name true ps fs me [VSelf] b) b (get_raw c fs (pf_name p) b) shows_bytes.
Proof.
  intros B p IP V NP. destruct (at_field c name fs mo ps rounds true b I FA B p IP) as (s & l & IS & <- & OK & FF & _ & _).
  eexists. split; [| exact (raw_reads c name fs mo ps rounds true b FA B s l ("get_" ++ pf_name (sp_field s) ++ "_raw_mut") OK FF)].
  apply (field_method_mut s); [exact IS |]. unfold want_field_writes, want_raw. rewrite NP. unfold is_vec in V.
  destruct (pf_ty (sp_field s)) as [| t | ]; try discriminate. destruct t; (left; reflexivity).
Qed.
Theorem populate_runs : exists me, method_of c true name ps "populate" = Some me /\
  forall vs r, struct_rv ps vs = Some r -> writes (run_meth c rounds mo name true ps fs me [VSelf; r] b) (populate c fs vs b).
Proof.
  exists (snd (want_populate name ps)). split.
  - apply emitted; [exact (fa_emits _ _ _ _ _ FA) | exact (re_tys _ _ _ RE) |]. unfold want. cbn iota. apply in_or_app. right. left. reflexivity.
  - intros vs r H. unfold struct_rv in H. destruct (struct_fields_rv ps vs) as [sf |] eqn:SF; [| discriminate]. injection H as <-.
    apply run_writes with (x := "packet") (ty := ("&" ++ name)%string); [reflexivity | reflexivity | reflexivity |].
    unfold EmitReads.run, want_populate. cbn [me snd m_fn fn_body fn_ret m_items]. rewrite exec_block. apply wrote_block.
    apply (pop_run c rounds mo name true ps fs None sf (re_names _ _ _ RE) (names_same _ _ _ _ _ _ _ (fa_same _ _ _ _ _ FA)) ps vs [] b); try reflexivity.
    + exact (struct_fields_length _ _ _ SF).
    + intros p v IP. exact (struct_lookup _ _ _ _ _ SF (re_names _ _ _ RE) IP).
Qed.
End Fields.

(** ** For a parsed declaration *)

Theorem setters : forall c name fs mod_ ps, In (name, fs) (all_packets c) -> parsed mod_ name ps ->
  forall rounds b, buf_ok b -> forall p, In p ps ->
  exists me, method_of c true name ps ("set_" ++ pf_name p) = Some me /\
    forall v r, field_rv p v = Some r ->
      writes (run_meth c rounds mod_ name true ps fs me [VSelf; r] b) (set c fs (pf_name p) v b).
Proof. intros c name fs mod_ ps I P rounds b B. exact (setter_runs c name fs mod_ ps rounds b I (facts_of _ _ _ _ _ I P) (sets_of _ _ _ P) B). Qed.
Theorem raw_mut_getters : forall c name fs mod_ ps, In (name, fs) (all_packets c) -> parsed mod_ name ps ->
  forall rounds b, buf_ok b -> forall p, In p ps -> is_vec p = true -> pf_payload p = false ->
  exists me, method_of c true name ps ("get_" ++ pf_name p ++ "_raw_mut") = Some me /\
    reads (run_meth c rounds mod_ name true ps fs me [VSelf] b) b (get_raw c fs (pf_name p) b) shows_bytes.
Proof. intros c name fs mod_ ps I P rounds b B. exact (raw_mut_runs c name fs mod_ ps rounds b I (facts_of _ _ _ _ _ I P) B). Qed.
Theorem populates : forall c name fs mod_ ps, In (name, fs) (all_packets c) -> parsed mod_ name ps ->
  forall rounds b, exists me, method_of c true name ps "populate" = Some me /\
    forall vs r, struct_rv ps vs = Some r ->
      writes (run_meth c rounds mod_ name true ps fs me [VSelf; r] b) (populate c fs vs b).
Proof. intros c name fs mod_ ps I P rounds b. exact (populate_runs c name fs mod_ ps rounds b (facts_of _ _ _ _ _ I P)). Qed.
