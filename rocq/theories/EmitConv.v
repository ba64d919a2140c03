(** What the emitted conversions (to the packet struct, to the immutable twin) do when they
    are run. *)
From Coq Require Import String Ascii ZArith List Bool Lia.
From Verif Require Import Base BaseFacts DeriveUtil DeriveOps DeriveGen DeriveParse SpecPacket
  Protocols Quic FmtText RustLex RustSyntax RustItem RustSem RustMethod RustExec CrateText
  SpecSource SpecItem EmitText EmitTextProofs EmitGen SpecEmit SpecEmitIter EmitEq EmitWant EmitTransfer EmitLayout EmitOps EmitRun EmitReads EmitIter.
Import ListNotations.
Open Scope string_scope.
Open Scope Z_scope.

Definition get_call (p : pfield) : ex := XMeth (XPath "self") ("get_" ++ pf_name p) [].
Definition want_from (base : string) (ps : list pfield) : string * meth :=
  me "from_packet" [slf] base (XBlock [] (Some (XCall (struct_lit base ps) (map get_call ps)))) [].
Definition want_imm (base : string) : string * meth :=
  me "to_immutable" [slf] (type_name base false ++ "<>")
    (XBlock [] (Some (XCall (type_name base false ++ "{packet}")
       [XCall "PacketData::Borrowed" [XMeth (XPath "self.packet") "as_slice" []]]))) [].
Definition want_consume (base : string) : string * meth :=
  me "consume_to_immutable" [("self", "Self")] (type_name base false ++ "<>")
    (XBlock [] (Some (XCall (type_name base false ++ "{packet}") [XMeth (XPath "self.packet") "to_immutable" []]))) [].

Section Conv.
Variables (c : cfg) (rounds : nat) (mo base : string) (mu : bool) (ps : list pfield) (fs : schema).
Local Notation sig := (emit_sig mo base mu ps).
Local Notation fun_ := (emit_fun c rounds mo base mu ps fs).
Local Notation run := (run c rounds mo base mu ps fs).
Local Notation kind_of := (kind_of mo base mu ps).
Local Notation yields := (yields "self.packet").
Local Notation pe := (pe (c_mode c) crate_const (sig []) emit_hint).

(** ** The immutable twin *)

Definition imm_ready : bool :=
  let f := (type_name base false ++ "{packet}")%string in
  (inert ps [] f && match kind_of [] f with KWrap => negb mu | KInner IImm => true | _ => false end &&
   match kind_of [] "PacketData::Borrowed" with KData => true | _ => false end &&
   match int_ty (type_name base false ++ "<>") with None => true | Some _ => false end)%bool.
Lemma imm_wrap : imm_ready = true -> let f := (type_name base false ++ "{packet}")%string in
  sig [] f = Some SVal /\ forall b t l, fun_ [] b f [VA t l] = Some (AVal (Ok (VP (type_name base false) l))).
Proof.
  intros R f. unfold imm_ready in R. fold f in R. apply andb_prop in R. destruct R as [R _]. apply andb_prop in R. destruct R as [R _]. apply andb_prop in R. destruct R as [_ R].
  pose proof (kind_spec c rounds mo base mu ps fs [] f) as K. destruct (kind_of [] f) as [| | | | | | | |i |]; try discriminate.
  - apply negb_true_iff in R. cbn [kind_ok] in K. destruct K as [K1 K2]. split; [exact K1 |]. intros. rewrite K2. now rewrite R.
  - destruct i; try discriminate. cbn [kind_ok inner_sig] in K. destruct K as [K1 K2]. split; [exact K1 |]. intros. rewrite K2. reflexivity.
Qed.
Lemma imm_call : forall b e, imm_ready = true -> pe (fun_ [] b) None e (state b) = Val (VA (Some U8) b) ->
  yields b (state b) (run [] None None (XBlock [] (Some (XCall (type_name base false ++ "{packet}") [e]))) (state b)) (Val (VP (type_name base false) b)).
Proof.
  intros b e R E. destruct (imm_wrap R) as [WS WF]. unfold imm_ready in R. apply andb_prop in R. destruct R as [R _]. apply andb_prop in R. destruct R as [R _].
  apply andb_prop in R. destruct R as [R _]. destruct (inert_ok c ps fs _ _ R) as [AC NA].
  apply ends_block, ends_tail. apply yields_call; [exact NA | exact AC | reflexivity | | discriminate].
  rewrite pe_call. cbn [pes]. rewrite E. cbn [andthen]. unfold call. rewrite WS. unfold result. rewrite WF. reflexivity.
Qed.
Lemma imm_run : forall b, imm_ready = true ->
  yields b (state b) (run [] None None (fn_body (m_fn (snd (want_imm base)))) (state b)) (Val (VP (type_name base false) b)).
Proof.
  intros b R. apply imm_call; [exact R |]. unfold imm_ready in R. apply andb_prop in R. destruct R as [R _]. apply andb_prop in R. destruct R as [_ R].
  destruct (kind_of [] "PacketData::Borrowed") eqn:K; try discriminate. destruct (kind_is c rounds mo base mu ps fs _ _ _ K) as [DS DF].
  rewrite pe_call. cbn [pes]. rewrite pe_meth by reflexivity. rewrite (pe_path _ _ _ _ _ _ _ _ (VA (Some U8) b)) by reflexivity.
  cbn [open_ty andthen pes call_method String.eqb Ascii.eqb Bool.eqb orb]. unfold call. rewrite DS. unfold result. rewrite DF. reflexivity.
Qed.
Lemma consume_run : forall b, imm_ready = true ->
  yields b (state b) (run [] None None (fn_body (m_fn (snd (want_consume base)))) (state b)) (Val (VP (type_name base false) b)).
Proof.
  intros b R. apply imm_call; [exact R |]. rewrite pe_meth by reflexivity. rewrite (pe_path _ _ _ _ _ _ _ _ (VA (Some U8) b)) by reflexivity. reflexivity.
Qed.

(** ** The packet struct *)

Definition from_ready : bool :=
  (inert ps [] (struct_lit base ps) && match kind_of [] (struct_lit base ps) with KInner IMake => true | _ => false end &&
   forallb (fun p => match getter_sig p with
                     | Some _ => true
                     | None => match kind_of [] ("self.get_" ++ pf_name p) with KInner (IGet n _) => (is_pkts p && String.eqb n (pf_name p))%bool | _ => false end
                     end) ps &&
   match int_ty base with None => true | Some _ => false end)%bool.
Lemma ity_refl : forall t, ity_eqb t t = true.
Proof. destruct t; reflexivity. Qed.
(** A getter gives a value of the type of the field. *)
Definition typed (p : pfield) (b : buf) : Prop := forall v, get c fs (pf_name p) b = Ok v -> field_rv p v <> None.
Lemma own_getter : forall qs p, NoDup (map pf_name qs) -> In p qs -> getter_of qs ("self.get_" ++ pf_name p) = Some p.
Proof.
  induction qs as [| q qs IH]; intros p N I; [destruct I |]. cbn [map] in N. inversion N as [| ? ? NI ND]; subst. unfold getter_of in *. cbn [find].
  change (String.eqb ("self.get_" ++ pf_name p) ("self.get_" ++ pf_name q)) with (String.eqb (pf_name p) (pf_name q)).
  destruct I as [-> | I]; [now rewrite String.eqb_refl |]. destruct (String.eqb (pf_name p) (pf_name q)) eqn:Q; [| now apply IH].
  exfalso. apply String.eqb_eq in Q. apply NI. rewrite <- Q. now apply in_map.
Qed.
Lemma get_value : forall p b w, from_ready = true -> NoDup (map pf_name ps) -> In p ps -> typed p b ->
  pe (fun_ [] b) w (get_call p) (state b) =
  match get c fs (pf_name p) b with
  | Ok v => match field_rv p v with Some r => Val r | None => Bad end
  | Panic e => Pnc e
  end.
Proof.
  intros p b w R N I TY. unfold from_ready in R. apply andb_prop in R. destruct R as [R _]. apply andb_prop in R. destruct R as [_ R].
  pose proof (proj1 (forallb_forall _ _) R p I) as G. cbn beta in G. unfold get_call. rewrite pe_meth by reflexivity.
  rewrite (pe_path _ _ _ _ _ _ "self" _ VSelf) by reflexivity. cbn [open_ty andthen pes call_method].
  change ("self." ++ ("get_" ++ pf_name p))%string with ("self.get_" ++ pf_name p)%string.
  pose proof (own_getter ps p N I) as OG. unfold typed in TY.
  destruct (getter_sig p) as [sh |] eqn:GS.
  - unfold emit_sig, emit_fun, len_sig, len_fun. rewrite OG, GS. unfold getter_answer. rewrite GS. unfold getter_sig in GS. unfold field_rv in *.
    destruct (pf_ty p) as [n z e | t | n].
    + destruct (int_ty n) as [u |] eqn:U; [| discriminate]. injection GS as <-. unfold result. cbn [called take_int]. rewrite (ity_refl u).
      destruct (get c fs (pf_name p) b) as [v | x]; [| reflexivity]. specialize (TY v eq_refl). destruct v; try (now contradiction TY). reflexivity.
    + destruct t as [n z e | t | n]; try discriminate. destruct (String.eqb n "u8") eqn:U; [| discriminate]. apply String.eqb_eq in U. subst n. injection GS as <-. unfold result. cbn [called take_bytes].
      destruct (get c fs (pf_name p) b) as [v | x]; [| reflexivity]. specialize (TY v eq_refl). destruct v; try (now contradiction TY). reflexivity.
    + destruct (first_ty (pf_cons p)) as [u |] eqn:U; [| discriminate]. injection GS as <-. unfold result. cbn [called take_obj]. rewrite String.eqb_refl, (ity_refl u). cbn [andb].
      destruct (get c fs (pf_name p) b) as [v | x]; [| reflexivity]. specialize (TY v eq_refl). destruct v; try (now contradiction TY). cbn [bind lift].
      destruct (Nat.eqb (Datatypes.length l) (Datatypes.length (pf_cons p))); [reflexivity | now contradiction TY].
  - destruct (kind_of [] ("self.get_" ++ pf_name p)) as [| | | | | | | |i |] eqn:K; try discriminate. destruct i; try discriminate. apply andb_prop in G. destruct G as [IP G]. apply String.eqb_eq in G. subst n.
    destruct (kind_is c rounds mo base mu ps fs _ _ _ K) as [KS KF]. cbn [inner_sig] in KS. rewrite KS. unfold result. rewrite KF. cbn [inner_fun called take_val].
    unfold is_pkts in IP. unfold field_rv in *. destruct (get c fs (pf_name p) b) as [v | x]; [| reflexivity]. specialize (TY v eq_refl). cbn [bind].
    destruct (pf_ty p) as [| t0 |]; try discriminate. destruct t0 as [| | n]; try discriminate. destruct v; try (now contradiction TY). reflexivity.
Qed.
Fixpoint rvs (qs : list pfield) (vs : list val) : option (list rv) :=
  match qs, vs with
  | [], [] => Some []
  | p :: qr, v :: vr => match field_rv p v, rvs qr vr with Some r, Some l => Some (r :: l) | _, _ => None end
  | _, _ => None
  end.
Lemma rvs_struct : forall qs vs l, rvs qs vs = Some l -> struct_fields_rv qs vs = Some (combine (map pf_name qs) l) /\ List.length l = List.length qs.
Proof.
  induction qs as [| p qs IH]; intros [| v vs] l H; cbn [rvs] in H; try discriminate.
  - injection H as <-. now split.
  - destruct (field_rv p v) as [r |] eqn:F; [| discriminate]. destruct (rvs qs vs) as [l' |] eqn:R; [| discriminate]. injection H as <-.
    destruct (IH vs l' R) as [S L]. cbn [struct_fields_rv map combine List.length]. rewrite F, S, L. now split.
Qed.
Lemma get_values : forall b w, from_ready = true -> NoDup (map pf_name ps) -> forall qs, incl qs ps -> (forall p, In p qs -> typed p b) ->
  match seq_res (map (fun p => get c fs (pf_name p) b) qs) with
  | Ok vs => exists l, rvs qs vs = Some l /\ pes (c_mode c) crate_const (sig []) emit_hint (fun_ [] b) w (map get_call qs) (state b) = Val l
  | Panic e => pes (c_mode c) crate_const (sig []) emit_hint (fun_ [] b) w (map get_call qs) (state b) = Pnc e
  end.
Proof.
  intros b w R N. induction qs as [| p qs IH]; intros I TY; cbn [map seq_res]; [exists []; now split |].
  specialize (IH (fun x X => I x (or_intror X)) (fun x X => TY x (or_intror X))). pose proof (TY p (or_introl eq_refl)) as TP. cbn [pes].
  rewrite (get_value p b w R N (I p (or_introl eq_refl)) TP). unfold typed in TP. destruct (get c fs (pf_name p) b) as [v | e]; cbn [bind andthen]; [| reflexivity].
  specialize (TP v eq_refl). destruct (field_rv p v) as [r |] eqn:F; [| now contradiction TP]. cbn [andthen].
  destruct (seq_res (map (fun p => get c fs (pf_name p) b) qs)) as [vs | e]; cbn [bind].
  - destruct IH as (l & RV & ->). exists (r :: l). cbn [rvs]. rewrite F, RV. now split.
  - now rewrite IH.
Qed.
Lemma from_run : forall b, from_ready = true -> NoDup (map pf_name ps) -> (forall p, In p ps -> typed p b) ->
  reads (finished "self.packet" (run [] None None (fn_body (m_fn (snd (want_from base ps)))) (state b))) b
    (seq_res (map (fun p => get c fs (pf_name p) b) ps)) (fun vs r => struct_rv ps vs = Some r).
Proof.
  intros b R N TY. pose proof (get_values b None R N ps (fun x X => X) TY) as G. unfold from_ready in R. apply andb_prop in R. destruct R as [R _]. apply andb_prop in R. destruct R as [R _].
  apply andb_prop in R. destruct R as [IN KM]. destruct (inert_ok c ps fs _ _ IN) as [AC NA].
  destruct (kind_of [] (struct_lit base ps)) as [| | | | | | | |i |] eqn:K; try discriminate. destruct i; try discriminate.
  destruct (kind_is c rounds mo base mu ps fs _ _ _ K) as [KS KF]. cbn [inner_sig] in KS.
  destruct (seq_res (map (fun p => get c fs (pf_name p) b) ps)) as [vs | e]; cbn [reads].
  - destruct G as (l & RV & PE). destruct (rvs_struct _ _ _ RV) as [S L]. exists (VS (combine (map pf_name ps) l)).
    split; [| unfold struct_rv; now rewrite S].
    assert (Y : yields b (state b) (run [] None None (fn_body (m_fn (snd (want_from base ps)))) (state b)) (Val (VS (combine (map pf_name ps) l)))).
    { apply ends_block, ends_tail. apply yields_call; [exact NA | exact AC | reflexivity | | discriminate].
      rewrite pe_call, PE. cbn [andthen]. unfold call. rewrite KS. unfold result. rewrite KF. cbn [inner_fun]. rewrite L, PeanoNat.Nat.eqb_refl. reflexivity. }
    exact (finished_yields "self.packet" b (state b) _ _ eq_refl Y).
  - assert (Y : yields b (state b) (run [] None None (fn_body (m_fn (snd (want_from base ps)))) (state b)) (Pnc e)).
    { apply ends_block, ends_tail. apply yields_call; [exact NA | exact AC | reflexivity | | discriminate]. rewrite pe_call, G. reflexivity. }
    exact (finished_yields "self.packet" b (state b) _ _ eq_refl Y).
Qed.
End Conv.

(** ** Checks *)

Definition emits_more (base : string) (ps : list pfield) : bool :=
  (forallb (fun mu => has_methods (one_impl (emit_impl Checked true mu base ps)) [want_imm base; want_consume base]) [false; true] &&
   all_methods (Some (emit_iterable base)) [want_next base; want_hint] &&
   all_methods (Some (emit_converters base ps)) [want_from base ps; want_from base ps])%bool.
Definition conv_ready (mo base : string) (ps : list pfield) : bool :=
  ((0 <=? total ps) && forallb (fun mu => imm_ready mo base mu ps && from_ready mo base mu ps) [false; true])%bool.
Lemma conv_all : forallb (fun '(mo, n, t) => conv_ready mo n (struct_fields t) && emits_more n (struct_fields t))%bool crate_structs = true.
Proof. vm_compute. reflexivity. Qed.
