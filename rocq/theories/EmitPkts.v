(** What the emitted methods of a field that is a list of packets do when they are run. *)
From Coq Require Import String Ascii ZArith List Bool Lia.
From Verif Require Import Base BaseFacts DeriveUtil DeriveOps DeriveGen DeriveParse SpecPacket DeriveAccProofs DeriveApiProofs DeriveVarProofs
  DerivePropProofs2 SpecProto Protocols ProtoFacts ProtoStructProofs Quic FmtText RustLex RustSyntax RustItem RustSem RustMethod RustExec CrateText
  SpecSource SpecItem ItemProofs ItemLayout EmitText EmitTextProofs EmitGen SpecEmit EmitEq EmitWant EmitTransfer EmitLayout EmitOps EmitRun EmitStable EmitReads EmitSets EmitWrites.
Import ListNotations.
Open Scope string_scope.
Open Scope Z_scope.

(** ** The types of the elements *)

Definition elem_names : list string := ["Ipv4Option"; "TcpOption"; "U16BE"; "U32BE"; "NdpOption"].
Lemma elem_crate : forall c t gs, In (t, gs) (all_packets c) -> In t elem_names -> In (t, gs) (crate_schemas c).
Proof.
  intros c t gs I E. unfold all_packets in I. apply in_app_or in I. destruct I as [I | I]; [exact I | exfalso].
  apply in_app_or in I. destruct I as [I | I]; apply in_map_iff in I; destruct I as (k & K & _); injection K as <- _; cbn [elem_names In] in E; destruct k; cbn in E; intuition discriminate.
Qed.
Lemma elem_schema_of : forall c t gs, In (t, gs) (all_packets c) -> In t elem_names -> schema_of c t = gs.
Proof.
  intros c t gs I E. apply elem_crate in I; [| exact E]. unfold crate_schemas in I. cbn [In] in I.
  repeat (destruct I as [I | I]; [injection I as <- <-; reflexivity |]). destruct I.
Qed.
Lemma elem_progress : forall c t gs, In (t, gs) (all_packets c) -> In t elem_names ->
  forall s n, buf_ok s -> packet_size c gs s = Ok n -> 0 < n.
Proof.
  intros c t gs I E s n B P. apply elem_crate in I; [| exact E]. destruct (crate_well_formed c t gs I) as (S & _). destruct (crate_header c t gs I) as (M & H & L).
  apply (size_pos c gs s n); auto; [exact (crate_lens_small c t gs I) |].
  apply Z.mod_divide in M; [| lia]. destruct M as [q Q]. lia.
Qed.

Lemma buf_ok_firstn : forall n b, buf_ok b -> buf_ok (firstn n b).
Proof. intros n b [B L]. split; [now apply bytes_firstn |]. unfold blen in *. rewrite firstn_length. lia. Qed.

(** Collecting the items with enough rounds. *)
Lemma collected_all : forall (k : pkt_sem) (next : list Z -> outcome rv) (each : rv -> outcome rv) ty ty',
  (forall d, next d = match iter_next k d with Ok o => Val (VO (match o with Some (i, r) => Some (VT [VP ty i; VP ty' r]) | None => None end)) | Panic e => Pnc e end) ->
  (forall d, each (VP ty d) = match k_from k d with Ok x => Val (VX x) | Panic e => Pnc e end) ->
  (forall s n, buf_ok s -> k_size k s = Ok n -> 0 < n) ->
  forall n d, buf_ok d -> (List.length d < n)%nat ->
  collected next each n d = match iter_collect k (k_from k) n d with Ok l => Val (map VX l) | Panic e => Pnc e end.
Proof.
  intros k next each ty ty' NX EA PR. induction n as [| n IH]; intros d B L; [lia |]. cbn [collected iter_collect]. rewrite NX.
  unfold iter_next. destruct ((0 <? blen d) && (k_min k <=? blen d))%bool eqn:G; [| reflexivity].
  destruct (k_size k d) as [z | e] eqn:SZ; [| reflexivity]. cbn [bind andthen]. rewrite EA. destruct (k_from k d) as [x | e]; [| reflexivity]. cbn [bind andthen].
  pose proof (PR d z B SZ) as P. apply andb_prop in G. destruct G as [G _]. apply Z.ltb_lt in G.
  set (r := skipn (Z.to_nat (Z.min z (blen d))) d).
  assert (LR : (List.length r < List.length d)%nat) by (unfold r; rewrite skipn_length; unfold blen in *; lia).
  replace (blen r =? blen d) with false by (symmetry; apply Z.eqb_neq; unfold blen; lia).
  rewrite IH; [| unfold r; apply buf_ok_skipn; exact B | lia].
  destruct (iter_collect k (k_from k) n r); reflexivity.
Qed.

Section Pkts.
Variables (c : cfg) (rounds : nat) (mo base : string) (mu : bool) (ps : list pfield) (fs : schema).
Local Notation pe_at := (pe_at c rounds mo base mu ps fs).
Local Notation means := (means c rounds mo base mu ps fs).
Local Notation spot_ok := (spot_ok c rounds mo base mu ps fs).
Local Notation sig := (emit_sig mo base mu ps).
Local Notation fun_ := (emit_fun c rounds mo base mu ps fs).
Local Notation run := (run c rounds mo base mu ps fs).
Local Notation kind_of := (kind_of mo base mu ps).
Local Notation holds := (holds "self.packet").
Local Notation wrote := (wrote "self.packet").
Local Notation wrote_in := (wrote_in "self.packet").
Local Notation yields := (yields "self.packet").
Local Notation pe := (pe (c_mode c) crate_const (sig []) emit_hint).

(** ** The getter *)

Definition pkts_get_ready (n ty : string) : bool :=
  (existsb (String.eqb ty) elem_names &&
   match kind_of [] ("self.get_" ++ n ++ "_iter") with KInner (IIter n' t') => (String.eqb n n' && String.eqb ty t')%bool | _ => false end &&
   match kind_of [] (ty ++ "Iterable::next") with KInner (INext t') => String.eqb ty t' | _ => false end &&
   match kind_of [] (type_name ty false ++ "::from_packet") with KInner (IItem t') => String.eqb ty t' | _ => false end &&
   match int_ty ("Vec<" ++ ty ++ ">") with None => true | Some _ => false end)%bool.
Lemma in_names : forall ty, existsb (String.eqb ty) elem_names = true -> In ty elem_names.
Proof. intros ty H. apply existsb_exists in H. destruct H as (x & I & E). apply String.eqb_eq in E. now subst. Qed.
Lemma pe_collect : forall f w it y e s,
  pe f w (XMeth (XMeth it "map" [XClo [y] e]) "collect" []) s =
  andthen (pe f None it s) (fun v =>
    match v with
    | VP c d => andthen (collected (fun d => call (sig []) f (c ++ "::next") [VP c d]) (fun i => pe f None e ((y, i) :: s)) (S (List.length d)) d) (fun l => Val (VL l))
    | _ => Bad
    end).
Proof. reflexivity. Qed.
Lemma pkts_get_run : forall b s w ty gs, pkts_get_ready (pf_name (sp_field s)) ty = true -> In (ty, gs) (all_packets c) -> buf_ok b ->
  yields b (state b) (run [] None w (fn_body (m_fn (snd (want_pkts_get s ty)))) (state b))
    (match (d <- get_iter c fs (pf_name (sp_field s)) b ;; iter_all (sem_of c gs) (k_from (sem_of c gs)) d) with Ok l => Val (VL (map VX l)) | Panic e => Pnc e end).
Proof.
  intros b s w ty gs R I B. unfold pkts_get_ready in R. apply andb_prop in R. destruct R as [R _]. apply andb_prop in R. destruct R as [R R4].
  apply andb_prop in R. destruct R as [R R3]. apply andb_prop in R. destruct R as [R1 R2]. apply in_names in R1.
  destruct (kind_of [] ("self.get_" ++ pf_name (sp_field s) ++ "_iter")) as [| | | | | | | |i |] eqn:K2; try discriminate. destruct i as [| | | | | | | n' t' |]; try discriminate.
  apply andb_prop in R2. destruct R2 as [E1 E2]. apply String.eqb_eq in E1. apply String.eqb_eq in E2. subst n' t'.
  destruct (kind_of [] (ty ++ "Iterable::next")) as [| | | | | | | |i |] eqn:K3; try discriminate. destruct i as [| | | | | | t' | |]; try discriminate. apply String.eqb_eq in R3. subst t'.
  destruct (kind_of [] (type_name ty false ++ "::from_packet")) as [| | | | | | | |i |] eqn:K4; try discriminate. destruct i as [| | | | | t' | | |]; try discriminate. apply String.eqb_eq in R4. subst t'.
  destruct (kind_is c rounds mo base mu ps fs _ _ _ K2) as [S2 F2]. destruct (kind_is c rounds mo base mu ps fs _ _ _ K3) as [S3 F3].
  destruct (kind_is c rounds mo base mu ps fs _ _ _ K4) as [S4 F4]. cbn [inner_sig inner_fun] in *.
  apply ends_block, ends_tail. set (it := XMeth (XPath "self") ("get_" ++ pf_name (sp_field s) ++ "_iter") []).
  match goal with |- EmitRun.yields _ _ _ ?o _ => change o
    with (of_value (val_of (c_mode c) crate_const (sig []) emit_hint "self.packet" (fun_ []) w (XMeth (XMeth it "map" [XClo ["packet"] (XMeth (XPath "packet") "from_packet" [])]) "collect" []) (state b)) (state b) (fun v => Go v (state b))) end.
  rewrite (val_at _ _ _ _ _ _ b) by reflexivity. rewrite pe_collect.
  assert (IT : pe (fun_ [] b) None it (state b) = match get_iter c fs (pf_name (sp_field s)) b with Ok d => Val (VP (ty ++ "Iterable") d) | Panic e => Pnc e end).
  { unfold it. set (nm := ("get_" ++ pf_name (sp_field s) ++ "_iter")%string) in *.
    rewrite pe_meth by reflexivity. rewrite (pe_path _ _ _ _ _ _ "self" _ VSelf) by reflexivity. cbn [open_ty andthen pes call_method].
    change ("self." ++ nm)%string with ("self.get_" ++ pf_name (sp_field s) ++ "_iter")%string. rewrite S2. unfold result. rewrite F2. cbn [called take_val lift].
    destruct (get_iter c fs (pf_name (sp_field s)) b); reflexivity. }
  rewrite IT. destruct (get_iter c fs (pf_name (sp_field s)) b) as [d | e] eqn:GI; cbn [andthen bind of_value].
  2: { exists (state b). split; reflexivity. }
  assert (BD : buf_ok d).
  { unfold get_iter, get_raw in GI. destruct (raw_range c fs (pf_name (sp_field s)) b) as [[lo hi] |]; [| discriminate]. cbn [bind] in GI. apply slice_inv in GI.
    destruct GI as (_ & _ & ->). apply buf_ok_firstn, buf_ok_skipn. exact B. }
  rewrite (collected_all (sem_of c gs) _ _ (type_name ty false) (ty ++ "Iterable")).
  - unfold iter_all. destruct (iter_collect (sem_of c gs) (k_from (sem_of c gs)) (S (List.length d)) d); cbn [andthen of_value EmitRun.yields]; [reflexivity |].
    exists (state b). split; reflexivity.
  - intros x. unfold call. rewrite app_assoc_s. change ("Iterable" ++ "::next")%string with "Iterable::next". rewrite S3. unfold result. rewrite F3. cbn [called take_val lift].
    rewrite (elem_schema_of c ty gs I R1). destruct (iter_next (sem_of c gs) x) as [[[i r] |] | e]; reflexivity.
  - intros x. rewrite pe_meth by reflexivity. rewrite (pe_path _ _ _ _ _ _ "packet" _ (VP (type_name ty false) x)) by reflexivity. cbn [open_ty andthen pes call_method].
    change ("::" ++ "from_packet")%string with "::from_packet". rewrite S4. unfold result. rewrite F4. cbn [called take_val lift].
    rewrite (elem_schema_of c ty gs I R1). cbn [sem_of k_from]. destruct (from_packet c gs x); reflexivity.
  - intros x n BX P. exact (elem_progress c ty gs I R1 x n BX P).
  - exact BD.
  - lia.
Qed.

(** ** The setter *)

Definition pkts_set_ready (ty : string) : bool :=
  (existsb (String.eqb ty) elem_names &&
   match kind_of [] "self.packet.from" with KInner IFrom => true | _ => false end &&
   match kind_of [] ("Mutable" ++ ty ++ "Packet::new") with KInner (INew t') => String.eqb ty t' | _ => false end &&
   match kind_of [] (type_name ty true ++ "::packet_size") with KInner (ISize t') => String.eqb ty t' | _ => false end &&
   match setter_of ps (type_name ty true ++ "::populate"), inner_act ps (type_name ty true ++ "::populate") with None, Some t' => String.eqb ty t' | _, _ => false end)%bool.
Definition pkts_loop (ty : string) : list st :=
  [SLet (PVar "packet") None
     (XMeth (XCall ("Mutable" ++ ty ++ "Packet::new") [XCall "self.packet.from" [XPath "current_offset"]]) "unwrap" []);
   SExp (XMeth (XPath "packet") "populate" [XPath "val"]);
   SSet (Some OAdd) (XPath "current_offset") (XMeth (XPath "packet") "packet_size" []);
   SExp (XCall "assert" [XBin OLe (XPath "current_offset") (XPath "end")])].
Definition pkts_env (vals : rv) (e co : Z) (b : buf) : RustSem.env :=
  [("end", RustSem.VI (Some Usize) e); ("current_offset", RustSem.VI (Some Usize) co); ("self", VSelf); ("vals", vals); ("self.packet", VA (Some U8) b)].
Definition in_loop (ty : string) (v : rv) (co0 : Z) (vals : rv) (e co : Z) (b : buf) : RustSem.env :=
  ("packet", VC (type_name ty true) Usize [co0]) :: ("val", v) :: pkts_env vals e co b.
Local Notation stmts := (run_stmts (c_mode c) crate_const (sig []) emit_hint "self.packet" (fun_ []) (emit_act c ps fs []) None).
Lemma pkts_step : forall ty gs vals e x co b, pkts_set_ready ty = true -> In (ty, gs) (all_packets c) ->
  let k := sem_of c gs in
  let o := left_block (pkts_env vals e co b) (run [] None None (XBlock (pkts_loop ty) None) (("val", VX x) :: pkts_env vals e co b)) in
  match slice_from b co with
  | Panic y => exists s', o = Crash y s' /\ holds b s'
  | Ok t =>
      if blen t <? k_min k then exists s', o = Crash EUnwrap s' /\ holds b s'
      else match on_tail (Z.to_nat co) (k_populate k x) b with
           | (b1, Panic y) => exists s', o = Crash y s' /\ holds b1 s'
           | (b1, Ok _) =>
               match (s <- k_size k (skipn (Z.to_nat co) b1) ;; add_u (c_mode c) usize co s) with
               | Panic y => exists s', o = Crash y s' /\ holds b1 s'
               | Ok co' => if co' <=? e then o = Go VUnit (pkts_env vals e co' b1) else exists s', o = Crash EAssert s' /\ holds b1 s'
               end
           end
  end.
Proof.
  intros ty gs vals e x co b R I k o. unfold pkts_set_ready in R. apply andb_prop in R. destruct R as [R R5]. apply andb_prop in R. destruct R as [R R4].
  apply andb_prop in R. destruct R as [R R3]. apply andb_prop in R. destruct R as [R1 R2]. apply in_names in R1. pose proof (elem_schema_of c ty gs I R1) as SO.
  destruct (kind_of [] "self.packet.from") as [| | | | | | | |i |] eqn:K2; try discriminate. destruct i; try discriminate.
  destruct (kind_of [] ("Mutable" ++ ty ++ "Packet::new")) as [| | | | | | | |i |] eqn:K3; try discriminate. destruct i as [| | | t' | | | | |]; try discriminate. apply String.eqb_eq in R3. subst t'.
  destruct (kind_of [] (type_name ty true ++ "::packet_size")) as [| | | | | | | |i |] eqn:K4; try discriminate. destruct i as [| | | | t' | | | |]; try discriminate. apply String.eqb_eq in R4. subst t'.
  destruct (setter_of ps (type_name ty true ++ "::populate")) eqn:NS; [discriminate |]. destruct (inner_act ps (type_name ty true ++ "::populate")) as [t' |] eqn:IA; [| discriminate].
  apply String.eqb_eq in R5. subst t'.
  destruct (kind_is c rounds mo base mu ps fs _ _ _ K2) as [S2 F2]. destruct (kind_is c rounds mo base mu ps fs _ _ _ K3) as [S3 F3].
  destruct (kind_is c rounds mo base mu ps fs _ _ _ K4) as [S4 F4]. cbn [inner_sig inner_fun] in *.
  unfold o. clear o. unfold EmitReads.run. rewrite exec_block.
  set (s0 := ("val", VX x) :: pkts_env vals e co b).
  (* let packet = .. *)
  set (nw := XMeth (XCall ("Mutable" ++ ty ++ "Packet::new") [XCall "self.packet.from" [XPath "current_offset"]]) "unwrap" []).
  assert (P : forall w, exec (c_mode c) crate_const (sig []) emit_hint "self.packet" (fun_ []) (emit_act c ps fs []) None w nw s0 =
    match slice_from b co with
    | Panic y => Crash y s0
    | Ok t => if blen t <? k_min k then Crash EUnwrap s0 else Go (VC (type_name ty true) Usize [co]) s0
    end).
  { intros w. match goal with |- ?l = _ => change l with (of_value (val_of (c_mode c) crate_const (sig []) emit_hint "self.packet" (fun_ []) w nw s0) s0 (fun v => Go v s0)) end.
    rewrite (val_at _ _ _ _ _ _ b) by reflexivity. unfold nw. rewrite pe_meth by reflexivity. rewrite pe_call. cbn [pes]. rewrite pe_call. cbn [pes].
    rewrite (pe_path _ _ _ _ _ _ "current_offset" _ (RustSem.VI (Some Usize) co)) by reflexivity. cbn [open_ty andthen]. unfold call. rewrite S2, S3. unfold result. rewrite F2. cbn [inner_fun called take_val lift].
    destruct (slice_from b co) as [t | y] eqn:SL; cbn [bind lift andthen of_value]; [| reflexivity]. rewrite F3. cbn [inner_fun rest_at called take_val lift andthen].
    rewrite SO. unfold new. cbn [k_min sem_of k]. unfold slice_from in SL. destruct ((0 <=? co) && (co <=? blen b))%bool; [| discriminate]. injection SL as <-. fold (blen (skipn (Z.to_nat co) b)).
    destruct (minimum_packet_size gs <=? blen (skipn (Z.to_nat co) b)) eqn:LE.
    - replace (blen (skipn (Z.to_nat co) b) <? minimum_packet_size gs) with false by (symmetry; apply Z.ltb_ge; apply Z.leb_le in LE; exact LE). reflexivity.
    - replace (blen (skipn (Z.to_nat co) b) <? minimum_packet_size gs) with true by (symmetry; apply Z.ltb_lt; apply Z.leb_gt in LE; exact LE). reflexivity. }
  unfold pkts_loop. fold nw. destruct (slice_from b co) as [t | y].
  2: { rewrite (let_crash _ _ _ _ _ _ _ _ _ _ _ _ _ _ _ _ _ (P _)). exists s0. split; reflexivity. }
  destruct (blen t <? k_min k).
  { rewrite (let_crash _ _ _ _ _ _ _ _ _ _ _ _ _ _ _ _ _ (P _)). exists s0. split; reflexivity. }
  rewrite (let_step _ _ _ _ _ _ _ _ _ _ _ _ _ _ _ _ (P _)). clear P nw.
  (* packet.populate(val) *)
  change (("packet", VC (type_name ty true) Usize [co]) :: s0) with (in_loop ty (VX x) co vals e co b).
  set (s1 := in_loop ty (VX x) co vals e co b). set (rest := [SSet _ _ _; _]).
  destruct (act_value (c_mode c) crate_const (sig []) emit_hint "self.packet" (fun_ []) (emit_act c ps fs []) (type_name ty true ++ "::populate")
    (fun args b => match args with [VC _ _ [co]; VX x] => Some (on_tail (Z.to_nat co) (populate c (schema_of c ty) x) b) | _ => None end)
    b s1 [XPath "packet"; XPath "val"] [VC (type_name ty true) Usize [co]; VX x] (on_tail (Z.to_nat co) (k_populate k x) b)) as (oo & AO & W).
  { unfold emit_act. cbn [find_item find]. rewrite NS, IA. reflexivity. }
  { reflexivity. }
  { reflexivity. }
  { cbn beta iota. rewrite SO. reflexivity. }
  assert (EX : exec (c_mode c) crate_const (sig []) emit_hint "self.packet" (fun_ []) (emit_act c ps fs []) None None (XMeth (XPath "packet") "populate" [XPath "val"]) s1 = oo).
  { cbn [exec]. change (RustSem.lookup "packet" s1) with (Some (VC (type_name ty true) Usize [co])). cbn iota.
    change ("::" ++ "populate")%string with "::populate". rewrite AO. reflexivity. }
  cbn [run_stmts run_st]. rewrite EX. clear EX AO. unfold EmitSets.wrote in W.
  destruct (on_tail (Z.to_nat co) (k_populate k x) b) as [b1 [u | y]]; cbn [fst snd] in W.
  2: { destruct W as (s' & -> & H'). exists s'. split; [reflexivity | exact H']. }
  subst oo. change (upd "self.packet" b1 s1) with (in_loop ty (VX x) co vals e co b1). clear s1. set (s2 := in_loop ty (VX x) co vals e co b1).
  unfold rest. cbn [run_stmts run_st]. change (RustSem.lookup "current_offset" s2) with (Some (RustSem.VI (Some Usize) co)). cbn iota.
  assert (Z1 : forall w, val_of (c_mode c) crate_const (sig []) emit_hint "self.packet" (fun_ []) w (XMeth (XPath "packet") "packet_size" []) s2 =
    match k_size k (skipn (Z.to_nat co) b1) with Ok z => Val (RustSem.VI (Some Usize) z) | Panic y => Pnc y end).
  { intros w. rewrite (val_at _ _ _ _ _ _ b1) by reflexivity. rewrite pe_meth by reflexivity. rewrite (pe_path _ _ _ _ _ _ "packet" _ (VC (type_name ty true) Usize [co])) by reflexivity.
    cbn [open_ty andthen pes call_method]. change ("::" ++ "packet_size")%string with "::packet_size". rewrite S4. unfold result. rewrite F4. cbn [inner_fun called take_int ity_eqb lift].
    rewrite SO. cbn [k sem_of k_size]. destruct (packet_size c gs (skipn (Z.to_nat co) b1)); reflexivity. }
  rewrite Z1. destruct (k_size k (skipn (Z.to_nat co) b1)) as [z | y]; cbn [of_value bind].
  2: { exists s2. split; reflexivity. }
  unfold result, binary. cbn [is_cmp is_shift join ity_eqb arith width]. destruct (add_u (c_mode c) usize co z) as [co' | y]; cbn [lift of_value].
  2: { exists s2. split; reflexivity. }
  unfold assigned. change (assign "current_offset" (RustSem.VI (Some Usize) co') s2) with (Some (in_loop ty (VX x) co vals e co' b1)). cbn iota.
  set (s3 := in_loop ty (VX x) co vals e co' b1). cbn [exec]. change (String.eqb "assert" "assert") with true. cbn iota.
  rewrite (val_at _ _ _ _ _ _ b1) by reflexivity.
  change (pe (fun_ [] b1) None (XBin OLe (XPath "current_offset") (XPath "end")) s3) with (Val (VB (co' <=? e))). cbn [of_value].
  destruct (co' <=? e).
  - reflexivity.
  - exists s3. split; reflexivity.
Qed.
Definition pkts_iter (ty : string) (v : rv) (s1 : RustSem.env) : ended :=
  match matched (PVar "val") v with
  | Some (Some bs) => left_block s1 (run [] None None (XBlock (pkts_loop ty) None) (bs ++ s1)%list)
  | _ => Off
  end.
Lemma pkts_loop_run : forall ty gs vals e, pkts_set_ready ty = true -> In (ty, gs) (all_packets c) -> forall vs co b,
  match pkts_set_loop c (sem_of c gs) vs co e b with
  | (b', Ok _) => exists co', run_each (pkts_iter ty) (map VX vs) (pkts_env vals e co b) = Go VUnit (pkts_env vals e co' b')
  | (b', Panic y) => exists s', run_each (pkts_iter ty) (map VX vs) (pkts_env vals e co b) = Crash y s' /\ holds b' s'
  end.
Proof.
  intros ty gs vals e R I. induction vs as [| x vs IH]; intros co b; [exists co; reflexivity |].
  cbn [map pkts_set_loop run_each]. pose proof (pkts_step ty gs vals e x co b R I) as ST. cbn zeta in ST.
  change (pkts_iter ty (VX x) (pkts_env vals e co b)) with (left_block (pkts_env vals e co b) (run [] None None (XBlock (pkts_loop ty) None) (("val", VX x) :: pkts_env vals e co b))).
  set (o := left_block _ _) in *. clearbody o. destruct (slice_from b co) as [t | y].
  2: { destruct ST as (s' & -> & H'). exists s'. now split. }
  destruct (blen t <? k_min (sem_of c gs)).
  { destruct ST as (s' & -> & H'). exists s'. now split. }
  unfold mseq. destruct (on_tail (Z.to_nat co) (k_populate (sem_of c gs) x) b) as [b1 [u | y]].
  2: { destruct ST as (s' & -> & H'). exists s'. now split. }
  destruct (s <- k_size (sem_of c gs) (skipn (Z.to_nat co) b1) ;; add_u (c_mode c) usize co s) as [co' | y].
  2: { destruct ST as (s' & -> & H'). exists s'. now split. }
  destruct (co' <=? e).
  2: { destruct ST as (s' & -> & H'). exists s'. now split. }
  subst o. apply IH.
Qed.
Definition pkts_set_model (l : loc) (k : pkt_sem) (vs : list (list val)) (b : buf) : buf * res unit :=
  lift_set (l_co c l) (fun co b =>
        match (n <- len_or_all (l_len l) b ;; add_u (c_mode c) usize co n) with
        | Panic e => (b, Panic e)
        | Ok e => pkts_set_loop c k vs co e b
        end) b.
Lemma pkts_set_run : forall name b s l w ty gs vs, spot_ok name b s l -> buf_ok b -> pkts_set_ready ty = true -> In (ty, gs) (all_packets c) ->
  wrote (with_arg "vals" (VL (map VX vs)) b) (run [] None w (fn_body (m_fn (snd (want_pkts_set s ty)))) (with_arg "vals" (VL (map VX vs)) b))
    (pkts_set_model l (sem_of c gs) vs b).
Proof.
  intros name b s l w ty gs vs OK B R I. pose proof OK as (_ & SB & SO & _). unfold want_pkts_set. cbn [me snd m_fn fn_body]. fold (pkts_loop ty). unfold EmitReads.run. rewrite exec_block. apply in_block.
  set (vals := VL (map VX vs)). set (s0 := with_arg "vals" vals b). assert (G0 : good b s0) by (apply with_arg_good; reflexivity).
  assert (CO : yields b s0 (run [] None (let_type emit_hint (PVar "current_offset") None) (sp_co s) s0) (vi (l_co c l))).
  { unfold sp_co, l_co. rewrite SB. apply yields_means; [apply co_plain | exact G0 | now apply means_co]. }
  unfold pkts_set_model, lift_set. destruct (l_co c l) as [x | e]; cbn [vi] in CO; [| exact (in_crash _ _ _ _ _ _ _ _ b w _ _ _ _ _ _ e CO)].
  cbn [EmitRun.yields] in CO. unfold EmitReads.run in CO. rewrite (let_step _ _ _ _ _ _ _ _ _ _ _ _ _ _ _ _ CO). clear CO.
  set (s1 := ("current_offset", RustSem.VI (Some Usize) x) :: s0). assert (G1 : good b s1) by now apply good_cons.
  assert (EN : yields b s1 (run [] None (let_type emit_hint (PVar "end") None) (XBin OAdd (XPath "current_offset") (len_or_self s)) s1) (of_res Usize (n <- len_or_all (l_len l) b ;; add_u (c_mode c) usize x n))).
  { apply yields_plain; [reflexivity | exact (good_holds b s1 G1) | | apply of_res_not].
    rewrite (int_add (c_mode c) crate_const (sig []) emit_hint (fun_ [] b) (XPath "current_offset") (len_or_self s) s1 Usize (Ok x) (len_or_all (l_len l) b)).
    - reflexivity.
    - intros w'. reflexivity.
    - intros w' _. rewrite <- vi_of. exact (means_len_or c rounds mo base mu ps fs name b s l OK [] w' s1 G1). }
  destruct (n <- len_or_all (l_len l) b ;; add_u (c_mode c) usize x n) as [e | y]; cbn [of_res] in EN; [| exact (in_crash _ _ _ _ _ _ _ _ b w _ _ _ _ _ s1 y EN)].
  cbn [EmitRun.yields] in EN. unfold EmitReads.run in EN. rewrite (let_step _ _ _ _ _ _ _ _ _ _ _ _ _ _ _ _ EN). clear EN.
  change (("end", RustSem.VI (Some Usize) e) :: s1) with (pkts_env vals e x b).
  cbn [run_stmts run_st]. rewrite (val_at _ _ _ _ _ _ b) by reflexivity. rewrite pe_meth by reflexivity.
  rewrite (pe_path _ _ _ _ _ _ "vals" _ vals) by reflexivity.
  change (open_ty None vals) with vals. cbn [andthen pes]. change (call_method (c_mode c) (sig []) (fun_ [] b) "into_iter" vals []) with (Val vals). cbn [andthen of_value].
  change (items vals) with (Some (map VX vs)). cbn iota.
  change (fun v s1 => match matched (PVar "val") v with
                      | Some (Some bs) => left_block s1 (exec (c_mode c) crate_const (sig []) emit_hint "self.packet" (fun_ []) (emit_act c ps fs []) None None (XBlock (pkts_loop ty) None) (bs ++ s1)%list)
                      | _ => Off end) with (pkts_iter ty).
  pose proof (pkts_loop_run ty gs vals e R I vs x b) as L. unfold EmitSets.wrote_in.
  destruct (pkts_set_loop c (sem_of c gs) vs x e b) as [b' [u | y]]; cbn [fst snd].
  - destruct L as (co' & ->). exists [("end", RustSem.VI (Some Usize) e); ("current_offset", RustSem.VI (Some Usize) co')]. reflexivity.
  - destruct L as (s' & -> & H'). exists s'. now split.
Qed.
End Pkts.
