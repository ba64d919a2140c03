(** The offsets and lengths in the emitted code are those of the model. *)
From Coq Require Import String Ascii ZArith List Bool Lia.
From Verif Require Import Base BaseFacts DeriveUtil DeriveOps DeriveGen DeriveParse SpecPacket DeriveAccProofs DeriveApiProofs
  Protocols Quic FmtText FmtValueProofs QuicFmtProofs RustLex RustSyntax RustItem RustSem RustMethod RustExec CrateText
  SpecSource SpecItem ItemProofs ItemLayout EmitGen SpecEmit EmitWant EmitTransfer.
Import ListNotations.
Open Scope string_scope.
Open Scope Z_scope.

Definition vi (r : res Z) : outcome rv := match r with Ok z => Val (RustSem.VI (Some Usize) z) | Panic e => Pnc e end.
Definition good (b : buf) (s : RustSem.env) : Prop :=
  RustSem.lookup "self" s = Some VSelf /\ RustSem.lookup "self.packet" s = Some (VA (Some U8) b).

Lemma pe_cast : forall m consts sigs hints funs w a t s, pe m consts sigs hints funs w (XCast a t) s = pe m consts sigs hints funs None (XCast a t) s.
Proof. reflexivity. Qed.
Lemma put_cast : forall co e t, put_rest co (XCast e t) = XCast (put_rest co e) t.
Proof. reflexivity. Qed.

Lemma after_done : forall o z, lift z (fun z => Done (RustSem.VI (Some Usize) z)) = after o (fun v => Done v) -> o = vi z.
Proof. intros [v | e |] [z | e'] H; cbn [lift after vi] in *; congruence. Qed.

Section Layout.
Variables (c : cfg) (rounds : nat) (mo base : string) (mutable : bool) (ps : list pfield) (fs : schema).
Definition pe_at (items : list fn) (b : buf) := 
  pe (c_mode c) crate_const (emit_sig mo base mutable ps items) emit_hint (emit_fun c rounds mo base mutable ps fs items b).
Definition means (b : buf) (e : ex) (r : res Z) : Prop := forall items w s, good b s -> pe_at items b w e s = vi r.

Lemma means_add : forall b e1 e2 r1 r2, means b e1 r1 -> means b e2 r2 ->
  means b (XBin OAdd e1 e2) (x <- r1 ;; y <- r2 ;; add_u (c_mode c) usize x y).
Proof.
  intros b e1 e2 r1 r2 H1 H2 items w s G. unfold pe_at in *. cbn [pe is_cmp].
  fold (pe_at items b). rewrite (H1 items w s G). destruct r1 as [x | e]; [| reflexivity]. cbn [vi andthen bind is_shift type_of].
  rewrite (H2 items _ s G). destruct r2 as [y | e]; [| reflexivity]. cbn [vi andthen bind]. unfold result, binary. cbn [is_cmp is_shift join ity_eqb arith width].
  destruct (add_u (c_mode c) usize x y); reflexivity.
Qed.
Lemma means_co : forall b bit offs lens, Forall2 (means b) offs lens -> means b (co_ast bit offs) (current_offset c bit lens).
Proof.
  intros b bit offs lens H. unfold co_ast, current_offset.
  assert (S : means b (XInt "usize" (bit / 8)) (Ok (bit / 8))) by (intros items w s _; reflexivity).
  revert S. generalize (XInt "usize" (bit / 8)) (Ok (bit / 8)). induction H as [| e z offs lens Q H IH]; intros a r A; [exact A |].
  cbn [fold_left]. apply IH. exact (means_add b a e r z A Q).
Qed.

Lemma getter_of_rest : forall l, getter_of l "rest" = None.
Proof. intros l. unfold getter_of. induction l as [| p l IH]; [reflexivity | exact IH]. Qed.
Definition known (f : string) : bool := match len_sig mo ps f with Some _ => true | None => false end.
Definition len_ready (p : pfield) : bool :=
  match pf_len p with
  | None => true
  | Some t => match read_expr (flat_map with_rest t) with Some e => simple known e | None => false end
  end.
Lemma len_transfer : forall b co coR e items s, good b s -> means b co coR -> simple known e = true ->
  lax (ll c rounds mo ps (fun n => get c fs n b) (x <- coR;; slice_from b x) 5 None (XCast e "usize") [("self", VSelf)] (fun v _ => Done v))
      (after (pe_at items b None (put_rest co (XCast e "usize")) s) (fun v => Done v)).
Proof.
  intros b co coR e items s G CO R. rewrite ll_S. generalize (ll c rounds mo ps (fun n => get c fs n b) (x <- coR;; slice_from b x) 4).
  generalize run_depth. intros n inner.
  unfold pe_at.
  refine (proj1 (transfer _ _ _ _ _ _ _ _ _ _ _ known [("self", VSelf)] s co (x <- coR;; slice_from b x) _ _ _ _ _ _ _ n) _ _ _ _).
  - intros f K. unfold known in K. destruct (len_sig mo ps f); [discriminate | discriminate].
  - intros f sh H. unfold emit_sig. now rewrite H.
  - intros f vs H NR. unfold emit_fun. destruct (len_sig mo ps f); [| congruence]. unfold len_fun.
    destruct (getter_of ps f); [reflexivity |]. destruct (String.eqb f "rest") eqn:Q; [apply String.eqb_eq in Q; congruence | reflexivity].
  - split; unfold len_sig, len_fun; rewrite getter_of_rest; reflexivity.
  - intros w'. cbn [pe]. destruct G as [G1 G2]. rewrite G2. cbn [open_ty andthen].
    fold (pe_at items b). rewrite (CO items (Some Usize) s (conj G1 G2)). destruct coR as [x |]; [| reflexivity].
    cbn [vi andthen bind]. unfold result, index. destruct (slice_from b x); reflexivity.
  - reflexivity.
  - exact (proj1 G).
  - exact R.
Qed.
Lemma means_len : forall b p tokens co coR z, pf_len p = Some tokens -> len_ready p = true -> means b co coR ->
  run_length c rounds mo ps tokens (fun n => get c fs n b) (x <- coR ;; slice_from b x) = lift z (fun z => Done (RustSem.VI (Some Usize) z)) ->
  means b (len_ast co tokens) z.
Proof.
  intros b p tokens co coR z PL R CO RL items w s G. unfold len_ready in R. rewrite PL in R.
  unfold len_ast, len_tree. destruct (read_expr (flat_map with_rest tokens)) as [e |] eqn:RE; [| discriminate].
  rewrite (run_length_ll _ _ _ _ _ _ _ _ RE) in RL. clear RE. pose proof (len_transfer b co coR e items s G CO R) as T.
  rewrite RL in T. clear RL. unfold pe_at. rewrite (pe_cast _ _ _ _ _ w), <- put_cast. unfold pe_at in T.
  destruct T as [T | [T | T]]; [destruct z; discriminate | destruct z; discriminate |].
  eapply after_done, T.
Qed.

(** ** Fields *)

Lemma args_bits_eq : forall l k, Forall2 same_prim l k -> args_size l = args_bits k.
Proof.
  intros l k H. induction H as [| t q l k Q H IH]; [reflexivity |]. destruct Q as [n ->]. cbn [args_size args_bits fold_right] in *.
  unfold args_size, args_bits in IH. now rewrite IH.
Qed.
Lemma bits_eq : forall name p f, same_type c name (pf_name p) (pf_ty p) (pf_cons p) (f_ty f) -> bits_of p = fixed_bits (f_ty f).
Proof.
  intros name p f T. unfold bits_of. destruct (f_ty f); cbn [same_type fixed_bits] in *.
  - destruct T as [n ->]. reflexivity.
  - destruct T as [-> T]. now apply args_bits_eq.
  - destruct T as (x & -> & _). reflexivity.
  - destruct T as (x & -> & _). reflexivity.
Qed.
Lemma total_eq : forall name l k, Forall2 (same_field c mo name ps fs) l k -> total l = total_bits k.
Proof.
  intros name l k H. induction H as [| p f l k (_ & _ & T & _) H IH]; [reflexivity |]. unfold total, total_bits in *. cbn [fold_right].
  rewrite IH. f_equal. eapply bits_eq, T.
Qed.

Definition same_len (b : buf) (s : spot) (l : loc) : Prop :=
  match sp_len s, l_len l with Some e, Some z => means b e z | None, None => True | _, _ => False end.
Definition spot_ok (name : string) (b : buf) (s : spot) (l : loc) : Prop :=
  same_field c mo name ps fs (sp_field s) (l_field l) /\ sp_bit s = l_bit l /\ Forall2 (means b) (sp_offs s) (l_lens l) /\ same_len b s l.

Lemma field_len : forall name b pre l post p, In (name, fs) (all_packets c) -> buf_ok b -> layout c b fs = (pre ++ l :: post)%list ->
  same_field c mo name ps fs p (l_field l) ->
  match pf_len p with
  | None => l_len l = None
  | Some tokens => exists z, l_len l = Some z /\
      run_length c rounds mo ps tokens (fun n => get c fs n b) (co <- l_co c l ;; slice_from b co) = lift z (fun z => Done (RustSem.VI (Some Usize) z))
  end.
Proof.
  intros name b pre l post p I B E (_ & _ & _ & SL). pose proof (layout_at _ _ _ _ _ _ E) as LL.
  assert (FS : fs = (map l_field pre ++ l_field l :: map l_field post)%list).
  { rewrite <- (layout_fields c b fs 0 [] []). fold (layout c b fs). rewrite E, map_app. reflexivity. }
  unfold same_length in SL.
  destruct (pf_len p) as [tokens |], (f_len (l_field l)) as [le |] eqn:FL; try contradiction; [| exact LL].
  eexists. split; [exact LL |].
  rewrite (SL (fun n => get c fs n b) _ rounds (getters_fit c name fs b I B) (rest_fit (l_co c l) b B)).
  f_equal. destruct (packet_facts c name fs I) as (S & _). rewrite FS in S. apply scoped_app in S. destruct S as [_ S].
  cbn [app scoped] in S. destruct S as (RD & _). rewrite FL in RD. symmetry. apply RD. intros n IN.
  exact (lookup_get c fs b pre l post n E IN).
Qed.

Lemma spots_from : forall name b, In (name, fs) (all_packets c) -> buf_ok b ->
  forall l k bit offs lens e pre, Forall2 (same_field c mo name ps fs) l k -> forallb len_ready l = true ->
  layout c b fs = (pre ++ layout_from c b k bit lens e)%list -> Forall2 (means b) offs lens ->
  Forall2 (spot_ok name b) (spots l bit offs) (layout_from c b k bit lens e).
Proof.
  intros name b I B l k bit offs lens e pre H. revert bit offs lens e pre.
  induction H as [| p f l k Q H IH]; intros bit offs lens e pre R E M; [constructor |].
  cbn [forallb] in R. apply andb_prop in R. destruct R as [RP RL]. cbn [spots layout_from] in *.
  set (rest := (co <- current_offset c bit lens ;; slice_from b co)) in *.
  set (len := match f_len f with Some le => Some (le (DeriveGen.lookup e) rest) | None => None end) in *.
  set (L := Loc f bit lens len (field_get c f bit lens len b)) in *.
  assert (SL : same_len b (Spot p bit offs) L).
  { pose proof (field_len name b pre L _ p I B E Q) as FL. unfold same_len, sp_len. cbn [sp_field]. unfold sp_co. cbn [sp_bit sp_offs].
    destruct (pf_len p) as [tokens |] eqn:PL; cbn [option_map]; [| now rewrite FL].
    destruct FL as (z & -> & RN). unfold l_co in RN. cbn [l_bit l_lens L] in RN.
    exact (means_len b p tokens _ _ z PL RP (means_co b bit offs lens M) RN). }
  constructor.
  - split; [exact Q |]. split; [reflexivity |]. split; [exact M | exact SL].
  - destruct Q as (_ & _ & T & _). rewrite (bits_eq name p f T).
    assert (LEN : l_len L = len) by reflexivity. unfold same_len in SL. rewrite LEN in SL.
    destruct (sp_len (Spot p bit offs)) as [x |], len as [z |]; try contradiction;
      (apply (IH _ _ _ _ (pre ++ [L])%list); [exact RL | rewrite <- app_assoc; exact E |]).
    + apply Forall2_app; [exact M | constructor; [exact SL | constructor]].
    + exact M.
Qed.
Lemma spots_layout : forall name b, In (name, fs) (all_packets c) -> buf_ok b -> Forall2 (same_field c mo name ps fs) ps fs ->
  forallb len_ready ps = true -> Forall2 (spot_ok name b) (spots ps 0 []) (layout c b fs).
Proof. intros name b I B F R. exact (spots_from name b I B ps fs 0 [] [] [] [] F R eq_refl (Forall2_nil _)). Qed.
End Layout.
