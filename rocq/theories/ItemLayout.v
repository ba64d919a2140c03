(** The getters of a packet give what length attributes expect, so the declared lengths of
    the model are those of the texts. *)
From Coq Require Import String Ascii ZArith List Bool Lia ZifyBool ZifyNat.
From Verif Require Import Base BaseFacts DeriveUtil DeriveOps DeriveGen DeriveParse SpecPacket DeriveAccProofs DeriveApiProofs
  Protocols Quic FmtText FmtValueProofs QuicFmtProofs RustLex RustSyntax RustItem RustSem CrateText SpecSource SpecItem ItemProofs.
Import ListNotations.
Open Scope string_scope.
Open Scope Z_scope.

Lemma scoped_same : forall fs seen f g, scoped seen fs -> In f fs -> In g fs -> f_name f = f_name g -> f = g.
Proof.
  induction fs as [| h fs IH]; intros seen f g S F G N; [destruct F |]. cbn [scoped] in S. destruct S as (_ & _ & _ & S).
  assert (X : forall k, In k fs -> f_name k <> f_name h).
  { intros k K Q. eapply (scoped_seen fs _ (f_name h) S); [apply in_or_app; right; left; reflexivity |].
    rewrite <- Q. now apply in_map. }
  destruct F as [<- | F], G as [<- | G]; auto.
  - symmetry in N. now apply X in N.
  - now apply X in N.
  - eauto.
Qed.

Lemma packet_facts : forall c name fs, In (name, fs) (all_packets c) -> scoped [] fs /\
  schema_ok (c_host_le c) (fun _ _ => True) fs 0 /\ total_bits fs < 2 ^ 60.
Proof.
  intros c name fs I. pose proof (all_fit c) as F. rewrite Forall_forall in F. destruct (F _ I) as (_ & A & B & D & _). auto.
Qed.

Lemma getters_fit : forall c name fs b, In (name, fs) (all_packets c) -> buf_ok b -> env_fits fs (fun n => get c fs n b).
Proof.
  intros c name fs b I B f v F G. destruct (packet_facts c name fs I) as (S & OK & TB).
  destruct (get_typed c fs (f_name f) b v OK TB B G) as (g & IN & N & K).
  rewrite (scoped_same fs [] f g S F IN (eq_sym N)). destruct (f_ty g), v; cbn [kind_typed val_fits] in *; auto.
Qed.

Lemma rest_fit : forall co b, buf_ok b -> rest_fits (x <- co ;; slice_from b x).
Proof.
  intros [x |] b [B L] r H; [| discriminate]. cbn [bind] in H. unfold slice_from in H.
  destruct ((0 <=? x) && (x <=? blen b))%bool; [| discriminate]. injection H as <-. split.
  - apply Forall_skipn, B.
  - unfold blen in *. rewrite skipn_length. lia.
Qed.

(** The environment a length attribute is evaluated in agrees with the getters. *)
Lemma lookup_get : forall c fs b pre l post n, layout c b fs = (pre ++ l :: post)%list -> In n (map f_name (map l_field pre)) ->
  DeriveGen.lookup (names_of pre) n = get c fs n b.
Proof.
  intros c fs b pre l post n E I. unfold get, find_field. rewrite E. clear E.
  induction pre as [| p pre IH]; [destruct I |]. cbn [names_of map app find DeriveGen.lookup fst] in *. unfold DeriveGen.lookup in *.
  cbn [find fst names_of map]. destruct (String.eqb (f_name (l_field p)) n) eqn:Q; [reflexivity |].
  apply IH. destruct I as [<- | I]; [rewrite String.eqb_refl in Q; discriminate | exact I].
Qed.

Lemma layout_at : forall c b fs pre l post, layout c b fs = (pre ++ l :: post)%list ->
  l_len l = match f_len (l_field l) with
            | Some le => Some (le (DeriveGen.lookup (names_of pre)) (co <- l_co c l ;; slice_from b co))
            | None => None
            end.
Proof.
  intros c b fs pre l post E.
  assert (F : fs = (map l_field pre ++ l_field l :: map l_field post)%list).
  { rewrite <- (layout_fields c b fs 0 [] []). fold (layout c b fs). rewrite E, map_app. reflexivity. }
  unfold layout in E. rewrite F in E. rewrite layout_app in E.
  assert (L : length (layout_from c b (map l_field pre) 0 [] []) = length pre).
  { rewrite <- (map_length l_field). rewrite layout_fields. apply map_length. }
  apply app_eq_app in E. destruct E as (k & [[E1 E2] | [E1 E2]]).
  - destruct k; [| apply (f_equal (@List.length loc)) in E1; rewrite app_length in E1; cbn [List.length] in E1; lia]. rewrite app_nil_r in E1. cbn [app] in E2.
    cbn [layout_from app] in E2. rewrite E1 in E2. injection E2 as E2 _. rewrite E2. unfold l_co. cbn [l_len l_field l_bit l_lens].
    destruct (f_len (l_field l)); reflexivity.
  - destruct k; [| apply (f_equal (@List.length loc)) in E1; rewrite app_length in E1; cbn [List.length] in E1; lia]. rewrite app_nil_r in E1. cbn [app] in E2.
    cbn [layout_from] in E2. injection E2 as E2 _. rewrite <- E2. unfold l_co. cbn [l_len l_field l_bit l_lens].
    cbn [app]. rewrite <- E1. destruct (f_len (l_field l)); reflexivity.
Qed.

Lemma Forall2_find : forall (R : pfield -> field -> Prop) ps fs f, Forall2 R ps fs -> In f fs -> exists p, In p ps /\ R p f.
Proof.
  intros R ps fs f H. induction H as [| p g ps fs Q H IH]; intros I; [destruct I |].
  destruct I as [<- | I]; [exists p; split; [left; reflexivity | exact Q] |].
  destruct (IH I) as (p' & I' & Q'). exists p'. split; [right; exact I' | exact Q'].
Qed.

Theorem lengths_follow : forall c name fs b, In (name, fs) (all_packets c) -> buf_ok b ->
  exists mo text sf ps, In (mo, name, text) crate_structs /\ read_struct text = Some (name, sf) /\ parse_packet sf = Ok (inl ps) /\
  forall n l rounds, find_field c b fs n = Some l -> exists p, In p ps /\ pf_name p = n /\
    match pf_len p with
    | None => l_len l = None
    | Some tokens => exists z, l_len l = Some z /\
        run_length c rounds mo ps tokens (fun n => get c fs n b) (co <- l_co c l ;; slice_from b co) =
        lift z (fun z => Done (RustSem.VI (Some Usize) z))
    end.
Proof.
  intros c name fs b I B. destruct (declared c name fs I) as (mo & text & IT & sf & ps & RS & PP & F & _).
  exists mo, text, sf, ps. repeat (split; [assumption |]). intros n l rounds H. unfold find_field in H.
  apply find_some in H. destruct H as [IL N]. apply String.eqb_eq in N. subst n.
  destruct (in_split _ _ IL) as (pre & post & E). pose proof (layout_at _ _ _ _ _ _ E) as LL.
  assert (FS : fs = (map l_field pre ++ l_field l :: map l_field post)%list).
  { rewrite <- (layout_fields c b fs 0 [] []). fold (layout c b fs). rewrite E, map_app. reflexivity. }
  destruct (Forall2_find _ _ _ (l_field l) F) as (p & IP & NM & _ & _ & SL).
  { rewrite FS. apply in_or_app. right. left. reflexivity. }
  exists p. split; [exact IP |]. split; [exact NM |]. unfold same_length in SL.
  destruct (pf_len p) as [tokens |], (f_len (l_field l)) as [le |] eqn:FL; try contradiction; [| exact LL].
  eexists. split; [exact LL |].
  rewrite (SL (fun n => get c fs n b) _ rounds (getters_fit c name fs b I B) (rest_fit (l_co c l) b B)).
  f_equal. destruct (packet_facts c name fs I) as (S & _). rewrite FS in S. apply scoped_app in S. destruct S as [_ S].
  cbn [app scoped] in S. destruct S as (RD & _). rewrite FL in RD. symmetry. apply RD. intros n IN.
  exact (lookup_get c fs b pre l post n E IN).
Qed.
