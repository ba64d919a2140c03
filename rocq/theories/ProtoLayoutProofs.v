(** The crate's headers against the diagrams of SpecProto.v. *)
From Coq Require Import String ZArith List Bool Lia ZifyBool ZifyNat.
From Verif Require Import Base BitSpec DeriveUtil DeriveOps BaseFacts BitFacts
  DeriveUtilProofs DeriveOpsProofs DeriveLEProofs DeriveGen SpecPacket DeriveGenProofs DeriveInvProofs
  DeriveAccProofs DeriveVarProofs DeriveApiProofs DerivePropProofs Protocols ProtoFacts SpecProto.
Import ListNotations.
Open Scope Z_scope.
Ltac Zify.zify_post_hook ::= Z.to_euclidean_division_equations.

(** ** A decision procedure *)

Fixpoint find_cell (fs : schema) (n : string) (bit : Z) : option (Z * fty) :=
  match fs with
  | [] => None
  | f :: r =>
      if (f_name f =? n)%string then Some (bit, f_ty f)
      else match f_len f with
           | None => find_cell r n (bit + bit_width (f_ty f))
           | Some _ => None
           end
  end.
Definition is_big (e : endian) : bool := match e with Big => true | _ => false end.
Fixpoint args_check (off : Z) (args : list prim) (ws : list Z) : bool :=
  match args, ws with
  | [], [] => true
  | p :: r, w :: t =>
      (p_size p =? w) && is_big (p_end p) && (1 <=? w) && (w <=? 64) && (off mod 8 + w mod 8 <=? 8) && (0 <=? off)
      && args_check (off + w) r t
  | _, _ => false
  end.
Definition cell_check (fs : schema) (x : cell) : bool :=
  match x with
  | (n, off, ws) =>
      match find_cell fs n 0 with
      | Some (bit, TPrim p) => (bit =? off) && args_check off [p] ws
      | Some (bit, TMisc args) => (bit =? off) && args_check off args ws
      | _ => false
      end
  end.
Definition diagram_check (s : string * schema) (d : diagram) : bool :=
  match d with
  | (n, bits, cells) =>
      negb (n =? fst s)%string ||
      ((header_bits (snd s) =? bits) && forallb (cell_check (snd s)) cells &&
       forallb (fun f => is_vec (f_ty f) || existsb (fun x => (fst (fst x) =? f_name f)%string) cells) (snd s))
  end.

Lemma find_cell_at : forall n fs bit0 bit t, find_cell fs n bit0 = Some (bit, t) ->
  exists pre f post, fs = pre ++ f :: post /\ f_name f = n /\ Forall (fun g => f_len g = None) pre /\
    bit = bit0 + header_bits pre /\ f_ty f = t.
Proof.
  intros n. induction fs as [|f r IH]; intros bit0 bit t H; cbn [find_cell] in H; [discriminate|].
  destruct (String.eqb_spec (f_name f) n) as [E|E].
  - inversion H; subst. exists [], f, r. cbn [header_bits]. repeat split; auto. lia.
  - destruct (f_len f) eqn:L; [discriminate|]. apply IH in H. destruct H as (pre & g & post & -> & N & F & B & T).
    exists (f :: pre), g, post. cbn [header_bits app]. repeat split; auto; lia.
Qed.

Lemma field_bits_firstn : forall b o n w, (w <= n)%nat -> firstn w (field_bits b o n) = field_bits b o w.
Proof. intros. unfold field_bits. rewrite firstn_firstn. now replace (Nat.min w n) with w by lia. Qed.
Lemma field_bits_skipn : forall b o n w, (w <= n)%nat -> skipn w (field_bits b o n) = field_bits b (o + w) (n - w).
Proof. intros. unfold field_bits. rewrite skipn_firstn_comm, skipn_skipn'. reflexivity. Qed.

Lemma args_check_facts : forall h b args off ws, args_check off args ws = true ->
  places_ok h off args /\ Forall (fun w => 1 <= w) ws /\ length args = length ws /\ widths args = fold_right Z.add 0 ws /\
  (forall n, Z.of_nat n = widths args -> dec_args h args (field_bits b (Z.to_nat off) n) = cell_numbers b off ws) /\
  (forall zs, enc_args h args zs = cell_bits ws zs).
Proof.
  intros h b. induction args as [|p r IH]; intros off [|w t] H; cbn [args_check] in H; try discriminate.
  - repeat split; auto.
  - repeat (apply andb_true_iff in H; destruct H as [H ?]).
    destruct (IH _ _ H0) as (P & F & L & W & D & E). destruct p as [w' e]. cbn [p_size p_end] in *.
    assert (w' = w) by lia. subst w'. destruct e; try discriminate.
    assert (WN : 0 <= fold_right Z.add 0 t) by (clear -F; induction F; cbn [fold_right]; lia).
    cbn [places_ok widths dec_args enc_args cell_numbers cell_bits fold_right]. split; [|split; [|split; [|split; [|split]]]].
    + split; [|exact P]. unfold place_ok. cbn [p_size p_end big_endian]. lia.
    + constructor; [lia|auto].
    + cbn. lia.
    + cbn [p_size]. lia.
    + intros n N. cbn [p_size] in *. f_equal.
      * unfold dec_prim. cbn [p_end big_endian]. rewrite field_bits_firstn by lia. reflexivity.
      * rewrite field_bits_skipn by lia. replace (Z.to_nat off + Z.to_nat w)%nat with (Z.to_nat (off + w)) by lia.
        apply D. lia.
    + intros [|z zs]; [reflexivity|]. rewrite E. reflexivity.
Qed.

Lemma cell_facts : forall c fs n off ws, scoped [] fs -> cell_check fs (n, off, ws) = true ->
  exists pre f, header_field (c_host_le c) fs n pre f /\ header_bits pre = off /\
    (forall b, exists v, dec_fixed (c_host_le c) (f_ty f) (field_bits b (Z.to_nat off) (Z.to_nat (bit_width (f_ty f)))) = v /\
       numbers v (cell_numbers b off ws) /\
       forall x zs, same_type v x -> numbers x zs -> Forall (fun z => 0 <= z) zs ->
         fixed_val (f_ty f) x /\ enc_fixed (c_host_le c) (f_ty f) x = cell_bits ws zs).
Proof.
  intros c fs n off ws S H. cbn [cell_check] in H. destruct (find_cell fs n 0) as [[bit t]|] eqn:F; [|discriminate].
  apply find_cell_at in F. destruct F as (pre & f & post & E & N & NL & B & T).
  assert (HP : 0 <= widths [] ) by (cbn; lia).
  destruct t as [p|args|p|k]; try discriminate; apply andb_true_iff in H; destruct H as [H1 H2]; assert (OFF : header_bits pre = off) by lia.
  - destruct (args_check_facts (c_host_le c) [] _ _ _ H2) as (P & FW & L & W & _ & _).
    exists pre, f. split; [|split; [exact OFF|]].
    + split; [eauto|]. repeat split; auto. rewrite T. cbn [fixed_ok]. rewrite OFF. apply P.
    + intros b. destruct (args_check_facts (c_host_le c) b _ _ _ H2) as (_ & _ & _ & _ & D & EN).
      rewrite T. cbn [dec_fixed bit_width]. eexists. split; [reflexivity|]. split.
      * left. eexists. split; [reflexivity|]. cbn [widths] in D. rewrite <- (D (Z.to_nat (p_size p))).
        -- cbn [dec_args]. rewrite field_bits_firstn by lia. reflexivity.
        -- cbn [widths] in *. assert (0 < p_size p) by (destruct P as [[Q _] _]; lia). lia.
      * intros x zs ST NM FZ. destruct NM as [(z & -> & ->)| ->]; [|contradiction]. cbn [fixed_val enc_fixed].
        inversion FZ; subst. split; [auto|]. rewrite <- EN. cbn [enc_args]. now rewrite app_nil_r.
  - destruct (args_check_facts (c_host_le c) [] _ _ _ H2) as (P & FW & L & W & _ & _).
    assert (WN : 0 <= widths args) by (rewrite W; clear -FW; induction FW; cbn [fold_right]; lia).
    exists pre, f. split; [|split; [exact OFF|]].
    + split; [eauto|]. repeat split; auto. rewrite T. cbn [fixed_ok]. rewrite OFF. apply P.
    + intros b. destruct (args_check_facts (c_host_le c) b _ _ _ H2) as (_ & _ & _ & _ & D & EN).
      rewrite T. cbn [dec_fixed bit_width]. eexists. split; [reflexivity|]. rewrite D by lia. split; [right; reflexivity|].
      intros x zs ST NM FZ. destruct NM as [(z & -> & ->)| ->]; [contradiction|]. cbn [fixed_val enc_fixed].
      rewrite EN. split; [|reflexivity]. cbn [same_type] in ST. split; [|auto].
      rewrite <- ST, L. clear. revert off. induction ws; intros; cbn; auto.
Qed.

(** ** The crate *)

Lemma crate_diagrams : forall c,
  forallb (fun s => existsb (fun d => (fst (fst d) =? fst s)%string) diagrams && forallb (diagram_check s) diagrams) (crate_schemas c) = true.
Proof. intros c. vm_compute. reflexivity. Qed.

Lemma diagram_facts : forall c n fs bits cells, In (n, fs) (crate_schemas c) -> In (n, bits, cells) diagrams ->
  header_bits fs = bits /\ (forall x, In x cells -> cell_check fs x = true) /\
  (forall f, In f fs -> is_vec (f_ty f) = false -> exists off ws, In (f_name f, off, ws) cells).
Proof.
  intros c n fs bits cells I D. assert (H := crate_diagrams c). rewrite forallb_forall in H. specialize (H _ I).
  apply andb_true_iff in H. destruct H as [_ H]. rewrite forallb_forall in H. specialize (H _ D).
  cbn [diagram_check fst snd] in H. rewrite String.eqb_refl in H. cbn [negb orb] in H.
  apply andb_true_iff in H. destruct H as [H H3]. apply andb_true_iff in H. destruct H as [H1 H2].
  split; [lia|]. rewrite forallb_forall in H2, H3. split; [exact H2|].
  intros f F V. specialize (H3 f F). rewrite V in H3. cbn [orb] in H3. apply existsb_exists in H3.
  destruct H3 as ([[m off] ws] & IN & E). cbn [fst] in E. apply String.eqb_eq in E. subst. eauto.
Qed.

Theorem layout_complete : forall c n fs, In (n, fs) (crate_schemas c) -> exists bits cells, In (n, bits, cells) diagrams /\
  forall f, In f fs -> is_vec (f_ty f) = false -> exists off ws, In (f_name f, off, ws) cells.
Proof.
  intros c n fs I. assert (H := crate_diagrams c). rewrite forallb_forall in H. specialize (H _ I).
  apply andb_true_iff in H. destruct H as [H _]. apply existsb_exists in H. destruct H as ([[m bits] cells] & D & E).
  cbn [fst] in E. apply String.eqb_eq in E. subst. exists bits, cells. split; [auto|].
  apply (diagram_facts c n fs bits cells I D).
Qed.

Theorem layout_read : forall c n fs bits cells b, In (n, fs) (crate_schemas c) -> In (n, bits, cells) diagrams -> buf_ok b ->
  (new fs b = Some b <-> bits <= 8 * blen b) /\
  (bits <= 8 * blen b -> forall m off ws, In (m, off, ws) cells ->
     exists v, get c fs m b = Ok v /\ numbers v (cell_numbers b off ws)).
Proof.
  intros c n fs bits cells b I D BO. destruct (diagram_facts c n fs bits cells I D) as (HB & CK & _).
  destruct (crate_well_formed c n fs I) as (S & _ & _).
  assert (NW : new fs b = Some b <-> bits <= 8 * blen b).
  { destruct (new_header fs b S) as [-> _]. rewrite HB. destruct (bits <=? 8 * blen b) eqn:Q; split; try discriminate; auto; lia. }
  split; [exact NW|]. intros L m off ws IN. apply NW in L.
  destruct (cell_facts c fs m off ws S (CK _ IN)) as (pre & f & HF & OFF & X). destruct (X b) as (v & E & N & _).
  exists v. split; [|exact N]. rewrite (api_get_header c fs m pre f b S HF BO L), OFF. now f_equal.
Qed.

Theorem layout_write : forall c n fs bits cells b m off ws v x zs, In (n, fs) (crate_schemas c) -> In (n, bits, cells) diagrams ->
  buf_ok b -> bits <= 8 * blen b -> In (m, off, ws) cells -> get c fs m b = Ok v -> same_type v x -> numbers x zs ->
  Forall (fun z => 0 <= z) zs ->
  exists b', set c fs m x b = (b', Ok tt) /\ bits_written b (Z.to_nat off) (cell_bits ws zs) b'.
Proof.
  intros c n fs bits cells b m off ws v x zs I D BO L IN G ST NM FZ.
  destruct (layout_read c n fs bits cells b I D BO) as (NW & _). apply NW in L.
  destruct (diagram_facts c n fs bits cells I D) as (_ & CK & _). destruct (crate_well_formed c n fs I) as (S & _ & _).
  destruct (cell_facts c fs m off ws S (CK _ IN)) as (pre & f & HF & OFF & X). destruct (X b) as (v' & E & _ & Y).
  rewrite (api_get_header c fs m pre f b S HF BO L), OFF, E in G. assert (v = v') by congruence; clear E; subst v. clear G.
  destruct (Y x zs ST NM FZ) as [FV EN].
  destruct (api_set_header c fs m pre f b x S HF BO L FV) as (b' & SE & _ & _ & W). exists b'. split; [auto|].
  now rewrite <- EN, <- OFF.
Qed.
