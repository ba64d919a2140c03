(** Options of TCP and IPv4: what the option list of a packet is and when
    reading it panics. *)
From Coq Require Import String ZArith List Bool Lia ZifyBool ZifyNat.
From Verif Require Import Base BitSpec DeriveUtil DeriveOps BaseFacts BitFacts
  DeriveUtilProofs DeriveOpsProofs DeriveLEProofs DeriveGen SpecPacket DeriveGenProofs DeriveInvProofs
  DeriveAccProofs DeriveVarProofs DeriveApiProofs DerivePropProofs DerivePropProofs2 Protocols ProtoFacts
  SpecProto ProtoPayloadProofs ProtoSplitProofs ProtoLayoutProofs.
Import ListNotations.
Open Scope Z_scope.
Ltac Zify.zify_post_hook ::= Z.to_euclidean_division_equations.

(** Fields inside the first byte. *)
Lemma field_val_byte : forall x r o w, (o + w <= 8)%nat ->
  field_val (x :: r) o w = field_val [x] o w.
Proof.
  intros x r o w L. unfold field_val, field_bits. f_equal.
  change (x :: r) with ([x] ++ r). rewrite bits_of_app, skipn_app, firstn_app.
  assert (E : length (bits_of [x]) = 8%nat) by reflexivity.
  rewrite skipn_length, E. replace (w - (8 - o))%nat with 0%nat by lia. now rewrite app_nil_r.
Qed.
Definition byte_fields (x : Z) : bool :=
  (field_val [x] 0 8 =? x) && (field_val [x] 0 1 =? x / 128) && (field_val [x] 1 2 =? x / 32 mod 4) &&
  (field_val [x] 3 5 =? x mod 32).
Lemma byte_fields_all : forallb byte_fields (zrange 0 256) = true.
Proof. vm_compute. reflexivity. Qed.
Lemma byte_field : forall x r, byte_ok x ->
  field_val (x :: r) 0 8 = x /\ field_val (x :: r) 0 1 = x / 128 /\
  field_val (x :: r) 1 2 = x / 32 mod 4 /\ field_val (x :: r) 3 5 = x mod 32.
Proof.
  intros x r B. rewrite !field_val_byte by lia.
  assert (F := byte_fields_all). rewrite forallb_forall in F. specialize (F x).
  assert (I : In x (zrange 0 256)) by (apply in_zrange; unfold byte_ok in B; lia).
  specialize (F I). unfold byte_fields in F. rewrite !andb_true_iff, !Z.eqb_eq in F. tauto.
Qed.

Section Opt.
Variable c : cfg.

(** One option. *)
Lemma option_facts : forall fs k num lf df (lenf : Z -> Z) (payf : buf -> Z) z b,
  fs = firstn k fs ++ [lf; df] -> scoped [] fs ->
  Forall (fun g => f_len g = None) (firstn k fs) ->
  header_bits (firstn k fs) = 8 ->
  f_name lf = "length"%string -> f_ty lf = bytes_ty -> f_len lf = Some (len_of_int num lenf) ->
  f_name df = "data"%string -> f_ty df = bytes_ty ->
  f_len df = Some (fun e _ => rmap payf (bytes_of (e "length"%string))) ->
  get c fs num b = Ok (VTup [z]) -> 1 <= blen b -> buf_ok b ->
  0 <= lenf z <= 1 -> (forall l, bytes_ok l -> 0 <= payf l < 2 ^ 32) ->
  let len := clip b 1 (lenf z) in
  get c fs "length" b = Ok (VBytes len) /\
  packet_size c fs b = Ok (1 + lenf z + payf len) /\
  get c fs "data" b = (if 1 + lenf z <=? blen b then Ok (VBytes (clip b (1 + lenf z) (payf len))) else Panic EIndex).
Proof.
  intros fs k num lf df lenf payf z b E S NL HB LN LT LL DN DT DL G B1 BO LB PB len.
  assert (P1 : pos_after (fun n => get c fs n b) b (firstn k fs) 0 0 8).
  { assert (X := pos_header (fun n => get c fs n b) b (firstn k fs) 0 0 NL).
    now replace (0 + header_bits (firstn k fs) + 8 * 0) with 8 in X by lia. }
  assert (LV : forall r, len_of_int num lenf (fun n => get c fs n b) r = Ok (lenf z)).
  { intros r. unfold len_of_int, int_of. rewrite G. reflexivity. }
  assert (GL : get c fs "length" b = Ok (VBytes len)).
  { destruct (api_get_var c b fs (firstn k fs) lf [df] 8 (lenf z)) as (_ & _ & X); auto; try lia.
    { unfold own_len. rewrite LL. apply LV. }
    rewrite LT in X. unfold bytes_ty in X. rewrite LN in X. rewrite X by reflexivity.
    change (8 / 8) with 1. now replace (1 <=? blen b) with true by lia. }
  assert (PL := PB len (bytes_clip _ _ _ (proj1 BO))).
  assert (P2 := pos_step _ b _ lf _ 8 (lenf z) P1 LL (LV _) ltac:(lia)).
  rewrite LT in P2. cbn [bit_width bytes_ty] in P2.
  assert (E2 : fs = (firstn k fs ++ [lf]) ++ [df]) by (rewrite <- app_assoc; exact E).
  assert (DV : forall r, (fun (e : env) (_ : res buf) => rmap payf (bytes_of (e "length"%string))) (fun n => get c fs n b) r = Ok (payf len)).
  { intros r. cbv beta. rewrite GL. reflexivity. }
  split; [exact GL|]. split.
  - assert (P3 := pos_step _ b _ df _ _ (payf len) P2 DL (DV (Panic EIndex)) ltac:(lia)).
    rewrite DT in P3. cbn [bit_width bytes_ty] in P3. rewrite <- E2 in P3.
    rewrite (api_packet_size c b fs _ S P3); [|lia]. f_equal. lia.
  - destruct (api_get_var c b fs _ df [] _ (payf len) S E2 BO P2) as (_ & _ & X); try lia.
    { unfold own_len. rewrite DL. apply (DV (Panic EIndex)). }
    rewrite DT, DN in X. unfold bytes_ty in X. specialize (X eq_refl).
    now replace ((8 + 0 + 8 * lenf z) / 8) with (1 + lenf z) in X by lia.
Qed.

Definition tlv_size (num : Z -> Z) (s : buf) : Z :=
  match s with
  | x :: r => if num x <? 2 then 1 else match r with n :: _ => 2 + Z.max 0 (n - 2) | [] => 2 end
  | [] => 0
  end.
Definition tlv_from (num : Z -> Z) (mk : Z -> list Z -> list Z -> list val) (s : buf) : res (list val) :=
  match s with
  | x :: r => if num x <? 2 then Ok (mk x [] [])
              else match r with n :: t => Ok (mk x [n] (firstn (Z.to_nat (n - 2)) t)) | [] => Panic EIndex end
  | [] => Panic EIndex
  end.

Lemma clip_cons0 : forall (x : Z) r n, clip (x :: r) 1 n = firstn (Z.to_nat n) r.
Proof. reflexivity. Qed.

Lemma tcp_option_facts : forall x r, buf_ok (x :: r) ->
  packet_size c tcp_option (x :: r) = Ok (tlv_size tcp_num (x :: r)) /\
  from_packet c tcp_option (x :: r) = tlv_from tcp_num tcp_mk (x :: r).
Proof.
  intros x r BO. assert (BX : byte_ok x) by (destruct BO as [B _]; now inversion B).
  destruct (byte_field x r BX) as (F1 & _).
  assert (NW : new tcp_option (x :: r) = Some (x :: r)).
  { unfold new. change (minimum_packet_size tcp_option) with 1. unfold blen. cbn [length].
    now replace (1 <=? Z.of_nat (S (length r))) with true by lia. }
  hg1 c (x :: r) BO tcp_option 0%nat 8 tcp_option_scoped NW G. rewrite F1 in G.
  destruct (option_facts tcp_option 1 "number" (vfld "length" bytes_ty (len_of_int "number" tcp_option_length))
    (pfld "data" (fun e _ => rmap tcp_option_payload_length (bytes_of (e "length"%string))))
    tcp_option_length tcp_option_payload_length x (x :: r)) as (GL & PS & GD);
    auto using tcp_option_scoped, payf_tcp; try reflexivity.
  - nolen.
  - unfold blen. cbn [length]. lia.
  - unfold tcp_option_length. destruct ((x =? 0) || (x =? 1)); lia.
  - rewrite PS. rewrite from_packet_gets by apply tcp_option_scoped.
    cbn [tcp_option map f_name one fld vfld pfld]. fold tcp_option. rewrite G, GL, GD.
    unfold byte_ok in BX. unfold tlv_size, tlv_from, tcp_num, tcp_option_length in *.
    destruct (x <? 2) eqn:Q.
    + replace ((x =? 0) || (x =? 1)) with true by lia. rewrite clip_zero.
      cbn [tcp_option_payload_length]. rewrite clip_zero. unfold blen. cbn [length].
      replace (1 + 0 <=? Z.of_nat (S (length r))) with true by lia. split; reflexivity.
    + replace ((x =? 0) || (x =? 1)) with false by lia. rewrite clip_cons0.
      destruct r as [|n t]; [split; reflexivity|].
      change (firstn (Z.to_nat 1) (n :: t)) with [n]. cbn [tcp_option_payload_length].
      replace (1 + 1 <=? blen (x :: n :: t)) with true by (unfold blen; cbn [length]; lia).
      change (clip (x :: n :: t) (1 + 1)) with (fun m => firstn (Z.to_nat m) t). cbv beta.
      destruct (2 <=? n) eqn:Q2.
      * split; [f_equal; lia|reflexivity].
      * split; [f_equal; lia|]. replace (Z.to_nat (n - 2)) with (Z.to_nat 0) by lia. reflexivity.
Qed.

Lemma ipv4_option_facts : forall x r, buf_ok (x :: r) ->
  packet_size c ipv4_option (x :: r) = Ok (tlv_size ipv4_num (x :: r)) /\
  from_packet c ipv4_option (x :: r) = tlv_from ipv4_num ipv4_mk (x :: r).
Proof.
  intros x r BO. assert (BX : byte_ok x) by (destruct BO as [B _]; now inversion B).
  destruct (byte_field x r BX) as (_ & F1 & F2 & F3).
  assert (NW : new ipv4_option (x :: r) = Some (x :: r)).
  { unfold new. change (minimum_packet_size ipv4_option) with 1. unfold blen. cbn [length].
    now replace (1 <=? Z.of_nat (S (length r))) with true by lia. }
  hg c (x :: r) BO ipv4_option 0%nat 1 ipv4_option_scoped NW G1. rewrite F1 in G1.
  hg c (x :: r) BO ipv4_option 1%nat 2 ipv4_option_scoped NW G2. rewrite F2 in G2.
  hg1 c (x :: r) BO ipv4_option 2%nat 5 ipv4_option_scoped NW G. rewrite F3 in G.
  destruct (option_facts ipv4_option 3 "number" (vfld "length" bytes_ty (len_of_int "number" ipv4_option_length))
    (pfld "data" (fun e _ => rmap ipv4_option_payload_length (bytes_of (e "length"%string))))
    ipv4_option_length ipv4_option_payload_length (x mod 32) (x :: r)) as (GL & PS & GD);
    auto using ipv4_option_scoped, payf_ipv4; try reflexivity.
  - nolen.
  - unfold blen. cbn [length]. lia.
  - unfold ipv4_option_length. destruct ((x mod 32 =? 0) || (x mod 32 =? 1)); lia.
  - rewrite PS. rewrite from_packet_gets by apply ipv4_option_scoped.
    cbn [ipv4_option map f_name int one fld vfld pfld]. fold ipv4_option. rewrite G1, G2, G, GL, GD.
    unfold byte_ok in BX. unfold tlv_size, tlv_from, ipv4_num, ipv4_option_length in *.
    destruct (x mod 32 <? 2) eqn:Q.
    + replace ((x mod 32 =? 0) || (x mod 32 =? 1)) with true by lia. rewrite clip_zero.
      cbn [ipv4_option_payload_length]. rewrite clip_zero. unfold blen. cbn [length].
      replace (1 + 0 <=? Z.of_nat (S (length r))) with true by lia. split; reflexivity.
    + replace ((x mod 32 =? 0) || (x mod 32 =? 1)) with false by lia. rewrite clip_cons0.
      destruct r as [|n t]; [split; reflexivity|].
      change (firstn (Z.to_nat 1) (n :: t)) with [n]. cbn [ipv4_option_payload_length]. unfold sat_sub.
      replace (1 + 1 <=? blen (x :: n :: t)) with true by (unfold blen; cbn [length]; lia).
      change (clip (x :: n :: t) (1 + 1)) with (fun m => firstn (Z.to_nat m) t). cbv beta.
      split; [f_equal; lia|]. replace (Z.to_nat (Z.max 0 (n - 2))) with (Z.to_nat (n - 2)) by lia. reflexivity.
Qed.

Lemma tlv_pos : forall num x r, 0 < tlv_size num (x :: r).
Proof. intros num x r. unfold tlv_size. destruct (num x <? 2); [lia|]. destruct r; lia. Qed.

(** Option lists. *)
Section List.
Variable fs : schema.
Variable num : Z -> Z.
Variable mk : Z -> list Z -> list Z -> list val.
Hypothesis MIN : minimum_packet_size fs = 1.
Hypothesis ONE : forall x r, buf_ok (x :: r) ->
  packet_size c fs (x :: r) = Ok (tlv_size num (x :: r)) /\ from_packet c fs (x :: r) = tlv_from num mk (x :: r).
Let run (s : buf) := iter_all (sem_of c fs) (from_packet c fs) s.


Lemma run_step : forall x r, buf_ok (x :: r) ->
  run (x :: r) = (o <- tlv_from num mk (x :: r) ;;
                  l <- run (skipn (Z.to_nat (tlv_size num (x :: r))) (x :: r)) ;; Ok (o :: l)).
Proof.
  intros x r BO. destruct (ONE x r BO) as [O1 O2]. unfold run.
  assert (BP : 1 <= blen (x :: r)) by (unfold blen; cbn [length]; lia).
  rewrite (iter_step _ (sem_of c fs) (from_packet c fs) (x :: r) (tlv_size num (x :: r))); auto using tlv_pos; try lia.
  - now rewrite O2.
  - cbn [sem_of k_min]. lia.
Qed.

Lemma step_one : forall x r, num x < 2 -> buf_ok (x :: r) ->
  run (x :: r) = (l <- run r ;; Ok (mk x [] [] :: l)).
Proof.
  intros x r N BO. rewrite run_step by auto. unfold tlv_from, tlv_size.
  replace (num x <? 2) with true by lia. reflexivity.
Qed.
Lemma step_tlv : forall x n r, 2 <= num x -> buf_ok (x :: n :: r) ->
  run (x :: n :: r) = (l <- run (skipn (Z.to_nat (n - 2)) r) ;; Ok (mk x [n] (firstn (Z.to_nat (n - 2)) r) :: l)).
Proof.
  intros x n r N BO. rewrite run_step by auto. unfold tlv_from, tlv_size.
  replace (num x <? 2) with false by lia. cbn [bind].
  replace (Z.to_nat (2 + Z.max 0 (n - 2))) with (S (S (Z.to_nat (n - 2)))) by lia. reflexivity.
Qed.
Lemma step_dang : forall x, 2 <= num x -> buf_ok [x] -> run [x] = Panic EIndex.
Proof.
  intros x N BO. rewrite run_step by auto. unfold tlv_from. replace (num x <? 2) with false by lia. reflexivity.
Qed.

Lemma buf_ok_tail : forall x r, buf_ok (x :: r) -> buf_ok r.
Proof. intros x r H. exact (buf_ok_skipn 1 _ H). Qed.

Lemma opts_run : forall s l, opts num mk s l -> buf_ok s -> run s = Ok l.
Proof.
  intros s l H. induction H as [|x r l N H IH|x n r l N H IH]; intros BO.
  - reflexivity.
  - rewrite step_one by auto. now rewrite IH by (eapply buf_ok_tail; eauto).
  - rewrite step_tlv by auto. now rewrite IH by (apply buf_ok_skipn; do 2 eapply buf_ok_tail; eauto).
Qed.
Lemma dangling_run : forall s, dangling num s -> buf_ok s -> run s = Panic EIndex.
Proof.
  intros s H. induction H as [x N|x r N H IH|x n r N H IH]; intros BO.
  - now apply step_dang.
  - rewrite step_one by auto. now rewrite IH by (eapply buf_ok_tail; eauto).
  - rewrite step_tlv by auto. now rewrite IH by (apply buf_ok_skipn; do 2 eapply buf_ok_tail; eauto).
Qed.
Lemma opts_or_dangling : forall s, buf_ok s -> (exists l, opts num mk s l) \/ dangling num s.
Proof.
  intros s. induction s as [s IH] using (induction_ltof1 _ (@length Z)). unfold ltof in IH. intros BO.
  destruct s as [|x r]; [left; eexists; constructor|].
  destruct (Z.lt_ge_cases (num x) 2) as [N|N].
  - destruct (IH r) as [(l & H)|H]; [cbn [length]; lia|eapply buf_ok_tail; eauto| |].
    + left. eexists. apply opts_one; eauto.
    + right. now apply dang_one.
  - destruct r as [|n t]; [right; now apply dang_here|].
    destruct (IH (skipn (Z.to_nat (n - 2)) t)) as [(l & H)|H].
    + rewrite skipn_length. cbn [length]. lia.
    + apply buf_ok_skipn. do 2 eapply buf_ok_tail; eauto.
    + left. eexists. apply opts_tlv; eauto.
    + right. now apply dang_tlv.
Qed.

Lemma run_exact : forall s, buf_ok s ->
  (forall l, run s = Ok l <-> opts num mk s l) /\ (run s = Panic EIndex <-> dangling num s) /\
  ((exists l, run s = Ok l) \/ run s = Panic EIndex).
Proof.
  intros s BO. destruct (opts_or_dangling s BO) as [(l & H)|H].
  - assert (R := opts_run _ _ H BO). rewrite R. split; [|split; eauto].
    + intros l'. split; [intros X; assert (l' = l) by congruence; now subst|].
      intros X. apply opts_run in X; auto. congruence.
    + split; [discriminate|]. intros X. apply dangling_run in X; auto. congruence.
  - assert (R := dangling_run _ H BO). rewrite R. split; [|split; auto].
    + intros l'. split; [discriminate|]. intros X. apply opts_run in X; auto. congruence.
    + split; auto.
Qed.
End List.

Lemma tcp_opts_exact : forall s, buf_ok s ->
  (forall l, iter_all (sem_of c tcp_option) (from_packet c tcp_option) s = Ok l <-> opts tcp_num tcp_mk s l) /\
  (iter_all (sem_of c tcp_option) (from_packet c tcp_option) s = Panic EIndex <-> dangling tcp_num s) /\
  ((exists l, iter_all (sem_of c tcp_option) (from_packet c tcp_option) s = Ok l) \/
   iter_all (sem_of c tcp_option) (from_packet c tcp_option) s = Panic EIndex).
Proof. intros s BO. apply run_exact; auto using tcp_option_facts. Qed.
Lemma ipv4_opts_exact : forall s, buf_ok s ->
  (forall l, iter_all (sem_of c ipv4_option) (from_packet c ipv4_option) s = Ok l <-> opts ipv4_num ipv4_mk s l) /\
  (iter_all (sem_of c ipv4_option) (from_packet c ipv4_option) s = Panic EIndex <-> dangling ipv4_num s) /\
  ((exists l, iter_all (sem_of c ipv4_option) (from_packet c ipv4_option) s = Ok l) \/
   iter_all (sem_of c ipv4_option) (from_packet c ipv4_option) s = Panic EIndex).
Proof. intros s BO. apply run_exact; auto using ipv4_option_facts. Qed.

(** The iterator itself never panics. *)
Lemma iter_safe : forall fs num s, minimum_packet_size fs = 1 ->
  (forall x r, buf_ok (x :: r) -> packet_size c fs (x :: r) = Ok (tlv_size num (x :: r))) -> buf_ok s ->
  exists l, iter_all (sem_of c fs) (fun x => Ok x) s = Ok l.
Proof.
  intros fs num s MIN ONE. induction s as [s IH] using (induction_ltof1 _ (@length Z)). unfold ltof in IH. intros BO.
  destruct s as [|x r]; [exists []; reflexivity|].
  assert (BP : 1 <= blen (x :: r)) by (unfold blen; cbn [length]; lia).
  assert (TP := tlv_pos num x r).
  rewrite (iter_step _ (sem_of c fs) _ (x :: r) (tlv_size num (x :: r))); auto; try lia.
  - cbn [bind]. destruct (IH (skipn (Z.to_nat (tlv_size num (x :: r))) (x :: r))) as (l & ->).
    + rewrite skipn_length. cbn [length]. lia.
    + now apply buf_ok_skipn.
    + cbn [bind]. eauto.
  - cbn [sem_of k_min]. lia.
  - cbn [sem_of k_size]. now apply ONE.
Qed.

(** ** Whole packets *)
Lemma seq_res_app : forall A (l1 l2 : list (res A)),
  seq_res (l1 ++ l2) = (a <- seq_res l1 ;; b <- seq_res l2 ;; Ok (a ++ b)).
Proof.
  intros A l1 l2. induction l1 as [|x l1 IH]; cbn [app seq_res].
  - cbn [bind]. destruct (seq_res l2); reflexivity.
  - destruct x as [v|]; cbn [bind]; auto. rewrite IH. destruct (seq_res l1); cbn [bind]; auto.
    destruct (seq_res l2); reflexivity.
Qed.
Lemma seq_res_all : forall A (l : list (res A)), Forall (fun x => exists v, x = Ok v) l -> exists vs, seq_res l = Ok vs.
Proof.
  intros A l H. induction H as [|x l (v & ->) H (vs & IH)]; cbn [seq_res]; [eauto|]. rewrite IH. cbn [bind]. eauto.
Qed.

Lemma headers_ok : forall n fs bits cells b k, In (n, fs) (crate_schemas c) -> In (n, bits, cells) diagrams ->
  map f_name (firstn k fs) = map (fun x => fst (fst x)) cells -> buf_ok b -> new fs b = Some b ->
  exists hs, seq_res (map (fun f => get c fs (f_name f) b) (firstn k fs)) = Ok hs.
Proof.
  intros n fs bits cells b k I1 I2 E BO NW. apply seq_res_all. apply Forall_map. apply Forall_forall. intros f IN.
  destruct (layout_read c n fs bits cells b I1 I2 BO) as [L1 L2]. apply L1 in NW. specialize (L2 NW).
  assert (IF : In (f_name f) (map (fun x => fst (fst x)) cells)) by (rewrite <- E; now apply in_map).
  apply in_map_iff in IF. destruct IF as (((m & off) & ws) & EM & IM). cbn [fst] in EM. subst m.
  destruct (L2 _ _ _ IM) as (v & GV & _). eauto.
Qed.

Lemma tcp_parse : forall b, buf_ok b -> new (tcp c) b = Some b ->
  let n := Z.max 0 (4 * field_val b 96 4 - 20) in let s := clip b 20 n in
  (forall l, get c (tcp c) "options" b = Ok (VPkts l) <-> opts tcp_num tcp_mk s l) /\
  (get c (tcp c) "options" b = Panic EIndex <-> dangling tcp_num s) /\
  (debug_values c (tcp c) b = Panic EIndex <-> dangling tcp_num s) /\
  (from_packet c (tcp c) b = Panic EIndex <-> dangling tcp_num s \/ blen b < 20 + n) /\
  ((exists l, opts tcp_num tcp_mk s l) -> 20 + n <= blen b -> exists xs, from_packet c (tcp c) b = Ok xs) /\
  ((exists l, opts tcp_num tcp_mk s l) -> exists xs, debug_values c (tcp c) b = Ok xs).
Proof.
  intros b BO NW n s. destruct (tcp_split c b BO NW) as (_ & _ & GO & _ & GP & _). fold n in GO, GP. fold s in GO.
  assert (BS : buf_ok s).
  { split; [apply bytes_clip, BO|]. assert (X := clip_blen c b 20 n). destruct BO. unfold s. lia. }
  destruct (tcp_opts_exact s BS) as (X1 & X2 & X3).
  assert (HH : exists hs, seq_res (map (fun f => get c (tcp c) (f_name f) b) (firstn 10 (tcp c))) = Ok hs).
  { eapply (headers_ok "Tcp" (tcp c)); auto.
    - unfold crate_schemas. cbn [In]. tauto.
    - unfold diagrams. cbn [In]. do 11 right. left. reflexivity.
    - reflexivity. }
  destruct HH as (hs & HH).
  assert (FP : from_packet c (tcp c) b = (o <- get c (tcp c) "options" b ;; p <- get c (tcp c) "payload" b ;; Ok (hs ++ [o; p]))).
  { rewrite from_packet_gets by apply tcp_scoped.
    change (tcp c) with (firstn 10 (tcp c) ++ skipn 10 (tcp c)) at 2. rewrite map_app, seq_res_app, HH.
    cbn [skipn tcp map f_name vfld pall]. fold (tcp c). cbn [seq_res bind].
    destruct (get c (tcp c) "options" b); cbn [bind]; auto. destruct (get c (tcp c) "payload" b); reflexivity. }
  assert (DB : debug_values c (tcp c) b = (o <- get c (tcp c) "options" b ;; Ok (hs ++ [o]))).
  { rewrite debug_gets by apply tcp_scoped.
    change (filter (fun f => negb (f_payload f)) (tcp c)) with (firstn 10 (tcp c) ++ [nth 10 (tcp c) (pall "")]).
    rewrite map_app, seq_res_app, HH.
    cbn [map nth tcp f_name vfld]. fold (tcp c). cbn [seq_res bind].
    destruct (get c (tcp c) "options" b); reflexivity. }
  rewrite GO in *. rewrite GP in FP. rewrite FP, DB. clear FP DB GO GP HH NW.
  destruct (iter_all (sem_of c tcp_option) (from_packet c tcp_option) s) as [l|e] eqn:R; cbn [rmap bind].
  - assert (ND : ~ dangling tcp_num s) by (intros D; apply X2 in D; discriminate).
    assert (OP : opts tcp_num tcp_mk s l) by now apply X1.
    split; [intros l'; split; intros H; [apply X1; congruence|apply X1 in H; congruence]|].
    split; [split; [discriminate|tauto]|]. split; [split; [discriminate|tauto]|].
    split; [|split; [|eauto]].
    + destruct (20 + n <=? blen b) eqn:Q; cbn [bind]; (split; [|try discriminate]).
      * discriminate.
      * intros [D|D]; [tauto|lia].
      * intros _. right. lia.
      * reflexivity.
    + intros _ L. replace (20 + n <=? blen b) with true by lia. cbn [bind]. eauto.
  - assert (e = EIndex) by (destruct X3 as [(l & X3)|X3]; congruence). subst e.
    assert (D : dangling tcp_num s) by now apply X2.
    assert (NO : forall l, ~ opts tcp_num tcp_mk s l) by (intros l O; apply X1 in O; discriminate).
    split; [intros l; split; intros H; [discriminate|now apply NO in H]|].
    split; [tauto|]. split; [tauto|]. split; [tauto|].
    split; intros (l & O); now apply NO in O.
Qed.

Lemma ipv4_parse : forall b, buf_ok b -> new (ipv4 c) b = Some b ->
  let n := Z.max 0 (4 * field_val b 4 4 - 20) in let s := clip b 20 n in
  (forall l, get c (ipv4 c) "options" b = Ok (VPkts l) <-> opts ipv4_num ipv4_mk s l) /\
  (get c (ipv4 c) "options" b = Panic EIndex <-> dangling ipv4_num s) /\
  (debug_values c (ipv4 c) b = Panic EIndex <-> dangling ipv4_num s) /\
  (from_packet c (ipv4 c) b = Panic EIndex <-> dangling ipv4_num s \/ blen b < 20 + n) /\
  ((exists l, opts ipv4_num ipv4_mk s l) -> 20 + n <= blen b -> exists xs, from_packet c (ipv4 c) b = Ok xs) /\
  ((exists l, opts ipv4_num ipv4_mk s l) -> exists xs, debug_values c (ipv4 c) b = Ok xs).
Proof.
  intros b BO NW n s. destruct (ipv4_split c b BO NW) as (_ & _ & GO & _ & GP & _). fold n in GO, GP. fold s in GO.
  assert (BS : buf_ok s).
  { split; [apply bytes_clip, BO|]. assert (X := clip_blen c b 20 n). destruct BO. unfold s. lia. }
  destruct (ipv4_opts_exact s BS) as (X1 & X2 & X3).
  assert (HH : exists hs, seq_res (map (fun f => get c (ipv4 c) (f_name f) b) (firstn 13 (ipv4 c))) = Ok hs).
  { eapply (headers_ok "Ipv4" (ipv4 c)); auto.
    - unfold crate_schemas. cbn [In]. tauto.
    - unfold diagrams. cbn [In]. do 4 right. left. reflexivity.
    - reflexivity. }
  destruct HH as (hs & HH).
  assert (FP : from_packet c (ipv4 c) b = (o <- get c (ipv4 c) "options" b ;; p <- get c (ipv4 c) "payload" b ;; Ok (hs ++ [o; p]))).
  { rewrite from_packet_gets by apply ipv4_scoped.
    change (ipv4 c) with (firstn 13 (ipv4 c) ++ skipn 13 (ipv4 c)) at 2. rewrite map_app, seq_res_app, HH.
    cbn [skipn ipv4 map f_name vfld pfld]. fold (ipv4 c). cbn [seq_res bind].
    destruct (get c (ipv4 c) "options" b); cbn [bind]; auto. destruct (get c (ipv4 c) "payload" b); reflexivity. }
  assert (DB : debug_values c (ipv4 c) b = (o <- get c (ipv4 c) "options" b ;; Ok (hs ++ [o]))).
  { rewrite debug_gets by apply ipv4_scoped.
    change (filter (fun f => negb (f_payload f)) (ipv4 c)) with (firstn 13 (ipv4 c) ++ [nth 13 (ipv4 c) (pall "")]).
    rewrite map_app, seq_res_app, HH.
    cbn [map nth ipv4 f_name vfld]. fold (ipv4 c). cbn [seq_res bind].
    destruct (get c (ipv4 c) "options" b); reflexivity. }
  rewrite GO in *. rewrite GP in FP. rewrite FP, DB. clear FP DB GO GP HH NW.
  destruct (iter_all (sem_of c ipv4_option) (from_packet c ipv4_option) s) as [l|e] eqn:R; cbn [rmap bind].
  - assert (ND : ~ dangling ipv4_num s) by (intros D; apply X2 in D; discriminate).
    assert (OP : opts ipv4_num ipv4_mk s l) by now apply X1.
    split; [intros l'; split; intros H; [apply X1; congruence|apply X1 in H; congruence]|].
    split; [split; [discriminate|tauto]|]. split; [split; [discriminate|tauto]|].
    split; [|split; [|eauto]].
    + destruct (20 + n <=? blen b) eqn:Q; cbn [bind]; (split; [|try discriminate]).
      * discriminate.
      * intros [D|D]; [tauto|lia].
      * intros _. right. lia.
      * reflexivity.
    + intros _ L. replace (20 + n <=? blen b) with true by lia. cbn [bind]. eauto.
  - assert (e = EIndex) by (destruct X3 as [(l & X3)|X3]; congruence). subst e.
    assert (D : dangling ipv4_num s) by now apply X2.
    assert (NO : forall l, ~ opts ipv4_num ipv4_mk s l) by (intros l O; apply X1 in O; discriminate).
    split; [intros l; split; intros H; [discriminate|now apply NO in H]|].
    split; [tauto|]. split; [tauto|]. split; [tauto|].
    split; intros (l & O); now apply NO in O.
Qed.
End Opt.
