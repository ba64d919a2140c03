(** How the headers of IPv4, TCP, IPv6 extensions, NDP options and GRE split a
    buffer. *)
From Coq Require Import String ZArith List Bool Lia ZifyBool ZifyNat.
From Verif Require Import Base BitSpec DeriveUtil DeriveOps BaseFacts BitFacts
  DeriveUtilProofs DeriveOpsProofs DeriveLEProofs DeriveGen SpecPacket DeriveGenProofs DeriveInvProofs
  DeriveAccProofs DeriveVarProofs DeriveApiProofs DerivePropProofs DerivePropProofs2 Protocols ProtoFacts ProtoPayloadProofs.
Import ListNotations.
Open Scope Z_scope.
Ltac Zify.zify_post_hook ::= Z.to_euclidean_division_equations.

Lemma field_val_range : forall b o n, 0 <= field_val b o n < 2 ^ Z.of_nat n.
Proof. intros. apply (field_val_bound (Cfg Checked Checked true)). Qed.

Lemma clip_zero : forall (b : buf) a, clip b a 0 = [].
Proof. intros. unfold clip. now rewrite firstn_O. Qed.
Lemma clip_neg : forall (b : buf) a n, n <= 0 -> clip b a n = [].
Proof. intros. unfold clip. now replace (Z.to_nat n) with 0%nat by lia. Qed.
Lemma clip_len : forall (b : buf) a n, 0 <= a -> 0 <= n ->
  blen (clip b a n) = Z.max 0 (Z.min n (blen b - a)).
Proof. intros. unfold clip, blen. rewrite firstn_length, skipn_length. lia. Qed.
Lemma clip_rest : forall (b : buf) a n, 0 <= a -> blen b <= n -> clip b a n = skipn (Z.to_nat a) b.
Proof. intros. unfold clip. apply firstn_all2. rewrite skipn_length. unfold blen in *. lia. Qed.
Lemma firstn_clip : forall (b : buf) a n, 0 <= a -> 0 <= n ->
  firstn (Z.to_nat a) b ++ clip b a n = firstn (Z.to_nat (a + n)) b.
Proof.
  intros b a n A N. unfold clip.
  rewrite <- (firstn_skipn (Z.to_nat a) (firstn (Z.to_nat (a + n)) b)).
  rewrite firstn_firstn, skipn_firstn_comm. f_equal; f_equal; lia.
Qed.

Ltac hg c b BO fs k w S NW G :=
  let f := eval hnf in (nth_error fs k) in
  match f with
  | Some ?f =>
    assert (G := header_int c fs k f w b eq_refl eq_refl S ltac:(nolen) ltac:(vm_compute; intuition discriminate) BO NW);
    cbn [f_name int fld] in G;
    let o := eval vm_compute in (Z.to_nat (header_bits (firstn k fs))) in
    let w' := eval vm_compute in (Z.to_nat w) in
    match type of G with _ = Ok (VInt (field_val _ ?o' ?w'')) => change o' with o in G; change w'' with w' in G end
  end.
Ltac hg1 c b BO fs k w S NW G :=
  let f := eval hnf in (nth_error fs k) in
  match f with
  | Some ?f =>
    assert (G := header_one c fs k f w b eq_refl eq_refl S ltac:(nolen) ltac:(vm_compute; intuition discriminate) BO NW);
    cbn [f_name one fld] in G;
    let o := eval vm_compute in (Z.to_nat (header_bits (firstn k fs))) in
    let w' := eval vm_compute in (Z.to_nat w) in
    match type of G with _ = Ok (VTup [field_val _ ?o' ?w'']) => change o' with o in G; change w'' with w' in G end
  end.


(** Positions, one field at a time. *)
Lemma pos_step : forall G b pre f le pos len, pos_after G b pre 0 0 pos -> f_len f = Some le ->
  le G (slice_from b (pos / 8)) = Ok len -> 0 <= len ->
  pos_after G b (pre ++ [f]) 0 0 (pos + bit_width (f_ty f) + 8 * len).
Proof.
  intros G b pre f le pos len P FL LE L. apply (pos_after_app (Cfg Checked Checked true)).
  destruct (pos_after_mod G b pre 0 0 pos P) as (k & ->). exists k. split; [exact P|].
  cbn [pos_after]. rewrite FL. exists len. split; [lia|]. split; [|lia].
  replace ((0 + header_bits pre) / 8 + (0 + k)) with ((0 + header_bits pre + 8 * (0 + k)) / 8) by lia. exact LE.
Qed.
Lemma pos_step_fixed : forall G b pre f pos, pos_after G b pre 0 0 pos -> f_len f = None ->
  pos_after G b (pre ++ [f]) 0 0 (pos + bit_width (f_ty f)).
Proof.
  intros G b pre f pos P FL. apply (pos_after_app (Cfg Checked Checked true)).
  destruct (pos_after_mod G b pre 0 0 pos P) as (k & ->). exists k. split; [exact P|].
  cbn [pos_after]. rewrite FL. lia.
Qed.
Lemma pos_lower : forall G b q bit acc pos, Forall (fun g => 0 <= bit_width (f_ty g)) q ->
  pos_after G b q bit acc pos -> bit + 8 * acc <= pos.
Proof.
  intros G b q. induction q as [|g q IH]; intros bit acc pos F H; cbn [pos_after] in *; [lia|].
  inversion F; subst. destruct (f_len g); [destruct H as (n & N & _ & H)|]; apply IH in H; auto; lia.
Qed.
Lemma pos_fails_after : forall G b f le post e pos, f_len f = Some le ->
  le G (slice_from b (pos / 8)) = Panic e -> pos < 2 ^ 63 ->
  forall pre bit acc, Forall (fun g => 0 <= bit_width (f_ty g)) pre -> 0 <= bit ->
  pos_after G b pre bit acc pos -> pos_fails G b (pre ++ f :: post) bit acc e.
Proof.
  intros G b f le post e pos FL LE U pre. induction pre as [|g pre IH]; intros bit acc F B P; cbn [app pos_fails pos_after] in *.
  - rewrite FL. left. now replace (bit / 8 + acc) with (pos / 8) by lia.
  - inversion F; subst. destruct (f_len g) as [le'|]; [|apply IH; auto; lia].
    destruct P as (n & N & L & P). right. exists n. assert (X := pos_lower _ _ _ _ _ _ H2 P).
    repeat split; auto; try lia. apply IH; auto; lia.
Qed.

Section Fails.
Variable c : cfg.

Lemma size_fails : forall b fs e, scoped [] fs -> header_bits fs < 2 ^ 60 ->
  pos_fails (fun n => get c fs n b) b fs 0 0 e -> packet_size c fs b = Panic e.
Proof.
  intros b fs e S HB PF. unfold packet_size.
  apply (fails_offset c b fs fs []); auto. now rewrite app_nil_r.
Qed.

Lemma payload_fails : forall b fs pre f post e, scoped [] fs -> fs = pre ++ f :: post ->
  f_payload f = true -> Forall (fun g => f_payload g = false) pre ->
  header_bits fs < 2 ^ 60 -> pos_fails (fun n => get c fs n b) b pre 0 0 e -> payload c fs b = Panic e.
Proof.
  intros b fs pre f post e S E P NP HB PF.
  assert (OF := fails_offset c b fs pre (f :: post) e S E HB PF).
  unfold payload, payload_window, payload_bounds.
  rewrite (payload_find c b fs pre f) by (split; [eauto|auto]).
  unfold l_co. cbn [l_bit l_lens l_len]. rewrite OF. reflexivity.
Qed.

Lemma payload_own_fails : forall b fs pre f post pos le e, scoped [] fs -> fs = pre ++ f :: post ->
  f_payload f = true -> Forall (fun g => f_payload g = false) pre ->
  pos_after (fun n => get c fs n b) b pre 0 0 pos -> pos < 2 ^ 66 ->
  f_len f = Some le -> le (fun n => get c fs n b) (slice_from b (pos / 8)) = Panic e ->
  payload c fs b = Panic e.
Proof.
  intros b fs pre f post pos le e S E P NP PA U FL LE.
  destruct (pos_model c b fs pre (f :: post) pos S E PA ltac:(lia)) as (ns & AL & NS & PP & T).
  assert (ZN := zsum_nonneg _ NS).
  unfold payload, payload_window, payload_bounds.
  rewrite (payload_find c b fs pre f) by (split; [eauto|auto]).
  unfold l_co. cbn [l_bit l_lens l_len].
  rewrite (own_model c b fs pre f post pos) by (auto; lia). rewrite FL, LE, AL.
  rewrite current_offset_ok by (auto; lia). reflexivity.
Qed.

(** from_packet() is all getters in order. *)
Lemma layout_pairs : forall b fs, scoped [] fs ->
  map (fun l => (l_field l, l_get l)) (layout c b fs) = map (fun f => (f, get c fs (f_name f) b)) fs.
Proof.
  intros b fs S. rewrite <- (layout_fields c b fs 0 [] []) at 2. fold (layout c b fs). rewrite map_map.
  apply map_ext_in. intros l IN. f_equal. apply in_split in IN. destruct IN as (l1 & l2 & E).
  unfold get, find_field. rewrite E.
  assert (N : ~ In (f_name (l_field l)) (map (fun x => f_name (l_field x)) l1)).
  { assert (E2 := f_equal (map l_field) E). rewrite map_app in E2. cbn [map] in E2.
    unfold layout in E2. rewrite (layout_fields c b fs 0 [] []) in E2.
    destruct (field_at_intro fs (map l_field l1) (l_field l) (map l_field l2) S E2) as (_ & _ & N).
    rewrite map_map in N. exact N. }
  clear E. induction l1 as [|x l1 IH]; cbn [app find].
  - now rewrite String.eqb_refl.
  - cbn [map In] in N. destruct (String.eqb (f_name (l_field x)) (f_name (l_field l))) eqn:Q.
    + apply String.eqb_eq in Q. exfalso. apply N. auto.
    + apply IH. intros H. apply N. auto.
Qed.
Lemma from_packet_gets : forall b fs, scoped [] fs ->
  from_packet c fs b = seq_res (map (fun f => get c fs (f_name f) b) fs).
Proof.
  intros b fs S. unfold from_packet. f_equal. assert (P := layout_pairs b fs S).
  apply (f_equal (map snd)) in P. rewrite !map_map in P. exact P.
Qed.
Lemma pairs_filter : forall (g : field -> res val) ls fs,
  map (fun l => (l_field l, l_get l)) ls = map (fun f => (f, g f)) fs ->
  map l_get (filter (fun l => negb (f_payload (l_field l))) ls) = map g (filter (fun f => negb (f_payload f)) fs).
Proof.
  intros g ls. induction ls as [|l ls IH]; intros [|f fs] P; try discriminate; [reflexivity|].
  cbn [map] in P. inversion P as [[P1 P2 P3]]. apply IH in P3. cbn [filter map].
  destruct (negb (f_payload (l_field l))) eqn:Q; rewrite ?P1, ?Q; cbn [map]; rewrite P3; congruence.
Qed.
Lemma debug_gets : forall b fs, scoped [] fs ->
  debug_values c fs b = seq_res (map (fun f => get c fs (f_name f) b) (filter (fun f => negb (f_payload f)) fs)).
Proof.
  intros b fs S. unfold debug_values. f_equal. exact (pairs_filter _ _ _ (layout_pairs b fs S)).
Qed.

Lemma seq_res_panics : forall A (l : list (res A)) e, In (Panic e) l ->
  (forall x, In x l -> x = Panic e \/ exists v, x = Ok v) -> seq_res l = Panic e.
Proof.
  intros A l. induction l as [|x l IH]; intros e IN H; [easy|]. cbn [seq_res].
  destruct (H x (or_introl eq_refl)) as [->|(v & ->)]; [reflexivity|]. cbn [bind].
  rewrite IH with e; auto; [destruct IN as [IN|IN]; [discriminate|auto]|]. intros y IY. apply H. now right.
Qed.

(** One step of an iterator. *)
Lemma iter_step : forall A k (g : buf -> res A) s n, 0 < blen s -> k_min k <= blen s ->
  k_size k s = Ok n -> 0 < n ->
  iter_all k g s = (x <- g s ;; r <- iter_all k g (skipn (Z.to_nat n) s) ;; Ok (x :: r)).
Proof.
  intros A k g.
  assert (MORE : forall f1 s, (length s < f1)%nat -> iter_collect k g f1 s = iter_all k g s).
  { unfold iter_all. intros f1 s. revert f1. induction s as [s IH] using (induction_ltof1 _ (@length Z)).
    unfold ltof in IH. intros f1 L. destruct f1 as [|f1]; [lia|]. cbn [iter_collect].
    destruct (iter_next k s) as [[[it rest]|]|e] eqn:N; cbn [bind]; auto.
    destruct (g it) as [x|]; cbn [bind]; auto.
    destruct (blen rest =? blen s) eqn:Q; auto.
    assert (R : (length rest < length s)%nat).
    { unfold iter_next in N. destruct ((0 <? blen s) && (k_min k <=? blen s)); [|discriminate].
      destruct (k_size k s) as [n|]; [|discriminate]. cbn [bind] in N.
      assert (RE : rest = skipn (Z.to_nat (Z.min n (blen s))) s) by congruence.
      assert (LL : (length rest <= length s)%nat) by (rewrite RE, skipn_length; lia).
      unfold blen in *. lia. }
    rewrite (IH rest R f1), (IH rest R (length s)) by lia. reflexivity. }
  intros s n P M SZ N. unfold iter_all at 1. cbn [iter_collect]. unfold iter_next.
  replace ((0 <? blen s) && (k_min k <=? blen s)) with true by lia. rewrite SZ. cbn [bind].
  destruct (g s) as [x|]; cbn [bind]; auto.
  rewrite skipn_min by lia.
  assert (SL : (length (skipn (Z.to_nat n) s) < length s)%nat) by (rewrite skipn_length; unfold blen in *; lia).
  replace (blen (skipn (Z.to_nat n) s) =? blen s) with false by (unfold blen; lia).
  now rewrite MORE by lia.
Qed.
Lemma iter_stop : forall A k (g : buf -> res A), iter_all k g [] = Ok [].
Proof. reflexivity. Qed.

End Fails.

Section Split.
Variable c : cfg.
Variable b : buf.
Hypothesis BO : buf_ok b.

(** ** IPv4 *)

Lemma ipv4_split : new (ipv4 c) b = Some b ->
  let h := field_val b 4 4 in let t := field_val b 16 16 in let n := Z.max 0 (4 * h - 20) in
  get_raw c (ipv4 c) "options" b = Ok (clip b 20 n) /\
  get_iter c (ipv4 c) "options" b = Ok (clip b 20 n) /\
  get c (ipv4 c) "options" b = rmap VPkts (iter_all (sem_of c ipv4_option) (from_packet c ipv4_option) (clip b 20 n)) /\
  payload c (ipv4 c) b = Ok (clip b (20 + n) (t - 4 * h)) /\
  get c (ipv4 c) "payload" b =
    (if 20 + n <=? blen b then Ok (VBytes (clip b (20 + n) (t - 4 * h))) else Panic EIndex) /\
  get_raw c (ipv4 c) "payload" b =
    (if 20 + n <=? blen b then Ok (clip b (20 + n) (t - 4 * h)) else Panic EIndex) /\
  packet_size c (ipv4 c) b = Ok (20 + n + Z.max 0 (t - 4 * h)).
Proof.
  intros NW h t n. assert (M := new_min _ _ NW). change (minimum_packet_size (ipv4 c)) with 20 in M.
  hg c b BO (ipv4 c) 1%nat 4 (ipv4_scoped c) NW G.
  hg c b BO (ipv4 c) 4%nat 16 (ipv4_scoped c) NW G2.
  fold h in G. fold t in G2.
  assert (V := field_val_range b 4 4). assert (V2 := field_val_range b 16 16). fold h in V. fold t in V2.
  change (2 ^ Z.of_nat 4) with 16 in V. change (2 ^ Z.of_nat 16) with 65536 in V2.
  assert (OL : forall r, len_of_int "header_length" ipv4_options_length (fun x => get c (ipv4 c) x b) r = Ok n).
  { intros r. unfold len_of_int, int_of. rewrite G. cbn [bind rmap]. unfold ipv4_options_length, sat_sub.
    f_equal. unfold n. lia. }
  assert (PL : ipv4_payload_length t h = Z.max 0 (t - 4 * h)) by (unfold ipv4_payload_length, sat_sub; lia).
  assert (CL : forall a, clip b a (Z.max 0 (t - 4 * h)) = clip b a (t - 4 * h)).
  { intros a. destruct (Z.le_gt_cases (t - 4 * h) 0); [rewrite !clip_neg by lia; auto|f_equal; lia]. }
  assert (P1 : pos_after (fun x => get c (ipv4 c) x b) b (firstn 13 (ipv4 c)) 0 0 160).
  { cbn [firstn ipv4 pos_after f_len int one ip4 fld f_ty]. reflexivity. }
  assert (P2 : pos_after (fun x => get c (ipv4 c) x b) b (firstn 14 (ipv4 c)) 0 0 (160 + 8 * n)).
  { cbn [firstn ipv4 pos_after f_len int one ip4 fld vfld f_ty].
    exists n. split; [lia|]. split; [apply OL|]. cbn [bit_width]. vm_compute bit_width. cbn. lia. }
  destruct (api_get_var c b (ipv4 c) (firstn 13 (ipv4 c)) (vfld "options" (TVecPkt (sem_of c ipv4_option))
     (len_of_int "header_length" ipv4_options_length)) (skipn 14 (ipv4 c)) 160 n) as (X1 & X2 & X3);
    auto using ipv4_scoped; try (unfold n; lia).
  { unfold own_len. cbn [f_len vfld]. apply OL. }
  change (160 / 8) with 20 in *. replace (20 <=? blen b) with true in * by lia.
  cbn [f_ty f_name vfld sem_of k_from] in X1, X2, X3.
  let f := eval hnf in (nth_error (ipv4 c) 14) in
  match f with Some ?f =>
    destruct (api_get_var c b (ipv4 c) (firstn 14 (ipv4 c)) f [] (160 + 8 * n) (Z.max 0 (t - 4 * h))) as (Y1 & _ & Y3);
    auto using ipv4_scoped; try (unfold n; lia);
    [unfold own_len; cbn [f_len pfld]; unfold int_of; rewrite G, G2; cbn [bind]; now rewrite PL|];
    cbn [f_name f_ty pfld] in Y1, Y3;
    assert (PP : payload c (ipv4 c) b = Ok (clip b ((160 + 8 * n) / 8) (Z.max 0 (t - 4 * h))));
    [apply (api_payload c b (ipv4 c) (firstn 14 (ipv4 c)) f [] (160 + 8 * n)); auto using ipv4_scoped; try (unfold n; lia);
      [repeat constructor|unfold own_len; cbn [f_len pfld]; unfold int_of; rewrite G, G2; cbn [bind]; now rewrite PL]|]
  end.
  replace ((160 + 8 * n) / 8) with (20 + n) in * by lia. rewrite CL in *.
  specialize (Y3 eq_refl).
  repeat (split; [assumption|]).
  rewrite (api_packet_size c b (ipv4 c) (160 + 8 * (n + Z.max 0 (t - 4 * h)))); auto using ipv4_scoped; try (unfold n; lia).
  - f_equal. unfold n. lia.
  - cbn [ipv4 pos_after f_len int one ip4 fld vfld pfld f_ty].
    exists n. split; [lia|]. split; [apply OL|].
    exists (Z.max 0 (t - 4 * h)). split; [lia|]. split; [unfold int_of; rewrite G, G2; cbn [bind]; now rewrite PL|].
    cbn [bit_width]. vm_compute bit_width. cbn. lia.
Qed.

(** ** TCP *)

Lemma tcp_split : new (tcp c) b = Some b ->
  let d := field_val b 96 4 in let n := Z.max 0 (4 * d - 20) in
  get_raw c (tcp c) "options" b = Ok (clip b 20 n) /\
  get_iter c (tcp c) "options" b = Ok (clip b 20 n) /\
  get c (tcp c) "options" b = rmap VPkts (iter_all (sem_of c tcp_option) (from_packet c tcp_option) (clip b 20 n)) /\
  payload c (tcp c) b = Ok (skipn (Z.to_nat (20 + n)) b) /\
  get c (tcp c) "payload" b =
    (if 20 + n <=? blen b then Ok (VBytes (skipn (Z.to_nat (20 + n)) b)) else Panic EIndex) /\
  get_raw c (tcp c) "payload" b =
    (if 20 + n <=? blen b then Ok (skipn (Z.to_nat (20 + n)) b) else Panic EIndex) /\
  packet_size c (tcp c) b = Ok (20 + n).
Proof.
  intros NW d n. assert (M := new_min _ _ NW). change (minimum_packet_size (tcp c)) with 20 in M.
  hg c b BO (tcp c) 4%nat 4 (tcp_scoped c) NW G.
  fold d in G. assert (BL := proj2 BO).
  assert (V := field_val_range b 96 4). fold d in V. change (2 ^ Z.of_nat 4) with 16 in V.
  assert (OL : forall r, len_of_int "data_offset" tcp_options_length (fun x => get c (tcp c) x b) r = Ok n).
  { intros r. unfold len_of_int, int_of. rewrite G. cbn [bind rmap]. unfold tcp_options_length.
    f_equal. unfold n. destruct (5 <? d) eqn:Q; lia. }
  assert (P1 : pos_after (fun x => get c (tcp c) x b) b (firstn 10 (tcp c)) 0 0 160).
  { cbn [firstn tcp pos_after f_len int one ip4 fld f_ty]. reflexivity. }
  assert (P2 : pos_after (fun x => get c (tcp c) x b) b (firstn 11 (tcp c)) 0 0 (160 + 8 * n)).
  { cbn [firstn tcp pos_after f_len int one ip4 fld vfld f_ty].
    exists n. split; [lia|]. split; [apply OL|]. cbn. lia. }
  destruct (api_get_var c b (tcp c) (firstn 10 (tcp c)) (vfld "options" (TVecPkt (sem_of c tcp_option))
     (len_of_int "data_offset" tcp_options_length)) (skipn 11 (tcp c)) 160 n) as (X1 & X2 & X3);
    auto using tcp_scoped; try (unfold n; lia).
  { unfold own_len. cbn [f_len vfld]. apply OL. }
  change (160 / 8) with 20 in *. replace (20 <=? blen b) with true in * by lia.
  cbn [f_ty f_name vfld sem_of k_from] in X1, X2, X3.
  destruct (api_get_var c b (tcp c) (firstn 11 (tcp c)) (pall "payload") [] (160 + 8 * n) (blen b)) as (Y1 & _ & Y3);
    auto using tcp_scoped; try (unfold n, blen in *; lia); try reflexivity.
  cbn [f_name f_ty pall] in Y1, Y3.
  assert (PP : payload c (tcp c) b = Ok (clip b ((160 + 8 * n) / 8) (blen b))).
  { apply (api_payload c b (tcp c) (firstn 11 (tcp c)) (pall "payload") [] (160 + 8 * n));
      auto using tcp_scoped; try (unfold n, blen in *; lia); try reflexivity. repeat constructor. }
  replace ((160 + 8 * n) / 8) with (20 + n) in * by lia. rewrite clip_rest in * by lia.
  specialize (Y3 eq_refl).
  repeat (split; [assumption|]).
  rewrite (api_packet_size c b (tcp c) (160 + 8 * n)); auto using tcp_scoped; try (unfold n; lia).
  f_equal. unfold n. lia.
Qed.

(** ** IPv6 extension headers *)

Lemma extension_split : new extension b = Some b ->
  let n := field_val b 8 8 in
  packet_size c extension b = Ok (8 * (n + 1)) /\
  payload c extension b = Ok (clip b 2 (8 * (n + 1) - 2)) /\
  get c extension "options" b = Ok (VBytes (clip b 2 (8 * (n + 1) - 2))).
Proof.
  intros NW n. assert (M := new_min _ _ NW). change (minimum_packet_size extension) with 2 in M.
  hg c b BO extension 1%nat 8 extension_scoped NW G. fold n in G.
  assert (V := field_val_range b 8 8). fold n in V. change (2 ^ Z.of_nat 8) with 256 in V.
  assert (OL : forall r, len_of_int "hdr_ext_len" ipv6_extension_length (fun x => get c extension x b) r = Ok (8 * (n + 1) - 2)).
  { intros r. unfold len_of_int, int_of. rewrite G. cbn [bind rmap]. unfold ipv6_extension_length. f_equal. lia. }
  assert (P1 : pos_after (fun x => get c extension x b) b (firstn 2 extension) 0 0 16) by reflexivity.
  set (f := pfld "options" (len_of_int "hdr_ext_len" ipv6_extension_length)).
  assert (OW : own_len (fun x => get c extension x b) b (16 / 8) f (8 * (n + 1) - 2)) by apply OL.
  split; [|split].
  - rewrite (api_packet_size c b extension (16 + 8 * (8 * (n + 1) - 2))); auto using extension_scoped; try lia.
    + f_equal. lia.
    + cbn [extension pos_after f_len int one fld pfld f_ty].
      exists (8 * (n + 1) - 2). split; [lia|]. split; [apply OL|]. cbn [bit_width widths p_size u bytes_ty]. lia.
  - apply (api_payload c b extension (firstn 2 extension) f [] 16); auto using extension_scoped; try lia. repeat constructor.
  - destruct (api_get_var c b extension (firstn 2 extension) f [] 16 (8 * (n + 1) - 2)) as (_ & _ & Y);
      auto using extension_scoped; try lia.
    cbn [f_ty f_name f pfld] in Y. specialize (Y eq_refl). change (16 / 8) with 2 in Y.
    now replace (2 <=? blen b) with true in Y by lia.
Qed.

Lemma routing_split : new routing b = Some b ->
  let n := field_val b 8 8 in
  packet_size c routing b = Ok (8 * (n + 1)) /\
  payload c routing b = Ok (clip b 4 (8 * (n + 1) - 4)) /\
  get c routing "data" b = Ok (VBytes (clip b 4 (8 * (n + 1) - 4))).
Proof.
  intros NW n. assert (M := new_min _ _ NW). change (minimum_packet_size routing) with 4 in M.
  hg c b BO routing 1%nat 8 routing_scoped NW G. fold n in G.
  assert (V := field_val_range b 8 8). fold n in V. change (2 ^ Z.of_nat 8) with 256 in V.
  assert (OL : forall r, len_of_int "hdr_ext_len" routing_extension_length (fun x => get c routing x b) r = Ok (8 * (n + 1) - 4)).
  { intros r. unfold len_of_int, int_of. rewrite G. cbn [bind rmap]. unfold routing_extension_length. f_equal. lia. }
  assert (P1 : pos_after (fun x => get c routing x b) b (firstn 4 routing) 0 0 32) by reflexivity.
  set (f := pfld "data" (len_of_int "hdr_ext_len" routing_extension_length)).
  assert (OW : own_len (fun x => get c routing x b) b (32 / 8) f (8 * (n + 1) - 4)) by apply OL.
  split; [|split].
  - rewrite (api_packet_size c b routing (32 + 8 * (8 * (n + 1) - 4))); auto using routing_scoped; try lia.
    + f_equal. lia.
    + cbn [routing pos_after f_len int one fld pfld f_ty].
      exists (8 * (n + 1) - 4). split; [lia|]. split; [apply OL|]. cbn [bit_width widths p_size u bytes_ty]. lia.
  - apply (api_payload c b routing (firstn 4 routing) f [] 32); auto using routing_scoped; try lia. repeat constructor.
  - destruct (api_get_var c b routing (firstn 4 routing) f [] 32 (8 * (n + 1) - 4)) as (_ & _ & Y);
      auto using routing_scoped; try lia.
    cbn [f_ty f_name f pfld] in Y. specialize (Y eq_refl). change (32 / 8) with 4 in Y.
    now replace (4 <=? blen b) with true in Y by lia.
Qed.

(** ** NDP options *)

Lemma ndp_split : new (ndp_option c) b = Some b ->
  forall x, mul_u (c_mode c) 8 (field_val b 8 8) 8 = Ok x -> 
  packet_size c (ndp_option c) b = Ok (Z.max 2 x) /\
  payload c (ndp_option c) b = Ok (clip b 2 (x - 2)) /\
  get c (ndp_option c) "data" b = Ok (VBytes (clip b 2 (x - 2))) /\
  from_packet c (ndp_option c) b =
    Ok [VTup [field_val b 0 8]; VInt (field_val b 8 8); VBytes (clip b 2 (x - 2))].
Proof.
  intros NW x MX. set (n := field_val b 8 8) in *.
  assert (M := new_min _ _ NW). change (minimum_packet_size (ndp_option c)) with 2 in M.
  hg c b BO (ndp_option c) 1%nat 8 (ndp_option_scoped c) NW G. fold n in G.
  hg1 c b BO (ndp_option c) 0%nat 8 (ndp_option_scoped c) NW G0.
  assert (V := field_val_range b 8 8). fold n in V. change (2 ^ Z.of_nat 8) with 256 in V.
  assert (XB : 0 <= x < 256).
  { unfold mul_u, ovf in MX. change (2 ^ 8) with 256 in MX.
    destruct ((0 <=? n * 8) && (n * 8 <? 256)) eqn:Q.
    - assert (x = n * 8) by congruence. lia.
    - destruct (c_mode c); [discriminate|]. assert (x = (n * 8) mod 256) by congruence. lia. }
  set (le := fun (e : env) (_ : res buf) => l <- int_of (e "length"%string) ;; x <- mul_u (c_mode c) 8 l 8 ;; Ok (sat_sub x 2)).
  assert (OL : forall r, le (fun x => get c (ndp_option c) x b) r = Ok (Z.max 0 (x - 2))).
  { intros r. unfold le, int_of. rewrite G. cbn [bind rmap]. rewrite MX. cbn [bind]. reflexivity. }
  assert (P1 : pos_after (fun x => get c (ndp_option c) x b) b (firstn 2 (ndp_option c)) 0 0 16) by reflexivity.
  set (f := pfld "data" le).
  assert (OW : own_len (fun x => get c (ndp_option c) x b) b (16 / 8) f (Z.max 0 (x - 2))) by apply OL.
  assert (CL : clip b 2 (Z.max 0 (x - 2)) = clip b 2 (x - 2)).
  { destruct (Z.le_gt_cases (x - 2) 0); [rewrite !clip_neg by lia; auto|f_equal; lia]. }
  assert (GD : get c (ndp_option c) "data" b = Ok (VBytes (clip b 2 (x - 2)))).
  { destruct (api_get_var c b (ndp_option c) (firstn 2 (ndp_option c)) f [] 16 (Z.max 0 (x - 2))) as (_ & _ & Y);
      auto using ndp_option_scoped; try lia.
    cbn [f_ty f_name f pfld] in Y. specialize (Y eq_refl). change (16 / 8) with 2 in Y. rewrite CL in Y.
    now replace (2 <=? blen b) with true in Y by lia. }
  split; [|split; [|split]].
  - rewrite (api_packet_size c b (ndp_option c) (16 + 8 * (Z.max 0 (x - 2)))); auto using ndp_option_scoped; try lia.
    + f_equal. lia.
    + cbn [ndp_option pos_after f_len int one fld pfld f_ty]. fold le.
      exists (Z.max 0 (x - 2)). split; [lia|]. split; [exact (OL (slice_from b (16 / 8 + 0)))|]. cbn [bit_width widths p_size u bytes_ty]. lia.
  - rewrite <- CL.
    apply (api_payload c b (ndp_option c) (firstn 2 (ndp_option c)) f [] 16); auto using ndp_option_scoped; try lia.
    repeat constructor.
  - exact GD.
  - rewrite from_packet_gets by apply ndp_option_scoped. cbn [ndp_option map f_name one int fld pfld].
    rewrite G0, G, GD. reflexivity.
Qed.

Lemma ndp_panics : new (ndp_option c) b = Some b -> mul_u (c_mode c) 8 (field_val b 8 8) 8 = Panic EOverflow ->
  packet_size c (ndp_option c) b = Panic EOverflow /\
  payload c (ndp_option c) b = Panic EOverflow /\
  get c (ndp_option c) "data" b = Panic EOverflow /\
  from_packet c (ndp_option c) b = Panic EOverflow.
Proof.
  intros NW MX. set (n := field_val b 8 8) in *.
  hg c b BO (ndp_option c) 1%nat 8 (ndp_option_scoped c) NW G. fold n in G.
  hg1 c b BO (ndp_option c) 0%nat 8 (ndp_option_scoped c) NW G0.
  set (le := fun (e : env) (_ : res buf) => l <- int_of (e "length"%string) ;; x <- mul_u (c_mode c) 8 l 8 ;; Ok (sat_sub x 2)).
  assert (OL : forall r, le (fun x => get c (ndp_option c) x b) r = Panic EOverflow).
  { intros r. unfold le, int_of. rewrite G. cbn [bind rmap]. rewrite MX. reflexivity. }
  assert (P1 : pos_after (fun x => get c (ndp_option c) x b) b (firstn 2 (ndp_option c)) 0 0 16) by reflexivity.
  set (f := pfld "data" le).
  assert (GD : get c (ndp_option c) "data" b = Panic EOverflow).
  { apply (api_get_var_panics c b (ndp_option c) (firstn 2 (ndp_option c)) f [] 16 le EOverflow); auto using ndp_option_scoped; lia. }
  split; [|split; [|split]].
  - apply size_fails; [apply ndp_option_scoped|cbn; lia|].
    cbn [ndp_option pos_fails f_len int one fld pfld f_ty]. left. exact (OL (slice_from b (16 / 8 + 0))).
  - apply (payload_own_fails c b (ndp_option c) (firstn 2 (ndp_option c)) f [] 16 le); auto using ndp_option_scoped; [repeat constructor|lia].
  - exact GD.
  - rewrite from_packet_gets by apply ndp_option_scoped. cbn [ndp_option map f_name one int fld pfld].
    rewrite G0, G, GD. reflexivity.
Qed.
End Split.
