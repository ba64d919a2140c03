(** The texts of the crate's functions compute what the model says. *)
From Coq Require Import String ZArith List Bool Lia ZifyBool ZifyNat.
From Verif Require Import Base BaseFacts DeriveUtil DeriveOps DeriveGen Protocols Quic Checksum ChecksumProofs ChecksumProofs2 MacAddr
  RustLex RustSyntax RustSem CrateText SpecSource SourceTac.
Import ListNotations.
Open Scope string_scope.
Open Scope Z_scope.
Ltac Zify.zify_post_hook ::= Z.to_euclidean_division_equations.

(** ** Operations that do not overflow *)

Lemma lift_ok : forall A (a : A) k, lift (Ok a) k = k a.
Proof. reflexivity. Qed.
Lemma add_fits : forall m w a b, 0 <= a -> 0 <= b -> a + b < 2 ^ w -> add_u m w a b = Ok (a + b).
Proof.
  intros. unfold add_u, ovf. destruct ((0 <=? a + b) && (a + b <? 2 ^ w))%bool eqn:Q; [reflexivity | lia].
Qed.
Lemma sub_fits : forall m w a b, b <= a -> a - b < 2 ^ w -> sub_u m w a b = Ok (a - b).
Proof.
  intros. unfold sub_u, ovf. destruct ((0 <=? a - b) && (a - b <? 2 ^ w))%bool eqn:Q; [reflexivity | lia].
Qed.
Lemma mul_fits : forall m w a b, 0 <= a * b < 2 ^ w -> mul_u m w a b = Ok (a * b).
Proof.
  intros. unfold mul_u, ovf. destruct ((0 <=? a * b) && (a * b <? 2 ^ w))%bool eqn:Q; [reflexivity | lia].
Qed.
Lemma cast_fits : forall w x, 0 <= x < 2 ^ w -> cast_u w x = x.
Proof. intros. now apply Z.mod_small. Qed.
Lemma shr_fits : forall m w x s, 0 <= s < w -> shr_u m w x s = Ok (Z.shiftr x s).
Proof. intros. unfold shr_u. destruct ((0 <=? s) && (s <? w))%bool eqn:Q; [reflexivity | lia]. Qed.
Lemma shl_fits : forall m w x s, 0 <= s < w -> 0 <= x * 2 ^ s < 2 ^ w -> shl_u m w x s = Ok (Z.shiftl x s).
Proof.
  intros. unfold shl_u. destruct ((0 <=? s) && (s <? w))%bool eqn:Q; [| lia].
  rewrite Z.shiftl_mul_pow2 by lia. now rewrite Z.mod_small by lia.
Qed.
Lemma pow8 : 2 ^ 8 = 256. Proof. reflexivity. Qed.
Lemma pow16 : 2 ^ 16 = 65536. Proof. reflexivity. Qed.
Lemma pow32 : 2 ^ 32 = 4294967296. Proof. reflexivity. Qed.
Lemma pow63 : 2 ^ 63 = 9223372036854775808. Proof. reflexivity. Qed.
Lemma pow64 : 2 ^ 64 = 18446744073709551616. Proof. reflexivity. Qed.
Ltac pows := unfold usize in *; rewrite ?pow8, ?pow16, ?pow32, ?pow63, ?pow64 in *.
Ltac fits_tac := pows; lia.
Ltac fit := repeat first
  [ rewrite add_fits by fits_tac | rewrite sub_fits by fits_tac | rewrite mul_fits by fits_tac
  | rewrite cast_fits by fits_tac | rewrite shr_fits by fits_tac | rewrite shl_fits by fits_tac
  | rewrite lift_ok ].

(** ** Calls *)

Lemma linked_S : forall c r d mo f args mo' f' t, outside c f args = None -> resolve mo f = (mo', f') ->
  find_text mo' f' = Some t ->
  linked c r (S d) mo f args = answer_of (run_text c mo' (linked c r d mo') r t args).
Proof. intros. cbn [linked]. rewrite H, H0, H1. reflexivity. Qed.
Lemma run_text_args : forall c mo funs r t f args args', read_fn t = Some f ->
  bind_params (fn_params f) args = bind_params (fn_params f) args' ->
  run_text c mo funs r t args = run_text c mo funs r t args'.
Proof. intros. unfold run_text, run_fn. rewrite H, H0. reflexivity. Qed.
Lemma take_int_answer : forall t r k, take_int t (answer_of (answered (AInt t r) Done)) k = lift r k.
Proof. intros t [a | e] k; cbn; [destruct t | destruct t]; reflexivity. Qed.
Lemma take_bool_answer : forall r k, take_bool (answer_of (answered (ABool r) Done)) k = lift r k.
Proof. intros [a | e] k; reflexivity. Qed.

(** A called function, once it is known what its text computes. *)
Lemma call_int : forall c r d mo f args mo' f' t args' T R k, outside c f args = None -> resolve mo f = (mo', f') ->
  find_text mo' f' = Some t -> run_text c mo' (linked c r d mo') r t args' = answered (AInt T R) Done ->
  match read_fn t with Some g => bind_params (fn_params g) args = bind_params (fn_params g) args' | None => False end ->
  take_int T (linked c r (S d) mo f args) k = lift R k.
Proof.
  intros c r d mo f args mo' f' t args' T R k O S F H B. rewrite (linked_S _ _ _ _ _ _ _ _ _ O S F).
  destruct (read_fn t) as [g |] eqn:G; [| contradiction]. rewrite (run_text_args _ _ _ _ _ _ _ _ G B), H.
  apply take_int_answer.
Qed.
Lemma call_bool : forall c r d mo f args mo' f' t args' R k, outside c f args = None -> resolve mo f = (mo', f') ->
  find_text mo' f' = Some t -> run_text c mo' (linked c r d mo') r t args' = answered (ABool R) Done ->
  match read_fn t with Some g => bind_params (fn_params g) args = bind_params (fn_params g) args' | None => False end ->
  take_bool (linked c r (S d) mo f args) k = lift R k.
Proof.
  intros c r d mo f args mo' f' t args' R k O S F H B. rewrite (linked_S _ _ _ _ _ _ _ _ _ O S F).
  destruct (read_fn t) as [g |] eqn:G; [| contradiction]. rewrite (run_text_args _ _ _ _ _ _ _ _ G B), H.
  apply take_bool_answer.
Qed.
Ltac call L := erewrite call_int; [ | reflexivity | reflexivity | reflexivity | exact L | vm_compute; reflexivity ].
Ltac call_b L := erewrite call_bool; [ | reflexivity | reflexivity | reflexivity | exact L | vm_compute; reflexivity ].
Lemma ovf_range : forall m w r z, 0 < w -> ovf m w r = Ok z -> 0 <= z < 2 ^ w.
Proof.
  intros m w r z W H. pose proof (Z.pow_pos_nonneg 2 w ltac:(lia) ltac:(lia)).
  unfold ovf in H. destruct ((0 <=? r) && (r <? 2 ^ w))%bool eqn:Q; [injection H as <-; lia |].
  destruct m; [discriminate |]. injection H as <-. apply Z.mod_pos_bound. lia.
Qed.

(** ** Straight-line functions *)

Lemma varint_length_src : forall c r d b, bytes_ok b -> claim c r d "quic" "varint_length" fn_quic_varint_length [VA (Some U8) b].
Proof.
  intros. start. destruct b as [| x b]; [reflexivity |].
  pose proof (Forall_inv H) as X. red in X. unfold varint_length.
  replace (idx (x :: b) 0) with (Ok x) by (unfold idx, blen; cbn [List.length]; destruct ((0 <=? 0) && (0 <? Z.of_nat (S (List.length b))))%bool eqn:Q; [reflexivity | lia]).
  rewrite lift_ok, shr_fits, lift_ok by lia.
  assert (0 <= Z.shiftr x 6 < 4) by (rewrite Z.shiftr_div_pow2 by lia; change (2 ^ 6) with 64; lia).
  rewrite shl_fits; [reflexivity | pows; lia |].
  assert (C : Z.shiftr x 6 = 0 \/ Z.shiftr x 6 = 1 \/ Z.shiftr x 6 = 2 \/ Z.shiftr x 6 = 3) by lia.
  unfold usize. destruct C as [-> | [-> | [-> | ->]]]; split; reflexivity || (intro; discriminate).
Qed.
Lemma packet_number_src : forall c r d b, buf_ok b -> claim c r d "quic" "packet_number" fn_quic_packet_number [VA (Some U8) b].
Proof.
  intros. start. unfold packet_number. destruct H as [_ L]. pows.
  destruct (8 <? blen b) eqn:Q.
  - unfold sub_u, ovf. destruct ((0 <=? 8 - blen b) && (8 - blen b <? 2 ^ 64))%bool eqn:Q2; [lia |].
    destruct (c_mode c); [reflexivity |]. cbn [lift bind]. pows.
    unfold copy_range. change (blen [0; 0; 0; 0; 0; 0; 0; 0]) with 8.
    set (s := (8 - blen b) mod 18446744073709551616). assert (8 < s) by (subst s; unfold blen in *; lia).
    destruct (8 <? s) eqn:Q3; [| lia].
    destruct ((0 <=? s) && (s <=? 8) && (8 <=? 8))%bool eqn:Q4; [lia | reflexivity].
  - rewrite sub_fits by (pows; unfold blen in *; lia). cbn [lift bind]. unfold copy_range. change (blen [0; 0; 0; 0; 0; 0; 0; 0]) with 8.
    set (s := 8 - blen b). assert (0 <= s <= 8) by (unfold s, blen in *; lia).
    destruct (8 <? s) eqn:Q3; [lia |].
    destruct ((0 <=? s) && (s <=? 8) && (8 <=? 8))%bool eqn:Q4; [| lia].
    destruct (8 - s =? blen b) eqn:Q5; [| unfold s in Q5; lia].
    assert (P : splice [0; 0; 0; 0; 0; 0; 0; 0] (Z.to_nat s) b = (repeat 0 (Z.to_nat s) ++ b)%list).
    { unfold splice. rewrite skipn_all2 by (cbn [List.length]; unfold s, blen in *; lia). rewrite app_nil_r. f_equal.
      assert (C : (Z.to_nat s <= 8)%nat) by lia. revert C. generalize (Z.to_nat s). intros n Hn.
      do 9 (destruct n as [| n]; [reflexivity |]). lia. }
    cbn [lift]. rewrite P. unfold zeq, bytes_value.
    replace (blen (repeat 0 (Z.to_nat s) ++ b)%list =? 8) with true
      by (unfold blen; rewrite app_length, repeat_length; unfold s, blen in *; lia).
    reflexivity.
Qed.
Lemma ipv4_options_length_src : forall c r d n, 0 <= n < 256 ->
  claim c r d "ipv4" "ipv4_options_length" fn_ipv4_ipv4_options_length [VI (Some U8) n].
Proof. intros. start. fit. reflexivity. Qed.
Lemma ipv4_payload_length_src : forall c r d t n, 0 <= t < 65536 -> 0 <= n < 256 ->
  claim c r d "ipv4" "ipv4_payload_length" fn_ipv4_ipv4_payload_length [VI (Some U16) t; VI (Some U8) n].
Proof. intros. start. fit. reflexivity. Qed.
Lemma ipv4_option_length_src : forall c r d n,
  claim c r d "ipv4" "ipv4_option_length" fn_ipv4_ipv4_option_length [VC "Ipv4OptionNumber" U8 [n]].
Proof.
  intros. start. cbn [lift]. unfold ipv4_option_length, zeq.
  destruct (n =? 0), (n =? 1); reflexivity.
Qed.
Lemma ipv4_option_payload_length_src : forall c r d b, bytes_ok b ->
  claim c r d "ipv4" "ipv4_option_payload_length" fn_ipv4_ipv4_option_payload_length [VA (Some U8) b].
Proof.
  intros. start. cbn [lift]. destruct b as [| x b]; [reflexivity |].
  pose proof (Forall_inv H) as X. red in X. cbn [head ipv4_option_payload_length]. fit. reflexivity.
Qed.
Lemma ipv6_extension_length_src : forall c r d n, 0 <= n < 256 ->
  claim c r d "ipv6" "ipv6_extension_length" fn_ipv6_ipv6_extension_length [VI (Some U8) n].
Proof. intros. start. fit. reflexivity. Qed.
Lemma routing_extension_length_src : forall c r d n, 0 <= n < 256 ->
  claim c r d "ipv6" "routing_extension_length" fn_ipv6_routing_extension_length [VI (Some U8) n].
Proof. intros. start. fit. reflexivity. Qed.
Lemma tcp_option_length_src : forall c r d n,
  claim c r d "tcp" "tcp_option_length" fn_tcp_tcp_option_length [VC "TcpOptionNumber" U8 [n]].
Proof.
  intros. start. cbn [lift]. unfold tcp_option_length, zeq.
  destruct (n =? 0), (n =? 1); reflexivity.
Qed.
Lemma tcp_option_payload_length_src : forall c r d b, bytes_ok b ->
  claim c r d "tcp" "tcp_option_payload_length" fn_tcp_tcp_option_payload_length [VA (Some U8) b].
Proof.
  intros. start. cbn [lift]. destruct b as [| x b]; [reflexivity |].
  pose proof (Forall_inv H) as X. red in X. cbn [head tcp_option_payload_length cmp_z].
  destruct (2 <=? x) eqn:Q; [| reflexivity]. fit. reflexivity.
Qed.
Lemma tcp_options_length_src : forall c r d n, 0 <= n < 256 ->
  claim c r d "tcp" "tcp_options_length" fn_tcp_tcp_options_length [VI (Some U8) n].
Proof.
  intros. start. cbn [cmp_z lift]. unfold tcp_options_length.
  destruct (5 <? n) eqn:Q; [| reflexivity]. fit. reflexivity.
Qed.
Lemma octets_u64_src : forall c r d n, claim c r d "u64" "octets" fn_u64_octets [VI (Some U64) n].
Proof. intros. start. fit. reflexivity. Qed.
Lemma octets_u32_src : forall c r d n, claim c r d "u32" "octets" fn_u32_octets [VI (Some U32) n].
Proof. intros. start. fit. reflexivity. Qed.
Lemma octets_u16_src : forall c r d n, claim c r d "u16" "octets" fn_u16_octets [VI (Some U16) n].
Proof. intros. start. fit. reflexivity. Qed.
Lemma octets_u8_src : forall c r d n, claim c r d "u8" "octets" fn_u8_octets [VI (Some U8) n].
Proof. intros. start. reflexivity. Qed.

(** ** Loops *)

Lemma varint_src : forall c r d b, bytes_ok b -> claim c r d "quic" "varint" fn_quic_varint [VA (Some U8) b].
Proof.
  intros. start. destruct b as [| x b]; [reflexivity |].
  pose proof (Forall_inv H) as X. red in X. pose proof (Forall_inv_tail H) as B. clear H.
  replace (idx (x :: b) 0) with (Ok x) by (unfold idx, blen; cbn [List.length]; destruct ((0 <=? 0) && (0 <? Z.of_nat (S (List.length b))))%bool eqn:Q; [reflexivity | lia]).
  rewrite !lift_ok.
  replace (slice_from (x :: b) 1) with (Ok b) by (unfold slice_from, blen; cbn [List.length]; destruct ((0 <=? 1) && (1 <=? Z.of_nat (S (List.length b))))%bool eqn:Q; [reflexivity | lia]).
  rewrite lift_ok. cbn [varint lift].
  name_for body HB.
  assert (L : 0 <= Z.land x 63 < 2 ^ 64).
  { change 63 with (Z.ones 6). rewrite Z.land_ones by lia. pows. change (2 ^ 6) with 64. lia. }
  rewrite (cast_fits 64 (Z.land x 63)) by exact L. revert L.
  generalize (Z.land x 63) as a. intro a.
  generalize (x :: b) as whole. intros whole A. revert a A.
  induction b as [| y b IH]; intros a A.
  - cbn [map for_loop fold_left]. lstep. fit. reflexivity.
  - pose proof (Forall_inv B) as Y. red in Y. cbn [map for_loop fold_left].
    rewrite HB. lstep.
    unfold shl_u at 1. change ((0 <=? 8) && (8 <? 64))%bool with true. cbv iota. rewrite lift_ok.
    rewrite (cast_fits 64 y) by (pows; lia).
    assert (E : 0 <= Z.shiftl a 8 mod 2 ^ 64 + y < 2 ^ 64).
    { rewrite Z.shiftl_mul_pow2 by lia. pows. lia. }
    rewrite add_fits by (pows; lia). rewrite lift_ok.
    apply (IH (Forall_inv_tail B) (varint_step a y)). exact E.
Qed.

(** The body of [n_varints]: one varint is measured and stepped over. *)
Lemma shift_len : forall x, 0 <= x < 256 -> exists l, Z.shiftl 1 (Z.shiftr x 6) = l /\ (l = 1 \/ l = 2 \/ l = 4 \/ l = 8) /\
  forall m, shl_u m usize 1 (Z.shiftr x 6) = Ok l.
Proof.
  intros x X. exists (Z.shiftl 1 (Z.shiftr x 6)). split; [reflexivity |].
  assert (0 <= Z.shiftr x 6 < 4) by (rewrite Z.shiftr_div_pow2 by lia; change (2 ^ 6) with 64; lia).
  assert (C : Z.shiftr x 6 = 0 \/ Z.shiftr x 6 = 1 \/ Z.shiftr x 6 = 2 \/ Z.shiftr x 6 = 3) by lia.
  destruct C as [-> | [-> | [-> | ->]]]; (split; [cbn; lia | reflexivity]).
Qed.
Lemma idx_head : forall x b, idx (x :: b) 0 = Ok x.
Proof.
  intros. unfold idx, blen. cbn [List.length].
  destruct ((0 <=? 0) && (0 <? Z.of_nat (S (List.length b))))%bool eqn:Q; [reflexivity | lia].
Qed.
Lemma ints_from_cons : forall lo hi, lo < hi -> ints_from lo hi = lo :: ints_from (lo + 1) hi.
Proof.
  intros. unfold ints_from. replace (Z.to_nat (hi - lo)) with (S (Z.to_nat (hi - (lo + 1)))) by lia.
  cbn [seq map]. f_equal; [lia |]. rewrite <- seq_shift, map_map. apply map_ext. intros. lia.
Qed.
Lemma ints_from_nil : forall lo hi, hi <= lo -> ints_from lo hi = [].
Proof. intros. unfold ints_from. replace (Z.to_nat (hi - lo)) with O by lia. reflexivity. Qed.
Lemma n_varints_src : forall c r d n b, buf_ok b -> 0 <= n < 2 ^ 64 ->
  claim c r d "quic" "n_varints" fn_quic_n_varints [VI (Some Usize) n; VA (Some U8) b].
Proof.
  intros c r d n b [B L] N. start. name_for body HB. unfold n_varints.
  assert (G : forall f b i acc K F, bytes_ok b -> (List.length b <= f)%nat -> 0 <= acc -> acc + blen b < 2 ^ 63 -> 0 <= i <= n ->
    (forall z b', K [("length", VI (Some Usize) z); ("n", VI (Some Usize) n); ("bytes", VA (Some U8) b')] = F z) ->
    for_loop body (map (VI (Some Usize)) (ints_from i n))
      [("length", VI (Some Usize) acc); ("n", VI (Some Usize) n); ("bytes", VA (Some U8) b)] K =
    lift (n_varints_loop f (n - i) b) (fun z => F (acc + z))).
  { clear B L b. induction f as [| f IH]; intros b i acc K F B Lf A Lb I HK.
    - assert (b = []) as -> by (destruct b; [reflexivity | cbn [List.length] in Lf; lia]).
      cbn [n_varints_loop]. destruct (n - i <=? 0) eqn:Q.
      + rewrite ints_from_nil by lia. cbn [map for_loop lift]. rewrite HK. f_equal. lia.
      + rewrite ints_from_cons by lia. cbn [map for_loop]. rewrite HB. lstep. reflexivity.
    - cbn [n_varints_loop]. destruct (n - i <=? 0) eqn:Q.
      + rewrite ints_from_nil by lia. cbn [map for_loop lift]. rewrite HK. f_equal. lia.
      + rewrite ints_from_cons by lia. cbn [map for_loop]. rewrite HB. lstep.
        destruct b as [| x b]; [reflexivity |].
        pose proof (Forall_inv B) as X. red in X. rewrite idx_head, lift_ok, shr_fits, lift_ok by lia.
        destruct (shift_len x X) as (l & El & Cl & Sl). rewrite Sl, El, lift_ok.
        unfold split_u. fold (blen (x :: b)).
        destruct (l <=? blen (x :: b)) eqn:Q2; rewrite add_fits by (pows; unfold blen in *; lia); [| reflexivity].
        rewrite !lift_ok. cbn [fst snd]. unfold drop.
        replace (n - i - 1) with (n - (i + 1)) by lia.
        set (b' := skipn (Z.to_nat l) (x :: b)).
        assert (LL : (List.length b' + Z.to_nat l = List.length (x :: b))%nat)
          by (unfold b'; rewrite skipn_length; unfold blen in *; lia).
        assert (B' : bytes_ok b') by (unfold b', bytes_ok in *; now apply Forall_skipn).
        unfold leave_loop, leave. cbn [env_size env_drop Nat.sub].
        rewrite (IH b' (i + 1) (acc + l) K F); try assumption; try (unfold blen in *; lia).
        destruct (n_varints_loop f (n - (i + 1)) b'); cbn [lift rmap]; [f_equal; lia | reflexivity]. }
  rewrite (G (List.length b) b 0 0 _ (fun z => Done (VI (Some Usize) z))); try assumption; try lia.
  - rewrite Z.sub_0_r. reflexivity.
  - intros. lstep. reflexivity.
Qed.

Lemma fold_range : forall x, 0 <= x < 2 ^ 32 -> 0 <= Z.shiftr x 16 + Z.land x 65535 < 2 ^ 32.
Proof. intros. rewrite Z.shiftr_div_pow2 by lia. rewrite land_ffff. pows. lia. Qed.
Lemma finalize_src : forall c r d x, 0 <= x < 2 ^ 32 -> (5 <= r)%nat ->
  claim c r d "util" "finalize_checksum" fn_util_finalize_checksum [VI (Some U32) x].
Proof.
  intros c r d x X R. start. name_while cond HC body HB. unfold finalize_checksum.
  assert (G : forall k n x K, 0 <= x < 2 ^ 32 -> (k <= n)%nat -> fold_carry (c_mode c) k x <> Panic EDiverge ->
    while_loop cond body n [("sum", VI (Some U32) x)] K =
    lift (fold_carry (c_mode c) k x) (fun z => K [("sum", VI (Some U32) z)])).
  { clear X R x. induction k as [| k IH]; intros n x K X R D; [now elim D |].
    destruct n as [| n]; [lia |]. cbn [while_loop fold_carry] in *. rewrite HC. lstep.
    rewrite shr_fits, lift_ok by lia. cbn [cmp_z]. destruct (Z.shiftr x 16 =? 0) eqn:Q; [reflexivity |]. cbn [negb].
    rewrite HB. lstep. rewrite shr_fits, !lift_ok by lia. pose proof (fold_range x X) as FR.
    assert (0 <= Z.shiftr x 16) by (apply Z.shiftr_nonneg; lia).
    assert (0 <= Z.land x 65535) by (rewrite land_ffff; lia).
    rewrite add_fits in * by lia. cbn [bind] in *. rewrite lift_ok.
    apply IH; [exact FR | lia | exact D]. }
  pose proof (fold_carry_canon (c_mode c) x X) as FC.
  rewrite (G 4%nat r x) by (try lia; rewrite FC; discriminate).
  rewrite FC. cbn [lift bind]. lstep. reflexivity.
Qed.

(** The loop of [sum_be_words] leaves at most one byte. *)
Fixpoint leftover (l : buf) : buf := match l with _ :: _ :: r => leftover r | _ => l end.
Lemma sum_be_words_src : forall c r d b x, buf_ok b -> 0 <= x < 2 ^ 64 -> (List.length b + 5 <= r)%nat ->
  claim c r d "util" "sum_be_words" fn_util_sum_be_words [VA (Some U8) b; VI (Some Usize) x].
Proof.
  intros c r d b x [B L] X R. start. name_while cond HC body HB. unfold sum_be_words.
  cbn [cmp_z]. destruct (blen b =? 0) eqn:Q0; [reflexivity |].
  assert (G : forall cur n i s K, bytes_ok cur -> (List.length cur < n)%nat -> 0 <= s < 2 ^ 32 -> 0 <= i -> i + blen cur < 2 ^ 63 ->
    while_loop cond body n
      [("i", VI (Some Usize) i); ("sum", VI (Some U32) s); ("cur_data", VA (Some U8) cur); ("len", VI (Some Usize) (blen b));
       ("data", VA (Some U8) b); ("skipword", VI (Some Usize) x)] K =
    lift (sum_words (c_mode c) cur x i s) (fun p =>
      K [("i", VI (Some Usize) (snd p)); ("sum", VI (Some U32) (fst p)); ("cur_data", VA (Some U8) (leftover cur));
         ("len", VI (Some Usize) (blen b)); ("data", VA (Some U8) b); ("skipword", VI (Some Usize) x)])).
  { induction cur as [| y | hi lo cur IH] using pair_ind; intros n i s K C N Sr I M;
      (destruct n as [| n]; [cbn [List.length] in N; lia |]); cbn [while_loop]; rewrite HC; lstep.
    - reflexivity.
    - reflexivity.
    - cbn [cmp_z]. replace (2 <=? blen (hi :: lo :: cur)) with true by (unfold blen; cbn [List.length]; lia).
      rewrite HB. lstep. cbn [sum_words leftover].
      pose proof (Forall_inv C) as Hi. pose proof (Forall_inv (Forall_inv_tail C)) as Lo. red in Hi, Lo.
      pose proof (Forall_inv_tail (Forall_inv_tail C)) as C'.
      assert (E2 : slice (hi :: lo :: cur) 0 2 = Ok [hi; lo]).
      { unfold slice, blen. cbn [List.length].
        destruct ((0 <=? 0) && (0 <=? 2) && (2 <=? Z.of_nat (S (S (List.length cur)))))%bool eqn:Q; [reflexivity | lia]. }
      assert (E3 : slice_from (hi :: lo :: cur) 2 = Ok cur).
      { unfold slice_from, blen. cbn [List.length].
        destruct ((0 <=? 2) && (2 <=? Z.of_nat (S (S (List.length cur)))))%bool eqn:Q; [reflexivity | lia]. }
      assert (V : bytes_value [hi; lo] = 256 * hi + lo) by (unfold bytes_value; cbn [fold_left]; lia).
      assert (M' : i + 1 + blen cur < 2 ^ 63) by (unfold blen in *; cbn [List.length] in M; lia).
      assert (N' : (List.length cur < n)%nat) by (cbn [List.length] in N; lia).
      cbn [cmp_z]. destruct (negb (i =? x)) eqn:Q.
      + rewrite E2, lift_ok. unfold zeq at 1. change (blen [hi; lo] =? 2) with true. cbv iota.
        rewrite V, cast_fits by (pows; lia).
        destruct (add_u (c_mode c) 32 s (256 * hi + lo)) as [s' | e] eqn:AD; [| reflexivity].
        rewrite !lift_ok, E3, lift_ok. cbn [bind].
        rewrite add_fits by (pows; unfold blen in *; lia). rewrite lift_ok. unfold leave_loop, leave. cbn [env_size env_drop Nat.sub].
        apply IH; try assumption; try lia. exact (ovf_range _ 32 _ _ ltac:(lia) AD).
      + rewrite E3, lift_ok. cbn [bind].
        rewrite add_fits by (pows; unfold blen in *; lia). rewrite lift_ok. unfold leave_loop, leave. cbn [env_size env_drop Nat.sub].
        apply IH; try assumption; try lia. }
  rewrite G; try assumption; try (pows; lia).
  destruct (sum_words (c_mode c) b x 0 0) as [[s i] | e] eqn:SW; [| reflexivity].
  cbn [lift bind fst snd]. lstep. cbn [cmp_z].
  destruct (negb (i =? x)); [| reflexivity]. cbn [andb]. rewrite lift_ok.
  destruct (negb (Z.land (blen b) 1 =? 0)); [| reflexivity].
  rewrite sub_fits by (pows; unfold blen in *; lia). rewrite lift_ok.
  destruct (idx b (blen b - 1)) as [y | e] eqn:IX; [| reflexivity]. cbn [lift bind].
  assert (Y : 0 <= y < 256).
  { unfold idx in IX. destruct ((0 <=? blen b - 1) && (blen b - 1 <? blen b))%bool eqn:Q; [| discriminate]. injection IX as <-.
    apply (byte_nth b). exact B. }
  fit. destruct (add_u (c_mode c) 32 s (Z.shiftl y 8)); reflexivity.
Qed.

Lemma ipv4_word_sum_src : forall c r d b, Forall (in_range U8) b -> List.length b = 4%nat ->
  claim c r d "util" "ipv4_word_sum" fn_util_ipv4_word_sum [VC "Ipv4Addr" U8 b].
Proof.
  intros c r d b B L. start.
  destruct b as [| x0 [| x1 [| x2 [| x3 [| ? ?]]]]]; try discriminate.
  inversion B as [| ? ? X0 B1]; inversion B1 as [| ? ? X1 B2]; inversion B2 as [| ? ? X2 B3]; inversion B3 as [| ? ? X3 B4]; subst.
  unfold in_range in *. cbn [width] in *. pows.
  change (idx [x0; x1; x2; x3] 0) with (Ok x0). change (idx [x0; x1; x2; x3] 1) with (Ok x1).
  change (idx [x0; x1; x2; x3] 2) with (Ok x2). change (idx [x0; x1; x2; x3] 3) with (Ok x3).
  fit. reflexivity.
Qed.
Lemma ipv6_word_sum_src : forall c r d b, Forall (in_range U16) b ->
  claim c r d "util" "ipv6_word_sum" fn_util_ipv6_word_sum [VC "Ipv6Addr" U16 b].
Proof.
  intros c r d b B. unfold claim. read. rewrite lv_S. 
  match goal with |- _ = ?rhs => remember rhs as R eqn:HR end. go. name_sum body HB. rewrite HR. clear HR R.
  change (returns (crate_fun c "util" "ipv6_word_sum" [VC "Ipv6Addr" U16 b]))
    with (lift (sum_u32 (c_mode c) b 0) (fun z => Done (VI (Some U32) z))).
  assert (G : forall l acc, Forall (in_range U16) l ->
    sum_loop body (map (VI (Some U16)) l) (VI (Some U32) acc) (fun a : rv => Done a) =
    lift (sum_u32 (c_mode c) l acc) (fun z => Done (VI (Some U32) z))).
  { induction l as [| y l IH]; intros acc F; [reflexivity |].
    inversion F as [| ? ? Y F']; subst. unfold in_range in Y. cbn [width] in Y. pows.
    cbn [map sum_loop sum_u32]. rewrite HB. lstep. rewrite cast_fits by (pows; lia).
    destruct (add_u (c_mode c) 32 acc y) as [z | e]; [| reflexivity]. cbn [bind]. rewrite lift_ok. apply IH. exact F'. }
  apply G. exact B.
Qed.

(** ** Ranges of the sums *)

Lemma sum_words_range : forall m cur x i s p, 0 <= s < 2 ^ 32 -> sum_words m cur x i s = Ok p -> 0 <= fst p < 2 ^ 32.
Proof.
  induction cur as [| y | hi lo cur IH] using pair_ind; intros x i s p S H; cbn [sum_words] in H;
    try (injection H as <-; exact S).
  destruct (negb (i =? x)); [| now apply (IH x (i + 1) s)].
  destruct (add_u m 32 s (256 * hi + lo)) as [z | e] eqn:A; [| discriminate].
  apply (IH x (i + 1) z); [exact (ovf_range _ 32 _ _ ltac:(lia) A) | exact H].
Qed.
Lemma sum_be_words_range : forall m b x z, sum_be_words m b x = Ok z -> 0 <= z < 2 ^ 32.
Proof.
  unfold sum_be_words. intros m b x z H. destruct (blen b =? 0); [injection H as <-; pows; lia |].
  destruct (sum_words m b x 0 0) as [p | e] eqn:S; [| discriminate]. apply sum_words_range in S; [| pows; lia].
  cbn [bind] in H. destruct p as [s i]. cbn [fst] in S.
  destruct (negb (i =? x) && negb (Z.land (blen b) 1 =? 0))%bool; [| injection H as <-; exact S].
  destruct (idx b (blen b - 1)) as [y | e]; [| discriminate]. exact (ovf_range _ 32 _ _ ltac:(lia) H).
Qed.

(** ** Functions that call others *)

Lemma checksum_src : forall c r d b x, buf_ok b -> 0 <= x < 2 ^ 64 -> (List.length b + 5 <= r)%nat ->
  claim c r (S d) "util" "checksum" fn_util_checksum [VA (Some U8) b; VI (Some Usize) x].
Proof.
  intros c r d b x B X R. start. unfold checksum. cbn [cmp_z].
  destruct (blen b =? 0); [reflexivity |].
  call (sum_be_words_src c r d b x B X R).
  destruct (sum_be_words (c_mode c) b x) as [s | e] eqn:S; [| reflexivity]. cbn [bind]. rewrite lift_ok.
  call (finalize_src c r d s (sum_be_words_range _ _ _ _ S) ltac:(lia)). reflexivity.
Qed.

Lemma pseudo4_src : forall c r d b k x s t q, buf_ok b -> buf_ok x -> 0 <= k < 2 ^ 64 -> 0 <= q < 256 ->
  Forall (in_range U8) s -> List.length s = 4%nat -> Forall (in_range U8) t -> List.length t = 4%nat ->
  (List.length b + List.length x + 5 <= r)%nat ->
  claim c r (S d) "util" "ipv4_checksum" fn_util_ipv4_checksum
    [VA (Some U8) b; VI (Some Usize) k; VA (Some U8) x; VC "Ipv4Addr" U8 s; VC "Ipv4Addr" U8 t; VC "IpNextHeaderProtocol" U8 [q]].
Proof.
  intros c r d b k x s t q B X K Q S1 S2 T1 T2 R. start. unfold ipv4_checksum, pseudo_checksum.
  call (ipv4_word_sum_src c r d s S1 S2).
  destruct (ipv4_word_sum (c_mode c) s) as [z0 | e]; [| reflexivity]. cbn [bind]. rewrite lift_ok.
  destruct (add_u (c_mode c) 32 0 z0) as [z1 | e]; [| reflexivity]. cbn [bind]. rewrite lift_ok.
  call (ipv4_word_sum_src c r d t T1 T2).
  destruct (ipv4_word_sum (c_mode c) t) as [z2 | e]; [| reflexivity]. cbn [bind]. rewrite lift_ok.
  destruct (add_u (c_mode c) 32 z1 z2) as [z3 | e]; [| reflexivity]. cbn [bind]. rewrite lift_ok. cbn [map].
  rewrite (cast_fits 32 q) by (pows; lia).
  destruct (add_u (c_mode c) 32 z3 q) as [z4 | e]; [| reflexivity]. cbn [bind]. rewrite lift_ok.
  destruct (add_u (c_mode c) usize (blen b) (blen x)) as [z5 | e]; [| reflexivity]. cbn [bind]. rewrite lift_ok.
  destruct (add_u (c_mode c) 32 z4 (cast_u 32 z5)) as [z6 | e]; [| reflexivity]. cbn [bind]. rewrite lift_ok.
  call (sum_be_words_src c r d b k B K ltac:(lia)).
  destruct (sum_be_words (c_mode c) b k) as [z7 | e]; [| reflexivity]. cbn [bind]. rewrite lift_ok.
  destruct (add_u (c_mode c) 32 z6 z7) as [z8 | e]; [| reflexivity]. cbn [bind]. rewrite lift_ok.
  change (div_u (blen x) 2) with (Ok (blen x / 2)). rewrite lift_ok.
  assert (X2 : 0 <= blen x / 2 < 2 ^ 64) by (destruct X as [_ X]; pows; unfold blen in *; lia).
  call (sum_be_words_src c r d x (blen x / 2) X X2 ltac:(lia)).
  destruct (sum_be_words (c_mode c) x (blen x / 2)) as [z9 | e]; [| reflexivity]. cbn [bind]. rewrite lift_ok.
  destruct (add_u (c_mode c) 32 z8 z9) as [z10 | e] eqn:A; [| reflexivity]. cbn [bind]. rewrite lift_ok.
  call (finalize_src c r d z10 (ovf_range _ 32 _ _ ltac:(lia) A) ltac:(lia)). reflexivity.
Qed.
Lemma pseudo6_src : forall c r d b k x s t q, buf_ok b -> buf_ok x -> 0 <= k < 2 ^ 64 -> 0 <= q < 256 ->
  Forall (in_range U16) s -> Forall (in_range U16) t -> (List.length b + List.length x + 5 <= r)%nat ->
  claim c r (S d) "util" "ipv6_checksum" fn_util_ipv6_checksum
    [VA (Some U8) b; VI (Some Usize) k; VA (Some U8) x; VC "Ipv6Addr" U16 s; VC "Ipv6Addr" U16 t; VC "IpNextHeaderProtocol" U8 [q]].
Proof.
  intros c r d b k x s t q B X K Q S1 T1 R. start. unfold ipv6_checksum, pseudo_checksum.
  call (ipv6_word_sum_src c r d s S1).
  destruct (ipv6_word_sum (c_mode c) s) as [z0 | e]; [| reflexivity]. cbn [bind]. rewrite lift_ok.
  destruct (add_u (c_mode c) 32 0 z0) as [z1 | e]; [| reflexivity]. cbn [bind]. rewrite lift_ok.
  call (ipv6_word_sum_src c r d t T1).
  destruct (ipv6_word_sum (c_mode c) t) as [z2 | e]; [| reflexivity]. cbn [bind]. rewrite lift_ok.
  destruct (add_u (c_mode c) 32 z1 z2) as [z3 | e]; [| reflexivity]. cbn [bind]. rewrite lift_ok. cbn [map].
  rewrite (cast_fits 32 q) by (pows; lia).
  destruct (add_u (c_mode c) 32 z3 q) as [z4 | e]; [| reflexivity]. cbn [bind]. rewrite lift_ok.
  destruct (add_u (c_mode c) usize (blen b) (blen x)) as [z5 | e]; [| reflexivity]. cbn [bind]. rewrite lift_ok.
  destruct (add_u (c_mode c) 32 z4 (cast_u 32 z5)) as [z6 | e]; [| reflexivity]. cbn [bind]. rewrite lift_ok.
  call (sum_be_words_src c r d b k B K ltac:(lia)).
  destruct (sum_be_words (c_mode c) b k) as [z7 | e]; [| reflexivity]. cbn [bind]. rewrite lift_ok.
  destruct (add_u (c_mode c) 32 z6 z7) as [z8 | e]; [| reflexivity]. cbn [bind]. rewrite lift_ok.
  change (div_u (blen x) 2) with (Ok (blen x / 2)). rewrite lift_ok.
  assert (X2 : 0 <= blen x / 2 < 2 ^ 64) by (destruct X as [_ X]; pows; unfold blen in *; lia).
  call (sum_be_words_src c r d x (blen x / 2) X X2 ltac:(lia)).
  destruct (sum_be_words (c_mode c) x (blen x / 2)) as [z9 | e]; [| reflexivity]. cbn [bind]. rewrite lift_ok.
  destruct (add_u (c_mode c) 32 z8 z9) as [z10 | e] eqn:A; [| reflexivity]. cbn [bind]. rewrite lift_ok.
  call (finalize_src c r d z10 (ovf_range _ 32 _ _ ltac:(lia) A) ltac:(lia)). reflexivity.
Qed.

(** ** The checksums of packets *)

Definition addr4 (s : list Z) : Prop := Forall (in_range U8) s /\ List.length s = 4%nat.
Definition addr6 (s : list Z) : Prop := Forall (in_range U16) s.
Lemma take_bytes_ok : forall b k, take_bytes (Some (ABytes (Ok b))) k = k b.
Proof. reflexivity. Qed.
Lemma buf_ok_nil : buf_ok [].
Proof. split; [constructor | reflexivity]. Qed.
Ltac bytes_of_packet :=
  repeat match goal with |- context [take_bytes (linked ?c ?r ?d ?mo ?f ?args) ?k] =>
    match args with [VC _ _ ?b] =>
      replace (linked c r d mo f args) with (Some (ABytes (Ok b))) by reflexivity; rewrite take_bytes_ok
    end end.

Lemma udp4_adv_src : forall c r d b x s t, buf_ok b -> buf_ok x -> addr4 s -> addr4 t ->
  (List.length b + List.length x + 5 <= r)%nat ->
  claim c r (S (S d)) "udp" "ipv4_checksum_adv" fn_udp_ipv4_checksum_adv
    [VC "UdpPacket" U8 b; VA (Some U8) x; VC "Ipv4Addr" U8 s; VC "Ipv4Addr" U8 t].
Proof.
  intros c r d b x s t B X [S1 S2] [T1 T2] R. start. bytes_of_packet.
  call (pseudo4_src c r d b 3 x s t 17 B X ltac:(pows; lia) ltac:(lia) S1 S2 T1 T2 R). reflexivity.
Qed.
Lemma tcp4_adv_src : forall c r d b x s t, buf_ok b -> buf_ok x -> addr4 s -> addr4 t ->
  (List.length b + List.length x + 5 <= r)%nat ->
  claim c r (S (S d)) "tcp" "ipv4_checksum_adv" fn_tcp_ipv4_checksum_adv
    [VC "TcpPacket" U8 b; VA (Some U8) x; VC "Ipv4Addr" U8 s; VC "Ipv4Addr" U8 t].
Proof.
  intros c r d b x s t B X [S1 S2] [T1 T2] R. start. bytes_of_packet.
  call (pseudo4_src c r d b 8 x s t 6 B X ltac:(pows; lia) ltac:(lia) S1 S2 T1 T2 R). reflexivity.
Qed.
Lemma udp6_adv_src : forall c r d b x s t, buf_ok b -> buf_ok x -> addr6 s -> addr6 t ->
  (List.length b + List.length x + 5 <= r)%nat ->
  claim c r (S (S d)) "udp" "ipv6_checksum_adv" fn_udp_ipv6_checksum_adv
    [VC "UdpPacket" U8 b; VA (Some U8) x; VC "Ipv6Addr" U16 s; VC "Ipv6Addr" U16 t].
Proof.
  intros c r d b x s t B X S1 T1 R. start. bytes_of_packet.
  call (pseudo6_src c r d b 3 x s t 17 B X ltac:(pows; lia) ltac:(lia) S1 T1 R). reflexivity.
Qed.
Lemma tcp6_adv_src : forall c r d b x s t, buf_ok b -> buf_ok x -> addr6 s -> addr6 t ->
  (List.length b + List.length x + 5 <= r)%nat ->
  claim c r (S (S d)) "tcp" "ipv6_checksum_adv" fn_tcp_ipv6_checksum_adv
    [VC "TcpPacket" U8 b; VA (Some U8) x; VC "Ipv6Addr" U16 s; VC "Ipv6Addr" U16 t].
Proof.
  intros c r d b x s t B X S1 T1 R. start. bytes_of_packet.
  call (pseudo6_src c r d b 8 x s t 6 B X ltac:(pows; lia) ltac:(lia) S1 T1 R). reflexivity.
Qed.
Lemma udp4_src : forall c r d b s t, buf_ok b -> addr4 s -> addr4 t -> (List.length b + 5 <= r)%nat ->
  claim c r (S (S (S d))) "udp" "ipv4_checksum" fn_udp_ipv4_checksum [VC "UdpPacket" U8 b; VC "Ipv4Addr" U8 s; VC "Ipv4Addr" U8 t].
Proof.
  intros c r d b s t B S T R. start.
  call (udp4_adv_src c r d b [] s t B buf_ok_nil S T ltac:(cbn [List.length]; lia)). reflexivity.
Qed.
Lemma tcp4_src : forall c r d b s t, buf_ok b -> addr4 s -> addr4 t -> (List.length b + 5 <= r)%nat ->
  claim c r (S (S (S d))) "tcp" "ipv4_checksum" fn_tcp_ipv4_checksum [VC "TcpPacket" U8 b; VC "Ipv4Addr" U8 s; VC "Ipv4Addr" U8 t].
Proof.
  intros c r d b s t B S T R. start.
  call (tcp4_adv_src c r d b [] s t B buf_ok_nil S T ltac:(cbn [List.length]; lia)). reflexivity.
Qed.
Lemma udp6_src : forall c r d b s t, buf_ok b -> addr6 s -> addr6 t -> (List.length b + 5 <= r)%nat ->
  claim c r (S (S (S d))) "udp" "ipv6_checksum" fn_udp_ipv6_checksum [VC "UdpPacket" U8 b; VC "Ipv6Addr" U16 s; VC "Ipv6Addr" U16 t].
Proof.
  intros c r d b s t B S T R. start.
  call (udp6_adv_src c r d b [] s t B buf_ok_nil S T ltac:(cbn [List.length]; lia)). reflexivity.
Qed.
Lemma tcp6_src : forall c r d b s t, buf_ok b -> addr6 s -> addr6 t -> (List.length b + 5 <= r)%nat ->
  claim c r (S (S (S d))) "tcp" "ipv6_checksum" fn_tcp_ipv6_checksum [VC "TcpPacket" U8 b; VC "Ipv6Addr" U16 s; VC "Ipv6Addr" U16 t].
Proof.
  intros c r d b s t B S T R. start.
  call (tcp6_adv_src c r d b [] s t B buf_ok_nil S T ltac:(cbn [List.length]; lia)). reflexivity.
Qed.
Lemma icmp_src : forall c r d b, buf_ok b -> (List.length b + 5 <= r)%nat ->
  claim c r (S (S d)) "icmp" "checksum" fn_icmp_checksum [VC "IcmpPacket" U8 b].
Proof.
  intros c r d b B R. start. bytes_of_packet.
  call (checksum_src c r d b 1 B ltac:(pows; lia) R). reflexivity.
Qed.
Lemma icmpv6_src : forall c r d b s t, buf_ok b -> addr6 s -> addr6 t -> (List.length b + 5 <= r)%nat ->
  claim c r (S (S d)) "icmpv6" "checksum" fn_icmpv6_checksum [VC "Icmpv6Packet" U8 b; VC "Ipv6Addr" U16 s; VC "Ipv6Addr" U16 t].
Proof.
  intros c r d b s t B S T R. start. bytes_of_packet.
  call (pseudo6_src c r d b 1 [] s t 58 B buf_ok_nil ltac:(pows; lia) ltac:(lia) S T ltac:(cbn [List.length]; lia)). reflexivity.
Qed.

Lemma ipv4_header_src : forall c r d b, buf_ok b -> new (ipv4 c) b = Some b -> (List.length b + 5 <= r)%nat ->
  claim c r (S (S d)) "ipv4" "checksum" fn_ipv4_checksum [VC "Ipv4Packet" U8 b].
Proof.
  intros c r d b B N R. start. unfold ipv4_header_checksum.
  change (linked c r (S (S d)) "ipv4" "Ipv4Packet::minimum_packet_size" []) with (Some (AInt Usize (Ok (minimum_packet_size (ipv4 c))))).
  change (linked c r (S (S d)) "ipv4" "Ipv4Packet::packet" [VC "Ipv4Packet" U8 b]) with (Some (ABytes (Ok b))).
  change (linked c r (S (S d)) "ipv4" "Ipv4Packet::get_header_length" [VC "Ipv4Packet" U8 b])
    with (Some (AInt U8 (int_of (get c (ipv4 c) "header_length" b)))).
  destruct (ipv4_ihl c b B N) as [G H]. rewrite G. cbn [int_of]. match type of G with _ = Ok (VInt ?v) => set (h := v) in * end.
  cbn [take_int ity_eqb lift bind take_bytes]. set (mn := minimum_packet_size (ipv4 c)).
  change (int_of (Ok (VInt h))) with (Ok h). cbn [lift bind].
  rewrite (cast_fits usize h) by (pows; lia). rewrite mul_fits by (pows; lia). cbn [lift bind cmp_z].
  assert (F : forall hi k, lift (slice b 0 hi) (fun l1 => take_int U16 (linked c r (S (S d)) "ipv4" "util::checksum" [VA (Some U8) l1; VI None 5]) k) =
    lift (l1 <- slice b 0 hi ;; checksum (c_mode c) l1 5) k).
  { intros hi k. unfold slice. destruct ((0 <=? 0) && (0 <=? hi) && (hi <=? blen b))%bool; [| reflexivity].
    cbn [lift bind skipn Z.to_nat]. set (l := firstn (Z.to_nat (hi - 0)) b).
    assert (L : (List.length l <= List.length b)%nat) by (unfold l; rewrite firstn_length; lia).
    assert (B' : buf_ok l) by (destruct B as [B1 B2]; split; [unfold l, bytes_ok in *; now apply Forall_firstn | unfold blen in *; lia]).
    call (checksum_src c r d l 5 B' ltac:(pows; lia) ltac:(lia)). reflexivity. }
  rewrite !F. destruct (h * 4 <? mn); [| destruct (blen b <? h * 4)]; reflexivity.
Qed.

(** ** MAC addresses *)

Lemma mac_new_src : forall c r d x0 x1 x2 x3 x4 x5, claim c r d "mac" "new" fn_mac_new
  [VI (Some U8) x0; VI (Some U8) x1; VI (Some U8) x2; VI (Some U8) x3; VI (Some U8) x4; VI (Some U8) x5].
Proof. intros. start. destruct d; reflexivity. Qed.
Lemma six : forall l : list Z, List.length l = 6%nat -> exists x0 x1 x2 x3 x4 x5, l = [x0; x1; x2; x3; x4; x5].
Proof.
  intros [| x0 [| x1 [| x2 [| x3 [| x4 [| x5 [| ? ?]]]]]]] H; try discriminate. now exists x0, x1, x2, x3, x4, x5.
Qed.
Lemma same_mac : forall x0 x1 x2 x3 x4 x5 m,
  same_list [x0; x1; x2; x3; x4; x5] (mac_to_array m) = mac_eqb (MacAddr x0 x1 x2 x3 x4 x5) m.
Proof.
  intros. destruct m as [a b c d e f]. unfold mac_to_array, mac_eqb. cbn [same_list mac0 mac1 mac2 mac3 mac4 mac5].
  now rewrite andb_true_r, !andb_assoc.
Qed.
Lemma is_local_src : forall c r d b, List.length b = 6%nat -> claim c r d "mac" "is_local" fn_mac_is_local [VC "MacAddr" U8 b].
Proof. intros c r d b L. destruct (six b L) as (x0 & x1 & x2 & x3 & x4 & x5 & ->). start. reflexivity. Qed.
Lemma is_multicast_src : forall c r d b, List.length b = 6%nat ->
  claim c r d "mac" "is_multicast" fn_mac_is_multicast [VC "MacAddr" U8 b].
Proof. intros c r d b L. destruct (six b L) as (x0 & x1 & x2 & x3 & x4 & x5 & ->). start. reflexivity. Qed.
Lemma is_universal_src : forall c r d b, List.length b = 6%nat ->
  claim c r (S d) "mac" "is_universal" fn_mac_is_universal [VC "MacAddr" U8 b].
Proof.
  intros c r d b L. start. call_b (is_local_src c r d b L).
  destruct (six b L) as (x0 & x1 & x2 & x3 & x4 & x5 & ->). reflexivity.
Qed.
Lemma is_unicast_src : forall c r d b, List.length b = 6%nat ->
  claim c r (S d) "mac" "is_unicast" fn_mac_is_unicast [VC "MacAddr" U8 b].
Proof.
  intros c r d b L. start. call_b (is_multicast_src c r d b L).
  destruct (six b L) as (x0 & x1 & x2 & x3 & x4 & x5 & ->). reflexivity.
Qed.
Lemma is_zero_src : forall c r d b, List.length b = 6%nat ->
  claim c r (S d) "mac" "is_zero" fn_mac_is_zero [VC "MacAddr" U8 b].
Proof.
  intros c r d b L. start. destruct (six b L) as (x0 & x1 & x2 & x3 & x4 & x5 & ->).
  change (linked c r (S d) "mac" "Self::zero" []) with (Some (AObj "MacAddr" U8 (Ok (mac_to_array mac_zero)))).
  cbn [take_obj String.eqb Ascii.eqb Bool.eqb ity_eqb andb lift]. rewrite same_mac. reflexivity.
Qed.
Lemma is_broadcast_src : forall c r d b, List.length b = 6%nat ->
  claim c r (S d) "mac" "is_broadcast" fn_mac_is_broadcast [VC "MacAddr" U8 b].
Proof.
  intros c r d b L. start. destruct (six b L) as (x0 & x1 & x2 & x3 & x4 & x5 & ->).
  change (linked c r (S d) "mac" "Self::broadcast" [])
    with (Some (AObj "MacAddr" U8 (Ok (mac_to_array (MacAddr 255 255 255 255 255 255))))).
  cbn [take_obj String.eqb Ascii.eqb Bool.eqb ity_eqb andb lift]. rewrite same_mac. reflexivity.
Qed.

(** ** All of them *)

Lemma sigs_ok : forallb (fun x => match find_text (fst (fst x)) (snd (fst x)) with
    | Some t => match read_fn t with
                | Some g => match snd x with
                            | SInt u => match int_ty (fn_ret g) with Some v => ity_eqb u v | None => false end
                            | SBool => String.eqb (fn_ret g) "bool"
                            | _ => false
                            end
                | None => false
                end
    | None => false
    end) text_sigs = true.
Proof. vm_compute. reflexivity. Qed.

Definition good (c : cfg) (mo f t : string) : Prop :=
  exists g, read_fn t = Some g /\ fn_name g = f /\
    forall args, Forall2 (arg_fits c mo) (fn_params g) args -> forall rounds, (enough args <= rounds)%nat ->
      exists a, crate_fun c mo f args = Some a /\ run_source c rounds mo t args = answered a Done.
Lemma Forall2_nil_inv : forall A B (R : A -> B -> Prop) l, Forall2 R [] l -> l = [].
Proof. intros. now inversion H. Qed.
Lemma Forall2_cons_inv : forall A B (R : A -> B -> Prop) x r l, Forall2 R (x :: r) l ->
  exists y s, l = y :: s /\ R x y /\ Forall2 R r s.
Proof. intros. inversion H; subst. eauto. Qed.
Ltac args_of F :=
  repeat match type of F with
  | Forall2 _ [] _ => apply Forall2_nil_inv in F; subst
  | Forall2 _ (_ :: _) _ =>
      let v := fresh "v" in let l := fresh "l" in let H := fresh "H" in
      apply Forall2_cons_inv in F; destruct F as (v & l & -> & H & F);
      unfold arg_fits in H; cbn [snd] in H; cbv -[in_range List.length buf_ok new ipv4] in H
  end.
Ltac obtain := repeat match goal with H : ex _ |- _ => destruct H as (? & -> & H) end.
