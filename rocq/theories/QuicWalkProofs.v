(** Reading a packet whose fields follow one another: the generated accessors
    against [read_fields]. *)
From Coq Require Import String ZArith List Bool Lia ZifyBool ZifyNat.
From Verif Require Import Base BitSpec DeriveUtil DeriveOps BaseFacts BitFacts
  DeriveUtilProofs DeriveOpsProofs DeriveLEProofs DeriveGen SpecPacket DeriveGenProofs DeriveInvProofs
  DeriveAccProofs DeriveVarProofs DeriveApiProofs DerivePropProofs DerivePropProofs2 Protocols ProtoFacts
  ProtoPayloadProofs ProtoSplitProofs ProtoTcpProofs Quic SpecQuic QuicIntProofs.
Import ListNotations.
Open Scope Z_scope.
Ltac Zify.zify_post_hook ::= Z.to_euclidean_division_equations.

(** ** Values of fields read so far *)

Definition size_ok (w : width) (n : Z) : Prop :=
  match w with
  | WByte => n = 1
  | WVarint => 1 <= n <= 8
  | WOpt _ => n <= 8
  | _ => True
  end.
Definition agrees (e : env) (ws : wire) (seen : list (string * buf)) : Prop :=
  Forall2 (fun nw nl => fst nw = fst nl /\ e (fst nw) = Ok (shown (snd nw) (snd nl)) /\
                        size_ok (snd nw) (blen (snd nl)) /\ bytes_ok (snd nl)) ws seen.
Definition half (e : env) (ws : wire) : Prop :=
  Forall (fun nw => (exists l, e (fst nw) = Ok (shown (snd nw) l) /\ size_ok (snd nw) (blen l) /\ bytes_ok l) \/
                    e (fst nw) = Panic EIndex) ws.
Fixpoint width_at (f : string) (ws : wire) : option width :=
  match ws with
  | [] => None
  | (n, w) :: r => if String.eqb n f then Some w else width_at f r
  end.
Lemma agrees_half : forall e ws seen, agrees e ws seen -> half e ws.
Proof.
  intros e ws seen A. induction A as [|nw nl ws seen (N & E & SO & B) A IH]; constructor; auto.
  left. exists (snd nl). auto.
Qed.
Lemma agrees_at : forall e ws seen f w, agrees e ws seen -> width_at f ws = Some w ->
  e f = Ok (shown w (bytes_at f seen)) /\ size_ok w (blen (bytes_at f seen)) /\ bytes_ok (bytes_at f seen).
Proof.
  intros e ws seen f w A. induction A as [|[n k] [n' l] ws seen (N & E & SO & B) A IH]; cbn [width_at bytes_at fst snd] in *; [easy|].
  subst n'. destruct (String.eqb n f) eqn:Q; [|exact IH]. apply String.eqb_eq in Q. subst n. intros [= <-]. auto.
Qed.
Lemma half_at : forall e ws f w, half e ws -> width_at f ws = Some w ->
  (exists l, e f = Ok (shown w l) /\ size_ok w (blen l) /\ bytes_ok l) \/ e f = Panic EIndex.
Proof.
  intros e ws f w A. induction A as [|[n k] ws H A IH]; cbn [width_at fst snd] in *; [easy|].
  destruct (String.eqb n f) eqn:Q; [|exact IH]. apply String.eqb_eq in Q. subst n. intros [= <-]. auto.
Qed.

(** ** Length attributes *)

(** An upper bound for lengths that reach past the end of the buffer. *)
Definition cap (w : width) : Z :=
  match w with
  | WByte => 1
  | WFixed n => n
  | WByteOf _ => 255
  | WVarint => 8
  | WOpt _ | WVarints _ | WVarintsOf _ _ => 0
  | WOf _ | WDataOf _ | WRestOf _ _ => 2 ^ 62
  end.
Definition sized (H : env -> Prop) (ws : wire) (le : lenexpr) (w : width) : Prop :=
  forall e, H e ->
  (forall seen s, agrees e ws seen -> bytes_ok s ->
     le e (Ok s) = match width_size w seen s with Some n => Ok n | None => Panic EIndex end /\
     (forall n, width_size w seen s = Some n ->
        0 <= n /\ size_ok w n /\ (n <= blen s \/ n <= cap w /\ s <> [] \/ n <= cap w /\ size_ok w 0))) /\
  (half e ws -> le e (Panic EIndex) = Panic EIndex \/ exists n, 0 <= n <= cap w /\ le e (Panic EIndex) = Ok n).

Section Sized.
Variable H : env -> Prop.
Variable ws : wire.

Lemma sized_varint : sized H ws len_varint WVarint.
Proof.
  intros e HE. split; [|left; reflexivity]. intros seen s A B. cbn [len_varint bind width_size]. unfold len_varint. cbn [bind].
  split; [now apply varint_length_size|]. intros n E. assert (R := vi_size_range s n B E). cbn [size_ok cap].
  split; [lia|]. split; [lia|]. right. left. split; [lia|]. intros ->. discriminate.
Qed.
Lemma sized_fixed : forall le k, 0 <= k -> (forall e r, H e -> le e r = Ok k) -> sized H ws le (WFixed k).
Proof.
  intros le k K LE e HE. split.
  - intros seen s A B. cbn [width_size]. split; [auto|]. intros n [= <-]. cbn [size_ok cap].
    split; [exact K|]. split; [exact I|]. right. right. split; [lia|exact I].
  - intros _. right. exists k. cbn [cap]. split; [lia|auto].
Qed.
Lemma sized_byteof : forall f, width_at f ws = Some WByte -> sized H ws (len_of_int f (fun n => n)) (WByteOf f).
Proof.
  intros f W e HE. split.
  - intros seen s A B. destruct (agrees_at e ws seen f _ A W) as (E & SO & BB). unfold len_of_int.
    rewrite E. cbn [shown int_of bind rmap width_size]. split; [reflexivity|]. intros n [= <-].
    assert (R := be_val_bound _ BB). cbn [size_ok] in SO. rewrite SO in R. cbn [size_ok cap]. lia.
  - intros HF. destruct (half_at e ws f _ HF W) as [(l & E & SO & BB)|E]; unfold len_of_int; rewrite E; [|left; reflexivity].
    right. exists (be_val l). assert (R := be_val_bound _ BB). cbn [size_ok] in SO. rewrite SO in R. cbn [cap].
    split; [lia|reflexivity].
Qed.
Lemma nonempty_len : forall l : buf, 1 <= blen l -> l <> [].
Proof. intros l L ->. unfold blen in L. cbn in L. lia. Qed.
Lemma sized_of : forall f, width_at f ws = Some WVarint -> sized H ws (len_of_varint f) (WOf f).
Proof.
  intros f W e HE. split.
  - intros seen s A B. destruct (agrees_at e ws seen f _ A W) as (E & SO & BB). unfold len_of_varint.
    rewrite E. cbn [shown bytes_of bind width_size size_ok] in *.
    destruct (varint_read _ BB) as [V R]; [apply nonempty_len; lia|lia|]. rewrite V. split; [reflexivity|].
    intros n [= <-]. cbn [size_ok cap]. lia.
  - intros HF. destruct (half_at e ws f _ HF W) as [(l & E & SO & BB)|E]; unfold len_of_varint; rewrite E; [|left; reflexivity].
    cbn [shown bytes_of bind size_ok] in *.
    destruct (varint_read _ BB) as [V R]; [apply nonempty_len; lia|lia|]. right. exists (vi_read l). cbn [cap].
    split; [lia|exact V].
Qed.
Lemma vis_size_bound : forall n s k, bytes_ok s -> vis_size (List.length s) n s = Some k -> 0 <= k <= blen s.
Proof.
  intros n s k B E. destruct (Z_lt_le_dec n 0) as [N|N].
  - destruct s; cbn [List.length vis_size] in E; destruct (n <=? 0) eqn:Q; try lia; injection E as <-; unfold blen; lia.
  - apply (vis_size_sound (List.length s) n s k B N E).
Qed.
Lemma sized_varints : forall k n, (forall e, H e -> k e = Ok n) -> sized H ws (len_n_varints k) (WVarints n).
Proof.
  intros k n K e HE. unfold len_n_varints. rewrite K by auto. split; [|left; reflexivity].
  intros seen s A B. cbn [bind width_size]. split; [now apply n_varints_size|]. intros m E.
  assert (R := vis_size_bound _ _ _ B E). cbn [size_ok cap]. lia.
Qed.
Lemma vis_size_none : forall s, vis_size (List.length s) 0 s = Some 0.
Proof. intros [|x s]; reflexivity. Qed.
Lemma vis_size_one : forall s k, bytes_ok s -> vis_size (List.length s) 1 s = Some k -> 1 <= k <= 8 /\ vi_size s = Some k /\ k <= blen s.
Proof.
  intros [|x s] k B E; [discriminate|]. assert (R := vis_size_bound 1 _ k B E).
  cbn [List.length vis_size] in E. change (1 <=? 0) with false in E. cbn [vi_size] in *.
  inversion B; subst. assert (SC := size_cases x H2).
  destruct (2 ^ (x / 64) <=? blen (x :: s)); [|discriminate].
  replace (vis_size (List.length s) (1 - 1) (skipn (Z.to_nat (2 ^ (x / 64))) (x :: s))) with (Some 0) in E
    by (destruct (List.length s); reflexivity).
  injection E as <-. replace (2 ^ (x / 64) + 0) with (2 ^ (x / 64)) in * by lia. split; [lia|]. split; [reflexivity|lia].
Qed.
Lemma sized_opt : forall k p, (forall e, H e -> k e = Ok (if p : bool then 1 else 0)) ->
  sized H ws (len_n_varints k) (WOpt p).
Proof.
  intros k p K e HE. unfold len_n_varints. rewrite K by auto. split; [|left; reflexivity].
  intros seen s A B. cbn [bind]. rewrite n_varints_size by auto. destruct p; cbn [width_size].
  - split; [reflexivity|]. intros m E. assert (R := vis_size_one s m B E). cbn [size_ok cap]. lia.
  - rewrite vis_size_none. split; [reflexivity|]. intros m [= <-]. cbn [size_ok cap]. pose proof (blen_pos s). lia.
Qed.
Lemma sized_varintsof : forall f, width_at f ws = Some WVarint ->
  sized H ws (len_n_varints (fun e => l <- bytes_of (e f) ;; varint l)) (WVarintsOf 1 f).
Proof.
  intros f W e HE. unfold len_n_varints. split.
  - intros seen s A B. destruct (agrees_at e ws seen f _ A W) as (E & SO & BB).
    rewrite E. cbn [shown bytes_of bind width_size size_ok] in *.
    destruct (varint_read _ BB) as [V R]; [apply nonempty_len; lia|lia|]. rewrite V. cbn [bind].
    replace (1 * vi_read (bytes_at f seen)) with (vi_read (bytes_at f seen)) by lia.
    split; [now apply n_varints_size|]. intros m ES. assert (RB := vis_size_bound _ _ _ B ES). cbn [cap]. lia.
  - intros HF. left. destruct (half_at e ws f _ HF W) as [(l & E & SO & BB)|E]; rewrite E; [|reflexivity].
    cbn [shown bytes_of bind size_ok] in *.
    destruct (varint_read _ BB) as [V R]; [apply nonempty_len; lia|lia|]. rewrite V. reflexivity.
Qed.
Lemma sized_data : forall f p, width_at f ws = Some (WOpt p) ->
  sized H ws (fun e r => l <- bytes_of (e f) ;; match l with [] => rmap blen r | _ => varint l end) (WDataOf f).
Proof.
  intros f p W e HE. split.
  - intros seen s A B. destruct (agrees_at e ws seen f _ A W) as (E & SO & BB).
    rewrite E. cbn [shown bytes_of bind width_size size_ok] in *.
    destruct (bytes_at f seen) as [|x l] eqn:Q.
    + split; [reflexivity|]. intros n [= <-]. cbn [cap]. pose proof (blen_pos s). lia.
    + destruct (varint_read _ BB) as [V R]; [discriminate|lia|]. rewrite V. split; [reflexivity|]. intros n [= <-].
      cbn [cap]. lia.
  - intros HF. destruct (half_at e ws f _ HF W) as [(l & E & SO & BB)|E]; rewrite E; [|left; reflexivity].
    cbn [shown bytes_of bind size_ok] in *. destruct l as [|x l]; [left; reflexivity|].
    destruct (varint_read _ BB) as [V R]; [discriminate|lia|]. right. exists (vi_read (x :: l)). cbn [cap]. split; [lia|exact V].
Qed.
End Sized.

(** ** Fields against their wire format *)

Definition impl_field (H : env -> Prop) (ws : wire) (f : field) (nw : string * width) : Prop :=
  f_name f = fst nw /\
  match snd nw with
  | WByte => f_ty f = TPrim (u 8) /\ f_len f = None
  | w => f_ty f = bytes_ty /\ exists le, f_len f = Some le /\ sized H ws le w
  end.
Fixpoint impl (H : env -> Prop) (ws : wire) (mid : schema) (w : wire) : Prop :=
  match mid, w with
  | [], [] => True
  | f :: r, nw :: t => impl_field H ws f nw /\ impl H (ws ++ [nw]) r t
  | _, _ => False
  end.
Definition caps (w : wire) : Z := fold_right (fun nw a => cap (snd nw) + a) 0 w.

(** ** Positions *)

Lemma pos_fails_app : forall G b q r bit acc e, pos_fails G b q bit acc e -> pos_fails G b (q ++ r) bit acc e.
Proof.
  intros G b q r. induction q as [|f q IH]; intros bit acc e P; cbn [pos_fails app] in *; [easy|].
  destruct (f_len f); auto. destruct P as [P|(n & N & A & L & P)]; [now left|right]. exists n. auto.
Qed.
Lemma pos_fails_at : forall G b f le post e pos, f_len f = Some le ->
  le G (slice_from b (pos / 8)) = Panic e -> pos < 2 ^ 66 ->
  forall pre bit acc, Forall (fun g => 0 <= bit_width (f_ty g)) pre -> 0 <= bit ->
  pos_after G b pre bit acc pos -> pos_fails G b (pre ++ f :: post) bit acc e.
Proof.
  intros G b f le post e pos FL LE U pre. induction pre as [|g pre IH]; intros bit acc F B P; cbn [app pos_fails pos_after] in *.
  - rewrite FL. left. now replace (bit / 8 + acc) with (pos / 8) by lia.
  - inversion F; subst. destruct (f_len g) as [le'|]; [|apply IH; auto; lia].
    destruct P as (n & N & L & P). right. exists n. assert (X := pos_lower _ _ _ _ _ _ H2 P).
    repeat split; auto; try lia. apply IH; auto; lia.
Qed.

(** A byte read as an integer field. *)
Lemma byte_bits : forall b a, bytes_ok b -> (a < List.length b)%nat ->
  Z_of_bits (field_bits b (8 * a) 8) = be_val (firstn 1 (skipn a b)).
Proof.
  intros b a B L. unfold field_bits. rewrite <- bits_skipn. change 8%nat with (8 * 1)%nat. rewrite <- bits_firstn.
  destruct (skipn a b) as [|x r] eqn:E.
  { assert (Q := skipn_length a b). rewrite E in Q. cbn in Q. lia. }
  cbn [firstn]. assert (BX : byte_ok x).
  { assert (Q := bytes_skipn a b B). rewrite E in Q. now inversion Q. }
  unfold be_val. cbn [fold_left]. replace (256 * 0 + x) with x by lia.
  cbn [bits_of flat_map]. rewrite app_nil_r. unfold byte_ok in BX.
  transitivity (x mod 2 ^ Z.of_nat 8); [|change (2 ^ Z.of_nat 8) with 256; lia].
  apply (Z_of_bits_of_Z 8 x).
Qed.

Section Walk.
Variable c : cfg.
Variable H : env -> Prop.
Variable fs : schema.
Variable b : buf.
Hypothesis S : scoped [] fs.
Hypothesis D : dgram b.
Let G : env := fun n => get c fs n b.
Hypothesis HG : H G.

Let BO : buf_ok b.
Proof. destruct D as [B L]. split; [exact B|lia]. Qed.

(** [pre] ends at byte [p]. *)
Definition ends (pre : schema) (p : Z) : Prop := pos_after G b pre 0 0 (8 * p).

Lemma widths_pre : forall pre post, fs = pre ++ post -> Forall (fun g => 0 <= bit_width (f_ty g)) pre.
Proof.
  intros pre post E. assert (FW := scoped_widths _ _ S). rewrite E in FW. apply Forall_app in FW.
  destruct FW as [FW _]. eapply Forall_impl; [|exact FW]. intros g Q. now rewrite bit_width_fixed.
Qed.
Lemma slice_at : forall p, 0 <= p -> slice_from b p = if p <=? blen b then Ok (skipn (Z.to_nat p) b) else Panic EIndex.
Proof. intros p P. unfold slice_from. replace (0 <=? p) with true by lia. reflexivity. Qed.

(** One byte field. *)
Lemma step_byte : forall pre f post p, fs = pre ++ f :: post -> f_ty f = TPrim (u 8) -> f_len f = None ->
  ends pre p -> 0 <= p < 2 ^ 63 - 1 -> header_bits pre mod 8 = 0 ->
  ends (pre ++ [f]) (p + 1) /\
  G (f_name f) = if p <? blen b then Ok (VInt (be_val (firstn 1 (skipn (Z.to_nat p) b)))) else Panic EIndex.
Proof.
  intros pre f post p E T FL P R HB. unfold ends in *. split.
  - assert (Q := pos_step_fixed G b pre f _ P FL). rewrite T in Q. cbn [bit_width u p_size] in Q.
    now replace (8 * (p + 1)) with (8 * p + 8) by lia.
  - unfold G. rewrite (api_get_fixed c b fs pre f post (8 * p) S E); auto.
    + rewrite T. cbn [bit_width u p_size]. destruct (p <? blen b) eqn:Q.
      * replace (8 * p + 8 <=? 8 * blen b) with true by lia. do 2 f_equal.
        cbn [dec_fixed]. unfold dec_prim. cbn [p_end u big_endian]. f_equal.
        replace (Z.to_nat (8 * p)) with (8 * Z.to_nat p)%nat by lia. change (Z.to_nat 8) with 8%nat.
        apply byte_bits; [apply D|]. unfold blen in Q. lia.
      * replace (8 * p + 8 <=? 8 * blen b) with false by lia. reflexivity.
    + rewrite T. cbn [fixed_ok]. apply big_place. split; [lia|]. rewrite HB. change (8 mod 8) with 0. lia.
    + rewrite T. cbn. lia.
    + rewrite T. cbn [bit_width u p_size]. lia.
Qed.

(** One byte vector. *)
Lemma step_vec : forall pre f post p le n, fs = pre ++ f :: post -> f_ty f = bytes_ty -> f_len f = Some le ->
  ends pre p -> 0 <= p -> le G (slice_from b p) = Ok n -> 0 <= n -> p + n < 2 ^ 63 ->
  ends (pre ++ [f]) (p + n) /\
  G (f_name f) = (if p <=? blen b then Ok (VBytes (firstn (Z.to_nat n) (skipn (Z.to_nat p) b))) else Panic EIndex) /\
  get_raw c fs (f_name f) b = (if p <=? blen b then Ok (firstn (Z.to_nat n) (skipn (Z.to_nat p) b)) else Panic EIndex).
Proof.
  intros pre f post p le n E T FL P P0 LE N U. unfold ends in *.
  assert (DP : 8 * p / 8 = p) by lia.
  split.
  - assert (Q := pos_step G b pre f le _ n P FL). rewrite DP, T in Q. cbn [bit_width bytes_ty] in Q.
    replace (8 * (p + n)) with (8 * p + 0 + 8 * n) by lia. auto.
  - assert (OL : own_len G b (8 * p / 8) f n) by (unfold own_len; rewrite FL, DP; exact LE).
    destruct (api_get_var c b fs pre f post (8 * p) n S E BO P OL N ltac:(rewrite DP; lia)) as (A1 & _ & A3).
    rewrite DP in *. rewrite T in A3. cbn [bytes_ty] in A3. split; [apply A3; reflexivity|exact A1].
Qed.

(** A length attribute that panics, and the fields after it. *)
Lemma step_stuck : forall pre f post p le e, fs = pre ++ f :: post -> f_len f = Some le ->
  ends pre p -> 0 <= p < 2 ^ 63 -> le G (slice_from b p) = Panic e ->
  pos_fails G b (pre ++ [f]) 0 0 e.
Proof.
  intros pre f post p le e E FL P R LE. unfold ends in P.
  apply (pos_fails_at G b f le [] e (8 * p)); auto; try lia.
  - now replace (8 * p / 8) with p by lia.
  - eapply widths_pre; eauto.
Qed.
Lemma stuck_get : forall pre f post e, fs = pre ++ f :: post -> is_vec (f_ty f) = true -> header_bits fs < 2 ^ 60 ->
  pos_fails G b pre 0 0 e -> G (f_name f) = Panic e /\ get_raw c fs (f_name f) b = Panic e.
Proof.
  intros pre f post e E IV HB PF.
  assert (OF := fails_offset c b fs pre (f :: post) e S E HB PF).
  unfold G. apply (get_var_panics c b fs (f_name f) pre f e); auto. eapply field_at_intro; eauto.
Qed.
(** The last field, without length attribute. *)
Lemma step_last : forall pre f p, fs = pre ++ [f] -> f_ty f = bytes_ty -> f_len f = None ->
  ends pre p -> 0 <= p < 2 ^ 63 ->
  G (f_name f) = (if p <=? blen b then Ok (VBytes (skipn (Z.to_nat p) b)) else Panic EIndex) /\
  get_raw c fs (f_name f) b = (if p <=? blen b then Ok (skipn (Z.to_nat p) b) else Panic EIndex).
Proof.
  intros pre f p E T FL P R. unfold ends in *.
  assert (DP : 8 * p / 8 = p) by lia.
  assert (OL : own_len G b (8 * p / 8) f (blen b)) by (unfold own_len; now rewrite FL).
  assert (B0 := blen_pos b).
  destruct (api_get_var c b fs pre f [] (8 * p) (blen b) S E BO P OL B0) as (A1 & _ & A3).
  { rewrite DP. destruct D. lia. }
  rewrite DP, clip_rest in * by lia. rewrite T in A3. cbn [bytes_ty] in A3. split; [apply A3; reflexivity|exact A1].
Qed.

(** What the fields [q] come to when they cannot all be read: a length attribute
    panics, or they end after the buffer, at most [lim] bytes into it. *)
Definition broken (q : schema) (lim : Z) : Prop :=
  pos_fails G b q 0 0 EIndex \/ exists p, ends q p /\ blen b < p <= lim.

Lemma hbits_snoc : forall pre f, header_bits (pre ++ [f]) = header_bits pre + bit_width (f_ty f).
Proof. intros. rewrite header_bits_app. cbn [header_bits]. lia. Qed.
Lemma bytes_width : forall f, f_ty f = bytes_ty -> bit_width (f_ty f) = 0.
Proof. intros f ->. reflexivity. Qed.

Lemma walk_over : forall w mid pre post ws p lim, fs = pre ++ mid ++ post -> impl H ws mid w ->
  ends pre p -> blen b < p -> p + caps w <= lim -> lim < 2 ^ 63 -> Forall (fun nw => 0 <= cap (snd nw)) w ->
  header_bits pre mod 8 = 0 -> half G ws -> broken (pre ++ mid) lim.
Proof.
  induction w as [|[n k] w IH]; intros mid pre post ws p lim E I P O C U FC HB HA;
    destruct mid as [|f mid]; cbn [impl] in I; try easy.
  - rewrite app_nil_r. right. exists p. cbn [caps fold_right] in C. split; [exact P|lia].
  - destruct I as [(N & IF) I]. cbn [fst snd] in *. cbn [caps fold_right snd] in C. fold (caps w) in C.
    inversion FC as [|? ? C0 FC']; subst. cbn [snd] in C0.
    assert (CW : 0 <= caps w).
    { clear -FC'. induction FC' as [|x l Q F IHF]; cbn [caps fold_right]; [lia|]. fold (caps l). lia. }
    assert (B0 := blen_pos b).
    assert (E' : fs = (pre ++ [f]) ++ mid ++ post) by (rewrite <- app_assoc; exact E).
    replace (pre ++ f :: mid) with ((pre ++ [f]) ++ mid) by (now rewrite <- app_assoc).
    assert (OV : forall n, 0 <= n <= cap k -> ends (pre ++ [f]) (p + n) -> header_bits (pre ++ [f]) mod 8 = 0 ->
      half G (ws ++ [(f_name f, k)]) -> broken ((pre ++ [f]) ++ mid) lim).
    { intros m M P' HB' HA'. apply (IH mid (pre ++ [f]) post (ws ++ [(f_name f, k)]) (p + m) lim); auto; lia. }
    assert (HP : G (f_name f) = Panic EIndex -> half G (ws ++ [(f_name f, k)])).
    { intros Q. apply Forall_app. split; [exact HA|]. constructor; [|constructor]. now right. }
    assert (WB : match k with WByte => f_ty f = TPrim (u 8) /\ f_len f = None
       | w => f_ty f = bytes_ty /\ exists le, f_len f = Some le /\ sized H ws le w end) by (destruct k; exact IF).
    destruct (match k with WByte => true | _ => false end) eqn:KB.
    + destruct k; try discriminate. destruct IF as [T FL]. cbn [cap] in C.
      destruct (step_byte pre f _ p E T FL P ltac:(lia) HB) as [P' GV].
      replace (p <? blen b) with false in GV by lia.
      apply (OV 1); auto; [cbn [cap]; lia|]. rewrite hbits_snoc, T. cbn [bit_width u p_size]. lia.
    + assert (IF' : f_ty f = bytes_ty /\ exists le, f_len f = Some le /\ sized H ws le k) by (destruct k; try discriminate; exact IF).
      destruct IF' as (T & le & FL & SZ). destruct (SZ G HG) as [_ SZ2].
      assert (SL : slice_from b p = Panic EIndex).
      { rewrite slice_at by lia. now replace (p <=? blen b) with false by lia. }
      destruct (SZ2 HA) as [LE|(m & M & LE)].
      * left. apply pos_fails_app. apply (step_stuck pre f _ p le EIndex E FL P); [lia|]. now rewrite SL.
      * destruct (step_vec pre f _ p le m E T FL P ltac:(lia) ltac:(now rewrite SL) ltac:(lia) ltac:(lia)) as (P' & GV & _).
        replace (p <=? blen b) with false in GV by lia.
        apply (OV m); auto. rewrite hbits_snoc, bytes_width by auto. now replace (header_bits pre + 0) with (header_bits pre) by lia.
Qed.

Lemma walk : forall w mid pre post ws seen p, fs = pre ++ mid ++ post -> impl H ws mid w ->
  ends pre p -> 0 <= p <= blen b -> caps w < 2 ^ 62 + 2 ^ 60 -> Forall (fun nw => 0 <= cap (snd nw)) w ->
  header_bits pre mod 8 = 0 -> agrees G ws seen ->
  match read_fields w seen (skipn (Z.to_nat p) b) with
  | Some (seen', rest) =>
      agrees G (ws ++ w) seen' /\
      exists p', ends (pre ++ mid) p' /\ p <= p' <= blen b /\ rest = skipn (Z.to_nat p') b
  | None => broken (pre ++ mid) (blen b + caps w)
  end.
Proof.
  assert (DL : blen b < 2 ^ 61) by apply D. assert (DB : bytes_ok b) by apply D.
  induction w as [|[n k] w IH]; intros mid pre post ws seen p E I P R C FC HB A;
    destruct mid as [|f mid]; cbn [impl] in I; try easy.
  - cbn [read_fields]. rewrite !app_nil_r. split; [exact A|]. exists p. repeat split; auto; lia.
  - destruct I as [(N & IF) I]. cbn [fst snd] in *. cbn [caps fold_right snd] in C. fold (caps w) in C.
    inversion FC as [|? ? C0 FC']; subst. cbn [snd] in C0.
    assert (CW : 0 <= caps w).
    { clear -FC'. induction FC' as [|x l Q F IHF]; cbn [caps fold_right]; [lia|]. fold (caps l). lia. }
    assert (B0 := blen_pos b).
    assert (E' : fs = (pre ++ [f]) ++ mid ++ post) by (rewrite <- app_assoc; exact E).
    replace (pre ++ f :: mid) with ((pre ++ [f]) ++ mid) by (now rewrite <- app_assoc).
    set (s := skipn (Z.to_nat p) b) in *.
    assert (BS : bytes_ok s) by (apply bytes_skipn; auto).
    assert (LS : blen s = blen b - p) by (unfold s, blen in *; rewrite skipn_length; lia).
    replace (caps ((f_name f, k) :: w)) with (cap k + caps w) by reflexivity.
    replace (ws ++ (f_name f, k) :: w) with ((ws ++ [(f_name f, k)]) ++ w) by (now rewrite <- app_assoc).
    assert (GO : forall m, 0 <= m <= blen s -> size_ok k m -> ends (pre ++ [f]) (p + m) ->
      header_bits (pre ++ [f]) mod 8 = 0 ->
      G (f_name f) = Ok (shown k (firstn (Z.to_nat m) s)) ->
      match read_fields w (seen ++ [(f_name f, firstn (Z.to_nat m) s)]) (skipn (Z.to_nat m) s) with
      | Some (seen', rest) =>
          agrees G ((ws ++ [(f_name f, k)]) ++ w) seen' /\
          exists p', ends ((pre ++ [f]) ++ mid) p' /\ p <= p' <= blen b /\ rest = skipn (Z.to_nat p') b
      | None => broken ((pre ++ [f]) ++ mid) (blen b + (cap k + caps w))
      end).
    { intros m M SO P' HB' GV.
      assert (LF : blen (firstn (Z.to_nat m) s) = m) by (unfold blen in *; rewrite firstn_length; lia).
      assert (A' : agrees G (ws ++ [(f_name f, k)]) (seen ++ [(f_name f, firstn (Z.to_nat m) s)])).
      { apply Forall2_app; [exact A|]. constructor; [|constructor]. cbn [fst snd]. rewrite LF.
        repeat split; auto using bytes_firstn. }
      assert (Q := IH mid (pre ++ [f]) post (ws ++ [(f_name f, k)]) _ (p + m) E' I P' ltac:(lia) ltac:(lia) FC' HB' A').
      unfold s. rewrite skipn_skipn'. replace (Z.to_nat p + Z.to_nat m)%nat with (Z.to_nat (p + m)) by lia. fold s.
      destruct (read_fields w _ _) as [[seen' rest]|].
      - destruct Q as (Q1 & p' & Q2 & Q3 & Q4). split; [exact Q1|]. exists p'. repeat split; auto; lia.
      - destruct Q as [Q|(p' & Q1 & Q2)]; [now left|]. right. exists p'. split; [exact Q1|lia]. }
    assert (OV : forall m, blen s < m <= cap k -> ends (pre ++ [f]) (p + m) -> header_bits (pre ++ [f]) mod 8 = 0 ->
      half G (ws ++ [(f_name f, k)]) -> broken ((pre ++ [f]) ++ mid) (blen b + (cap k + caps w))).
    { intros m M P' HB' HA'. apply (walk_over w mid (pre ++ [f]) post (ws ++ [(f_name f, k)]) (p + m)); auto; lia. }
    assert (HA : half G ws) by (eapply agrees_half; exact A).
    cbn [read_fields]. fold s.
    destruct (match k with WByte => true | _ => false end) eqn:KB.
    + destruct k; try discriminate. destruct IF as [T FL]. cbn [width_size].
      destruct (step_byte pre f _ p E T FL P ltac:(lia) HB) as [P' GV]. fold s in GV.
      assert (HB' : header_bits (pre ++ [f]) mod 8 = 0).
      { rewrite hbits_snoc, T. cbn [bit_width u p_size]. lia. }
      destruct (1 <=? blen s) eqn:Q.
      * replace (p <? blen b) with true in GV by lia. apply GO; auto; [lia|reflexivity].
      * replace (p <? blen b) with false in GV by lia. apply (OV 1); auto; [cbn [cap]; lia|].
        apply Forall_app. split; [exact HA|]. constructor; [|constructor]. now right.
    + assert (IF' : f_ty f = bytes_ty /\ exists le, f_len f = Some le /\ sized H ws le k) by (destruct k; try discriminate; exact IF).
      destruct IF' as (T & le & FL & SZ). destruct (SZ G HG) as [SZ1 _]. clear SZ IF.
      assert (SL : slice_from b p = Ok s).
      { rewrite slice_at by lia. now replace (p <=? blen b) with true by lia. }
      destruct (SZ1 seen s A BS) as [LE SB].
      assert (HB' : header_bits (pre ++ [f]) mod 8 = 0).
      { rewrite hbits_snoc, bytes_width by auto. now replace (header_bits pre + 0) with (header_bits pre) by lia. }
      destruct (width_size k seen s) as [m|] eqn:WS.
      * destruct (SB m eq_refl) as (M0 & SO & MB).
        assert (MC : m <= blen s \/ m <= cap k) by tauto.
        destruct (step_vec pre f _ p le m E T FL P ltac:(lia) ltac:(now rewrite SL) M0 ltac:(lia)) as (P' & GV & _).
        replace (p <=? blen b) with true in GV by lia. fold s in GV.
        assert (SH : forall l, shown k l = VBytes l) by (intros l; destruct k; try discriminate; reflexivity).
        destruct (m <=? blen s) eqn:Q.
        -- apply GO; auto; [lia|]. now rewrite SH.
        -- apply (OV m); auto; [lia|]. apply Forall_app. split; [exact HA|]. constructor; [|constructor].
           left. exists (firstn (Z.to_nat m) s). cbn [fst snd]. rewrite SH. split; [exact GV|].
           split; [|apply bytes_firstn; auto].
           assert (LF : blen (firstn (Z.to_nat m) s) = blen s) by (unfold blen in *; rewrite firstn_length; lia).
           rewrite LF. assert (S0 := blen_pos s).
           destruct MB as [MB|[[MB NE]|[MB Z0]]]; [lia| |].
           ++ assert (1 <= blen s) by (destruct s; [easy|]; rewrite blen_cons; pose proof (blen_pos s); lia).
              destruct k; try discriminate; cbn [size_ok cap] in *; try lia; auto.
           ++ destruct k; try discriminate; cbn [size_ok cap] in *; try lia; auto.
      * left. apply pos_fails_app. apply (step_stuck pre f _ p le EIndex E FL P); [lia|]. now rewrite SL.
Qed.

End Walk.
