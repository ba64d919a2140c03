From Coq Require Import String Ascii ZArith List Bool Lia ZifyBool ZifyNat.
From Verif Require Import Base DeriveUtil DeriveOps DeriveGen RustAst RustEval CrateText2 SpecSource2 SpecSource3 EvalTac CrateSrcTac.
From Verif Require BaseFacts QuicSeqProofs RustSem EmitText FmtText MacAddr Names SourceProofs Checksum ProtoMethods.
Import ListNotations.
Open Scope string_scope.
Open Scope Z_scope.
From Verif Require Import CrateSrc1 CrateSrc4 CrateSrc5 CrateSrc6 Protocols Quic.
Lemma nil_snoc : forall A (l : list A) a, RustSem.is_nil (l ++ [a])%list = false.
Proof. now intros A []. Qed.
Lemma last_snoc : forall A (l : list A) a, last_of (l ++ [a])%list = Some a.
Proof. intros. unfold last_of. rewrite app_length. cbn [Datatypes.length]. rewrite Nat.add_sub, nth_error_app2, Nat.sub_diag by lia. reflexivity. Qed.
Lemma set_last_snoc : forall A (l : list A) a b, set_last b (l ++ [a])%list = (l ++ [b])%list.
Proof.
  intros. unfold set_last. rewrite app_length. cbn [Datatypes.length]. rewrite Nat.add_sub.
  induction l; cbn [app Datatypes.length set_nth]; [reflexivity | now rewrite IHl].
Qed.
Lemma read_last : forall v l a w, read_ptr "frames" [AtLast] [("frame", v); ("frames", XL (l ++ [a])); ("packet", w)] = Some a.
Proof. intros. unfold read_ptr. cbn [find_var String.eqb Ascii.eqb Bool.eqb get_at]. now rewrite last_snoc. Qed.
Lemma read_arg : forall y x f l p n w,
  read_ptr "frames" [AtLast; AtArg 1] [("y", y); ("x", x); ("frame", f); ("frames", XL (l ++ [XE "Frame::Padding" [p; n]])); ("packet", w)] = Some n.
Proof. intros. unfold read_ptr. cbn [find_var String.eqb Ascii.eqb Bool.eqb get_at]. now rewrite last_snoc. Qed.
Lemma write_arg : forall y x f l p n m w,
  write_ptr "frames" [AtLast; AtArg 1] m [("y", y); ("x", x); ("frame", f); ("frames", XL (l ++ [XE "Frame::Padding" [p; n]])); ("packet", w)] =
  Some [("y", y); ("x", x); ("frame", f); ("frames", XL (l ++ [XE "Frame::Padding" [p; m]])); ("packet", w)].
Proof.
  intros. unfold write_ptr. cbn [find_var String.eqb Ascii.eqb Bool.eqb put_at]. rewrite last_snoc. cbn [nth_error set_nth]. rewrite set_last_snoc.
  reflexivity.
Qed.
Ltac go_left := etransitivity; [go; reflexivity |].
Ltac arm_first c r d l K n := destruct (new (frame_schema K) l) as [p |]; [| reflexivity];
  match goal with H : forall v s, ?KL v s = _ |- ?KL _ _ = _ => rewrite H end; go_left; stm; rewrite (frame_remaining_call c r d (Frame K p n)); cbn [is_padding]; cbv zeta; settle; stm.
Ltac arm c r d l HG K n := arm_first c r d l K n; rewrite nil_snoc, read_last, HG.
Ltac pushed g q n := destruct g as [[] q n]; unfold frame_v, fr_kind, fr_buf, fr_count, FmtText.frame_struct, cat; cbv beta iota;
   cbn [push_frame is_padding fr_kind andb map]; unfold frame_v, fr_kind, fr_buf, fr_count, FmtText.frame_struct, cat; try (rewrite <- app_assoc; reflexivity).
Definition counted (fuel : nat) (fs : list frame) : Prop := Forall (fun g => 0 <= fr_count g /\ fr_count g + Z.of_nat fuel < 2 ^ 63) fs.
Lemma counted_push : forall fuel fs f, counted (S fuel) fs -> 0 <= fr_count f <= 1 -> Z.of_nat fuel + 1 < 2 ^ 63 -> counted fuel (push_frame fs f).
Proof.
  unfold counted. induction fs as [| g [| h fs] IH]; intros f C F L.
  - constructor; [lia | constructor].
  - inversion C; subst. cbn [push_frame]. destruct (_ && _)%bool; repeat constructor; cbn [fr_count]; try lia.
  - inversion C; subst. cbn [push_frame] in *. constructor; [lia |]. apply IH; assumption.
Qed.
(** Each round adds at most one to a padding count, so that a datagram of less than 2^63 bytes overflows none. *)
Lemma frame_new_src : forall c r d b, blen b < Z.of_nat r -> blen b < 2 ^ 63 - 1 -> frame_new c b <> Panic EDiverge ->
  run_at c r (S d) "quic" "Frame::new" [bytes_v b] = outcome (opt_v frames_v) (frame_new c b).
Proof.
 intros c r d b R BL D. begin. 
 match goal with |- context [lv _ _ _ _ ?cs] => remember cs as CS eqn:HCS end. rewrite lv_block. stm. rewrite bk_while.
 name_while cond HC body HB. 
 assert (G : forall vs gv g k x t, gv = frame_v g -> 0 <= fr_count g < 2 ^ 63 -> body (("frames", XL (vs ++ [gv])) :: ("packet", bytes_v (x :: t)) :: nil) k = 
   match frame_kind_of x with
   | None => FDone XNone
   | Some kd => match new (frame_schema kd) (x :: t) with
     | None => FDone XNone
     | Some p => let f := Frame kd p (if is_padding kd then 1 else 0) in
        wlift (frame_remaining c f) (fun rem => 
          k [("frames", XL (vs ++ map frame_v (push_frame [g] f))); ("packet", bytes_v rem)])
     end
   end).
{ intros vs gv g k x t HG HN. rewrite HB. clear HB HC. unfold bytes_v. remember (x :: t) as l.
 rewrite lv_block. subst CS. rewrite bk_let.
 match goal with |- ev _ _ _ _ _ _ _ _ _ _ _ _ _ _ _ ?k = _ => remember k as KL eqn:HKL end.
 assert (HL : forall v s, KL v s = (ltac:(let t := type of HKL in match t with _ = ?k => exact (k v s) end))) by (intros; now rewrite HKL). clear HKL. cbv beta in HL.
 go_left. replace (idx l 0) with (Ok x) by now subst l. rewrite !wlift_ok. 
 unfold RustSem.zeq, frame_kind_of. 
 destruct (x =? 0); [arm c r d l HG FPadding 1 |]. 
 { pushed g q n.  rewrite read_arg. unfold usize_v. cbv iota. cbn [fr_count] in HN. 
   rewrite BaseFacts.add_u_in by (cbn [RustSem.width]; change usize with 64; lia). rewrite wlift_ok, write_arg. reflexivity. }
 destruct (x =? 1); [arm c r d l HG FPing 0; pushed g q n |].
 destruct (x =? 2); cbn [orb]; [arm c r d l HG FAck 0; pushed g q n |].
 destruct (x =? 3); cbn [orb]; [arm c r d l HG FAck 0; pushed g q n |].
 destruct (x =? 4); [arm c r d l HG FResetStream 0; pushed g q n |].
 destruct (x =? 5); [arm c r d l HG FStopSending 0; pushed g q n |].
 destruct (x =? 6); [arm c r d l HG FCrypto 0; pushed g q n |].
 destruct (x =? 7); [arm c r d l HG FNewToken 0; pushed g q n |].
 unfold andb; destruct (if 8 <=? x then x <=? 15 else false); [arm c r d l HG FStream 0; pushed g q n |].
 destruct (x =? 16); [arm c r d l HG FMaxData 0; pushed g q n |].
 destruct (x =? 17); [arm c r d l HG FMaxStreamData 0; pushed g q n |].
 destruct (x =? 18); cbn [orb]; [arm c r d l HG FMaxStreams 0; pushed g q n |].
 destruct (x =? 19); cbn [orb]; [arm c r d l HG FMaxStreams 0; pushed g q n |].
 destruct (x =? 20); [arm c r d l HG FDataBlocked 0; pushed g q n |].
 destruct (x =? 21); [arm c r d l HG FStreamDataBlocked 0; pushed g q n |].
 destruct (x =? 22); cbn [orb]; [arm c r d l HG FStreamsBlocked 0; pushed g q n |].
 destruct (x =? 23); cbn [orb]; [arm c r d l HG FStreamsBlocked 0; pushed g q n |].
 destruct (x =? 24); [arm c r d l HG FNewConnectionId 0; pushed g q n |].
 destruct (x =? 25); [arm c r d l HG FRetireConnectionId 0; pushed g q n |].
 destruct (x =? 26); [arm c r d l HG FPathChallenge 0; pushed g q n |].
 destruct (x =? 27); [arm c r d l HG FPathResponse 0; pushed g q n |].
 destruct (x =? 28); cbn [orb]; [arm c r d l HG FConnectionClose 0; pushed g q n |].
 destruct (x =? 29); cbn [orb]; [arm c r d l HG FConnectionClose 0; pushed g q n |].
 destruct (x =? 30); [arm c r d l HG FHandshakeDone 0; pushed g q n |].

 reflexivity. }
 assert (G0 : forall k x t, body (("frames", XL []) :: ("packet", bytes_v (x :: t)) :: nil) k = 
   match frame_kind_of x with
   | None => FDone XNone
   | Some kd => match new (frame_schema kd) (x :: t) with
     | None => FDone XNone
     | Some p => let f := Frame kd p (if is_padding kd then 1 else 0) in
        wlift (frame_remaining c f) (fun rem => k [("frames", XL (map frame_v (push_frame [] f))); ("packet", bytes_v rem)])
     end
   end).
{ intros k x t. rewrite HB. clear HB HC. unfold bytes_v. remember (x :: t) as l.
 rewrite lv_block. subst CS. rewrite bk_let.
 match goal with |- ev _ _ _ _ _ _ _ _ _ _ _ _ _ _ _ ?k = _ => remember k as KL eqn:HKL end.
 assert (HL : forall v s, KL v s = (ltac:(let t := type of HKL in match t with _ = ?k => exact (k v s) end))) by (intros; now rewrite HKL). clear HKL. cbv beta in HL.
 go_left. replace (idx l 0) with (Ok x) by now subst l. rewrite !wlift_ok. 
 unfold RustSem.zeq, frame_kind_of. 
 destruct (x =? 0); [arm_first c r d l FPadding 1; reflexivity |]. 
 destruct (x =? 1); [arm_first c r d l FPing 0; reflexivity |].
 destruct (x =? 2); cbn [orb]; [arm_first c r d l FAck 0; reflexivity |].
 destruct (x =? 3); cbn [orb]; [arm_first c r d l FAck 0; reflexivity |].
 destruct (x =? 4); [arm_first c r d l FResetStream 0; reflexivity |].
 destruct (x =? 5); [arm_first c r d l FStopSending 0; reflexivity |].
 destruct (x =? 6); [arm_first c r d l FCrypto 0; reflexivity |].
 destruct (x =? 7); [arm_first c r d l FNewToken 0; reflexivity |].
 unfold andb; destruct (if 8 <=? x then x <=? 15 else false); [arm_first c r d l FStream 0; reflexivity |].
 destruct (x =? 16); [arm_first c r d l FMaxData 0; reflexivity |].
 destruct (x =? 17); [arm_first c r d l FMaxStreamData 0; reflexivity |].
 destruct (x =? 18); cbn [orb]; [arm_first c r d l FMaxStreams 0; reflexivity |].
 destruct (x =? 19); cbn [orb]; [arm_first c r d l FMaxStreams 0; reflexivity |].
 destruct (x =? 20); [arm_first c r d l FDataBlocked 0; reflexivity |].
 destruct (x =? 21); [arm_first c r d l FStreamDataBlocked 0; reflexivity |].
 destruct (x =? 22); cbn [orb]; [arm_first c r d l FStreamsBlocked 0; reflexivity |].
 destruct (x =? 23); cbn [orb]; [arm_first c r d l FStreamsBlocked 0; reflexivity |].
 destruct (x =? 24); [arm_first c r d l FNewConnectionId 0; reflexivity |].
 destruct (x =? 25); [arm_first c r d l FRetireConnectionId 0; reflexivity |].
 destruct (x =? 26); [arm_first c r d l FPathChallenge 0; reflexivity |].
 destruct (x =? 27); [arm_first c r d l FPathResponse 0; reflexivity |].
 destruct (x =? 28); cbn [orb]; [arm_first c r d l FConnectionClose 0; reflexivity |].
 destruct (x =? 29); cbn [orb]; [arm_first c r d l FConnectionClose 0; reflexivity |].
 destruct (x =? 30); [arm_first c r d l FHandshakeDone 0; reflexivity |].

 reflexivity. }
 assert (C : forall vs b k, cond [("frames", XL vs); ("packet", bytes_v b)] k = k (negb (RustSem.is_nil b)) [("frames", XL vs); ("packet", bytes_v b)]).
 { intros. rewrite HC. unfold bytes_v. lstep. unfold RustSem.cmp_z. f_equal. destruct b0; [reflexivity |]. unfold blen. cbn [RustSem.is_nil negb Datatypes.length]. apply Z.ltb_lt. lia. }
 assert (W : forall fuel n b fs k, (fuel < n)%nat -> counted fuel fs -> Z.of_nat fuel < 2 ^ 63 - 1 -> frame_loop c fuel b fs <> Panic EDiverge ->
   while_loop cond body n [("frames", frames_v fs); ("packet", bytes_v b)] k =
   match frame_loop c fuel b fs with
   | Ok (Some l) => k [("frames", frames_v l); ("packet", bytes_v [])]
   | Ok None => FDone XNone
   | Panic e => FPan e
   end).
 { induction fuel; intros [| n] b' fs k F N U E; try lia; cbn [while_loop]; unfold frames_v at 1; rewrite C; destruct b' as [| x t]; cbn [RustSem.is_nil negb frame_loop]; try reflexivity.
   { cbn [frame_loop] in E. congruence. }
   cbn [frame_loop] in E. 
   assert (B : forall K, body [("frames", XL (map frame_v fs)); ("packet", bytes_v (x :: t))] K =
     match frame_kind_of x with
     | None => FDone XNone
     | Some kd => match new (frame_schema kd) (x :: t) with
       | None => FDone XNone
       | Some p => let f := Frame kd p (if is_padding kd then 1 else 0) in
          wlift (frame_remaining c f) (fun rem => K [("frames", frames_v (push_frame fs f)); ("packet", bytes_v rem)])
       end
     end).
   { intros K. destruct fs as [| g0 fs0]; [apply G0 |]. destruct (exists_last (l := g0 :: fs0)) as (i & g & I); [discriminate |]. rewrite I in *.
     rewrite map_app. cbn [map]. unfold counted in N. apply Forall_app in N. destruct N as [_ N]. inversion N; subst.
     rewrite (G _ _ g) by (reflexivity || lia). destruct (frame_kind_of x) as [kd |]; [| reflexivity]. destruct (new _ _) as [p |]; [| reflexivity].
     cbv zeta. unfold frames_v. rewrite QuicSeqProofs.push_app, map_app. reflexivity. }
   rewrite B. clear B.
   destruct (frame_kind_of x) as [kd |]; [| reflexivity].
   destruct (new _ _) as [p |]; [| reflexivity]. cbv zeta. destruct (frame_remaining c (Frame kd p (if is_padding kd then 1 else 0))) as [rem | e]; [| reflexivity]. cbn [wlift bind] in *.
   rewrite IHfuel; [reflexivity | lia | | lia | exact E]. apply counted_push; [exact N | cbn [fr_count]; destruct (is_padding kd); lia | lia]. }
 change (XL []) with (frames_v []). change (XA (Some tu8) b) with (bytes_v b). unfold frame_new in *.
 rewrite (W (List.length b)); [| unfold blen in R; lia | constructor | unfold blen in BL; lia | exact D].
 destruct (frame_loop c (Datatypes.length b) b []) as [[l |] | e]; [| reflexivity | reflexivity].
 unfold frames_v. remember (map frame_v l) as vs. etransitivity; [lstep; reflexivity |]. subst vs. reflexivity.
Qed.
