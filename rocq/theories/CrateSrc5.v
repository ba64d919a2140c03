From Coq Require Import String Ascii ZArith List Bool Lia ZifyBool ZifyNat.
From Verif Require Import Base DeriveUtil DeriveOps DeriveGen RustAst RustEval CrateText2 SpecSource2 SpecSource3 EvalTac CrateSrcTac.
From Verif Require RustSem EmitText FmtText MacAddr Names SourceProofs Checksum ProtoMethods.
Import ListNotations.
Open Scope string_scope.
Open Scope Z_scope.
From Verif Require Import CrateSrc1 CrateSrc4.
From Verif Require Import Protocols Quic.




Lemma zeros4 : forall a b e f, RustSem.same_list [a; b; e; f] (copies 0 4) = forallb (fun x => x =? 0) [a; b; e; f].
Proof. intros. reflexivity. Qed.
Lemma five : forall l : list Z, (blen l <? 5) = false -> exists a b e f g t, l = a :: b :: e :: f :: g :: t.
Proof.
  intros l H. apply Z.ltb_ge in H. do 5 (destruct l as [| ? l]; [exfalso; unfold blen in H; cbn [Datatypes.length] in H; lia |]).
  do 6 eexists. reflexivity.
Qed.
Lemma slice15 : forall a b e f g t, slice (a :: b :: e :: f :: g :: t) 1 5 = Ok [b; e; f; g].
Proof.
  intros. unfold slice. replace (5 <=? blen (a :: b :: e :: f :: g :: t)) with true; [reflexivity |].
  symmetry. apply Z.leb_le. unfold blen. cbn [Datatypes.length]. lia.
Qed.
Lemma long_type_call : forall c r d z k,
  taken (as_obj "LongPacketType" tu8) (linked c r (S d) "quic" "LongPacketType::new" [XI (Some tu8) z]) k = k z.
Proof.
  intros. erewrite (call_ok _ _ (fun z => XE "LongPacketType" [XI (Some tu8) z]) _ _ _ _ _ _ (Ok z));
    [reflexivity | reflexivity | vm_compute; discriminate | begin; lstep; reflexivity].
Qed.
Ltac one c r d l K := destruct (new (quic_schema c K) l) as [p |]; [| reflexivity]; stm;
   rewrite (quic_remaining_call c r d (Quic K p)); settle; stm; stm; stm; reflexivity.
(** Every round takes bytes off the front, so that more rounds than bytes suffice. *)
Lemma quic_new_src : forall c r d b, (blen b < Z.of_nat r) -> quic_new c b <> Panic EDiverge ->
  run_at c r (S d) "quic" "QuicPacket::new" [bytes_v b] = outcome (opt_v quics_v) (quic_new c b).
Proof. intros c r d b R D. begin. match goal with |- context [lv _ _ _ _ ?cs] => remember cs as CS eqn:HCS end. rewrite lv_block. stm. rewrite bk_while.
 name_while cond HC body HB. 
 assert (G : forall vs k x t, body (("packets", XL vs) :: ("packet", bytes_v (x :: t)) :: nil) k =
   let l := x :: t in
   if blen l <? 5 then FDone XNone else
   match quic_classify l with
   | None => FDone XNone
   | Some kd => match new (quic_schema c kd) l with
     | None => FDone XNone
     | Some p => wlift (quic_remaining c (Quic kd p)) (fun rem => k [("packets", XL (vs ++ [quic_v (Quic kd p)])%list); ("packet", bytes_v rem)])
     end
   end).
{ intros. cbv zeta. rewrite HB. clear HB HC. unfold bytes_v. remember (x :: t) as l.
 rewrite lv_block. stm. subst CS. etransitivity; [go; reflexivity|]. cbn [RustSem.cmp_z].
 destruct (blen l <? 5) eqn:L5; [reflexivity |]. stm. replace (idx l 0) with (Ok x) by now subst l. rewrite !wlift_ok. 
 replace (shl_u (c_mode c) (RustSem.width RustSem.U8) 1 7) with (Ok 128) by now destruct (c_mode c).  rewrite !wlift_ok.  stm. 
 replace (idx l 0) with (Ok x) by now subst l. rewrite !wlift_ok. 
 replace (shl_u (c_mode c) (RustSem.width RustSem.U8) 1 6) with (Ok 64) by now destruct (c_mode c).  rewrite !wlift_ok. 
 unfold quic_classify. replace (nth 0 l 0) with x by now subst l. cbn [RustSem.cmp_z].
 destruct (five l L5) as (a1 & a2 & a3 & a4 & a5 & t' & ->). cbn [skipn firstn].
 assert (SH : shr_u (c_mode c) (RustSem.width RustSem.U8) x 4 = Ok (Z.shiftr x 4)) by now destruct (c_mode c).
 assert (IX : idx (a1 :: a2 :: a3 :: a4 :: a5 :: t') 0 = Ok x) by now injection Heql as -> _.
 remember (a1 :: a2 :: a3 :: a4 :: a5 :: t') as l eqn:HL.
 destruct (0 <? Z.land x 64); destruct (0 <? Z.land x 128); cbn [andb negb]; stm; cbn [negb].
 2:{ one c r d l QOneRtt. }
 all: rewrite HL at 1; rewrite slice15, wlift_ok, zeros4; destruct (forallb _ _); [one c r d l QVersionNegotiation |]; rewrite IX, wlift_ok, SH, !wlift_ok, long_type_call; unfold RustSem.zeq.
 all: cbv iota.
 2,3: destruct (_ =? 0), (_ =? 1), (_ =? 2), (_ =? 3); reflexivity.
 all: (destruct (_ =? 0); [one c r d l QInitial |]; destruct (_ =? 1); [one c r d l QZeroRtt |]; destruct (_ =? 2); [one c r d l QHandshake |]; destruct (_ =? 3); [one c r d l QRetry | reflexivity]).
 }
 assert (C : forall vs b k, cond [("packets", XL vs); ("packet", bytes_v b)] k = k (negb (RustSem.is_nil b)) [("packets", XL vs); ("packet", bytes_v b)]).
 { intros. rewrite HC. unfold bytes_v. lstep. reflexivity. }
 assert (W : forall fuel n b ps k, (fuel < n)%nat -> quic_loop c fuel b ps <> Panic EDiverge ->
   while_loop cond body n [("packets", quics_v ps); ("packet", bytes_v b)] k =
   match quic_loop c fuel b ps with
   | Ok (Some l) => k [("packets", quics_v l); ("packet", bytes_v [])]
   | Ok None => FDone XNone
   | Panic e => FPan e
   end).
 { induction fuel; intros [| n] b' ps k F E; try lia; cbn [while_loop]; unfold quics_v at 1; rewrite C; destruct b' as [| x t]; cbn [RustSem.is_nil negb quic_loop]; try reflexivity.
   { cbn [quic_loop] in E. congruence. }
   cbn [quic_loop] in E. 
   rewrite G. cbv zeta.
   destruct (blen (x :: t) <? 5); [reflexivity |]. destruct (quic_classify (x :: t)) as [kd |]; [| reflexivity].
   destruct (new _ _) as [p |]; [| reflexivity]. destruct (quic_remaining c (Quic kd p)) as [rem | e]; [| reflexivity]. cbn [wlift bind] in *.
   replace (map quic_v ps ++ [quic_v (Quic kd p)])%list with (map quic_v (ps ++ [Quic kd p])) by now rewrite map_app.
   change (XL (map quic_v (ps ++ [Quic kd p]))) with (quics_v (ps ++ [Quic kd p])). 
   rewrite IHfuel; [reflexivity | lia | exact E]. }
 change (XL []) with (quics_v []). change (XA (Some tu8) b) with (bytes_v b). unfold quic_new in *. rewrite (W (List.length b)); [| unfold blen in R; lia | exact D].
 destruct (quic_loop c (Datatypes.length b) b []) as [[l |] | e]; [| reflexivity | reflexivity].
 unfold quics_v. remember (map quic_v l) as vs. etransitivity; [lstep; reflexivity |]. subst vs. reflexivity.
Qed.
