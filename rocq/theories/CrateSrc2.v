From Coq Require Import String Ascii ZArith List Bool Lia ZifyBool ZifyNat.
From Verif Require Import Base DeriveUtil DeriveOps DeriveGen RustAst RustEval CrateText2 SpecSource2 SpecSource3 EvalTac CrateSrcTac.
From Verif Require RustSem EmitText FmtText MacAddr Names SourceProofs Checksum ProtoMethods.
Import ListNotations.
Open Scope string_scope.
Open Scope Z_scope.
From Verif Require Import CrateSrc1.
Import MacAddr.
Lemma mac_new_src : forall c r d x0 x1 x2 x3 x4 x5,
  run_at c r d "mac" "MacAddr::new" (map u8_v [x0; x1; x2; x3; x4; x5]) = FDone (mac_v (mac_new x0 x1 x2 x3 x4 x5)).
Proof. intros. cbn [map]. begin. step. reflexivity. Qed.
Lemma mac_zero_src : forall c r d, run_at c r d "mac" "MacAddr::zero" [] = FDone (mac_v mac_zero).
Proof. intros. begin. step. reflexivity. Qed.
Lemma mac_from_src : forall c r d a, run_at c r d "mac" "MacAddr::from" [bytes_v a] = outcome mac_v (mac_from_array a).
Proof. intros. begin. step. unfold mac_from_array, bind.
  destruct (idx a 0); cbn [wlift outcome]; [| reflexivity].
  destruct (idx a 1); cbn [wlift outcome]; [| reflexivity].
  destruct (idx a 2); cbn [wlift outcome]; [| reflexivity].
  destruct (idx a 3); cbn [wlift outcome]; [| reflexivity].
  destruct (idx a 4); cbn [wlift outcome]; [| reflexivity].
  destruct (idx a 5); reflexivity. Qed.
Lemma mac_from_open : forall c r d a, run_at c r d "mac" "MacAddr::from" [XA None a] = outcome mac_v (mac_from_array a).
Proof. intros. begin. step. unfold mac_from_array, bind.
  destruct (idx a 0); cbn [wlift outcome]; [| reflexivity].
  destruct (idx a 1); cbn [wlift outcome]; [| reflexivity].
  destruct (idx a 2); cbn [wlift outcome]; [| reflexivity].
  destruct (idx a 3); cbn [wlift outcome]; [| reflexivity].
  destruct (idx a 4); cbn [wlift outcome]; [| reflexivity].
  destruct (idx a 5); reflexivity. Qed.
Lemma mac_to_src : forall c r d x, run_at c r d "mac" "EtherAddr::from" [mac_v x] = FDone (bytes_v (mac_to_array x)).
Proof. intros. destruct x. begin. step. reflexivity. Qed.
Lemma mac_local_src : forall c r d x, run_at c r d "mac" "MacAddr::is_local" [mac_v x] = FDone (XB (is_local x)).
Proof. intros. destruct x. begin. step. reflexivity. Qed.
Lemma mac_multicast_src : forall c r d x, run_at c r d "mac" "MacAddr::is_multicast" [mac_v x] = FDone (XB (is_multicast x)).
Proof. intros. destruct x. begin. step. reflexivity. Qed.
Lemma mac_display_src : forall c r d x, run_at c r d "mac" "MacAddr::fmt" [mac_v x] = FDone (XS (mac_display x)).
Proof. intros. destruct x. begin. step. now rewrite sapp_nil. Qed.
Lemma mac_descr_src : forall c r d e, run_at c r d "mac" "ParseMacAddrErr::description" [mac_err_v e] = FDone (XS (mac_err_text e)).
Proof. intros. destruct e; begin; step; reflexivity. Qed.

Lemma u8_ints : forall l, as_ints tu8 (map (XI (Some tu8)) l) = Some l.
Proof. induction l as [| z l IH]; [reflexivity |]. cbn. now rewrite IH. Qed.

Definition macs_v (l : list Z) : wv := XE "MacAddr" (map (XI (Some tu8)) l).
Lemma macs_out : forall R, outcome mac_v R = outcome macs_v (rmap mac_to_array R).
Proof. now intros [[] |]. Qed.
Lemma mac_call : forall c r d f args R k, run_at c r d "mac" f args = outcome mac_v R -> find_fn "mac" f <> None ->
  taken (as_objs "MacAddr" tu8) (linked c r (S d) "mac" f args) k = wlift (rmap mac_to_array R) k.
Proof. idtac.
  intros c r d f args R k H F. apply (call_ok _ _ macs_v); [| exact F | now rewrite H, macs_out].
  intro l. unfold macs_v, as_objs. cbn. apply u8_ints.
Qed.
Lemma mac_broadcast_src : forall c r d, run_at c r (S d) "mac" "MacAddr::broadcast" [] = outcome mac_v mac_broadcast.
Proof. idtac.
  intros. begin. lstep. erewrite mac_call; [| apply mac_from_open | vm_compute; discriminate]. reflexivity.
Qed.
Lemma mac_eq_bool : forall x y, mac_eqb x y = 
  (if mac0 x =? mac0 y then if mac1 x =? mac1 y then if mac2 x =? mac2 y then if mac3 x =? mac3 y then
   if mac4 x =? mac4 y then if mac5 x =? mac5 y then true else false else false else false else false else false else false).
Proof. intros [] []. unfold mac_eqb. cbn [MacAddr.mac0 MacAddr.mac1 MacAddr.mac2 MacAddr.mac3 MacAddr.mac4 MacAddr.mac5].
  repeat (match goal with |- context [?a =? ?b] => destruct (a =? b) end; try reflexivity). Qed.
Lemma mac_eq_src : forall c r d x a, run_at c r (S d) "mac" "MacAddr::eq" [mac_v x; bytes_v a] = outcome XB (mac_eq_array x a).
Proof. idtac.
  intros. destruct x. begin. lstep. erewrite mac_call; [| apply mac_from_src | vm_compute; discriminate].
  unfold mac_eq_array. destruct (mac_from_array a) as [y |]; [| reflexivity].
  cbn [rmap bind wlift outcome mac_to_array map]. now rewrite mac_eq_bool.
Qed.
Lemma mac_is_zero_src : forall c r d x, run_at c r (S d) "mac" "MacAddr::is_zero" [mac_v x] = FDone (XB (is_zero x)).
Proof. idtac.
  intros. destruct x. begin. lstep. erewrite (mac_call _ _ _ _ _ (Ok mac_zero)); [| apply mac_zero_src | vm_compute; discriminate].
  cbn [rmap bind wlift outcome mac_to_array map]. unfold is_zero. now rewrite mac_eq_bool.
Qed.
Lemma mac_is_broadcast_src : forall c r d x, run_at c r (S (S d)) "mac" "MacAddr::is_broadcast" [mac_v x] = outcome XB (is_broadcast x).
Proof. idtac.
  intros. destruct x. begin. lstep. erewrite mac_call; [| apply mac_broadcast_src | vm_compute; discriminate].
  unfold is_broadcast. destruct mac_broadcast as [y |]; [| reflexivity].
  cbn [rmap bind wlift outcome mac_to_array map]. now rewrite mac_eq_bool.
Qed.
Lemma mac_universal_src : forall c r d x, run_at c r (S d) "mac" "MacAddr::is_universal" [mac_v x] = FDone (XB (is_universal x)).
Proof. idtac.
  intros. pose proof (mac_local_src c r d x) as L. destruct x. begin. lstep.
  erewrite (call_ok _ as_bool XB _ _ _ _ _ _ (Ok _)); [| reflexivity | vm_compute; discriminate | exact L]. reflexivity.
Qed.
Lemma mac_unicast_src : forall c r d x, run_at c r (S d) "mac" "MacAddr::is_unicast" [mac_v x] = FDone (XB (is_unicast x)).
Proof. idtac.
  intros. pose proof (mac_multicast_src c r d x) as L. destruct x. begin. lstep.
  erewrite (call_ok _ as_bool XB _ _ _ _ _ _ (Ok _)); [| reflexivity | vm_compute; discriminate | exact L]. reflexivity.
Qed.
Lemma mac_debug_src : forall c r d x, run_at c r (S d) "mac" "MacAddr::debug_fmt" [mac_v x] = FDone (XS (mac_display x)).
Proof. idtac.
  intros. pose proof (mac_display_src c r d x) as L. destruct x. begin. lstep.
  erewrite (call_ok _ as_str XS _ _ _ _ _ _ (Ok _)); [| reflexivity | vm_compute; discriminate | exact L]. reflexivity.
Qed.
Lemma mac_err_src : forall c r d e, run_at c r (S d) "mac" "ParseMacAddrErr::fmt" [mac_err_v e] = FDone (XS (mac_err_text e)).
Proof. idtac.
  intros. pose proof (mac_descr_src c r d e) as L. destruct e; begin; lstep;
  (erewrite (call_ok _ as_str XS _ _ _ _ _ _ (Ok _)); [| reflexivity | vm_compute; discriminate | exact L]; cbn [wlift]; cbn; reflexivity).
Qed.

Lemma mac_from_str_src : forall c r d s, run_at c r d "mac" "MacAddr::from_str" [XS s] = FDone (parsed_v (mac_from_str s)).
Proof.
  intros. begin. lstep. name_for body HB. unfold mac_from_str.
  match goal with |- for_loop _ _ ?e ?k = _ => remember k as K eqn:HK end.
  pose proof (fun x => f_equal (fun g => g x) HK) as HK2. cbv beta in HK2. clear HK.
  generalize (XL (map XS (split_colon s))) as sp. intro sp.
  assert (G : forall l parts n arr, (List.length parts <= 6)%nat -> n = Z.of_nat (List.length parts) ->
    arr = (parts ++ repeat 0 (6 - List.length parts))%list ->
    for_loop body (map XS l) [("i", XI (Some tusize) n); ("splits", sp); ("parts", XA (Some tu8) arr); ("s", XS s)] K =
    FDone (parsed_v (mac_pieces l parts))).
  2: { apply G; [cbn; lia | reflexivity | reflexivity]. }
  induction l as [| t l IH]; intros parts n arr H6 Hn Ha.
  - cbn [map for_loop mac_pieces]. rewrite HK2. lstep.
    repeat (destruct parts as [| ? parts]; [subst n arr; reflexivity | cbn [List.length] in H6; try lia]).
  - cbn [map for_loop mac_pieces]. rewrite HB. lstep. clear HB.
    assert (E : RustSem.cmp_z RustSyntax.OEq n 6 = (List.length parts =? 6)%nat).
    { cbn [RustSem.cmp_z]. subst n. destruct (Nat.eqb_spec (List.length parts) 6); lia. }
    rewrite E. destruct (Nat.eqb_spec (List.length parts) 6) as [L | L]; [reflexivity |].
    destruct (from_str_radix t) as [z |]; [| reflexivity].
    assert (F : RustSem.cmp_z RustSyntax.ONe (slen t) 0 = negb (String.length t =? 0)%nat).
    { cbn [RustSem.cmp_z]. unfold slen. destruct (Nat.eqb_spec (String.length t) 0); cbn [negb]; lia. }
    rewrite F. destruct (negb _); [| reflexivity].
    assert (S : set_z arr n z = Ok ((parts ++ [z]) ++ repeat 0 (6 - List.length (parts ++ [z])))%list).
    { unfold set_z, blen. subst n arr. rewrite app_length, repeat_length.
      replace ((0 <=? _) && (_ <? _))%bool with true by (symmetry; apply andb_true_intro; split; lia).
      rewrite Nat2Z.id, app_length. cbn [List.length].
      replace (6 - List.length parts)%nat with (S (6 - (List.length parts + 1)))%nat by lia.
      cbn [repeat]. generalize (repeat 0 (6 - (List.length parts + 1))) as q. intro q. f_equal.
      clear. induction parts as [| a p IH]; [reflexivity |]. cbn. now rewrite IH. }
    rewrite S, wlift_ok.
    rewrite SourceProofs.add_fits by (cbn; lia). rewrite wlift_ok.
    apply IH; [rewrite app_length; cbn; lia | rewrite app_length; cbn; lia | reflexivity].
Qed.
