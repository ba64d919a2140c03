(** Running a source text read by RustAst.v on symbolic arguments. *)
From Coq Require Import String Ascii ZArith List Bool Lia ZifyBool ZifyNat.
From Verif Require Import Base DeriveUtil DeriveOps DeriveGen RustAst RustEval CrateText2 SpecSource2.
From Verif Require RustSem EmitText FmtText MacAddr Names Protocols Quic SourceProofs.
Import ListNotations.
Open Scope string_scope.
Open Scope Z_scope.

Definition derive_code : list func := Eval vm_compute in match code_of "derive" with Some l => l | None => [] end.
Lemma derive_code_eq : code_of "derive" = Some derive_code.
Proof. vm_compute. reflexivity. Qed.
Lemma find_derive : forall f, find_fn "derive" f = func_named f derive_code.
Proof. intro. unfold find_fn. now rewrite derive_code_eq. Qed.

Lemma derive_consts : consts_of "derive" = [].
Proof. vm_compute. reflexivity. Qed.

Definition lv c r d mo cs f ret rk l :=
  level (mode_of c mo) (cfg_of c) cs (outside c) (linked c r d mo) sig_of (hint_of f) r ret rk l.
Lemma lv_S : forall c r d mo cs f ret rk l w e s k, lv c r d mo cs f ret rk (S l) w e s k =
  ev (mode_of c mo) (cfg_of c) cs (outside c) (linked c r d mo) sig_of (hint_of f) r ret rk
    (lv c r d mo cs f ret rk l) run_depth w e s k.
Proof. reflexivity. Qed.
Lemma run_at_lv : forall c r d mo cs f args g s, find_fn mo f = Some g -> consts_of mo = cs ->
  bind_params (fu_params g) args = Some s ->
  run_at c r d mo f args =
  lv c r d mo cs f (fu_ret g) (closing (fu_params g) (fu_ret g)) 5 (num_ty (fu_ret g)) (fu_body g) s (closing (fu_params g) (fu_ret g)).
Proof. intros c r d mo cs f args g s R C B. unfold run_at, run_in, run_func, lv. rewrite R, C, B. reflexivity. Qed.
(** The statements of a block, one at a time. *)
Lemma ev_block : forall m g cs x fs sg h r ret rk inner n w ls t s k,
  ev m g cs x fs sg h r ret rk inner (S n) w (YBlock ls t) s k =
  evb m g cs x fs sg h r ret rk inner n w ls t s (fun v s1 => k v (leave s s1)).
Proof. intros. cbn [ev]. reflexivity. Qed.
Lemma evb_exp : forall m g cs x fs sg h r ret rk inner n w e ls t s k,
  evb m g cs x fs sg h r ret rk inner (S n) w (ZExp e :: ls) t s k =
  ev m g cs x fs sg h r ret rk inner n None e s (fun _ s1 => evb m g cs x fs sg h r ret rk inner n w ls t s1 k).
Proof. intros. cbn [evb]. reflexivity. Qed.
Lemma evb_let : forall m g cs x fs sg h r ret rk inner n w p ty e ls t s k,
  evb m g cs x fs sg h r ret rk inner (S n) w (ZLet p ty e :: ls) t s k =
  ev m g cs x fs sg h r ret rk inner n
    (match ty with Some u => num_ty u | None => match p with QVar x => h x | _ => None end end) e s
    (fun v s1 => matches 10 cs s1 p v (fun bs => evb m g cs x fs sg h r ret rk inner n w ls t (extend bs s1) k) FStuck).
Proof. intros. cbn [evb]. reflexivity. Qed.
Lemma evb_nil : forall m g cs x fs sg h r ret rk inner n w e s k,
  evb m g cs x fs sg h r ret rk inner (S n) w [] (Some e) s k = ev m g cs x fs sg h r ret rk inner n w e s k.
Proof. intros. cbn [evb]. reflexivity. Qed.
Definition bk c r d mo cs f ret rk l n w ls t s k :=
  evb (mode_of c mo) (cfg_of c) cs (outside c) (linked c r d mo) sig_of (hint_of f) r ret rk
    (lv c r d mo cs f ret rk l) n w ls t s k.
Lemma lv_block : forall c r d mo cs f ret rk l w ls t s k, lv c r d mo cs f ret rk (S l) w (YBlock ls t) s k =
  bk c r d mo cs f ret rk l 59 w ls t s (fun v s1 => k v (leave s s1)).
Proof. intros. rewrite lv_S. apply (ev_block _ _ _ _ _ _ _ _ _ _ _ 59). Qed.
Lemma bk_exp : forall c r d mo cs f ret rk l n w e ls t s k, bk c r d mo cs f ret rk l (S n) w (ZExp e :: ls) t s k =
  ev (mode_of c mo) (cfg_of c) cs (outside c) (linked c r d mo) sig_of (hint_of f) r ret rk (lv c r d mo cs f ret rk l)
    n None e s (fun _ s1 => bk c r d mo cs f ret rk l n w ls t s1 k).
Proof. intros. apply evb_exp. Qed.
Lemma bk_let : forall c r d mo cs f ret rk l n w p ty e ls t s k, bk c r d mo cs f ret rk l (S n) w (ZLet p ty e :: ls) t s k =
  ev (mode_of c mo) (cfg_of c) cs (outside c) (linked c r d mo) sig_of (hint_of f) r ret rk (lv c r d mo cs f ret rk l)
    n (match ty with Some u => num_ty u | None => match p with QVar x => hint_of f x | _ => None end end) e s
    (fun v s1 => matches 10 cs s1 p v (fun bs => bk c r d mo cs f ret rk l n w ls t (extend bs s1) k) FStuck).
Proof. intros. apply evb_let. Qed.
Lemma bk_nil : forall c r d mo cs f ret rk l n w e s k, bk c r d mo cs f ret rk l (S n) w [] (Some e) s k =
  ev (mode_of c mo) (cfg_of c) cs (outside c) (linked c r d mo) sig_of (hint_of f) r ret rk (lv c r d mo cs f ret rk l)
    n w e s k.
Proof. intros. apply evb_nil. Qed.
Lemma evb_while : forall m g cs x fs sg h r ret rk inner n w e b ls t s k,
  evb m g cs x fs sg h r ret rk inner (S n) w (ZWhile e b :: ls) t s k =
  while_loop (fun s1 k' => inner None e s1 (fun v s2 => match v with XB b => k' b s2 | _ => FStuck end))
    (fun s1 k' => inner None b s1 (fun _ s2 => k' (leave_loop s1 s2))) r s (fun s1 => inner w (YBlock ls t) s1 k).
Proof. intros. cbn [evb]. reflexivity. Qed.
Lemma evb_set : forall m g cs x fs sg h r ret rk inner n w y e ls t s k,
  evb m g cs x fs sg h r ret rk inner (S n) w (ZSet None (YPath y) e :: ls) t s k =
  match find_var y s with
  | None => FStuck
  | Some old => ev m g cs x fs sg h r ret rk inner n (type_of old) e s (fun v s1 =>
      match set_var y v s1 with Some s2 => evb m g cs x fs sg h r ret rk inner n w ls t s2 k | None => FStuck end)
  end.
Proof. intros. cbn [evb]. reflexivity. Qed.
Lemma evb_done : forall m g cs x fs sg h r ret rk inner n w s k,
  evb m g cs x fs sg h r ret rk inner (S n) w [] None s k = k XUnit s.
Proof. intros. cbn [evb]. reflexivity. Qed.
Lemma bk_while : forall c r d mo cs f ret rk l n w e b ls t s k, bk c r d mo cs f ret rk l (S n) w (ZWhile e b :: ls) t s k =
  while_loop (fun s1 k' => lv c r d mo cs f ret rk l None e s1 (fun v s2 => match v with XB b => k' b s2 | _ => FStuck end))
    (fun s1 k' => lv c r d mo cs f ret rk l None b s1 (fun _ s2 => k' (leave_loop s1 s2))) r s
    (fun s1 => lv c r d mo cs f ret rk l w (YBlock ls t) s1 k).
Proof. intros. apply evb_while. Qed.
Lemma bk_set : forall c r d mo cs f ret rk l n w y e ls t s k, bk c r d mo cs f ret rk l (S n) w (ZSet None (YPath y) e :: ls) t s k =
  match find_var y s with
  | None => FStuck
  | Some old => ev (mode_of c mo) (cfg_of c) cs (outside c) (linked c r d mo) sig_of (hint_of f) r ret rk (lv c r d mo cs f ret rk l)
      n (type_of old) e s (fun v s1 =>
      match set_var y v s1 with Some s2 => bk c r d mo cs f ret rk l n w ls t s2 k | None => FStuck end)
  end.
Proof. intros. apply evb_set. Qed.
Lemma bk_done : forall c r d mo cs f ret rk l n w s k, bk c r d mo cs f ret rk l (S n) w [] None s k = k XUnit s.
Proof. intros. apply evb_done. Qed.
Ltac start :=
  lazymatch goal with
  | |- run_at ?c ?r ?d "derive" ?f ?args = _ =>
    let g := eval vm_compute in (func_named f derive_code) in
    lazymatch g with
    | Some ?g =>
      let b := eval cbv -[List.map endian_v getop_v setop_v Z.of_nat Z.to_nat] in (bind_params (fu_params g) args) in
      lazymatch b with
      | Some ?s => rewrite (run_at_lv c r d "derive" [] f args g s (find_derive f) derive_consts eq_refl); cbn [fu_params fu_ret fu_body]
      end
    end
  end.
Ltac go := cbv -[Z.add Z.sub Z.mul skipn firstn add_u sub_u mul_u shl_u shr_u RustSem.div_u RustSem.rem_u idx slice slice_from cast_u Z.land Z.lor Z.lxor
  blen RustSem.zeq RustSem.cmp_z RustSem.not_u for_loop while_loop RustSem.ints_from RustSem.is_nil RustSem.head RustSem.same_list
  usize List.map Z.le Z.lt Z.ltb Z.leb Z.eqb Z.opp Z.abs bytes_ok wlift negb lv bk leave_loop linked c_mode c_macro c_host_le taken as_int as_objs as_ints as_bool as_str
  as_bytes as_list as_pair as_obj as_opt rmap String.append EmitText.dec EmitText.replace char_text slen truncated list_len
  last_of set_last nth_error set_nth List.length List.app numbered zipped pointers rev seq FmtText.debug_list MacAddr.fmt_02x Names.fmt_0nx
  MacAddr.from_str_radix MacAddr.split_colon set_z wrap_i16 sub_i16 read_ptr write_ptr EmitText.newline
  codes copies Z.of_nat Z.to_nat RustSem.width outcome getop_v setop_v
  new payload get_raw get Protocols.int_of Protocols.bytes_of Quic.quic_schema Quic.frame_schema Quic.packet_number].
Ltac step := rewrite lv_S; go.
Ltac lstep := rewrite lv_S; etransitivity; [go; reflexivity |].
Ltac stm := cbv beta iota; first [rewrite bk_exp | rewrite bk_let | rewrite bk_nil | rewrite bk_set | rewrite bk_done]; etransitivity; [go; reflexivity |].
(** Naming what a loop repeats. *)
Ltac name_for body HB :=
  match goal with |- context [for_loop ?S _ _ _] =>
    let E := fresh in remember S as body eqn:E;
    pose proof (fun v s k => f_equal (fun g => g v s k) E) as HB; cbv beta in HB; clear E end.
Ltac name_while cond HC body HB :=
  match goal with |- context [while_loop ?C ?B _ _ _] =>
    let E := fresh in let F := fresh in remember C as cond eqn:E; remember B as body eqn:F;
    pose proof (fun s k => f_equal (fun g => g s k) E) as HC; cbv beta in HC; clear E;
    pose proof (fun s k => f_equal (fun g => g s k) F) as HB; cbv beta in HB; clear F end.

Lemma wlift_ok : forall A (a : A) k, wlift (Ok a) k = k a.
Proof. reflexivity. Qed.
Ltac fit := repeat first
  [ rewrite SourceProofs.add_fits by SourceProofs.fits_tac | rewrite SourceProofs.sub_fits by SourceProofs.fits_tac
  | rewrite SourceProofs.mul_fits by SourceProofs.fits_tac
  | rewrite SourceProofs.cast_fits by SourceProofs.fits_tac | rewrite SourceProofs.shr_fits by SourceProofs.fits_tac
  | rewrite SourceProofs.shl_fits by SourceProofs.fits_tac
  | rewrite wlift_ok ].

(** A called function, once it is known what its text computes. *)
Lemma call_ok : forall A (view : wv -> option A) (inj : A -> wv) c r d mo f args R k,
  (forall x, view (inj x) = Some x) -> find_fn mo f <> None ->
  run_at c r d mo f args = outcome inj R -> taken view (linked c r (S d) mo f args) k = wlift R k.
Proof.
  intros A view inj c r d mo f args R k V F H. cbn [linked]. unfold run_at in H.
  destruct (find_fn mo f); [| congruence]. rewrite H. destruct R; cbn; [now rewrite V | reflexivity].
Qed.
