(** Running a source text on symbolic arguments. *)
From Coq Require Import String ZArith List Bool Lia ZifyBool ZifyNat.
From Verif Require Import Base DeriveUtil DeriveOps DeriveGen Protocols Quic Checksum MacAddr RustLex RustSyntax RustSem CrateText SpecSource.
Import ListNotations.
Open Scope Z_scope.
Ltac Zify.zify_post_hook ::= Z.to_euclidean_division_equations.

Definition lv c rounds d mod_ ret l :=
  level (c_mode c) crate_const (linked c rounds d mod_) (crate_sig mod_) crate_hint rounds ret l.
Lemma lv_S : forall c r d mo ret l w e s k, lv c r d mo ret (S l) w e s k =
  ev (c_mode c) crate_const (linked c r d mo) (crate_sig mo) crate_hint r ret (lv c r d mo ret l) run_depth w e s k.
Proof. reflexivity. Qed.
Lemma run_text_lv : forall c r d mo t args f s, read_fn t = Some f -> bind_params (fn_params f) args = Some s ->
  run_text c mo (linked c r d mo) r t args =
  lv c r d mo (int_ty (fn_ret f)) 5 (int_ty (fn_ret f)) (fn_body f) s (fun v _ => Done v).
Proof. intros c r d mo t args f s R B. unfold run_text, run_fn, lv. rewrite R, B. cbv zeta. reflexivity. Qed.

Definition claim c r d mo f t args := run_text c mo (linked c r d mo) r t args = returns (crate_fun c mo f args).
Ltac read :=
  lazymatch goal with
  | |- run_text ?c ?mo (linked _ ?r ?d _) _ ?t ?args = _ =>
    let f := eval vm_compute in (read_fn t) in
    lazymatch f with
    | Some ?f =>
      let b := eval vm_compute in (bind_params (fn_params f) args) in
      lazymatch b with
      | Some ?s =>
        let R := fresh "R" in
        assert (R : read_fn t = Some f) by (vm_compute; reflexivity);
        rewrite (run_text_lv c r d mo t args f s R eq_refl); clear R; cbn [fn_params fn_ret fn_body]
      end
    end
  end.
Ltac go := cbv -[Z.add Z.sub Z.mul skipn firstn add_u sub_u mul_u shl_u shr_u div_u rem_u idx slice slice_from cast_u Z.land Z.lor Z.lxor blen zeq cmp_z
  not_u sat_sub for_loop while_loop sum_loop bytes_value split_u ints_from copy_range is_nil head take drop same_list nth_error
  varint_length varint packet_number n_varints ipv4_option_payload_length tcp_option_payload_length
  ipv4_options_length ipv6_extension_length routing_extension_length tcp_options_length ipv4_payload_length
  ipv4_option_length tcp_option_length finalize_checksum checksum sum_be_words ipv4_word_sum ipv6_word_sum
  ipv4_checksum ipv6_checksum usize List.map Z.le Z.lt bytes_ok lift negb lv leave_loop linked c_mode
  take_int take_bool take_bytes take_obj answered answer_of mac_to_array mac_zero mac_broadcast rmap of_mac
  is_zero is_universal is_local is_unicast is_multicast is_broadcast octets_u64 octets_u32 octets_u16 octets_u8
  icmp_checksum ipv4_header_checksum udp_ipv4_checksum udp_ipv6_checksum tcp_ipv4_checksum tcp_ipv6_checksum icmpv6_checksum
  udp_ipv4_checksum_adv udp_ipv6_checksum_adv tcp_ipv4_checksum_adv tcp_ipv6_checksum_adv].
Ltac step := rewrite lv_S; go.
(** The same on the left-hand side only. *)
Ltac lstep := rewrite lv_S; etransitivity; [go; reflexivity |].
Ltac start := unfold claim; read; step; cbn [answered].
(** Naming what a loop repeats. *)
Ltac name_for body HB :=
  match goal with |- context [for_loop ?S _ _ _] =>
    let E := fresh in remember S as body eqn:E;
    pose proof (fun v s k => f_equal (fun g => g v s k) E) as HB; cbv beta in HB; clear E end.
Ltac name_sum body HB :=
  match goal with |- context [sum_loop ?S _ _ _] =>
    let E := fresh in remember S as body eqn:E;
    pose proof (fun v s k => f_equal (fun g => g v s k) E) as HB; cbv beta in HB; clear E end.
Ltac name_while cond HC body HB :=
  match goal with |- context [while_loop ?C ?B _ _ _] =>
    let E := fresh in let F := fresh in remember C as cond eqn:E; remember B as body eqn:F;
    pose proof (fun s k => f_equal (fun g => g s k) E) as HC; cbv beta in HC; clear E;
    pose proof (fun s k => f_equal (fun g => g s k) F) as HB; cbv beta in HB; clear F end.
