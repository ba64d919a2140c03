(** Running the texts of the modules of the crate: their functions and constants as read. *)
From Coq Require Import String Ascii ZArith List Bool Lia ZifyBool ZifyNat.
From Verif Require Import Base DeriveUtil DeriveOps DeriveGen RustAst RustEval CrateText2 SpecSource2 EvalTac.
From Verif Require RustSem EmitText FmtText MacAddr Names SourceProofs.
Import ListNotations.
Open Scope string_scope.
Open Scope Z_scope.

Lemma find_in : forall mo code f, code_of mo = Some code -> find_fn mo f = func_named f code.
Proof. intros mo code f H. unfold find_fn. now rewrite H. Qed.

Ltac code_lit mo := let x := eval vm_compute in (match code_of mo with Some l => l | None => [] end) in exact x.
Ltac consts_lit mo := let x := eval vm_compute in (consts_of mo) in exact x.

Definition ethernet_code : list func := ltac:(code_lit "ethernet").
Definition ethernet_consts : env := ltac:(consts_lit "ethernet").
Lemma ethernet_code_eq : code_of "ethernet" = Some ethernet_code. Proof. vm_compute. reflexivity. Qed.
Lemma ethernet_consts_eq : consts_of "ethernet" = ethernet_consts. Proof. vm_compute. reflexivity. Qed.
Definition ip_code : list func := ltac:(code_lit "ip").
Definition ip_consts : env := ltac:(consts_lit "ip").
Lemma ip_code_eq : code_of "ip" = Some ip_code. Proof. vm_compute. reflexivity. Qed.
Lemma ip_consts_eq : consts_of "ip" = ip_consts. Proof. vm_compute. reflexivity. Qed.
Definition arp_code : list func := ltac:(code_lit "arp").
Definition arp_consts : env := ltac:(consts_lit "arp").
Lemma arp_code_eq : code_of "arp" = Some arp_code. Proof. vm_compute. reflexivity. Qed.
Lemma arp_consts_eq : consts_of "arp" = arp_consts. Proof. vm_compute. reflexivity. Qed.
Definition vlan_code : list func := ltac:(code_lit "vlan").
Definition vlan_consts : env := ltac:(consts_lit "vlan").
Lemma vlan_code_eq : code_of "vlan" = Some vlan_code. Proof. vm_compute. reflexivity. Qed.
Lemma vlan_consts_eq : consts_of "vlan" = vlan_consts. Proof. vm_compute. reflexivity. Qed.
Definition ipv4_code : list func := ltac:(code_lit "ipv4").
Definition ipv4_consts : env := ltac:(consts_lit "ipv4").
Lemma ipv4_code_eq : code_of "ipv4" = Some ipv4_code. Proof. vm_compute. reflexivity. Qed.
Lemma ipv4_consts_eq : consts_of "ipv4" = ipv4_consts. Proof. vm_compute. reflexivity. Qed.
Definition tcp_code : list func := ltac:(code_lit "tcp").
Definition tcp_consts : env := ltac:(consts_lit "tcp").
Lemma tcp_code_eq : code_of "tcp" = Some tcp_code. Proof. vm_compute. reflexivity. Qed.
Lemma tcp_consts_eq : consts_of "tcp" = tcp_consts. Proof. vm_compute. reflexivity. Qed.
Definition icmp_code : list func := ltac:(code_lit "icmp").
Definition icmp_consts : env := ltac:(consts_lit "icmp").
Lemma icmp_code_eq : code_of "icmp" = Some icmp_code. Proof. vm_compute. reflexivity. Qed.
Lemma icmp_consts_eq : consts_of "icmp" = icmp_consts. Proof. vm_compute. reflexivity. Qed.
Definition icmpv6_code : list func := ltac:(code_lit "icmpv6").
Definition icmpv6_consts : env := ltac:(consts_lit "icmpv6").
Lemma icmpv6_code_eq : code_of "icmpv6" = Some icmpv6_code. Proof. vm_compute. reflexivity. Qed.
Lemma icmpv6_consts_eq : consts_of "icmpv6" = icmpv6_consts. Proof. vm_compute. reflexivity. Qed.
Definition ndp_code : list func := ltac:(code_lit "ndp").
Definition ndp_consts : env := ltac:(consts_lit "ndp").
Lemma ndp_code_eq : code_of "ndp" = Some ndp_code. Proof. vm_compute. reflexivity. Qed.
Lemma ndp_consts_eq : consts_of "ndp" = ndp_consts. Proof. vm_compute. reflexivity. Qed.
Definition quic_code : list func := ltac:(code_lit "quic").
Definition quic_consts : env := ltac:(consts_lit "quic").
Lemma quic_code_eq : code_of "quic" = Some quic_code. Proof. vm_compute. reflexivity. Qed.
Lemma quic_consts_eq : consts_of "quic" = quic_consts. Proof. vm_compute. reflexivity. Qed.
Definition echo_reply_code : list func := ltac:(code_lit "echo_reply").
Definition echo_reply_consts : env := ltac:(consts_lit "echo_reply").
Lemma echo_reply_code_eq : code_of "echo_reply" = Some echo_reply_code. Proof. vm_compute. reflexivity. Qed.
Lemma echo_reply_consts_eq : consts_of "echo_reply" = echo_reply_consts. Proof. vm_compute. reflexivity. Qed.
Definition echo_request_code : list func := ltac:(code_lit "echo_request").
Definition echo_request_consts : env := ltac:(consts_lit "echo_request").
Lemma echo_request_code_eq : code_of "echo_request" = Some echo_request_code. Proof. vm_compute. reflexivity. Qed.
Lemma echo_request_consts_eq : consts_of "echo_request" = echo_request_consts. Proof. vm_compute. reflexivity. Qed.
Definition mac_code : list func := ltac:(code_lit "mac").
Definition mac_consts : env := ltac:(consts_lit "mac").
Lemma mac_code_eq : code_of "mac" = Some mac_code. Proof. vm_compute. reflexivity. Qed.
Lemma mac_consts_eq : consts_of "mac" = mac_consts. Proof. vm_compute. reflexivity. Qed.

Ltac start_with CE KE :=
  lazymatch goal with
  | |- run_at ?c ?r ?d ?mo ?f ?args = _ =>
    lazymatch type of CE with _ = Some ?code =>
    lazymatch type of KE with _ = ?cs =>
    let g := eval vm_compute in (func_named f code) in
    lazymatch g with
    | Some ?g =>
      let b := eval cbv -[List.map endian_v getop_v setop_v Z.of_nat Z.to_nat] in (bind_params (fu_params g) args) in
      lazymatch b with
      | Some ?s =>
        rewrite (run_at_lv c r d mo cs f args g s (find_in mo code f CE) KE eq_refl); cbn [fu_params fu_ret fu_body]
      end
    end end end
  end.
Ltac begin :=
  lazymatch goal with
  | |- run_at _ _ _ "ethernet" _ _ = _ => start_with ethernet_code_eq ethernet_consts_eq
  | |- run_at _ _ _ "ip" _ _ = _ => start_with ip_code_eq ip_consts_eq
  | |- run_at _ _ _ "arp" _ _ = _ => start_with arp_code_eq arp_consts_eq
  | |- run_at _ _ _ "vlan" _ _ = _ => start_with vlan_code_eq vlan_consts_eq
  | |- run_at _ _ _ "ipv4" _ _ = _ => start_with ipv4_code_eq ipv4_consts_eq
  | |- run_at _ _ _ "tcp" _ _ = _ => start_with tcp_code_eq tcp_consts_eq
  | |- run_at _ _ _ "icmp" _ _ = _ => start_with icmp_code_eq icmp_consts_eq
  | |- run_at _ _ _ "icmpv6" _ _ = _ => start_with icmpv6_code_eq icmpv6_consts_eq
  | |- run_at _ _ _ "ndp" _ _ = _ => start_with ndp_code_eq ndp_consts_eq
  | |- run_at _ _ _ "quic" _ _ = _ => start_with quic_code_eq quic_consts_eq
  | |- run_at _ _ _ "echo_reply" _ _ = _ => start_with echo_reply_code_eq echo_reply_consts_eq
  | |- run_at _ _ _ "echo_request" _ _ = _ => start_with echo_request_code_eq echo_request_consts_eq
  | |- run_at _ _ _ "mac" _ _ = _ => start_with mac_code_eq mac_consts_eq
  end.
