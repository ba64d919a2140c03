(** From datagrams to frames. *)
From Coq Require Import ZArith List Bool Lia.
From Verif Require Import Base BitSpec DeriveUtil DeriveOps DeriveGen Quic SpecQuic SpecQuicEnd QuicRfcProofs QuicRecoverProofs.
Import ListNotations.
Open Scope Z_scope.

Lemma payload_bound : forall p f, rpayload p = Some f -> blen f <= blen (rpacket_bytes p).
Proof.
  intros p f H. destruct p; cbn [rpayload] in H; inversion H; subst; unfold rpacket_bytes, blen;
    cbn [length]; repeat rewrite app_length; lia.
Qed.
Lemma packet_bound : forall l p, In p l -> blen (rpacket_bytes p) <= blen (rpackets_bytes l).
Proof.
  induction l as [|q r IH]; intros p H; [destruct H|]. unfold rpackets_bytes in *. cbn [flat_map]. unfold blen in *.
  rewrite app_length. destruct H as [->|H]; [lia|]. specialize (IH p H). lia.
Qed.
Lemma delivered : forall c p fs q, carries p fs -> reports c p q -> blen (rpacket_bytes p) < 2 ^ 61 -> delivers c q fs.
Proof.
  intros c p fs q C R B. destruct fs as [l|].
  - destruct C as [E [O N]]. pose proof (payload_bound _ _ E) as Q.
    destruct (frames_recovered c l O N ltac:(lia)) as [F _].
    exists (rencodes l). split; [|exact F]. destruct p; cbn [rpayload] in E; inversion E; subst; apply R.
  - cbn [carries] in C. destruct p; cbn [rpayload] in C; try discriminate; apply R.
Qed.
Theorem datagram_to_frames : forall c l fss, rpackets_ok l -> Forall2 carries l fss -> blen (rpackets_bytes l) < 2 ^ 61 ->
  exists qs, quic_new c (rpackets_bytes l) = Ok (Some qs) /\ Forall2 (delivers c) qs fss.
Proof.
  intros c l fss O F B. destruct (packets_recovered c l O B) as [N R]. exists (rpackets_views l). split; [exact N|].
  assert (S : forall pre m gs, l = pre ++ m -> Forall2 carries m gs -> Forall2 (delivers c) (rpackets_views m) gs).
  { intros pre m. revert pre. induction m as [|p r IH]; intros pre gs E G; inversion G; subst; cbn [rpackets_views]; constructor.
    - eapply delivered; [eassumption|apply (R pre p r eq_refl)|].
      pose proof (packet_bound (pre ++ p :: r) p ltac:(apply in_or_app; right; left; reflexivity)). lia.
    - apply (IH (pre ++ [p])); [rewrite <- app_assoc; reflexivity|assumption]. }
  exact (S [] l fss eq_refl F).
Qed.
