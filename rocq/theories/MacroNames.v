(** When the methods of a packet type have different names: lemmas behind C102. *)
From Coq Require Import String Ascii ZArith List Bool Lia.
From Verif Require Import Base DeriveUtil DeriveOps DeriveParse RustLex EmitText EmitGen MacroEval SpecAny SpecSig MacroSig.
Import ListNotations.
Open Scope string_scope.
Open Scope Z_scope.

Fixpoint lastc (s : string) : option ascii := match s with EmptyString => None | String c EmptyString => Some c | String _ r => lastc r end.
Lemma lastc_app : forall a c s, lastc (a ++ String c s) = lastc (String c s).
Proof. induction a as [| h a IH]; intros c s; [reflexivity |]. cbn [append]. rewrite <- (IH c s). cbn [lastc]. destruct (a ++ String c s) eqn:E; [destruct a; discriminate E | reflexivity]. Qed.
Lemma len_app : forall a b, String.length (a ++ b) = (String.length a + String.length b)%nat.
Proof. induction a as [| h a IH]; intros b; [reflexivity |]. cbn. now rewrite IH. Qed.
Lemma app_same : forall a b s, a ++ s = b ++ s -> a = b.
Proof.
  intros a b s E. assert (L : String.length a = String.length b) by (apply (f_equal String.length) in E; rewrite !len_app in E; lia).
  revert b L E. induction a as [| h a IH]; intros [| k b] L E; try discriminate L; [reflexivity |]. cbn in *. injection E as -> E. injection L as L. now rewrite (IH b L E).
Qed.

Inductive tag := TGet | TRaw | TIter | TRawMut | TSet.
Definition mname (k : string * tag) : string :=
  match snd k with
  | TGet => "get_" ++ fst k
  | TRaw => "get_" ++ fst k ++ "_raw"
  | TIter => "get_" ++ fst k ++ "_iter"
  | TRawMut => "get_" ++ fst k ++ "_raw_mut"
  | TSet => "set_" ++ fst k
  end.
Definition gkeys (p : pfield) : list (string * tag) :=
  map (fun t => (pf_name p, t))
    match pf_ty p with
    | RVector t => app (if pf_payload p then [] else [TRaw]) match t with RMisc _ => [TGet; TIter] | _ => [TGet] end
    | _ => [TGet]
    end.
Definition skeys (p : pfield) : list (string * tag) :=
  map (fun t => (pf_name p, t)) match pf_ty p with RVector _ => app (if pf_payload p then [] else [TRawMut]) [TSet] | _ => [TSet] end.
Lemma gkeys_ok : forall ps, map fst (flat_map getters ps) = map mname (flat_map gkeys ps).
Proof.
  induction ps as [| p ps IH]; [reflexivity |]. cbn [flat_map]. rewrite !map_app, IH. f_equal. unfold getters, gkeys. destruct (pf_ty p) as [| [] |]; destruct (pf_payload p); reflexivity.
Qed.
Lemma skeys_ok : forall ps, map fst (flat_map setters ps) = map mname (flat_map skeys ps).
Proof.
  induction ps as [| p ps IH]; [reflexivity |]. cbn [flat_map]. rewrite !map_app, IH. f_equal. unfold setters, skeys. destruct (pf_ty p) as [| [] |]; destruct (pf_payload p); reflexivity.
Qed.

Lemma nodup_map : forall A B (f : A -> B) l, NoDup l -> (forall x y, In x l -> In y l -> f x = f y -> x = y) -> NoDup (map f l).
Proof.
  intros A B f l N. induction N as [| x l H N IH]; intros I; cbn [map]; [constructor |]. constructor.
  - intros J. apply in_map_iff in J as (y & E & Y). apply H. rewrite (I x y); [exact Y | now left | now right | now symmetry].
  - apply IH. intros y z Y Z. apply I; now right.
Qed.
Lemma nodup_app : forall A (a b : list A), NoDup a -> NoDup b -> (forall x, In x a -> In x b -> False) -> NoDup (a ++ b)%list.
Proof.
  intros A a b N M D. induction N as [| x a H N IH]; [exact M |]. cbn [app]. constructor.
  - intros I. apply in_app_or in I as [I | I]; [now apply H | apply (D x); [now left | exact I]].
  - apply IH. intros y Y. apply D. now right.
Qed.
Lemma nodup_flat : forall (f : pfield -> list (string * tag)) ps, NoDup (map pf_name ps) -> (forall p, NoDup (f p)) -> (forall p k, In k (f p) -> fst k = pf_name p) -> NoDup (flat_map f ps).
Proof.
  intros f ps N F K. induction ps as [| p ps IH]; [constructor |]. cbn [flat_map map] in *. inversion N as [| ? ? H N']; subst. apply nodup_app; [apply F | now apply IH |].
  intros k I J. apply in_flat_map in J as (q & Q & J). apply K in I, J. apply H. rewrite <- I, J. now apply in_map.
Qed.

(** Which keys there are. *)
Lemma key_of : forall ps k, In k (flat_map gkeys ps ++ flat_map skeys ps)%list -> exists p, In p ps /\ pf_name p = fst k /\
  match snd k with
  | TRaw | TRawMut => exists t, pf_ty p = RVector t /\ pf_payload p = false
  | TIter => exists t, pf_ty p = RVector (RMisc t)
  | _ => True
  end.
Proof.
  intros ps k I. apply in_app_or in I as [I | I]; apply in_flat_map in I as (p & P & I); exists p; (split; [exact P |]).
  - unfold gkeys in I. destruct (pf_ty p) as [? ? ? | [? ? ? | ? | ?] | ?] eqn:T; destruct (pf_payload p) eqn:Y; cbn in I;
      repeat (destruct I as [<- | I]; [split; [reflexivity |]; cbn [snd]; try exact I0; eauto |]); try contradiction.
  - unfold skeys in I. destruct (pf_ty p) as [? ? ? | [? ? ? | ? | ?] | ?] eqn:T; destruct (pf_payload p) eqn:Y; cbn in I;
      repeat (destruct I as [<- | I]; [split; [reflexivity |]; cbn [snd]; try exact I0; eauto |]); try contradiction.
Qed.

Lemma names_apart : forall ps, names_differ ps -> NoDup (map fst (common_methods ++ ("populate", "&mut self") :: flat_map getters ps ++ flat_map setters ps)%list).
Proof.
  intros ps [N D]. rewrite map_app. cbn [map]. rewrite map_app, gkeys_ok, skeys_ok, <- map_app.
  assert (W : NoDup (map mname (flat_map gkeys ps ++ flat_map skeys ps)%list)).
  { apply nodup_map.
    - apply nodup_app.
      + apply nodup_flat; [exact N | |]; intros p; unfold gkeys; [| intros k I; apply in_map_iff in I as (t & <- & _); reflexivity].
        destruct (pf_ty p) as [| [] |]; destruct (pf_payload p); apply (NoDup_map_inv snd); cbn; repeat constructor; cbn; intuition discriminate.
      + apply nodup_flat; [exact N | |]; intros p; unfold skeys; [| intros k I; apply in_map_iff in I as (t & <- & _); reflexivity].
        destruct (pf_ty p) as [| [] |]; destruct (pf_payload p); apply (NoDup_map_inv snd); cbn; repeat constructor; cbn; intuition discriminate.
      + intros k I J. apply in_flat_map in I as (p & _ & I), J as (q & _ & J). unfold gkeys, skeys in *. apply in_map_iff in I as (t & <- & I), J as (u & E & J). injection E as _ ->.
        destruct (pf_ty p) as [| [] |]; destruct (pf_payload p); destruct (pf_ty q) as [| [] |]; destruct (pf_payload q); cbn in I, J; intuition (subst; discriminate).
    - intros [a t] [b u] I J E. apply key_of in I as (p & P & PN & PT), J as (q & Q & QN & QT). cbn [fst snd] in *.
      assert (DP := D p q P Q). assert (DQ := D q p Q P). rewrite PN, QN in *.
      destruct t, u; unfold mname in E; cbn [fst snd] in E; try discriminate E;
        repeat match goal with H : exists _, _ |- _ => destruct H as (? & ?) | H : _ /\ _ |- _ => destruct H end;
        cbn [append] in E; injection E as E; try (apply app_same in E); try (now rewrite E); exfalso;
        try (apply (f_equal lastc) in E; rewrite !lastc_app in E; discriminate E).
      all: match goal with
           | R : pf_ty ?q = RVector _, Y : pf_payload ?q = false, K : forall t, pf_ty ?q = RVector t -> _ |- _ => destruct (K _ R Y) as [K1 K2]; first [now apply K1 | now apply K2]
           | R : pf_ty ?q = RVector (RMisc _), K : forall t, pf_ty ?q = RVector (RMisc t) -> _ |- _ => now apply (K _ R)
           end. }
  match goal with |- NoDup (?a ++ ?x :: ?l) => change (a ++ x :: l)%list with (a ++ ([x] ++ l))%list end. rewrite app_assoc. apply nodup_app; [apply distinct_ok; vm_compute; reflexivity | exact W |].
  intros x I J. apply in_map_iff in J as ([n t] & <- & _). cbn in I.
  repeat (destruct I as [I | I]; [destruct t; discriminate I |]). contradiction.
Qed.
Lemma any_names_apart : forall m h base ps, all_bits ps < 2 ^ 64 -> all_fine 0 [] ps -> all_code 0 ps -> names_differ ps ->
  exists before body mbody after, expand m h base ps = Some (inl (before ++ (trees_of "impl<'a>" ++ [TIdent (base ++ "Packet")] ++ trees_of "<'a>" ++ [TGroup "{}" body]) ++
      (trees_of "impl<'a>" ++ [TIdent ("Mutable" ++ base ++ "Packet")] ++ trees_of "<'a>" ++ [TGroup "{}" mbody]) ++ after)%list) /\
    NoDup (map fst (declared body)) /\ NoDup (map fst (declared mbody)).
Proof.
  intros m h base ps B F C D. destruct (any_methods m h base ps B F C) as (before & i & im & after & X & (body & -> & S) & (mbody & -> & T)).
  exists before, body, mbody, after. split; [exact X |]. rewrite (sig_names _ _ S), (sig_names _ _ T). pose proof (names_apart ps D) as N. split; [| exact N].
  rewrite map_app in *. cbn [map] in N. apply NoDup_remove_1 in N. rewrite map_app in N. exact (nodup_left _ _ _ N).
Qed.
