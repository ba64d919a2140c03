(** A template depends on the variables in it only. *)
From Coq Require Import String Ascii ZArith List Bool Lia.
From Verif Require Import Base DeriveUtil DeriveOps DeriveParse RustLex EmitText EmitGen.
Import ListNotations.
Open Scope string_scope.
Open Scope Z_scope.

Fixpoint names (t : ttree) : list string :=
  match t with
  | TGroup _ l =>
      (fix go (l : list ttree) (hash : bool) : list string :=
         match l with
         | [] => []
         | t :: r =>
             match t with
             | TIdent x => if hash then x :: go r false else go r false
             | TPunct p => go r (String.eqb p "#")
             | TGroup _ _ => (names t ++ go r false)%list
             | TLit _ _ => go r false
             end
         end) l false
  | _ => []
  end.
Fixpoint lnames (l : list ttree) (hash : bool) : list string :=
  match l with
  | [] => []
  | t :: r =>
      match t with
      | TIdent x => if hash then x :: lnames r false else lnames r false
      | TPunct p => lnames r (String.eqb p "#")
      | TGroup _ _ => (names t ++ lnames r false)%list
      | TLit _ _ => lnames r false
      end
  end.
Lemma names_group : forall d l, names (TGroup d l) = lnames l false.
Proof.
  intros d l. cbn [names]. generalize false at 10 11. induction l as [| t r IH]; intros b; [reflexivity |]. cbn [lnames].
  destruct t as [x | p | i x | e g]; [destruct b; [f_equal |]; apply IH | apply IH | apply IH | f_equal; apply IH].
Qed.
Fixpoint size (t : ttree) : nat :=
  match t with
  | TGroup _ l => S ((fix go (l : list ttree) : nat := match l with [] => O | t :: r => (size t + go r)%nat end) l)
  | _ => 1%nat
  end.
Fixpoint lsize (l : list ttree) : nat := match l with [] => O | t :: r => (size t + lsize r)%nat end.
Lemma size_group : forall d l, size (TGroup d l) = S (lsize l).
Proof. intros d l. cbn [size]. f_equal. Qed.
Lemma size_pos : forall t, (1 <= size t)%nat.
Proof. destruct t; cbn [size]; lia. Qed.

Definition agree (xs : list string) (h k : holes) : Prop := forall x, In x xs -> find_hole x h = find_hole x k.
Lemma agree_app : forall a b h k, agree (a ++ b)%list h k -> agree a h k /\ agree b h k.
Proof. intros a b h k H. split; intros x I; apply H, in_or_app; auto. Qed.
Lemma agree_cons : forall xs x v h k, agree xs h k -> agree xs ((x, v) :: h) ((x, v) :: k).
Proof. intros xs x v h k H y I. cbn [find_hole]. destruct (String.eqb y x); [reflexivity |]. now apply H. Qed.
Lemma lnames_sub : forall r b x, In x (lnames r false) -> In x (lnames r b).
Proof. intros [| [] r] b x H; try exact H. cbn [lnames] in *. destruct b; [now right | exact H]. Qed.

Lemma repeated_ext : forall h k l b, agree (lnames l b) h k -> repeated h l = repeated k l.
Proof.
  intros h k. induction l as [| t r IH]; intros b A; [reflexivity |]. cbn [repeated].
  destruct t as [x | p | i x | d g]; cbn [lnames] in A.
  - apply (IH false). intros y I. apply A. destruct b; [now right | exact I].
  - assert (E : repeated h r = repeated k r) by (apply (IH (String.eqb p "#")); exact A).
    destruct r as [| [x | p' | i x | d g] r']; try exact E. destruct (String.eqb p "#"); [| exact E].
    cbn [lnames] in A. rewrite (A x (or_introl eq_refl)). destruct (find_hole x k) as [[] |]; [exact E | reflexivity | exact E].
  - apply (IH false). exact A.
  - apply agree_app in A. apply (IH false). apply A.
Qed.

Definition gofill (h : holes) (l : list ttree) : list ttree := group_of (fill h (TGroup "" l)).
Lemma fill_group : forall h d l, fill h (TGroup d l) = [TGroup d (gofill h l)].
Proof. reflexivity. Qed.
Definition rounds (h : holes) (g : list ttree) (sep rest : list ttree) : list ttree :=
  match repeated h g with
  | Some (x, it) => (between sep (map (fun v => gofill ((x, HOne v) :: h) g) it) ++ rest)%list
  | None => rest
  end.
Lemma gofill_cons : forall h t r, gofill h (t :: r) =
  match t, r with
  | TPunct p, TIdent x :: r' =>
      match (if String.eqb p "#" then find_hole x h else None) with
      | Some (HOne v) => (v ++ gofill h r')%list
      | _ => t :: gofill h r
      end
  | TPunct p, TGroup d' g :: TPunct a :: r' =>
      if (String.eqb p "#" && String.eqb d' "()")%bool then
        if String.eqb a "*" then rounds h g [] (gofill h r')
        else match r' with
             | TPunct b :: r2 => if String.eqb b "*" then rounds h g [TPunct a] (gofill h r2) else t :: gofill h r
             | _ => t :: gofill h r
             end
      else t :: gofill h r
  | _, _ => (fill h t ++ gofill h r)%list
  end.
Proof. intros h [] [| [] [| [] r]]; reflexivity. Qed.

Lemma gofill_ext : forall n l h k, (lsize l <= n)%nat -> agree (lnames l false) h k -> gofill h l = gofill k l.
Proof.
  induction n as [| n IH]; intros l h k L A.
  { destruct l as [| t r]; [reflexivity |]. cbn [lsize] in L. pose proof (size_pos t). lia. }
  destruct l as [| t r]; [reflexivity |]. cbn [lsize] in L. pose proof (size_pos t) as P.
  assert (R : gofill h r = gofill k r).
  { apply IH; [lia |]. intros x I. apply A. cbn [lnames]. destruct t; try exact I; [now apply lnames_sub |]. apply in_or_app. now right. }
  rewrite !gofill_cons.
  destruct t as [x | p | i x | d g].
  - now rewrite R.
  - destruct r as [| [x | p' | i x | d' g] r']; try (now rewrite R).
    + destruct (String.eqb p "#") eqn:H; [| now rewrite R]. cbn [lnames] in A. rewrite H in A. rewrite (A x (or_introl eq_refl)).
      destruct (find_hole x k) as [[v |] |]; [| now rewrite R | now rewrite R]. f_equal. apply IH; [cbn [lsize size] in L; lia |]. intros y I. apply A. now right.
    + destruct r' as [| [x | a | i x | d g'] r'']; try (now rewrite R).
      destruct (String.eqb p "#" && String.eqb d' "()")%bool; [| now rewrite R].
      assert (RO : forall sep x y, x = y -> rounds h g sep x = rounds k g sep y).
      { intros sep x y ->. unfold rounds. assert (AG : agree (lnames g false) h k).
        { cbn [lnames] in A. apply agree_app in A. destruct A as [A _]. now rewrite names_group in A. }
        rewrite (repeated_ext h k g false AG). destruct (repeated k g) as [[x it] |]; [| reflexivity]. f_equal. f_equal. apply map_ext. intros v.
        apply IH; [| now apply agree_cons]. cbn [lsize] in L. rewrite size_group in L. lia. }
      assert (Q : gofill h r'' = gofill k r'').
      { apply IH; [cbn [lsize] in L; rewrite size_group in L; cbn [size] in L; lia |]. intros y I. apply A. cbn [lnames]. apply in_or_app. right. now apply lnames_sub. }
      destruct (String.eqb a "*"); [now apply RO |]. destruct r'' as [| [x | b | i x | d g'] r2]; try (now rewrite R).
      destruct (String.eqb b "*"); [| now rewrite R]. apply RO.
      apply IH; [cbn [lsize] in L; rewrite size_group in L; cbn [size] in L; lia |]. intros y I. apply A. cbn [lnames]. apply in_or_app. right. now apply lnames_sub.
  - now rewrite R.
  - rewrite !fill_group, R. f_equal. f_equal. f_equal. apply IH; [rewrite size_group in L; lia |]. cbn [lnames] in A. apply agree_app in A. destruct A as [A _]. now rewrite names_group in A.
Qed.
Lemma quote_ext : forall t h k, agree (names (TGroup "{}" t)) h k -> quote t h = quote t k.
Proof. intros t h k A. rewrite names_group in A. exact (gofill_ext (lsize t) t h k (le_n _) A). Qed.
