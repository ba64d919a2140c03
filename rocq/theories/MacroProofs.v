(** Facts about the evaluator of MacroEval.v; comparing tokens. *)
From Coq Require Import String Ascii ZArith List Bool Lia.
From Verif Require Import Base DeriveUtil DeriveOps DeriveParse RustLex RustSyntax RustAst EmitText EmitGen EmitStable MacroEval.
Import ListNotations.
Open Scope string_scope.
Open Scope Z_scope.

(** ** Comparing *)

Fixpoint tree_eqb (a b : ttree) {struct a} : bool :=
  match a, b with
  | TIdent x, TIdent y | TPunct x, TPunct y => String.eqb x y
  | TLit i x, TLit j y => (Bool.eqb i j && String.eqb x y)%bool
  | TGroup d l, TGroup e r =>
      (String.eqb d e &&
       (fix go (l r : list ttree) : bool :=
          match l, r with
          | [], [] => true
          | x :: l', y :: r' => (tree_eqb x y && go l' r')%bool
          | _, _ => false
          end) l r)%bool
  | _, _ => false
  end.
Fixpoint trees_eqb (l r : list ttree) : bool :=
  match l, r with
  | [], [] => true
  | x :: l', y :: r' => (tree_eqb x y && trees_eqb l' r')%bool
  | _, _ => false
  end.
Lemma tree_eqb_ok : forall a b, tree_eqb a b = true -> a = b.
Proof.
  fix IH 1. intros [s | s | i s | d l] [t | t | j t | e r] H; cbn [tree_eqb] in H; try discriminate.
  - apply String.eqb_eq in H. now subst.
  - apply String.eqb_eq in H. now subst.
  - apply andb_prop in H. destruct H as [A B]. apply Bool.eqb_prop in A. apply String.eqb_eq in B. now subst.
  - apply andb_prop in H. destruct H as [A B]. apply String.eqb_eq in A. subst e. f_equal.
    revert r B. induction l as [| x l IL]; intros [| y r] B; try discriminate; [reflexivity |].
    apply andb_prop in B. destruct B as [B C]. f_equal; [now apply IH | now apply IL].
Qed.
Lemma trees_eqb_ok : forall l r, trees_eqb l r = true -> l = r.
Proof.
  induction l as [| x l IL]; intros [| y r] B; try discriminate; [reflexivity |].
  cbn [trees_eqb] in B. apply andb_prop in B. destruct B as [B C]. f_equal; [now apply tree_eqb_ok | now apply IL].
Qed.

(** ** A run that is not stuck is the same when [operations] is defined more often *)

Definition below (a b : gout) : Prop := a = Stuck \/ a = b.
Lemma below_refl : forall a, below a a. Proof. right. reflexivity. Qed.
Lemma stuck_below : forall a, below Stuck a. Proof. left. reflexivity. Qed.
Lemma andthen_below : forall a b j k, below a b -> (forall v s, below (j v s) (k v s)) -> below (andthen a j) (andthen b k).
Proof.
  intros a b j k [-> | ->] H; [left; reflexivity |]. destruct b; [apply H | right; reflexivity | left; reflexivity].
Qed.
Lemma leave_below : forall s a b, below a b -> below (leave s a) (leave s b).
Proof. intros s a b [-> | ->]; [left; reflexivity | right; reflexivity]. Qed.

Section Pieces.
Variables f g : xp -> genv -> gout.
Hypothesis H : forall e s, below (f e s) (g e s).
Lemma list_below : forall l s j k, (forall vs s, below (j vs s) (k vs s)) -> below (list_of f l s j) (list_of g l s k).
Proof.
  induction l as [| e l IH]; intros s j k J; cbn [list_of]; [apply J |]. apply andthen_below; [apply H |]. intros v s'. apply IH. intros vs s2. apply J.
Qed.
Lemma fold_below : forall x y b s l acc, below (folded f x y b s l acc) (folded g x y b s l acc).
Proof.
  induction l as [| v l IH]; intros acc; cbn [folded]; [apply below_refl |]. destruct (H b ((y, v) :: (x, acc) :: s)) as [E | E]; rewrite E; [apply stuck_below |].
  destruct (g b _); [apply IH | apply stuck_below | apply stuck_below].
Qed.
Lemma arms_below : forall v s l, below (arms_of f v s l) (arms_of g v s l).
Proof.
  induction l as [| [[p [c |]] b] l IH]; cbn [arms_of]; [apply stuck_below | apply stuck_below |].
  destruct (gmatch p v); [apply leave_below, H | apply IH].
Qed.
Lemma each_below : forall p b l s, below (each f p b l s) (each g p b l s).
Proof.
  induction l as [| v l IH]; intros s; cbn [each]; [apply below_refl |]. destruct (gmatch p v); [| apply stuck_below].
  apply andthen_below; [apply leave_below, H | intros; apply IH].
Qed.
Lemma block_below : forall last l s, below (block_of f last l s) (block_of g last l s).
Proof.
  intros last. induction l as [| x l IH]; intros s; cbn [block_of]; [destruct last; [apply H | apply below_refl] |].
  destruct x as [p t e | [o |] [] e | e | p e b | c b]; try apply stuck_below; (apply andthen_below; [apply H |]); intros v s'; try apply IH.
  - destruct (gmatch p v); [apply IH | apply stuck_below].
  - destruct v; try apply stuck_below. apply andthen_below; [apply each_below | intros; apply IH].
Qed.
End Pieces.

Definition covers (p r : Z -> Z -> endian -> option (option (list getop))) : Prop :=
  forall b z e, p b z e = None \/ p b z e = r b z e.
Lemma gev_below : forall p r fs q parsed, covers p r -> forall n e s, below (gev p fs q parsed n e s) (gev r fs q parsed n e s).
Proof.
  intros p r fs q parsed C. induction n as [| n IH]; intros e s; [apply stuck_below |].
  assert (CALL : forall f vs s,
    below (match find_func fs f with
           | Some fn => if Nat.eqb (length vs) (length (fu_params fn))
                        then match gev p fs q parsed n (fu_body fn) (combine (map fst (fu_params fn)) vs) with Done v _ | Back v => Done v s | Stuck => Stuck end
                        else Stuck
           | None => Stuck end)
          (match find_func fs f with
           | Some fn => if Nat.eqb (length vs) (length (fu_params fn))
                        then match gev r fs q parsed n (fu_body fn) (combine (map fst (fu_params fn)) vs) with Done v _ | Back v => Done v s | Stuck => Stuck end
                        else Stuck
           | None => Stuck end)).
  { intros f vs s'. destruct (find_func fs f) as [fn |]; [| apply stuck_below]. destruct (Nat.eqb _ _); [| apply stuck_below].
    destruct (IH (fu_body fn) (combine (map fst (fu_params fn)) vs)) as [E | E]; rewrite E; [apply stuck_below | apply below_refl]. }
  cbn [gev]. destruct e; try apply below_refl; try (apply andthen_below; [apply IH | intros v s']); try apply below_refl.
  - (* call *)
    apply list_below; [exact IH |]. intros vs s'. destruct (String.eqb f "operations").
    + unfold operated. destruct vs as [| [] [| [] [| e []]]]; try apply stuck_below. destruct (endian_of e); [| apply stuck_below].
      destruct (C z z0 e0) as [E | E]; rewrite E; [apply stuck_below | apply below_refl].
    + destruct (outside parsed f vs); [apply below_refl | apply CALL].
  - (* method *)
    destruct (String.eqb m "push").
    + destruct e; try apply stuck_below. destruct l as [| b [| ? ?]]; try apply stuck_below.
      apply andthen_below; [apply IH | intros; apply below_refl].
    + destruct (String.eqb m "fold"); (apply list_below; [exact IH |]); intros vs s'.
      * destruct vs as [| [] [| i [| [] [|]]]]; try apply stuck_below. apply fold_below. exact IH.
      * destruct vs as [| v vs]; [apply stuck_below |]. destruct (std_method v m vs); [apply below_refl | apply CALL].
  - (* index *)
    destruct e2; try apply stuck_below. destruct a; try apply stuck_below. destruct b; try apply stuck_below. destruct incl; [apply stuck_below | apply IH].
  - (* unary *)
    destruct o; try apply IH. apply andthen_below; [apply IH | intros; apply below_refl].
  - (* binary *)
    apply andthen_below; [apply IH | intros; apply below_refl].
  - apply list_below; [exact IH |]. intros; apply below_refl.
  - apply list_below; [exact IH |]. intros; apply below_refl.
  - destruct v; try apply below_refl. destruct b0; [apply IH |]. destruct b; [apply IH | apply below_refl].
  - apply arms_below. exact IH.
  - apply leave_below, block_below. exact IH.
  - destruct (String.eqb m "quasi"); [apply below_refl |]. destruct (String.eqb m "closure"); [apply below_refl |].
    apply list_below; [exact IH |]. intros; apply below_refl.
  - destruct e; [| apply below_refl]. apply andthen_below; [apply IH | intros; apply below_refl].
Qed.
Lemma run_below : forall p r code parsed name v, covers p r -> run_code code p parsed name = Some v -> run_code code r parsed name = Some v.
Proof.
  intros p r [[fs q] |] parsed name v C R; [| discriminate]. unfold run_code in *. destruct (find_func fs "generate_packet") as [f |]; [| discriminate].
  destruct (gev_below p r fs q parsed C 100 (fu_body f) [("s", GUnit); ("name", GS name)]) as [E | E]; rewrite E in R; [discriminate | exact R].
Qed.

(** ** [operations] where it does not depend on how the macro was built *)

Definition plan_safe (bit size : Z) (e : endian) : option (option (list getop)) :=
  if ((0 <=? bit) && (bit <? 8) && stable_at bit size e)%bool
  then match ops_of Checked true bit size e with Some o => Some (Some o) | None => None end
  else None.
Lemma safe_covers : forall m h, covers plan_safe (planned m h).
Proof.
  intros m h b z e. unfold plan_safe. destruct (0 <=? b) eqn:B0; [| now left]. destruct (b <? 8) eqn:B8; [| now left].
  destruct (stable_at b z e) eqn:S; [| now left]. cbn [andb]. pose proof (stable_ops b z e m h S) as Q.
  destruct (ops_of Checked true b z e) as [o |] eqn:O; [| now left]. right. unfold planned, ops_of in *.
  rewrite Z.mod_small in Q by (apply Z.leb_le in B0; apply Z.ltb_lt in B8; lia). destruct (operations m h b z e); now inversion Q.
Qed.
