(** Facts about the vocabulary of Base.v. *)
From Coq Require Import ZArith List Bool Lia ZifyBool ZifyNat.
From Verif Require Import Base.
Import ListNotations.
Open Scope Z_scope.

Lemma bind_ok : forall A B (x : res A) (f : A -> res B) y,
  bind x f = Ok y -> exists a, x = Ok a /\ f a = Ok y.
Proof. intros A B [a|e] f y H; simpl in H; [eauto | discriminate]. Qed.

Lemma ovf_in : forall m w r, 0 <= r < 2 ^ w -> ovf m w r = Ok r.
Proof.
  intros m w r H. unfold ovf.
  destruct (0 <=? r) eqn:A; destruct (r <? 2 ^ w) eqn:B; simpl; auto; lia.
Qed.

Lemma ovf_checked_any : forall m w r x, ovf Checked w r = Ok x -> ovf m w r = Ok x.
Proof.
  intros m w r x. unfold ovf. destruct (_ && _); auto. discriminate.
Qed.

Lemma ovf_range : forall m w r x, 0 <= w -> ovf m w r = Ok x -> 0 <= x < 2 ^ w.
Proof.
  intros m w r x W. unfold ovf. destruct (_ && _) eqn:E.
  - intros H; injection H as <-. apply andb_true_iff in E. lia.
  - destruct m; [discriminate|]. intros H; injection H as <-.
    apply Z.mod_pos_bound. apply Z.pow_pos_nonneg; lia.
Qed.

Lemma add_u_in : forall m w a b, 0 <= a + b < 2 ^ w -> add_u m w a b = Ok (a + b).
Proof. intros; now apply ovf_in. Qed.
Lemma sub_u_in : forall m w a b, 0 <= a - b < 2 ^ w -> sub_u m w a b = Ok (a - b).
Proof. intros; now apply ovf_in. Qed.
Lemma mul_u_in : forall m w a b, 0 <= a * b < 2 ^ w -> mul_u m w a b = Ok (a * b).
Proof. intros; now apply ovf_in. Qed.

Lemma blen_nonneg : forall b, 0 <= blen b.
Proof. intros; unfold blen; lia. Qed.

Lemma blen_app : forall a b, blen (a ++ b) = blen a + blen b.
Proof. intros; unfold blen; rewrite app_length; lia. Qed.

Lemma blen_firstn : forall n b, (n <= length b)%nat -> blen (firstn n b) = Z.of_nat n.
Proof. intros; unfold blen; rewrite firstn_length; lia. Qed.

Lemma blen_skipn : forall n b, (n <= length b)%nat -> blen (skipn n b) = blen b - Z.of_nat n.
Proof. intros; unfold blen; rewrite skipn_length; lia. Qed.

Lemma idx_ok : forall b i, 0 <= i < blen b -> idx b i = Ok (nth (Z.to_nat i) b 0).
Proof.
  intros b i H. unfold idx.
  destruct (0 <=? i) eqn:A; destruct (i <? blen b) eqn:B; simpl; auto; lia.
Qed.

Lemma idx_err : forall b i, ~ (0 <= i < blen b) -> idx b i = Panic EIndex.
Proof.
  intros b i H. unfold idx.
  destruct (0 <=? i) eqn:A; destruct (i <? blen b) eqn:B; simpl; auto; lia.
Qed.

Lemma slice_ok : forall b lo hi, 0 <= lo <= hi -> hi <= blen b ->
  slice b lo hi = Ok (firstn (Z.to_nat (hi - lo)) (skipn (Z.to_nat lo) b)).
Proof.
  intros b lo hi H1 H2. unfold slice.
  destruct (0 <=? lo) eqn:A; destruct (lo <=? hi) eqn:B; destruct (hi <=? blen b) eqn:C;
    simpl; auto; lia.
Qed.

Lemma slice_err : forall b lo hi, ~ (0 <= lo <= hi /\ hi <= blen b) ->
  slice b lo hi = Panic EIndex.
Proof.
  intros b lo hi H. unfold slice.
  destruct (0 <=? lo) eqn:A; destruct (lo <=? hi) eqn:B; destruct (hi <=? blen b) eqn:C;
    simpl; auto; lia.
Qed.

Lemma slice_inv : forall b lo hi s, slice b lo hi = Ok s ->
  0 <= lo <= hi /\ hi <= blen b /\ s = firstn (Z.to_nat (hi - lo)) (skipn (Z.to_nat lo) b).
Proof.
  intros b lo hi s. unfold slice.
  destruct (0 <=? lo) eqn:A; destruct (lo <=? hi) eqn:B; destruct (hi <=? blen b) eqn:C;
    simpl; intros E; try discriminate. injection E as <-. repeat split; lia.
Qed.

Lemma slice_len : forall b lo hi s, slice b lo hi = Ok s -> blen s = hi - lo.
Proof.
  intros b lo hi s H. apply slice_inv in H. destruct H as (A & B & ->).
  unfold blen in *. rewrite firstn_length, skipn_length. lia.
Qed.

Lemma slice_from_ok : forall b lo, 0 <= lo <= blen b ->
  slice_from b lo = Ok (skipn (Z.to_nat lo) b).
Proof.
  intros b lo H. unfold slice_from.
  destruct (0 <=? lo) eqn:A; destruct (lo <=? blen b) eqn:B; simpl; auto; lia.
Qed.

Lemma slice_from_err : forall b lo, ~ (0 <= lo <= blen b) ->
  slice_from b lo = Panic EIndex.
Proof.
  intros b lo H. unfold slice_from.
  destruct (0 <=? lo) eqn:A; destruct (lo <=? blen b) eqn:B; simpl; auto; lia.
Qed.

Lemma store_ok : forall b i v, 0 <= i < blen b ->
  store b i v = (upd_nat b (Z.to_nat i) v, Ok tt).
Proof.
  intros b i v H. unfold store.
  destruct (0 <=? i) eqn:A; destruct (i <? blen b) eqn:B; simpl; auto; lia.
Qed.

Lemma upd_nat_length : forall A (l : list A) i v, length (upd_nat l i v) = length l.
Proof. induction l; destruct i; simpl; intros; auto. Qed.

Lemma upd_nat_nth : forall A (l : list A) i v j d,
  nth j (upd_nat l i v) d = if (j =? i)%nat && (i <? length l)%nat then v else nth j l d.
Proof.
  induction l; intros.
  - destruct i, j; simpl; rewrite ?andb_false_r; auto.
  - destruct i, j; simpl; auto. rewrite IHl. reflexivity.
Qed.

Lemma store_length : forall b i v, length (fst (store b i v)) = length b.
Proof. intros; unfold store; destruct (_ && _); simpl; auto using upd_nat_length. Qed.

Lemma Forall_nth_Z : forall (P : Z -> Prop) l i, Forall P l -> P 0 -> P (nth i l 0).
Proof.
  intros P l i F Z0. destruct (Nat.lt_ge_cases i (length l)) as [H|H].
  - rewrite Forall_forall in F. apply F. now apply nth_In.
  - now rewrite nth_overflow.
Qed.

Lemma byte_nth : forall b i, bytes_ok b -> byte_ok (nth i b 0).
Proof. intros; apply Forall_nth_Z; auto. unfold byte_ok; lia. Qed.

Lemma Forall_upd : forall A (P : A -> Prop) l i v, Forall P l -> P v -> Forall P (upd_nat l i v).
Proof.
  induction l; destruct i; simpl; intros; auto; inversion H; subst; constructor; auto.
Qed.

Lemma bytes_app : forall a b, bytes_ok (a ++ b) <-> bytes_ok a /\ bytes_ok b.
Proof. intros; unfold bytes_ok; apply Forall_app. Qed.

Lemma Forall_firstn : forall A (P : A -> Prop) n l, Forall P l -> Forall P (firstn n l).
Proof.
  intros A P n l H. rewrite <- (firstn_skipn n l) in H. apply Forall_app in H. tauto.
Qed.
Lemma Forall_skipn : forall A (P : A -> Prop) n l, Forall P l -> Forall P (skipn n l).
Proof.
  intros A P n l H. rewrite <- (firstn_skipn n l) in H. apply Forall_app in H. tauto.
Qed.

Lemma bytes_firstn : forall n b, bytes_ok b -> bytes_ok (firstn n b).
Proof. intros; now apply Forall_firstn. Qed.
Lemma bytes_skipn : forall n b, bytes_ok b -> bytes_ok (skipn n b).
Proof. intros; now apply Forall_skipn. Qed.

Lemma nth_skipn : forall A n (l : list A) i d, nth i (skipn n l) d = nth (n + i) l d.
Proof.
  induction n; intros; simpl; auto. destruct l; simpl; auto. now destruct i.
Qed.

Lemma nth_firstn : forall A n (l : list A) i d, (i < n)%nat -> nth i (firstn n l) d = nth i l d.
Proof.
  induction n; intros; [lia|]. destruct l; simpl; auto. destruct i; simpl; auto.
  apply IHn; lia.
Qed.

Lemma skipn_skipn' : forall A n m (l : list A), skipn n (skipn m l) = skipn (m + n) l.
Proof.
  intros A n m. revert n. induction m; intros; simpl; auto. destruct l; simpl; auto.
  now rewrite skipn_nil.
Qed.

Lemma splice_length : forall b lo bs, (lo + length bs <= length b)%nat ->
  length (splice b lo bs) = length b.
Proof.
  intros. unfold splice. rewrite !app_length, firstn_length, skipn_length. lia.
Qed.

Lemma on_tail_length : forall lo (f : mut) b,
  (forall b, length (fst (f b)) = length b) -> length (fst (on_tail lo f b)) = length b.
Proof.
  intros lo f b H. unfold on_tail. specialize (H (skipn lo b)).
  destruct (f (skipn lo b)) as [t r]; simpl in *.
  rewrite app_length, H, <- app_length, firstn_skipn. auto.
Qed.

Lemma mseq_length : forall (f g : mut) b,
  (forall b, length (fst (f b)) = length b) ->
  (forall b, length (fst (g b)) = length b) ->
  length (fst (mseq f g b)) = length b.
Proof.
  intros f g b F G. unfold mseq. specialize (F b). destruct (f b) as [b1 [u|e]]; simpl in *.
  - rewrite G; auto.
  - auto.
Qed.

Lemma list_eq_nth : forall (A : Type) (l l' : list A) d,
  length l = length l' -> (forall i, (i < length l)%nat -> nth i l d = nth i l' d) -> l = l'.
Proof. intros. eapply nth_ext; eauto. Qed.

Lemma firstn_app_exact : forall A (a b : list A) n, length a = n -> firstn n (a ++ b) = a.
Proof.
  intros A a b n <-. rewrite firstn_app, Nat.sub_diag, firstn_all, firstn_O, app_nil_r. auto.
Qed.

Lemma skipn_app_exact : forall A (a b : list A) n, length a = n -> skipn n (a ++ b) = b.
Proof.
  intros A a b n <-. rewrite skipn_app, Nat.sub_diag, skipn_all. auto.
Qed.
