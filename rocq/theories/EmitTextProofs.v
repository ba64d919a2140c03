(** Proofs that the emitted texts are read back as the planned operations. *)
From Coq Require Import String Ascii ZArith NArith List Bool Lia ZifyBool ZifyNat DecimalString.
From Verif Require Import Base BaseFacts BitFacts DeriveUtil DeriveUtilProofs DeriveOps DeriveOpsProofs DeriveParse CoreTypes
  DeriveLEProofs SpecPacket EmitText SpecRust.
Import ListNotations.
Open Scope Z_scope.
Ltac Zify.zify_post_hook ::= Z.to_euclidean_division_equations.

Lemma app_assoc_s : forall a b c : string, ((a ++ b) ++ c = a ++ (b ++ c))%string.
Proof. induction a as [|x a IH]; intros b c; [reflexivity|]. cbn [String.append]. now rewrite IH. Qed.
Lemma app_nil_s : forall a : string, (a ++ "" = a)%string.
Proof. induction a as [|x a IH]; [reflexivity|]. cbn [String.append]. now rewrite IH. Qed.

(** ** Words *)

Fixpoint wordy (s : string) : bool :=
  match s with
  | EmptyString => true
  | String a r => is_word a && wordy r
  end.
Definition edge (s : string) : bool :=
  match s with EmptyString => true | String a _ => negb (is_word a) end.

Lemma tokens_word : forall u w r, wordy u = true -> tokens_from w (u ++ r) = tokens_from (w ++ u) r.
Proof.
  induction u as [|a u IH]; intros w r W.
  - now rewrite app_nil_s.
  - cbn [wordy] in W. apply andb_prop in W. destruct W as [A W]. cbn [String.append tokens_from]. rewrite A.
    rewrite IH by exact W. f_equal. now rewrite app_assoc_s.
Qed.
Lemma tokens_edge : forall w r, w <> ""%string -> edge r = true -> tokens_from w r = word_token w :: tokens r.
Proof.
  intros w r W E. destruct r as [|a r].
  - cbn [tokens_from]. unfold flush, tokens. destruct w; [congruence|reflexivity].
  - cbn [edge] in E. apply negb_true_iff in E. unfold tokens. cbn [tokens_from]. rewrite E.
    unfold flush. destruct w; [congruence|reflexivity].
Qed.

(** A symbolic word and the token it makes. *)
Definition spells (s : string) (t : tok) : Prop := s <> ""%string /\ wordy s = true /\ word_token s = t.
Lemma spelled : forall s t r, spells s t -> edge r = true -> tokens (s ++ r) = t :: tokens r.
Proof.
  intros s t r (N & W & T) E. unfold tokens at 1. rewrite tokens_word by exact W. cbn [String.append].
  rewrite tokens_edge by assumption. now rewrite T.
Qed.

(** Fixed text that ends outside of a word. *)
Fixpoint run (w s : string) : list tok * string :=
  match s with
  | EmptyString => ([], w)
  | String a r =>
      if is_word a then run (w ++ String a "") r
      else let (l, w') := run "" r in (flush w (if is_space a then l else punct a :: l), w')
  end.
Lemma flush_app : forall w a b, flush w (a ++ b) = (flush w a ++ b)%list.
Proof. intros [|x w] a b; reflexivity. Qed.
Lemma run_tokens : forall s w r l w', run w s = (l, w') -> tokens_from w (s ++ r) = (l ++ tokens_from w' r)%list.
Proof.
  induction s as [|a s IH]; intros w r l w' R.
  - injection R as <- <-. reflexivity.
  - cbn [run] in R. cbn [String.append tokens_from]. destruct (is_word a); [now apply IH|].
    destruct (run "" s) as [l0 w0] eqn:Q. injection R as <- <-. rewrite (IH "" r l0 w0 Q)%string. rewrite <- flush_app.
    destruct (is_space a); reflexivity.
Qed.
Lemma fixed : forall s r l, run "" s = (l, ""%string) -> tokens (s ++ r) = (l ++ tokens r)%list.
Proof. intros s r l R. exact (run_tokens s "" r l "" R). Qed.

(** ** Numerals *)

Lemma digit16_hex_val : forall a, digit 16 a = hex_val a.
Proof.
  intros a. unfold digit, hex_val, is_digit, code. rewrite <- (nat_N_Z (nat_of_ascii a)). unfold nat_of_ascii. rewrite N2Nat.id.
  set (n := Z.of_N (N_of_ascii a)). clearbody n.
  destruct ((48 <=? n) && (n <=? 57)) eqn:A; [destruct (_ <? _) eqn:L; [reflexivity|lia]|].
  destruct ((97 <=? n) && (n <=? 102)) eqn:B; [destruct (_ <? _) eqn:L; [reflexivity|lia]|].
  destruct ((65 <=? n) && (n <=? 70)) eqn:C; [destruct (_ <? _) eqn:L; [reflexivity|lia]|reflexivity].
Qed.
Lemma digits16_literal : forall l acc, digits 16 acc (string_of_list_ascii l) = hex_literal_acc l acc.
Proof.
  induction l as [|a l IH]; intros acc; [reflexivity|]. cbn [string_of_list_ascii digits hex_literal_acc].
  rewrite digit16_hex_val. destruct (hex_val a); [apply IH|reflexivity].
Qed.
Lemma hex_digit_word : forall d, is_word (hex_digit d) = true.
Proof.
  intros d. unfold hex_digit.
  assert (S : forallb is_word ["0"; "1"; "2"; "3"; "4"; "5"; "6"; "7"; "8"; "9"; "a"; "b"; "c"; "d"; "e"; "f"]%char = true) by reflexivity.
  rewrite forallb_forall in S.
  destruct (nth_in_or_default (Z.to_nat d) ["0"; "1"; "2"; "3"; "4"; "5"; "6"; "7"; "8"; "9"; "a"; "b"; "c"; "d"; "e"; "f"]%char "0"%char)
    as [I|E]; [now apply S|rewrite E; reflexivity].
Qed.
Lemma hex_wordy : forall n, wordy (hex n) = true.
Proof.
  intros n. unfold hex, radix16.
  assert (L : forall fuel v ret, wordy (string_of_list_ascii ret) = true -> wordy (string_of_list_ascii (radix16_loop fuel v ret)) = true).
  { induction fuel as [|k IH]; intros v ret R; [exact R|]. cbn [radix16_loop]. destruct (0 <? v); [|exact R].
    apply IH. cbn [string_of_list_ascii wordy]. now rewrite hex_digit_word, R. }
  apply L. reflexivity.
Qed.
Lemma hex_spells : forall n, 0 < n < 2 ^ 64 -> spells ("0x" ++ hex n) (TNum n).
Proof.
  intros n N. split; [discriminate|]. split.
  - cbn [String.append wordy]. rewrite hex_wordy. reflexivity.
  - assert (R := radix16_correct n N). unfold hex_literal in R. unfold hex.
    change (word_token ("0x" ++ string_of_list_ascii (radix16 n)))
      with (match literal ("0x" ++ string_of_list_ascii (radix16 n)) with Some n => TNum n | None => TBad end).
    change (literal ("0x" ++ string_of_list_ascii (radix16 n)))
      with (match string_of_list_ascii (radix16 n) with EmptyString => None | _ => digits 16 0 (string_of_list_ascii (radix16 n)) end).
    rewrite digits16_literal. destruct (radix16 n) as [|a l]; [discriminate R|]. rewrite R. reflexivity.
Qed.
Lemma dec_spells : forall k, 0 <= k < 128 -> spells (dec k) (TNum k).
Proof.
  intros k K.
  assert (S : forallb (fun k => negb (String.eqb (dec k) "") && wordy (dec k)
     && match word_token (dec k) with TNum n => n =? k | _ => false end) (zrange 0 128) = true) by (vm_compute; reflexivity).
  rewrite forallb_forall in S. specialize (S k ltac:(apply in_zrange; lia)).
  apply andb_prop in S. destruct S as [S T]. apply andb_prop in S. destruct S as [S W].
  split; [intros E; rewrite E in S; discriminate S|]. split; [exact W|].
  destruct (word_token (dec k)); try discriminate T. f_equal. lia.
Qed.
Lemma bvar_spells : forall k, 0 <= k < 128 -> spells ("b" ++ dec k) (TWord ("b" ++ dec k)).
Proof.
  intros k K. destruct (dec_spells k K) as (_ & W & _). split; [discriminate|]. split; [|reflexivity].
  cbn [String.append wordy]. rewrite W. reflexivity.
Qed.

(** ** Names and types *)

Lemma buffer_spells : forall n, In n buffer_names -> spells n (TWord n).
Proof.
  intros n I. cbn [buffer_names In] in I. destruct I as [<-|[<-|[<-|[]]]]; (split; [discriminate|split; reflexivity]).
Qed.

Lemma assoc_in : forall A (l : list (string * A)) x a, assoc l x = Some a -> In (x, a) l.
Proof.
  intros A l x a. induction l as [|[y b] l IH]; intros H; [discriminate|]. cbn [assoc] in H.
  destruct (String.eqb x y) eqn:E; [|right; auto]. left. apply String.eqb_eq in E. congruence.
Qed.
Lemma type_spells : forall t w, type_width t = Some w -> spells t (TWord t) /\ 8 <= w <= 64.
Proof.
  intros t w T. unfold type_width in T. apply assoc_in in T.
  assert (S : forallb (fun p => negb (String.eqb (fst p) "") && wordy (fst p) && (8 <=? snd p) && (snd p <=? 64)
     && match fst p with String a _ => negb (is_digit a) | _ => false end)
     ([("u8", 8); ("u16", 16); ("u32", 32); ("u64", 64)]%string ++ aliases) = true) by (vm_compute; reflexivity).
  rewrite forallb_forall in S. specialize (S _ T). cbn [fst snd] in S.
  apply andb_prop in S. destruct S as [S D]. apply andb_prop in S. destruct S as [S H]. apply andb_prop in S. destruct S as [S L].
  apply andb_prop in S. destruct S as [S W]. split; [|lia].
  split; [intros E; rewrite E in S; discriminate S|]. split; [exact W|].
  destruct t as [|a t]; [discriminate D|]. cbn [word_token]. destruct (is_digit a); [discriminate D|reflexivity].
Qed.
Lemma type_container : forall t w size e x, type_width t = Some w -> parse_ty t = Some (size, e, x) -> w = container size.
Proof.
  intros t w size e x T P. unfold type_width in T. apply assoc_in in T.
  assert (S : forallb (fun p => match parse_ty (fst p) with Some (s, _, _) => snd p =? container s | None => false end)
     ([("u8", 8); ("u16", 16); ("u32", 32); ("u64", 64)]%string ++ aliases) = true) by (vm_compute; reflexivity).
  rewrite forallb_forall in S. specialize (S _ T). cbn [fst snd] in S. rewrite P in S. lia.
Qed.

(** ** Replacing the placeholders *)

Fixpoint nobrace (s : string) : bool :=
  match s with
  | EmptyString => true
  | String a r => negb (Ascii.eqb a "{") && nobrace r
  end.
Lemma wordy_nobrace : forall s, wordy s = true -> nobrace s = true.
Proof.
  induction s as [|a s IH]; intros W; [reflexivity|]. cbn [wordy nobrace] in *. apply andb_prop in W. destruct W as [A W].
  rewrite IH by exact W. destruct (Ascii.eqb a "{") eqn:E; [|reflexivity]. apply Ascii.eqb_eq in E. subst a. discriminate A.
Qed.
Lemma nobrace_app : forall a b, nobrace (a ++ b) = nobrace a && nobrace b.
Proof. induction a as [|x a IH]; intros b; [reflexivity|]. cbn [String.append nobrace]. rewrite IH. apply andb_assoc. Qed.
Lemma replace_skip : forall p x u r, nobrace u = true ->
  replace (String "{" p) x (u ++ r) = (u ++ replace (String "{" p) x r)%string.
Proof.
  intros p x. induction u as [|a u IH]; intros r N; [reflexivity|]. cbn [nobrace] in N. apply andb_prop in N. destruct N as [A N].
  unfold replace in *. cbn [String.append replace_from prefix]. destruct (ascii_dec "{" a) as [E|E].
  - subst a. discriminate A.
  - now rewrite IH.
Qed.
Lemma replace_done : forall p x u, nobrace u = true -> replace (String "{" p) x u = u.
Proof. intros p x u N. rewrite <- (app_nil_s u) at 1. rewrite replace_skip by exact N. apply app_nil_s. Qed.
Lemma replace_hole : forall x r, replace "{}" x ("{}" ++ r) = (x ++ replace "{}" x r)%string.
Proof. intros x [|a r]; reflexivity. Qed.
Lemma replace_packet : forall x r, replace "{packet}" x ("{packet}" ++ r) = (x ++ replace "{packet}" x r)%string.
Proof. intros x [|a r]; reflexivity. Qed.
Lemma replace_val : forall x r, replace "{val}" x ("{val}" ++ r) = (x ++ replace "{val}" x r)%string.
Proof. intros x [|a r]; reflexivity. Qed.
Lemma replace_packet_val : forall x r, replace "{packet}" x ("{val}" ++ r) = ("{val}" ++ replace "{packet}" x r)%string.
Proof. reflexivity. Qed.

(** The printed operations with the placeholders filled in. *)
Definition get_filled (x : string) (op : getop) : string :=
  shift_text (if negb (g_mask op =? 255)%Z then "(" ++ x ++ " & " ++ ("0x" ++ hex (g_mask op)) ++ ")" else x)%string
    (g_shiftr op - g_shiftl op).
Definition set_filled (p : string) (op : setop) : string :=
  let v := shift_text (if negb (s_vmask op =? 255)%Z then "(val & " ++ ("0x" ++ hex (s_vmask op)) ++ ")" else "val")%string
    (s_shiftr op - s_shiftl op) in
  (if negb (s_save op =? 0)%Z
   then p ++ " = ((" ++ p ++ " & " ++ ("0x" ++ hex (s_save op)) ++ ") | (" ++ v ++ ") as u8) as u8"
   else p ++ " = (" ++ v ++ ") as u8")%string.

Lemma dec_nobrace : forall k, 0 <= k < 128 -> nobrace (dec k) = true.
Proof. intros k K. apply wordy_nobrace. apply (dec_spells k K). Qed.
Lemma hex_nobrace : forall n, nobrace (hex n) = true.
Proof. intros n. apply wordy_nobrace, hex_wordy. Qed.

Lemma get_text_filled : forall x op, Z.abs (g_shiftr op - g_shiftl op) < 128 ->
  replace "{}" x (get_op_text op) = get_filled x op.
Proof.
  intros x op S. unfold get_op_text, get_filled. set (sh := g_shiftr op - g_shiftl op) in *.
  assert (M : forall r, nobrace r = true ->
    replace "{}" x ((if negb (g_mask op =? 255)%Z then "({} & 0x" ++ hex (g_mask op) ++ ")" else "{}") ++ r)
    = ((if negb (g_mask op =? 255)%Z then "(" ++ x ++ " & " ++ ("0x" ++ hex (g_mask op)) ++ ")" else x) ++ r)%string).
  { intros r R. destruct (negb (g_mask op =? 255)%Z).
    - change ("({} & 0x" ++ hex (g_mask op) ++ ")")%string with ("(" ++ "{}" ++ " & 0x" ++ hex (g_mask op) ++ ")")%string.
      rewrite !app_assoc_s. rewrite (replace_skip _ x "("), replace_hole by reflexivity.
      rewrite (replace_skip _ x " & 0x"), (replace_skip _ x (hex _)), (replace_skip _ x ")"), replace_done
        by (assumption || reflexivity || apply hex_nobrace). reflexivity.
    - rewrite replace_hole, replace_done by exact R. reflexivity. }
  unfold shift_text. destruct (sh =? 0).
  - rewrite <- (app_nil_s (if negb (g_mask op =? 255)%Z then _ else "{}"%string)). rewrite M by reflexivity. now rewrite app_nil_s.
  - assert (D := dec_nobrace (Z.abs sh) ltac:(lia)).
    destruct (sh <? 0); rewrite M; try reflexivity; rewrite nobrace_app, D; reflexivity.
Qed.

Lemma set_text_filled : forall p op, nobrace p = true -> Z.abs (s_shiftr op - s_shiftl op) < 128 ->
  replace "{val}" "val" (replace "{packet}" p (set_op_text op)) = set_filled p op.
Proof.
  intros p op P S. unfold set_op_text, set_filled. set (sh := s_shiftr op - s_shiftl op) in *.
  assert (M1 : forall r, 
    replace "{packet}" p ((if negb (s_vmask op =? 255)%Z then "({val} & 0x" ++ hex (s_vmask op) ++ ")" else "{val}") ++ r)
    = ((if negb (s_vmask op =? 255)%Z then "({val} & 0x" ++ hex (s_vmask op) ++ ")" else "{val}") ++ replace "{packet}" p r)%string).
  { intros r. destruct (negb (s_vmask op =? 255)%Z).
    - change ("({val} & 0x" ++ hex (s_vmask op) ++ ")")%string with ("(" ++ "{val}" ++ " & 0x" ++ hex (s_vmask op) ++ ")")%string.
      rewrite !app_assoc_s. rewrite (replace_skip _ p "("), replace_packet_val by reflexivity.
      rewrite (replace_skip _ p " & 0x"), (replace_skip _ p (hex _)), (replace_skip _ p ")") by (reflexivity || apply hex_nobrace). reflexivity.
    - apply replace_packet_val. }
  assert (M2 : forall r, 
    replace "{val}" "val" ((if negb (s_vmask op =? 255)%Z then "({val} & 0x" ++ hex (s_vmask op) ++ ")" else "{val}") ++ r)
    = ((if negb (s_vmask op =? 255)%Z then "(val & " ++ ("0x" ++ hex (s_vmask op)) ++ ")" else "val") ++ replace "{val}" "val" r)%string).
  { intros r. destruct (negb (s_vmask op =? 255)%Z).
    - change ("({val} & 0x" ++ hex (s_vmask op) ++ ")")%string with ("(" ++ "{val}" ++ " & 0x" ++ hex (s_vmask op) ++ ")")%string.
      rewrite !app_assoc_s. rewrite (replace_skip _ _ "("), replace_val by reflexivity.
      rewrite (replace_skip _ _ " & 0x"), (replace_skip _ _ (hex _)), (replace_skip _ _ ")") by (reflexivity || apply hex_nobrace). reflexivity.
    - apply replace_val. }
  set (mv := (if negb (s_vmask op =? 255)%Z then _ else "{val}"%string)) in *.
  set (mf := (if negb (s_vmask op =? 255)%Z then _ else "val"%string)) in *.
  assert (D := dec_nobrace (Z.abs sh) ltac:(lia)).
  assert (S1 : forall r, replace "{packet}" p (shift_text mv sh ++ r) = (shift_text mv sh ++ replace "{packet}" p r)%string).
  { intros r. unfold shift_text. destruct (sh =? 0); [apply M1|].
    destruct (sh <? 0); rewrite !app_assoc_s, M1; f_equal;
      [rewrite (replace_skip _ p " << ") by reflexivity|rewrite (replace_skip _ p " >> ") by reflexivity];
      rewrite (replace_skip _ p (dec _)) by exact D; reflexivity. }
  assert (S2 : forall r, replace "{val}" "val" (shift_text mv sh ++ r) = (shift_text mf sh ++ replace "{val}" "val" r)%string).
  { intros r. unfold shift_text. destruct (sh =? 0); [apply M2|].
    destruct (sh <? 0); rewrite !app_assoc_s, M2; f_equal;
      [rewrite (replace_skip _ _ " << ") by reflexivity|rewrite (replace_skip _ _ " >> ") by reflexivity];
      rewrite (replace_skip _ _ (dec _)) by exact D; reflexivity. }
  clearbody mv mf. clear M1 M2.
  destruct (negb (s_save op =? 0)%Z).
  - change ("{packet} = (" ++ ("({packet} & 0x" ++ hex (s_save op) ++ ")") ++ " | (" ++ shift_text mv sh ++ ") as u8) as u8")%string
      with ("{packet}" ++ " = ((" ++ "{packet}" ++ " & 0x" ++ (hex (s_save op) ++ ")") ++ " | (" ++ shift_text mv sh ++ ") as u8) as u8")%string.
    rewrite !app_assoc_s.
    rewrite replace_packet, (replace_skip _ p " = ((") by reflexivity.
    rewrite replace_packet, (replace_skip _ p " & 0x"), (replace_skip _ p (hex _)), (replace_skip _ p ")"), (replace_skip _ p " | (")
      by (reflexivity || apply hex_nobrace).
    rewrite S1, (replace_done _ p ") as u8) as u8") by reflexivity.
    rewrite (replace_skip _ _ p) by exact P. rewrite (replace_skip _ _ " = ((") by reflexivity.
    rewrite (replace_skip _ _ p) by exact P.
    rewrite (replace_skip _ _ " & 0x"), (replace_skip _ _ (hex _)), (replace_skip _ _ ")"), (replace_skip _ _ " | (")
      by (reflexivity || apply hex_nobrace).
    rewrite S2, (replace_done _ _ ") as u8) as u8") by reflexivity. reflexivity.
  - change ("{packet} = (" ++ shift_text mv sh ++ ") as u8")%string
      with ("{packet}" ++ " = (" ++ shift_text mv sh ++ ") as u8")%string.
    rewrite replace_packet, (replace_skip _ p " = (") by reflexivity.
    rewrite S1, (replace_done _ p ") as u8") by reflexivity.
    rewrite (replace_skip _ _ p) by exact P. rewrite (replace_skip _ _ " = (") by reflexivity.
    rewrite S2, (replace_done _ _ ") as u8") by reflexivity. reflexivity.
Qed.

(** ** Tokens of the emitted text *)

Definition has (x : string) (l : list tok) : Prop := forall r, edge r = true -> tokens (x ++ r) = (l ++ tokens r)%list.
Lemma has_spells : forall s t, spells s t -> has s [t].
Proof. intros s t S r E. rewrite (spelled s t) by assumption. reflexivity. Qed.
Lemma edge_app : forall a r, a <> ""%string -> edge (a ++ r) = edge a.
Proof. intros [|x a] r N; [congruence|reflexivity]. Qed.

Definition cell (name : string) (i : Z) : string := (name ++ "[co + " ++ dec i ++ "]")%string.
Definition cell_toks (name : string) (i : Z) : list tok := [TWord name; TLbracket; TWord "co"; TPlus; TNum i; TRbracket].
Lemma cell_has : forall name i, In name buffer_names -> 0 <= i < 128 -> has (cell name i) (cell_toks name i).
Proof.
  intros name i N I r E. unfold cell. rewrite !app_assoc_s.
  rewrite (spelled name (TWord name)) by (reflexivity || now apply buffer_spells).
  rewrite (fixed "[co + " _ [TLbracket; TWord "co"; TPlus]) by reflexivity.
  rewrite (spelled (dec i) (TNum i)) by (reflexivity || now apply dec_spells).
  rewrite (fixed "]" _ [TRbracket]) by reflexivity. reflexivity.
Qed.

Definition shift_toks (sh : Z) : list tok :=
  if sh =? 0 then [] else if sh <? 0 then [TLt; TLt; TNum (Z.abs sh)] else [TGt; TGt; TNum (Z.abs sh)].
Lemma shift_has : forall x l sh, has x l -> Z.abs sh < 128 -> has (shift_text x sh) (l ++ shift_toks sh).
Proof.
  intros x l sh X S r E. unfold shift_text, shift_toks. destruct (sh =? 0).
  - rewrite X by exact E. now rewrite app_nil_r.
  - assert (D := dec_spells (Z.abs sh) ltac:(lia)). destruct (sh <? 0); rewrite !app_assoc_s, X by reflexivity.
    + rewrite (fixed " << " _ [TLt; TLt]) by reflexivity. rewrite (spelled _ _ _ D) by exact E. now rewrite <- app_assoc.
    + rewrite (fixed " >> " _ [TGt; TGt]) by reflexivity. rewrite (spelled _ _ _ D) by exact E. now rewrite <- app_assoc.
Qed.

Definition get_toks (l : list tok) (op : getop) : list tok :=
  ((if negb (g_mask op =? 255) then TLpar :: l ++ [TAmp; TNum (g_mask op); TRpar] else l)
   ++ shift_toks (g_shiftr op - g_shiftl op))%list.
(** What the printing of an operation needs. *)
Definition gprints (w : Z) (op : getop) : Prop :=
  0 < g_mask op < 256 /\ Z.abs (g_shiftr op - g_shiftl op) < w /\ True.
Lemma get_has : forall x l w op, has x l -> w <= 64 -> gprints w op -> has (replace "{}" x (get_op_text op)) (get_toks l op).
Proof.
  intros x l w op X W (M & S & _). rewrite get_text_filled by lia. unfold get_filled, get_toks.
  apply shift_has; [|lia]. destruct (negb (g_mask op =? 255)) eqn:Q; [|exact X].
  intros r E. rewrite !app_assoc_s. rewrite (fixed "(" _ [TLpar]) by reflexivity. rewrite X by reflexivity.
  rewrite (fixed " & " _ [TAmp]) by reflexivity. rewrite <- app_assoc_s.
  rewrite (spelled _ (TNum (g_mask op))) by (reflexivity || (apply hex_spells; lia)).
  rewrite (fixed ")" _ [TRpar]) by reflexivity. cbn [app]. now rewrite <- app_assoc.
Qed.

Definition value_toks (op : setop) : list tok :=
  ((if negb (s_vmask op =? 255) then [TLpar; TWord "val"; TAmp; TNum (s_vmask op); TRpar] else [TWord "val"])
   ++ shift_toks (s_shiftr op - s_shiftl op))%list.
Definition set_toks (l : list tok) (op : setop) : list tok :=
  (l ++ TEq :: TLpar ::
   (if negb (s_save op =? 0)
    then TLpar :: l ++ TAmp :: TNum (s_save op) :: TRpar :: TBar :: TLpar :: value_toks op ++
         [TRpar; TWord "as"; TWord "u8"; TRpar; TWord "as"; TWord "u8"]
    else value_toks op ++ [TRpar; TWord "as"; TWord "u8"]))%list.
Definition sop_prints (op : setop) : Prop :=
  0 <= s_save op < 256 /\ 0 < s_vmask op < 2 ^ 64 /\ Z.abs (s_shiftr op - s_shiftl op) < 64.
Lemma set_has : forall p l op, has p l -> nobrace p = true -> sop_prints op ->
  has (replace "{val}" "val" (replace "{packet}" p (set_op_text op))) (set_toks l op).
Proof.
  intros p l op P N (V & M & S). rewrite set_text_filled by (assumption || lia).
  unfold set_filled, set_toks.
  assert (H : has (shift_text (if negb (s_vmask op =? 255)%Z then "(val & " ++ ("0x" ++ hex (s_vmask op)) ++ ")" else "val")%string
    (s_shiftr op - s_shiftl op)) (value_toks op)).
  { apply shift_has; [|lia]. destruct (negb (s_vmask op =? 255)).
    - intros r E. rewrite (app_assoc_s "(val & "). rewrite (fixed "(val & " _ [TLpar; TWord "val"; TAmp]) by reflexivity.
      rewrite (app_assoc_s ("0x" ++ _)). rewrite (spelled _ (TNum (s_vmask op))) by (reflexivity || (apply hex_spells; lia)).
      rewrite (fixed ")" _ [TRpar]) by reflexivity. reflexivity.
    - apply has_spells. split; [discriminate|split; reflexivity]. }
  set (v := shift_text _ _) in *. clearbody v.
  intros r E. destruct (negb (s_save op =? 0)) eqn:Q.
  - rewrite (app_assoc_s p). rewrite P by reflexivity. rewrite (app_assoc_s " = (("). rewrite (fixed " = ((" _ [TEq; TLpar; TLpar]) by reflexivity.
    rewrite (app_assoc_s p). rewrite P by reflexivity. rewrite (app_assoc_s " & "). rewrite (fixed " & " _ [TAmp]) by reflexivity.
    rewrite (app_assoc_s ("0x" ++ _)). rewrite (spelled _ (TNum (s_save op))) by (reflexivity || (apply hex_spells; lia)).
    rewrite (app_assoc_s ") | ("). rewrite (fixed ") | (" _ [TRpar; TBar; TLpar]) by reflexivity.
    rewrite (app_assoc_s v). rewrite H by reflexivity.
    change (") as u8) as u8" ++ r)%string with (") as " ++ "u8" ++ ") as " ++ "u8" ++ r)%string.
    rewrite (fixed ") as " _ [TRpar; TWord "as"]) by reflexivity.
    rewrite (spelled "u8" (TWord "u8")) by (reflexivity || (split; [discriminate|split; reflexivity])).
    rewrite (fixed ") as " _ [TRpar; TWord "as"]) by reflexivity.
    rewrite (spelled "u8" (TWord "u8")) by (assumption || (split; [discriminate|split; reflexivity])).
    cbn [app]. rewrite <- !app_assoc. cbn [app]. f_equal. f_equal. f_equal. f_equal. rewrite <- !app_assoc. cbn [app].
    rewrite <- !app_assoc. reflexivity.
  - rewrite (app_assoc_s p). rewrite P by reflexivity. rewrite (app_assoc_s " = ("). rewrite (fixed " = (" _ [TEq; TLpar]) by reflexivity.
    rewrite (app_assoc_s v). rewrite H by reflexivity.
    change (") as u8" ++ r)%string with (") as " ++ "u8" ++ r)%string.
    rewrite (fixed ") as " _ [TRpar; TWord "as"]) by reflexivity.
    rewrite (spelled "u8" (TWord "u8")) by (assumption || (split; [discriminate|split; reflexivity])).
    cbn [app]. rewrite <- !app_assoc. cbn [app]. rewrite <- !app_assoc. reflexivity.
Qed.

(** ** Getter statements *)

Definition byte_toks (name ty : string) (i : Z) : list tok :=
  (TLpar :: cell_toks name i ++ [TWord "as"; TWord ty; TRpar])%list.
Definition let_toks (name ty : string) (i : Z) (op : getop) : list tok :=
  (TWord "let" :: TWord ("b" ++ dec i) :: TEq :: TLpar :: get_toks (byte_toks name ty i) op ++
   [TRpar; TWord "as"; TWord ty; TSemi])%list.
Lemma get_stmt_tokens : forall name ty w i op r, In name buffer_names -> type_width ty = Some w -> 0 <= i < 128 -> gprints w op ->
  tokens (get_stmt name ty i op ++ r) = (let_toks name ty i op ++ tokens r)%list.
Proof.
  intros name ty w i op r N T I O. destruct (type_spells ty w T) as [TS TW].
  assert (B : has ("(" ++ name ++ "[co + " ++ dec i ++ "] as " ++ ty ++ ")") (byte_toks name ty i)).
  { intros s E. unfold byte_toks.
    replace ("(" ++ name ++ "[co + " ++ dec i ++ "] as " ++ ty ++ ")")%string with ("(" ++ cell name i ++ " as " ++ ty ++ ")")%string
      by (unfold cell; rewrite !app_assoc_s; reflexivity).
    rewrite !app_assoc_s. rewrite (fixed "(" _ [TLpar]) by reflexivity. rewrite (cell_has name i N I) by reflexivity.
    rewrite (fixed " as " _ [TWord "as"]) by reflexivity. rewrite (spelled ty (TWord ty)) by (reflexivity || assumption).
    rewrite (fixed ")" _ [TRpar]) by reflexivity. reflexivity. }
  unfold get_stmt.
  set (body := replace "{}" _ _). assert (H := get_has _ _ w op B ltac:(lia) O). fold body in H. clearbody body.
  change (("let b" ++ dec i ++ " = (" ++ body ++ ") as " ++ ty ++ ";" ++ newline) ++ r)%string
    with ("let " ++ "b" ++ (dec i ++ " = (" ++ body ++ ") as " ++ ty ++ ";" ++ newline) ++ r)%string.
  rewrite !app_assoc_s. rewrite (fixed "let " _ [TWord "let"]) by reflexivity.
  rewrite <- (app_assoc_s "b"). rewrite (spelled _ _ _ (bvar_spells i I)) by reflexivity.
  rewrite (fixed " = (" _ [TEq; TLpar]) by reflexivity. rewrite H by reflexivity.
  rewrite (fixed ") as " _ [TRpar; TWord "as"]) by reflexivity. rewrite (spelled ty (TWord ty)) by (reflexivity || assumption).
  rewrite <- (app_assoc_s ";"). rewrite (fixed (";" ++ newline) _ [TSemi]) by reflexivity.
  unfold let_toks. cbn [app]. rewrite <- !app_assoc. reflexivity.
Qed.

Definition shift_expr (e : expr) (sh : Z) : expr :=
  if sh =? 0 then e else if sh <? 0 then EShl e (ENum (Z.abs sh)) else EShr e (ENum (Z.abs sh)).
Definition get_expr (x : expr) (op : getop) : expr :=
  shift_expr (if negb (g_mask op =? 255) then EAnd x (ENum (g_mask op)) else x) (g_shiftr op - g_shiftl op).
Definition byte_expr (name ty : string) (i : Z) : expr := ECast (EIndex name (EAdd (EVar "co") (ENum i))) ty.
Definition lets (name ty : string) (i : Z) (op : getop) : stmt :=
  SLet ("b" ++ dec i) (ECast (get_expr (byte_expr name ty i) op) ty).

Lemma let_parse : forall name ty i op rest k,
  statements (S k) (let_toks name ty i op ++ rest) =
  match statements k rest with Some t => Some (lets name ty i op :: t) | None => None end.
Proof.
  intros name ty i op rest k. unfold let_toks, lets, get_toks, get_expr, shift_expr, shift_toks.
  destruct (negb (g_mask op =? 255)), (g_shiftr op - g_shiftl op =? 0), (g_shiftr op - g_shiftl op <? 0); reflexivity.
Qed.

(** Evaluation of one operation. *)
Section Eval.
Variable m : mode.
Variable b : buf.
Variable w : Z.
Hypothesis W : 8 <= w <= 64.

Lemma get_expr_typ : forall G x op, typ G x = Some (TInt w) -> gprints w op -> typ G (get_expr x op) = Some (TInt w).
Proof.
  intros G x op T (M & S & _). unfold get_expr, shift_expr.
  assert (P : 256 <= 2 ^ w) by (change 256 with (2 ^ 8); apply Z.pow_le_mono_r; lia).
  assert (A : typ G (if negb (g_mask op =? 255) then EAnd x (ENum (g_mask op)) else x) = Some (TInt w)).
  { destruct (negb (g_mask op =? 255)); [|exact T]. cbn [typ]. rewrite T. cbn [same].
    destruct (g_mask op <? 2 ^ w) eqn:Q; [reflexivity|lia]. }
  set (y := if negb _ then _ else _) in *. clearbody y.
  destruct (g_shiftr op - g_shiftl op =? 0); [exact A|].
  destruct (g_shiftr op - g_shiftl op <? 0); cbn [typ]; rewrite A; cbn [shifted];
    (destruct (Z.abs _ <? w) eqn:Q; [reflexivity|lia]).
Qed.

Lemma get_expr_eval : forall G V x op v, typ G x = Some (TInt w) -> gprints w op -> eval m b G V x = Ok v ->
  eval m b G V (get_expr x op) = eval_getop m w op v.
Proof.
  intros G V x op v T O E. assert (Y := get_expr_typ G x op T O). destruct O as (M & S & _).
  unfold get_expr, shift_expr, eval_getop in *. cbv zeta.
  assert (A : eval m b G V (if negb (g_mask op =? 255) then EAnd x (ENum (g_mask op)) else x)
     = Ok (if g_mask op =? 255 then v else Z.land v (g_mask op))).
  { destruct (g_mask op =? 255); cbn [negb eval]; [exact E|]. rewrite E. reflexivity. }
  assert (AT : typ G (if negb (g_mask op =? 255) then EAnd x (ENum (g_mask op)) else x) = Some (TInt w)).
  { assert (P : 256 <= 2 ^ w) by (change 256 with (2 ^ 8); apply Z.pow_le_mono_r; lia).
    destruct (negb (g_mask op =? 255)); [|exact T]. cbn [typ]. rewrite T. cbn [same].
    destruct (g_mask op <? 2 ^ w) eqn:Q; [reflexivity|lia]. }
  set (y := if negb _ then _ else _) in *. clearbody y. clear Y.
  destruct (g_shiftr op - g_shiftl op =? 0) eqn:Q0; [exact A|].
  destruct (g_shiftr op - g_shiftl op <? 0) eqn:Q1; cbn [eval]; rewrite A; cbn [bind]; unfold width_of; rewrite AT.
  - replace (Z.abs (g_shiftr op - g_shiftl op)) with (- (g_shiftr op - g_shiftl op)) by lia. reflexivity.
  - replace (Z.abs (g_shiftr op - g_shiftl op)) with (g_shiftr op - g_shiftl op) by lia. reflexivity.
Qed.

(** The bytes of a buffer. *)
Lemma idx_byte : forall p x, bytes_ok b -> idx b p = Ok x -> byte_ok x.
Proof.
  intros p x B I. unfold idx in I. destruct ((0 <=? p) && (p <? blen b)) eqn:Q; [|discriminate I].
  injection I as <-. apply Forall_nth; [exact B|]. unfold blen in Q. lia.
Qed.

Variable co : Z.
Lemma byte_typ : forall G name ty i, type_width ty = Some w -> assoc G "co"%string = Some usize -> 0 <= i < 128 ->
  typ G (byte_expr name ty i) = Some (TInt w).
Proof.
  intros G name ty i T C I. unfold byte_expr. cbn [typ]. rewrite C, T. cbn [same].
  destruct (i <? 2 ^ usize) eqn:Q; [rewrite Z.eqb_refl; reflexivity|]. unfold usize in Q. lia.
Qed.
Lemma byte_eval : forall G V name ty i, bytes_ok b -> type_width ty = Some w -> assoc G "co"%string = Some usize ->
  assoc V "co"%string = Some co -> 0 <= i < 128 ->
  eval m b G V (byte_expr name ty i) = (p <- add_u m usize co i ;; idx b p).
Proof.
  intros G V name ty i B T C D I. unfold byte_expr. cbn [eval]. rewrite D, T. cbn [bind].
  unfold width_of. cbn [typ]. rewrite C. cbn [same]. destruct (i <? 2 ^ usize) eqn:Q; [|unfold usize in Q; lia].
  destruct (add_u m usize co i) as [p|e]; [|reflexivity]. cbn [bind]. destruct (idx b p) as [x|e] eqn:X; [|reflexivity].
  cbn [bind]. f_equal. apply idx_byte in X; [|exact B]. destruct X as [X0 X1]. unfold cast_u. apply Z.mod_small.
  assert (P : 256 <= 2 ^ w) by (change 256 with (2 ^ 8); apply Z.pow_le_mono_r; lia). lia.
Qed.
Lemma getop_value : forall op x, byte_ok x -> gprints w op -> exists v, eval_getop m w op x = Ok v /\ 0 <= v < 2 ^ w.
Proof.
  intros op x [X0 X1] (M & S & _). unfold eval_getop.
  assert (P : 256 <= 2 ^ w) by (change 256 with (2 ^ 8); apply Z.pow_le_mono_r; lia).
  set (y := if g_mask op =? 255 then x else Z.land x (g_mask op)).
  assert (Y : 0 <= y <= 255).
  { unfold y. destruct (g_mask op =? 255); [lia|]. split; [apply Z.land_nonneg; lia|].
    destruct (Z.eq_dec (Z.land x (g_mask op)) 0); [lia|].
    assert (L := Z.log2_land x (g_mask op) ltac:(lia) ltac:(lia)).
    assert (L2 : Z.log2 x <= 7) by (change 7 with (Z.log2 255); apply Z.log2_le_mono; lia).
    assert (L3 := Z.log2_spec (Z.land x (g_mask op)) ltac:(assert (0 <= Z.land x (g_mask op)) by (apply Z.land_nonneg; lia); lia)).
    assert (L4 : 2 ^ Z.succ (Z.log2 (Z.land x (g_mask op))) <= 2 ^ 8) by (apply Z.pow_le_mono_r; lia). change (2 ^ 8) with 256 in L4. lia. }
  clearbody y. destruct (g_shiftr op - g_shiftl op =? 0); [exists y; split; [reflexivity|lia]|].
  destruct (g_shiftr op - g_shiftl op <? 0) eqn:Q.
  - unfold shl_u. destruct ((0 <=? _) && _) eqn:L; [|lia]. eexists. split; [reflexivity|]. apply Z.mod_pos_bound. lia.
  - unfold shr_u. destruct ((0 <=? _) && _) eqn:L; [|lia]. eexists. split; [reflexivity|].
    split; [apply Z.shiftr_nonneg; lia|]. rewrite Z.shiftr_div_pow2 by lia.
    assert (K : 0 < 2 ^ (g_shiftr op - g_shiftl op)) by (apply Z.pow_pos_nonneg; lia).
    assert (D := Z.div_le_upper_bound y (2 ^ (g_shiftr op - g_shiftl op)) y K ltac:(nia)). lia.
Qed.

(** The values the [let] statements compute. *)
Fixpoint values (ops : list getop) (i : Z) : res (list Z) :=
  match ops with
  | [] => Ok []
  | op :: r =>
      p <- add_u m usize co i ;; x <- idx b p ;; v <- eval_getop m w op x ;;
      vs <- values r (i + 1) ;; Ok (v :: vs)
  end.
Lemma get_multi_values : forall ops i acc,
  get_multi m w ops b co i acc = (vs <- values ops i ;; Ok (fold_left Z.lor vs acc)).
Proof.
  induction ops as [|op r IH]; intros i acc; [reflexivity|]. cbn [get_multi values].
  destruct (add_u m usize co i) as [p|e]; [|reflexivity]. cbn [bind]. destruct (idx b p) as [x|e]; [|reflexivity]. cbn [bind].
  destruct (eval_getop m w op x) as [v|e]; [|reflexivity]. cbn [bind]. rewrite IH.
  destruct (values r (i + 1)) as [vs|e]; reflexivity.
Qed.
Lemma values_length : forall ops i vs, values ops i = Ok vs -> length vs = length ops.
Proof.
  induction ops as [|op r IH]; intros i vs E; cbn [values] in E; [injection E as <-; reflexivity|].
  destruct (add_u m usize co i) as [p|e]; [|discriminate E]. cbn [bind] in E. destruct (idx b p) as [x|e]; [|discriminate E]. cbn [bind] in E.
  destruct (eval_getop m w op x) as [v|e]; [|discriminate E]. cbn [bind] in E.
  destruct (values r (i + 1)) as [us|e] eqn:Q; [|discriminate E]. injection E as <-. cbn [length]. f_equal. eapply IH; eassumption.
Qed.

(** The environment after them. *)
Fixpoint env_after (i : Z) (vs : list Z) (V : list (string * Z)) : list (string * Z) :=
  match vs with
  | [] => V
  | v :: r => env_after (i + 1) r (("b" ++ dec i, v)%string :: V)
  end.
Lemma co_after : forall vs i V a, assoc V "co"%string = Some a -> assoc (env_after i vs V) "co"%string = Some a.
Proof. induction vs as [|v r IH]; intros i V a E; [exact E|]. cbn [env_after]. apply IH. exact E. Qed.
Lemma dec_inj : forall i j, 0 <= i < 128 -> 0 <= j < 128 -> dec i = dec j -> i = j.
Proof.
  intros i j I J E. destruct (dec_spells i I) as (_ & _ & A). destruct (dec_spells j J) as (_ & _ & B). rewrite E in A. congruence.
Qed.
Lemma bvar_neq : forall i j, 0 <= i < 128 -> 0 <= j < 128 -> i <> j -> String.eqb ("b" ++ dec i) ("b" ++ dec j) = false.
Proof.
  intros i j I J N. destruct (String.eqb _ _) eqn:E; [|reflexivity]. exfalso. apply N. apply dec_inj; auto.
  apply String.eqb_eq in E. cbn [String.append] in E. congruence.
Qed.
Lemma bvar_before : forall vs i V j, 0 <= j < i -> i + Z.of_nat (length vs) <= 128 ->
  assoc (env_after i vs V) ("b" ++ dec j)%string = assoc V ("b" ++ dec j)%string.
Proof.
  induction vs as [|v r IH]; intros i V j J L; [reflexivity|]. cbn [env_after]. cbn [length] in L.
  rewrite IH by lia. cbn [assoc]. rewrite bvar_neq by lia. reflexivity.
Qed.
Lemma bvar_after : forall vs i V j, 0 <= i -> i <= j < i + Z.of_nat (length vs) -> i + Z.of_nat (length vs) <= 128 ->
  assoc (env_after i vs V) ("b" ++ dec j)%string = Some (nth (Z.to_nat (j - i)) vs 0).
Proof.
  induction vs as [|v r IH]; intros i V j I J L; cbn [length] in *; [lia|]. cbn [env_after].
  destruct (Z.eq_dec j i) as [->|N].
  - rewrite bvar_before by lia. cbn [assoc]. rewrite String.eqb_refl, Z.sub_diag. reflexivity.
  - rewrite IH by lia. f_equal. replace (Z.to_nat (j - i)) with (S (Z.to_nat (j - (i + 1)))) by lia. reflexivity.
Qed.

Fixpoint all_lets (name ty : string) (i : Z) (ops : list getop) : list stmt :=
  match ops with
  | [] => []
  | op :: r => lets name ty i op :: all_lets name ty (i + 1) r
  end.
Lemma lets_typed : forall name ty ops i G e, type_width ty = Some w -> assoc G "co"%string = Some usize ->
  Forall (gprints w) ops -> 0 <= i -> i + Z.of_nat (length ops) <= 128 ->
  typed G (Some w) (all_lets name ty i ops ++ [SRet e]) =
  typed (env_after i (repeat w (length ops)) G) (Some w) [SRet e].
Proof.
  intros name ty. induction ops as [|op r IH]; intros i G e T C F I L; [reflexivity|]. inversion F; subst.
  cbn [length] in L. cbn [all_lets app length repeat env_after typed lets]. cbn [typ].
  rewrite (get_expr_typ G _ op (byte_typ G name ty i T C ltac:(lia)) H1), T.
  apply IH; auto; lia.
Qed.
Lemma lets_return : forall name ty ops i G V e, bytes_ok b -> type_width ty = Some w ->
  assoc G "co"%string = Some usize -> assoc V "co"%string = Some co ->
  Forall (gprints w) ops -> 0 <= i -> i + Z.of_nat (length ops) <= 128 ->
  returns m b G V (all_lets name ty i ops ++ [SRet e]) =
  (vs <- values ops i ;; eval m b (env_after i (repeat w (length ops)) G) (env_after i vs V) e).
Proof.
  intros name ty. induction ops as [|op r IH]; intros i G V e B T C D F I L; [reflexivity|]. inversion F; subst.
  cbn [length] in L. cbn [all_lets app length repeat env_after returns lets values].
  assert (BT := byte_typ G name ty i T C ltac:(lia)).
  assert (BE := byte_eval G V name ty i B T C D ltac:(lia)).
  assert (GT := get_expr_typ G _ op BT H1).
  cbn [eval]. unfold width_of. cbn [typ]. rewrite GT, T.
  destruct (add_u m usize co i) as [p|er]; cbn [bind] in BE |- *.
  2:{ assert (Q : eval m b G V (get_expr (byte_expr name ty i) op) = Panic er); [|rewrite Q; reflexivity].
      unfold get_expr, shift_expr. destruct (negb (g_mask op =? 255)), (g_shiftr op - g_shiftl op =? 0), (g_shiftr op - g_shiftl op <? 0);
        cbn [eval]; rewrite BE; reflexivity. }
  destruct (idx b p) as [x|er] eqn:X; cbn [bind].
  2:{ assert (Q : eval m b G V (get_expr (byte_expr name ty i) op) = Panic er); [|rewrite Q; reflexivity].
      unfold get_expr, shift_expr. destruct (negb (g_mask op =? 255)), (g_shiftr op - g_shiftl op =? 0), (g_shiftr op - g_shiftl op <? 0);
        cbn [eval]; rewrite BE; reflexivity. }
  rewrite (get_expr_eval G V _ op x BT H1 BE).
  destruct (getop_value op x (idx_byte p x B X) H1) as [v [Ev Bv]]. rewrite Ev. cbn [bind].
  replace (cast_u w v) with v by (unfold cast_u; symmetry; apply Z.mod_small; exact Bv).
  rewrite IH by (auto; lia). destruct (values r (i + 1)); reflexivity.
Qed.

Definition or_tree (n : nat) : expr :=
  fold_left EOr (map (fun j => EVar ("b" ++ dec (Z.of_nat j))) (seq 1 (n - 1))) (EVar "b0").
Lemma or_typ : forall G l e, typ G e = Some (TInt w) -> Forall (fun x => typ G x = Some (TInt w)) l ->
  typ G (fold_left EOr l e) = Some (TInt w).
Proof.
  intros G. induction l as [|x l IH]; intros e E F; [exact E|]. inversion F; subst. cbn [fold_left]. apply IH; [|assumption].
  cbn [typ]. rewrite E, H1. cbn [same]. now rewrite Z.eqb_refl.
Qed.
Lemma or_eval : forall G V l vs e v, eval m b G V e = Ok v -> Forall2 (fun x u => eval m b G V x = Ok u) l vs ->
  eval m b G V (fold_left EOr l e) = Ok (fold_left Z.lor vs v).
Proof.
  intros G V. induction l as [|x l IH]; intros vs e v E F; inversion F; subst; [exact E|]. cbn [fold_left]. apply IH; [|assumption].
  cbn [eval]. rewrite E, H1. reflexivity.
Qed.
Lemma nth_repeat_in : forall (a d : Z) n k, (k < n)%nat -> nth k (repeat a n) d = a.
Proof. intros a d. induction n as [|n IH]; intros k K; [lia|]. destruct k; [reflexivity|]. cbn [repeat nth]. apply IH. lia. Qed.
Lemma or_tree_typ : forall G n, (1 <= n <= 128)%nat ->
  typ (env_after 0 (repeat w n) G) (or_tree n) = Some (TInt w).
Proof.
  intros G n N. assert (K : forall j, (j < n)%nat -> typ (env_after 0 (repeat w n) G) (EVar ("b" ++ dec (Z.of_nat j))) = Some (TInt w)).
  { intros j J. cbn [typ]. rewrite bvar_after by (rewrite ?repeat_length; lia).
    rewrite nth_repeat_in by lia. reflexivity. }
  unfold or_tree. apply or_typ; [apply (K 0%nat); lia|]. apply Forall_forall. intros x X. apply in_map_iff in X.
  destruct X as [j [<- J]]. apply in_seq in J. apply K. lia.
Qed.
Lemma or_tree_eval : forall G V vs, (1 <= length vs <= 128)%nat ->
  eval m b G (env_after 0 vs V) (or_tree (length vs)) = Ok (fold_left Z.lor vs 0).
Proof.
  intros G V vs N. assert (K : forall j, (j < length vs)%nat ->
    eval m b G (env_after 0 vs V) (EVar ("b" ++ dec (Z.of_nat j))) = Ok (nth j vs 0)).
  { intros j J. cbn [eval]. rewrite bvar_after by lia. do 2 f_equal. lia. }
  destruct vs as [|v vs]; [cbn in N; lia|]. cbn [fold_left]. rewrite Z.lor_0_l. unfold or_tree.
  apply or_eval; [apply (K 0%nat); cbn; lia|]. cbn [length] in *. replace (S (length vs) - 1)%nat with (length vs) by lia.
  assert (Q : forall l k, (forall j, (j < length l)%nat -> nth j l 0 = nth (k + j) (v :: vs) 0) -> (k + length l <= S (length vs))%nat ->
    Forall2 (fun x u => eval m b G (env_after 0 (v :: vs) V) x = Ok u) (map (fun j => EVar ("b" ++ dec (Z.of_nat j))) (seq k (length l))) l).
  { induction l as [|u l IH]; intros k H L; cbn [length seq map]; constructor.
    - rewrite K by (cbn [length] in L; lia). f_equal. specialize (H 0%nat ltac:(cbn; lia)). change (nth 0 (u :: l) 0) with u in H. rewrite Nat.add_0_r in H. congruence.
    - apply IH; [|cbn [length] in L; lia]. intros j J. specialize (H (S j) ltac:(cbn; lia)). change (nth (S j) (u :: l) 0) with (nth j l 0) in H.
      rewrite H. f_equal. lia. }
  apply Q; [|lia]. intros j J. reflexivity.
Qed.
End Eval.

(** ** Getter bodies *)

Fixpoint all_let_toks (name ty : string) (i : Z) (ops : list getop) : list tok :=
  match ops with
  | [] => []
  | op :: r => (let_toks name ty i op ++ all_let_toks name ty (i + 1) r)%list
  end.
Lemma get_stmts_tokens : forall name ty w ops i r, In name buffer_names -> type_width ty = Some w ->
  Forall (gprints w) ops -> 0 <= i -> i + Z.of_nat (length ops) <= 128 ->
  tokens (get_stmts name ty i ops ++ r) = (all_let_toks name ty i ops ++ tokens r)%list.
Proof.
  intros name ty w. induction ops as [|op ops IH]; intros i r N T F I L; [reflexivity|]. inversion F; subst. cbn [length] in L.
  cbn [get_stmts all_let_toks]. rewrite app_assoc_s. rewrite (get_stmt_tokens name ty w) by (assumption || lia).
  rewrite IH by (assumption || lia). now rewrite app_assoc.
Qed.
Lemma all_lets_parse : forall name ty ops i rest k t, statements k rest = Some t ->
  statements (length ops + k) (all_let_toks name ty i ops ++ rest) = Some (all_lets name ty i ops ++ t)%list.
Proof.
  intros name ty. induction ops as [|op ops IH]; intros i rest k t E; [exact E|]. cbn [length all_let_toks all_lets Nat.add].
  rewrite <- app_assoc, let_parse. now rewrite (IH _ _ _ _ E).
Qed.
Lemma all_let_toks_length : forall name ty ops i, (length ops <= length (all_let_toks name ty i ops))%nat.
Proof.
  intros name ty. induction ops as [|op ops IH]; intros i; [cbn; lia|]. cbn [length all_let_toks]. rewrite app_length.
  specialize (IH (i + 1)). unfold let_toks. cbn [length]. lia.
Qed.

Lemma return_parse : forall n k, (2 <= n <= 9)%nat ->
  statements (S k) (tokens (newline ++ build_return n ++ newline ++ "}")) = Some [SRet (or_tree n)] /\
  (1 <= length (tokens (newline ++ build_return n ++ newline ++ "}")))%nat.
Proof.
  intros n k N. do 2 (destruct n as [|n]; [lia|]).
  do 8 (destruct n as [|n]; [split; [reflexivity|vm_compute; lia]|]). lia.
Qed.

Theorem get_body_reads : forall name ty w ops, In name buffer_names -> type_width ty = Some w ->
  Forall (gprints w) ops -> (1 <= length ops <= 9)%nat ->
  exists l, block (get_body name ty ops) = Some l /\ typed [("co"%string, usize)] (Some w) l = true /\
    forall m b co, bytes_ok b -> returns m b [("co"%string, usize)] [("co"%string, co)] l = gen_get_ops m w ops b co.
Proof.
  intros name ty w ops N T F L. destruct (type_spells ty w T) as [TS TW].
  destruct ops as [|op [|op2 ops]]; [cbn in L; lia| |].
  - inversion F; subst. clear F L H2.
    assert (B : has ("(" ++ name ++ "[co] as " ++ ty ++ ")")
      [TLpar; TWord name; TLbracket; TWord "co"; TRbracket; TWord "as"; TWord ty; TRpar]).
    { intros s E. rewrite !app_assoc_s. rewrite (fixed "(" _ [TLpar]) by reflexivity.
      rewrite (spelled name (TWord name)) by (reflexivity || now apply buffer_spells).
      rewrite (fixed "[co] as " _ [TLbracket; TWord "co"; TRbracket; TWord "as"]) by reflexivity.
      rewrite (spelled ty (TWord ty)) by (reflexivity || assumption). rewrite (fixed ")" _ [TRpar]) by reflexivity. reflexivity. }
    assert (H := get_has _ _ w op B ltac:(lia) H1).
    pose (x := ECast (EIndex name (EVar "co")) ty). exists [SRet (get_expr x op)].
    assert (XT : typ [("co"%string, usize)] x = Some (TInt w)).
    { unfold x. cbn [typ assoc]. rewrite T. reflexivity. }
    split; [|split].
    + unfold block, get_body. rewrite (fixed "{" _ [TLbrace]) by reflexivity. rewrite H by reflexivity.
      change (tokens "}") with [TRbrace]. cbn [app]. rewrite app_length, Nat.add_comm. cbn [length Nat.add].
      unfold x, get_toks, get_expr, shift_expr, shift_toks.
      destruct (negb (g_mask op =? 255)), (g_shiftr op - g_shiftl op =? 0), (g_shiftr op - g_shiftl op <? 0); reflexivity.
    + cbn [typed]. rewrite (get_expr_typ w ltac:(lia) _ x op XT H1). apply Z.eqb_refl.
    + intros m b co Bk. cbn [returns gen_get_ops].
      assert (XE : eval m b [("co"%string, usize)] [("co"%string, co)] x = idx b co).
      { unfold x. cbn [eval assoc]. change ("co" =? "co")%string with true. cbv iota. cbn [bind]. rewrite T.
        destruct (idx b co) as [v|e] eqn:X; [|reflexivity]. cbn [bind]. f_equal.
        apply idx_byte in X; [|exact Bk]. destruct X as [X0 X1]. unfold cast_u. apply Z.mod_small.
        assert (P : 256 <= 2 ^ w) by (change 256 with (2 ^ 8); apply Z.pow_le_mono_r; lia). lia. }
      destruct (idx b co) as [v|e].
      * apply (get_expr_eval m b w TW); auto.
      * cbn [bind]. unfold get_expr, shift_expr.
        destruct (negb (g_mask op =? 255)), (g_shiftr op - g_shiftl op =? 0), (g_shiftr op - g_shiftl op <? 0);
          cbn [eval]; rewrite XE; reflexivity.
  - remember (op :: op2 :: ops) as l eqn:E.
    assert (L2 : (2 <= length l <= 9)%nat) by (rewrite E in *; cbn [length] in *; lia).
    exists (all_lets name ty 0 l ++ [SRet (or_tree (length l))])%list. split; [|split].
    + unfold block, get_body. rewrite (fixed "{" _ [TLbrace]) by reflexivity.
      replace (match l with [x] => _ | _ => _ end) with (get_stmts name ty 0 l ++ newline ++ build_return (length l) ++ newline)%string
        by (rewrite E; reflexivity).
      rewrite !app_assoc_s. rewrite (get_stmts_tokens name ty w) by (assumption || lia). cbn [app].
      rewrite app_length. assert (M := all_let_toks_length name ty l 0).
      destruct (return_parse (length l) 0 L2) as [_ R1].
      set (rt := tokens (newline ++ build_return (length l) ++ newline ++ "}")) in *.
      replace (length (all_let_toks name ty 0 l) + length rt)%nat
        with (length l + S (length (all_let_toks name ty 0 l) - length l + length rt - 1))%nat by lia.
      apply all_lets_parse. apply return_parse. exact L2.
    + rewrite (lets_typed w TW name ty) by (assumption || reflexivity || lia). cbn [typed].
      rewrite or_tree_typ by lia. apply Z.eqb_refl.
    + intros m b co B. rewrite (lets_return m b w TW co name ty) by (assumption || reflexivity || lia).
      replace (gen_get_ops m w l b co) with (get_multi m w l b co 0 0) by (rewrite E; reflexivity).
      rewrite get_multi_values. destruct (values m b w co l 0) as [vs|e] eqn:V; [|reflexivity]. cbn [bind].
      apply values_length in V. rewrite <- V. apply or_tree_eval. lia.
Qed.

(** ** Setter bodies *)

Definition sprints (w : Z) (op : setop) : Prop :=
  0 <= s_save op < 256 /\ 0 < s_vmask op < 2 ^ w /\ Z.abs (s_shiftr op - s_shiftl op) < w.
Definition value_expr (op : setop) : expr :=
  shift_expr (if negb (s_vmask op =? 255) then EAnd (EVar "val") (ENum (s_vmask op)) else EVar "val") (s_shiftr op - s_shiftl op).
Definition cell_expr (name : string) (i : Z) : expr := EIndex name (EAdd (EVar "co") (ENum i)).
Definition set_expr (name : string) (i : Z) (op : setop) : expr :=
  if negb (s_save op =? 0)
  then ECast (EOr (EAnd (cell_expr name i) (ENum (s_save op))) (ECast (value_expr op) "u8")) "u8"
  else ECast (value_expr op) "u8".
Definition assignment (name : string) (i : Z) (op : setop) : stmt :=
  SAssign name (EAdd (EVar "co") (ENum i)) (set_expr name i op).

Definition assign_toks (name : string) (i : Z) (op : setop) : list tok := (set_toks (cell_toks name i) op ++ [TSemi])%list.
Lemma set_stmt_tokens : forall name w i op r, In name buffer_names -> w <= 64 -> 0 <= i < 128 -> sprints w op ->
  tokens (set_stmt name i op ++ r) = (assign_toks name i op ++ tokens r)%list.
Proof.
  intros name w i op r N W I (V & M & S).
  assert (P : 2 ^ w <= 2 ^ 64) by (apply Z.pow_le_mono_r; lia).
  assert (H := set_has (cell name i) _ op (cell_has name i N I)).
  assert (NB : nobrace (cell name i) = true).
  { unfold cell. rewrite !nobrace_app, (dec_nobrace i I). rewrite (wordy_nobrace name) by apply (buffer_spells name N). reflexivity. }
  specialize (H NB). assert (SP : sop_prints op) by (unfold sop_prints; lia). specialize (H SP).
  unfold set_stmt. fold (cell name i). rewrite app_assoc_s. rewrite H by reflexivity.
  rewrite (fixed (";" ++ newline) _ [TSemi]) by reflexivity. unfold assign_toks. now rewrite <- app_assoc.
Qed.
Lemma assign_parse : forall name i op rest k, In name buffer_names ->
  statements (S k) (assign_toks name i op ++ rest) =
  match statements k rest with Some t => Some (assignment name i op :: t) | None => None end.
Proof.
  intros name i op rest k N. unfold assign_toks, assignment, set_expr, set_toks, value_toks, value_expr, shift_expr, shift_toks.
  cbn [buffer_names In] in N. destruct N as [<-|[<-|[<-|[]]]];
  destruct (negb (s_save op =? 0)), (negb (s_vmask op =? 255)), (s_shiftr op - s_shiftl op =? 0), (s_shiftr op - s_shiftl op <? 0); reflexivity.
Qed.

Section SetEval.
Variable m : mode.
Variable w co val : Z.
Hypothesis W : 8 <= w <= 64.
Let G : list (string * Z) := [("co", usize); ("val", w)]%string.
Let V : list (string * Z) := [("co", co); ("val", val)]%string.

Lemma value_typ : forall op, sprints w op -> typ G (value_expr op) = Some (TInt w).
Proof.
  intros op (_ & M & S). unfold value_expr, shift_expr.
  assert (A : typ G (if negb (s_vmask op =? 255) then EAnd (EVar "val") (ENum (s_vmask op)) else EVar "val") = Some (TInt w)).
  { destruct (negb (s_vmask op =? 255)); [|reflexivity]. cbn. destruct (s_vmask op <? 2 ^ w) eqn:Q; [reflexivity|lia]. }
  set (y := if negb _ then _ else _) in *. clearbody y.
  destruct (s_shiftr op - s_shiftl op =? 0); [exact A|].
  destruct (s_shiftr op - s_shiftl op <? 0); cbn [typ]; rewrite A; cbn [shifted];
    (destruct (Z.abs _ <? w) eqn:Q; [reflexivity|lia]).
Qed.
Definition setop_value (op : setop) : res Z :=
  let v := if s_vmask op =? 255 then val else Z.land val (s_vmask op) in
  let sh := s_shiftr op - s_shiftl op in
  if sh =? 0 then Ok v else if sh <? 0 then shl_u m w v (- sh) else shr_u m w v sh.
Lemma value_eval : forall b op, sprints w op -> eval m b G V (value_expr op) = setop_value op.
Proof.
  intros b op O. assert (T := value_typ op O). destruct O as (_ & M & S). unfold value_expr, shift_expr, setop_value in *. cbv zeta.
  assert (A : eval m b G V (if negb (s_vmask op =? 255) then EAnd (EVar "val") (ENum (s_vmask op)) else EVar "val")
     = Ok (if s_vmask op =? 255 then val else Z.land val (s_vmask op))).
  { destruct (s_vmask op =? 255); reflexivity. }
  assert (AT : typ G (if negb (s_vmask op =? 255) then EAnd (EVar "val") (ENum (s_vmask op)) else EVar "val") = Some (TInt w)).
  { destruct (negb (s_vmask op =? 255)); [|reflexivity]. cbn. destruct (s_vmask op <? 2 ^ w) eqn:Q; [reflexivity|lia]. }
  set (y := if negb _ then _ else _) in *. clearbody y. clear T.
  destruct (s_shiftr op - s_shiftl op =? 0) eqn:Q0; [exact A|].
  destruct (s_shiftr op - s_shiftl op <? 0) eqn:Q1; cbn [eval]; rewrite A; cbn [bind]; unfold width_of; rewrite AT.
  - replace (Z.abs (s_shiftr op - s_shiftl op)) with (- (s_shiftr op - s_shiftl op)) by lia. reflexivity.
  - replace (Z.abs (s_shiftr op - s_shiftl op)) with (s_shiftr op - s_shiftl op) by lia. reflexivity.
Qed.
Lemma setop_value_ok : forall op, sprints w op -> exists v, setop_value op = Ok v.
Proof.
  intros op (_ & M & S). unfold setop_value. destruct (s_shiftr op - s_shiftl op =? 0); [eauto|].
  destruct (s_shiftr op - s_shiftl op <? 0) eqn:Q.
  - unfold shl_u. destruct ((0 <=? _) && _) eqn:L; [eauto|lia].
  - unfold shr_u. destruct ((0 <=? _) && _) eqn:L; [eauto|lia].
Qed.
Lemma eval_setop_value : forall op x, eval_setop m w op x val =
  (r <- setop_value op ;; if s_save op =? 0 then Ok (cast_u 8 r) else Ok (Z.lor (Z.land x (s_save op)) (cast_u 8 r))).
Proof. reflexivity. Qed.

Lemma cell_typ : forall name i, 0 <= i < 128 -> typ G (cell_expr name i) = Some (TInt 8).
Proof.
  intros name i I. unfold cell_expr. cbn [typ]. change (assoc G "co"%string) with (Some usize). cbn [same].
  destruct (i <? 2 ^ usize) eqn:Q; [reflexivity|unfold usize in Q; lia].
Qed.
Lemma assign_typ : forall name i op, 0 <= i < 128 -> sprints w op -> typ G (set_expr name i op) = Some (TInt 8).
Proof.
  intros name i op I O. assert (T := value_typ op O). destruct O as (S & _ & _). unfold set_expr. destruct (negb (s_save op =? 0)).
  - cbn [typ]. fold (cell_expr name i). rewrite cell_typ by exact I. cbn [same]. destruct (s_save op <? 2 ^ 8) eqn:Q; [|lia].
    rewrite T. reflexivity.
  - cbn [typ]. rewrite T. reflexivity.
Qed.
Lemma addr_eval : forall b i, 0 <= i < 128 -> eval m b G V (EAdd (EVar "co") (ENum i)) = add_u m usize co i.
Proof.
  intros b i I. cbn [eval]. change (assoc V "co"%string) with (Some co). cbn [bind]. unfold width_of. cbn [typ].
  change (assoc G "co"%string) with (Some usize). cbn [same]. destruct (i <? 2 ^ usize) eqn:Q; [reflexivity|unfold usize in Q; lia].
Qed.
Lemma land_byte : forall x y, byte_ok x -> 0 <= y < 256 -> byte_ok (Z.land x y).
Proof.
  intros x y X Y. apply byte_bits; [apply Z.land_nonneg; destruct X; lia|]. intros k K. rewrite Z.land_spec.
  rewrite byte_testbit_high by assumption. reflexivity.
Qed.
Lemma lor_byte : forall x y, byte_ok x -> byte_ok y -> byte_ok (Z.lor x y).
Proof.
  intros x y X Y. apply byte_bits; [apply Z.lor_nonneg; destruct X, Y; lia|]. intros k K. rewrite Z.lor_spec.
  rewrite !byte_testbit_high by assumption. reflexivity.
Qed.
Lemma byte_cast : forall x, byte_ok x -> cast_u 8 x = x.
Proof. intros x [A B]. unfold cast_u. apply Z.mod_small. change (2 ^ 8) with 256. lia. Qed.
Lemma cast_byte : forall x, byte_ok (cast_u 8 x).
Proof. intros x. unfold cast_u. apply Z.mod_pos_bound. reflexivity. Qed.

Lemma keep_eval : forall b name i op, 0 <= i < 128 ->
  eval m b G V (ECast (EOr (EAnd (cell_expr name i) (ENum (s_save op))) (ECast (value_expr op) "u8")) "u8") =
  (v <- (u <- (u <- (p <- add_u m usize co i ;; idx b p) ;; Ok (Z.land u (s_save op))) ;;
    v <- (v <- eval m b G V (value_expr op) ;; Ok (cast_u 8 v)) ;; Ok (Z.lor u v)) ;; Ok (cast_u 8 v)).
Proof. intros b name i op I. rewrite <- (addr_eval b i I). reflexivity. Qed.

Fixpoint all_assignments (name : string) (i : Z) (ops : list setop) : list stmt :=
  match ops with
  | [] => []
  | op :: r => assignment name i op :: all_assignments name (i + 1) r
  end.
Lemma assignments_typed : forall name ops i, Forall (sprints w) ops -> 0 <= i -> i + Z.of_nat (length ops) <= 128 ->
  typed G None (all_assignments name i ops) = true.
Proof.
  intros name. induction ops as [|op r IH]; intros i F I L; [reflexivity|]. inversion F; subst. cbn [length] in L.
  cbn [all_assignments assignment typed]. rewrite assign_typ by (assumption || lia). fold (cell_expr name i). rewrite cell_typ by lia.
  apply IH; auto; lia.
Qed.
Lemma store_bytes : forall b p y, bytes_ok b -> byte_ok y -> bytes_ok (fst (store b p y)).
Proof.
  intros b p y B Y. unfold store. destruct ((0 <=? p) && (p <? blen b)); [|exact B]. cbn [fst].
  clear - B Y. revert B. generalize (Z.to_nat p). intros n. revert n. induction b as [|x b IH]; intros n B; destruct n; cbn [upd_nat]; auto.
  - constructor; [exact Y|]. now inversion B.
  - inversion B; subst. constructor; [assumption|]. apply IH. assumption.
Qed.
Lemma assignments_run : forall name ops i b, Forall (sprints w) ops -> 0 <= i -> i + Z.of_nat (length ops) <= 128 -> bytes_ok b ->
  assigns m G V (all_assignments name i ops) b = gen_set_ops m w ops co i val b.
Proof.
  intros name. induction ops as [|op r IH]; intros i b F I L B; [reflexivity|]. inversion F; subst. cbn [length] in L.
  cbn [all_assignments assignment assigns gen_set_ops]. rewrite addr_eval by lia.
  destruct (setop_value_ok op H1) as [v0 Ev]. assert (VE := value_eval b op H1).
  rewrite Ev in VE.
  destruct (add_u m usize co i) as [p|e] eqn:A.
  2:{ unfold set_expr. destruct (negb (s_save op =? 0)).
      - rewrite keep_eval by lia. rewrite A. reflexivity.
      - cbn [eval]. rewrite VE. reflexivity. }
  destruct (idx b p) as [x|e] eqn:X.
  - assert (XB : byte_ok x) by (eapply idx_byte; eauto).
    assert (SE : eval m b G V (set_expr name i op) = eval_setop m w op x val).
    { rewrite eval_setop_value, Ev. cbn [bind]. unfold set_expr. destruct (s_save op =? 0) eqn:Q; cbn [negb].
      - cbn [eval]. rewrite VE. reflexivity.
      - rewrite keep_eval by lia. rewrite A. cbn [bind]. rewrite X. cbn [bind]. rewrite VE. cbn [bind].
        f_equal. apply byte_cast. apply lor_byte; [|apply cast_byte]. apply land_byte; [exact XB|]. destruct H1 as [S _]. exact S. }
    rewrite SE. cbn [bind]. rewrite X. cbn [bind].
    assert (YB : exists y, eval_setop m w op x val = Ok y /\ byte_ok y).
    { rewrite eval_setop_value, Ev. cbn [bind]. destruct (s_save op =? 0); eexists; (split; [reflexivity|]).
      - apply cast_byte.
      - apply lor_byte; [|apply cast_byte]. apply land_byte; [exact XB|]. destruct H1 as [S _]. exact S. }
    destruct YB as [y [Ey Yb]]. rewrite Ey. cbn [bind]. unfold mseq.
    assert (SB := store_bytes b p y B Yb). destruct (store b p y) as [b' [[]|e]]; [|reflexivity].
    cbn [fst] in SB. apply IH; auto; lia.
  - cbn [bind]. rewrite X. cbn [bind]. unfold set_expr. destruct (s_save op =? 0) eqn:Q; cbn [negb].
    + cbn [eval]. rewrite VE. cbn [bind]. unfold store. unfold idx in X.
      destruct ((0 <=? p) && (p <? blen b)); [discriminate X|]. now injection X as <-.
    + rewrite keep_eval by lia. rewrite A. cbn [bind]. rewrite X. reflexivity.
Qed.
End SetEval.

Fixpoint all_assign_toks (name : string) (i : Z) (ops : list setop) : list tok :=
  match ops with
  | [] => []
  | op :: r => (assign_toks name i op ++ all_assign_toks name (i + 1) r)%list
  end.
Lemma set_stmts_tokens : forall name w ops i r, In name buffer_names -> w <= 64 ->
  Forall (sprints w) ops -> 0 <= i -> i + Z.of_nat (length ops) <= 128 ->
  tokens (set_stmts name i ops ++ r) = (all_assign_toks name i ops ++ tokens r)%list.
Proof.
  intros name w. induction ops as [|op ops IH]; intros i r N T F I L; [reflexivity|]. inversion F; subst. cbn [length] in L.
  cbn [set_stmts all_assign_toks]. rewrite app_assoc_s. rewrite (set_stmt_tokens name w) by (assumption || lia).
  rewrite IH by (assumption || lia). now rewrite app_assoc.
Qed.
Lemma all_assign_parse : forall name ops i rest k t, In name buffer_names -> statements k rest = Some t ->
  statements (length ops + k) (all_assign_toks name i ops ++ rest) = Some (all_assignments name i ops ++ t)%list.
Proof.
  intros name. induction ops as [|op ops IH]; intros i rest k t N E; [exact E|]. cbn [length all_assign_toks all_assignments Nat.add].
  rewrite <- app_assoc, assign_parse by exact N. now rewrite (IH _ _ _ _ N E).
Qed.
Lemma all_assign_toks_length : forall name ops i, (length ops <= length (all_assign_toks name i ops))%nat.
Proof.
  intros name. induction ops as [|op ops IH]; intros i; [cbn; lia|]. cbn [length all_assign_toks]. rewrite app_length.
  specialize (IH (i + 1)). unfold assign_toks. rewrite app_length. cbn [length]. lia.
Qed.

(** ** The planned operations of a field *)

Lemma to_setop_prints : forall w op, op_prints w op -> sprints w (to_setop op).
Proof.
  intros w op (M & S & V & P & _). unfold sprints. split; [exact P|]. split; [exact V|].
  unfold to_setop. cbn [s_shiftr s_shiftl]. lia.
Qed.
Lemma sprints_wider : forall w op, w <= 64 -> sprints w op -> sprints 64 op.
Proof.
  intros w op W (A & B & C). unfold sprints. assert (P : 2 ^ w <= 2 ^ 64) by (apply Z.pow_le_mono_r; lia). lia.
Qed.
Definition gprintsb (w : Z) (op : getop) : bool :=
  (0 <? g_mask op) && (g_mask op <? 256) && (Z.abs (g_shiftr op - g_shiftl op) <? w).
Definition sprintsb (w : Z) (op : setop) : bool :=
  (0 <=? s_save op) && (s_save op <? 256) && (0 <? s_vmask op) && (s_vmask op <? 2 ^ w) &&
  (Z.abs (s_shiftr op - s_shiftl op) <? w).
Definition bad_place (o s : Z) : bool := (5 <=? o) && ((s =? 8) || (s =? 16) || (s =? 32)).
Definition le_checked (o s : Z) : bool :=
  let ops := to_little_endian (be_ops o s) in
  forallb (gprintsb (container s)) ops && forallb (sprintsb 64) (to_mutator ops) &&
  (Nat.leb 1 (length ops)) && (Nat.leb (length ops) 9) &&
  (if bad_place o s then existsb (fun op => negb (s_vmask op =? 255) && negb (s_vmask op <? 2 ^ container s)) (to_mutator ops)
   else forallb (sprintsb (container s)) (to_mutator ops)).
Lemma le_sweep : forallb (fun o => forallb (fun s => if o + s mod 8 <=? 8 then le_checked o s else true) (zrange 1 64)) (zrange 0 8) = true.
Proof. vm_compute. reflexivity. Qed.

Definition text_facts (w : Z) (bad : bool) (ops : list getop) : Prop :=
  Forall (gprints w) ops /\ Forall (sprints 64) (to_mutator ops) /\ (1 <= length ops <= 9)%nat /\
  (bad = false -> Forall (sprints w) (to_mutator ops)) /\
  (bad = true -> exists op, In op (to_mutator ops) /\ s_vmask op <> 255 /\ 2 ^ w <= s_vmask op).
Lemma forallb_Forall : forall A (f : A -> bool) (P : A -> Prop) l, (forall x, f x = true -> P x) -> forallb f l = true -> Forall P l.
Proof. intros A f P l H E. rewrite forallb_forall in E. apply Forall_forall. auto. Qed.
Lemma gprintsb_ok : forall w op, gprintsb w op = true -> gprints w op.
Proof. intros w op. unfold gprintsb, gprints. lia. Qed.
Lemma sprintsb_ok : forall w op, sprintsb w op = true -> sprints w op.
Proof. intros w op. unfold sprintsb, sprints. lia. Qed.
Lemma le_facts : forall o s, placed o s -> text_facts (container s) (bad_place o s) (to_little_endian (be_ops o s)).
Proof.
  intros o s (O & S & P). assert (SW := le_sweep). rewrite forallb_forall in SW.
  specialize (SW o ltac:(apply in_zrange; lia)). rewrite forallb_forall in SW.
  specialize (SW s ltac:(apply in_zrange; lia)). cbv beta in SW.
  destruct (o + s mod 8 <=? 8) eqn:Q; [|lia]. unfold le_checked in SW. cbv zeta in SW.
  set (ops := to_little_endian (be_ops o s)) in *. clearbody ops.
  apply andb_prop in SW. destruct SW as [SW A5]. apply andb_prop in SW. destruct SW as [SW A4].
  apply andb_prop in SW. destruct SW as [SW A3]. apply andb_prop in SW. destruct SW as [A1 A2].
  split; [exact (forallb_Forall _ _ _ _ (gprintsb_ok _) A1)|]. split; [exact (forallb_Forall _ _ _ _ (sprintsb_ok _) A2)|].
  split; [apply Nat.leb_le in A3; apply Nat.leb_le in A4; lia|]. destruct (bad_place o s).
  - split; [discriminate|]. intros _. apply existsb_exists in A5. destruct A5 as [op [I E]]. exists op. split; [exact I|].
    set (z := 2 ^ container s) in *. clearbody z. lia.
  - split; [|discriminate]. intros _. exact (forallb_Forall _ _ _ _ (sprintsb_ok _) A5).
Qed.
Lemma be_facts : forall o s, placed o s -> text_facts (container s) false (be_ops o s).
Proof.
  intros o s P. assert (WF := be_ops_wf o s P). assert (L := be_ops_length o s P). assert (F := num_bytes_facts o s P).
  assert (OP : Forall (op_prints (container s)) (be_ops o s)).
  { unfold ops_wf in WF. revert WF. generalize (be_ops o s) (be_lens o s). clear. intros l ps WF.
    induction WF; constructor; [eapply op_wf_prints; eassumption|assumption]. }
  assert (SP : Forall (sprints (container s)) (to_mutator (be_ops o s))).
  { unfold to_mutator. apply Forall_forall. intros x X. apply in_map_iff in X. destruct X as [op [<- I]].
    apply to_setop_prints. rewrite Forall_forall in OP. auto. }
  assert (W : container s <= 64).
  { unfold container. destruct P as (_ & S & _). destruct (s <=? 8), (s <=? 16), (s <=? 32); lia. }
  split; [|split; [|split; [|split]]].
  - eapply Forall_impl; [|exact OP]. intros op (A & B & _). repeat split; lia.
  - eapply Forall_impl; [|exact SP]. intros op. apply sprints_wider. exact W.
  - lia.
  - intros _. exact SP.
  - discriminate.
Qed.

Definition unfit (c : cfg) (bit size : Z) (e : endian) : bool :=
  negb (big_endian (c_host_le c) e) && bad_place (bit mod 8) size.
Lemma plan_facts : forall c bit size e, supported bit size ->
  exists ops, plan c bit (Prim size e) = Some ops /\ text_facts (container size) (unfit c bit size e) ops.
Proof.
  intros c bit size e (S & P). assert (PL : placed (bit mod 8) size) by (split; [lia|split; assumption]).
  unfold plan. cbn [p_size p_end]. rewrite operations_closed by exact PL. eexists. split; [reflexivity|].
  unfold unfit, big_endian. destruct e; cbn [negb andb].
  - apply be_facts. exact PL.
  - apply le_facts. exact PL.
  - destruct (c_host_le c); cbn [negb andb]; [apply le_facts|apply be_facts]; exact PL.
Qed.

Lemma no_alias_8 : forallb (fun p => match parse_ty (fst p) with
  | Some (s, e, _) => negb (s =? 8) || match e with Big => true | _ => false end | None => true end)
  ([("u8", 8); ("u16", 16); ("u32", 32); ("u64", 64)]%string ++ aliases)%list = true.
Proof. vm_compute. reflexivity. Qed.
Lemma byte_is_big : forall ty e x, type_width ty <> None -> parse_ty ty = Some (8, e, x) -> e = Big.
Proof.
  intros ty e x T P. destruct (type_width ty) as [w|] eqn:W; [|congruence]. apply assoc_in in W.
  assert (A := no_alias_8). rewrite forallb_forall in A. specialize (A _ W). cbn [fst] in A. rewrite P in A.
  cbn [Z.eqb negb orb] in A. destruct e; [reflexivity|discriminate A..].
Qed.

Theorem getter_text : forall c bit ty size e x name, parse_ty ty = Some (size, e, x) -> type_width ty <> None ->
  In name buffer_names -> supported bit size ->
  exists ops l, plan c bit (Prim size e) = Some ops /\ block (get_body name ty ops) = Some l /\
    typed [("co", usize)]%string (Some (container size)) l = true /\
    forall b co, bytes_ok b ->
      returns (c_mode c) b [("co", usize)]%string [("co", co)]%string l = prim_get c bit (Prim size e) b co.
Proof.
  intros c bit ty size e x name P T N S. destruct (type_width ty) as [w|] eqn:TW; [|congruence].
  assert (w = container size) by (eapply type_container; eauto). subst w.
  destruct (plan_facts c bit size e S) as (ops & PL & F1 & F2 & L & _).
  destruct (get_body_reads name ty _ ops N TW F1 L) as (l & B & GT & R).
  exists ops, l. split; [exact PL|]. split; [exact B|]. split; [exact GT|]. intros b co BO. unfold prim_get. rewrite PL. apply R. exact BO.
Qed.
Lemma set_body_parses : forall name w ops, In name buffer_names -> w <= 64 -> Forall (sprints w) ops -> (length ops <= 9)%nat ->
  block (set_body name ops) = Some (all_assignments name 0 ops).
Proof.
  intros name w ops N W F L.
  unfold block, set_body. rewrite (fixed "{" _ [TLbrace]) by reflexivity.
  rewrite (set_stmts_tokens name w) by (assumption || lia). change (tokens "}") with [TRbrace]. cbn [app].
  rewrite app_length. cbn [length]. assert (M := all_assign_toks_length name ops 0).
  replace (length (all_assign_toks name 0 ops) + 1)%nat
    with (length ops + S (length (all_assign_toks name 0 ops) - length ops))%nat by lia.
  rewrite (all_assign_parse name ops 0 [TRbrace] _ [] N) by reflexivity. now rewrite app_nil_r.
Qed.
Theorem setter_text : forall c bit ty size e x name, parse_ty ty = Some (size, e, x) -> type_width ty <> None ->
  In name buffer_names -> supported bit size ->
  exists ops l, plan c bit (Prim size e) = Some ops /\ block (set_body name (to_mutator ops)) = Some l /\
    (~ (big_endian (c_host_le c) e = false /\ 5 <= bit mod 8 /\ (size = 16 \/ size = 32)) ->
     typed [("co", usize); ("val", container size)]%string None l = true /\
     forall b co val, bytes_ok b ->
       assigns (c_mode c) [("co", usize); ("val", container size)]%string [("co", co); ("val", val)]%string l b =
       prim_set c bit (Prim size e) val co b) /\
    (big_endian (c_host_le c) e = false /\ 5 <= bit mod 8 /\ (size = 16 \/ size = 32) ->
     typed [("co", usize); ("val", container size)]%string None l = false).
Proof.
  intros c bit ty size e x name P T N S. destruct (type_width ty) as [w|] eqn:TW; [|congruence].
  assert (w = container size) by (eapply type_container; eauto). subst w.
  destruct (plan_facts c bit size e S) as (ops & PL & F1 & F2 & L & GOOD & BAD).
  destruct (type_spells ty _ TW) as [_ WB].
  assert (LM : (length (to_mutator ops) <= 9)%nat) by (unfold to_mutator; rewrite map_length; lia).
  exists ops, (all_assignments name 0 (to_mutator ops)). split; [exact PL|].
  split; [apply (set_body_parses name 64); (assumption || lia)|]. split.
  - intros NB. assert (U : unfit c bit size e = false).
    { unfold unfit. destruct (big_endian (c_host_le c) e) eqn:BE; [reflexivity|]. cbn [negb andb].
      destruct (bad_place (bit mod 8) size) eqn:Q; [|reflexivity]. exfalso. unfold bad_place in Q.
      assert (size = 8 \/ size = 16 \/ size = 32) by lia. destruct H as [->|H]; [|apply NB; lia].
      assert (e = Big) by (eapply byte_is_big; [|exact P]; congruence). subst e. discriminate BE. }
    specialize (GOOD U). split; [apply assignments_typed; (assumption || lia)|].
    intros b co val B. unfold prim_set. rewrite PL. apply assignments_run; (assumption || lia).
  - intros (BE & O & SZ). assert (U : unfit c bit size e = true) by (unfold unfit, bad_place; rewrite BE; cbn [negb andb]; lia).
    destruct (BAD U) as [op [I [NV V]]]. destruct (typed _ None _) eqn:TY; [|reflexivity]. exfalso.
    revert TY I NV V. generalize (to_mutator ops) 0. clear. induction l as [|a r IH]; intros i TY I NV V; [exact I|].
    cbn [all_assignments assignment typed] in TY.
    destruct (typ _ (EIndex name _)) as [[wi|]|]; try discriminate TY.
    destruct I as [->|I].
    + destruct (typ _ (set_expr name i op)) as [t|] eqn:E;
        [|destruct wi as [|wp|]; try discriminate TY; do 4 (destruct wp as [wp|wp|]; try discriminate TY)].
      assert (VN : typ [("co", usize); ("val", container size)]%string (value_expr op) = None).
      { unfold value_expr. destruct (s_vmask op =? 255) eqn:Q; [lia|]. cbn [negb].
        assert (Y : typ [("co", usize); ("val", container size)]%string (EAnd (EVar "val") (ENum (s_vmask op))) = None).
        { cbn [typ assoc String.eqb Ascii.eqb Bool.eqb same]. destruct (s_vmask op <? 2 ^ container size) eqn:Q2; [lia|reflexivity]. }
        unfold shift_expr. destruct (_ =? 0); [exact Y|]. destruct (_ <? 0); cbn [typ] in Y |- *; rewrite Y; reflexivity. }
      unfold set_expr in E. destruct (negb (s_save op =? 0)); cbn [typ] in E; rewrite VN in E.
      * destruct (match typ _ (cell_expr name i) with Some _ => _ | None => _ end); discriminate E.
      * discriminate E.
    + eapply IH; [|exact I|exact NV|exact V].
      destruct wi as [|wp|]; try discriminate TY. do 4 (destruct wp as [wp|wp|]; try discriminate TY).
      destruct (typ _ (set_expr name i a)) as [[wj|]|]; try discriminate TY.
      destruct wj as [|wq|]; try discriminate TY. do 4 (destruct wq as [wq|wq|]; try discriminate TY). exact TY.
Qed.
