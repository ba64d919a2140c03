(** The functions and templates of GenCode.v as the parser reads them. *)
From Coq Require Import String Ascii ZArith List Bool.
From Verif Require Import Base DeriveUtil DeriveOps DeriveParse RustLex RustSyntax RustMethod RustAst RustEval EmitText EmitGen GenCode MacroEval.
Import ListNotations.
Open Scope string_scope.
Open Scope Z_scope.

Definition or_empty (o : option (list func * tpls)) : list func * tpls := match o with Some c => c | None => ([], []) end.
Definition none : func := Func "" [] "" (YInt "" 0).
Definition the_code : list func * tpls := Eval vm_compute in or_empty code_read.
Definition f_generate_packet : func := Eval vm_compute in nth 0 (fst the_code) none.
Definition f_packet_struct : func := Eval vm_compute in nth 1 (fst the_code) none.
Definition f_packet_impls : func := Eval vm_compute in nth 2 (fst the_code) none.
Definition f_current_offset : func := Eval vm_compute in nth 3 (fst the_code) none.
Definition f_packet_impl : func := Eval vm_compute in nth 4 (fst the_code) none.
Definition f_gen_accessor : func := Eval vm_compute in nth 5 (fst the_code) none.
Definition f_gen_mutator : func := Eval vm_compute in nth 6 (fst the_code) none.
Definition f_packet_size_impls : func := Eval vm_compute in nth 7 (fst the_code) none.
Definition f_packet_trait_impls : func := Eval vm_compute in nth 8 (fst the_code) none.
Definition f_impl_packet_trait_for : func := Eval vm_compute in nth 9 (fst the_code) none.
Definition f_iterables : func := Eval vm_compute in nth 10 (fst the_code) none.
Definition f_converters : func := Eval vm_compute in nth 11 (fst the_code) none.
Definition f_debug_impls : func := Eval vm_compute in nth 12 (fst the_code) none.
Definition f_packet_name : func := Eval vm_compute in nth 13 (fst the_code) none.
Definition f_packet_name_mut : func := Eval vm_compute in nth 14 (fst the_code) none.
Definition t_0 : list ttree := Eval vm_compute in snd (nth 0 (snd the_code) ("", [])).
Definition t_1 : list ttree := Eval vm_compute in snd (nth 1 (snd the_code) ("", [])).
Definition t_2 : list ttree := Eval vm_compute in snd (nth 2 (snd the_code) ("", [])).
Definition t_3 : list ttree := Eval vm_compute in snd (nth 3 (snd the_code) ("", [])).
Definition t_4 : list ttree := Eval vm_compute in snd (nth 4 (snd the_code) ("", [])).
Definition t_5 : list ttree := Eval vm_compute in snd (nth 5 (snd the_code) ("", [])).
Definition t_6 : list ttree := Eval vm_compute in snd (nth 6 (snd the_code) ("", [])).
Definition t_7 : list ttree := Eval vm_compute in snd (nth 7 (snd the_code) ("", [])).
Definition t_8 : list ttree := Eval vm_compute in snd (nth 8 (snd the_code) ("", [])).
Definition t_9 : list ttree := Eval vm_compute in snd (nth 9 (snd the_code) ("", [])).
Definition t_10 : list ttree := Eval vm_compute in snd (nth 10 (snd the_code) ("", [])).
Definition t_11 : list ttree := Eval vm_compute in snd (nth 11 (snd the_code) ("", [])).
Definition t_12 : list ttree := Eval vm_compute in snd (nth 12 (snd the_code) ("", [])).
Definition t_13 : list ttree := Eval vm_compute in snd (nth 13 (snd the_code) ("", [])).
Definition t_14 : list ttree := Eval vm_compute in snd (nth 14 (snd the_code) ("", [])).
Definition t_15 : list ttree := Eval vm_compute in snd (nth 15 (snd the_code) ("", [])).
Definition t_16 : list ttree := Eval vm_compute in snd (nth 16 (snd the_code) ("", [])).
Definition t_17 : list ttree := Eval vm_compute in snd (nth 17 (snd the_code) ("", [])).
Definition t_18 : list ttree := Eval vm_compute in snd (nth 18 (snd the_code) ("", [])).
Definition t_19 : list ttree := Eval vm_compute in snd (nth 19 (snd the_code) ("", [])).
Definition t_20 : list ttree := Eval vm_compute in snd (nth 20 (snd the_code) ("", [])).
Definition t_21 : list ttree := Eval vm_compute in snd (nth 21 (snd the_code) ("", [])).
Definition t_22 : list ttree := Eval vm_compute in snd (nth 22 (snd the_code) ("", [])).
Definition t_23 : list ttree := Eval vm_compute in snd (nth 23 (snd the_code) ("", [])).
Definition t_24 : list ttree := Eval vm_compute in snd (nth 24 (snd the_code) ("", [])).
Definition t_25 : list ttree := Eval vm_compute in snd (nth 25 (snd the_code) ("", [])).
Definition t_26 : list ttree := Eval vm_compute in snd (nth 26 (snd the_code) ("", [])).
Definition t_27 : list ttree := Eval vm_compute in snd (nth 27 (snd the_code) ("", [])).
Definition t_28 : list ttree := Eval vm_compute in snd (nth 28 (snd the_code) ("", [])).
Definition t_29 : list ttree := Eval vm_compute in snd (nth 29 (snd the_code) ("", [])).
Definition t_30 : list ttree := Eval vm_compute in snd (nth 30 (snd the_code) ("", [])).
Definition t_31 : list ttree := Eval vm_compute in snd (nth 31 (snd the_code) ("", [])).
Definition t_32 : list ttree := Eval vm_compute in snd (nth 32 (snd the_code) ("", [])).
Definition t_33 : list ttree := Eval vm_compute in snd (nth 33 (snd the_code) ("", [])).
Definition t_34 : list ttree := Eval vm_compute in snd (nth 34 (snd the_code) ("", [])).
Definition t_35 : list ttree := Eval vm_compute in snd (nth 35 (snd the_code) ("", [])).
Definition t_36 : list ttree := Eval vm_compute in snd (nth 36 (snd the_code) ("", [])).
Definition t_37 : list ttree := Eval vm_compute in snd (nth 37 (snd the_code) ("", [])).
Definition t_38 : list ttree := Eval vm_compute in snd (nth 38 (snd the_code) ("", [])).
Definition t_39 : list ttree := Eval vm_compute in snd (nth 39 (snd the_code) ("", [])).
Definition t_40 : list ttree := Eval vm_compute in snd (nth 40 (snd the_code) ("", [])).
Definition t_41 : list ttree := Eval vm_compute in snd (nth 41 (snd the_code) ("", [])).
Definition t_42 : list ttree := Eval vm_compute in snd (nth 42 (snd the_code) ("", [])).
Definition t_43 : list ttree := Eval vm_compute in snd (nth 43 (snd the_code) ("", [])).
Definition t_44 : list ttree := Eval vm_compute in snd (nth 44 (snd the_code) ("", [])).
Definition t_45 : list ttree := Eval vm_compute in snd (nth 45 (snd the_code) ("", [])).
Definition t_46 : list ttree := Eval vm_compute in snd (nth 46 (snd the_code) ("", [])).
Definition t_47 : list ttree := Eval vm_compute in snd (nth 47 (snd the_code) ("", [])).
Definition t_48 : list ttree := Eval vm_compute in snd (nth 48 (snd the_code) ("", [])).
Definition t_49 : list ttree := Eval vm_compute in snd (nth 49 (snd the_code) ("", [])).
Definition t_50 : list ttree := Eval vm_compute in snd (nth 50 (snd the_code) ("", [])).
Definition t_51 : list ttree := Eval vm_compute in snd (nth 51 (snd the_code) ("", [])).
Definition fs_c : list func := [f_generate_packet; f_packet_struct; f_packet_impls; f_current_offset; f_packet_impl; f_gen_accessor; f_gen_mutator; f_packet_size_impls; f_packet_trait_impls; f_impl_packet_trait_for; f_iterables; f_converters; f_debug_impls; f_packet_name; f_packet_name_mut].
Definition q_c : tpls := [("0", t_0); ("1", t_1); ("2", t_2); ("3", t_3); ("4", t_4); ("5", t_5); ("6", t_6); ("7", t_7); ("8", t_8); ("9", t_9); ("10", t_10); ("11", t_11); ("12", t_12); ("13", t_13); ("14", t_14); ("15", t_15); ("16", t_16); ("17", t_17); ("18", t_18); ("19", t_19); ("20", t_20); ("21", t_21); ("22", t_22); ("23", t_23); ("24", t_24); ("25", t_25); ("26", t_26); ("27", t_27); ("28", t_28); ("29", t_29); ("30", t_30); ("31", t_31); ("32", t_32); ("33", t_33); ("34", t_34); ("35", t_35); ("36", t_36); ("37", t_37); ("38", t_38); ("39", t_39); ("40", t_40); ("41", t_41); ("42", t_42); ("43", t_43); ("44", t_44); ("45", t_45); ("46", t_46); ("47", t_47); ("48", t_48); ("49", t_49); ("50", t_50); ("51", t_51)].
Lemma code_is : code_read = Some (fs_c, q_c).
Proof. vm_cast_no_check (eq_refl (Some (fs_c, q_c))). Qed.
(** The templates of EmitGen.v are among them. *)
Lemma is_check_len : tpl_check_len = t_14.
Proof. vm_cast_no_check (eq_refl t_14). Qed.
Lemma is_converters : tpl_converters = t_49.
Proof. vm_cast_no_check (eq_refl t_49). Qed.
Lemma is_copy_bytes : tpl_copy_bytes = t_16.
Proof. vm_cast_no_check (eq_refl t_16). Qed.
Lemma is_copy_loop : tpl_copy_loop = t_17.
Proof. vm_cast_no_check (eq_refl t_17). Qed.
Lemma is_get : tpl_get = t_33.
Proof. vm_cast_no_check (eq_refl t_33). Qed.
Lemma is_get_arg : tpl_get_arg = t_32.
Proof. vm_cast_no_check (eq_refl t_32). Qed.
Lemma is_impl : tpl_impl = t_31.
Proof. vm_cast_no_check (eq_refl t_31). Qed.
Lemma is_iterable : tpl_iterable = t_47.
Proof. vm_cast_no_check (eq_refl t_47). Qed.
Lemma is_misc_get : tpl_misc_get = t_24.
Proof. vm_cast_no_check (eq_refl t_24). Qed.
Lemma is_misc_set : tpl_misc_set = t_23.
Proof. vm_cast_no_check (eq_refl t_23). Qed.
Lemma is_packet_trait : tpl_packet_trait = t_46.
Proof. vm_cast_no_check (eq_refl t_46). Qed.
Lemma is_pkts_get : tpl_pkts_get = t_19.
Proof. vm_cast_no_check (eq_refl t_19). Qed.
Lemma is_pkts_set : tpl_pkts_set = t_20.
Proof. vm_cast_no_check (eq_refl t_20). Qed.
Lemma is_populate : tpl_populate = t_27.
Proof. vm_cast_no_check (eq_refl t_27). Qed.
Lemma is_raw : tpl_raw = t_11.
Proof. vm_cast_no_check (eq_refl t_11). Qed.
Lemma is_raw_mut : tpl_raw_mut = t_12.
Proof. vm_cast_no_check (eq_refl t_12). Qed.
Lemma is_set : tpl_set = t_35.
Proof. vm_cast_no_check (eq_refl t_35). Qed.
Lemma is_set_arg : tpl_set_arg = t_34.
Proof. vm_cast_no_check (eq_refl t_34). Qed.
Lemma is_size_impls : tpl_size_impls = t_36.
Proof. vm_cast_no_check (eq_refl t_36). Qed.
Lemma is_vec_get : tpl_vec_get = t_13.
Proof. vm_cast_no_check (eq_refl t_13). Qed.
Lemma is_vec_set : tpl_vec_set = t_18.
Proof. vm_cast_no_check (eq_refl t_18). Qed.
