(** Property C92: the packet descriptions of the model are the struct declarations of the
    crate. *)
From Coq Require Import String ZArith List Bool Lia.
From Verif Require Import Base DeriveUtil DeriveOps DeriveGen DeriveParse Protocols Quic FmtText Samples
  RustLex RustSyntax RustItem RustSem CrateText SpecSource SpecItem ItemProofs ItemLayout.
Import ListNotations.
Open Scope string_scope.
Open Scope Z_scope.

(** ** C92: structs *)

(** Every packet description comes from the text of a struct of the same name: the macro
    accepts that struct, and field by field the name, the type, the construct_with list,
    the payload mark and the value of the length attribute are those of the description. *)
Theorem C92_descriptions_mean_their_structs : forall c name fs, In (name, fs) (all_packets c) ->
  exists mod_ text, In (mod_, name, text) crate_structs /\ declares c mod_ name text fs.
Proof. exact declared. Qed.
Print Assumptions C92_descriptions_mean_their_structs.

(** No struct is left out. *)
Theorem C92_every_struct_is_described : forall c mod_ name text, In (mod_, name, text) crate_structs ->
  exists fs, In (name, fs) (all_packets c).
Proof. exact every_struct. Qed.
Print Assumptions C92_every_struct_is_described.

(** In any buffer, the length of a field is what its attribute's text evaluates to, with
    the getters of that very packet, [...] standing for the bytes from the field on, and
    the crate's functions run from their own texts. *)
Theorem C92_lengths_run_from_text : forall c name fs b, In (name, fs) (all_packets c) -> buf_ok b ->
  exists mod_ text sf ps, In (mod_, name, text) crate_structs /\ read_struct text = Some (name, sf) /\
  parse_packet sf = Ok (inl ps) /\
  forall n l rounds, find_field c b fs n = Some l -> exists p, In p ps /\ pf_name p = n /\
    match pf_len p with
    | None => l_len l = None
    | Some tokens => exists z, l_len l = Some z /\
        run_length c rounds mod_ ps tokens (fun n => get c fs n b) (co <- l_co c l ;; slice_from b co) =
        lift z (fun z => Done (RustSem.VI (Some Usize) z))
    end.
Proof. exact lengths_follow. Qed.
Print Assumptions C92_lengths_run_from_text.

(** A GRE packet with a key: the text of the key's length is run on it.  A declaration
    that differs in one byte order is told apart. *)
Definition c92_gre : buf := [32; 0; 8; 0; 1; 2; 3; 4; 9].
Definition c92_fields : list pfield :=
  match read_struct struct_Gre with Some (_, sf) => match parse_packet sf with Ok (inl ps) => ps | _ => [] end | None => [] end.
Definition c92_run (n : string) : option out :=
  match find (fun p => String.eqb (pf_name p) n) c92_fields with
  | Some p => option_map (fun t => run_length dbg 5 "gre" c92_fields t (fun n => get dbg (gre dbg) n c92_gre) (Ok [])) (pf_len p)
  | None => None
  end.
Definition c92_wrong : string :=
"pub struct U16BE {
    number: u16le,
    #[length = ""0""]
    #[payload]
    pub unused: Vec<u8>,
}".
Example C92_case :
  In ("Gre", gre dbg) (all_packets dbg) /\ buf_ok c92_gre /\
  c92_run "checksum" = Some (Done (RustSem.VI (Some Usize) 0)) /\
  c92_run "key" = Some (Done (RustSem.VI (Some Usize) 4)) /\ c92_run "payload" = None /\
  get_raw dbg (gre dbg) "key" c92_gre = Ok [1; 2; 3; 4] /\
  declares dbg "gre" "U16BE" struct_U16BE gre_u16 /\ ~ declares dbg "gre" "U16BE" c92_wrong gre_u16.
Proof.
  split; [apply (nth_error_In _ 14); reflexivity |]. split; [split; [repeat constructor; lia | reflexivity] |].
  split; [vm_compute; reflexivity |]. split; [vm_compute; reflexivity |]. split; [vm_compute; reflexivity |].
  split; [vm_compute; reflexivity |]. split; [exact (U16BE_declared dbg) |].
  intros (sf & ps & R & P & F & _). vm_compute in R. injection R as <-. vm_compute in P. injection P as <-.
  inversion F as [| p f ps fs (_ & _ & T & _) _]; subst. destruct T as [n T]. discriminate.
Qed.
