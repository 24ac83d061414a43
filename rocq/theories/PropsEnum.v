(** C36 and C77: ENUM and SET columns. *)
From Verif Require Import EnumFacts PropsParse PropsRound PropsWrite Samples.

Local Opaque max_turns max_statements.

Lemma read_enum m s (P : column -> Prop) : enum_written m s -> (forall c, enum_means c m -> c_perrors c = [] -> P c) -> read_column s P.
Proof.
  intros W H. split.
  - intros next T N. destruct (enum_read m s (EComma next) W (conj (normal_trim _ T) N)) as (p & c & B & A & M & E). exists p, c. auto.
  - destruct (enum_read m s (EClose false "") W eq_refl) as (p & c & B & A & M & E). exists p, c. auto.
Qed.

Section Theorems.
  Context {FO : FloatOracle}.

  (** ** C36 *)

  (** What becomes of an ENUM or SET column with values: two errors, or with a default an exception. *)
  Theorem C36_always_refused : forall m s, enum_written m s ->
    read_column s (fun c => column_errors c
      = match e_default m with
        | Some (String _ _) => Raise (TypeError "argument of type 'NoneType' is not iterable")
        | _ => Ok ["Column " ++ e_name m ++ " of type " ++ e_type m ++ " cannot have a length";
                   "column '" ++ e_name m ++ "' of type '" ++ e_type m ++ "' must have a list of values"]
        end).
  Proof.
    intros m s W. apply (read_enum m s _ W). intros c M _. destruct (enum_written_values m s W) as (V & _ & T & N). apply enum_errors; assumption.
  Qed.

  (** ** C77 *)

  (** Full statement: the values of an ENUM or SET column are read exactly and in order, rendered so
      that a server has the same values, and compared as lists.  The rendering is not readable, see
      [C77_refuted]; a value with a quote and the order of attributes that servers use are not read,
      see [C77_refuted_quote] and [C77_refuted_order].  Proved here: reading and comparing. *)
  Theorem C77_values_read_partial : forall m s, enum_written m s -> read_column s (fun c => enum_means c m /\ c_perrors c = []).
  Proof. intros m s W. apply (read_enum m s _ W). auto. Qed.

  (** Two ways to write the same column make no difference. *)
  Theorem C77_same_values_partial : forall m s s', enum_written m s -> enum_written m s' ->
    read_column s (fun c => read_column s' (fun c' => column_changed c c' = Ok false)).
  Proof.
    intros m s s' W W'. apply (read_enum m s _ W). intros c M _. apply (read_enum m s' _ W'). intros c' M' _.
    unfold column_changed. rewrite (enum_same c c' m M M'), String.eqb_refl. reflexivity.
  Qed.
  (** Lists that differ in any way make one. *)
  Theorem C77_other_values_partial : forall m m' s s', enum_written m s -> enum_written m' s' ->
    e_name m = e_name m' -> e_values m <> e_values m' ->
    read_column s (fun c => read_column s' (fun c' => column_changed c c' = Ok true)).
  Proof.
    intros m m' s s' W W' N V. apply (read_enum m s _ W). intros c M _. apply (read_enum m' s' _ W'). intros c' M' _.
    exact (enum_other c c' m m' s s' W W' M M' N V).
  Qed.
End Theorems.

Definition state_meaning (vs : list string) : enum_meaning := mkEnum "state" "ENUM" vs false (Some "new") "" "".
Definition three := ["new"; "paid, in part"; ""].
Lemma values_okb vs : forallb (fun v => negb (has_char squote v) && String.eqb (collapse_ws v) v) vs = true -> Forall value_ok vs.
Proof.
  intros H. apply Forall_forall. intros v I. rewrite forallb_forall in H. specialize (H v I). apply andb_true_iff in H as [H1 H2].
  split; [apply negb_true_iff, H1|apply String.eqb_eq, H2].
Qed.
Lemma state_written vs tick w sp k ld : vs <> [] -> forallb (fun v => negb (has_char squote v) && String.eqb (collapse_ws v) v) vs = true ->
  spelled "ENUM" w -> spelled "NOT NULL" k -> defaults (Some "new") ld ->
  enum_written (state_meaning vs) (name_text tick "state" ++ " " ++ w ++ "(" ++ values_text sp vs ++ ")" ++ items_text ([INotNull k] +++ ld +++ [] +++ [])).
Proof.
  intros N V W K D. apply (enum_as (state_meaning vs) tick w sp [INotNull k] ld [] [] "" ""); cbn [e_name e_type e_values e_null e_default e_charset e_collate state_meaning]; auto.
  - split; [apply clean_nameb; reflexivity|]. intros _. split; [|reflexivity]. cbn. intuition discriminate.
  - apply values_okb, V.
  - constructor. exact K.
  - constructor.
  - constructor.
Qed.
Example ex_C77 :
  enum_written (state_meaning three) "`state` ENUM('new','paid, in part','') NOT NULL DEFAULT 'new'"
  /\ enum_written (state_meaning three) "state enum('new', 'paid, in part', '') not null default new"
  /\ enum_written (state_meaning ["paid, in part"; "new"]) "`state` ENUM('paid, in part','new') NOT NULL DEFAULT 'new'".
Proof.
  assert (Q : defaults (Some "new") [IQuoted "DEFAULT" "new"]) by (constructor; [reflexivity|apply clean_textb; reflexivity]).
  split; [|split].
  - apply (state_written three true "ENUM" false "NOT NULL" [IQuoted "DEFAULT" "new"]); first [discriminate|reflexivity|exact Q].
  - apply (state_written three false "enum" true "not null" [IDefault "default" "new"]); first [discriminate|reflexivity|idtac].
    constructor; [reflexivity| |discriminate]. split; [discriminate|]. split; [apply clean_textb; reflexivity|discriminate].
  - apply (state_written ["paid, in part"; "new"] true "ENUM" false "NOT NULL" [IQuoted "DEFAULT" "new"]); first [discriminate|reflexivity|exact Q].
Qed.

(** The text that is rendered for a column with the values a and b is read as three values. *)
Definition read_def (s : string) : option (column * string) :=
  match best_child definition_classes s None with
  | Ok (Some (DefCol p, r)) => match as_definition p with Ok c => Some (c, r) | Raise _ => None end
  | _ => None
  end.
Theorem C77_refuted : forall FO : FloatOracle, exists c c',
  read_def "`state` ENUM('a','b') NOT NULL)" = Some (c, ")") /\ c_length c = LList ["a"; "b"]
  /\ read_def (column_str c ++ ")") = Some (c', ")") /\ c_length c' = LList ["a"; "b"; "b]"] /\ column_changed c c' = Ok true.
Proof. intros FO. eexists. eexists. split; [vm_compute; reflexivity|]. split; [reflexivity|]. split; [vm_compute; reflexivity|]. split; reflexivity. Qed.
(** A value with a quote, doubled as SQL requires, is read as two. *)
Theorem C77_refuted_quote : exists c, read_def "`state` ENUM('it''s','b'))" = Some (c, ")") /\ c_length c = LList ["it"; "s"; "b"].
Proof. eexists. split; [vm_compute; reflexivity|]. reflexivity. Qed.
(** In the order in which servers report them, the attributes after the character set are left over. *)
Theorem C77_refuted_order : exists c,
  read_def "`state` enum('a','b') CHARACTER SET latin1 COLLATE latin1_bin NOT NULL DEFAULT 'a')" = Some (c, "NOT NULL DEFAULT 'a')").
Proof. eexists. vm_compute. reflexivity. Qed.

Print Assumptions C36_always_refused.
Print Assumptions C77_values_read_partial.
Print Assumptions C77_same_values_partial.
Print Assumptions C77_other_values_partial.
Print Assumptions C77_refuted.
Print Assumptions C77_refuted_quote.
Print Assumptions C77_refuted_order.
