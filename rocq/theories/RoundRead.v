(** Whole sources made of rendered CREATE TABLE statements. *)
From Verif Require Export RoundCreate Reader.

Local Opaque max_turns max_statements.

Lemma create_shape nice t : exists m, create_str nice t = String "C" (m ++ ";") /\ statement_of (create_str nice t) = SCreate.
Proof.
  unfold create_str. eexists. split; [|reflexivity].
  match goal with |- "CREATE TABLE " ++ ?a ++ ?b ++ ?c ++ ?d ++ ?e ++ ?f ++ ?g ++ ";" = _ => transitivity (("CREATE TABLE " ++ a ++ b ++ c ++ d ++ e ++ f ++ g) ++ ";") end.
  - rewrite !sapp_assoc. reflexivity.
  - reflexivity.
Qed.
Lemma create_stripped nice t : strip (create_str nice t) = create_str nice t.
Proof.
  destruct (create_shape nice t) as (m & -> & _). unfold strip, strip_by. change (String "C" (m ++ ";")) with (String "C" m ++ ";").
  rewrite rstrip_app by discriminate. reflexivity.
Qed.
Lemma create_some nice t : is_empty (create_str nice t) = false.
Proof. reflexivity. Qed.
Lemma statements_enough : 2 <= max_statements.
Proof. assert (E : N.of_nat max_statements = 10000%N) by (apply (N2Nat.id 10000)). lia. Qed.

Lemma read_create file nice t t' : create_parse (create_str nice t) = Ok (Some t', "") ->
  read_sql file (create_str nice t) = (mkReader [(t_name t', t')] [] [] true, Ok "").
Proof.
  intros P. unfold read_sql. pose proof statements_enough as L. destruct max_statements as [|[|n]]; [lia|lia|]. clear L.
  cbn [read_loop]. rewrite create_some, create_stripped, create_some. destruct (create_shape nice t) as (_ & _ & ->). rewrite P. reflexivity.
Qed.

(** ** The database of the files *)

Definition entry (t : table) : string * tobj := (t_name t, fresh t).
Definition files_of (ts : list table) : database := mkDatabase (map entry ts) (Some []) [] [] None None None None.
Definition live_of (ts : list table) : database := mkDatabase (map entry ts) None [] [] None None None None.
Lemma entry_keys ts : dkeys (map entry ts) = map t_name ts.
Proof. unfold dkeys. rewrite map_map. reflexivity. Qed.

Section Sources.
  Variable text : string -> table -> Prop.
  (** Every text is read as its table. *)
  Hypothesis Text : forall s t, text s t -> forall file, read_sql file s = (mkReader [(t_name t, t)] [] [] true, Ok "").

  Lemma read_files {FO : FloatOracle} srcs : forall ts, Forall2 text (map snd srcs) ts -> NoDup (map t_name ts) -> file_database srcs = Ok (files_of ts).
  Proof.
    assert (G : forall ts0 ts, Forall2 text (map snd srcs) ts -> NoDup (map t_name (ts0 +++ ts)) ->
      foldM read_source srcs (files_of ts0) = Ok (files_of (ts0 +++ ts))).
    { induction srcs as [|[file s] srcs IH]; intros ts0 ts F ND; cbn [map snd] in F; inversion F as [|? t ? ts' T F']; subst; cbn [foldM].
      - rewrite app_nil_r. reflexivity.
      - assert (R : read_source (files_of ts0) (file, s) = Ok (files_of (ts0 +++ [t]))).
        { unfold read_source. cbn [fst snd]. rewrite (Text _ _ T file). cbn [caught dvals map rd_tables rd_rows rd_errors foldM snd]. unfold put_file_table.
          assert (A : dmem (t_name t) (d_tables (files_of ts0)) = false).
          { apply dmem_false. cbn [files_of d_tables]. rewrite entry_keys. intros I. rewrite map_app in ND. cbn [map] in ND.
            apply NoDup_remove_2 in ND. apply ND, in_or_app. left. exact I. }
          rewrite A. cbn [bind]. rewrite dset_absent by exact A. cbn [concat map fold_left]. unfold files_of, set_tables, add_errors. cbn [d_tables d_rows d_global_errors d_global_warnings d_schema d_swarn d_parsing d_pwarn List.app].
          rewrite map_app. reflexivity. }
        rewrite R. cbn [bind]. rewrite (IH (ts0 +++ [t]) ts' F'); rewrite <- app_assoc; [reflexivity|exact ND]. }
    intros ts F ND. unfold file_database. change empty_database with (files_of []). rewrite (G [] ts F ND). reflexivity.
  Qed.
  Lemma read_server ss : forall ts, Forall2 text ss ts -> NoDup (map t_name ts) -> live_database ss = Ok (live_of ts).
  Proof.
    assert (G : forall ts0 ts, Forall2 text ss ts -> NoDup (map t_name (ts0 +++ ts)) -> foldM read_live ss (live_of ts0) = Ok (live_of (ts0 +++ ts))).
    { induction ss as [|s ss IH]; intros ts0 ts F ND; inversion F as [|? t ? ts' T F']; subst; cbn [foldM].
      - rewrite app_nil_r. reflexivity.
      - assert (R : read_live (live_of ts0) s = Ok (live_of (ts0 +++ [t]))).
        { unfold read_live. rewrite (Text _ _ T ""). cbn [caught dvals map rd_tables fold_left snd]. unfold put_live_table.
          assert (A : dmem (t_name t) (d_tables (live_of ts0)) = false).
          { apply dmem_false. cbn [live_of d_tables]. rewrite entry_keys. intros I. rewrite map_app in ND. cbn [map] in ND.
            apply NoDup_remove_2 in ND. apply ND, in_or_app. left. exact I. }
          rewrite A. rewrite dset_absent by exact A. unfold live_of, set_tables. cbn [d_tables d_rows d_global_errors d_global_warnings d_schema d_swarn d_parsing d_pwarn].
          rewrite map_app. reflexivity. }
        rewrite R. cbn [bind]. rewrite (IH (ts0 +++ [t]) ts' F'); rewrite <- app_assoc; [reflexivity|exact ND]. }
    intros ts F ND. apply (G [] ts F ND).
  Qed.
End Sources.

(** ** The statement of the table that was read *)

Lemma alike_map {V W} (R : V -> V -> Prop) (f : V -> W) a b : alike_dict R a b -> (forall x y, R x y -> f y = f x) -> map f (dvals b) = map f (dvals a).
Proof. intros F E. induction F as [|? ? ? ? [_ H] F IH]; [reflexivity|]. cbn [dvals map] in *. rewrite (E _ _ H). f_equal. exact IH. Qed.
Lemma alike_create nice t t' : alike_table t t' -> create_str nice t' = create_str nice t.
Proof.
  intros [A Ac Ai Ak Ao]. unfold create_str, create_body. rewrite <- A, <- Ao.
  rewrite (alike_map alike_column (fun c => _ ++ column_str c) _ _ Ac), (alike_map alike_index (fun c => _ ++ index_str c) _ _ Ai), (alike_map alike_fk (fun c => _ ++ constraint_str c) _ _ Ak); [reflexivity|..].
  - intros x y H. rewrite (alike_fk_str _ _ H). reflexivity.
  - intros x y H. rewrite (alike_index_str _ _ H). reflexivity.
  - intros x y H. rewrite (sc_text _ _ H). reflexivity.
Qed.

Definition renders (nice : bool) (s : string) (t' : table) : Prop := s = create_str nice t' /\ create_parse s = Ok (Some t', "").
Lemma renders_read nice s t : renders nice s t -> forall file, read_sql file s = (mkReader [(t_name t, t)] [] [] true, Ok "").
Proof. intros [-> P] file. apply read_create, P. Qed.
Lemma render_all nice ts : Forall readable_table ts -> exists ts', Forall2 (renders nice) (map (create_str nice) ts) ts' /\ Forall2 alike_table ts ts'.
Proof.
  induction 1 as [|t ts R F (ts' & A & B)]; [exists []; split; constructor|]. destruct (create_read nice t R) as (t' & P & Al & _).
  exists (t' :: ts'). split; constructor; auto. split; [symmetry; apply alike_create, Al|exact P].
Qed.
Lemma renders_texts nice ss ts : Forall2 (renders nice) ss ts -> ss = map (create_str nice) ts.
Proof. induction 1 as [|s t ss ts [A _] F IH]; [reflexivity|]. cbn [map]. rewrite <- A, <- IH. reflexivity. Qed.
Lemma alike_names ts ts' : Forall2 alike_table ts ts' -> map t_name ts' = map t_name ts.
Proof. induction 1 as [|t t' ts ts' A F IH]; [reflexivity|]. cbn [map]. rewrite (st_name _ _ A), IH. reflexivity. Qed.
Lemma entry_tables ts : plain_tables (map entry ts) = map (fun t => (t_name t, t)) ts.
Proof. unfold plain_tables. rewrite map_map. reflexivity. Qed.
