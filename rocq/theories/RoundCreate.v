(** A rendered CREATE TABLE statement is read as the table it was rendered from. *)
From Verif Require Export RoundTable.

Local Opaque max_turns.

(** ** From the statement to the flat text *)

(** White space [w0] before the first definition, [w1] after each comma, [w2] after the last. *)
Definition create_text (w0 w1 w2 h : string) (defs : list string) (opts : list toption) (z : string) : string :=
  h ++ " (" ++ w0 ++ join ("," ++ w1) defs ++ w2 ++ ")" ++ after_defs opts z.

Lemma join_pad sep pad l : l <> [] -> join sep (map (fun x => pad ++ x) l) = pad ++ join (sep ++ pad) l.
Proof.
  intros N. induction l as [|x l IH]; [contradiction|]. destruct l as [|y l]; [reflexivity|]. cbn [map] in *.
  rewrite (join_cons sep) by discriminate. rewrite (join_cons (sep ++ pad)) by discriminate. rewrite (IH ltac:(discriminate)). rewrite !sapp_assoc. reflexivity.
Qed.
Lemma list_is_nil_map {A B} (f : A -> B) l : list_is_nil (map f l) = list_is_nil l.
Proof. destruct l; reflexivity. Qed.

Section Statement.
  Variables (w0 w1 w2 n h : string) (ds : list wdef) (opts : list toption) (fin rest : string) (semi : bool).
  Hypothesis Hz : table_end fin rest semi.
  Hypothesis Zdd : no_dd false fin = true.
  Hypothesis Zdrop : no_drop fin.
  Hypothesis Hh : create_head n h.
  Hypothesis Hds : ds <> [].
  Hypothesis Fds : Forall def_ok ds.
  Hypothesis Fopts : Forall plain_option opts.
  Hypothesis Lopts : (N.of_nat (List.length opts) < 1000)%N.
  Hypothesis W0 : sforall is_space w0 = true.
  Hypothesis W1 : sforall is_space w1 = true.
  Hypothesis W1n : w1 <> "".
  Hypothesis W2 : sforall is_space w2 = true.
  Notation rendered := (create_text w0 w1 w2 h (map rdef_text ds) opts fin).
  Notation after := (after_defs opts fin).

  Lemma options_dd r : starts no_dash r = true -> no_dd false r = true -> forall l, Forall plain_option l -> no_dd false (options_text l ++ r) = true.
  Proof.
    intros S R l F. unfold options_text. induction F as [|o l O F IH]; [exact R|].
    assert (G : forall z, starts no_dash z = true -> no_dd false z = true -> no_dd false (option_text o ++ z) = true).
    { intros z Z1 Z2. unfold option_text. rewrite !sapp_assoc. apply no_dd_app; [reflexivity|apply no_dd_dashless, O|].
      apply (free_dd "="); [reflexivity|]. apply no_dd_app; [exact Z1|apply no_dd_dashless, O|exact Z2]. }
    destruct l as [|o' l]; [cbn [map join]; apply G; [exact S|exact R]|].
    cbn [map] in *. rewrite join_cons by discriminate. rewrite !sapp_assoc. apply G; [reflexivity|]. exact IH.
  Qed.
  Lemma after_dd : no_dd false after = true.
  Proof.
    unfold after_defs. destruct (list_is_nil opts); [exact Zdd|]. cbn [String.append no_dd Ascii.eqb Bool.eqb].
    apply options_dd; [destruct Hz; reflexivity|exact Zdd|exact Fopts].
  Qed.
  Lemma option_solid o : plain_option o -> sforall solid (option_text o) = true.
  Proof.
    intros O. unfold option_text. rewrite !sforall_app. destruct (option_name o O) as (_ & _ & _ & ->), (option_value o O) as (_ & _ & _ & ->). reflexivity.
  Qed.
  Lemma options_solid l : Forall plain_option l -> sforall solid (options_text l) = true.
  Proof.
    intros F. unfold options_text. induction F as [|o l O F IH]; [reflexivity|]. destruct l as [|o' l]; [apply option_solid, O|].
    cbn [map] in *. rewrite join_cons by discriminate. rewrite !sforall_app, option_solid by exact O. exact IH.
  Qed.
  Lemma after_drop : no_drop after.
  Proof.
    unfold after_defs. destruct (list_is_nil opts); [exact Zdrop|]. rewrite sapp_assoc. apply (no_drop_app " "); [reflexivity|].
    apply no_drop_app; [apply options_solid, Fopts|exact Zdrop].
  Qed.

  (** Neither substitution changes the statement. *)
  Lemma defs_dd w l r : sforall no_dash w = true -> Forall def_ok l -> starts no_dash r = true -> no_dd false r = true ->
    no_dd false (join ("," ++ w) (map rdef_text l) ++ r) = true.
  Proof.
    intros W F S R. induction F as [|d l D F IH]; [exact R|]. pose proof (dt_dd _ (rdef_def d D)) as Q.
    destruct l as [|d' l]; [apply Q; assumption|]. cbn [map] in *. rewrite join_cons by discriminate. rewrite !sapp_assoc. apply Q; [reflexivity|].
    apply (free_dd ","); [reflexivity|]. apply free_dd; [exact W|exact IH].
  Qed.
  Lemma space_no_dash w : sforall is_space w = true -> sforall no_dash w = true.
  Proof. apply sforall_imp. intros c. destruct c as [[|] [|] [|] [|] [|] [|] [|] [|]]; vm_compute; congruence. Qed.
  Lemma gap_no_dash w r : sforall is_space w = true -> starts no_dash (w ++ String ")" r) = true.
  Proof. intros W. apply space_no_dash in W. destruct w as [|c w]; [reflexivity|]. cbn [sforall] in W. apply andb_true_iff in W. apply W. Qed.
  Lemma space_solid w : sforall is_space w = true -> sforall solid w = true.
  Proof. apply sforall_imp. intros c. destruct c as [[|] [|] [|] [|] [|] [|] [|] [|]]; vm_compute; congruence. Qed.
  Lemma rendered_dd : no_dd false rendered = true.
  Proof.
    unfold create_text. apply (head_text n h Hh); [reflexivity|].
    apply (free_dd " ("); [reflexivity|]. apply free_dd; [apply space_no_dash, W0|]. apply defs_dd; [apply space_no_dash, W1|exact Fds|apply gap_no_dash, W2|].
    apply free_dd; [apply space_no_dash, W2|]. apply (free_dd ")"); [reflexivity|apply after_dd].
  Qed.
  Lemma defs_drop d0 v0 w l r : Ascii.eqb d0 "(" || Ascii.eqb d0 "," = true -> sforall is_space v0 = true -> sforall is_space w = true ->
    l <> [] -> Forall def_ok l -> no_drop r -> no_drop (String d0 (v0 ++ join ("," ++ w) (map rdef_text l) ++ r)).
  Proof.
    intros D0 V0 W N F R. revert d0 v0 D0 V0 N. induction F as [|d l D F IH]; intros d0 v0 D0 V0 N; [contradiction|].
    pose proof (rdef_def d D) as T.
    assert (G : forall z, no_drop z -> no_drop (String d0 (v0 ++ rdef_text d ++ z))).
    { intros z Z. pose proof (dt_drop _ T z Z) as Q. unfold no_drop. cbn [drop_lengths_from]. rewrite D0, (dt_open _ T v0 z V0). f_equal.
      apply no_drop_app; [apply (sforall_imp is_space); [|exact V0]|exact Q]. intros c. clear. destruct c as [[|] [|] [|] [|] [|] [|] [|] [|]]; vm_compute; congruence. }
    destruct l as [|d' l]; [apply G, R|]. cbn [map] in *. rewrite join_cons by discriminate. rewrite !sapp_assoc. apply G.
    apply (IH ","%char w); auto. discriminate.
  Qed.
  Lemma rendered_drop : no_drop rendered.
  Proof.
    unfold create_text. apply no_drop_app; [apply (head_text n h Hh)|]. apply (no_drop_app " " (String "(" _)); [reflexivity|].
    apply defs_drop; auto. apply no_drop_app; [apply space_solid, W2|]. apply close_drop, after_drop.
  Qed.

  (** Runs of white space become single spaces. *)
  Lemma collapse_run w b : sforall is_space w = true -> w <> "" -> starts not_space b = true -> collapse_ws (w ++ b) = String " " (collapse_ws b).
  Proof.
    intros W N B. destruct w as [|c w]; [contradiction|]. cbn [sforall] in W. apply andb_true_iff in W as [C W]. cbn [String.append].
    unfold collapse_ws. cbn [collapse_ws_from]. rewrite C. f_equal. clear N C. induction w as [|d w IH].
    - destruct b as [|d b]; [reflexivity|]. cbn [starts] in B. unfold not_space in B. apply negb_true_iff in B. cbn [String.append collapse_ws_from]. rewrite B. reflexivity.
    - cbn [sforall] in W. apply andb_true_iff in W as [D W]. cbn [String.append collapse_ws_from]. rewrite D. apply IH, W.
  Qed.
  Lemma trim_starts s : trim s = true -> starts not_space s = true.
  Proof. unfold trim. intros H. apply andb_true_iff in H. apply H. Qed.
  Lemma collapse_defs w l r : sforall is_space w = true -> w <> "" -> l <> [] -> Forall def_ok l ->
    collapse_ws (join ("," ++ w) (map rdef_text l) ++ r) = body l ++ collapse_ws r.
  Proof.
    intros W Wn N F. unfold body. induction F as [|d l D F IH]; [contradiction|]. pose proof (rdef_def d D) as T. pose proof (dt_trim _ T) as T'.
    destruct l as [|d' l]; [apply collapse_cat, trim_neat, T'|]. cbn [map] in *. rewrite !(join_cons _ (rdef_text d)) by discriminate.
    rewrite !sapp_assoc. rewrite collapse_cat by apply trim_neat, T'. f_equal. rewrite (collapse_cat ",") by reflexivity. rewrite collapse_run; [|exact W|exact Wn|].
    - rewrite (IH ltac:(discriminate)). reflexivity.
    - inversion F as [|? ? D' F']; subst. pose proof (rdef_def d' D') as T1. destruct l as [|d'' l].
      + cbn [map join]. rewrite starts_app by apply def_some, T1. apply trim_starts, T1.
      + cbn [map]. rewrite join_cons by discriminate. rewrite !sapp_assoc. rewrite starts_app by apply def_some, T1. apply trim_starts, T1.
  Qed.
  Lemma defs_starts w l r : l <> [] -> Forall def_ok l -> starts not_space (join w (map rdef_text l) ++ r) = true.
  Proof.
    intros N F. destruct F as [|d l D F]; [contradiction|]. pose proof (rdef_def d D) as T1. destruct l as [|d'' l].
    - cbn [map join]. rewrite starts_app by apply def_some, T1. apply trim_starts, T1.
    - cbn [map]. rewrite join_cons by discriminate. rewrite !sapp_assoc. rewrite starts_app by apply def_some, T1. apply trim_starts, T1.
  Qed.
  Lemma rendered_flat : normalize rendered = flat (negb (is_empty w0)) (negb (is_empty w2)) h ds opts fin.
  Proof.
    destruct (after_strip opts fin rest semi Hz Fopts) as [An _]. destruct (head_text n h Hh) as (C1 & C2 & _).
    assert (E : collapse_ws (w2 ++ ")" ++ after) = closing (negb (is_empty w2)) after).
    { assert (Z : collapse_ws (")" ++ after) = ")" ++ after).
      { apply neat_collapse. apply (neat_app ")"); [reflexivity|discriminate|exact An]. }
      unfold closing. destruct w2 as [|x w]; [exact Z|]. cbn [is_empty negb ending_raw ending_text].
      rewrite collapse_run; [|exact W2|discriminate|reflexivity]. rewrite Z. reflexivity. }
    assert (K : collapse_ws rendered = flat (negb (is_empty w0)) (negb (is_empty w2)) h ds opts fin).
    { unfold create_text, flat. rewrite collapse_cat by apply trim_neat, C1. f_equal. rewrite (collapse_cat " (") by reflexivity. f_equal.
      destruct w0 as [|x w].
      - cbn [String.append is_empty negb]. change (String "," w1) with ("," ++ w1). rewrite collapse_defs; [|exact W1|exact W1n|exact Hds|exact Fds]. change (String ")" after) with (")" ++ after). rewrite E. reflexivity.
      - rewrite collapse_run; [|exact W0|discriminate|apply defs_starts; assumption].
        rewrite collapse_defs; [|exact W1|exact W1n|exact Hds|exact Fds]. rewrite E. reflexivity. }
    unfold normalize. rewrite K. apply trim_strip. unfold flat.
    destruct (body_trim ds (negb (is_empty w2)) after Hds Fds An) as [B1 B2].
    apply trim_cat; [exact C1|exact C2|]. apply (neat_cat " ("); [reflexivity|].
    destruct (negb (is_empty w0)); [apply (neat_space (body ds ++ closing (negb (is_empty w2)) after)); assumption|apply trim_neat, B1].
  Qed.
  Lemma create_kids ps : kids max_turns definition_classes (body ds ++ closing (negb (is_empty w2)) after) [] = Ok (Some (ps, ")" ++ after)) -> exists ine tick,
    create_parse rendered = (let* a := create_process (create_vals ine tick n ps opts semi) in Ok (Some a, rest)).
  Proof.
    intros K. destruct (flat_kids (negb (is_empty w0)) (negb (is_empty w2)) n h ds opts fin rest semi ps Hz Hh Hds Fds Fopts Lopts K) as (ine & tick & R).
    exists ine, tick. unfold create_parse, drop_lengths.
    rewrite no_dd_drop by apply rendered_dd. rewrite rendered_drop. unfold parse_with. rewrite rendered_flat, R. reflexivity.
  Qed.
  Lemma create_run : Forall rdef_ok ds -> (N.of_nat (List.length ds) < 1000)%N -> exists ps ine tick,
    create_parse rendered = (let* a := create_process (create_vals ine tick n ps opts semi) in Ok (Some a, rest)) /\ Forall2 same_def ds ps.
  Proof.
    intros F Lds. destruct (after_strip opts fin rest semi Hz Fopts) as [An _].
    destruct (kids_close ds (negb (is_empty w2)) after max_turns Hds F An (turns_enough _ Lds)) as (ps & K & P).
    destruct (create_kids ps K) as (ine & tick & R). exists ps, ine, tick. auto.
  Qed.
End Statement.

(** ** Building the table *)

(** Definitions in the order they are written. *)
Inductive piece {CT : Type} : Type := PCol (c : CT) | PIndex (i : index) | PFk (k : constraint).
Arguments piece : clear implicits.
Definition pcols {CT} (l : list (piece CT)) : list CT := concat (map (fun p => match p with PCol c => [c] | _ => [] end) l).
Definition pindexes {CT} (l : list (piece CT)) : list index := concat (map (fun p => match p with PIndex i => [i] | _ => [] end) l).
Definition pfks {CT} (l : list (piece CT)) : list constraint := concat (map (fun p => match p with PFk k => [k] | _ => [] end) l).

Section Build.
  Context {CT : Type}.
  Variable cname : CT -> string.
  (** How a definition and what is read from its text are related. *)
  Variable Rc : CT -> column -> Prop.
  Variable Ri : index -> index -> Prop.
  Variable Rk : constraint -> constraint -> Prop.
  Hypothesis Rc_name : forall c c', Rc c c' -> c_name c' = cname c.
  Hypothesis Ri_name : forall i i', Ri i i' -> ix_name i' = ix_name i.
  Hypothesis Rk_name : forall k k', Rk k k' -> k_name k' = k_name k.

  Definition col_means (c : CT) (d : def) : Prop :=
    match d with DefCol p => exists c', as_definition p = Ok c' /\ Rc c c' /\ p_name p = cname c /\ p_primary p = false | _ => False end.
  Definition index_means (i : index) (d : def) : Prop := match d with DefIndex i' => Ri i i' | _ => False end.
  Definition fk_means (k : constraint) (d : def) : Prop := match d with DefFk false k' => Rk k k' | _ => False end.
  Definition piece_means (p : piece CT) (d : def) : Prop :=
    match p with PCol c => col_means c d | PIndex i => index_means i d | PFk k => fk_means k d end.

  Variable all : list def.

  Definition grown (t : table) (cs : list column) (is : list index) (kk : list constraint) (p : option index) : table :=
    mkTable (t_name t) (t_columns t +++ map (fun c => (c_name c, c)) cs) (t_indexes t +++ map (fun i => (ix_name i, i)) is)
      (t_constraints t +++ map (fun k => (k_name k, k)) kk) (t_options t) p (t_indexed t) (t_rows t) (t_tracking t) (t_global_errors t) (t_global_warnings t) (t_ordered t).
  Lemma fresh_add {V} (d : dict string V) n x : ~ In x (dkeys d) -> n <> x -> forall v : V, ~ In x (dkeys (d +++ [(n, v)])).
  Proof. intros A B v H. unfold dkeys in H. rewrite map_app in H. apply in_app_or in H as [H|[H|[]]]; [exact (A H)|exact (B H)]. Qed.
  Lemma build_all ps : forall ds t, Forall2 piece_means ps ds ->
    NoDup (map cname (pcols ps)) -> NoDup (map ix_name (pindexes ps)) -> NoDup (map k_name (pfks ps)) -> Forall (fun i => ix_name i <> "") (pindexes ps) ->
    (forall c, In c (pcols ps) -> ~ In (cname c) (dkeys (t_columns t))) ->
    (forall i, In i (pindexes ps) -> ~ In (ix_name i) (dkeys (t_indexes t))) -> ~ In "" (dkeys (t_indexes t)) ->
    (forall k, In k (pfks ps) -> ~ In (k_name k) (dkeys (t_constraints t))) -> t_indexed t = None ->
    exists cs is kk p, Forall2 Rc (pcols ps) cs /\ Forall2 Ri (pindexes ps) is /\ Forall2 Rk (pfks ps) kk
      /\ foldM (process_def all) ds t = Ok (grown t cs is kk p).
  Proof.
    induction ps as [|x ps IH]; intros ds t F Nc Ni Nk Ne Fc Fi Em Fk Ix; inversion F as [|? d ? ds' M F']; subst.
    - exists [], [], [], (t_primary t). repeat (split; [constructor|]). cbn [foldM map]. unfold grown. rewrite !app_nil_r. destruct t; reflexivity.
    - destruct x as [c|i|k]; cbn [piece_means] in M.
      + change (pcols (PCol c :: ps)) with (c :: pcols ps) in *. change (pindexes (PCol c :: ps)) with (pindexes ps) in *. change (pfks (PCol c :: ps)) with (pfks ps) in *.
        destruct d as [p| | | ]; try contradiction. destruct M as (c' & D & Al & Np & Pp). cbn [map] in Nc. inversion Nc as [|? ? Nc1 Nc2]; subst.
        pose proof (Fc c (or_introl eq_refl)) as A0. apply dmem_false in A0. pose proof (Rc_name _ _ Al) as En.
        destruct (IH ds' (with_columns t (t_columns t +++ [(c_name c', c')]) (t_ordered t)) F' Nc2 Ni Nk Ne) as (cs & is & kk & q & Gc & Gi & Gk & Q); auto.
        { intros x X. cbn [t_columns with_columns]. apply fresh_add; [apply Fc; right; exact X|]. rewrite En. intros Y. apply Nc1. rewrite Y. apply in_map, X. }
        exists (c' :: cs), is, kk, q. split; [constructor; assumption|split; [exact Gi|split; [exact Gk|]]]. cbn [foldM process_def]. rewrite Np, A0, D. cbn [bind].
        unfold add_column. rewrite En, A0. cbn [of_mut snd fst bind]. rewrite Pp. cbn [bind]. rewrite dset_absent by exact A0.
        rewrite <- En, Q. unfold grown. cbn [t_name t_columns t_indexes t_constraints t_options t_indexed t_rows t_tracking t_global_errors t_global_warnings t_ordered with_columns map].
        rewrite <- app_assoc. reflexivity.
      + change (pcols (PIndex i :: ps)) with (pcols ps) in *. change (pindexes (PIndex i :: ps)) with (i :: pindexes ps) in *. change (pfks (PIndex i :: ps)) with (pfks ps) in *.
        destruct d as [|i'| | ]; try contradiction. cbn [index_means] in M. cbn [map] in Ni. inversion Ni as [|? ? Ni1 Ni2]; subst. inversion Ne as [|? ? Ne1 Ne2]; subst.
        pose proof (Fi i (or_introl eq_refl)) as A0. apply dmem_false in A0. pose proof (Ri_name _ _ M) as En.
        assert (Raw : dmem (ix_rawname i') (t_indexes t) = false).
        { apply dmem_false. destruct (truthy (ix_rawname i')) eqn:T.
          - apply dmem_false in A0. rewrite <- En in A0. unfold ix_name in A0. rewrite T in A0. exact A0.
          - apply truthy_false in T. rewrite T. exact Em. }
        set (p1 := if is_primary i' then Some i' else t_primary t).
        destruct (IH ds' (with_indexes t (t_indexes t +++ [(ix_name i', i')]) p1 None) F' Nc Ni2 Nk Ne2) as (cs & is & kk & q & Gc & Gi & Gk & Q); auto.
        { intros x X. cbn [t_indexes with_indexes]. apply fresh_add; [apply Fi; right; exact X|]. rewrite En. intros Y. apply Ni1. rewrite Y. apply in_map, X. }
        { cbn [t_indexes with_indexes]. apply fresh_add; [exact Em|]. rewrite En. exact Ne1. }
        exists cs, (i' :: is), kk, q. split; [exact Gc|split; [constructor; assumption|split; [exact Gk|]]]. cbn [foldM process_def]. rewrite Raw.
        unfold add_index. rewrite En, A0, Ix. cbn [of_mut snd fst bind]. rewrite dset_absent by exact A0.
        rewrite <- En. fold p1. rewrite Q. unfold grown. cbn [t_name t_columns t_indexes t_constraints t_options t_indexed t_rows t_tracking t_global_errors t_global_warnings t_ordered with_indexes map].
        rewrite <- app_assoc, Ix. reflexivity.
      + change (pcols (PFk k :: ps)) with (pcols ps) in *. change (pindexes (PFk k :: ps)) with (pindexes ps) in *. change (pfks (PFk k :: ps)) with (k :: pfks ps) in *.
        destruct d as [| |bare k'| ]; try contradiction. destruct bare; [contradiction|]. cbn [fk_means] in M. cbn [map] in Nk. inversion Nk as [|? ? Nk1 Nk2]; subst.
        pose proof (Fk k (or_introl eq_refl)) as A0. apply dmem_false in A0. pose proof (Rk_name _ _ M) as En.
        destruct (IH ds' (with_constraints t (t_constraints t +++ [(k_name k', k')])) F' Nc Ni Nk2 Ne) as (cs & is & kk & q & Gc & Gi & Gk & Q); auto.
        { intros x X. cbn [t_constraints with_constraints]. apply fresh_add; [apply Fk; right; exact X|]. rewrite En. intros Y. apply Nk1. rewrite Y. apply in_map, X. }
        exists cs, is, (k' :: kk), q. split; [exact Gc|split; [exact Gi|split; [constructor; assumption|]]]. cbn [foldM process_def]. rewrite En, A0.
        unfold add_constraint. rewrite En, A0. cbn [of_mut snd fst bind andb]. rewrite dset_absent by exact A0.
        rewrite <- En, Q. unfold grown. cbn [t_name t_columns t_indexes t_constraints t_options t_indexed t_rows t_tracking t_global_errors t_global_warnings t_ordered with_constraints map].
        rewrite <- app_assoc. reflexivity.
  Qed.
End Build.

Lemma options_found l : def_options (map DefOption l) = l.
Proof. unfold def_options. induction l as [|o l IH]; [reflexivity|]. cbn [map concat List.app]. f_equal. exact IH. Qed.

(** A statement with the texts [map fst ps] for the definitions [map snd ps]. *)
Section Whole.
  Context {CT : Type}.
  Variable cname : CT -> string.
  Variable Rc : CT -> column -> Prop.
  Variable Ri : index -> index -> Prop.
  Variable Rk : constraint -> constraint -> Prop.
  Hypothesis Rc_name : forall c c', Rc c c' -> c_name c' = cname c.
  Hypothesis Ri_name : forall i i', Ri i i' -> ix_name i' = ix_name i.
  Hypothesis Rk_name : forall k k', Rk k k' -> k_name k' = k_name k.
  Variables (w0 w1 w2 n h : string) (ps : list (string * piece CT)) (opts : list toption) (fin rest : string) (semi : bool).
  Notation ds := (map (fun x => (fst x, piece_means cname Rc Ri Rk (snd x))) ps).

  Theorem create_reads : table_end fin rest semi -> no_dd false fin = true -> no_drop fin -> create_head n h -> Forall rdef_ok ds -> (0 < N.of_nat (List.length ps) < 1000)%N ->
    Forall plain_option opts -> (N.of_nat (List.length opts) < 1000)%N ->
    sforall is_space w0 = true -> sforall is_space w1 = true -> w1 <> "" -> sforall is_space w2 = true ->
    NoDup (map cname (pcols (map snd ps))) -> NoDup (map ix_name (pindexes (map snd ps))) -> Forall (fun i => ix_name i <> "") (pindexes (map snd ps)) ->
    NoDup (map k_name (pfks (map snd ps))) ->
    exists cs is kk p, Forall2 Rc (pcols (map snd ps)) cs /\ Forall2 Ri (pindexes (map snd ps)) is /\ Forall2 Rk (pfks (map snd ps)) kk
      /\ create_parse (create_text w0 w1 w2 h (map fst ps) opts fin)
         = Ok (Some (mkTable n (map (fun c => (c_name c, c)) cs) (map (fun i => (ix_name i, i)) is) (map (fun k => (k_name k, k)) kk)
                       (filter (fun o => negb (String.eqb (o_name o) "AUTO_INCREMENT")) opts) p None None false
                       (if semi then [] else ["Missing ending semicolon for table " ++ n]) [] true), rest).
  Proof.
    intros Hz Zd Zp Hh Fds L Fo Lo W0 W1 W1n W2 Nc Ni Ne Nk.
    assert (Hn : clean_name n) by (destruct Hh; assumption).
    destruct (create_run w0 w1 w2 n h ds opts fin rest semi) as (dd & ine & tick & E & F); auto.
    { intros Z. apply (f_equal (@List.length wdef)) in Z. rewrite map_length in Z. simpl in Z. lia. }
    { apply rdef_shapes, Fds. }
    { rewrite map_length. exact (proj2 L). }
    replace (map rdef_text ds) with (map fst ps) in E by (rewrite map_map; reflexivity).
    rewrite E. clear E.
    assert (M : Forall2 (piece_means cname Rc Ri Rk) (map snd ps) dd).
    { clear -F. revert dd F. induction ps as [|x l IH]; intros q H; inversion H; subst; constructor; auto. }
    set (opts' := filter (fun o => negb (String.eqb (o_name o) "AUTO_INCREMENT")) opts).
    set (t0 := mkTable n [] [] [] opts' None None None false [] [] true).
    destruct (build_all cname Rc Ri Rk Rc_name Ri_name Rk_name dd (map snd ps) dd t0 M Nc Ni Nk Ne) as (cs & is & kk & p & Gc & Gi & Gk & Fold); auto.
    exists cs, is, kk, p. split; [exact Gc|split; [exact Gi|split; [exact Gk|]]].
    assert (P : forall v : pvals def, vtext "name" v = name_text tick n -> vkids "definitions" v = dd -> dmem "closing_semicolon" v = semi ->
      def_options (vkids "table_options" v) = opts ->
      create_process v = Ok (if semi then grown t0 cs is kk p else add_global_error (grown t0 cs is kk p) ("Missing ending semicolon for table " ++ n))).
    { intros v A B C D. unfold create_process. rewrite A, B, C, D.
      assert (Sn : strip_char bquote (name_text tick n) = n) by (destruct tick; cbn [name_text]; [apply strip_ticked, clean_chars, Hn|apply strip_none, name_ok_bquote, clean_chars, Hn]).
      rewrite Sn. fold opts' t0. rewrite Fold. reflexivity. }
    rewrite P; unfold create_vals, stored_stop, stored_options; [destruct semi; reflexivity|..]; (destruct opts as [|o l] eqn:T; [destruct semi, ine; reflexivity|]); cbn [list_is_nil].
    1-3: destruct semi, ine; reflexivity.
    transitivity (def_options (map DefOption (o :: l))); [destruct semi, ine; reflexivity|apply options_found].
  Qed.
End Whole.

Lemma pcols_app {CT} (a b : list (piece CT)) : pcols (a +++ b) = pcols a +++ pcols b.
Proof. unfold pcols. rewrite map_app, concat_app. reflexivity. Qed.
Lemma pindexes_app {CT} (a b : list (piece CT)) : pindexes (a +++ b) = pindexes a +++ pindexes b.
Proof. unfold pindexes. rewrite map_app, concat_app. reflexivity. Qed.
Lemma pfks_app {CT} (a b : list (piece CT)) : pfks (a +++ b) = pfks a +++ pfks b.
Proof. unfold pfks. rewrite map_app, concat_app. reflexivity. Qed.
(** Columns, indexes and foreign keys in this order. *)
Definition in_order (cols : list column) (ixs : list index) (ks : list constraint) : list (piece column) := map PCol cols +++ map PIndex ixs +++ map PFk ks.
Lemma in_order_parts cols ixs ks : pcols (in_order cols ixs ks) = cols /\ pindexes (in_order cols ixs ks) = ixs /\ pfks (in_order cols ixs ks) = ks.
Proof.
  assert (C : forall A B (f : A -> B) (l : list A), concat (map (fun x => [x]) l) = l) by (intros A B f l; induction l as [|x l IH]; [reflexivity|cbn; f_equal; exact IH]).
  assert (Z : forall A B (l : list A), concat (map (fun _ => @nil B) l) = []) by (intros A B l; induction l; [reflexivity|assumption]).
  unfold in_order. rewrite !pcols_app, !pindexes_app, !pfks_app. unfold pcols, pindexes, pfks. rewrite !map_map, !Z, !app_nil_r.
  rewrite (C _ _ (fun x : column => x)), (C _ _ (fun x : index => x)), (C _ _ (fun x : constraint => x)). repeat split.
Qed.

Definition fine_column (c c' : column) : Prop := alike_column c c' /\ c_perrors c' = [].
Definition fine_index (i i' : index) : Prop := alike_index i i' /\ ix_perrors i' = [].
Definition fine_fk (k k' : constraint) : Prop := alike_fk k k' /\ k_perrors k' = [] /\ k_pwarnings k' = [].

Lemma alike_ix_name i i' : alike_index i i' -> ix_name i' = ix_name i.
Proof. intros (A & B & _). unfold ix_name. rewrite A, B. reflexivity. Qed.
Lemma clean_ix_name i : readable_index i -> ix_name i <> "".
Proof.
  intros R. unfold ix_name. destruct (truthy (ix_rawname i)) eqn:T; [apply truthy_iff, T|]. destruct (ri_columns i R) as [N C].
  destruct (ix_columns i) as [|x l]; [contradiction|]. inversion C as [|? ? X _]; subst. apply X.
Qed.

Lemma named_map {V} (f : V -> string) (d : dict string V) : (forall n v, In (n, v) d -> f v = n) -> map f (dvals d) = dkeys d.
Proof.
  intros H. induction d as [|[n v] d IH]; [reflexivity|]. cbn [dvals dkeys map fst snd]. f_equal; [apply H; left; reflexivity|].
  apply IH. intros m w I. apply H. right. exact I.
Qed.
Lemma alike_named {V} (f : V -> string) (R : V -> V -> Prop) (d : dict string V) l : (forall n v, In (n, v) d -> f v = n) ->
  (forall a b, R a b -> f b = f a) -> Forall2 R (dvals d) l -> alike_dict R d (map (fun v => (f v, v)) l).
Proof.
  intros H E F. remember (dvals d) as vs eqn:Q. revert d H Q. induction F as [|v w vs l Rv F IH]; intros d H Q; destruct d as [|[n x] d]; try discriminate; [constructor|].
  injection Q as Q1 Q2. cbn [snd] in Q1. subst. cbn [map]. constructor.
  - cbn [fst snd]. split; [|exact Rv]. rewrite (E _ _ Rv). symmetry. apply H. left. reflexivity.
  - apply IH; [|reflexivity]. intros m y I. apply H. right. exact I.
Qed.
Lemma alike_impl {V} (R S : V -> V -> Prop) a b : (forall x y, R x y -> S x y) -> alike_dict R a b -> alike_dict S a b.
Proof. intros H F. induction F as [|? ? ? ? [A B] F IH]; constructor; auto. Qed.

Lemma options_kept l : Forall readable_option l -> filter (fun o => negb (String.eqb (o_name o) "AUTO_INCREMENT")) l = l.
Proof.
  induction 1 as [|o l [_ N] F IH]; [reflexivity|]. cbn [filter]. apply String.eqb_neq in N. rewrite N. cbn [negb]. f_equal. exact IH.
Qed.

(** ** The rendered statement *)

Definition gap_of (nice : bool) : string := if nice then nl else "".
Definition pad_of (nice : bool) : string := if nice then "  " else "".
Definition defs_of (t : table) : list string :=
  map column_str (dvals (t_columns t)) +++ map index_str (dvals (t_indexes t)) +++ map constraint_str (dvals (t_constraints t)).
Lemma create_rendered nice t : defs_of t <> [] ->
  create_str nice t = create_text (gap_of nice ++ pad_of nice) (nl ++ pad_of nice) (gap_of nice) ("CREATE TABLE " ++ ticked (t_name t)) (defs_of t) (t_options t) ";".
Proof.
  intros N. unfold create_str, create_text, after_defs, options_text, option_text, bq, ticked, gap_of, stop. rewrite list_is_nil_map.
  replace (create_body (if nice then "  " else "") t) with (map (fun x => pad_of nice ++ x) (defs_of t)).
  - rewrite join_pad by exact N. repeat (cbn [String.append]; rewrite ?sapp_assoc). reflexivity.
  - unfold create_body, defs_of. rewrite !map_app, !map_map. reflexivity.
Qed.

Lemma column_ok c : readable_column c -> rdef_ok (column_str c, col_means c_name fine_column c).
Proof.
  intros R. split; [apply column_def, R|]. intros e E Ec. destruct (column_read c e R E) as (p & c' & B & A & S & P & N & Q).
  exists (DefCol p). split; [exact B|]. exists c'. unfold fine_column. auto.
Qed.
Lemma index_ok i : readable_index i -> rdef_ok (index_str i, index_means fine_index i).
Proof.
  intros R. split; [apply index_def, R|]. intros e E Ec. destruct (index_read i e R E) as (i' & B & S & P). exists (DefIndex i'). split; [exact B|]. split; assumption.
Qed.
Lemma fk_ok k : readable_fk k -> rdef_ok (constraint_str k, fk_means fine_fk k).
Proof.
  intros R. split; [apply fk_def, R|]. intros e E Ec. destruct (fk_round k e R E Ec) as (k' & B & S & P & W). exists (DefFk false k'). split; [exact B|]. repeat split; try apply S; assumption.
Qed.

(** The table read from the statement. *)
Theorem create_read nice t : readable_table t -> exists t', create_parse (create_str nice t) = Ok (Some t', "")
  /\ alike_table t t'
  /\ alike_dict fine_column (t_columns t) (t_columns t') /\ alike_dict fine_index (t_indexes t) (t_indexes t') /\ alike_dict fine_fk (t_constraints t) (t_constraints t')
  /\ t_global_errors t' = [] /\ t_global_warnings t' = [] /\ t_rows t' = None /\ t_tracking t' = false /\ t_indexed t' = None /\ t_ordered t' = true.
Proof.
  intros R. pose proof (rt_wf t R) as W.
  set (cols := dvals (t_columns t)). set (ixs := dvals (t_indexes t)). set (ks := dvals (t_constraints t)).
  destruct (in_order_parts cols ixs ks) as (P1 & P2 & P3).
  set (text := fun p => match p with PCol c => column_str c | PIndex i => index_str i | PFk k => constraint_str k end).
  set (ps := map (fun p => (text p, p)) (in_order cols ixs ks)).
  assert (S2 : map snd ps = in_order cols ixs ks) by (unfold ps; rewrite map_map; apply map_id).
  assert (S1 : map fst ps = defs_of t) by (unfold ps, in_order, defs_of; rewrite map_map; cbn [fst]; rewrite !map_app, !map_map; reflexivity).
  destruct (create_reads c_name fine_column fine_index fine_fk) with (w0 := gap_of nice ++ pad_of nice) (w1 := nl ++ pad_of nice) (w2 := gap_of nice) (n := t_name t)
    (h := "CREATE TABLE " ++ ticked (t_name t)) (ps := ps) (opts := t_options t) (fin := ";") (rest := "") (semi := true) as (cs & is & kk & p & Gc & Gi & Gk & E); rewrite ?S2, ?P1, ?P2, ?P3.
  - intros a b [H _]. symmetry. apply H.
  - intros a b [H _]. apply alike_ix_name, H.
  - intros a b [H _]. symmetry. apply H.
  - exact (stop_end true).
  - reflexivity.
  - reflexivity.
  - apply (head_as (t_name t) "CREATE TABLE" "" true); [reflexivity|left; reflexivity|apply R].
  - unfold ps, in_order. rewrite map_map. cbn [fst snd]. rewrite !map_app, !map_map, !Forall_app, !Forall_map. split; [|split].
    + eapply Forall_impl; [|apply (rt_columns t R)]. intros c. apply column_ok.
    + eapply Forall_impl; [|apply (rt_indexes t R)]. intros c. apply index_ok.
    + eapply Forall_impl; [|apply (rt_fks t R)]. intros c. apply fk_ok.
  - unfold ps, in_order, cols, ixs, ks, dvals. rewrite !map_length, !app_length, !map_length. pose proof (rt_some t R). lia.
  - eapply Forall_impl; [|apply (rt_options t R)]. intros o H. apply H.
  - apply R.
  - destruct nice; reflexivity.
  - destruct nice; reflexivity.
  - discriminate.
  - destruct nice; reflexivity.
  - unfold cols. rewrite named_map by apply W. apply W.
  - unfold ixs. rewrite named_map by apply W. apply W.
  - eapply Forall_impl; [|apply (rt_indexes t R)]. intros i. apply clean_ix_name.
  - unfold ks. rewrite named_map by apply W. apply W.
  - rewrite S2 in Gc, Gi, Gk. rewrite P1 in Gc. rewrite P2 in Gi. rewrite P3 in Gk. rewrite S1 in E.
    rewrite <- create_rendered in E.
    2:{ pose proof (rt_some t R) as H. unfold defs_of. intros Z. apply (f_equal (@List.length string)) in Z. rewrite !app_length, !map_length in Z. unfold dvals in Z. rewrite !map_length in Z. simpl in Z. lia. }
    rewrite options_kept in E by apply R. rewrite E.
    match type of E with _ = Ok (Some ?x, _) => exists x end.
    assert (Ac : alike_dict fine_column (t_columns t) (map (fun c => (c_name c, c)) cs)).
    { apply alike_named; [apply W| |exact Gc]. intros a b [H _]. symmetry. apply H. }
    assert (Ai : alike_dict fine_index (t_indexes t) (map (fun i => (ix_name i, i)) is)).
    { apply alike_named; [apply W| |exact Gi]. intros a b [H _]. apply alike_ix_name, H. }
    assert (Ak : alike_dict fine_fk (t_constraints t) (map (fun k => (k_name k, k)) kk)).
    { apply alike_named; [apply W| |exact Gk]. intros a b [H _]. symmetry. apply H. }
    split; [reflexivity|split; [|repeat (split; [assumption || reflexivity|]); reflexivity]].
    constructor; try reflexivity.
    + apply (alike_impl fine_column); [|exact Ac]. intros x y H. apply H.
    + apply (alike_impl fine_index); [|exact Ai]. intros x y H. apply H.
    + apply (alike_impl fine_fk); [|exact Ak]. intros x y H. apply H.
Qed.

(** ** Comparing the two tables *)

Lemma alike_keys {V} (R : V -> V -> Prop) a b : alike_dict R a b -> dkeys b = dkeys a.
Proof. induction 1 as [|[n v] [m w] a b [H _] F IH]; [reflexivity|]. cbn [dkeys map fst] in *. rewrite <- H. f_equal. exact IH. Qed.
Lemma alike_in {V} (R : V -> V -> Prop) a b n y : alike_dict R a b -> In (n, y) b -> exists x, In (n, x) a /\ R x y.
Proof.
  induction 1 as [|[m v] [k w] a b [H1 H2] F IH]; [contradiction|]. cbn [fst snd] in *. intros [E|I].
  - injection E as -> ->. exists v. subst. split; [left; reflexivity|exact H2].
  - destruct (IH I) as (x & X & Rx). exists x. split; [right; exact X|exact Rx].
Qed.
Lemma alike_entry {V} (R : V -> V -> Prop) a b n x y : alike_dict R a b -> NoDup (dkeys a) -> In (n, x) a -> In (n, y) b -> R x y.
Proof.
  intros F ND X Y. destruct (alike_in R a b n y F Y) as (x' & X' & H). rewrite (same_entry a n x x' ND X X'). exact H.
Qed.
Lemma alike_vals {V} (R : V -> V -> Prop) (f : V -> bool) a b : alike_dict R a b -> (forall x y, R x y -> f y = f x) ->
  List.length (filter f (dvals b)) = List.length (filter f (dvals a)).
Proof.
  intros F E. induction F as [|[n v] [m w] a b [_ H] F IH]; [reflexivity|]. cbn [dvals map snd filter] in *. cbn [snd] in H. rewrite (E _ _ H).
  destruct (f v); cbn [List.length]; [f_equal|]; exact IH.
Qed.
Lemma alike_wf t t' : alike_table t t' -> wf_table t -> wf_table t'.
Proof.
  intros A W. destruct A as [_ Ac Ai Ak _]. constructor.
  - rewrite (alike_keys _ _ _ Ac). apply W.
  - intros n c I. destruct (alike_in _ _ _ _ _ Ac I) as (x & X & R). rewrite <- (sc_name _ _ R). apply W, X.
  - rewrite (alike_keys _ _ _ Ai). apply W.
  - intros n c I. destruct (alike_in _ _ _ _ _ Ai I) as (x & X & R). rewrite (alike_ix_name _ _ R). apply W, X.
  - rewrite (alike_keys _ _ _ Ak). apply W.
  - intros n c I. destruct (alike_in _ _ _ _ _ Ak I) as (x & X & R). rewrite <- (proj1 R). apply W, X.
  - rewrite (alike_vals alike_index is_primary _ _ Ai); [apply W|]. intros x y (_ & _ & E). unfold is_primary. rewrite E. reflexivity.
Qed.
Lemma alike_index_str a b : alike_index a b -> index_str b = index_str a.
Proof. intros (A & B & C). unfold index_str, ix_name. rewrite A, B, C. reflexivity. Qed.
Lemma alike_fk_str a b : alike_fk a b -> constraint_str b = constraint_str a.
Proof. intros (A & B & C & D & E & F). unfold constraint_str. rewrite A, B, C, D, E, F. reflexivity. Qed.

Lemma alike_diff {FO : FloatOracle} t t' : alike_table t t' -> wf_table t -> 
  (diff t t' = Ok [] /\ diff_split t t' = Ok (mkSplit None None None)) /\ (diff t' t = Ok [] /\ diff_split t' t = Ok (mkSplit None None None)).
Proof.
  intros A W. pose proof (alike_wf t t' A W) as W'. destruct A as [_ Ac Ai Ak _]. split.
  - apply diff_empty; auto.
    + intros n. rewrite (alike_keys _ _ _ Ac). reflexivity.
    + intros n a b Ha Hb. unfold column_changed. rewrite (sc_text _ _ (alike_entry _ _ _ n a b Ac (wf_cols _ W) Ha Hb)), String.eqb_refl. reflexivity.
    + apply key_ops_nil; [intros n; rewrite (alike_keys _ _ _ Ai); reflexivity|]. intros n a b Ha Hb. unfold key_changed.
      rewrite (alike_index_str _ _ (alike_entry _ _ _ n a b Ai (wf_keys _ W) Ha Hb)), String.eqb_refl. reflexivity.
    + intros n. rewrite (alike_keys _ _ _ Ak). reflexivity.
    + intros n a b Ha Hb. rewrite (alike_fk_str _ _ (alike_entry _ _ _ n a b Ak (wf_fks _ W) Ha Hb)). reflexivity.
  - apply diff_empty; auto.
    + intros n. rewrite (alike_keys _ _ _ Ac). reflexivity.
    + intros n b a Hb Ha. unfold column_changed. rewrite (sc_text _ _ (alike_entry _ _ _ n a b Ac (wf_cols _ W) Ha Hb)), String.eqb_refl. reflexivity.
    + apply key_ops_nil; [intros n; rewrite (alike_keys _ _ _ Ai); reflexivity|]. intros n b a Hb Ha. unfold key_changed.
      rewrite (alike_index_str _ _ (alike_entry _ _ _ n a b Ai (wf_keys _ W) Ha Hb)), String.eqb_refl. reflexivity.
    + intros n. rewrite (alike_keys _ _ _ Ak). reflexivity.
    + intros n b a Hb Ha. rewrite (alike_fk_str _ _ (alike_entry _ _ _ n a b Ak (wf_fks _ W) Ha Hb)). reflexivity.
Qed.
