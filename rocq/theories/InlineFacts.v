(** Statements with a column that is declared the primary key in its definition. *)
From Verif Require Import Facts ReadFacts ReadMore SpecDefs DefFacts RoundInline PropsDefs.
From Coq Require Import Lia.

Local Opaque max_turns max_statements.

(** ** Definitions without any name twice *)

Lemma yields_fun {A} (R : list def -> def -> A -> Prop) (f : def -> list A) : forall before defs L, yields R before defs L ->
  (forall l d l', defs = l +++ d :: l' -> (forall a, R (before +++ l) d a <-> f d = [a]) /\ List.length (f d) <= 1) -> L = concat (map f defs).
Proof.
  intros before defs L Y. induction Y as [before|before d l L N Y IH|before d l x L N Y IH]; intros H; [reflexivity|..]; cbn [map concat].
  - destruct (H [] d l eq_refl) as [H1 H2]. rewrite app_nil_r in H1. destruct (f d) as [|a [|b r]]; [|exfalso; apply (N a), H1; reflexivity|cbn in H2; lia].
    apply IH. intros l1 d1 l2 ->. rewrite <- app_assoc. apply (H (d :: l1) d1 l2). reflexivity.
  - destruct (H [] d l eq_refl) as [H1 _]. rewrite app_nil_r in H1. rewrite (proj1 (H1 x) N). cbn [List.app]. f_equal.
    apply IH. intros l1 d1 l2 ->. rewrite <- app_assoc. apply (H (d :: l1) d1 l2). reflexivity.
Qed.

Definition def_columns (d : def) : list column := match d with DefCol p => match as_definition p with Ok c => [c] | Raise _ => [] end | _ => [] end.
Definition def_keys (d : def) : list index :=
  match d with DefCol p => if p_primary p then [mkIndex "" [p_name p] IPrimary []] else [] | DefIndex i => [i] | _ => [] end.
Definition def_fks (d : def) : list constraint := match d with DefFk _ k => [k] | _ => [] end.
Definition col_names (d : def) : list string := match d with DefCol p => [p_name p] | _ => [] end.
Definition key_names (d : def) : list string := map ix_name (def_keys d).
Definition fk_labels (d : def) : list string := map k_name (def_fks d).

Lemma distinct_split {A} (f : def -> list A) l d l' x : NoDup (concat (map f (l +++ d :: l'))) -> In x (f d) -> ~ In x (concat (map f l)).
Proof.
  intros N I J. rewrite map_app, concat_app in N. cbn [map concat] in N. apply in_split in I as (u & v & E). rewrite E in N.
  rewrite <- app_assoc, app_assoc in N. cbn [List.app] in N. apply NoDup_remove_2 in N. apply N. rewrite !in_app_iff. auto.
Qed.
Lemma in_concat_map {A} (f : def -> list A) l d x : In d l -> In x (f d) -> In x (concat (map f l)).
Proof. intros I J. apply in_concat. exists (f d). split; [apply in_map, I|exact J]. Qed.

Lemma def_options_kept all d t t' : process_def all t d = Ok t' -> t_options t' = t_options t.
Proof.
  assert (M : forall (f : mut table) x, of_mut f = Ok x -> fst f = x) by (intros [a [e|]] x H; cbn in H; [discriminate|injection H as ->; reflexivity]).
  assert (Ai : forall t i, t_options (fst (add_index t i)) = t_options t).
  { intros q i. unfold add_index. repeat match goal with |- context [if ?b then _ else _] => destruct b | |- context [match ?b with _ => _ end] => destruct b end; reflexivity. }
  assert (Ac : forall t c p, t_options (fst (add_column t c p)) = t_options t).
  { intros q c p. unfold add_column. repeat match goal with |- context [if ?b then _ else _] => destruct b | |- context [match ?b with _ => _ end] => destruct b end; reflexivity. }
  assert (Ak : forall t k, t_options (fst (add_constraint t k)) = t_options t).
  { intros q k. unfold add_constraint. repeat match goal with |- context [if ?b then _ else _] => destruct b | |- context [match ?b with _ => _ end] => destruct b end; reflexivity. }
  destruct d as [p|i|bare k|o]; cbn [process_def]; [| | |discriminate].
  - destruct (dmem _ _); [intros [= <-]; reflexivity|]. destruct (as_definition p) as [c|]; [|discriminate]. cbn [bind].
    destruct (of_mut (add_column t c PEnd)) as [t1|] eqn:E1; [|discriminate]. cbn [bind]. apply M in E1. subst t1.
    destruct (p_primary p); [intros E2; apply M in E2; subst t'; rewrite Ai; apply Ac|intros [= <-]; apply Ac].
  - destruct (dmem _ _); [intros [= <-]; reflexivity|]. intros E. apply M in E. subst t'. apply Ai.
  - destruct (dmem _ _); [intros [= <-]; reflexivity|]. destruct (of_mut (add_constraint t _)) as [t1|] eqn:E1; [|discriminate]. cbn [bind]. apply M in E1. subst t1.
    destruct (_ && _); [intros E2; apply M in E2; subst t'; rewrite Ai; apply Ak|intros [= <-]; apply Ak].
Qed.
Lemma options_of v t : create_process v = Ok t -> t_options t = filter (fun o => negb (String.eqb (o_name o) "AUTO_INCREMENT")) (def_options (vkids "table_options" v)).
Proof.
  unfold create_process. set (t0 := mkTable _ _ _ _ _ _ _ _ _ _ _ _). intros E.
  assert (G : forall all l t t', foldM (process_def all) l t = Ok t' -> t_options t' = t_options t).
  { intros all l. induction l as [|d l IH]; intros q q' H; [injection H as <-; reflexivity|]. cbn [foldM] in H.
    destruct (process_def all q d) as [q1|] eqn:Q; [|discriminate]. cbn [bind] in H. rewrite (IH _ _ H). apply (def_options_kept _ _ _ _ Q). }
  destruct (foldM _ _ t0) as [t1|] eqn:F; [|discriminate]. cbn [bind] in E. injection E as <-. apply G in F. destruct (dmem _ _); exact F.
Qed.

Theorem distinct_defs v :
  NoDup (concat (map col_names (defs_in v))) -> NoDup (concat (map key_names (defs_in v))) -> NoDup (concat (map fk_labels (defs_in v))) ->
  ~ In "" (concat (map key_names (defs_in v))) ->
  Forall (fun d => match d with DefCol p => exists c, as_definition p = Ok c | DefIndex _ => True | DefFk bare _ => bare = false | DefOption _ => False end) (defs_in v) ->
  exists t, create_process v = Ok t /\ t_name t = named_in v /\ t_global_errors t = end_message v
    /\ t_columns t = map (fun c => (c_name c, c)) (concat (map def_columns (defs_in v)))
    /\ t_indexes t = map (fun i => (ix_name i, i)) (concat (map def_keys (defs_in v)))
    /\ t_constraints t = map (fun k => (k_name k, k)) (concat (map def_fks (defs_in v)))
    /\ t_options t = filter (fun o => negb (String.eqb (o_name o) "AUTO_INCREMENT")) (def_options (vkids "table_options" v)).
Proof.
  intros Nc Nk Nf Ne F. rewrite Forall_forall in F. set (defs := defs_in v) in *. set (tn := named_in v).
  assert (Kn : forall l l' x, defs = l +++ l' -> key_named tn defs l x -> In x (concat (map key_names l))).
  { intros l l' x D [(i & I & E)|[(l1 & p & l2 & -> & P & _ & E)|(l1 & k & l2 & -> & _)]].
    - apply (in_concat_map key_names l (DefIndex i)); [exact I|left; exact E].
    - apply (in_concat_map key_names _ (DefCol p)); [apply in_app_iff; right; left; reflexivity|]. unfold key_names. cbn [def_keys]. rewrite P. left. exact E.
    - exfalso. assert (I : In (DefFk true k) defs) by (rewrite D; apply in_app_iff; left; apply in_app_iff; right; left; reflexivity). specialize (F _ I). discriminate F. }
  assert (N : no_empty_key v).
  { intros H. apply Ne. apply (Kn defs [] ""); [rewrite app_nil_r; reflexivity|exact H]. }
  assert (C : forall l d l', defs = l +++ d :: l' -> forall n, column_named l n -> ~ In n (col_names d)).
  { intros l d l' D n (q & I & E) J. rewrite D in Nc. apply (distinct_split col_names l d l' n Nc J). apply (in_concat_map col_names l (DefCol q)); [exact I|left; exact E]. }
  assert (K : forall l d l', defs = l +++ d :: l' -> forall n, key_named tn defs l n -> ~ In n (key_names d)).
  { intros l d l' D n H J. apply (Kn l (d :: l') n D) in H. rewrite D in Nk. apply (distinct_split key_names l d l' n Nk J H). }
  assert (Fk : forall l d l', defs = l +++ d :: l' -> forall n, SpecDefs.fk_named tn l n -> ~ In n (fk_labels d)).
  { intros l d l' D n (b & k & I & E) J. rewrite D in Nf. apply (distinct_split fk_labels l d l' n Nf J).
    assert (I' : In (DefFk b k) defs) by (rewrite D; apply in_app_iff; left; exact I). specialize (F _ I'). cbn in F. subst b.
    apply (in_concat_map fk_labels l (DefFk false k)); [exact I|left; exact E]. }
  destruct (C97_exact v N) as [(t & E & [An (CC & YC & EC) (KK & YK & EK) (FF & YF & EF)] & (M & YM & EM) & _)|[_ (l & d & l' & D & Fl)]].
  - exists t. split; [exact E|]. split; [exact An|]. split; [|split; [|split; [|split]]].
    + rewrite EM. replace M with (@nil string); [reflexivity|]. symmetry.
      assert (Q : M = concat (map (fun _ => []) defs)).
      { apply (yields_fun _ (fun _ => []) [] defs M YM). intros l d l' D. cbn [List.app List.length]. split; [|lia]. intros a. split; [|discriminate]. intros G. exfalso.
        destruct G as [p Q|i Q|b k Q].
        - apply (C l (DefCol p) l' D _ Q). left. reflexivity.
        - apply (K l (DefIndex i) l' D _ Q). left. reflexivity.
        - assert (I' : In (DefFk b k) defs) by (rewrite D; apply in_app_iff; right; left; reflexivity). specialize (F _ I'). cbn in F. subst b.
          apply (Fk l (DefFk false k) l' D _ Q). left. reflexivity. }
      rewrite Q. clear. induction defs; [reflexivity|assumption].
    + rewrite EC. do 1 f_equal. apply (yields_fun _ def_columns [] defs CC YC). intros l d l' D. cbn [List.app]. split.
      * intros a. split.
        -- intros [p c _ Mp]. apply meant_eq in Mp. cbn [def_columns]. rewrite Mp. reflexivity.
        -- destruct d as [p| | |]; try discriminate. cbn [def_columns]. destruct (as_definition p) as [c|] eqn:A; [|discriminate]. intros [= ->].
           constructor; [|apply meant_eq, A]. intros H. apply (C l (DefCol p) l' D _ H). left. reflexivity.
      * destruct d as [p| | |]; cbn; try lia. destruct (as_definition p); cbn; lia.
    + rewrite EK. do 1 f_equal. apply (yields_fun _ def_keys [] defs KK YK). intros l d l' D. cbn [List.app]. split.
      * intros a. split.
        -- intros G. destruct G as [i _|p _ P|k _ _ _]; [reflexivity|cbn [def_keys]; rewrite P; reflexivity|].
           assert (I' : In (DefFk true k) defs) by (rewrite D; apply in_app_iff; right; left; reflexivity). specialize (F _ I'). discriminate F.
        -- destruct d as [p|i| |]; try discriminate; cbn [def_keys].
           ++ destruct (p_primary p) eqn:P; [|discriminate]. intros [= <-]. constructor; [|exact P]. intros H. apply (C l (DefCol p) l' D _ H). left. reflexivity.
           ++ intros [= <-]. constructor. intros H. apply (K l (DefIndex i) l' D _ H). left. reflexivity.
      * destruct d as [p|i| |]; cbn; try lia. destruct (p_primary p); cbn; lia.
    + rewrite EF. do 1 f_equal. apply (yields_fun _ def_fks [] defs FF YF). intros l d l' D. cbn [List.app].
      destruct d as [p|i|b k|o]; cbn [def_fks List.length]; try (split; [intros a; split; [intros G; inversion G|discriminate]|lia]). split; [|lia].
      assert (I' : In (DefFk b k) defs) by (rewrite D; apply in_app_iff; right; left; reflexivity). specialize (F _ I'). cbn in F. subst b.
      intros a. split.
      * intros G. inversion G; subst. reflexivity.
      * intros [= <-]. apply (gives_foreign tn l false k). intros H. apply (Fk l (DefFk false k) l' D _ H). left. reflexivity.
    + apply options_of, E.
  - exfalso. assert (I' : In d defs) by (fold defs in D; rewrite D; apply in_app_iff; right; left; reflexivity). specialize (F _ I').
    destruct Fl as [p _ H|p _ P H|i R H|o].
    + destruct F as [c A]. apply (H c), meant_eq, A.
    + apply (K l (DefCol p) l' D _ H). unfold key_names. cbn [def_keys]. rewrite P. left. reflexivity.
    + apply (K l (DefIndex i) l' D _ H). left. reflexivity.
    + exact F.
Qed.

(** ** The statement *)

Notation meant := (fun p d => piece_means m_name said_column said_index said_fk (piece_of p) d).
Definition defs_of (parts : list part) (ss : list string) : list wdef :=
  map (fun x => (snd x, piece_means m_name said_column said_index said_fk (piece_of (fst x)))) (List.combine parts ss).
Lemma defs_of_ok parts ss : Forall2 part_written parts ss ->
  map rdef_text (defs_of parts ss) = ss /\ Forall rdef_ok (defs_of parts ss) /\ List.length (defs_of parts ss) = List.length parts
  /\ forall ps, Forall2 same_def (defs_of parts ss) ps -> Forall2 meant parts ps.
Proof.
  unfold defs_of. induction 1 as [|p s parts ss P F (A & B & C & D)]; cbn [List.combine map List.length].
  - repeat split; try constructor. intros ps H. inversion H; subst. constructor.
  - split; [cbn [rdef_text fst snd]; f_equal; exact A|]. split; [constructor; [apply part_ok, P|exact B]|]. split; [f_equal; exact C|].
    intros ps H. inversion H; subst. constructor; [assumption|apply D; assumption].
Qed.

Definition named_def (d : def) : Prop :=
  match d with DefCol p => p_name p <> "" | DefIndex i => ix_name i <> "" | DefFk b _ => b = false | DefOption _ => True end.
Lemma named_no_empty v : Forall named_def (defs_in v) -> no_empty_key v.
Proof.
  intros H. rewrite Forall_forall in H. intros [(i & I & E)|[(l & p & l' & D & _ & _ & E)|(l & k & l' & D & _ & _ & E)]].
  - exact (H _ I E).
  - apply (H (DefCol p)); [rewrite D; apply in_app_iff; right; left; reflexivity|exact E].
  - assert (I : In (DefFk true k) (defs_in v)) by (rewrite D; apply in_app_iff; right; left; reflexivity). discriminate (H _ I).
Qed.
Lemma written_some m s : written m s -> m_name m <> "".
Proof. intros [? ? ? ? ? ? ? ? ? ? ? ? ? [[N _] _]]. exact N. Qed.
Lemma meant_named parts ss : Forall2 part_written parts ss -> forall ps, Forall2 meant parts ps -> Forall named_def ps.
Proof.
  induction 1 as [|p s parts ss P F IH]; intros ps H; inversion H as [|? d ? ps' M M']; subst; constructor; [|apply IH, M'].
  destruct P as [m s W|i s W|k s W]; cbn [piece_of piece_means] in M.
  - destruct d as [q| | |]; try contradiction. destruct M as (c & _ & _ & E & _). cbn [named_def]. rewrite E. apply (written_some m s W).
  - destruct d as [|i'| |]; try contradiction. destruct M as [A _]. cbn [named_def]. rewrite (alike_ix_name _ _ A). apply (key_some i s W).
  - destruct d as [| |[|] k'|]; try contradiction. reflexivity.
Qed.

Lemma named_keys l : Forall named_def l -> ~ In "" (concat (map key_names l)).
Proof.
  intros F I. apply in_concat in I as (q & I & J). apply in_map_iff in I as (d & <- & I). rewrite Forall_forall in F. specialize (F _ I).
  destruct d as [p|i|b k|o]; cbn in *; try contradiction.
  - destruct (p_primary p); [|destruct J]. destruct J as [J|[]]. apply F, J.
  - destruct J as [J|[]]. apply F, J.
Qed.
Lemma meant_lists parts ps : Forall2 meant parts ps ->
  concat (map col_names ps) = map m_name (columns_in parts) /\ concat (map key_names ps) = map ix_name (keys_in parts) /\ concat (map fk_labels ps) = map k_name (fks_in parts)
  /\ Forall2 (fun m c => means c m) (columns_in parts) (concat (map def_columns ps))
  /\ Forall2 alike_index (keys_in parts) (concat (map def_keys ps)) /\ Forall2 alike_fk (fks_in parts) (concat (map def_fks ps))
  /\ Forall (fun d => match d with DefCol p => exists c, as_definition p = Ok c | DefIndex _ => True | DefFk bare _ => bare = false | DefOption _ => False end) ps.
Proof.
  unfold columns_in, keys_in, fks_in. induction 1 as [|p d parts ps M F (A1 & A2 & A3 & A4 & A5 & A6 & A7)]; [repeat split; constructor|]. cbn [map concat].
  destruct p as [m|i|k]; cbn [piece_of piece_means] in M.
  - destruct d as [q| | |]; try contradiction. destruct M as (c & E & [Mc _] & N & P).
    assert (K1 : key_names (DefCol q) = []) by (unfold key_names; cbn [def_keys]; rewrite P; reflexivity).
    assert (K2 : def_keys (DefCol q) = []) by (cbn [def_keys]; rewrite P; reflexivity).
    assert (K3 : def_columns (DefCol q) = [c]) by (cbn [def_columns]; rewrite E; reflexivity).
    rewrite K1, K2, K3. change (col_names (DefCol q)) with [p_name q]. change (fk_labels (DefCol q)) with (@nil string). change (def_fks (DefCol q)) with (@nil constraint).
    cbn [List.app map]. repeat split; auto; [rewrite A1, N; reflexivity|..]; constructor; eauto.
  - destruct d as [|j| |]; try contradiction. destruct M as [Al _]. change (col_names (DefIndex j)) with (@nil string). change (key_names (DefIndex j)) with [ix_name j].
    change (fk_labels (DefIndex j)) with (@nil string). cbn [def_columns def_keys def_fks List.app map].
    repeat split; auto; [rewrite A2, (alike_ix_name _ _ Al); reflexivity|..]; constructor; auto.
  - destruct d as [| |[|] j|]; try contradiction. destruct M as (Al & _). change (col_names (DefFk false j)) with (@nil string). change (key_names (DefFk false j)) with (@nil string).
    change (fk_labels (DefFk false j)) with [k_name j]. cbn [def_columns def_keys def_fks List.app map].
    repeat split; auto; [rewrite A3; f_equal; symmetry; apply Al|..]; constructor; auto.
Qed.

Lemma vals_hold ine tick n ps opts semi : clean_name n -> let v := create_vals ine tick n ps opts semi in
  named_in v = n /\ defs_in v = ps /\ dmem "closing_semicolon" v = semi /\ def_options (vkids "table_options" v) = opts.
Proof.
  intros Hn v. assert (Sn : strip_char bquote (name_text tick n) = n) by (destruct tick; cbn [name_text]; [apply strip_ticked, clean_chars, Hn|apply strip_none, name_ok_bquote, clean_chars, Hn]).
  unfold v, named_in, defs_in, create_vals, stored_stop, stored_options.
  destruct opts as [|o l] eqn:T; cbn [list_is_nil].
  - destruct semi, ine; repeat split; exact Sn.
  - split; [transitivity (strip_char bquote (name_text tick n)); [destruct semi, ine; reflexivity|exact Sn]|]. split; [destruct semi, ine; reflexivity|]. split; [destruct semi, ine; reflexivity|].
    transitivity (def_options (map DefOption (o :: l))); [destruct semi, ine; reflexivity|apply options_found].
Qed.

(** The text of the statement, its definitions apart. *)
Record shaped (n : string) (before : list part) (m : meaning) (after : list part) (opts : list toption) (semi : bool) (s h w0 w1 w2 x k : string) (ss ss' : list string) : Prop := {
  sh_text : s = create_text w0 w1 w2 h (map rdef_text (defs_of before ss +++ (x ++ " " ++ k, fun _ => True) :: defs_of after ss')) opts (RoundTable.stop semi);
  sh_head : create_head n h;
  sh_before : Forall2 part_written before ss;
  sh_column : written m x;
  sh_key : spelled "PRIMARY KEY" k;
  sh_after : Forall2 part_written after ss';
  sh_options : Forall plain_option opts;
  sh_w0 : sforall is_space w0 = true;
  sh_w1 : sforall is_space w1 = true;
  sh_some : w1 <> "";
  sh_w2 : sforall is_space w2 = true
}.
Lemma inline_shape n before m after opts semi s : inline_create n before m after opts semi s -> exists h w0 w1 w2 x k ss ss', shaped n before m after opts semi s h w0 w1 w2 x k ss ss'.
Proof.
  intros [h w0 w1 w2 ss x k ss' Hh F W K F' Fo W0 W1 W1n W2]. exists h, w0, w1, w2, x, k, ss, ss'. constructor; auto.
  rewrite map_app. cbn [map rdef_text fst]. rewrite (proj1 (defs_of_ok _ _ F)), (proj1 (defs_of_ok _ _ F')).
  unfold create_text, after_defs. rewrite options_as. unfold RoundTable.stop. repeat (cbn [String.append]; rewrite ?sapp_assoc). reflexivity.
Qed.
Section Inline.
  Variables (n : string) (before : list part) (m : meaning) (after : list part) (opts : list toption) (semi : bool) (s h w0 w1 w2 x k : string) (ss ss' : list string).
  Hypothesis Sh : shaped n before m after opts semi s h w0 w1 w2 x k ss ss'.
  Hypothesis Lo : (N.of_nat (List.length opts) < 1000)%N.

  Let mid : wdef := (x ++ " " ++ k, fun _ => True).
  Let ds : list wdef := defs_of before ss +++ mid :: defs_of after ss'.
  Lemma mid_ok : def_ok mid.
  Proof. apply inline_def; [apply (written_def m), (sh_column _ _ _ _ _ _ _ _ _ _ _ _ _ _ _ Sh)|apply (sh_key _ _ _ _ _ _ _ _ _ _ _ _ _ _ _ Sh)]. Qed.
  Lemma ds_ok : Forall def_ok ds.
  Proof.
    apply Forall_app. split; [|constructor; [apply mid_ok|]]; apply rdef_shapes; apply defs_of_ok; apply Sh.
  Qed.
  Lemma ds_some : ds <> [].
  Proof. unfold ds. destruct (defs_of before ss); discriminate. Qed.
  Lemma inline_quiet : no_dd false s = true /\ no_drop s.
  Proof.
    rewrite (sh_text _ _ _ _ _ _ _ _ _ _ _ _ _ _ _ Sh). split.
    - apply (rendered_dd w0 w1 w2 n h _ _ _ "" semi); try apply Sh; first [apply stop_end|apply ds_ok|destruct semi; reflexivity].
    - apply (rendered_drop w0 w1 w2 n h); try apply Sh; first [apply ds_some|apply ds_ok|destruct semi; reflexivity].
  Qed.
  Lemma inline_kids ps : kids max_turns definition_classes (body ds ++ closing (negb (is_empty w2)) (after_defs opts (RoundTable.stop semi))) [] = Ok (Some (ps, ")" ++ after_defs opts (RoundTable.stop semi))) ->
    exists ine tick, create_parse s = (let* a := create_process (create_vals ine tick n ps opts semi) in Ok (Some a, "")).
  Proof.
    intros K. rewrite (sh_text _ _ _ _ _ _ _ _ _ _ _ _ _ _ _ Sh). apply (create_kids w0 w1 w2 n h ds opts (RoundTable.stop semi) "" semi); try apply Sh; try exact K; try exact Lo;
      first [apply stop_end|apply ds_some|apply ds_ok|destruct semi; reflexivity].
  Qed.
  Lemma inline_ends : begins s /\ exists y c, s = y ++ String c "" /\ is_space c = false.
  Proof.
    rewrite (sh_text _ _ _ _ _ _ _ _ _ _ _ _ _ _ _ Sh). split.
    - destruct (sh_head _ _ _ _ _ _ _ _ _ _ _ _ _ _ _ Sh) as [k0 j tick K _ _]. unfold begins. intros N. apply (match_none_app "create" " table") in N. unfold create_text in N. rewrite !sapp_assoc in N.
      rewrite match_lit_app in N by (unfold spelled in K; rewrite K; reflexivity). discriminate N.
    - destruct (after_strip opts (RoundTable.stop semi) "" semi (stop_end semi) (sh_options _ _ _ _ _ _ _ _ _ _ _ _ _ _ _ Sh)) as [An _].
      assert (Z : neat_from false (")" ++ after_defs opts (RoundTable.stop semi)) = true) by exact An.
      destruct (ends_solid (")" ++ after_defs opts (RoundTable.stop semi)) ltac:(discriminate) false Z) as (y & c & E & C).
      fold mid ds. exists (h ++ " (" ++ w0 ++ join ("," ++ w1) (map rdef_text ds) ++ w2 ++ y), c. split; [|exact C]. unfold create_text. rewrite E. rewrite !sapp_assoc. reflexivity.
  Qed.
  Lemma inline_clean : clean_name n.
  Proof. destruct (sh_head _ _ _ _ _ _ _ _ _ _ _ _ _ _ _ Sh). assumption. Qed.
  Lemma inline_neat : neat (after_defs opts (RoundTable.stop semi)) = true.
  Proof. apply (after_strip opts (RoundTable.stop semi) "" semi (stop_end semi) (sh_options _ _ _ _ _ _ _ _ _ _ _ _ _ _ _ Sh)). Qed.

  (** A column with a length, AUTO_INCREMENT, a character set or a collation. *)
  Lemma inline_fails : hard m -> (N.of_nat (List.length before + List.length after) < 998)%N ->
    (forall c, In c (columns_in before +++ [m]) -> lower (m_name c) <> "primary") -> exists msg, create_parse s = Raise (ValueError msg).
  Proof.
    intros Hd L Np. destruct (defs_of_ok _ _ (sh_before _ _ _ _ _ _ _ _ _ _ _ _ _ _ _ Sh)) as (_ & B1 & B2 & B3). destruct (defs_of_ok _ _ (sh_after _ _ _ _ _ _ _ _ _ _ _ _ _ _ _ Sh)) as (_ & A1 & A2 & A3).
    set (P := fun a b => exists p q, a = DefCol p /\ b = DefCol q /\ p_name p = m_name m /\ lower (p_name q) = "primary" /\ upper (p_type q) = "KEY").
    assert (Tw : twice_read mid P).
    { split; [apply mid_ok|]. intros e He. destruct (inline_two m x k e) as (p & q & E1 & N1 & E2 & N2 & N3); try apply Sh; auto.
      exists (DefCol p), (DefCol q), (k ++ ending_raw e). split; [|split; [exact E1|split; [exact E2|exists p, q; auto]]].
      destruct (spelled_free "PRIMARY KEY" k) as (_ & K2 & _); try reflexivity; [apply Sh|discriminate|]. destruct k; [contradiction|discriminate]. }
    destruct (kids_twice (defs_of before ss) mid (defs_of after ss') P (negb (is_empty w2)) (after_defs opts (RoundTable.stop semi)) max_turns B1 Tw A1 inline_neat) as (ps & a & b & ps' & K & S1 & (p & q & -> & -> & N1 & N2 & N3) & S2).
    { apply turns_enough. rewrite B2, A2. lia. }
    fold ds in K. destruct (inline_kids _ K) as (ine & tick & E). set (v := create_vals ine tick n (ps +++ DefCol p :: DefCol q :: ps') opts semi) in *.
    destruct (vals_hold ine tick n (ps +++ DefCol p :: DefCol q :: ps') opts semi inline_clean) as (V1 & V2 & _). fold v in V1, V2.
    pose proof (B3 ps S1) as M1. pose proof (A3 ps' S2) as M2.
    assert (Ne : no_empty_key v).
    { apply named_no_empty. rewrite V2. apply Forall_app. split; [apply (meant_named before ss); [apply Sh|exact M1]|]. constructor; [|constructor].
      - cbn. rewrite N1. apply (written_some m x), Sh.
      - cbn. intros Z. rewrite Z in N2. discriminate N2.
      - apply (meant_named after ss'); [apply Sh|exact M2]. }
    destruct (C97_exact v Ne) as [(t & _ & _ & _ & H)|[(msg & E') _]]; [exfalso|rewrite E, E'; exists msg; reflexivity].
    apply (H (ps +++ [DefCol p]) (DefCol q) ps'); [rewrite V2, <- app_assoc; reflexivity|]. apply fails_type.
    - intros (r & I & Er). apply in_app_iff in I as [I|[I|[]]].
      + assert (J : exists c, In c (columns_in before) /\ p_name r = m_name c).
        { clear -M1 I. revert I. induction M1 as [|u d parts ps M F IH]; intros J0; [destruct J0|]. destruct J0 as [J|J].
          - subst d. destruct u as [c|i|f]; cbn [piece_of piece_means] in M; try contradiction. destruct M as (c' & _ & _ & E & _). exists c. split; [left; reflexivity|exact E].
          - destruct (IH J) as (c & I & E). exists c. split; [|exact E]. unfold columns_in in *. cbn [map concat]. apply in_app_iff. right. exact I. }
        destruct J as (c & I' & Ec). apply (Np c); [apply in_app_iff; left; exact I'|]. rewrite <- Ec, Er. exact N2.
      + injection I as <-. apply (Np m); [apply in_app_iff; right; left; reflexivity|]. rewrite <- N1, Er. exact N2.
    - intros c (kind & G & _). rewrite N3 in G. discriminate G.
  Qed.

  (** A column with none of these. *)
  Lemma inline_reads : easy m -> sound_table (inline_meaning n before m after opts) ->
    exists t, create_parse s = Ok (Some t, "") /\ table_says t (inline_meaning n before m after opts)
      /\ t_global_errors t = (if semi then [] else ["Missing ending semicolon for table " ++ n]).
  Proof.
    intros Ez So. destruct (defs_of_ok _ _ (sh_before _ _ _ _ _ _ _ _ _ _ _ _ _ _ _ Sh)) as (_ & B1 & B2 & B3). destruct (defs_of_ok _ _ (sh_after _ _ _ _ _ _ _ _ _ _ _ _ _ _ _ Sh)) as (_ & A1 & A2 & A3).
    set (Q := fun d => exists p c, d = DefCol p /\ as_definition p = Ok c /\ means c (not_null m) /\ p_name p = m_name m /\ p_primary p = true).
    set (ds' := defs_of before ss +++ (x ++ " " ++ k, Q) :: defs_of after ss').
    assert (R : Forall rdef_ok ds').
    { apply Forall_app. split; [exact B1|]. constructor; [|exact A1]. split; [apply mid_ok|]. intros e He _.
      destruct (inline_one m x k e) as (p & c & E & D); try apply Sh; auto. exists (DefCol p). split; [exact E|]. exists p, c. tauto. }
    assert (Bd : body ds' = body ds) by (unfold body, ds, ds', mid; rewrite !map_app; reflexivity).
    destruct (kids_close ds' (negb (is_empty w2)) (after_defs opts (RoundTable.stop semi)) max_turns) as (ps & K & Ps); auto.
    { unfold ds'. destruct (defs_of before ss); discriminate. }
    { apply inline_neat. }
    { apply turns_enough. unfold ds'. rewrite app_length. cbn [List.length]. rewrite B2, A2, !parts_count. pose proof (so_some _ So) as Sm. cbn [tm_columns tm_keys tm_fks inline_meaning] in Sm.
      rewrite !app_length in Sm. cbn [List.length] in Sm. lia. }
    rewrite Bd in K. destruct (inline_kids _ K) as (ine & tick & E).
    unfold ds' in Ps. apply Forall2_app_inv_l in Ps as (ps1 & ps2 & P1 & P2 & ->). inversion P2 as [|? d ? ps3 Hq P3 E1 E2]; subst. change (Q d) in Hq. destruct Hq as (p & c & -> & Ap & Mc & Np & Pp).
    pose proof (B3 _ P1) as M1. pose proof (A3 _ P3) as M2.
    destruct (meant_lists _ _ M1) as (C1 & C2 & C3 & C4 & C5 & C6 & C7). destruct (meant_lists _ _ M2) as (D1 & D2 & D3 & D4 & D5 & D6 & D7).
    set (all := ps1 +++ DefCol p :: ps3) in *. set (v := create_vals ine tick n all opts semi) in *.
    destruct (vals_hold ine tick n all opts semi inline_clean) as (V1 & V2 & V3 & V4). fold v in V1, V2, V3, V4.
    assert (Kp : def_keys (DefCol p) = [mkIndex "" [m_name m] IPrimary []]) by (cbn [def_keys]; rewrite Pp, Np; reflexivity).
    assert (Kc : def_columns (DefCol p) = [c]) by (cbn [def_columns]; rewrite Ap; reflexivity).
    assert (L1 : concat (map col_names all) = map m_name (tm_columns (inline_meaning n before m after opts))).
    { unfold all. rewrite map_app, concat_app. cbn [map concat col_names List.app]. rewrite C1, D1, Np. cbn [inline_meaning tm_columns]. rewrite map_app. reflexivity. }
    assert (L2 : concat (map key_names all) = map ix_name (tm_keys (inline_meaning n before m after opts))).
    { unfold all. rewrite map_app, concat_app. cbn [map concat]. replace (key_names (DefCol p)) with [m_name m] by (unfold key_names; rewrite Kp; reflexivity). cbn [List.app]. rewrite C2, D2. cbn [inline_meaning tm_keys]. rewrite map_app. reflexivity. }
    assert (L3 : concat (map fk_labels all) = map k_name (tm_fks (inline_meaning n before m after opts))).
    { unfold all. rewrite map_app, concat_app. cbn [map concat]. change (fk_labels (DefCol p)) with (@nil string). cbn [List.app]. rewrite C3, D3. cbn [inline_meaning tm_fks]. rewrite map_app. reflexivity. }
    destruct (distinct_defs v) as (t & T1 & T2 & T3 & T4 & T5 & T6 & T7); rewrite ?V2.
    { rewrite L1. apply So. }
    { rewrite L2. apply So. }
    { rewrite L3. apply So. }
    { apply named_keys. unfold all. apply Forall_app. split; [apply (meant_named before ss); [apply Sh|exact M1]|]. constructor; [|apply (meant_named after ss'); [apply Sh|exact M2]].
      cbn. rewrite Np. apply (written_some m x), Sh. }
    { unfold all. apply Forall_app. split; [exact C7|]. constructor; [eauto|exact D7]. }
    rewrite V2 in T4, T5, T6. rewrite V4 in T7. rewrite V1 in T2.
    exists t. split; [rewrite E, T1; reflexivity|]. split.
    - constructor; [exact T2|..|exact T7]; cbn [inline_meaning tm_columns tm_keys tm_fks].
      + rewrite T4. apply (named_says m_name c_name (fun m c => means c m) (fun m c => means c m)); [|intros a b M; split; [apply M|exact M]].
        unfold all. rewrite map_app, concat_app. cbn [map concat]. rewrite Kc. apply Forall2_app; [exact C4|]. cbn [List.app]. constructor; [exact Mc|exact D4].
      + rewrite T5. apply (named_says ix_name ix_name alike_index alike_index); [|intros a b M; split; [apply alike_ix_name, M|exact M]].
        unfold all. rewrite map_app, concat_app. cbn [map concat]. rewrite Kp. apply Forall2_app; [exact C5|]. cbn [List.app]. constructor; [repeat split|exact D5].
      + rewrite T6. apply (named_says k_name k_name alike_fk alike_fk); [|intros a b M; split; [symmetry; apply M|exact M]].
        unfold all. rewrite map_app, concat_app. cbn [map concat def_fks List.app]. apply Forall2_app; [exact C6|exact D6].
    - rewrite T3. unfold end_message. rewrite V3, V1. reflexivity.
  Qed.
End Inline.
