(** Comments inside of statements. *)
From Verif Require Export RemarkFacts SpecInside.
From Verif Require Import ConfFacts RoundMany PropsParse PropsInsert PropsSize PropsIgnored.

Local Opaque max_turns max_statements.

(** ** CREATE TABLE *)

(** Whether a text ends with a hyphen. *)
Fixpoint ends_hyphen (s : string) : bool :=
  match s with EmptyString => false | String c EmptyString => Ascii.eqb c "-" | String _ s' => ends_hyphen s' end.
Lemma skip_line m : has_char newline m = false -> forall r, drop_dashes_from true (m ++ String newline r) = String newline (drop_dashes_from false r).
Proof.
  unfold has_char. induction m as [|c m IH]; intros H r; [reflexivity|]. cbn [sexists] in H. apply orb_false_iff in H as [H1 H2]. cbn [String.append drop_dashes_from].
  rewrite Ascii.eqb_sym, H1. apply IH, H2.
Qed.
Lemma skip_end m : has_char newline m = false -> drop_dashes_from true m = "".
Proof.
  unfold has_char. induction m as [|c m IH]; intros H; [reflexivity|]. cbn [sexists] in H. apply orb_false_iff in H as [H1 H2]. cbn [drop_dashes_from].
  rewrite Ascii.eqb_sym, H1. apply IH, H2.
Qed.
(** What is dropped up to the end of a line leaves no trace, and what comes before it is read the same. *)
Lemma drop_after x y : (forall ic, drop_dashes_from ic x = drop_dashes_from ic y) -> forall a ic, ends_hyphen a = false -> drop_dashes_from ic (a ++ x) = drop_dashes_from ic (a ++ y).
Proof.
  intros E. induction a as [|c a IH]; intros ic H; [apply E|]. assert (H' : ends_hyphen a = false) by (destruct a; [reflexivity|exact H]).
  cbn [String.append drop_dashes_from]. destruct ic; [destruct (Ascii.eqb c newline); rewrite IH by exact H'; reflexivity|].
  destruct a as [|d a].
  - cbn [ends_hyphen] in H. rewrite H. cbn [andb]. rewrite (IH false H'). reflexivity.
  - cbn [String.append]. cbn [String.append] in IH. rewrite (IH true H'), (IH false H'). reflexivity.
Qed.
Lemma drop_line a m b : ends_hyphen a = false -> has_char newline m = false -> drop_dashes (a ++ "--" ++ m ++ String newline b) = drop_dashes (a ++ String newline b).
Proof.
  intros A M. unfold drop_dashes. apply drop_after; [|exact A]. intros ic. destruct ic; cbn [String.append drop_dashes_from Ascii.eqb Bool.eqb andb]; rewrite skip_line by exact M; reflexivity.
Qed.
Lemma drop_last a m : ends_hyphen a = false -> has_char newline m = false -> drop_dashes (a ++ "--" ++ m) = drop_dashes a.
Proof.
  intros A M. unfold drop_dashes. rewrite <- (sapp_nil_r a) at 2. apply drop_after; [|exact A].
  intros ic. destruct ic; cbn [String.append drop_dashes_from Ascii.eqb Bool.eqb andb]; rewrite skip_end by exact M; reflexivity.
Qed.
Lemma hyphen_iff a : ends_hyphen a = true -> hyphen_last a.
Proof.
  induction a as [|c a IH]; [discriminate|]. destruct a as [|d a]; cbn [ends_hyphen].
  - intros E. apply Ascii.eqb_eq in E. subst c. exists "". reflexivity.
  - intros E. destruct (IH E) as [x X]. exists (String c x). cbn [String.append]. rewrite <- X. reflexivity.
Qed.
Lemma no_hyphen a : ~ hyphen_last a -> ends_hyphen a = false.
Proof. intros H. destruct (ends_hyphen a) eqn:E; [|reflexivity]. exfalso. apply H, hyphen_iff, E. Qed.

(** White space at the end does not matter. *)
Lemma dashes_white u w : sforall is_space w = true -> forall ic, exists w', sforall is_space w' = true /\ drop_dashes_from ic (u ++ w) = drop_dashes_from ic u ++ w'.
Proof.
  intros W. assert (B : forall ic, exists w', sforall is_space w' = true /\ drop_dashes_from ic w = w').
  { intros ic. eexists. split; [|reflexivity]. revert ic W. induction w as [|c w IH]; intros ic W; [reflexivity|]. cbn [sforall] in W. apply andb_true_iff in W as [C W].
    assert (H : Ascii.eqb c "-" = false) by (destruct (Ascii.eqb_spec c "-") as [->|]; [discriminate|reflexivity]).
    cbn [drop_dashes_from]. rewrite H. cbn [andb]. destruct ic; [destruct (Ascii.eqb c newline)|]; cbn [sforall]; rewrite ?C; cbn [andb]; apply IH, W. }
  induction u as [|c u IH]; intros ic; [destruct (B ic) as (w' & A & E); exists w'; split; [exact A|]; cbn [String.append]; rewrite E; destruct ic; reflexivity|].
  cbn [String.append drop_dashes_from]. destruct ic; [destruct (Ascii.eqb c newline)|].
  - destruct (IH false) as (w' & A & E). exists w'. split; [exact A|]. rewrite E. reflexivity.
  - exact (IH true).
  - assert (N : match u ++ w with String d _ => Ascii.eqb d "-" | "" => false end = match u with String d _ => Ascii.eqb d "-" | "" => false end).
    { destruct u; [|reflexivity]. cbn [String.append]. destruct w as [|d w]; [reflexivity|]. cbn [sforall] in W. destruct (Ascii.eqb_spec d "-") as [->|]; [discriminate|reflexivity]. }
    rewrite N. destruct (Ascii.eqb c "-" && _); [exact (IH true)|]. destruct (IH false) as (w' & A & E). exists w'. split; [exact A|]. rewrite E. reflexivity.
Qed.
Lemma prefix_white u w : sforall is_space w = true ->
  prefix_length (u ++ w) = prefix_length u /\ (forall g k, prefix_length u = Some (g, k) -> k <= String.length u).
Proof.
  intros W. assert (G : forall s g k, prefix_length s = Some (g, k) -> exists w1 q n q' d r, s = part_text w1 q n q' d ++ r /\ k = String.length (part_text w1 q n q' d)
     /\ forall x, prefix_length (part_text w1 q n q' d ++ x) = Some (g, k)).
  { intros s g k P. destruct (prefix_length_text _ _ _ P) as (w1 & q1 & n1 & q1' & d1 & r & E & B & Q & Q' & N & Wd & D).
    assert (E' : s = part_text w1 q1 n1 q1' d1 ++ r) by (rewrite E; unfold part_text; rewrite !sapp_assoc; reflexivity).
    rewrite E' in P. rewrite prefix_length_found in P by assumption. injection P as P1 P2. exists w1, q1, n1, q1', d1, r. split; [exact E'|]. split; [symmetry; exact P2|].
    intros x. rewrite prefix_length_found by assumption. rewrite P1, P2. reflexivity. }
  split.
  - destruct (prefix_length u) as [[g k]|] eqn:P.
    + destruct (G _ _ _ P) as (w1 & q & n & q' & d & r & -> & _ & F). rewrite sapp_assoc. apply F.
    + destruct (prefix_length (u ++ w)) as [[g k]|] eqn:P'; [|reflexivity]. exfalso. destruct (G _ _ _ P') as (w1 & q & n & q' & d & r & E & _ & F).
      destruct (app_cut _ _ _ _ E) as [(y & -> & _)|(e & y & Eu & Ez)]; [rewrite F in P; discriminate|].
      assert (L : exists z, part_text w1 q n q' d = z ++ ")") by (exists (w1 ++ q ++ n ++ q' ++ "(" ++ d); unfold part_text; rewrite !sapp_assoc; reflexivity).
      destruct L as [z L]. rewrite L in Eu.
      assert (R : exists y', String e y = y' ++ ")").
      { clear -Eu. revert z Eu. induction u as [|c u IH]; intros z Eu; [exists z; symmetry; exact Eu|]. destruct z as [|c' z].
        - cbn [String.append] in Eu. destruct u; discriminate.
        - cbn [String.append] in Eu. injection Eu as _ Eu. exact (IH z Eu). }
      destruct R as [y' R]. rewrite R in Ez. subst w. rewrite !sforall_app in W. cbn [sforall] in W. change (is_space ")") with false in W. cbn [andb] in W. rewrite andb_false_r in W. discriminate.
  - intros g k P. destruct (G _ _ _ P) as (w1 & q & n & q' & d & r & -> & -> & _). rewrite slength_app. lia.
Qed.
Lemma lengths_white w : sforall is_space w = true -> drop_lengths_from 0 w = w.
Proof.
  induction w as [|c w IH]; intros W; [reflexivity|]. cbn [sforall] in W. apply andb_true_iff in W as [C W]. cbn [drop_lengths_from].
  replace (Ascii.eqb c "(" || Ascii.eqb c ",") with false; [rewrite IH by exact W; reflexivity|]. symmetry. apply orb_false_iff.
  split; [destruct (Ascii.eqb_spec c "(") as [->|]|destruct (Ascii.eqb_spec c ",") as [->|]]; try reflexivity; discriminate.
Qed.
Lemma lengths_end u w : sforall is_space w = true -> forall k, k <= String.length u -> drop_lengths_from k (u ++ w) = drop_lengths_from k u ++ w.
Proof.
  intros W. induction u as [|c u IH]; intros k L; [cbn [String.length] in L; replace k with 0 by lia; apply lengths_white, W|].
  cbn [String.append drop_lengths_from]. destruct k as [|k]; [|apply IH; cbn [String.length] in L; lia].
  destruct (Ascii.eqb c "(" || Ascii.eqb c ","); [|rewrite IH by lia; reflexivity].
  destruct (prefix_white u w W) as [P B]. rewrite P. destruct (prefix_length u) as [[g k]|]; [|rewrite IH by lia; reflexivity].
  rewrite (IH k) by (apply (B g k eq_refl)). cbn [String.append]. rewrite sapp_assoc. reflexivity.
Qed.
Lemma normal_white u w : sforall is_space w = true -> normalize (u ++ w) = normalize u.
Proof.
  intros W. rewrite <- (normalize_strip (u ++ w)), <- (normalize_strip u). f_equal. unfold strip, strip_by. f_equal.
  induction u as [|c u IH]; [cbn [String.append]; induction w as [|c w IH]; [reflexivity|]; cbn [sforall] in W; apply andb_true_iff in W as [C W]; cbn [rstrip_by]; rewrite IH by exact W; cbn [rstrip_by]; rewrite C; reflexivity|].
  cbn [String.append rstrip_by]. rewrite IH. reflexivity.
Qed.
Lemma create_white u w : sforall is_space w = true -> create_parse (u ++ w) = create_parse u.
Proof.
  intros W. unfold create_parse, drop_dashes. destruct (dashes_white u w W false) as (w' & W' & E). rewrite E. unfold drop_lengths. rewrite lengths_end by (exact W' || lia).
  unfold parse_with. rewrite normal_white by exact W'. reflexivity.
Qed.
Lemma rstrip_white s : exists w, sforall is_space w = true /\ s = rstrip_by is_space s ++ w.
Proof.
  induction s as [|c s (w & W & E)]; [exists ""; split; reflexivity|]. cbn [rstrip_by]. destruct (rstrip_by is_space s) as [|d r].
  - destruct (is_space c) eqn:C; [exists (String c s); rewrite E; cbn [sforall String.append]; rewrite C; split; [exact W|reflexivity]|]. exists s. rewrite E. cbn [String.append]. split; [exact W|reflexivity].
  - exists w. split; [exact W|]. cbn [String.append] in *. f_equal. exact E.
Qed.
(** A text that begins with CREATE is given to the parser as it is. *)
Lemma begun_reads s file : begins s -> forall n r, read_loop (Datatypes.S n) file r s
  = match create_parse s with
    | Raise e => (r, Raise e)
    | Ok (m, rest) => read_loop n file (put_table r (match m with Some t => t | None => no_table end)) rest
    end.
Proof.
  intros B n r. destruct (begins_create s B) as (c & m & E & C & _). destruct (rstrip_white m) as (w & W & Em).
  assert (St : strip s = String c (rstrip_by is_space m)).
  { rewrite E. unfold strip, strip_by. cbn [rstrip_by]. destruct (rstrip_by is_space m); cbn [lstrip_by]; rewrite ?C; cbn [lstrip_by]; rewrite ?C; reflexivity. }
  assert (B' : begins (strip s)).
  { rewrite St. rewrite Em in E. clear -B E W C. subst s. unfold begins in *. revert B W C.
    change (String c (rstrip_by is_space m ++ w)) with (String c (rstrip_by is_space m) ++ w). generalize (String c (rstrip_by is_space m)). intros u B W _.
    assert (L : lower "create" = "create") by reflexivity. revert u B. assert (Ns : sforall not_space "create" = true) by reflexivity. clear L. revert Ns. generalize "create".
    induction s as [|a k IH]; intros Ns u B; [destruct u; discriminate|]. cbn [sforall] in Ns. apply andb_true_iff in Ns as [A Ns]. destruct u as [|x u].
    - cbn [String.append match_lit] in B. destruct w as [|y w]; [exact B|]. cbn [sforall] in W. apply andb_true_iff in W as [Y W]. exfalso. apply B.
      destruct (Ascii.eqb_spec (to_lower a) (to_lower y)) as [Q|]; [|reflexivity]. exfalso. clear -A Y Q.
      assert (Z : is_space (to_lower y) = true) by (revert Y; destruct y as [[|] [|] [|] [|] [|] [|] [|] [|]]; vm_compute; congruence).
      rewrite <- Q in Z. revert A Z. destruct a as [[|] [|] [|] [|] [|] [|] [|] [|]]; vm_compute; congruence.
    - cbn [String.append match_lit] in *. destruct (Ascii.eqb (to_lower a) (to_lower x)); [|exact B]. apply IH; assumption. }
  destruct (begins_create (strip s) B') as (c' & m' & E' & _ & S').
  cbn [read_loop]. rewrite S'. rewrite E' at 1. rewrite E at 1. cbn [is_empty].
  rewrite <- (create_white (strip s) w W). replace (strip s ++ w) with s by (rewrite St, E, Em at 1; reflexivity). reflexivity.
Qed.
Lemma opens_begins s : opens_create s -> begins s.
Proof. intros (w & r & -> & L). unfold begins. rewrite match_lit_app by (rewrite L; reflexivity). discriminate. Qed.
Lemma opens_more s z : opens_create s -> opens_create (s ++ z).
Proof. intros (w & r & -> & L). exists w, (r ++ z). rewrite sapp_assoc. split; [reflexivity|exact L]. Qed.
Lemma commented_read file s s' : commented s s' -> read_sql file s' = read_sql file s.
Proof.
  assert (G : forall x y, begins x -> begins y -> drop_dashes x = drop_dashes y -> read_sql file x = read_sql file y).
  { intros x y X Y E. unfold read_sql. destruct max_statements as [|k]; [destruct (begins_create x X) as (? & ? & -> & _); destruct (begins_create y Y) as (? & ? & -> & _); reflexivity|].
    rewrite !begun_reads by assumption. unfold create_parse. rewrite E. reflexivity. }
  induction 1 as [|a m b O H M C IH|a m O H M C IH]; [reflexivity|..]; rewrite <- IH; apply G; try apply opens_begins, opens_more, O; try apply opens_begins, O.
  - apply drop_line; [apply no_hyphen, H|exact M].
  - apply drop_last; [apply no_hyphen, H|exact M].
Qed.

(** ** INSERT *)

(** A group followed by a text that is neither a comma nor another group. *)
Lemma values_cut sp g u : Forall literal_ok g -> g <> [] -> trim u = true -> u <> "" -> match_lit "," u = None ->
  values_class (group_text sp g ++ " " ++ u) = Ok (Some (map lit_value g, false), u).
Proof.
  intros F N R Rn Cm. unfold values_class, parse_with.
  assert (E : neat (" " ++ u) = true) by (apply (neat_space u); assumption).
  rewrite trim_normalize by (apply group_neat; assumption). unfold values_rules, group_text. rewrite !sapp_assoc.
  destruct (lits_neat sp g (")" ++ " " ++ u) F N (neat_cat ")" _ eq_refl E)) as [T J].
  unfold lit. rewrite (step_lit _ _ _ _ _ (join (sep_text sp) (map lit_text g) ++ ")" ++ " " ++ u)); [|reflexivity|rewrite trim_strip by exact T; apply append_some, J].
  rewrite trim_strip by exact T. rewrite (step_del _ _ _ _ _ _ _ _ _ (map lit_raw g) (String ")" (" " ++ u))); [|apply delimited_lits; assumption|discriminate].
  assert (V : map read_value (map lit_raw g) = map lit_value g).
  { rewrite map_map. apply map_ext_in. intros v I. apply lit_read. rewrite Forall_forall in F. apply F, I. }
  assert (Z : strip (" " ++ u) = u) by (apply (strip_space u), R).
  rewrite (step_lit _ _ _ _ _ (" " ++ u)); [|reflexivity|rewrite Z; exact Rn]. rewrite Z. unfold rcomma. rewrite skip_lit by exact Cm. cbn [run_rules bind]. rewrite <- V. reflexivity.
Qed.
Definition cut_end (comma : bool) (u : string) : string := (if comma then "," else "") ++ " " ++ u.
Lemma cut_neat comma u : trim u = true -> u <> "" -> neat (cut_end comma u) = true.
Proof. intros T N. unfold cut_end. destruct comma; [apply (sep_neat true u T N)|apply (neat_space u T N)]. Qed.
Definition cut_rows (comma : bool) (gs : list (list literal)) : list (list rval * bool) :=
  match rev gs with
  | [] => []
  | g :: l => rev (map (fun g => (map lit_value g, true)) l) +++ [(map lit_value g, comma)]
  end.
Lemma cut_rows_cons comma g y gs : cut_rows comma (g :: y :: gs) = (map lit_value g, true) :: cut_rows comma (y :: gs).
Proof.
  unfold cut_rows. cbn [rev]. destruct (rev gs +++ [y]) as [|x l] eqn:E; [destruct (rev gs); discriminate|]. cbn [List.app]. rewrite map_app, rev_app_distr. reflexivity.
Qed.
Lemma cut_kids comma sp gp k u gs : trim u = true -> u <> "" -> match_lit "(" u = None -> match_lit "," u = None ->
  Forall (group_ok k) gs -> gs <> [] -> forall n ms, List.length gs < n ->
  kids n [values_class] (join (sep_text gp) (map (group_text sp) gs) ++ cut_end comma u) ms = Ok (Some (ms +++ cut_rows comma gs, u)).
Proof.
  intros Tu Nu Op Cm F N. induction F as [|g gs (F1 & F2 & F3) F IH]; [contradiction|]. intros n ms L. destruct n as [|n]; [cbn [List.length] in L; lia|]. destruct gs as [|y gs].
  - cbn [map join kids]. assert (Em : is_empty (group_text sp g ++ cut_end comma u) = false) by reflexivity. rewrite Em. cbn [best_child].
    assert (V : values_class (group_text sp g ++ cut_end comma u) = Ok (Some (map lit_value g, comma), u)).
    { destruct comma; [apply (values_next sp true g u); assumption|apply (values_cut sp g u); assumption]. }
    rewrite V. cbn [bind best_child]. destruct n as [|n]; [cbn [List.length] in L; lia|]. cbn [kids].
    assert (Eu : is_empty u = false) by (destruct u; [contradiction|reflexivity]). rewrite Eu. cbn [best_child].
    assert (Vn : values_class u = Ok (None, u)).
    { unfold values_class, parse_with. rewrite trim_normalize by exact Tu. unfold values_rules, lit. rewrite fail_lit by exact Op. reflexivity. }
    rewrite Vn. cbn [bind best_child]. destruct (ms +++ [(map lit_value g, comma)]) eqn:E; [destruct ms; discriminate|]. rewrite <- E. reflexivity.
  - cbn [map]. rewrite join_cons by discriminate. cbn [map] in IH. rewrite !sapp_assoc. cbn [kids].
    set (rest := join (sep_text gp) (group_text sp y :: map (group_text sp) gs) ++ cut_end comma u) in *.
    assert (Em : is_empty (group_text sp g ++ sep_text gp ++ rest) = false) by reflexivity. rewrite Em. cbn [best_child].
    assert (T : trim rest = true) by (apply (groups_neat sp gp k (y :: gs)); [exact F|discriminate|apply cut_neat; assumption]).
    assert (Rn : rest <> "").
    { unfold rest. apply append_some. destruct gs; [discriminate|]. cbn [map]. rewrite join_cons by discriminate. discriminate. }
    rewrite values_next by assumption. cbn [bind best_child]. rewrite IH; [|discriminate|cbn [List.length] in *; lia]. rewrite cut_rows_cons, <- app_assoc. reflexivity.
Qed.
Lemma cut_taken comma k gs : Forall (group_ok k) gs -> k <> 0 -> take_groups k (cut_rows comma gs) true = (map (map lit_value) gs, [], []).
Proof.
  intros F K. induction F as [|g gs (F1 & F2 & F3) F IH]; [reflexivity|]. destruct gs as [|y gs].
  - cbn [cut_rows rev List.app map take_groups]. rewrite map_length, F3, Nat.eqb_refl, andb_false_r. reflexivity.
  - rewrite cut_rows_cons. cbn [take_groups]. rewrite map_length, F3, Nat.eqb_refl, andb_false_r, IH. reflexivity.
Qed.
(** Whatever follows the groups without beginning with a parenthesis, a comma or a semicolon is left over. *)
Lemma insert_cut n cols sp gp gs comma u s : table_name_ok n -> cols <> [] -> Forall column_name_ok cols -> gs <> [] -> Forall (group_ok (List.length cols)) gs ->
  (N.of_nat (List.length gs) < 1000)%N -> trim u = true -> u <> "" -> match_lit "(" u = None -> match_lit "," u = None -> match_lit ";" u = None ->
  normalize s = insert_text n cols sp gp gs (cut_end comma u) ->
  insert_parse s = Ok (Some (mkRows n (map (map lit_value) gs) cols (List.length cols) [] []), u).
Proof.
  intros Hn Hc Fc Hg Fg Lg Tu Nu Op Cm Sm E.
  destruct (insert_start n cols sp gp gs (cut_end comma u) Hn Hc Fc Hg Fg (cut_neat comma u Tu Nu) s E) as (v & V1 & V2 & ->).
  cbn [run_rules run_rule]. rewrite (cut_kids comma sp gp (List.length cols) u gs Tu Nu Op Cm Fg Hg _ _ (turns_enough _ Lg)).
  assert (Eu : is_empty u = false) by (destruct u; [contradiction|reflexivity]).
  cbn [bind List.app rule_opt rule_name]. rewrite Eu, Sm. cbn [bind forallb rule_opt andb].
  match goal with |- context [insert_process ?w] => set (x := w) end.
  assert (W1 : vkids "inserts" x = cut_rows comma gs) by (unfold x, vkids; rewrite dget_dset; reflexivity).
  assert (W2 : vtext "table" x = ticked n) by (unfold x, vtext in *; rewrite dget_dset; cbn [keqb]; exact V1).
  assert (W3 : vlist "columns" x = cols) by (unfold x, vlist in *; rewrite dget_dset; cbn [keqb]; exact V2).
  unfold insert_process. rewrite W1, W2, W3. rewrite (cut_taken comma (List.length cols)); [|exact Fg|destruct cols; [contradiction|discriminate]].
  rewrite strip_ticked by apply Hn. reflexivity.
Qed.
Lemma text_neat n cols sp gp gs e : table_name_ok n -> cols <> [] -> Forall column_name_ok cols -> gs <> [] -> Forall (group_ok (List.length cols)) gs -> neat e = true ->
  trim (insert_text n cols sp gp gs e) = true.
Proof.
  intros Hn Hc Fc Hg Fg He. assert (Tt : trim (join (sep_text gp) (map (group_text sp) gs) ++ e) = true) by (apply (groups_neat sp gp (List.length cols)); auto).
  assert (Ts : join (sep_text gp) (map (group_text sp) gs) ++ e <> "").
  { apply append_some. destruct gs as [|g [|y l]]; [contradiction|discriminate|]. cbn [map]. rewrite join_cons by discriminate. discriminate. }
  unfold insert_text. apply (trim_cat "INSERT INTO" (String " " _)); [reflexivity|discriminate|]. apply neat_space.
  2: discriminate.
  rewrite ticked_append. apply trim_quoted; [reflexivity| |].
  - destruct Hn as [_ H]. apply neat_collapse. change (neat n = true). rewrite <- (sapp_nil_r n). apply neat_app'; [|reflexivity].
    refine (sforall_imp _ _ _ _ H). intros c. clear. destruct c as [[|] [|] [|] [|] [|] [|] [|] [|]]; vm_compute; congruence.
  - apply (neat_space ("(" ++ _)); [|discriminate]. apply (trim_cat "("); [reflexivity|discriminate|]. apply trim_neat. apply columns_neat; auto.
    apply (neat_cat ") VALUES" (String " " _)); [reflexivity|]. apply neat_space; assumption.
Qed.
