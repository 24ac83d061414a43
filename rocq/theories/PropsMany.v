(** C75, C76: sources that hold several statements, with the rows they give. *)
From Verif Require Import SpecRows PropsRows Samples RoundRows StoredFacts PropsParse PropsRound PropsWrite PropsCreate.

Local Opaque max_turns max_statements.

(** ** C75 *)

(** What is read for one table: its definition, without a complaint, and its rows. *)
Record read_whole (l : list stmt) (T : tmeaning) (t : table) : Prop := {
  rw_says : table_says t T;
  rw_faultless : faultless t;
  rw_errors : t_global_errors t = [];
  rw_warnings : t_global_warnings t = [];
  rw_rows : says_rows t (rows_in (tm_name T) l);
  rw_tracking : t_tracking t = true <-> rows_in (tm_name T) l <> []
}.
Lemma with_new_whole l T t : read_table t T true -> read_whole l T (with_new t (rows_in (t_name t) l)).
Proof.
  intros R. rewrite (ts_name _ _ (rd_says _ _ _ R)). destruct (with_new_read t T (rows_in (tm_name T) l) R) as (A & B & C & D1 & D2 & D3 & E).
  constructor; auto.
  - unfold faultless. rewrite D1, D2, D3. apply (read_faultless t T true R).
  - destruct (rows_in (tm_name T) l) as [|x xs].
    + destruct (rd_rest _ _ _ R) as (_ & _ & Q & _). cbn [with_new]. rewrite Q. split; [discriminate|intros H; exfalso; apply H; reflexivity].
    + split; [discriminate|reflexivity].
Qed.
Lemma whole_tables l Ts ts : Forall2 (fun T t => read_table t T true) Ts ts -> Forall2 (read_whole l) Ts (map (fun t => with_new t (rows_in (t_name t) l)) ts).
Proof. induction 1 as [|T t Ts ts R F IH]; [constructor|]. cbn [map]. constructor; [apply with_new_whole, R|exact IH]. Qed.
Lemma read_whole_names l Ts ts : Forall2 (read_whole l) Ts ts -> map t_name ts = map tm_name Ts.
Proof. induction 1 as [|T t Ts ts R F IH]; [reflexivity|]. cbn [map]. rewrite IH, (ts_name _ _ (rw_says _ _ _ R)). reflexivity. Qed.

Section Sources.
  Context {FO : FloatOracle}.

  (** Full statement: for all sources made of CREATE TABLE and INSERT statements.  False, see the
      refutations below.  Proved: for the statements, the texts between them and the layouts that
      [source_holds] allows, any number of sources and any distribution of the statements over them. *)
  Theorem C75_sources_read_partial : forall srcs ls, Forall2 (fun src l => source_holds l (snd src)) srcs ls -> consistent (concat ls) ->
    exists b ts, file_database srcs = Ok b /\ d_global_errors b = [] /\ d_global_warnings b = []
      /\ db_tables b = map (fun t => (t_name t, t)) ts /\ Forall2 (read_whole (concat ls)) (tables_in (concat ls)) ts.
  Proof.
    intros srcs ls F Co. destruct (sources_database srcs ls F Co) as (ts & d & A & B). eexists. eexists. split; [exact B|]. split; [reflexivity|]. split; [reflexivity|].
    split; [apply entry_tables|apply whole_tables, A].
  Qed.

  (** A server that stores the tables of the sources: there is nothing to do, whatever rows the
      sources give. *)
  Theorem C75_nothing_to_do_partial : forall quiet srcs ls Ts', Forall2 (fun src l => source_holds l (snd src)) srcs ls -> consistent (concat ls) ->
    Forall plain_table Ts' -> NoDup (map tm_name Ts') -> matched reported_table (tables_in (concat ls)) Ts' -> settled_fks (tables_in (concat ls)) Ts' ->
    exists b live, file_database srcs = Ok b /\ live_database (map (show_create quiet) Ts') = Ok live /\ plan_tables false (db_tables b) (Some (db_tables live)) = Ok [].
  Proof.
    intros quiet srcs ls Ts' F Co P N' M S. destruct (sources_database srcs ls F Co) as (ts & d & A & B). destruct (read_sources _ _ _ (shown_sources quiet Ts' P)) as (ts' & A' & B').
    eexists. exists (live_of ts'). split; [exact B|].
    split; [apply (read_server sole); [intros s t H; exact H|exact A'|rewrite (read_names _ _ _ B'); exact N']|].
    assert (E : db_tables (files_with (map (fun t => with_new t (rows_in (t_name t) (concat ls))) ts) d) = map (fun t => (t_name t, with_new t (rows_in (t_name t) (concat ls)))) ts).
    { transitivity (map (fun t => (t_name t, t)) (map (fun t => with_new t (rows_in (t_name t) (concat ls))) ts)); [apply entry_tables|]. rewrite map_map. apply map_ext. intros t. rewrite with_new_name. reflexivity. }
    rewrite E. change (db_tables (live_of ts')) with (db_tables (files_of ts')). rewrite (entry_tables : forall ts, db_tables (files_of ts) = _).
    apply (reported_plan_rows ts (tables_in (concat ls)) ts' Ts' true false (fun t => with_new t (rows_in (t_name t) (concat ls)))); auto.
    - intros t. destruct (rows_in (t_name t) (concat ls)); repeat split.
    - clear -A. induction A; constructor; assumption.
    - apply Co.
  Qed.
End Sources.

(** ** C76 *)

(** The server stores [v] in the column, or the tool cannot tell the difference: the text [None] and
    NULL. *)
Definition value_there (v : rval) (x : sqlval) : Prop := x = sql_of v \/ (v = RNone /\ x = Some "None") \/ (v = RStr "None" /\ x = None).
(** Exactly the rows [xs] are there; what a row does not mention is kept, or the default of the column. *)
Definition rows_there (xs : list (list string * list literal)) (dflt : srow) (old new : srows) : Prop :=
  (forall id, new id <> None <-> In id (map id_of xs))
  /\ forall x sr, In x xs -> new (id_of x) = Some sr ->
       (forall c v, In (c, v) (row_of x) -> value_there v (sr c))
       /\ (forall c, ~ In c (fst x) -> sr c = match old (id_of x) with Some o => o c | None => dflt c end).
(** The rows of the live table are loaded and have the columns that the sources give. *)
Definition rows_loaded (xs : list (list string * list literal)) (f : option table) (s : srows) : Prop :=
  match f with
  | None => forall id, s id = None
  | Some f => t_tracking f = true /\ exists rows, t_rows f = Some rows /\ keyed rows /\ row_maps rows /\ reads rows s
                /\ forall x fr c, In x xs -> In (id_of x, fr) rows -> In c (fst x) -> In c (dkeys fr)
  end.

Lemma rows_in_from n l x : In x (rows_in n l) -> exists cols gs, In (StRows n cols gs) l /\ fst x = cols /\ In (snd x) gs.
Proof.
  intros I. apply in_concat in I as (y & J & I). apply in_map_iff in J as (st & <- & J). destruct st as [T|m cols gs]; [contradiction|].
  destruct (String.eqb_spec m n) as [->|X]; [|contradiction]. apply in_map_iff in I as (g & <- & I). exists cols, gs. auto.
Qed.
Lemma row_keys x : List.length (snd x) = List.length (fst x) -> dkeys (row_of x) = fst x.
Proof.
  destruct x as [cols vals]. unfold row_of, dkeys. cbn [fst snd]. revert vals. induction cols as [|c cols IH]; intros [|v vals] L; try discriminate; [reflexivity|].
  cbn [List.combine map fst]. rewrite IH by (injection L as L; exact L). reflexivity.
Qed.
Lemma row_text x c v : In (c, v) (row_of x) -> v = RNone \/ exists s, v = RStr s.
Proof. intros I. apply in_combine_r, in_map_iff in I as (l & <- & _). destruct l as [| |s]; [left; reflexivity|right; eexists; reflexivity|]. simpl.
  destruct (String.eqb s "NULL"); [left; reflexivity|right; eexists; reflexivity].
Qed.
Lemma row_id x : id_of x <> "" -> dget "id" (row_of x) = Some (RStr (id_of x)).
Proof. unfold id_of. destruct (dget "id" (row_of x)) as [[|s| |]|]; intros H; try (exfalso; apply H; reflexivity). reflexivity. Qed.
Lemma stored_keyed n l : consistent l -> Forall stmt_rows_ok l -> keyed (map RoundRows.stored (rows_in n l)) /\ row_maps (map RoundRows.stored (rows_in n l)).
Proof.
  intros Co Ok. destruct (co_ids _ Co n) as [Ne Nd]. rewrite Forall_forall in Ne. split; [split|].
  - unfold dkeys. rewrite map_map. exact Nd.
  - intros id r I. apply in_map_iff in I as (x & E & I). injection E as <- <-. apply row_id, Ne, I.
  - intros id r I. apply in_map_iff in I as (x & E & I). injection E as <- <-. destruct (rows_in_from n l x I) as (cols & gs & J & E1 & E2).
    rewrite Forall_forall in Ok. pose proof (Ok _ J) as K. destruct K as [_ K]. rewrite Forall_forall in K. rewrite row_keys by (rewrite E1; apply K, E2). rewrite E1. apply (co_rows _ Co _ _ _ J).
Qed.

Theorem C76_rows_reached_partial : forall (FO : FloatOracle) srcs ls has dflt from s,
  Forall2 (fun src l => source_holds l (snd src)) srcs ls -> consistent (concat ls) ->
  (forall n x c, In x (rows_in n (concat ls)) -> In c (fst x) -> has n c = true) ->
  (forall n, rows_in n (concat ls) <> [] -> rows_loaded (rows_in n (concat ls)) (dget n from) (s n)) ->
  exists b ops s', file_database srcs = Ok b /\ plan_rows (db_tables b) (Some from) = Ok ops /\ exec_rows has dflt ops s = Some s'
    /\ (forall n, rows_in n (concat ls) <> [] -> rows_there (rows_in n (concat ls)) (dflt n) (s n) (s' n))
    /\ (forall n, rows_in n (concat ls) = [] -> forall id, s' n id = s n id).
Proof.
  intros FO srcs ls has dflt from s F Co Hc Hl. destruct (C75_sources_read_partial srcs ls F Co) as (b & ts & E & _ & _ & D & W). set (l := concat ls) in *.
  assert (Ok' : Forall stmt_rows_ok l).
  { clear -F. unfold l. clear l. induction F as [|src l srcs ls H F IH]; [constructor|]. cbn [concat]. apply Forall_app. split; [|exact IH]. destruct H as (_ & st & St & _). apply (statements_rows_ok l st St). }
  assert (At : forall n t, In (n, t) (db_tables b) -> n = t_name t /\ exists T, In T (tables_in l) /\ tm_name T = n /\ read_whole l T t).
  { intros n t I. rewrite D in I. apply in_map_iff in I as (u & Q & I). injection Q as <- <-. split; [reflexivity|]. destruct (forall2_in _ _ _ _ W I) as (T & IT & R). exists T. split; [exact IT|]. split; [symmetry; apply (rw_says _ _ _ R)|exact R]. }
  assert (Rows : forall n t, In (n, t) (db_tables b) -> t_tracking t = true -> rows_in n l <> [] /\ t_rows t = Some (map RoundRows.stored (rows_in n l))).
  { intros n t I Tr. destruct (At n t I) as (En & T & IT & ET & R). rewrite <- ET in *. apply (rw_tracking _ _ _ R) in Tr. split; [exact Tr|]. rewrite (rw_rows _ _ _ R). destruct (rows_in (tm_name T) l); [contradiction|reflexivity]. }
  assert (Given : forall n x, In x (rows_in n l) -> List.length (snd x) = List.length (fst x)).
  { intros n x I. destruct (rows_in_from n l x I) as (cols & gs & J & E1 & E2). rewrite Forall_forall in Ok'. destruct (Ok' _ J) as [_ K]. rewrite Forall_forall in K. rewrite E1. apply K, E2. }
  assert (Names : NoDup (dkeys (db_tables b))).
  { rewrite D. unfold dkeys. rewrite map_map. change (NoDup (map t_name ts)). rewrite (read_whole_names l _ _ W). apply Co. }
  assert (Rd : rows_ready has (db_tables b) from s).
  { constructor.
    - exact Names.
    - intros n t I. symmetry. apply (At n t I).
    - intros n t I Tr. destruct (Rows n t I Tr) as [Ne Er]. exists (map RoundRows.stored (rows_in n l)). destruct (stored_keyed n l Co Ok') as [K M]. split; [exact Er|]. split; [exact K|]. split; [exact M|].
      intros id r c J C. apply in_map_iff in J as (x & Q & J). injection Q as <- <-. rewrite row_keys in C by apply (Given n x J). apply (Hc n x c J C).
    - intros n t I Tr. destruct (Rows n t I Tr) as [Ne Er]. specialize (Hl n Ne). unfold rows_loaded in Hl. destruct (dget n from) as [f|]; [|exact Hl].
      destruct Hl as (A & rows & B & C & G & H & _). split; [exact A|]. exists rows. auto. }
  destruct (C19_rows_reached_partial has dflt (db_tables b) from s Rd) as (ops & s' & P & X & Y & Z).
  { intros n t f I Tr Ef id r fr c Ir If Ic. destruct (Rows n t I Tr) as [Ne Er]. specialize (Hl n Ne). rewrite Ef in Hl. destruct Hl as (_ & rows & B & _ & _ & _ & H).
    unfold Diff.rows_of in Ir, If. rewrite Er in Ir. rewrite B in If. apply in_map_iff in Ir as (x & Q & Ir). injection Q as <- <-. rewrite row_keys in Ic by apply (Given n x Ir). apply (H x fr c); assumption. }
  exists b, ops, s'. split; [exact E|]. split; [exact P|]. split; [exact X|]. split.
  - intros n Ne.
    assert (It : exists t, In (n, t) (db_tables b) /\ t_tracking t = true).
    { destruct (rows_in n l) as [|x xs] eqn:Q; [contradiction|]. destruct (rows_in_from n l x) as (cols & gs & J & _); [rewrite Q; left; reflexivity|].
      destruct (co_rows _ Co _ _ _ J) as (K & _). rewrite <- (read_whole_names l _ _ W) in K. apply in_map_iff in K as (t & Et & It).
      assert (I : In (n, t) (db_tables b)) by (rewrite D; apply in_map_iff; exists t; rewrite Et; auto). exists t. split; [exact I|].
      destruct (At n t I) as (_ & T & IT & ET & R). apply (rw_tracking _ _ _ R). rewrite ET, Q. discriminate. }
    destruct It as (t & It & Tr). destruct (Rows n t It Tr) as [_ Er]. destruct (Y n t It Tr) as [Y1 Y2]. unfold Diff.rows_of in Y1, Y2. rewrite Er in Y1, Y2. split.
    + intros id. rewrite Y1. unfold dkeys. rewrite map_map. reflexivity.
    + intros x sr I Q. destruct (Y2 (id_of x) (row_of x) sr) as [V O]; [apply in_map_iff; exists x; split; [reflexivity|exact I]|exact Q|]. split.
      * intros c v J. destruct (V c v J) as (w & -> & L). apply (C23_value_equality_partial v w (row_text x c v J)) in L. unfold value_there. destruct L as [L|[L|[L1 L2]]]; [left; auto|right; left; exact L|right; right; subst; auto].
      * intros c H. apply O. rewrite row_keys by apply (Given n x I). exact H.
  - intros n Ne. apply Z. intros t I. destruct (t_tracking t) eqn:Tr; [|reflexivity]. exfalso. apply (proj1 (Rows n t I Tr)), Ne.
Qed.

(** ** Sources that meet the hypotheses *)

Definition logs_meaning : tmeaning :=
  mkTMeaning "logs" [mkMeaning "id" KNumeric "INT" NoLength true false None true "" ""] [primary_key ["id"]] [] [].
Definition logs_plain : string := "CREATE TABLE `logs`" ++ " (" ++ "" ++ join ("," ++ " ") ["id INT unsigned not null auto_increment"; "primary key (id)"] ++ "" ++ ")" ++ options_written [] ++ ";".
Lemma logs_written : create_written logs_meaning true logs_plain.
Proof.
  apply (create_as logs_meaning true "CREATE TABLE `logs`" "" " " ""
           [PartColumn (mkMeaning "id" KNumeric "INT" NoLength true false None true "" ""); PartKey (primary_key ["id"])]
           ["id INT unsigned not null auto_increment"; "primary key (id)"]); try reflexivity; try discriminate.
  - constructor; try (cbn; lia); repeat constructor; cbn; intuition discriminate.
  - apply (head_as "logs" "CREATE TABLE" "" true); [reflexivity|left; reflexivity|apply clean_nameb; reflexivity].
  - repeat (apply Forall2_cons || apply Forall2_nil).
    + apply part_column. apply (integer_written false "id" "INT" NoLength true false true None [IUnsigned "unsigned"; INotNull "not null"; IAuto "auto_increment"]).
      * apply bare_nameb. reflexivity.
      * right. reflexivity.
      * left. reflexivity.
      * exists false, [IUnsigned "unsigned"], [INotNull "not null"], [], [IAuto "auto_increment"]. repeat split; constructor; reflexivity.
      * discriminate.
    + apply part_key. apply (written_key (primary_key ["id"]) "primary key" true false [(false, "id")]); [reflexivity|discriminate|repeat constructor; apply (written_ident "id"); reflexivity|].
      constructor; reflexivity.
  - constructor.
Qed.

Definition users_rows : list (list literal) := [[LitWord "1"; LitText "Ann, B."]; [LitWord "2"; LitText "x (y)"]].
Definition more_rows : list (list literal) := [[LitText "3"; LitText "c"; LitNull]].
Definition source_a : list stmt := [StTable (users_meaning NoLength); StRows "users" ["id"; "name"] users_rows].
Definition source_b : list stmt := [StRows "users" ["id"; "name"; "about"] more_rows; StTable logs_meaning; StRows "logs" ["id"] [[LitWord "7"]]].
Definition text_a : string :=
  users_file ++ nl ++ "-- the first users" ++ nl
  ++ "INSERT INTO `users` (`id`, `name`) VALUES" ++ nl ++ "  (1, 'Ann, B.')," ++ nl ++ "  (2, 'x (y)');".
Definition text_b : string :=
  "INSERT INTO `users` (`id`,`name`,`about`) VALUES ('3','c',NULL);" ++ nl ++ nl
  ++ "CREATE TABLE `logs` (id INT unsigned not null auto_increment," ++ nl ++ "   primary key (id));" ++ nl ++ "INSERT INTO `logs` (`id`) VALUES (7);".

Fixpoint quotes_after (q : option ascii) (s : string) : option ascii :=
  match s with EmptyString => q | String c s' => quotes_after (quote_after q c) s' end.
Lemma laid_prefix lay a s s' : forall q, laid_out lay (quotes_after q a) s s' -> laid_out lay q (a ++ s) (a ++ s').
Proof. induction a as [|c a IH]; intros q H; [exact H|]. cbn [String.append]. constructor. apply IH, H. Qed.
Lemma laid_same lay s : forall q, laid_out lay q s s.
Proof. induction s as [|c s IH]; intros q; constructor. apply IH. Qed.
Lemma laid_gap (lay : string -> Prop) x c w s s' q : quotes_after q x = None -> quote_after None c = None -> c <> "-"%char -> lay w -> laid_out lay None s s' ->
  laid_out lay q (x ++ String c (String " " s)) (x ++ String c (w ++ s')).
Proof. intros Q Q' C W H. apply laid_prefix. rewrite Q. apply laid_space; assumption. Qed.
(** A number in parentheses right after a word. *)
Fixpoint lengthless (s : string) : bool :=
  match s with
  | String c (String p (String d r) as s') => negb ((is_word c || Ascii.eqb c bquote) && Ascii.eqb p "(" && is_digit d) && lengthless s'
  | _ => true
  end.
Lemma lengthless_tail c s : lengthless (String c s) = true -> lengthless s = true.
Proof. destruct s as [|p [|d r]]; try reflexivity. intros H. cbn [lengthless] in H. apply andb_true_iff in H as [_ H]. exact H. Qed.
Lemma lengthless_app a s : lengthless (a ++ s) = true -> lengthless s = true.
Proof. induction a as [|c a IH]; [auto|]. intros H. apply lengthless_tail in H. apply IH, H. Qed.
Lemma last_char n : n <> "" -> exists x c, n = x ++ String c "".
Proof.
  induction n as [|c n IH]; [contradiction|]. intros _. destruct n as [|d n]; [exists "", c; reflexivity|]. destruct IH as (x & e & E); [discriminate|]. exists (String c x), e. rewrite E. reflexivity.
Qed.
Lemma no_length_like s : lengthless s = true -> ~ length_like s.
Proof.
  intros H (a & c & w & q & n & q' & d & b & E & _ & _ & _ & Q' & N & W & D). subst s.
  assert (K : exists x e d0 r, is_word e || Ascii.eqb e bquote = true /\ is_digit d0 = true /\ n ++ q' ++ "(" ++ d ++ ")" ++ b = x ++ String e (String "(" (String d0 r))).
  { destruct D as [D1 D2]. destruct d as [|d0 d]; [contradiction|]. cbn [sforall] in D2. apply andb_true_iff in D2 as [D2 _]. destruct Q' as [->| ->].
    - destruct (last_char n N) as (x & e & ->). exists x, e, d0, (d ++ ")" ++ b). split; [|split; [exact D2|]].
      + clear -W. induction x as [|y x IH]; cbn [String.append sforall] in W; apply andb_true_iff in W as [A B]; [rewrite A; reflexivity|apply IH, B].
      + rewrite !sapp_assoc. reflexivity.
    - exists n, bquote, d0, (d ++ ")" ++ b). split; [reflexivity|split; [exact D2|]]. reflexivity. }
  destruct K as (x & e & d0 & r & A & B & C). apply lengthless_app in H. apply lengthless_tail in H. apply lengthless_app in H. apply lengthless_app in H.
  rewrite C in H. apply lengthless_app in H. cbn [lengthless] in H. rewrite A, B in H. discriminate.
Qed.
Lemma no_comment_like s : has_char "-" s = false -> ~ comment_like s.
Proof. intros H (a & b & ->). induction a as [|c a IH]; [discriminate|]. apply IH. unfold has_char in *. cbn [String.append sexists] in H. apply orb_false_iff in H. apply H. Qed.

Ltac rows_lit := repeat (apply Forall_cons || apply Forall_nil); try exact Logic.I; repeat split; try reflexivity; discriminate.
Ltac rows_group := repeat (apply Forall_cons || apply Forall_nil); (split; [rows_lit|split; [discriminate|reflexivity]]).
Ltac rows_written sp gp :=
  apply (written_rows _ _ _ sp gp); [reflexivity|split; [discriminate|reflexivity]|discriminate
    |repeat (apply Forall_cons || apply Forall_nil); split; reflexivity|discriminate|rows_group|cbn; lia|apply no_comment_like; reflexivity|apply no_length_like; reflexivity].
Lemma source_a_holds : source_holds source_a text_a.
Proof.
  split; [cbn; lia|]. exists (users_plain ++ " " ++ insert_text "users" ["id"; "name"] true true users_rows ";"). split.
  - apply statements_more; [|apply statements_one|intros T _; reflexivity].
    + constructor; [exact users_written|reflexivity].
    + rows_written true true.
  - change (layout_for source_a) with layout.
    assert (S : layout (nl ++ "  ")) by (apply layout_spaces; [discriminate|reflexivity]).
    apply (laid_gap layout "create table if not exists users " "(" (nl ++ "  ")); try reflexivity; try discriminate; [exact S|].
    apply (laid_gap layout "id integer unsigned not null auto_increment" "," (" " ++ ("--" ++ " the number" ++ nl) ++ "  ")); try reflexivity; try discriminate.
    { apply layout_more; [constructor; reflexivity|]. apply layout_more; [constructor; reflexivity|apply layout_spaces; [discriminate|reflexivity]]. }
    apply (laid_gap layout "Primary Key (id)" "," (nl ++ "  ")); try reflexivity; try discriminate; [exact S|].
    apply (laid_gap layout "`name` varchar(255) not null default 'x'" "," (nl ++ "  ")); try reflexivity; try discriminate; [exact S|].
    apply (laid_gap layout "unique index name_ind(name)" "," ((nl ++ "  ") ++ ("--" ++ " shown to everybody" ++ nl) ++ "  ")); try reflexivity; try discriminate.
    { apply layout_more; [exact S|]. apply layout_more; [constructor; reflexivity|apply layout_spaces; [discriminate|reflexivity]]. }
    apply (laid_gap layout "about Tex" "t" nl); try reflexivity; try discriminate; [apply layout_spaces; [discriminate|reflexivity]|].
    apply (laid_gap layout ") ENGINE=InnoDB" ";" (nl ++ ("--" ++ " the first users" ++ nl))); try reflexivity; try discriminate.
    { apply layout_more; [constructor; reflexivity|]. constructor; reflexivity. }
    apply (laid_gap layout "INSERT INTO `users` (`id`, `name`) VALUE" "S" (nl ++ "  ")); try reflexivity; try discriminate; [exact S|].
    apply (laid_gap layout "(1, 'Ann, B.')" "," (nl ++ "  ")); try reflexivity; try discriminate; [exact S|]. apply laid_same.
Qed.
Lemma source_b_holds : source_holds source_b text_b.
Proof.
  split; [cbn; lia|]. exists (insert_text "users" ["id"; "name"; "about"] false false more_rows ";" ++ " " ++ logs_plain ++ " " ++ insert_text "logs" ["id"] false false [[LitWord "7"]] ";"). split.
  - apply statements_more; [|apply statements_more; [|apply statements_one|intros T _; reflexivity]|discriminate].
    + rows_written false false.
    + constructor; [exact logs_written|reflexivity].
    + rows_written false false.
  - set (lay := layout_for source_b). assert (L : forall w, w <> "" -> blank w -> lay w) by (intros w A B; split; assumption).
    apply (laid_gap lay "INSERT INTO `users` (`id`,`name`,`about`) VALUES ('3','c',NULL)" ";" (nl ++ nl)); try reflexivity; try discriminate; [apply L; [discriminate|reflexivity]|].
    apply (laid_gap lay "CREATE TABLE `logs` (id INT unsigned not null auto_increment" "," (nl ++ "   ")); try reflexivity; try discriminate; [apply L; [discriminate|reflexivity]|].
    apply (laid_gap lay "primary key (id))" ";" nl); try reflexivity; try discriminate; [apply L; [discriminate|reflexivity]|]. apply laid_same.
Qed.
Example ex_C75 : Forall2 (fun src l => source_holds l (snd src)) [("users.sql", text_a); ("more.sql", text_b)] [source_a; source_b]
  /\ consistent (concat [source_a; source_b]) /\ List.length (rows_in "users" (concat [source_a; source_b])) = 3.
Proof.
  split; [repeat (apply Forall2_cons || apply Forall2_nil); [apply source_a_holds|apply source_b_holds]|]. split; [|reflexivity]. constructor.
  - repeat constructor; cbn; intuition discriminate.
  - intros n cols gs I. cbn in I. repeat destruct I as [I|I]; try contradiction; try discriminate; injection I as <- <- <-; (split; [cbn; tauto|split; [repeat constructor; cbn; intuition discriminate|cbn; tauto]]).
  - intros n. cbn [source_a source_b concat List.app rows_in map].
    destruct (String.eqb "users" n) eqn:Eu; destruct (String.eqb "logs" n) eqn:El; [apply String.eqb_eq in Eu, El; subst; discriminate| | |]; split; cbn; repeat constructor; cbn; intuition discriminate.
Qed.
Lemma users_reported_same : forall (FO : FloatOracle) Ts, NoDup (map tm_name Ts) -> matched reported_table Ts Ts.
Proof. intros FO Ts _. split; intros T I; exists T; (split; [exact I|apply same_reported]). Qed.
Example ex_C75_nothing_to_do : let Ts := [users_meaning NoLength; logs_meaning] in
  tables_in (concat [source_a; source_b]) = Ts /\ Forall plain_table Ts /\ NoDup (map tm_name Ts) /\ (forall FO : FloatOracle, matched reported_table Ts Ts) /\ settled_fks Ts Ts.
Proof.
  intros Ts. split; [reflexivity|].
  assert (N : NoDup (map tm_name Ts)) by (repeat constructor; cbn; intuition discriminate).
  assert (P : Forall plain_table Ts).
  { plain_all; [apply users_plain_table; left; reflexivity|].
    constructor; [constructor; try (cbn; lia); repeat constructor; cbn; intuition discriminate|apply clean_nameb; reflexivity| | |constructor|constructor].
    - plain_all. plain_mcol.
    - plain_all. constructor; [split; [discriminate|plain_all; apply clean_nameb; reflexivity]|reflexivity]. }
  split; [exact P|]. split; [exact N|]. split; [intros FO; apply users_reported_same, N|].
  apply same_settled; [exact N|]. rewrite Forall_forall in P |- *. intros T I. apply P, I.
Qed.

(** A server with one of the rows, an older version of another, and a row that is not in the
    sources. *)
Definition served_users : dict string row :=
  [("2", [("id", RStr "2"); ("name", RStr "old"); ("about", RNone)]); ("3", [("id", RStr "3"); ("name", RStr "c"); ("about", RNone)]); ("9", [("id", RStr "9"); ("name", RStr "z"); ("about", RStr "-")])].
Definition live_users : tables := db [tracked_table "users" [id_col] served_users].
Example ex_C76 : forall n, rows_in n (concat [source_a; source_b]) <> [] -> rows_loaded (rows_in n (concat [source_a; source_b])) (dget n live_users) (served live_users n).
Proof.
  intros n H. destruct (String.eqb "users" n) eqn:Eu; [|destruct (String.eqb "logs" n) eqn:El].
  - apply String.eqb_eq in Eu. subst n. change (dget "users" live_users) with (Some (tracked_table "users" [id_col] served_users)). split; [reflexivity|].
    exists served_users. destruct (keyedb_ok _ (eq_refl : keyedb served_users = true)) as [K M]. split; [reflexivity|]. split; [exact K|]. split; [exact M|].
    split; [eapply served_reads; [reflexivity|reflexivity|exact M]|].
    intros x fr c I J C. unfold served_users in J. cbn [In] in J. repeat destruct J as [J|J]; try contradiction; injection J as _ <-;
      cbn in I; repeat destruct I as [<-|I]; try contradiction; cbn in C |- *; tauto.
  - apply String.eqb_eq in El. subst n. intros id. reflexivity.
  - exfalso. apply H. cbn [source_a source_b concat List.app rows_in map]. rewrite Eu, El. reflexivity.
Qed.

(** ** What is lost or changed *)

(** A row whose text has an equals sign near the beginning: the statement becomes an option of the
    table before it, without a complaint. *)
Theorem C75_refuted : forall FO : FloatOracle, exists b, file_database [("a.sql", "CREATE TABLE `a` (`id` VARCHAR(9)); INSERT INTO a (id) VALUES ('=1');")] = Ok b
  /\ d_global_errors b = [] /\ map (fun p => (fst p, t_rows (snd p), t_global_errors (snd p), map o_name (t_options (snd p)))) (db_tables b) = [("a", None, [], ["; INSERT INTO a (id) VALUES ('"])].
Proof. intros FO. found (file_database [("a.sql", "CREATE TABLE `a` (`id` VARCHAR(9)); INSERT INTO a (id) VALUES ('=1');")]). split; [by_vm|]. split; by_vm. Qed.
(** A comment after a number sign hides everything that follows, if a CREATE TABLE statement comes
    before it: rows are lost without a complaint. *)
Definition hash_source : string :=
  "CREATE TABLE `a` (`id` INT(10) NOT NULL, PRIMARY KEY (`id`));" ++ nl ++ "INSERT INTO `a` (`id`) VALUES (1);" ++ nl ++ "# more" ++ nl ++ "INSERT INTO `a` (`id`) VALUES (2);".
Theorem C75_refuted_hash : forall FO : FloatOracle, exists b, file_database [("a.sql", hash_source)] = Ok b
  /\ d_global_errors b = [] /\ map (fun p => (fst p, option_map (@dkeys _ _) (t_rows (snd p)), t_global_errors (snd p))) (db_tables b) = [("a", Some ["1"], [])].
Proof. intros FO. found (file_database [("a.sql", hash_source)]). split; [by_vm|]. split; by_vm. Qed.
(** A number in parentheses, or two hyphens, in a text after a CREATE TABLE statement. *)
Theorem C75_refuted_length : forall FO : FloatOracle, exists b,
  file_database [("a.sql", "CREATE TABLE `a` (`id` INT(10), `b` VARCHAR(20)); INSERT INTO `a` (`id`,`b`) VALUES (1,'f(x(12))');")] = Ok b
  /\ map (fun p => t_rows (snd p)) (db_tables b) = [Some [("1", [("id", RStr "1"); ("b", RStr "f(x)")])]].
Proof. intros FO. found (file_database [("a.sql", "CREATE TABLE `a` (`id` INT(10), `b` VARCHAR(20)); INSERT INTO `a` (`id`,`b`) VALUES (1,'f(x(12))');")]). split; by_vm. Qed.
Theorem C75_refuted_hyphens : forall FO : FloatOracle, exists e,
  file_database [("a.sql", "CREATE TABLE `a` (`id` INT(10), `b` VARCHAR(20)); INSERT INTO `a` (`id`,`b`) VALUES (1,'x -- y');")] = Raise (SyntaxError e).
Proof. intros FO. eexists. vm_compute. reflexivity. Qed.
(** A row with the text [None]: the server keeps NULL. *)
Definition none_source : string := "CREATE TABLE `a` (`id` INT(10), `b` VARCHAR(20)); INSERT INTO `a` (`id`,`b`) VALUES (1,'None');".
Definition none_live : tables := db [tracked_table "a" [id_col] [("1", [("id", RStr "1"); ("b", RNone)])]].
Theorem C76_refuted : forall FO : FloatOracle, exists b, file_database [("a.sql", none_source)] = Ok b
  /\ map (fun p => t_rows (snd p)) (db_tables b) = [Some [("1", [("id", RStr "1"); ("b", RStr "None")])]]
  /\ plan_rows (db_tables b) (Some none_live) = Ok [].
Proof. intros FO. found (file_database [("a.sql", none_source)]). split; [by_vm|]. split; by_vm. Qed.

Print Assumptions C75_sources_read_partial.
Print Assumptions C75_nothing_to_do_partial.
Print Assumptions C76_rows_reached_partial.
Print Assumptions C75_refuted.
Print Assumptions C75_refuted_hash.
Print Assumptions C75_refuted_length.
Print Assumptions C75_refuted_hyphens.
Print Assumptions C76_refuted.
