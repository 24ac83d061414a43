(** Every readable column is read back from its text. *)
From Verif Require Export RoundCols.
From Verif Require Import SpecNote.

(** ** The text of a column *)

Definition default_items (d : cdefault) : list item :=
  match d with
  | DNone => []
  | DInt z => [IDefault "DEFAULT" (str_of_Z z)]
  | DStr s => if isdigit s then [IDefault "DEFAULT" s] else [IQuoted "DEFAULT" s]
  end.
Definition shown_items (k : string -> item) (s : string) : list item := if truthy s then [k (quote s)] else [].
Definition unsigned_items (c : column) : list item := if tru_ob (c_unsigned c) then [IUnsigned "UNSIGNED"] else [].
Definition null_items (c : column) : list item := if c_null c then [] else [INotNull "NOT NULL"].
Definition auto_items (c : column) : list item := if tru_ob (c_autoinc c) then [IAuto "AUTO_INCREMENT"] else [].
Definition charset_items (c : column) : list item := shown_items (ICharset "CHARACTER SET") (shown_text c (c_charset c)).
Definition collate_items (c : column) : list item := shown_items (ICollate "COLLATE") (shown_text c (c_collate c)).
Definition column_items (c : column) : list item :=
  arranged false (unsigned_items c) (null_items c) (default_items (c_default c)) (auto_items c) (charset_items c) (collate_items c).

Lemma join_more l x : forall a, join " " (a :: map item_text l) ++ x = a ++ spaced l x.
Proof.
  induction l as [|i l IH]; intros a; [reflexivity|]. cbn [map]. rewrite join_cons by discriminate.
  rewrite !sapp_assoc. rewrite IH. reflexivity.
Qed.
Lemma spaced_app l m x : spaced (l +++ m) x = spaced l (spaced m x).
Proof. induction l as [|i l IH]; [reflexivity|]. cbn [List.app spaced]. rewrite IH. reflexivity. Qed.
Lemma default_parts_items d : default_parts d = map item_text (default_items d).
Proof.
  destruct d as [|s|z]; [reflexivity| |reflexivity]. cbn [default_parts default_items]. destruct s as [|c s]; [reflexivity|].
  cbn [is_empty]. destruct (isdigit (String c s)); reflexivity.
Qed.
Lemma join_two a b l : join " " (a :: b :: l) = join " " ((a ++ " " ++ b) :: l).
Proof. rewrite join_cons by discriminate. destruct l as [|x l]; [reflexivity|]. rewrite (join_cons _ b (x :: l)), (join_cons _ (a ++ " " ++ b) (x :: l)) by discriminate. rewrite !sapp_assoc. reflexivity. Qed.
Lemma spaced_text l x : spaced l x = items_text l ++ x.
Proof. induction l as [|i l IH]; [reflexivity|]. cbn [spaced items_text]. rewrite IH. cbn [String.append]. rewrite !sapp_assoc. reflexivity. Qed.
Lemma column_spaced c f z : has_length (c_length c) f -> tru_ol (c_enum_values c) = false -> c_kind c <> KEnum ->
  column_str c ++ z = ticked (c_name c) ++ String " " (c_type c ++ length_text f ++ spaced (column_items c) z).
Proof.
  intros F V K. set (base := unsigned_items c +++ null_items c +++ default_items (c_default c) +++ auto_items c).
  assert (B : forall x, column_str_base c ++ x = ticked (c_name c) ++ String " " (c_type c ++ length_text f ++ spaced base x)).
  { intros x. unfold column_str_base.
    assert (T : type_string c = c_type c ++ length_text f).
    { unfold type_string. destruct (c_enum_values c) as [[|v vs]|]; [|discriminate V|];
        (destruct F as [F|n F S _|n m F S _ _]; rewrite F; [cbn [length_text]; rewrite sapp_nil_r; reflexivity| |];
         rewrite S; cbn [length_text]; rewrite ?sapp_assoc; reflexivity). }
    rewrite T.
    change (["`" ++ c_name c ++ "`"; c_type c ++ length_text f] +++ (if tru_ob (c_unsigned c) then ["UNSIGNED"] else [])
              +++ (if c_null c then [] else ["NOT NULL"]) +++ default_parts (c_default c) +++ (if tru_ob (c_autoinc c) then ["AUTO_INCREMENT"] else []))
      with (("`" ++ c_name c ++ "`") :: (c_type c ++ length_text f) :: ((if tru_ob (c_unsigned c) then ["UNSIGNED"] else [])
              +++ (if c_null c then [] else ["NOT NULL"]) +++ default_parts (c_default c) +++ (if tru_ob (c_autoinc c) then ["AUTO_INCREMENT"] else []))).
    replace ((if tru_ob (c_unsigned c) then ["UNSIGNED"] else [])
              +++ (if c_null c then [] else ["NOT NULL"]) +++ default_parts (c_default c) +++ (if tru_ob (c_autoinc c) then ["AUTO_INCREMENT"] else []))
      with (map item_text base).
    2:{ unfold base, unsigned_items, null_items, auto_items. rewrite !map_app, default_parts_items. destruct (tru_ob (c_unsigned c)), (c_null c), (tru_ob (c_autoinc c)); reflexivity. }
    rewrite join_two, join_more. rewrite !sapp_assoc. unfold ticked. cbn [String.append]. rewrite sapp_assoc. reflexivity. }
  assert (Z : column_items c = base +++ (charset_items c +++ collate_items c)) by (unfold column_items, arranged, base; rewrite <- !app_assoc; reflexivity).
  rewrite Z, !spaced_app. unfold column_str, charset_items, collate_items. unfold shown_text. destruct (c_kind c); try contradiction; cbn [is_string_kind shown_items truthy is_empty spaced]; try apply B.
  rewrite !sapp_assoc. rewrite B. do 4 f_equal.
  destruct (c_charset c) as [s|]; [destruct s|]; cbn [truthy is_empty negb shown_items spaced]; rewrite ?sapp_assoc;
    (destruct (c_collate c) as [s'|]; [destruct s'|]; cbn [truthy is_empty negb shown_items spaced item_text]; unfold quote; repeat (cbn [String.append]; rewrite ?sapp_assoc); reflexivity).
Qed.
Lemma column_defined c f : has_length (c_length c) f -> tru_ol (c_enum_values c) = false -> c_kind c <> KEnum ->
  column_str c = column_definition true (c_name c) (c_type c) f (column_items c).
Proof.
  intros F V K. rewrite <- (sapp_nil_r (column_str c)), (column_spaced c f "" F V K), spaced_text, sapp_nil_r. reflexivity.
Qed.
Lemma definition_text tick n w f l e : column_definition tick n w f l ++ ending_raw e = col_text (name_text tick n) w f l e.
Proof.
  unfold column_definition, col_text, more. rewrite spaced_text. cbn [String.append]. repeat (cbn [String.append]; rewrite ?sapp_assoc). reflexivity.
Qed.

(** ** The values the rules store *)

Definition raw_default (l : list item) : option string :=
  match l with [IDefault _ s] => Some s | [IQuoted _ s] => Some (quote s) | _ => None end.
Definition raw_shown (l : list item) : option string :=
  match l with [ICharset _ s] | [ICollate _ s] => Some s | _ => None end.
Record stored (v : pvals leaf) (nm ty len dec : string) (u n a : bool) (d cs co : option string) : Prop := {
  s_name : vtext "name" v = nm;
  s_type : vtext "type" v = ty;
  s_length : vtext "length" v = len;
  s_decimals : vtext "decimals" v = dec;
  s_unsigned : dmem "UNSIGNED" v = u;
  s_notnull : dmem "NOT NULL" v = negb n;
  s_auto : dmem "AUTO_INCREMENT" v = a;
  s_primary : dmem "PRIMARY KEY" v = false;
  s_default : vopt "default" v = d;
  s_charset : vopt "character_set" v = cs;
  s_collate : vopt "collate" v = co
}.

(** The forms of the parts. *)
Inductive default_form : list item -> Prop :=
| form_none : default_form []
| form_word k s : default_form [IDefault k s]
| form_quoted k s : default_form [IQuoted k s].
Inductive arg_form (mk : string -> string -> item) : list item -> Prop :=
| form_silent : arg_form mk []
| form_arg k s : arg_form mk [mk k s].
Lemma defaults_form d l : defaults d l -> default_form l.
Proof. intros []; constructor. Qed.
Lemma argument_form mk K x l : argument mk K x l -> arg_form mk l.
Proof. intros []; constructor. Qed.

Definition character_os := [OCollate; OCharset; OCollate; ONull; ONotNull; OCollate; OCharset; OCollate; ODefault; OCollate; OCharset; OCollate].
Definition numeric_os := [OUnsigned; ONull; ONotNull; ODefault; OAuto].
Definition decimal_os := [OUnsigned; ONull; ONotNull; ODefault].
Definition enum_os := [ONull; ONotNull; ODefault; OCharset; OCollate].
Definition plain_os := [OUnsigned; ONull; ONotNull; OPrimary; ODefault; ONull; ONotNull; OPrimary; OAuto].
Definition text_os := [OCollate; OCharset; OCollate; ONull; ONotNull; OCollate; OCharset; OCollate; ODefault; OCollate; OCharset; OCollate].
Definition datetime_os := [OCollate; OCharset; OCollate; ONull; ONotNull; OCollate; OCharset; OCollate; OSquoted; ODquoted; OCollate; OCharset; OCollate].

Section Winners.
  Variables (nm ty : string) (e : ending) (server u n a : bool) (lu ln ld la lcs lco : list item).
  Hypothesis Fu : flag IUnsigned "UNSIGNED" u lu.
  Hypothesis Fn : nullness n ln.
  Hypothesis Fd : default_form ld.
  Hypothesis Fa : flag IAuto "AUTO_INCREMENT" a la.
  Hypothesis Fcs : arg_form ICharset lcs.
  Hypothesis Fco : arg_form ICollate lco.
  Notation items := (arranged server lu ln ld la lcs lco).
  Notation v0 := ([("name", VText nm); ("type", VText ty)] : pvals leaf).
  Notation winner os v len dec :=
    (snd (sim os items v) = [] /\ stored (comma_vals e [] (fst (sim os items v))) nm ty len dec u n a (raw_default ld) (raw_shown lcs) (raw_shown lco)).
  Ltac bare := clear Fcs Fco; unfold arranged; destruct server; cbn [List.app]; rewrite ?app_nil_r; destruct Fu, Fn, Fd, Fa; cbn [List.app sim hit snd fst].
  Ltac worded := unfold arranged; destruct server; cbn [List.app]; rewrite ?app_nil_r; destruct Fn, Fd, Fcs, Fco; cbn [List.app sim hit snd fst].
  Ltac won := split; [reflexivity|destruct e; split; reflexivity].

  Lemma flag_false mk K l : flag mk K false l -> l = [].
  Proof. inversion 1. reflexivity. Qed.
  Lemma plain_wins : lcs = [] -> lco = [] -> winner plain_os v0 "" "".
  Proof. intros -> ->. bare; won. Qed.
  Lemma text_wins : u = false -> a = false -> winner text_os v0 "" "".
  Proof. intros -> ->. apply flag_false in Fu, Fa. subst lu la. worded; won. Qed.
  Lemma plain_loses : u = false -> a = false -> lcs <> [] \/ lco <> [] -> snd (sim plain_os items v0) <> [].
  Proof. intros -> -> H. apply flag_false in Fu, Fa. subst lu la. worded; try discriminate; destruct H as [H|H]; exfalso; apply H; reflexivity. Qed.
  Lemma character_wins l : u = false -> a = false -> winner character_os (one_vals nm ty l) l "".
  Proof. intros -> ->. apply flag_false in Fu, Fa. subst lu la. worded; won. Qed.
  Lemma character_loses l : u = true \/ a = true -> lcs = [] -> lco = [] -> snd (sim character_os items (one_vals nm ty l)) <> [].
  Proof. intros H -> ->. bare; try discriminate; destruct H; discriminate. Qed.
  Lemma numeric_wins l : lcs = [] -> lco = [] -> winner numeric_os (one_vals nm ty l) l "".
  Proof. intros -> ->. bare; won. Qed.
  Lemma decimal_wins l m : a = false -> lcs = [] -> lco = [] -> winner decimal_os (two_vals nm ty l m) l m.
  Proof. intros -> -> ->. apply flag_false in Fa. subst la. clear Fcs Fco. unfold arranged; destruct server; cbn [List.app]; rewrite ?app_nil_r; destruct Fu, Fn, Fd; cbn [List.app sim hit snd fst]; won. Qed.
End Winners.

(** ** What the classes make of the values *)

Lemma upper_twice s : upper (upper s) = upper s.
Proof.
  induction s as [|c s IH]; [reflexivity|]. unfold upper in *. cbn [smap]. rewrite IH. f_equal. clear.
  destruct c as [[|] [|] [|] [|] [|] [|] [|] [|]]; reflexivity.
Qed.
Lemma plain_squote s : sforall plain_char s = true -> has_char squote s = false.
Proof.
  intros H. apply has_char_forall. apply (sforall_imp plain_char); [|exact H]. intros c P. apply plain_not_squote in P.
  unfold not_squote, is_char in P. rewrite Ascii.eqb_sym. exact P.
Qed.
Lemma last_char_app s c : last_char (s ++ String c "") = Some c.
Proof.
  induction s as [|x s IH]; [reflexivity|]. change (String x s ++ String c "") with (String x (s ++ String c "")).
  destruct (s ++ String c "") as [|y r] eqn:E; [destruct s; discriminate|]. exact IH.
Qed.
Lemma quote_quoted s : is_quoted (quote s) = true.
Proof.
  unfold is_quoted, quote. cbn [String.length]. rewrite slength_app. replace (Nat.leb 2 (S (String.length s + String.length (String squote "")))) with true
    by (symmetry; apply Nat.leb_le; cbn; lia).
  change (last_char (String squote (s ++ String squote ""))) with (last_char (String squote s ++ String squote "")). rewrite last_char_app. reflexivity.
Qed.
Lemma quote_strip s : sforall plain_char s = true -> strip_char squote (quote s) = s.
Proof. intros H. apply strip_wrap, plain_squote, H. Qed.
Definition read_default (o : option string) : cdefault := match o with Some s => DStr s | None => DNone end.

(** *** Letter case *)
Lemma upper_caseless s : forall t, lower s = lower t -> upper s = upper t.
Proof.
  induction s as [|c s IH]; intros [|d t] H; try discriminate; [reflexivity|]. injection H as H1 H2. unfold upper. cbn [smap].
  assert (G : forall c, to_upper c = to_upper (to_lower c)) by letters. rewrite (G c), (G d), H1. f_equal. apply (IH t H2).
Qed.
Lemma lower_upper s : lower (upper s) = lower s.
Proof.
  induction s as [|c s IH]; [reflexivity|]. unfold lower, upper in *. cbn [smap]. rewrite IH. f_equal. clear. destruct c as [[|] [|] [|] [|] [|] [|] [|] [|]]; reflexivity.
Qed.
Lemma lower_caseless s t : upper s = upper t -> lower s = lower t.
Proof. intros H. rewrite <- (lower_upper s), H. apply lower_upper. Qed.

(** *** Defaults *)
Lemma plain_unquoted s : sforall plain_char s = true -> is_quoted s = false.
Proof.
  unfold is_quoted. destruct s as [|c s]; [reflexivity|]. cbn [sforall]. rewrite andb_true_iff. intros [C _]. apply plain_not_squote in C. unfold not_squote in C.
  apply negb_true_iff in C. rewrite C. rewrite andb_false_r. reflexivity.
Qed.
Lemma null_plain s : spelled "NULL" s -> sforall plain_char s = true /\ s <> "" /\ no_dquote_start s.
Proof.
  intros S. split; [rewrite (caseless plain_char s "NULL"); [reflexivity|letters|exact S]|]. split; [apply (lower_nonempty _ _ S); discriminate|].
  destruct s as [|c s]; [exact I|]. cbn [no_dquote_start]. intros ->. discriminate S.
Qed.
Lemma sense_form q w d l : defaults d l -> fst (sense q w (raw_default l)) = d.
Proof.
  intros [|k s _ S|k s _ (N & [P _] & _) S|k s _ [P _]]; cbn [raw_default sense fst]; [reflexivity| | |].
  - destruct (null_plain s S) as (P & N & _). rewrite plain_unquoted by exact P. destruct s; [contradiction|]. cbn [is_empty]. unfold spelled in S. rewrite S. reflexivity.
  - rewrite plain_unquoted by exact P. destruct s; [contradiction|]. cbn [is_empty]. apply String.eqb_neq in S. rewrite S. reflexivity.
  - rewrite quote_quoted. cbn [fst]. rewrite quote_strip by exact P. reflexivity.
Qed.
Lemma sense_remark q w d l : defaults d l -> snd (sense q w (raw_default l)) = remark_on w q l.
Proof.
  intros [|k s _ S|k s _ (N & [P _] & _) S|k s _ [P _]]; cbn [raw_default sense snd remark_on]; [reflexivity| | |].
  - destruct (null_plain s S) as (P & N & _). rewrite plain_unquoted by exact P. destruct s; [contradiction|]. cbn [is_empty]. unfold spelled in S. rewrite S. reflexivity.
  - rewrite plain_unquoted by exact P. destruct s; [contradiction|]. cbn [is_empty]. apply String.eqb_neq in S. rewrite S. reflexivity.
  - rewrite quote_quoted. cbn [snd]. rewrite quote_strip by exact P. reflexivity.
Qed.
Lemma remark_same b q b' q' l : (forall s, b s = b' s) -> (forall s, q s = q' s) -> remark_on b q l = remark_on b' q' l.
Proof. intros B Q. unfold remark_on. destruct l as [|[] [|]]; try reflexivity; [rewrite B; reflexivity|apply Q]. Qed.
Lemma sense_split {A} q w (x : option string) (f : option string -> list string -> A) : (let '(d, ws) := sense q w x in f d ws) = f (fst (sense q w x)) (snd (sense q w x)).
Proof. destruct (sense q w x). reflexivity. Qed.
(** The default of a boolean, and then NULL. *)
Definition bool_default (b : bool) (d0 : option string) : option string :=
  if b then match d0 with
            | Some s => if String.eqb (upper s) "FALSE" then Some "0" else if String.eqb (upper s) "TRUE" then Some "1" else d0
            | None => None
            end
  else d0.
Definition no_null (d1 : option string) : option string :=
  match d1 with Some s => if String.eqb (lower s) "null" then None else d1 | None => None end.
Lemma plain_form w b d l : defaults d l -> (forall k s, l = [IQuoted k s] -> lower s <> "null") -> b = boolean w ->
  no_null (bool_default b (unquote (raw_default l))) = default_value w d.
Proof.
  intros D Q ->.
  assert (G : forall s, lower s <> "null" -> no_null (bool_default (boolean w) (Some s)) = default_value w (Some s)).
  { intros s N. apply String.eqb_neq in N. unfold bool_default, default_value. destruct (boolean w); cbn [andb no_null]; [|rewrite N; reflexivity].
    destruct (String.eqb_spec (upper s) "FALSE") as [E|E]; [rewrite E; reflexivity|].
    destruct (String.eqb_spec (upper s) "TRUE") as [E'|E']; [reflexivity|]. cbn [no_null]. rewrite N. reflexivity. }
  destruct D as [|k s _ S|k s _ (N & [P _] & _) S|k s _ [P _]]; cbn [raw_default unquote]; [destruct (boolean w); reflexivity| | |].
  - destruct (null_plain s S) as (P & _ & _). rewrite plain_unquoted by exact P. pose proof (upper_caseless s "NULL" S) as U. unfold spelled in S.
    unfold bool_default. rewrite U. destruct (boolean w); cbn; rewrite S; reflexivity.
  - rewrite plain_unquoted by exact P. apply G, S.
  - rewrite quote_quoted, quote_strip by exact P. apply G, (Q k s eq_refl).
Qed.
Definition or_empty (o : option string) : string := match o with Some s => s | None => "" end.
Lemma unquote_shown (mk : string -> string -> item) K x l : (forall k s, raw_shown [mk k s] = Some s) -> argument mk K x l -> or_empty (unquote (raw_shown l)) = x.
Proof.
  intros M [|k s _ (N & [P _] & _)|k s _ N [P _]]; [reflexivity| |]; rewrite M; cbn [unquote].
  - rewrite plain_unquoted by exact P. reflexivity.
  - rewrite quote_quoted. apply quote_strip, P.
Qed.
Lemma unquote_some (mk : string -> string -> item) K x l : (forall k s, raw_shown [mk k s] = Some s) -> argument mk K x l -> unquote (raw_shown l) <> Some "".
Proof.
  intros M [|k s _ (N & [P _] & _)|k s _ N [P _]]; [discriminate| |]; rewrite M; cbn [unquote].
  - rewrite plain_unquoted by exact P. congruence.
  - rewrite quote_quoted, quote_strip by exact P. congruence.
Qed.

(** *** Types *)
Definition type_ok (t : string * ckind) : bool :=
  let '(ty, k) := t in
  truthy ty && sforall is_word ty && negb (String.eqb (lower ty) "integer") && String.eqb (upper ty) ty
  && negb (String.eqb ty "BOOLEAN" || String.eqb ty "BOOL")
  && match dget ty type_map, k with
     | Some KNumeric, KNumeric | Some KString, KString | Some KDate, KDate => true | _, _ => false end.
Lemma readable_type t : In t readable_types -> type_ok t = true.
Proof. intros H. revert t H. apply Forall_forall. repeat constructor. Qed.
Record type_facts (T : string) (k : ckind) : Prop := {
  tf_some : T <> ""; tf_word : sforall is_word T = true; tf_int : lower T <> "integer"; tf_upper : upper T = T;
  tf_bool : T <> "BOOLEAN" /\ T <> "BOOL"; tf_map : dget T type_map = Some k; tf_kind : k <> KEnum
}.
Lemma readable_facts T k : In (T, k) readable_types -> type_facts T k.
Proof.
  intros H. apply readable_type in H. unfold type_ok in H. rewrite !andb_true_iff in H. destruct H as [[[[[A B] C] D] E] F].
  apply negb_true_iff in C, E. apply orb_false_iff in E as [E1 E2].
  constructor; try assumption.
  - apply truthy_iff, A.
  - apply String.eqb_neq, C.
  - apply String.eqb_eq, D.
  - split; apply String.eqb_neq; assumption.
  - destruct (dget T type_map) as [[]|], k; try discriminate F; reflexivity.
  - destruct (dget T type_map) as [[]|], k; try discriminate F; discriminate.
Qed.

Record typed (w : string) (f : length_form) (T : string) (F : length_form) : Prop := {
  ty_word : w <> "" /\ sforall is_word w = true;
  ty_bool : boolean w = true -> f = NoLength /\ T = "TINYINT" /\ F = OneNumber "1" /\ normalize_type w = w;
  ty_other : boolean w = false -> upper (normalize_type w) = T /\ F = f /\ boolean (normalize_type w) = false;
  ty_two : forall n m, f = TwoNumbers n m -> boolean w = false /\ upper w = T;
  ty_fk : upper w <> "FOREIGN"
}.
Lemma word_typed w f T F k : type_facts T k -> type_word w f T F -> typed w f T F.
Proof.
  assert (Wd : forall w K, lower w = lower K -> K <> "" -> sforall is_word K = true -> w <> "" /\ sforall is_word w = true).
  { clear. intros w K S N W. split; [apply (lower_nonempty _ _ S N)|]. rewrite (caseless is_word w K); [exact W|letters|exact S]. }
  assert (Bo : forall w K, lower w = lower K -> boolean w = boolean K).
  { clear. intros w K S. unfold boolean. rewrite (upper_caseless _ _ S). reflexivity. }
  assert (Nr : forall w K, lower w = lower K -> lower K <> "integer" -> normalize_type w = w).
  { clear. intros w K S N. unfold normalize_type. rewrite S. apply String.eqb_neq in N. rewrite N. reflexivity. }
  intros TF H. revert TF. destruct H as [w' T' f' S|w' f' S N2|w' S]; intros TF; unfold spelled in S.
  - pose proof (Bo _ _ S) as B. assert (B' : boolean w' = false).
    { rewrite B. unfold boolean. rewrite (tf_upper _ _ TF). destruct (tf_bool _ _ TF) as [B1 B2]. apply String.eqb_neq in B1, B2. rewrite B1, B2. reflexivity. }
    pose proof (Nr _ _ S (tf_int _ _ TF)) as NT. pose proof (upper_caseless _ _ S) as U. rewrite (tf_upper _ _ TF) in U.
    constructor; [apply (Wd _ T' S); apply TF|congruence|rewrite NT; auto|auto|]. intros E. pose proof (tf_map _ _ TF) as M. rewrite <- U, E in M. discriminate M.
  - assert (B : boolean w' = false) by (rewrite (Bo _ _ S); reflexivity).
    assert (NT : normalize_type w' = "int") by (unfold normalize_type; rewrite S; reflexivity).
    constructor; [apply (Wd _ _ S); [discriminate|reflexivity]|congruence|rewrite NT; auto| |].
    + intros n m E. destruct (N2 n m E).
    + rewrite (upper_caseless _ _ S). discriminate.
  - assert (B : boolean w' = true) by (destruct S as [S|S]; rewrite (Bo _ _ S); reflexivity).
    assert (NT : normalize_type w' = w') by (destruct S as [S|S]; apply (Nr _ _ S); discriminate).
    constructor; [destruct S as [S|S]; apply (Wd _ _ S); first [discriminate|reflexivity]|auto|congruence|discriminate|].
    destruct S as [S|S]; rewrite (upper_caseless _ _ S); discriminate.
Qed.

Record pcol_as (p : pcol) (name T : string) (F : length_form) (u n a : bool) (d : option string) (cs co : string) : Prop := {
  pa_name : p_name p = name;
  pa_type : upper (p_type p) = T;
  pa_primary : p_primary p = false;
  pa_length : has_length (p_length p) F;
  pa_null : p_null p = n;
  pa_default : p_default p = d;
  pa_unsigned : tru_ob (p_unsigned p) = u;
  pa_auto : tru_ob (p_auto p) = a;
  pa_charset : or_empty (p_charset p) = cs;
  pa_collate : or_empty (p_collate p) = co;
  pa_text : (exists x, p_length p = LStr x) /\ p_charset p <> Some "" /\ p_collate p <> Some ""
}.
Lemma default_same w d : boolean w = false -> default_value w d = d.
Proof. intros B. unfold default_value. destruct d; [|reflexivity]. rewrite B. reflexivity. Qed.

Section Process.
  Variables (v : pvals leaf) (nm name w : string) (u n a : bool) (ld lcs lco : list item) (f : length_form) (T : string) (F : length_form).
  Variables (d : option string) (cs co : string).
  Hypothesis Hname : strip_char bquote nm = name.
  Hypothesis Hty : typed w f T F.
  Hypothesis D : defaults d ld.
  Hypothesis Hcs : argument ICharset "CHARACTER SET" cs lcs.
  Hypothesis Hco : argument ICollate "COLLATE" co lco.
  Notation held len dec := (stored v nm w len dec u n a (raw_default ld) (raw_shown lcs) (raw_shown lco)).
  Notation as_said p := (pcol_as p name T F u n a (default_value w d) cs co).

  Lemma silent (mk : string -> string -> item) K x : argument mk K x [] -> x = "".
  Proof. inversion 1. reflexivity. Qed.
  Ltac put S := rewrite ?(s_name _ _ _ _ _ _ _ _ _ _ _ S), ?(s_type _ _ _ _ _ _ _ _ _ _ _ S), ?(s_default _ _ _ _ _ _ _ _ _ _ _ S),
      ?(s_primary _ _ _ _ _ _ _ _ _ _ _ S), ?(s_unsigned _ _ _ _ _ _ _ _ _ _ _ S), ?(s_notnull _ _ _ _ _ _ _ _ _ _ _ S),
      ?(s_auto _ _ _ _ _ _ _ _ _ _ _ S), ?(s_length _ _ _ _ _ _ _ _ _ _ _ S), ?(s_decimals _ _ _ _ _ _ _ _ _ _ _ S),
      ?(s_charset _ _ _ _ _ _ _ _ _ _ _ S), ?(s_collate _ _ _ _ _ _ _ _ _ _ _ S), ?Hname.
  Ltac fields := split; cbn [p_name p_type p_primary p_length p_null p_default p_unsigned p_auto p_charset p_collate tru_ob or_empty]; try reflexivity; try assumption.
  Ltac sensed := match goal with |- context [sense ?q ?w ?x] => let Q := fresh in pose proof (sense_form q w d ld D) as Q; destruct (sense q w x) as [r ws]; cbn [fst] in Q end.

  Lemma plain_as : f = NoLength -> held "" "" -> lcs = [] -> lco = [] -> (forall k s, ld = [IQuoted k s] -> lower s <> "null") -> as_said (plain_process v).
  Proof.
    intros -> S -> -> N. apply silent in Hcs, Hco. subst cs co.
    assert (B : String.eqb (upper (normalize_type w)) "BOOLEAN" || String.eqb (upper (normalize_type w)) "BOOL" = boolean w).
    { rewrite orb_comm. change (boolean (normalize_type w) = boolean w). destruct (boolean w) eqn:E; [destruct (ty_bool _ _ _ _ Hty E) as (_ & _ & _ & ->); exact E|apply (ty_other _ _ _ _ Hty E)]. }
    unfold plain_process, extract_name. put S. rewrite B. fields.
    - destruct (boolean w) eqn:E; [symmetry; apply (ty_bool _ _ _ _ Hty E)|apply (ty_other _ _ _ _ Hty E)].
    - destruct (boolean w) eqn:E.
      + destruct (ty_bool _ _ _ _ Hty E) as (_ & _ & -> & _). apply has_one; [reflexivity|reflexivity|]. split; [discriminate|reflexivity].
      + destruct (ty_other _ _ _ _ Hty E) as (_ & -> & _). constructor. reflexivity.
    - rewrite negb_involutive. apply andb_true_r.
    - apply (plain_form w _ _ _ D N eq_refl).
    - destruct u; reflexivity.
    - destruct a; reflexivity.
    - split; [eexists; reflexivity|split; discriminate].
  Qed.
  Lemma text_as : f = NoLength -> boolean w = false -> held "" "" -> u = false -> a = false -> as_said (text_process v).
  Proof.
    intros -> B S -> ->. destruct (ty_other _ _ _ _ Hty B) as (T1 & -> & _). rewrite (default_same _ _ B).
    unfold text_process, extract_name, extract_null. put S. sensed. fields.
    - constructor. reflexivity.
    - apply negb_involutive.
    - apply (unquote_shown ICharset "CHARACTER SET"); [reflexivity|exact Hcs].
    - apply (unquote_shown ICollate "COLLATE"); [reflexivity|exact Hco].
    - split; [eexists; reflexivity|]. split; [apply (unquote_some ICharset "CHARACTER SET" cs)|apply (unquote_some ICollate "COLLATE" co)]; first [reflexivity|assumption].
  Qed.
  Lemma has_one_str l : digits l -> has_length (LStr l) (OneNumber l).
  Proof. intros L. apply has_one; [|reflexivity|exact L]. apply truthy_iff, L. Qed.
  Lemma long_word : f <> NoLength -> boolean w = false.
  Proof. intros N. destruct (boolean w) eqn:E; [|reflexivity]. destruct (ty_bool _ _ _ _ Hty E). contradiction. Qed.
  Lemma character_as l : f = OneNumber l -> digits l -> held l "" -> u = false -> a = false -> as_said (character_process v).
  Proof.
    intros E L S -> ->. assert (B : boolean w = false) by (apply long_word; rewrite E; discriminate).
    destruct (ty_other _ _ _ _ Hty B) as (T1 & -> & _). rewrite (default_same _ _ B), E.
    unfold character_process, extract_name, extract_null. put S. sensed. fields.
    - apply has_one_str, L.
    - apply negb_involutive.
    - apply (unquote_shown ICharset "CHARACTER SET"); [reflexivity|exact Hcs].
    - apply (unquote_shown ICollate "COLLATE"); [reflexivity|exact Hco].
    - split; [eexists; reflexivity|]. split; [apply (unquote_some ICharset "CHARACTER SET" cs)|apply (unquote_some ICollate "COLLATE" co)]; first [reflexivity|assumption].
  Qed.
  Lemma numeric_as l : f = OneNumber l -> digits l -> held l "" -> lcs = [] -> lco = [] -> as_said (numeric_process v).
  Proof.
    intros E L S -> ->. apply silent in Hcs, Hco. subst cs co. assert (B : boolean w = false) by (apply long_word; rewrite E; discriminate).
    destruct (ty_other _ _ _ _ Hty B) as (T1 & -> & _). rewrite (default_same _ _ B), E.
    unfold numeric_process, extract_name, extract_null. put S. sensed. fields.
    - apply has_one_str, L.
    - apply negb_involutive.
    - destruct u; reflexivity.
    - destruct a; reflexivity.
    - split; [eexists; reflexivity|split; discriminate].
  Qed.
  Lemma decimal_as l m : f = TwoNumbers l m -> digits l -> digits m -> held l m -> a = false -> lcs = [] -> lco = [] -> as_said (decimal_process v).
  Proof.
    intros E L M S -> -> ->. apply silent in Hcs, Hco. subst cs co. destruct (ty_two _ _ _ _ Hty l m E) as [B U].
    destruct (ty_other _ _ _ _ Hty B) as (_ & -> & _). rewrite (default_same _ _ B), E.
    unfold decimal_process, extract_name, extract_null. put S. sensed. fields.
    - apply has_two; [|reflexivity|exact L|exact M]. destruct L as [L _], l; [contradiction|reflexivity].
    - apply negb_involutive.
    - destruct u; reflexivity.
    - split; [eexists; reflexivity|split; discriminate].
  Qed.

  Lemma text_warns s : text_warning name s = missing_unless_number name s.
  Proof. unfold text_warning, missing_unless_number, isdigit, whole_number, truthy. reflexivity. Qed.
  Lemma plain_noted : p_warnings (plain_process v) = [].
  Proof. reflexivity. Qed.
  Lemma text_noted len dec : held len dec -> p_warnings (text_process v) = remark_on (missing_unless_number name) nothing_at_all ld.
  Proof.
    intros S. unfold text_process, extract_name. put S. rewrite sense_split. cbn [p_warnings]. rewrite (sense_remark _ _ _ _ D). apply remark_same; [apply text_warns|reflexivity].
  Qed.
  Lemma character_noted len dec : held len dec -> p_warnings (character_process v) = remark_on (missing_unless_number name) nothing_at_all ld.
  Proof.
    intros S. unfold character_process, extract_name. put S. rewrite sense_split. cbn [p_warnings]. rewrite (sense_remark _ _ _ _ D). apply remark_same; [apply text_warns|reflexivity].
  Qed.
  Lemma char_word : String.eqb (normalize_type w) "char" || String.eqb (normalize_type w) "varchar" = String.eqb w "char" || String.eqb w "varchar".
  Proof.
    unfold normalize_type. destruct (String.eqb_spec (lower w) "integer") as [E|_]; [|reflexivity].
    destruct (String.eqb_spec w "char") as [->|_]; [discriminate|]. destruct (String.eqb_spec w "varchar") as [->|_]; [discriminate|reflexivity].
  Qed.
  Lemma numeric_noted len dec : held len dec -> p_warnings (numeric_process v)
    = remark_on (fun _ => if String.eqb w "char" || String.eqb w "varchar" then [quotes_missing_too name] else []) nothing_at_all ld.
  Proof.
    intros S. unfold numeric_process, extract_name. put S. rewrite sense_split. cbn [p_warnings]. rewrite (sense_remark _ _ _ _ D). apply remark_same; [|reflexivity].
    intros s. rewrite char_word. reflexivity.
  Qed.
  Lemma decimal_noted len dec : held len dec -> p_warnings (decimal_process v) = remark_on nothing_at_all (fun _ => [quotes_needless name]) ld.
  Proof.
    intros S. unfold decimal_process, extract_name. put S. rewrite sense_split. cbn [p_warnings]. rewrite (sense_remark _ _ _ _ D). apply remark_same; reflexivity.
  Qed.
End Process.

(** ** The winner *)

Lemma class_tied_none rules (process : pvals leaf -> pcol) k s r : trim s = true -> run_rules rules s [] = Ok (None, r) ->
  beaten k s (child_of rules process DefCol).
Proof. intros T R. exists None, r. rewrite child_trim by exact T. rewrite R. cbn [bind]. auto. Qed.
Lemma class_run {A} rules (process : pvals leaf -> A) wrap s v r : trim s = true -> run_rules rules s [] = Ok (Some v, r) ->
  child_of rules process wrap s = Ok (Some (wrap (process v)), r).
Proof. intros T R. rewrite child_trim by exact T. rewrite R. reflexivity. Qed.
Lemma class_tied rules (process : pvals leaf -> pcol) k s v r : trim s = true -> run_rules rules s [] = Ok (Some v, r) ->
  k <= String.length r -> tied k s (child_of rules process DefCol).
Proof. intros T R L. exists (Some (DefCol (process v))), r. split; [apply class_run; assumption|auto]. Qed.

(** A column is no index and no foreign key: the name is between back-quotes, or is not one of their words and does not begin with UNIQUE. *)
Lemma not_keyword k : sforall is_upper k = true -> forall n r, prefix k (upper n) = false -> match_lit k (n ++ String " " r) = None.
Proof.
  induction k as [|a k IH]; intros U n r P; [destruct n; discriminate|]. cbn [sforall] in U. apply andb_true_iff in U as [A U].
  destruct n as [|c n].
  - cbn [String.append match_lit]. replace (Ascii.eqb (to_lower a) (to_lower " ")) with false; [reflexivity|].
    clear - A. destruct a as [[|] [|] [|] [|] [|] [|] [|] [|]]; vm_compute in A |- *; congruence.
  - cbn [String.append match_lit]. destruct (Ascii.eqb (to_lower a) (to_lower c)) eqn:E; [|reflexivity]. apply (IH U). cbn [upper smap prefix] in P.
    destruct (ascii_dec a (to_upper c)) as [_|N]; [exact P|]. exfalso. apply N. apply Ascii.eqb_eq in E. clear - A E.
    assert (G : a = to_upper (to_lower a)) by (destruct a as [[|] [|] [|] [|] [|] [|] [|] [|]]; vm_compute in A |- *; congruence).
    assert (H : to_upper (to_lower c) = to_upper c) by (destruct c as [[|] [|] [|] [|] [|] [|] [|] [|]]; reflexivity).
    rewrite G, E. exact H.
Qed.
Lemma keyword_split K : sforall is_upper K = true -> forall n r t, match_lit K (n ++ String " " r) = Some t ->
  exists m n', n = m ++ n' /\ t = n' ++ String " " r /\ upper m = K.
Proof.
  induction K as [|a k IH]; intros U n r t M.
  - injection M as <-. exists "", n. auto.
  - cbn [sforall] in U. apply andb_true_iff in U as [A U]. destruct n as [|c n].
    + cbn [String.append match_lit] in M. replace (Ascii.eqb (to_lower a) (to_lower " ")) with false in M; [discriminate|].
      clear - A. destruct a as [[|] [|] [|] [|] [|] [|] [|] [|]]; vm_compute in A |- *; congruence.
    + cbn [String.append match_lit] in M. destruct (Ascii.eqb (to_lower a) (to_lower c)) eqn:E; [|discriminate].
      destruct (IH U n r t M) as (m & n' & -> & -> & Um). exists (String c m), n'. split; [reflexivity|]. split; [reflexivity|].
      unfold upper in *. cbn [smap]. rewrite Um. f_equal. apply Ascii.eqb_eq in E. clear - A E.
      assert (G : a = to_upper (to_lower a)) by (destruct a as [[|] [|] [|] [|] [|] [|] [|] [|]]; vm_compute in A |- *; congruence).
      assert (H : to_upper (to_lower c) = to_upper c) by (destruct c as [[|] [|] [|] [|] [|] [|] [|] [|]]; reflexivity).
      rewrite G, E, H. reflexivity.
Qed.
Lemma upper_app a b : upper (a ++ b) = upper a ++ upper b.
Proof. unfold upper. induction a as [|c a IH]; [reflexivity|]. cbn. rewrite IH. reflexivity. Qed.
Lemma match_lit_two a b : forall s, match_lit (a ++ b) s = match match_lit a s with Some t => match_lit b t | None => None end.
Proof.
  induction a as [|c a IH]; intros s; [reflexivity|]. cbn [String.append match_lit]. destruct s as [|d s]; [reflexivity|].
  destruct (Ascii.eqb (to_lower c) (to_lower d)); [apply IH|reflexivity].
Qed.
Lemma keyword_two K n r x : In K key_words -> sforall name_char n = true -> upper n <> K -> match_lit (K ++ String " " x) (n ++ String " " r) = None.
Proof.
  intros I C N. rewrite match_lit_two. destruct (match_lit K (n ++ String " " r)) as [t|] eqn:M; [|reflexivity].
  assert (U : sforall is_upper K = true) by (clear M N; cbn in I; repeat (destruct I as [<-|I]; [reflexivity|]); destruct I).
  destruct (keyword_split K U n _ t M) as (m & n' & E & -> & Um). destruct n' as [|c n'].
  - rewrite sapp_nil_r in E. subst m. contradiction.
  - cbn [String.append]. apply match_lit_char. rewrite E, sforall_app in C. apply andb_true_iff in C as [_ C]. cbn [sforall] in C. apply andb_true_iff in C as [C _].
    clear - C. destruct c as [[|] [|] [|] [|] [|] [|] [|] [|]]; vm_compute in C |- *; congruence.
Qed.
Lemma word_no_foreign w r : sforall is_word w = true -> starts (fun c => negb (is_word c)) r = true -> upper w <> "FOREIGN" ->
  match_lit "FOREIGN KEY (" (w ++ r) = None.
Proof.
  intros W R N. change "FOREIGN KEY (" with ("FOREIGN" ++ " KEY ("). rewrite match_lit_two.
  assert (G : forall K w t, sforall is_upper K = true -> sforall is_word w = true -> match_lit K (w ++ r) = Some t -> exists n', t = n' ++ r /\ sforall is_word n' = true /\ (n' = "" -> upper w = K)).
  { clear - R. induction K as [|a K IH]; intros w t U W M; [injection M as <-; exists w; split; [reflexivity|split; [exact W|intros ->; reflexivity]]|].
    cbn [sforall] in U. apply andb_true_iff in U as [A U]. destruct w as [|c w].
    - exfalso. cbn [String.append] in M. destruct r as [|d r]; [discriminate|]. cbn [starts] in R. cbn [match_lit] in M.
      destruct (Ascii.eqb (to_lower a) (to_lower d)) eqn:E; [|discriminate]. apply Ascii.eqb_eq in E. apply negb_true_iff in R. clear - A E R.
      assert (X : is_word d = is_word a).
      { assert (H : forall x, is_word (to_lower x) = is_word x) by (intros [[|] [|] [|] [|] [|] [|] [|] [|]]; reflexivity).
        rewrite <- (H d), <- (H a), E. reflexivity. }
      rewrite R in X. destruct a as [[|] [|] [|] [|] [|] [|] [|] [|]]; vm_compute in A, X; congruence.
    - cbn [String.append match_lit] in M. cbn [sforall] in W. apply andb_true_iff in W as [W1 W]. destruct (Ascii.eqb (to_lower a) (to_lower c)) eqn:E; [|discriminate].
      destruct (IH w t U W M) as (n' & -> & Wn & Z). exists n'. split; [reflexivity|]. split; [exact Wn|]. intros Nn. specialize (Z Nn).
      unfold upper in *. cbn [smap]. rewrite Z. f_equal. apply Ascii.eqb_eq in E. clear - A E.
      assert (G : a = to_upper (to_lower a)) by (destruct a as [[|] [|] [|] [|] [|] [|] [|] [|]]; vm_compute in A |- *; congruence).
      assert (H : to_upper (to_lower c) = to_upper c) by (destruct c as [[|] [|] [|] [|] [|] [|] [|] [|]]; reflexivity).
      rewrite G, E, H. reflexivity. }
  destruct (match_lit "FOREIGN" (w ++ r)) as [t|] eqn:M; [|reflexivity]. destruct (G "FOREIGN" w t eq_refl W M) as (n' & -> & Wn & Z).
  destruct n' as [|c n']; [exfalso; apply N, Z; reflexivity|]. cbn [sforall] in Wn. apply andb_true_iff in Wn as [Wc _].
  cbn [String.append]. apply match_lit_char. clear - Wc. destruct c as [[|] [|] [|] [|] [|] [|] [|] [|]]; vm_compute in Wc |- *; congruence.
Qed.
(** A bare name that begins with UNIQUE is read as a unique key up to the next list in parentheses. *)
Lemma open_match K r : has_char "(" K = false -> forall x t, sforall not_open x = true -> match_lit K (x ++ String "(" r) = Some t ->
  exists x', t = x' ++ String "(" r /\ sforall not_open x' = true.
Proof.
  induction K as [|a K IH]; intros H x t X M.
  - injection M as <-. exists x. auto.
  - unfold has_char in H. cbn [sexists] in H. apply orb_false_iff in H as [Ha H]. destruct x as [|c x]; cbn [String.append match_lit] in M.
    + destruct (Ascii.eqb (to_lower a) (to_lower "(")) eqn:E; [|discriminate]. exfalso. clear - Ha E.
      destruct a as [[|] [|] [|] [|] [|] [|] [|] [|]]; vm_compute in Ha, E; congruence.
    + cbn [sforall] in X. apply andb_true_iff in X as [_ X]. destruct (Ascii.eqb (to_lower a) (to_lower c)); [|discriminate]. exact (IH H x t X M).
Qed.
Lemma open_strip r x : trim (String "(" r) = true -> sforall not_open x = true -> exists x', strip (x ++ String "(" r) = x' ++ String "(" r /\ sforall not_open x' = true.
Proof.
  intros T X. unfold strip, strip_by.
  assert (R : rstrip_by is_space (String "(" r) = String "(" r).
  { unfold trim in T. apply andb_true_iff in T as [T _]. apply (neat_rstrip _ _ T). }
  rewrite rstrip_app by (rewrite R; discriminate). rewrite R. clear R T. induction x as [|c x IH].
  - exists "". split; reflexivity.
  - cbn [sforall] in X. apply andb_true_iff in X as [C X]. cbn [String.append lstrip_by]. destruct (is_space c); [apply IH, X|].
    exists (String c x). cbn [sforall String.append]. rewrite C, X. split; reflexivity.
Qed.
Lemma unique_on s x y : match_lit "UNIQUE" s = Some (x ++ String "(" y) -> sforall not_open x = true -> trim (String "(" y) = true ->
  exists v, run_rules unique_rules s ([] : pvals leaf) = run_rules [lit "("; rcolumns; lit ")"; rcomma] (String "(" y) v.
Proof.
  intros M X T. destruct (open_strip y x T X) as (x1 & E1 & X1).
  unfold unique_rules. unfold lit at 1. rewrite (step_lit "UNIQUE" _ false _ s _ [] M) by (rewrite E1; destruct x1; discriminate). rewrite E1. clear M E1 X x.
  assert (A : forall (v : pvals leaf), exists v' x2, sforall not_open x2 = true
    /\ run_rules [RRe "index_name" (ReAlt "KEY" "INDEX") true; RRe "name" (plus not_open) true; lit "("; rcolumns; lit ")"; rcomma] (x1 ++ String "(" y) v
       = run_rules [RRe "name" (plus not_open) true; lit "("; rcolumns; lit ")"; rcomma] (x2 ++ String "(" y) v').
  { intros v. destruct (@re_match leaf (ReAlt "KEY" "INDEX") (x1 ++ String "(" y)) as [[z t]|] eqn:M.
    - assert (Z : exists x', t = x' ++ String "(" y /\ sforall not_open x' = true).
      { cbn [re_match] in M. destruct (match_lit "KEY" (x1 ++ String "(" y)) as [t0|] eqn:M1.
        - injection M as _ <-. exact (open_match "KEY" y eq_refl x1 t0 X1 M1).
        - destruct (match_lit "INDEX" (x1 ++ String "(" y)) as [t0|] eqn:M2; [|discriminate]. injection M as _ <-. exact (open_match "INDEX" y eq_refl x1 t0 X1 M2). }
      destruct Z as (x' & -> & X'). destruct (open_strip y x' T X') as (x2 & E2 & X2). eexists _, x2. split; [exact X2|].
      rewrite (step_re "index_name" _ true _ _ z _ v M) by (rewrite E2; destruct x2; discriminate). rewrite E2. reflexivity.
    - exists v, x1. split; [exact X1|]. apply skip_re, M. }
  destruct (A (dset "UNIQUE" (VText "UNIQUE") [])) as (v & x2 & X2 & ->). destruct x2 as [|c x2].
  - exists v. cbn [String.append]. apply skip_re, plus_none. reflexivity.
  - rewrite (step_re "name" (plus not_open) true _ _ (VText (String c x2)) (String "(" y)); [|apply plus_word; [exact X2|discriminate|reflexivity]|rewrite trim_strip by exact T; discriminate].
    rewrite trim_strip by exact T. eexists. reflexivity.
Qed.
(** With a length and an attribute more of the text is read as a column. *)
Lemma unique_beaten n w f l e k : sforall name_char n = true -> w <> "" /\ sforall is_word w = true -> f <> NoLength -> length_ok f -> items_ok l -> l <> [] -> ending_ok e ->
  trim (n ++ String " " (w ++ length_text f ++ more l e)) = true -> k < String.length (stream l e) ->
  beaten k (n ++ String " " (w ++ length_text f ++ more l e)) unique_class.
Proof.
  intros Nn [_ Ww] Hf Fk Il Nl He T Lk. unfold unique_class, beaten, tied. rewrite child_trim by exact T.
  set (s := n ++ String " " (w ++ length_text f ++ more l e)) in *. destruct (match_lit "UNIQUE" s) as [t|] eqn:M.
  2:{ exists None, s. split; [|left; reflexivity]. unfold unique_rules, lit. rewrite fail_lit by exact M. reflexivity. }
  destruct (keyword_split "UNIQUE" eq_refl n _ t M) as (m & n' & E & -> & _).
  assert (I : exists i, length_text f = String "(" (i ++ ")") /\ sforall (fun c => negb (Ascii.eqb c bquote || Ascii.eqb c ")")) i = true /\ sforall not_space i = true /\ i <> "").
  { assert (D : forall d, digits d -> sforall (fun c => negb (Ascii.eqb c bquote || Ascii.eqb c ")")) d = true /\ sforall not_space d = true).
    { intros d [_ D]. split; apply (sforall_imp is_digit); try exact D; clear; intros [[|] [|] [|] [|] [|] [|] [|] [|]]; vm_compute; congruence. }
    destruct f as [|a|a b]; [contradiction| |]; cbn [length_ok] in Fk.
    - exists a. destruct (D a Fk) as [D1 D2]. split; [reflexivity|]. split; [exact D1|]. split; [exact D2|apply Fk].
    - exists (a ++ "," ++ b). destruct Fk as [Fa Fb]. destruct (D a Fa) as [D1 D2], (D b Fb) as [D3 D4]. split; [cbn [length_text String.append]; rewrite !sapp_assoc; reflexivity|].
      rewrite !sforall_app, D1, D2, D3, D4. split; [reflexivity|]. split; [reflexivity|]. destruct Fa as [Na _]. destruct a; [contradiction|discriminate]. }
  destruct I as (i & Ei & I1 & I2 & I3).
  assert (Tn : neat (")" ++ more l e) = true) by (apply neat_app'; [reflexivity|apply more_neat; assumption]).
  assert (Ty : trim (i ++ ")" ++ more l e) = true) by (apply trim_app; [exact I2|exact I3|exact Tn]).
  assert (Tt : trim (String "(" (i ++ ")" ++ more l e)) = true).
  { change (String "(" (i ++ ")" ++ more l e)) with ("(" ++ i ++ ")" ++ more l e). apply trim_app; [reflexivity|discriminate|apply trim_neat, Ty]. }
  assert (Et : n' ++ String " " (w ++ length_text f ++ more l e) = (n' ++ " " ++ w) ++ String "(" (i ++ ")" ++ more l e)).
  { rewrite Ei, !sapp_assoc. cbn [String.append]. rewrite !sapp_assoc. reflexivity. }
  assert (Op : sforall not_open (n' ++ " " ++ w) = true).
  { rewrite E, sforall_app in Nn. apply andb_true_iff in Nn as [_ Nn]. rewrite !sforall_app. apply andb_true_iff; split; [|apply andb_true_iff; split; [reflexivity|]].
    - apply (sforall_imp name_char); [|exact Nn]. clear. intros [[|] [|] [|] [|] [|] [|] [|] [|]]; vm_compute; congruence.
    - apply (sforall_imp is_word); [|exact Ww]. clear. intros [[|] [|] [|] [|] [|] [|] [|] [|]]; vm_compute; congruence. }
  rewrite Et in M. destruct (unique_on s (n' ++ " " ++ w) (i ++ ")" ++ more l e) M Op Tt) as [v R].
  rewrite R. unfold lit at 1. rewrite (step_lit "(" "(" false _ _ (i ++ ")" ++ more l e)); [|reflexivity|rewrite trim_strip by exact Ty; destruct i; [contradiction|discriminate]].
  rewrite trim_strip by exact Ty. set (v1 := dset "(" (VText "(") v). clearbody v1. clear R v.
  assert (G : forall x, sforall (fun c => negb (Ascii.eqb c bquote || Ascii.eqb c ")")) x = true -> forall has cur vals l0, exists vals',
      delim bquote "," ")" has false cur vals l0 (x ++ String ")" (more l e)) = (false, vals', String ")" (more l e))).
  { induction x as [|c x IH]; intros X has cur vals l0; [eexists; reflexivity|]. cbn [sforall] in X. apply andb_true_iff in X as [X1 X2].
    apply negb_true_iff, orb_false_iff in X1 as [Xq Xc]. cbn [String.append delim]. rewrite Xq.
    assert (Mc : match_lit ")" (String c (x ++ String ")" (more l e))) = None).
    { cbn [match_lit]. replace (Ascii.eqb (to_lower ")") (to_lower c)) with false; [reflexivity|].
      clear - Xc. destruct c as [[|] [|] [|] [|] [|] [|] [|] [|]]; vm_compute in Xc |- *; congruence. }
    rewrite Mc. destruct (Ascii.eqb c "," || Ascii.eqb c " "); apply (IH X2). }
  destruct (G i I1 false "" [] "") as [vs Q]. change (")" ++ more l e) with (String ")" (more l e)) in *.
  assert (DL : delimited bquote "," ")" (i ++ String ")" (more l e)) = Ok (match vs with [] => None | _ => Some (vs, String ")" (more l e)) end)).
  { unfold delimited. rewrite Q. destruct vs; reflexivity. }
  destruct vs as [|x vs].
  - eexists None, _. split; [|left; reflexivity]. unfold rcolumns, lit. cbn [run_rules run_rule]. change (lower ")") with ")". rewrite DL. reflexivity.
  - unfold rcolumns, lit. rewrite (step_del "columns" "," bquote false ")" ")" false _ _ (x :: vs) (String ")" (more l e))); [|exact DL|discriminate].
    destruct (stream_trim l e Il He) as [Ts Ns].
    rewrite (step_lit ")" ")" false _ _ (more l e)); [|reflexivity|rewrite strip_more by assumption; exact Ns]. rewrite strip_more by assumption.
    destruct l as [|j l]; [contradiction|]. inversion Il as [|? ? Ij Il']; subst. unfold rcomma. rewrite skip_lit_item by (first [exact Ij|destruct j; reflexivity]).
    eexists _, _. split; [reflexivity|]. right. exact Lk.
Qed.
Lemma name_keys tick n k w r : clean_name n -> (tick = false -> ~ In (upper n) key_words) ->
  w <> "" /\ sforall is_word w = true -> starts (fun c => negb (is_word c)) r = true ->
  upper w <> "FOREIGN" \/ prefix "CONSTRAINT" (upper n) = false -> neat r = true ->
  Forall (beaten k (name_text tick n ++ String " " (w ++ r))) [primary_class; key_class; foreign_class; bare_class]
  /\ trim (name_text tick n ++ String " " (w ++ r)) = true.
Proof.
  intros C N Hw Hr Hf Nr. assert (Tb : trim (w ++ r) = true) by (destruct Hw as [Nw W]; apply trim_app; [apply (sforall_imp _ _ _ word_not_space), W|exact Nw|exact Nr]).
  assert (Sb : w ++ r <> "") by (destruct Hw as [Nw _]; destruct w; [contradiction|discriminate]).
  assert (T : trim (name_text tick n ++ String " " (w ++ r)) = true).
  { destruct C as (Cn & Cc & _). apply trim_app.
    - destruct tick; [apply (sforall_imp _ _ _ name_not_space), ticked_name, Cc|apply (sforall_imp _ _ _ name_not_space), (sforall_imp _ _ _ name_ok_name), Cc].
    - destruct tick; [discriminate|exact Cn].
    - apply neat_space; assumption. }
  split; [|exact T]. set (s := name_text tick n ++ String " " (w ++ r)) in *.
  assert (G0 : forall A rules (process : pvals leaf -> A) wrap u, run_rules rules s [] = Ok (None, u) -> beaten k s (child_of rules process wrap)).
  { intros A rules process wrap u R. exists None, u. rewrite child_trim by exact T. rewrite R. auto. }
  assert (G : forall A rules (process : pvals leaf -> A) wrap, run_rules rules s [] = Ok (None, s) -> beaten k s (child_of rules process wrap)) by (intros; eapply G0; eassumption).
  destruct tick.
  { constructor; [apply G, fail_lit; reflexivity|]. constructor; [apply G, fail_re; reflexivity|]. repeat (constructor; [apply G, fail_lit; reflexivity|]). constructor. }
  pose proof (N eq_refl) as Nk. clear N. unfold name_text in s, T.
  assert (Nc : sforall name_char n = true) by (apply (sforall_imp _ _ _ name_ok_name), C).
  assert (K : forall K t, In K key_words -> match_lit K s = Some t -> exists m n', n = m ++ n' /\ t = n' ++ String " " (w ++ r) /\ upper m = K /\ n' <> "" /\ sforall name_char n' = true).
  { intros K t I M. assert (U : sforall is_upper K = true) by (clear M; cbn in I; repeat (destruct I as [<-|I]; [reflexivity|]); destruct I).
    destruct (keyword_split K U n _ t M) as (m & n' & E & Et & Um). exists m, n'. split; [exact E|]. split; [exact Et|]. split; [exact Um|].
    split; [|rewrite E, sforall_app in Nc; apply andb_true_iff in Nc; tauto].
    intros ->. rewrite sapp_nil_r in E. subst m. apply Nk. rewrite Um. exact I. }
  assert (Two : forall K x, In K key_words -> match_lit (K ++ String " " x) s = None).
  { intros K' x I. apply keyword_two; [exact I|exact Nc|]. intros E. apply Nk. rewrite E. exact I. }
  assert (Na : forall n', sforall name_char n' = true -> n' <> "" -> forall rs (v : pvals leaf), run_rules (rname :: rs) (n' ++ String " " (w ++ r)) v = run_rules rs (w ++ r) (dset "name" (VText n') v)).
  { intros n' Cn Nn rs v. unfold rname. rewrite (step_re "name" (plus name_char) false rs _ (VText n') (String " " (w ++ r))).
    - rewrite strip_space by exact Tb. reflexivity.
    - apply plus_word; [exact Cn|exact Nn|reflexivity].
    - rewrite strip_space by exact Tb. exact Sb. }
  assert (Sn : forall n', sforall name_char n' = true -> n' <> "" -> strip (n' ++ String " " (w ++ r)) = n' ++ String " " (w ++ r) /\ n' ++ String " " (w ++ r) <> "").
  { intros n' Cn Nn. split; [|destruct n'; [contradiction|discriminate]]. apply trim_strip, trim_app; [apply (sforall_imp _ _ _ name_not_space), Cn|exact Nn|].
    apply neat_space; assumption. }
  assert (Par : forall l, match_lit (String "(" l) (w ++ r) = None).
  { intros l. destruct Hw as [Nw W]. destruct w as [|c w']; [contradiction|]. cbn [String.append]. apply match_lit_char.
    cbn [sforall] in W. apply andb_true_iff in W as [W _]. clear - W. destruct c as [[|] [|] [|] [|] [|] [|] [|] [|]]; vm_compute in W |- *; congruence. }
  constructor; [apply G, fail_lit, (Two "PRIMARY" "KEY"); cbn; tauto|]. constructor.
  { assert (Key : forall x t, @re_match leaf (ReAlt "KEY" "INDEX") s = Some (x, t) -> exists n', t = n' ++ String " " (w ++ r) /\ n' <> "" /\ sforall name_char n' = true).
    { intros x t E. cbn [re_match] in E. destruct (match_lit "KEY" s) as [t0|] eqn:M.
      - injection E as _ <-. destruct (K "KEY" t0 ltac:(cbn; tauto) M) as (m & n' & _ & -> & _ & X). exists n'. tauto.
      - destruct (match_lit "INDEX" s) as [t0|] eqn:M'; [|discriminate]. injection E as _ <-.
        destruct (K "INDEX" t0 ltac:(cbn; tauto) M') as (m & n' & _ & -> & _ & X). exists n'. tauto. }
    destruct (@re_match leaf (ReAlt "KEY" "INDEX") s) as [[x t]|] eqn:E; [|apply G, fail_re, E].
    destruct (Key x t eq_refl) as (n' & -> & Nn & Cn). destruct (Sn n' Cn Nn) as [Se Sne]. eapply G0. unfold key_rules.
    rewrite (step_re "index_name" _ false _ s x _ [] E) by (rewrite Se; exact Sne). rewrite Se, Na by assumption. apply fail_lit, Par. }
  constructor.
  { destruct (match_lit "CONSTRAINT" s) as [t|] eqn:M; [|apply G, fail_lit, M]. destruct (K "CONSTRAINT" t ltac:(cbn; tauto) M) as (m & n' & En & -> & Um & Nn & Cn).
    destruct (Sn n' Cn Nn) as [Se Sne]. eapply G0. unfold foreign_rules. cbn [app]. unfold lit at 1.
    rewrite (step_lit "CONSTRAINT" _ false _ s _ [] M) by (rewrite Se; exact Sne). rewrite Se, Na by assumption. apply fail_lit.
    destruct Hf as [Hf|Hf]; [apply word_no_foreign; [apply Hw|exact Hr|exact Hf]|]. exfalso. rewrite En, upper_app, Um in Hf. clear - Hf. destruct (upper n'); discriminate. }
  constructor; [|constructor]. apply G, fail_lit, (Two "FOREIGN" "KEY ("); cbn; tauto.
Qed.
Lemma name_beaten tick n k w r : clean_name n -> (tick = false -> ~ In (upper n) key_words) ->
  (tick = false -> trim (n ++ String " " (w ++ r)) = true -> beaten k (n ++ String " " (w ++ r)) unique_class) ->
  w <> "" /\ sforall is_word w = true -> starts (fun c => negb (is_word c)) r = true ->
  upper w <> "FOREIGN" \/ prefix "CONSTRAINT" (upper n) = false -> neat r = true ->
  Forall (beaten k (name_text tick n ++ String " " (w ++ r))) [primary_class; key_class; unique_class; foreign_class; bare_class].
Proof.
  intros C N Un Hw Hr Hf Nr. destruct (name_keys tick n k w r C N Hw Hr Hf Nr) as [F T].
  inversion F as [|? ? F1 G1]; subst. inversion G1 as [|? ? F2 G2]; subst. inversion G2 as [|? ? F3 G3]; subst. inversion G3 as [|? ? F4 _]; subst.
  apply Forall_cons; [exact F1|]. apply Forall_cons; [exact F2|]. apply Forall_cons; [|apply Forall_cons; [exact F3|apply Forall_cons; [exact F4|apply Forall_nil]]]. destruct tick; [|exact (Un eq_refl T)].
  eexists None, _. split; [|left; reflexivity]. unfold unique_class. rewrite child_trim by exact T. unfold unique_rules, lit. rewrite fail_lit by reflexivity. reflexivity.
Qed.
Lemma unique_other n k r : prefix "UNIQUE" (upper n) = false -> trim (n ++ String " " r) = true -> beaten k (n ++ String " " r) unique_class.
Proof.
  intros Nu T. exists None, (n ++ String " " r). split; [|left; reflexivity]. unfold unique_class. rewrite child_trim by exact T. unfold unique_rules, lit.
  rewrite fail_lit; [reflexivity|]. apply not_keyword; [reflexivity|exact Nu].
Qed.
Lemma name_other tick n k w r : name_ok tick n -> w <> "" /\ sforall is_word w = true -> starts (fun c => negb (is_word c)) r = true ->
  upper w <> "FOREIGN" \/ prefix "CONSTRAINT" (upper n) = false -> neat r = true ->
  Forall (beaten k (name_text tick n ++ String " " (w ++ r))) [primary_class; key_class; unique_class; foreign_class; bare_class].
Proof.
  intros [C N] Hw Hr Hf Nr. apply name_beaten; try assumption; [apply N|]. intros Et T. apply unique_other; [apply N, Et|exact T].
Qed.
Lemma named_column tick n f l : name_ok tick n -> nameable tick n f l.
Proof. intros [C N]. split; [exact C|]. intros E. destruct (N E) as [K U]. split; [exact K|]. rewrite U. discriminate. Qed.
Lemma lengthless_name tick n l : nameable tick n NoLength l -> name_ok tick n.
Proof. intros [C N]. split; [exact C|]. intros E. destruct (N E) as [K U]. split; [exact K|]. destruct (prefix "UNIQUE" (upper n)); [|reflexivity]. destruct (U eq_refl) as [X _]. contradiction. Qed.

Section Best.
  Variables (tick : bool) (name ty : string) (f : length_form) (items : list item) (e : ending).
  Notation nm := (name_text tick name).
  Notation text := (col_text nm ty f items e).
  Hypothesis Hname : nm <> "" /\ sforall name_char nm = true.
  Hypothesis Hty : ty <> "" /\ sforall is_word ty = true.
  Hypothesis Hf : length_ok f.
  Hypothesis Hitems : items_ok items.
  Hypothesis He : ending_ok e.
  Notation L := (String.length (ending_left e)).

  Lemma text_trim : trim text = true.
  Proof. apply col_trim; assumption. Qed.
  Lemma others : nameable tick name f items -> upper ty <> "FOREIGN" -> Forall (beaten L text) [primary_class; key_class; unique_class; foreign_class; bare_class].
  Proof.
    intros [C N] Hfk. unfold col_text. apply name_beaten; [exact C|apply N| |exact Hty| |left; exact Hfk|apply rest_neat; assumption].
    - intros Et T. destruct (N Et) as [_ U]. destruct (prefix "UNIQUE" (upper name)) eqn:P; [|apply unique_other; assumption]. destruct (U eq_refl) as [Nf Ni].
      apply unique_beaten; try assumption; [apply (sforall_imp _ _ _ name_ok_name), C|]. pose proof (stream_length items e Hitems Ni). pose proof (ending_left_length e). lia.
    - destruct f; [|reflexivity..]. apply more_starts; reflexivity.
  Qed.
  Lemma long_length : f <> NoLength -> S L <= String.length (length_text f ++ more items e).
  Proof.
    intros N. rewrite slength_app. pose proof (more_length items e). pose proof (ending_left_length e). destruct f; [contradiction| |]; cbn [length_text String.append String.length]; lia.
  Qed.
  Lemma bare_tied rules (process : pvals leaf -> pcol) os : rules = rname :: rtype :: map orule os +++ [rcomma] ->
    tied L text (child_of rules process DefCol).
  Proof.
    intros ->. pose proof text_trim as T. pose proof long_length as LL. destruct f as [|x|x y].
    - eapply class_tied; [exact T|apply bare_none; assumption|]. apply left_tied, sim_ok, Hitems.
    - eapply class_tied; [exact T|apply bare_length; [assumption..|discriminate]|]. specialize (LL ltac:(discriminate)). lia.
    - eapply class_tied; [exact T|apply bare_length; [assumption..|discriminate]|]. specialize (LL ltac:(discriminate)). lia.
  Qed.
End Best.

Section Families.
  Variables (tick : bool) (name w : string) (server u n a : bool) (lu ln ld la lcs lco : list item) (e : ending).
  Variables (T : string) (F : length_form) (d : option string) (cs co : string).
  Notation nm := (name_text tick name).
  Notation items := (arranged server lu ln ld la lcs lco).
  Notation text f := (col_text nm w f items e).
  Hypothesis Hname : nm <> "" /\ sforall name_char nm = true.
  Hypothesis Hstrip : strip_char bquote nm = name.
  Hypothesis Hitems : items_ok items.
  Hypothesis He : ending_ok e.
  Hypothesis Fu : flag IUnsigned "UNSIGNED" u lu.
  Hypothesis Fn : nullness n ln.
  Hypothesis D : defaults d ld.
  Hypothesis Fa : flag IAuto "AUTO_INCREMENT" a la.
  Hypothesis Hcs : argument ICharset "CHARACTER SET" cs lcs.
  Hypothesis Hco : argument ICollate "COLLATE" co lco.
  Notation L := (String.length (ending_left e)).
  Notation reads f := (exists p, best_child definition_classes (text f) None = Ok (Some (DefCol p, ending_left e)) /\ pcol_as p name T F u n a (default_value w d) cs co
    /\ p_warnings p = default_remark name w f u a ld lcs lco).
  Let Fd := defaults_form _ _ D.
  Let Fcs := argument_form _ _ _ _ Hcs.
  Let Fco := argument_form _ _ _ _ Hco.

  Section Word.
  Hypothesis Hw : w <> "" /\ sforall is_word w = true.
  Lemma paren_beaten rules (process : pvals leaf -> pcol) rs k : rules = rname :: rtype :: lit "(" :: rs ->
    beaten k (text NoLength) (child_of rules process DefCol).
  Proof.
    intros ->. eapply class_tied_none; [apply text_trim; first [assumption|exact I]|]. apply paren_none; assumption.
  Qed.
  Lemma winning rules (process : pvals leaf -> pcol) f v l : length_ok f -> run_rules rules (text f) [] = Ok (Some v, left_of e l) -> l = [] ->
    child_of rules process DefCol (text f) = Ok (Some (DefCol (process v)), ending_left e).
  Proof. intros G R ->. apply class_run; [apply text_trim; assumption|exact R]. Qed.
  Lemma later f : length_ok f -> f <> NoLength -> Forall (tied L (text f)) [enum_class; plain_class; text_class; datetime_class].
  Proof.
    intros G N. constructor; [|constructor; [|constructor; [|constructor; [|constructor]]]].
    - destruct (enum_tied nm w items e Hname Hw Hitems He enum_rules enum_os f G N eq_refl) as (v & l & R & O).
      eapply class_tied; [apply text_trim; assumption|exact R|apply left_tied, O].
    - apply (bare_tied tick name w f items e Hname Hw G Hitems He plain_rules plain_process plain_os eq_refl).
    - apply (bare_tied tick name w f items e Hname Hw G Hitems He text_rules text_process text_os eq_refl).
    - apply (bare_tied tick name w f items e Hname Hw G Hitems He datetime_rules datetime_process datetime_os eq_refl).
  Qed.
  End Word.

  Lemma read_plain : nameable tick name NoLength items -> typed w NoLength T F -> lcs = [] -> lco = [] -> (forall k s, ld = [IQuoted k s] -> lower s <> "null") -> reads NoLength.
  Proof.
    intros Hok Ty Hc Ho N. pose proof (ty_word _ _ _ _ Ty) as Hw. pose proof (ty_fk _ _ _ _ Ty) as Hfk.
    destruct (plain_wins nm w e server u n a lu ln ld la lcs lco Fu Fn Fd Fa Fcs Fco Hc Ho) as [W S].
    exists (plain_process (comma_vals e [] (fst (sim plain_os items ([("name", VText nm); ("type", VText w)] : pvals leaf))))).
    split; [|split; [eapply plain_as; first [eassumption|reflexivity]|rewrite Hc, Ho; reflexivity]].
    apply (best_pick ([primary_class; key_class; unique_class; foreign_class; bare_class] +++ [character_class; numeric_class; decimal_class; enum_class])
             plain_class [text_class; datetime_class]).
    - apply Forall_app. split; [apply others; first [assumption|exact I]|].
      repeat (constructor; [eapply paren_beaten; [exact Hw|reflexivity]|]). constructor.
    - pose proof (bare_none nm w items e Hname Hw Hitems He plain_os) as R. rewrite W in R. apply (winning Hw _ _ NoLength _ [] I R eq_refl).
    - constructor; [apply (bare_tied tick name w NoLength items e Hname Hw I Hitems He text_rules text_process text_os eq_refl)|].
      constructor; [|constructor]. apply (bare_tied tick name w NoLength items e Hname Hw I Hitems He datetime_rules datetime_process datetime_os eq_refl).
  Qed.
  Lemma read_text : nameable tick name NoLength items -> typed w NoLength T F -> boolean w = false -> lcs <> [] \/ lco <> [] -> u = false -> a = false -> reads NoLength.
  Proof.
    intros Hok Ty B C Hu Ha. pose proof (ty_word _ _ _ _ Ty) as Hw. pose proof (ty_fk _ _ _ _ Ty) as Hfk.
    destruct (text_wins nm w e server u n a lu ln ld la lcs lco Fu Fn Fd Fa Fcs Fco Hu Ha) as [W S].
    exists (text_process (comma_vals e [] (fst (sim text_os items ([("name", VText nm); ("type", VText w)] : pvals leaf))))).
    split; [|split; [eapply text_as; first [eassumption|reflexivity]|]].
    2:{ erewrite text_noted; [|eassumption..]. cbn [default_remark]. destruct lcs; [destruct lco; [destruct C; contradiction|]|]; reflexivity. }
    apply (best_pick ([primary_class; key_class; unique_class; foreign_class; bare_class] +++ [character_class; numeric_class; decimal_class; enum_class; plain_class])
             text_class [datetime_class]).
    - apply Forall_app. split; [apply others; first [assumption|exact I]|].
      do 4 (constructor; [eapply paren_beaten; [exact Hw|reflexivity]|]). constructor; [|constructor].
      pose proof (bare_none nm w items e Hname Hw Hitems He plain_os) as R.
      eapply class_tied; [apply text_trim; first [assumption|exact I]|exact R|]. apply left_beaten; [apply sim_ok, Hitems|].
      eapply plain_loses; eassumption.
    - pose proof (bare_none nm w items e Hname Hw Hitems He text_os) as R. rewrite W in R. apply (winning Hw _ _ NoLength _ [] I R eq_refl).
    - constructor; [|constructor].
      apply (bare_tied tick name w NoLength items e Hname Hw I Hitems He datetime_rules datetime_process datetime_os eq_refl).
  Qed.
  Lemma read_character l : nameable tick name (OneNumber l) items -> typed w (OneNumber l) T F -> digits l -> u = false -> a = false -> reads (OneNumber l).
  Proof.
    intros Hok Ty G Hu Ha. pose proof (ty_word _ _ _ _ Ty) as Hw. pose proof (ty_fk _ _ _ _ Ty) as Hfk.
    destruct (character_wins nm w e server u n a lu ln ld la lcs lco Fu Fn Fd Fa Fcs Fco l Hu Ha) as [W S].
    exists (character_process (comma_vals e [] (fst (sim character_os items (one_vals nm w l))))).
    split; [|split; [eapply character_as; first [eassumption|reflexivity]|]].
    2:{ erewrite character_noted; [|eassumption..]. rewrite Hu, Ha. reflexivity. }
    apply (best_pick [primary_class; key_class; unique_class; foreign_class; bare_class] character_class
             [numeric_class; decimal_class; enum_class; plain_class; text_class; datetime_class]).
    - apply others; assumption.
    - pose proof (one_one nm w items e Hname Hw Hitems He l character_os G) as R. rewrite W in R. apply (winning Hw _ _ (OneNumber l) _ [] G R eq_refl).
    - constructor; [|constructor].
      + pose proof (one_one nm w items e Hname Hw Hitems He l numeric_os G) as R.
        eapply class_tied; [apply text_trim; assumption|exact R|apply left_tied, sim_ok, Hitems].
      + edestruct (dec_one nm w items e Hname Hw Hitems He l) as [r R]; [exact G|].
        apply beaten_tied. eapply class_tied_none; [apply text_trim; assumption|exact R].
      + apply later; [exact Hw|exact G|discriminate].
  Qed.
  Lemma read_numeric l : nameable tick name (OneNumber l) items -> typed w (OneNumber l) T F -> digits l -> u = true \/ a = true -> lcs = [] -> lco = [] -> reads (OneNumber l).
  Proof.
    intros Hok Ty G Hua Hc Ho. pose proof (ty_word _ _ _ _ Ty) as Hw. pose proof (ty_fk _ _ _ _ Ty) as Hfk.
    destruct (numeric_wins nm w e server u n a lu ln ld la lcs lco Fu Fn Fd Fa Fcs Fco l Hc Ho) as [W S].
    exists (numeric_process (comma_vals e [] (fst (sim numeric_os items (one_vals nm w l))))).
    split; [|split; [eapply numeric_as; first [eassumption|reflexivity]|]].
    2:{ erewrite numeric_noted; [|eassumption..]. cbn [default_remark]. destruct Hua as [-> | ->]; [|rewrite orb_true_r]; reflexivity. }
    apply (best_pick ([primary_class; key_class; unique_class; foreign_class; bare_class] +++ [character_class]) numeric_class
             [decimal_class; enum_class; plain_class; text_class; datetime_class]).
    - apply Forall_app. split; [apply others; assumption|]. constructor; [|constructor].
      pose proof (one_one nm w items e Hname Hw Hitems He l character_os G) as R.
      eapply class_tied; [apply text_trim; assumption|exact R|]. apply left_beaten; [apply sim_ok, Hitems|]. eapply character_loses; eassumption.
    - pose proof (one_one nm w items e Hname Hw Hitems He l numeric_os G) as R. rewrite W in R. apply (winning Hw _ _ (OneNumber l) _ [] G R eq_refl).
    - constructor.
      + edestruct (dec_one nm w items e Hname Hw Hitems He l) as [r R]; [exact G|].
        apply beaten_tied. eapply class_tied_none; [apply text_trim; assumption|exact R].
      + apply later; [exact Hw|exact G|discriminate].
  Qed.
  Lemma read_decimal l m : nameable tick name (TwoNumbers l m) items -> typed w (TwoNumbers l m) T F -> digits l -> digits m -> a = false -> lcs = [] -> lco = [] -> reads (TwoNumbers l m).
  Proof.
    intros Hok Ty G M Ha Hc Ho. pose proof (ty_word _ _ _ _ Ty) as Hw. pose proof (ty_fk _ _ _ _ Ty) as Hfk.
    destruct (decimal_wins nm w e server u n a lu ln ld la lcs lco Fu Fn Fd Fa Fcs Fco l m Ha Hc Ho) as [W S].
    exists (decimal_process (comma_vals e [] (fst (sim decimal_os items (two_vals nm w l m))))).
    split; [|split; [eapply decimal_as; first [eassumption|reflexivity]|]].
    2:{ erewrite decimal_noted; [|eassumption..]. reflexivity. }
    apply (best_pick ([primary_class; key_class; unique_class; foreign_class; bare_class] +++ [character_class; numeric_class]) decimal_class
             [enum_class; plain_class; text_class; datetime_class]).
    - apply Forall_app. split; [apply others; first [assumption|split; assumption]|].
      constructor; [|constructor; [|constructor]]; (edestruct (one_two nm w items e Hname Hw Hitems He l m) as [r R]; [exact G|exact M|];
        eapply class_tied_none; [apply text_trim; first [assumption|split; assumption]|exact R]).
    - pose proof (dec_two nm w items e Hname Hw Hitems He l m decimal_os G M) as R. rewrite W in R. apply (winning Hw _ _ (TwoNumbers l m) _ [] (conj G M) R eq_refl).
    - apply later; [exact Hw|split; assumption|discriminate].
  Qed.
End Families.

(** ** Every written column is read *)

Lemma flag_items mk K b l : (forall k, spelled K k -> item_ok (mk k)) -> flag mk K b l -> items_ok l.
Proof. intros M [|k S]; [constructor|]. constructor; [apply M, S|constructor]. Qed.
Lemma spelled_space K k : spelled K k -> spelled (K ++ " ") (k ++ " ").
Proof. unfold spelled. intros H. rewrite !lower_app, H. reflexivity. Qed.
Lemma argument_items mk K x l : (forall k s, spelled K k -> s <> "" -> sforall arg_char s = true -> item_ok (mk k s)) -> argument mk K x l -> items_ok l.
Proof.
  intros M [|k s S (N & [P _] & _)|k s S _ [P _]]; [constructor| |]; (constructor; [|constructor]).
  - apply M; [exact S|exact N|apply (sforall_imp _ _ _ plain_arg), P].
  - apply M; [exact S|discriminate|apply quote_arg, P].
Qed.
Lemma defaults_items d l : defaults d l -> items_ok l.
Proof.
  intros [|k s S N|k s S (N & [P _] & Q) _|k s S [P _]]; [constructor| | |]; (constructor; [|constructor]); (split; [apply (spelled_space _ _ S)|]).
  - destruct (null_plain s N) as (A & B & C). auto.
  - auto.
  - exact P.
Qed.
Lemma nullness_items n l : nullness n l -> items_ok l.
Proof. intros [|k S|k S]; [constructor| |]; (constructor; [split; [exact S|exact I]|constructor]). Qed.
Lemma arranged_items server u n a d cs co lu ln ld la lcs lco : flag IUnsigned "UNSIGNED" u lu -> nullness n ln -> defaults d ld -> flag IAuto "AUTO_INCREMENT" a la ->
  argument ICharset "CHARACTER SET" cs lcs -> argument ICollate "COLLATE" co lco -> items_ok (arranged server lu ln ld la lcs lco).
Proof.
  intros A B C D E F.
  apply (flag_items IUnsigned) in A; [|intros k S; split; [exact S|exact I]]. apply nullness_items in B. apply defaults_items in C.
  apply (flag_items IAuto) in D; [|intros k S; split; [exact S|exact I]].
  apply (argument_items ICharset) in E; [|intros k s S N P; split; [apply (spelled_space _ _ S)|auto]].
  apply (argument_items ICollate) in F; [|intros k s S N P; split; [apply (spelled_space _ _ S)|auto]].
  unfold arranged, items_ok in *. destruct server; rewrite !Forall_app; auto 10.
Qed.

Lemma strip_none s : has_char bquote s = false -> strip_char bquote s = s.
Proof.
  intros H. assert (Q : sforall (fun c => negb (Ascii.eqb bquote c)) s = true).
  { induction s as [|c s IH]; [reflexivity|]. unfold has_char in H. cbn [sexists] in H. apply orb_false_iff in H as [H1 H2]. cbn [sforall]. rewrite H1. apply IH, H2. }
  clear H. unfold strip_char, strip_by.
  assert (R : rstrip_by (Ascii.eqb bquote) s = s).
  { induction s as [|c s IH]; [reflexivity|]. cbn [sforall] in Q. apply andb_true_iff in Q as [Q1 Q2]. cbn [rstrip_by]. rewrite (IH Q2).
    apply negb_true_iff in Q1. destruct s; cbn [is_empty]; [rewrite Q1|]; reflexivity. }
  rewrite R. destruct s as [|c s]; [reflexivity|]. cbn [sforall] in Q. apply andb_true_iff in Q as [Q1 _]. apply negb_true_iff in Q1. cbn [lstrip_by]. rewrite Q1. reflexivity.
Qed.
Lemma name_facts tick n : clean_name n ->
  (name_text tick n <> "" /\ sforall name_char (name_text tick n) = true) /\ strip_char bquote (name_text tick n) = n.
Proof.
  intros (N & P & _). unfold name_text. destruct tick.
  - split; [split; [discriminate|apply ticked_name, P]|apply strip_ticked, P].
  - split; [split; [exact N|apply (sforall_imp _ _ _ name_ok_name), P]|]. apply strip_none, name_ok_bquote, P.
Qed.

(** What reading leaves in the attributes. *)
Definition plainly (c : column) : Prop :=
  (exists x, c_length c = LStr x) /\ c_charset c <> Some "" /\ c_collate c <> Some "" /\ match c_default c with DInt _ => False | _ => True end
  /\ (c_kind c <> KString -> c_charset c = None /\ c_collate c = None).
Lemma upper_some o : o <> Some "" -> option_map upper o <> Some "".
Proof. intros N E. destruct o as [[|c s]|]; cbn in E; [apply N; reflexivity|discriminate|discriminate]. Qed.
Lemma shown_upper c o : shown_text c (option_map upper o) = upper (shown_text c (option_map upper o)).
Proof. unfold shown_text. destruct (c_kind c); try reflexivity. destruct o; [|reflexivity]. cbn. symmetry. apply upper_twice. Qed.

Lemma means_from p m cs co : type_facts (m_type m) (m_kind m) ->
  (m_kind m = KString \/ cs = "" /\ co = "") -> m_charset m = upper cs -> m_collate m = upper co ->
  pcol_as p (m_name m) (m_type m) (m_length m) (m_unsigned m) (m_null m) (m_auto m) (m_default m) cs co ->
  exists c, as_definition p = Ok c /\ means c m /\ c_perrors c = [] /\ plainly c.
Proof.
  intros TF K Ecs Eco P. pose proof (pa_text _ _ _ _ _ _ _ _ _ _ P) as (Px & Pc & Po). unfold as_definition. rewrite (pa_type _ _ _ _ _ _ _ _ _ _ P), (tf_map _ _ TF).
  eexists. split; [reflexivity|]. split; [|split; [reflexivity|]].
  2:{ unfold plainly, c_charset, c_collate. cbn [c_length c_rawcharset c_rawcollate c_default c_kind]. split; [exact Px|]. split; [apply upper_some, Pc|]. split; [apply upper_some, Po|].
    split; [destruct (p_default p); exact I|]. intros N. destruct K as [K|[-> ->]]; [contradiction|].
    pose proof (pa_charset _ _ _ _ _ _ _ _ _ _ P) as E1. pose proof (pa_collate _ _ _ _ _ _ _ _ _ _ P) as E2.
    destruct (p_charset p) as [x|]; [cbn in E1; subst x; exfalso; apply Pc; reflexivity|]. destruct (p_collate p) as [x|]; [cbn in E2; subst x; exfalso; apply Po; reflexivity|].
    auto. }
  assert (G : forall o x, or_empty o = x -> (m_kind m = KString \/ x = "") ->
    match m_kind m, option_map upper o with KString, Some s => s | _, _ => "" end = upper x).
  { intros o x <- H. destruct (m_kind m); destruct o as [s|]; cbn [option_map or_empty] in *; try reflexivity; destruct H as [H| ->]; first [discriminate|reflexivity]. }
  constructor; try apply P; try reflexivity.
  - unfold c_type. cbn [c_rawtype]. apply TF.
  - cbn [c_default]. rewrite (pa_default _ _ _ _ _ _ _ _ _ _ P). destruct (m_default m); reflexivity.
  - rewrite Ecs. apply (G (p_charset p)); [apply P|tauto].
  - rewrite Eco. apply (G (p_collate p)); [apply P|tauto].
Qed.

Theorem remarked_read m s ws e : remarked m s ws -> ending_ok e ->
  exists p c, best_child definition_classes (s ++ ending_raw e) None = Ok (Some (DefCol p, ending_left e))
    /\ as_definition p = Ok c /\ means c m /\ c_perrors c = [] /\ p_name p = m_name m /\ p_primary p = false /\ plainly c /\ c_pwarnings c = ws.
Proof.
  intros [tick w f server lu ln ld la lcs lco d cs co Hn Ht Hw Hf Fu Fn D Ed Fa Hcs Ecs Hco Eco HC HF] He.
  apply readable_facts in Ht. pose proof (word_typed _ _ _ _ _ Ht Hw) as Ty. destruct (name_facts tick _ (proj1 Hn)) as [Hname Hstrip].
  pose proof (arranged_items server _ _ _ _ _ _ _ _ _ _ _ _ Fu Fn D Fa Hcs Hco) as Hitems. rewrite definition_text.
  enough (Q : exists p, best_child definition_classes (col_text (name_text tick (m_name m)) w f (arranged server lu ln ld la lcs lco) e) None = Ok (Some (DefCol p, ending_left e))
    /\ pcol_as p (m_name m) (m_type m) (m_length m) (m_unsigned m) (m_null m) (m_auto m) (default_value w d) cs co
    /\ p_warnings p = default_remark (m_name m) w f (m_unsigned m) (m_auto m) ld lcs lco).
  { destruct Q as (p & B & P & Nt). rewrite <- Ed in P. destruct (means_from p m cs co Ht) as (c & A & M & E & Pl); try assumption.
    { destruct Hcs; [|left; apply HC; left; discriminate|left; apply HC; left; discriminate].
      destruct Hco; [right; auto|left; apply HC; right; discriminate|left; apply HC; right; discriminate]. }
    exists p, c. split; [exact B|split; [exact A|split; [exact M|split; [exact E|split; [apply P|split; [apply P|split; [exact Pl|]]]]]]].
    unfold as_definition in A. destruct (dget _ _); [|discriminate]. injection A as <-. exact Nt. }
  assert (W : lcs = [] /\ lco = [] \/ (lcs <> [] \/ lco <> [])).
  { destruct lcs; [|right; left; discriminate]. destruct lco; [auto|right; right; discriminate]. }
  destruct W as [[-> ->]|W].
  - destruct f as [|l|l k]; cbn [length_ok] in Hf.
    + eapply read_plain; try eassumption; first [reflexivity|exact (HF eq_refl eq_refl)].
    + destruct (m_unsigned m) eqn:Eu; [eapply read_numeric; eauto|]. destruct (m_auto m) eqn:Ea; [eapply read_numeric; eauto|].
      eapply read_character; eauto.
    + destruct Hf as [H1 H2], HF as [HA _]. eapply read_decimal; eauto.
  - destruct (HC W) as (K & Eu & Ea). destruct f as [|l|l k]; cbn [length_ok] in Hf.
    + eapply read_text; try eassumption. destruct (boolean w) eqn:B; [|reflexivity]. destruct (ty_bool _ _ _ _ Ty B) as (_ & E & _ & _).
      exfalso. pose proof (tf_map _ _ Ht) as M. rewrite E, K in M. discriminate M.
    + eapply read_character; eauto.
    + destruct HF as (_ & -> & ->). destruct W as [W|W]; exfalso; apply W; reflexivity.
Qed.

Lemma written_remarked m s : written m s -> exists ws, remarked m s ws.
Proof. intros [tick w f server lu ln ld la lcs lco d cs co Hn Ht Hw Hf Fu Fn D Ed Fa Hcs Ecs Hco Eco HC HF]. eexists. eapply remarked_as; eassumption. Qed.
Lemma remarked_written m s ws : remarked m s ws -> written m s.
Proof. intros [tick w f server lu ln ld la lcs lco d cs co Hn Ht Hw Hf Fu Fn D Ed Fa Hcs Ecs Hco Eco HC HF]. eapply written_as; eassumption. Qed.
Theorem written_read m s e : written m s -> ending_ok e ->
  exists p c, best_child definition_classes (s ++ ending_raw e) None = Ok (Some (DefCol p, ending_left e))
    /\ as_definition p = Ok c /\ means c m /\ c_perrors c = [] /\ p_name p = m_name m /\ p_primary p = false /\ plainly c.
Proof. intros W He. destruct (written_remarked m s W) as [ws R]. destruct (remarked_read m s ws e R He) as (p & c & H). exists p, c. tauto. Qed.

(** ** Rendered columns *)

Lemma length_form_ok l f : has_length l f -> length_ok f.
Proof. intros [|n _ _ G|n m _ _ G M]; cbn; auto. Qed.
Lemma length_forms l l' f : has_length l f -> has_length l' f -> length_text_of l = length_text_of l'.
Proof.
  unfold length_text_of. intros [S|n S T _|n m S T _ _] H'; inversion H' as [S'|n' S' T' _|n' m' S' T' _ _]; subst; rewrite S, S'; congruence.
Qed.
(** A number is not negative. *)
Definition natural (d : cdefault) : Prop := match d with DInt z => (0 <= z)%Z | _ => True end.
Lemma natural_digits z : (0 <= z)%Z -> isdigit (str_of_Z z) = true.
Proof. intros Z. destruct z as [|p|p]; [reflexivity| |lia]. apply (str_of_N_digits (N.pos p)). Qed.
Lemma default_texts a b : natural a -> natural b -> default_text a = default_text b -> default_items a = default_items b.
Proof.
  assert (G : forall d, natural d -> default_items d = match default_text d with Some s => if isdigit s then [IDefault "DEFAULT" s] else [IQuoted "DEFAULT" s] | None => [] end).
  { intros [|s|z] N; cbn; [reflexivity|reflexivity|rewrite natural_digits by exact N; reflexivity]. }
  intros A B E. rewrite (G a A), (G b B), E. reflexivity.
Qed.
Lemma means_alike a b m : m_kind m <> KEnum -> natural (c_default a) -> natural (c_default b) -> means a m -> means b m -> alike_column a b.
Proof.
  intros K Na Nb A B.
  assert (Q : column_items a = column_items b).
  { unfold column_items, unsigned_items, null_items, auto_items, charset_items, collate_items.
    rewrite (me_unsigned _ _ A), (me_unsigned _ _ B), (me_null _ _ A), (me_null _ _ B), (me_auto _ _ A), (me_auto _ _ B), (me_charset _ _ A), (me_charset _ _ B),
      (me_collate _ _ A), (me_collate _ _ B). rewrite (default_texts (c_default a) (c_default b)); [reflexivity|exact Na|exact Nb|].
    rewrite (me_default _ _ A), (me_default _ _ B). reflexivity. }
  constructor; try (etransitivity; [apply A|symmetry; apply B]).
  - eapply length_forms; [apply A|apply B].
  - rewrite (column_defined a (m_length m)), (column_defined b (m_length m)); [rewrite (me_name _ _ A), (me_name _ _ B), (me_type _ _ A), (me_type _ _ B), Q; reflexivity|..];
      try apply A; try apply B; rewrite ?(me_kind _ _ A), ?(me_kind _ _ B); exact K.
Qed.
Definition column_meaning (c : column) (f : length_form) : meaning :=
  mkMeaning (c_name c) (c_kind c) (c_type c) f (tru_ob (c_unsigned c)) (c_null c) (default_text (c_default c)) (tru_ob (c_autoinc c))
    (shown_text c (c_charset c)) (shown_text c (c_collate c)).
Lemma column_means c f : has_length (c_length c) f -> tru_ol (c_enum_values c) = false -> means c (column_meaning c f).
Proof. intros F V. constructor; try reflexivity; assumption. Qed.

Lemma digits_word s : isdigit s = true -> bare_word s /\ lower s <> "null".
Proof.
  unfold isdigit. rewrite andb_true_iff. intros [N D]. apply truthy_iff in N.
  assert (P : sforall plain_char s = true) by (apply (sforall_imp _ _ _ digit_plain), D).
  assert (Q : dashless s).
  { intros x y ->. rewrite sforall_app in D. apply andb_true_iff in D as [_ D]. discriminate D. }
  destruct s as [|c s]; [contradiction|]. cbn [sforall] in D. apply andb_true_iff in D as [D _]. split; [split; [exact N|split; [split; assumption|]]|].
  - intros ->. discriminate D.
  - unfold lower. cbn [smap]. destruct c as [[|] [|] [|] [|] [|] [|] [|] [|]]; try discriminate D; discriminate.
Qed.
Lemma default_forms d : default_ok d -> defaults (default_text d) (default_items d).
Proof.
  destruct d as [|s|z]; cbn [default_ok default_items default_text]; intros H; [constructor| |].
  - destruct (isdigit s) eqn:I; [destruct (digits_word s I); constructor; auto; reflexivity|constructor; [reflexivity|exact H]].
  - destruct (digits_word (str_of_Z z) (natural_digits z H)). constructor; auto. reflexivity.
Qed.
Lemma default_natural d : default_ok d -> natural d.
Proof. destruct d; cbn; auto. Qed.
Lemma shown_argument (mk : string -> string -> item) K s : clean_text s -> argument (mk) K s (shown_items (mk K) s).
Proof. intros C. unfold shown_items. destruct (truthy s) eqn:T; [constructor; [reflexivity|apply truthy_iff, T|exact C]|]. destruct s; [constructor|discriminate]. Qed.

Lemma column_written c f : readable_column c -> has_length (c_length c) f -> written (column_meaning c f) (column_str c).
Proof.
  intros R F. pose proof (readable_facts _ _ (rc_type c R)) as TF. destruct (rc_length c R) as (f' & F' & HU & HF).
  assert (f' = f).
  { destruct F as [S|n S T [N1 N2]|n m S T [N1 N2] [M1 M2]], F' as [S'|n' S' T' [N1' N2']|n' m' S' T' [N1' N2'] [M1' M2']]; try congruence.
    - exfalso. rewrite T in T'. rewrite T' in N2. rewrite !sforall_app in N2. rewrite !andb_true_iff in N2. destruct N2 as (_ & N2 & _). discriminate N2.
    - exfalso. rewrite T' in T. rewrite T in N2'. rewrite !sforall_app in N2'. rewrite !andb_true_iff in N2'. destruct N2' as (_ & N2' & _). discriminate N2'.
    - rewrite T in T'. clear - T' N2 N2'.
      assert (E : n = n' /\ m = m').
      { revert n' N2' T'. induction n as [|c n IH]; intros [|c' n'] N2' T'; cbn [String.append] in T'.
        - split; [reflexivity|congruence].
        - injection T' as <- _. discriminate N2'.
        - injection T' as -> _. discriminate N2.
        - injection T' as <- T'. cbn [sforall] in N2, N2'. apply andb_true_iff in N2 as [_ N2], N2' as [_ N2']. destruct (IH N2 n' N2' T') as [-> ->]. auto. }
      destruct E as [-> ->]. reflexivity. }
  subst f'. rewrite (column_defined c f F (rc_values c R) (tf_kind _ _ TF)).
  assert (ES : charset_items c <> [] \/ collate_items c <> [] -> shown_text c (c_charset c) ++ shown_text c (c_collate c) <> "").
  { unfold charset_items, collate_items, shown_items. destruct (shown_text c (c_charset c)); [|discriminate]. destruct (shown_text c (c_collate c)); [|discriminate].
    intros [H|H]; exfalso; apply H; reflexivity. }
  assert (EM : shown_text c (c_charset c) ++ shown_text c (c_collate c) = "" -> charset_items c = [] /\ collate_items c = []).
  { intros Z. apply sapp_eq_nil in Z as [Z1 Z2]. unfold charset_items, collate_items. rewrite Z1, Z2. auto. }
  apply (written_as (column_meaning c f) true (c_type c) f false _ _ _ _ _ _ (default_text (c_default c)) (shown_text c (c_charset c)) (shown_text c (c_collate c))); cbn [column_meaning m_name m_kind m_type m_length m_unsigned m_null m_default m_auto m_charset m_collate].
  - split; [apply R|discriminate].
  - apply R.
  - constructor. reflexivity.
  - apply (length_form_ok _ _ F).
  - unfold unsigned_items. destruct (tru_ob (c_unsigned c)); constructor. reflexivity.
  - unfold null_items. destruct (c_null c); constructor. reflexivity.
  - apply default_forms, R.
  - symmetry. apply default_same. unfold boolean. rewrite (tf_upper _ _ TF). destruct (tf_bool _ _ TF) as [B1 B2]. apply String.eqb_neq in B1, B2. rewrite B1, B2. reflexivity.
  - unfold auto_items. destruct (tru_ob (c_autoinc c)); constructor. reflexivity.
  - apply (shown_argument ICharset), R.
  - apply shown_upper.
  - apply (shown_argument ICollate), R.
  - apply shown_upper.
  - intros H. specialize (HU (ES H)). split; [|exact HU]. destruct (c_kind c) eqn:K; try reflexivity; exfalso; apply ES in H; apply H; unfold shown_text; rewrite K; reflexivity.
  - destruct f as [|l|l m]; [|exact I|].
    + intros Z1 Z2 k s E. destruct HF as [HF|HF].
      * exfalso. apply HF. unfold charset_items, collate_items, shown_items in *. destruct (shown_text c (c_charset c)); [|discriminate]. destruct (shown_text c (c_collate c)); [reflexivity|discriminate].
      * destruct (c_default c) as [|x|z]; cbn [default_items] in E; try discriminate. destruct (isdigit x); [discriminate|]. injection E as _ <-. apply HF. reflexivity.
    + destruct HF as [HA HE]. destruct (EM HE). auto.
Qed.

Theorem column_read c e : readable_column c -> ending_ok e ->
  exists p c', best_child definition_classes (column_str c ++ ending_raw e) None = Ok (Some (DefCol p, ending_left e))
    /\ as_definition p = Ok c' /\ alike_column c c' /\ c_perrors c' = [] /\ p_name p = c_name c /\ p_primary p = false.
Proof.
  intros R He. destruct (rc_length c R) as (f & F & _ & _). pose proof (column_written c f R F) as W.
  destruct (written_read _ _ e W He) as (p & c' & B & A & M & E & N & P & _). exists p, c'. repeat (split; [assumption|]). split; [|auto].
  apply (means_alike c c' (column_meaning c f)).
  - apply (readable_facts _ _ (rc_type c R)).
  - apply default_natural, R.
  - unfold as_definition in A. destruct (dget _ _); [|discriminate]. injection A as <-. cbn. destruct (p_default p); exact I.
  - apply column_means; [exact F|apply R].
  - exact M.
Qed.
