(** What follows the type of a rendered column, and what the optional rules make of it. *)
From Verif Require Export RoundText SpecWrite.

(** ** Texts after a definition *)

(** A comma and the next definition, or the closing parenthesis, with or without a space before, or
    a space and something that no definition goes on with. *)
Inductive ending : Set := EComma (next : string) | EClose (gap : bool) (r : string) | EWords (a : ascii) (z : string).
Definition ending_text (e : ending) : string := match e with EComma n => ", " ++ n | EClose _ r => ")" ++ r | EWords a z => String a z end.
Definition ending_raw (e : ending) : string := match e with EClose true r => " )" ++ r | EWords a z => " " ++ String a z | _ => ending_text e end.
Definition ending_left (e : ending) : string := match e with EComma n => n | EClose _ r => ")" ++ r | EWords a z => String a z end.
Definition going_on : list string :=
  ["UNSIGNED"; "NULL"; "NOT NULL"; "PRIMARY KEY"; "DEFAULT "; "AUTO_INCREMENT"; "CHARACTER SET "; "COLLATE "; ","; "("].
Definition ending_ok (e : ending) : Prop :=
  match e with
  | EComma n => trim n = true /\ n <> ""
  | EClose _ r => neat r = true
  | EWords a z => trim (String a z) = true /\ forall K, In K going_on -> match_lit K (String a z) = None
  end.
(** Nor a foreign key. *)
Definition calm_end (e : ending) : Prop := forall K, In K ["ON DELETE "; "ON UPDATE "] -> match_lit K (ending_text e) = None.
Lemma calm_comma n : calm_end (EComma n).
Proof. intros K [<-|[<-|[]]]; reflexivity. Qed.
Lemma calm_close g r : calm_end (EClose g r).
Proof. intros K [<-|[<-|[]]]; reflexivity. Qed.
Lemma ending_trim e : ending_ok e -> trim (ending_text e) = true.
Proof.
  destruct e as [n|g r|a z]; cbn [ending_ok ending_text]; intros H.
  - destruct H as [T N]. change (", " ++ n) with ("," ++ String " " n). apply trim_app; [reflexivity|discriminate|]. apply neat_space; assumption.
  - apply trim_app; [reflexivity|discriminate|exact H].
  - apply H.
Qed.
Lemma ending_nonempty e : ending_text e <> "".
Proof. destruct e; discriminate. Qed.
Lemma raw_neat e : ending_ok e -> neat (ending_raw e) = true.
Proof.
  intros H. pose proof (ending_trim e H) as T. destruct e as [n|[|] r|a z]; [apply trim_neat, T| |apply trim_neat, T|].
  - apply (neat_space (")" ++ r)); [exact T|discriminate].
  - apply (neat_space (String a z)); [exact T|discriminate].
Qed.
Lemma raw_strip e : ending_ok e -> strip (ending_raw e) = ending_text e.
Proof.
  intros H. pose proof (ending_trim e H) as T. destruct e as [n|[|] r|a z]; [apply trim_strip, T| |apply trim_strip, T|].
  - apply (strip_space (")" ++ r)), T.
  - apply (strip_space (String a z)), T.
Qed.
Lemma raw_starts (p : ascii -> bool) e : p " "%char = true -> p ","%char = true -> p ")"%char = true -> starts p (ending_raw e) = true.
Proof. intros A B C. destruct e as [n|[|] r|a z]; assumption. Qed.
Lemma raw_length e : String.length (ending_text e) <= String.length (ending_raw e).
Proof. destruct e as [n|[|] r|a z]; cbn; lia. Qed.
Lemma ending_left_nonempty e : ending_ok e -> ending_left e <> "".
Proof. destruct e; cbn; [tauto|discriminate|discriminate]. Qed.
Lemma ending_left_length e : String.length (ending_left e) <= String.length (ending_text e).
Proof. destruct e; cbn [ending_left ending_text]; rewrite ?slength_app; simpl; lia. Qed.

Lemma match_none_app k x s : match_lit k s = None -> match_lit (k ++ x) s = None.
Proof.
  revert s. induction k as [|a k IH]; intros s H; [discriminate|]. cbn [String.append match_lit] in *. destruct s as [|c s]; [reflexivity|].
  destruct (Ascii.eqb (to_lower a) (to_lower c)); [apply IH, H|reflexivity].
Qed.

(** ** Items *)

(** The keyword of an item, as documented and as written. *)
Definition item_key (i : item) : string :=
  match i with
  | IUnsigned _ => "UNSIGNED" | INull _ => "NULL" | INotNull _ => "NOT NULL" | IAuto _ => "AUTO_INCREMENT" | IPrimaryKey _ => "PRIMARY KEY"
  | IDefault _ _ | IQuoted _ _ => "DEFAULT " | ICharset _ _ => "CHARACTER SET " | ICollate _ _ => "COLLATE "
  end.
Definition item_word (i : item) : string :=
  match i with
  | IUnsigned k | INull k | INotNull k | IAuto k | IPrimaryKey k => k
  | IDefault k _ | IQuoted k _ | ICharset k _ | ICollate k _ => k ++ " "
  end.
Definition item_arg (i : item) : string :=
  match i with
  | IUnsigned _ | INull _ | INotNull _ | IAuto _ | IPrimaryKey _ => ""
  | IDefault _ s | ICharset _ s | ICollate _ s => s
  | IQuoted _ s => quote s
  end.
Lemma item_parts i : item_text i = item_word i ++ item_arg i.
Proof. destruct i; cbn [item_text item_word item_arg]; rewrite ?sapp_nil_r, ?sapp_assoc; reflexivity. Qed.
Definition no_dquote_start (s : string) : Prop := match s with String c _ => c <> dquote | EmptyString => True end.
Definition item_ok (i : item) : Prop :=
  spelled (item_key i) (item_word i)
  /\ match i with
     | IUnsigned _ | INull _ | INotNull _ | IAuto _ | IPrimaryKey _ => True
     | IDefault _ s => s <> "" /\ sforall plain_char s = true /\ no_dquote_start s
     | IQuoted _ s => sforall plain_char s = true
     | ICharset _ s | ICollate _ s => s <> "" /\ sforall arg_char s = true
     end.

(** What does not depend on letter case. *)
Lemma lower_app a b : lower (a ++ b) = lower a ++ lower b.
Proof. unfold lower. induction a as [|c a IH]; [reflexivity|]. cbn [String.append smap]. rewrite IH. reflexivity. Qed.
Lemma caseless p s t : (forall c, p c = p (to_lower c)) -> lower s = lower t -> sforall p s = sforall p t.
Proof.
  intros P. revert t. induction s as [|c s IH]; intros [|d t] H; try discriminate; [reflexivity|]. injection H as H1 H2.
  cbn [sforall]. rewrite (P c), (P d), H1, (IH t H2). reflexivity.
Qed.
Ltac letters := let c := fresh "c" in intros c; destruct c as [[|] [|] [|] [|] [|] [|] [|] [|]]; reflexivity.
Lemma neat_caseless s : forall t w, lower s = lower t -> neat_from w s = neat_from w t.
Proof.
  induction s as [|c s IH]; intros [|d t] w H; try discriminate; [reflexivity|]. injection H as H1 H2. cbn [neat_from].
  assert (A : forall c, is_space c = is_space (to_lower c)) by letters. assert (B : forall c, Ascii.eqb c " " = Ascii.eqb (to_lower c) " ") by letters.
  rewrite (A c), (A d), (B c), (B d), H1, !(IH t _ H2). reflexivity.
Qed.
Lemma starts_caseless p s t : (forall c, p c = p (to_lower c)) -> lower s = lower t -> starts p s = starts p t.
Proof.
  intros P. destruct s as [|c s], t as [|d t]; intros H; try discriminate; [reflexivity|]. injection H as H1 H2. cbn [starts]. rewrite (P c), (P d), H1. reflexivity.
Qed.
Lemma trim_caseless s t : lower s = lower t -> trim s = trim t.
Proof. intros H. unfold trim, neat. rewrite (neat_caseless s t false H), (starts_caseless not_space s t); [reflexivity|letters|exact H]. Qed.
Lemma lower_nonempty s t : lower s = lower t -> t <> "" -> s <> "".
Proof. intros H N ->. destruct t; [contradiction|discriminate]. Qed.
Lemma diverge_spelled l : forall K k r, lower k = lower K -> diverge l K = true -> diverge l (k ++ r) = true.
Proof.
  induction l as [|a l IH]; intros [|b K] [|c k] r H D; try discriminate. injection H as H1 H2. cbn [diverge String.append] in *.
  rewrite H1. destruct (Ascii.eqb (to_lower a) (to_lower b)); [|reflexivity]. apply (IH K k r H2 D).
Qed.

Fixpoint spaced (l : list item) (x : string) : string :=
  match l with [] => x | i :: l' => String " " (item_text i ++ spaced l' x) end.
Definition more (l : list item) (e : ending) : string := spaced l (ending_raw e).
Definition stream (l : list item) (e : ending) : string :=
  match l with [] => ending_text e | i :: l' => item_text i ++ more l' e end.

Lemma plain_not_space c : plain_char c = true -> not_space c = true.
Proof. unfold plain_char, not_space. rewrite !negb_true_iff, !orb_false_iff. tauto. Qed.
Lemma plain_arg c : plain_char c = true -> arg_char c = true.
Proof.
  unfold plain_char, arg_char, name_char, is_char. rewrite andb_true_iff, !negb_true_iff, !orb_false_iff. tauto.
Qed.
Lemma plain_not_squote c : plain_char c = true -> not_squote c = true.
Proof. unfold plain_char, not_squote, is_char. rewrite !negb_true_iff, !orb_false_iff. tauto. Qed.
Lemma digit_plain c : is_digit c = true -> plain_char c = true.
Proof. destruct c as [[|] [|] [|] [|] [|] [|] [|] [|]]; vm_compute; intros; congruence. Qed.
Lemma quote_arg s : sforall plain_char s = true -> sforall arg_char (quote s) = true.
Proof.
  intros H. unfold quote. cbn [sforall]. rewrite sforall_app, (sforall_imp _ _ _ plain_arg H). reflexivity.
Qed.
Lemma arg_not_space c : arg_char c = true -> not_space c = true.
Proof. unfold arg_char, name_char, not_space. rewrite andb_true_iff, !negb_true_iff, !orb_false_iff. tauto. Qed.

Lemma item_nonempty i : item_ok i -> item_text i <> "".
Proof.
  intros [S _] Z. rewrite item_parts in Z. apply sapp_eq_nil in Z as [Z _]. unfold spelled in S. rewrite Z in S. destruct i; discriminate S.
Qed.
Lemma quote_not_space s : sforall plain_char s = true -> sforall not_space (quote s) = true.
Proof. intros H. apply (sforall_imp _ _ _ arg_not_space), quote_arg, H. Qed.
Lemma item_arg_chars i : item_ok i -> sforall arg_char (item_arg i) = true.
Proof.
  intros [_ H]. destruct i; cbn [item_arg]; try reflexivity; try apply H.
  - apply (sforall_imp _ _ _ plain_arg), H.
  - apply quote_arg, H.
Qed.
Lemma item_trim i : item_ok i -> trim (item_text i) = true.
Proof.
  intros H. pose proof (item_arg_chars i H) as A. pose proof (proj1 H) as S. unfold spelled in S. rewrite item_parts.
  assert (N : item_word i <> "") by (apply (lower_nonempty _ _ S); destruct i; discriminate).
  assert (W : exists k r, item_word i = k ++ r /\ trim k = true /\ k <> "" /\ (r = "" /\ item_arg i = "" \/ r = " " /\ item_arg i <> "")).
  { assert (V : forall k K, lower (k ++ " ") = lower (K ++ " ") -> trim K = true -> K <> "" -> trim k = true /\ k <> "").
    { intros k K E T M. rewrite !lower_app in E. apply sapp_inj_r in E. split; [rewrite (trim_caseless _ _ E); exact T|apply (lower_nonempty _ _ E M)]. }
    destruct H as [_ H]. destruct i; cbn [item_word item_arg item_key] in *.
    1-3,6,9: exists k, ""; rewrite sapp_nil_r; (split; [reflexivity|]); (split; [rewrite (trim_caseless _ _ S); reflexivity|auto]).
    1-2: destruct (V k "DEFAULT" S eq_refl ltac:(discriminate)) as [V1 V2].
    3: destruct (V k "CHARACTER SET" S eq_refl ltac:(discriminate)) as [V1 V2].
    4: destruct (V k "COLLATE" S eq_refl ltac:(discriminate)) as [V1 V2].
    all: exists k, " "; (split; [reflexivity|split; [exact V1|split; [exact V2|right; split; [reflexivity|]]]]); try apply H. discriminate. }
  destruct W as (k & r & -> & T & Nk & [[-> Ea]|[-> Ea]]).
  - rewrite Ea, !sapp_nil_r. exact T.
  - rewrite sapp_assoc. apply trim_cat; [exact T|exact Nk|]. apply neat_space; [|exact Ea].
    rewrite <- (sapp_nil_r (item_arg i)). apply trim_app; [|exact Ea|reflexivity]. apply (sforall_imp _ _ _ arg_not_space), A.
Qed.

Definition items_ok (l : list item) : Prop := Forall item_ok l.
Lemma spaced_neat l x : items_ok l -> neat x = true -> neat (spaced l x) = true.
Proof.
  intros L X. induction L as [|i l H L IH]; [exact X|]. cbn [spaced].
  apply neat_space; [|intros Z; apply sapp_eq_nil in Z as [Z _]; exact (item_nonempty i H Z)].
  apply trim_cat; [apply item_trim, H|apply item_nonempty, H|exact IH].
Qed.
Lemma more_neat l e : items_ok l -> ending_ok e -> neat (more l e) = true.
Proof. intros L E. apply spaced_neat; [exact L|apply raw_neat, E]. Qed.
Lemma stream_trim l e : items_ok l -> ending_ok e -> trim (stream l e) = true /\ stream l e <> "".
Proof.
  intros L E. destruct L as [|i l H L]; [split; [apply ending_trim, E|apply ending_nonempty]|]. cbn [stream]. split.
  - apply trim_cat; [apply item_trim, H|apply item_nonempty, H|apply more_neat; assumption].
  - intros Z. apply sapp_eq_nil in Z as [Z _]. exact (item_nonempty i H Z).
Qed.
Lemma strip_more l e : items_ok l -> ending_ok e -> strip (more l e) = stream l e.
Proof.
  intros L E. destruct l as [|i l]; [apply raw_strip, E|]. apply (strip_space (stream (i :: l) e)), stream_trim; assumption.
Qed.
Lemma more_starts (p : ascii -> bool) l e : p " "%char = true -> p ","%char = true -> p ")"%char = true -> starts p (more l e) = true.
Proof. intros A B C. destruct l; [apply raw_starts; assumption|exact A]. Qed.
Lemma more_length l e : String.length (ending_text e) <= String.length (more l e).
Proof.
  unfold more. induction l as [|i l IH]; cbn [spaced String.length]; [apply raw_length|]. rewrite slength_app. lia.
Qed.
Lemma stream_length l e : items_ok l -> l <> [] -> String.length (ending_text e) < String.length (stream l e).
Proof.
  destruct l as [|i l]; [congruence|]. intros L _. cbn [stream]. rewrite slength_app. pose proof (more_length l e).
  pose proof (item_nonempty i (Forall_inv L)) as Q. destruct (item_text i); [congruence|]. simpl. lia.
Qed.

(** ** Optional rules *)

Inductive okind : Set := OUnsigned | ONull | ONotNull | OPrimary | ODefault | OAuto | OCharset | OCollate | OSquoted | ODquoted.
Definition orule {C} (o : okind) : rule C :=
  match o with
  | OUnsigned => lit_opt "UNSIGNED" | ONull => rnull | ONotNull => rnotnull | OPrimary => lit_opt "PRIMARY KEY"
  | ODefault => rdefault | OAuto => lit_opt "AUTO_INCREMENT" | OCharset => rcharset | OCollate => rcollate
  | OSquoted => RRe "default" (ReWithin "DEFAULT '" not_squote squote) true
  | ODquoted => RRe "default" (ReWithin "DEFAULT """ not_dquote dquote) true
  end.
Definition hit {C} (o : okind) (i : item) : option (pval C) :=
  match o, i with
  | OUnsigned, IUnsigned _ => Some (VText "UNSIGNED")
  | ONull, INull _ => Some (VText "NULL")
  | ONotNull, INotNull _ => Some (VText "NOT NULL")
  | ODefault, IDefault _ s => Some (VText s)
  | ODefault, IQuoted _ s => Some (VText (quote s))
  | OAuto, IAuto _ => Some (VText "AUTO_INCREMENT")
  | OPrimary, IPrimaryKey _ => Some (VText "PRIMARY KEY")
  | OCharset, ICharset _ s => Some (VText s)
  | OCollate, ICollate _ s => Some (VText s)
  | OSquoted, IQuoted _ s => if is_empty s then None else Some (VText s)
  | _, _ => None
  end.
Definition oname (o : okind) : string := rule_name (@orule leaf o).

(** The rules go over the items from left to right. *)
Fixpoint sim {C} (os : list okind) (l : list item) (v : pvals C) : pvals C * list item :=
  match os with
  | [] => (v, l)
  | o :: os' =>
      match l with
      | [] => (v, [])
      | i :: l' => match hit o i with
                   | Some x => sim os' l' (dset (oname o) x v)
                   | None => sim os' (i :: l') v
                   end
      end
  end.

Section Run.
  Context {C : Type}.
  Variable e : ending.
  Hypothesis He : ending_ok e.

  Lemma value_step n K i l rs o (w : pvals C) : item_ok i -> item_key i = K -> item_arg i <> "" -> items_ok l ->
    run_rules (RRe n (ReAfter K arg_char) o :: rs) (stream (i :: l) e) w = run_rules rs (stream l e) (dset n (VText (item_arg i)) w).
  Proof.
    intros I <- N L. cbn [stream]. rewrite item_parts, sapp_assoc. rewrite (step_re n _ o rs _ (VText (item_arg i)) (more l e)).
    - rewrite strip_more by assumption. reflexivity.
    - apply after_word; [symmetry; apply I|apply item_arg_chars, I|exact N|]. apply more_starts; reflexivity.
    - rewrite strip_more by assumption. apply (stream_trim l e L He).
  Qed.
  Lemma lit_step n K i o rs l (w : pvals C) : item_ok i -> item_key i = K -> item_arg i = "" -> items_ok l ->
    run_rules (RLit n K o :: rs) (stream (i :: l) e) w = run_rules rs (stream l e) (dset n (VText K) w).
  Proof.
    intros I <- N L. cbn [stream]. rewrite item_parts, N, sapp_nil_r. rewrite (step_lit n (item_key i) o rs _ (more l e)).
    - rewrite strip_more by assumption. reflexivity.
    - apply match_lit_app. symmetry. apply I.
    - rewrite strip_more by assumption. apply (stream_trim l e L He).
  Qed.

  Lemma run_hit o i x rs l (w : pvals C) : hit o i = Some x -> item_ok i -> items_ok l ->
    run_rules (orule o :: rs) (stream (i :: l) e) w = run_rules rs (stream l e) (dset (oname o) x w).
  Proof.
    intros H I L. destruct o, i; try discriminate H; cbn [hit] in H; unfold orule.
    1-4,7: injection H as <-; apply lit_step; [exact I|reflexivity|reflexivity|exact L].
    - injection H as <-. apply value_step; [exact I|reflexivity|apply I|exact L].
    - injection H as <-. apply value_step; [exact I|reflexivity|discriminate|exact L].
    - injection H as <-. apply value_step; [exact I|reflexivity|apply I|exact L].
    - injection H as <-. apply value_step; [exact I|reflexivity|apply I|exact L].
    - destruct (is_empty s) eqn:E; [discriminate|]. injection H as <-. destruct I as [K I]. cbn [stream item_text item_key item_word] in *. unfold quote.
      replace ((k ++ " " ++ String squote (s ++ String squote "")) ++ more l e) with ((k ++ " '") ++ s ++ String squote (more l e))
        by (rewrite !sapp_assoc; cbn [String.append]; rewrite sapp_assoc; reflexivity).
      rewrite (step_re "default" _ true rs _ (VText s) (more l e)).
      + rewrite strip_more by assumption. reflexivity.
      + cbn [re_match]. rewrite match_lit_app, (span_app not_squote s).
        * rewrite E. reflexivity.
        * apply (sforall_imp _ _ _ plain_not_squote), I.
        * reflexivity.
        * unfold spelled in K. change (k ++ " '") with (k ++ " " ++ "'"). rewrite <- sapp_assoc, lower_app, K. reflexivity.
      + rewrite strip_more by assumption. apply (stream_trim l e L He).
  Qed.

  Lemma item_diverge K i : item_ok i -> diverge K (item_key i) = true -> diverge K (item_text i) = true.
  Proof. intros I D. rewrite item_parts. apply (diverge_spelled K (item_key i)); [apply I|exact D]. Qed.
  Lemma skip_lit_item n K i l rs (w : pvals C) : item_ok i -> diverge K (item_key i) = true ->
    run_rules (RLit n K true :: rs) (stream (i :: l) e) w = run_rules rs (stream (i :: l) e) w.
  Proof. intros I D. apply skip_lit. cbn [stream]. apply diverge_none, item_diverge; assumption. Qed.
  Lemma skip_after_item n K p i l rs (w : pvals C) : item_ok i -> diverge K (item_key i) = true ->
    run_rules (RRe n (ReAfter K p) true :: rs) (stream (i :: l) e) w = run_rules rs (stream (i :: l) e) w.
  Proof. intros I D. apply skip_re, after_none. cbn [stream]. apply diverge_none, item_diverge; assumption. Qed.
  Lemma skip_within_item n K p q i l rs (w : pvals C) : diverge K (item_text i) = true ->
    run_rules (RRe n (ReWithin K p q) true :: rs) (stream (i :: l) e) w = run_rules rs (stream (i :: l) e) w.
  Proof. intros D. apply skip_re, within_none. cbn [stream]. apply diverge_none, D. Qed.

  Lemma diverge_arg c a k r : spelled "DEFAULT " (k ++ " ") -> Ascii.eqb (to_lower c) (to_lower a) = false ->
    diverge ("DEFAULT " ++ String c "") (k ++ " " ++ String a r) = true.
  Proof.
    intros K A. unfold spelled in K.
    rewrite <- sapp_assoc. remember (k ++ " ") as w eqn:E. clear k E.
    assert (G : forall K w, lower w = lower K -> diverge (K ++ String c "") (w ++ String a r) = true); [|apply G, K].
    clear - A. induction K as [|x K IH]; intros [|y w] H; try discriminate; cbn [String.append diverge].
    - rewrite A. reflexivity.
    - injection H as H1 H2. rewrite (IH w H2). apply orb_true_r.
  Qed.
  Lemma run_miss o i rs l (w : pvals C) : @hit C o i = None -> item_ok i ->
    run_rules (orule o :: rs) (stream (i :: l) e) w = run_rules rs (stream (i :: l) e) w.
  Proof.
    intros H I. destruct o; unfold orule, lit_opt, rnull, rnotnull, rdefault, rcharset, rcollate;
      [apply skip_lit_item|apply skip_lit_item|apply skip_lit_item|apply skip_lit_item|apply skip_after_item|apply skip_lit_item
      |apply skip_after_item|apply skip_after_item| |]; try exact I.
    1-8: destruct i; try discriminate H; reflexivity.
    - destruct i; try (apply skip_within_item, item_diverge; [exact I|reflexivity]); destruct I as [K I]; cbn [hit item_key item_word] in *.
      + apply skip_within_item. cbn [item_text]. destruct s as [|a s]; [destruct I; contradiction|]. apply (diverge_arg squote a); [exact K|].
        destruct I as (_ & P & _). cbn [sforall] in P. apply andb_true_iff in P as [P _]. revert P. clear. destruct a as [[|] [|] [|] [|] [|] [|] [|] [|]]; vm_compute; congruence.
      + destruct s; [|discriminate]. apply skip_re. cbn [re_match stream item_text]. unfold quote.
        change (k ++ " " ++ String squote ("" ++ String squote "")) with (k ++ " '" ++ "'"). rewrite <- sapp_assoc, sapp_assoc. rewrite match_lit_app; [reflexivity|].
        change (k ++ " '") with (k ++ " " ++ "'"). rewrite <- sapp_assoc, lower_app. unfold spelled in K. rewrite K. reflexivity.
    - destruct i; try (apply skip_within_item, item_diverge; [exact I|reflexivity]); destruct I as [K I]; cbn [hit item_key item_word] in *.
      + apply skip_within_item. cbn [item_text]. destruct s as [|a s]; [destruct I; contradiction|]. apply (diverge_arg dquote a); [exact K|].
        destruct I as (_ & _ & P). cbn [no_dquote_start] in P. destruct (Ascii.eqb_spec (to_lower dquote) (to_lower a)) as [Q|Q]; [|reflexivity].
        exfalso. apply P. revert Q. clear. destruct a as [[|] [|] [|] [|] [|] [|] [|] [|]]; vm_compute; congruence.
      + apply skip_within_item. cbn [item_text]. unfold quote. apply (diverge_arg dquote squote); [exact K|reflexivity].
  Qed.

  Lemma run_none o rs (w : pvals C) : run_rules (orule o :: rs) (stream [] e) w = run_rules rs (stream [] e) w.
  Proof.
    destruct e as [n|g r|a z]; [destruct o; reflexivity|destruct o; reflexivity|]. cbn [stream ending_text]. destruct He as [_ H].
    assert (D : match_lit "DEFAULT " (String a z) = None) by (apply H; clear; cbn; tauto).
    destruct o; unfold orule, lit_opt, rnull, rnotnull, rdefault, rcharset, rcollate;
      first [apply skip_lit, H; clear; cbn; tauto | apply skip_re, after_none, H; clear; cbn; tauto | apply skip_re, within_none].
    - apply (match_none_app "DEFAULT " "'"), D.
    - apply (match_none_app "DEFAULT " """"), D.
  Qed.

  Lemma run_sim os rs : forall l (w : pvals C), items_ok l ->
    run_rules (map orule os +++ rs) (stream l e) w = run_rules rs (stream (snd (sim os l w)) e) (fst (sim os l w)).
  Proof.
    induction os as [|o os IH]; intros l w L; [reflexivity|]. cbn [map List.app sim]. destruct l as [|i l].
    - rewrite run_none, (IH [] w L). destruct os; reflexivity.
    - pose proof (proj1 (Forall_cons_iff _ _ _) L) as [I L']. destruct (hit o i) as [x|] eqn:H.
      + rewrite (run_hit o i x _ l w H I L'). apply IH, L'.
      + rewrite (run_miss o i _ l w H I). apply IH, L.
  Qed.
End Run.
