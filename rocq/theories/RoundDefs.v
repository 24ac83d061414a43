(** The texts of rendered definitions: nothing in them is taken for a line comment or for an index
    prefix length. *)
From Verif Require Export RoundFk.

(** ** Line comments *)

Lemma free_dd a r : sforall no_dash a = true -> no_dd false r = true -> no_dd false (a ++ r) = true.
Proof.
  intros A R. induction a as [|c a IH]; [exact R|]. cbn [sforall] in A. apply andb_true_iff in A as [C A]. unfold no_dash in C.
  apply negb_true_iff in C. cbn [String.append no_dd]. rewrite C. apply IH, A.
Qed.
Lemma closed_dd c s r : no_dash c = true -> dashless s -> no_dd false r = true -> no_dd false (String c (s ++ String c r)) = true.
Proof.
  intros C S R. assert (N : Ascii.eqb c "-" = false) by (apply negb_true_iff, C). cbn [no_dd]. rewrite N. apply no_dd_app; [exact C|apply no_dd_dashless, S|].
  cbn [no_dd]. rewrite N. exact R.
Qed.
Lemma ticked_dd s r : dashless s -> no_dd false r = true -> no_dd false (ticked s ++ r) = true.
Proof. intros S R. rewrite ticked_append. apply closed_dd; auto. Qed.
Lemma quote_dd s r : dashless s -> no_dd false r = true -> no_dd false (quote s ++ r) = true.
Proof. intros S R. unfold quote. cbn [String.append]. rewrite sapp_assoc. apply (closed_dd squote); auto. Qed.
Lemma digit_no_dash c : is_digit c = true -> no_dash c = true.
Proof. destruct c as [[|] [|] [|] [|] [|] [|] [|] [|]]; vm_compute; congruence. Qed.
Lemma word_no_dash c : is_word c = true -> no_dash c = true.
Proof. destruct c as [[|] [|] [|] [|] [|] [|] [|] [|]]; vm_compute; congruence. Qed.
Definition item_dashless (i : item) : Prop := no_dd false (item_arg i) = true.
Lemma item_word_chars p i : (forall c, p c = p (to_lower c)) -> item_ok i -> sforall p (item_key i) = true -> sforall p (item_word i) = true.
Proof. intros P [S _] K. rewrite (caseless p _ (item_key i) P); assumption. Qed.
Lemma item_dd i r : item_ok i -> item_dashless i -> starts no_dash r = true -> no_dd false r = true -> no_dd false (item_text i ++ r) = true.
Proof.
  intros O D S R. rewrite item_parts, sapp_assoc. apply free_dd; [apply (item_word_chars no_dash); [letters|exact O|destruct i; reflexivity]|].
  apply no_dd_app; assumption.
Qed.
Lemma spaced_dd l r : items_ok l -> Forall item_dashless l -> starts no_dash r = true -> no_dd false r = true -> no_dd false (spaced l r) = true.
Proof.
  intros O D S R. induction O as [|i l I O IH]; [exact R|]. inversion D as [|? ? Di Dl]; subst. cbn [spaced no_dd Ascii.eqb Bool.eqb].
  apply item_dd; [exact I|exact Di|destruct l; [exact S|reflexivity]|apply IH, Dl].
Qed.

(** ** Prefix lengths *)

Lemma plain_solid c : plain_char c = true -> solid c = true.
Proof. unfold plain_char, solid. rewrite !negb_true_iff, !orb_false_iff. tauto. Qed.
Lemma name_solid c : name_ok_char c = true -> solid c = true.
Proof. intros H. apply plain_solid, name_ok_plain, H. Qed.
Lemma ticked_solid s : sforall name_ok_char s = true -> sforall solid (ticked s) = true.
Proof. intros H. unfold ticked. cbn [sforall]. rewrite sforall_app, (sforall_imp _ _ _ name_solid H). reflexivity. Qed.
Lemma quote_solid s : sforall plain_char s = true -> sforall solid (quote s) = true.
Proof. intros H. unfold quote. cbn [sforall]. rewrite sforall_app, (sforall_imp _ _ _ plain_solid H). reflexivity. Qed.
Lemma digit_solid c : is_digit c = true -> solid c = true.
Proof. intros H. apply plain_solid, digit_plain, H. Qed.
Lemma word_solid c : is_word c = true -> solid c = true.
Proof. destruct c as [[|] [|] [|] [|] [|] [|] [|] [|]]; vm_compute; congruence. Qed.
Lemma solid_open s : sforall solid s = true -> has_char "(" s = false.
Proof.
  intros H. apply has_char_forall. apply (sforall_imp solid); [|exact H]. intros c. unfold solid.
  rewrite !negb_true_iff, orb_false_iff, Ascii.eqb_sym. tauto.
Qed.
Lemma arg_solid c : arg_char c = true -> solid c = true.
Proof. destruct c as [[|] [|] [|] [|] [|] [|] [|] [|]]; vm_compute; congruence. Qed.
Lemma item_solid i : item_ok i -> sforall solid (item_text i) = true.
Proof.
  intros O. rewrite item_parts, sforall_app. apply andb_true_iff. split; [apply (item_word_chars solid); [letters|exact O|destruct i; reflexivity]|].
  destruct O as [_ O]. destruct i; cbn [item_arg]; try reflexivity.
  - apply (sforall_imp _ _ _ plain_solid), O.
  - apply quote_solid, O.
  - apply (sforall_imp _ _ _ arg_solid), O.
  - apply (sforall_imp _ _ _ arg_solid), O.
Qed.
Lemma spaced_drop l r : items_ok l -> no_drop r -> no_drop (spaced l r).
Proof.
  intros O R. induction O as [|i l I O IH]; [exact R|]. cbn [spaced]. apply no_drop_char; [reflexivity|reflexivity|].
  apply no_drop_app; [apply item_solid, I|exact IH].
Qed.
(** A parenthesis or a comma, a text without either and a character that ends a name. *)
Lemma open_drop d u c r : Ascii.eqb d "(" || Ascii.eqb d "," = true -> sforall not_space u = true -> u <> "" -> sforall solid u = true -> stop c = true ->
  no_drop (String c r) -> no_drop (String d (u ++ String c r)).
Proof.
  intros D A N B C R. apply (no_drop_open d "" u c r D eq_refl).
  - destruct u; [contradiction|]. cbn [sforall] in A. apply andb_true_iff in A. apply A.
  - exact N.
  - apply solid_open, B.
  - exact C.
  - cbn [String.append]. apply no_drop_app; assumption.
Qed.
Lemma close_drop r : no_drop r -> no_drop (String ")" r).
Proof. intros R. apply no_drop_char; [reflexivity|reflexivity|exact R]. Qed.
Lemma digits_dropped n : digits n -> sforall not_space n = true /\ n <> "" /\ sforall solid n = true.
Proof.
  intros [N D]. split; [|split; [exact N|apply (sforall_imp _ _ _ digit_solid), D]].
  apply (sforall_imp _ _ _ plain_not_space), (sforall_imp _ _ _ digit_plain), D.
Qed.
Lemma length_drop f r : length_ok f -> no_drop r -> no_drop (length_text f ++ r).
Proof.
  destruct f as [|n|n m]; cbn [length_ok length_text]; intros H R; [exact R| |].
  - destruct (digits_dropped n H) as (A & B & C). cbn [String.append]. rewrite sapp_assoc. apply open_drop; auto. apply close_drop, R.
  - destruct H as [Hn Hm]. destruct (digits_dropped n Hn) as (A & B & C), (digits_dropped m Hm) as (A' & B' & C').
    cbn [String.append]. rewrite !sapp_assoc. cbn [String.append]. rewrite sapp_assoc. apply open_drop; auto. apply open_drop; auto. apply close_drop, R.
Qed.
Lemma ticked_dropped n : clean_name n -> sforall not_space (ticked n) = true /\ ticked n <> "" /\ sforall solid (ticked n) = true.
Proof.
  intros C. split; [apply ticked_not_space, clean_chars, C|split; [discriminate|apply ticked_solid, clean_chars, C]].
Qed.
(** ** Definitions *)

Record def_text (d : string) : Prop := {
  dt_trim : trim d = true;
  dt_dd : forall r, starts no_dash r = true -> no_dd false r = true -> no_dd false (d ++ r) = true;
  dt_drop : forall r, no_drop r -> no_drop (d ++ r);
  dt_open : forall w r, sforall is_space w = true -> prefix_length (w ++ d ++ r) = None;
  dt_some : d <> ""
}.
Lemma first_word w u c r : sforall is_space w = true -> sforall not_space u = true -> u <> "" -> sforall solid u = true ->
  stop c = true \/ c = "("%char /\ starts (fun d => negb (is_digit d)) r = true -> prefix_length (w ++ u ++ String c r) = None.
Proof.
  intros W A B C D. apply open_none; [exact W| |exact B|apply solid_open, C|exact D].
  destruct u as [|d u]; [contradiction|]. cbn [sforall] in A. apply andb_true_iff in A. apply A.
Qed.

Lemma quote_dashless s : dashless s -> no_dd false (quote s) = true.
Proof. intros D. rewrite <- (sapp_nil_r (quote s)). apply quote_dd; [exact D|reflexivity]. Qed.
Lemma flag_dashless mk K b l : (forall k, item_arg (mk k) = "") -> flag mk K b l -> Forall item_dashless l.
Proof. intros M [|k _]; [constructor|]. constructor; [|constructor]. unfold item_dashless. rewrite M. reflexivity. Qed.
Lemma nullness_dashless n l : nullness n l -> Forall item_dashless l.
Proof. intros [|k _|k _]; (constructor; [reflexivity|constructor]) || constructor. Qed.
Lemma null_dashless s : spelled "NULL" s -> no_dd false s = true.
Proof.
  intros S. rewrite <- (sapp_nil_r s). apply free_dd; [|reflexivity]. rewrite (caseless no_dash s "NULL"); [reflexivity|letters|exact S].
Qed.
Lemma defaults_dashless d l : defaults d l -> Forall item_dashless l.
Proof.
  intros [|k s _ N|k s _ (_ & [_ D] & _) _|k s _ [_ D]]; [constructor| | |]; (constructor; [|constructor]); unfold item_dashless; cbn [item_arg].
  - apply null_dashless, N.
  - apply no_dd_dashless, D.
  - apply quote_dashless, D.
Qed.
Lemma argument_dashless mk K x l : (forall k s, item_arg (mk k s) = s) -> argument mk K x l -> Forall item_dashless l.
Proof.
  intros M [|k s _ (_ & [_ D] & _)|k s _ _ [_ D]]; [constructor| |]; (constructor; [|constructor]); unfold item_dashless; rewrite M.
  - apply no_dd_dashless, D.
  - apply quote_dashless, D.
Qed.

Lemma length_dd f r : length_ok f -> no_dd false r = true -> no_dd false (length_text f ++ r) = true.
Proof.
  destruct f as [|n|n m]; cbn [length_ok length_text]; intros H R; [exact R| |]; rewrite !sapp_assoc; (apply (free_dd "("); [reflexivity|]).
  - apply free_dd; [apply (sforall_imp _ _ _ digit_no_dash), H|]. exact R.
  - destruct H as [[_ Hn] [_ Hm]]. apply free_dd; [apply (sforall_imp _ _ _ digit_no_dash), Hn|]. apply (free_dd ","); [reflexivity|].
    apply free_dd; [apply (sforall_imp _ _ _ digit_no_dash), Hm|]. exact R.
Qed.
Lemma name_dropped tick n : clean_name n ->
  (sforall not_space (name_text tick n) = true /\ name_text tick n <> "" /\ sforall solid (name_text tick n) = true)
  /\ forall r, starts no_dash r = true -> no_dd false r = true -> no_dd false (name_text tick n ++ r) = true.
Proof.
  intros C. destruct tick; cbn [name_text]; [split; [apply ticked_dropped, C|intros r _ R; apply ticked_dd; [apply C|exact R]]|].
  destruct C as (N & P & D). split; [split; [|split; [exact N|apply (sforall_imp _ _ _ name_solid), P]]|].
  - apply (sforall_imp name_ok_char); [|exact P]. intros c H. apply plain_not_space, name_ok_plain, H.
  - intros r S R. apply no_dd_app; [exact S|apply no_dd_dashless, D|exact R].
Qed.
Lemma written_def m s : written m s -> def_text s.
Proof.
  intros [tick w f server lu ln ld la lcs lco d cs co Hn Ht Hw Hf Fu Fn D _ Fa Hcs _ Hco _ _ _].
  apply readable_facts in Ht. pose proof (word_typed _ _ _ _ _ Ht Hw) as Ty. destruct (ty_word _ _ _ _ Ty) as [Wn Ww].
  destruct (name_dropped tick _ (proj1 Hn)) as [(A & B & C) E].
  pose proof (arranged_items server _ _ _ _ _ _ _ _ _ _ _ _ Fu Fn D Fa Hcs Hco) as O.
  assert (G : Forall item_dashless (arranged server lu ln ld la lcs lco)).
  { apply (flag_dashless IUnsigned) in Fu; [|reflexivity]. apply nullness_dashless in Fn. apply defaults_dashless in D.
    apply (flag_dashless IAuto) in Fa; [|reflexivity]. apply (argument_dashless ICharset) in Hcs; [|reflexivity]. apply (argument_dashless ICollate) in Hco; [|reflexivity].
    unfold arranged. destruct server; rewrite !Forall_app; auto 10. }
  set (l := arranged server lu ln ld la lcs lco) in *. unfold column_definition. set (nm := name_text tick (m_name m)) in *.
  assert (Q : forall z, (nm ++ " " ++ w ++ length_text f ++ items_text l) ++ z = nm ++ String " " (w ++ length_text f ++ spaced l z)).
  { intros z. repeat (cbn [String.append]; rewrite ?sapp_assoc). rewrite spaced_text. reflexivity. }
  constructor.
  - rewrite <- (sapp_nil_r (nm ++ _)), Q. apply trim_app; [exact A|exact B|].
    assert (N : w ++ length_text f ++ spaced l "" <> "") by (intros Z; apply sapp_eq_nil in Z as [Z _]; contradiction).
    apply neat_space; [|exact N]. apply trim_app; [apply (sforall_imp _ _ _ word_not_space), Ww|exact Wn|].
    apply neat_app'; [apply (length_not_space f Hf)|apply spaced_neat; [exact O|reflexivity]].
  - intros r S R. rewrite Q. apply E; [reflexivity|]. apply (free_dd " "); [reflexivity|].
    apply free_dd; [apply (sforall_imp _ _ _ word_no_dash), Ww|]. apply length_dd; [exact Hf|]. apply spaced_dd; assumption.
  - intros r Hr. rewrite Q. apply no_drop_app; [exact C|]. apply no_drop_char; [reflexivity|reflexivity|].
    apply no_drop_app; [apply (sforall_imp _ _ _ word_solid), Ww|]. apply length_drop; [exact Hf|]. apply spaced_drop; assumption.
  - intros v r V. rewrite Q. apply first_word; auto.
  - intros Z. apply sapp_eq_nil in Z as [Z _]. contradiction.
Qed.
Lemma column_def c : readable_column c -> def_text (column_str c).
Proof. intros R. destruct (rc_length c R) as (f & F & _). apply (written_def (column_meaning c f)), (column_written c f R F). Qed.

(** *** Keys *)

Lemma spelled_free K k : spelled K k -> trim K = true -> K <> "" -> sforall no_dash K = true -> sforall solid K = true ->
  trim k = true /\ k <> "" /\ sforall no_dash k = true /\ sforall solid k = true.
Proof.
  intros S T N D L. split; [rewrite (trim_caseless k K S); exact T|]. split; [apply (lower_nonempty k K S N)|].
  split; [rewrite (caseless no_dash k K); [exact D|letters|exact S]|rewrite (caseless solid k K); [exact L|letters|exact S]].
Qed.
(** The words before the columns of a key: their first word, and the rest. *)
Definition words_ok (w : string) : Prop :=
  trim w = true /\ w <> "" /\ sforall solid w = true
  /\ (forall r, starts no_dash r = true -> no_dd false r = true -> no_dd false (w ++ r) = true)
  /\ exists u x, w = u ++ x /\ sforall not_space u = true /\ u <> "" /\ (x = "" \/ exists y, x = String " " y).
Lemma words_two K K' w : spelled (K ++ String " " K') w -> K <> "" -> sforall not_space K = true -> trim (K ++ String " " K') = true ->
  sforall no_dash (K ++ String " " K') = true -> sforall solid (K ++ String " " K') = true -> words_ok w.
Proof.
  intros S N A T D L. destruct (spelled_free _ _ S T) as (T' & N' & D' & L'); auto; [intros Z; apply sapp_eq_nil in Z as [Z _]; contradiction|].
  destruct (split_word K K' w S) as (a & b & -> & Sa & Sb). split; [exact T'|split; [exact N'|split; [exact L'|split]]].
  - intros r _ R. apply free_dd; assumption.
  - exists a, (String " " b). split; [reflexivity|]. split; [rewrite (caseless not_space a K); [exact A|letters|exact Sa]|]. split; [apply (lower_nonempty a K Sa N)|eauto].
Qed.
Lemma words_one K w : spelled K w -> K <> "" -> sforall not_space K = true -> sforall no_dash K = true -> sforall solid K = true -> words_ok w.
Proof.
  intros S N A D L. assert (T : trim K = true) by (rewrite <- (sapp_nil_r K); apply trim_app; auto).
  destruct (spelled_free _ _ S T N D L) as (T' & N' & D' & L'). split; [exact T'|split; [exact N'|split; [exact L'|split]]].
  - intros r _ R. apply free_dd; assumption.
  - exists w, "". split; [symmetry; apply sapp_nil_r|]. split; [rewrite (caseless not_space w K); [exact A|letters|exact S]|]. auto.
Qed.
Lemma words_name w tick n : words_ok w -> ident_ok (tick, n) -> words_ok (w ++ " " ++ name_text tick n).
Proof.
  intros (T & N & L & D & u & x & -> & U1 & U2 & X) O. destruct (name_dropped tick n (proj1 O)) as [(A & B & C) E]. pose proof (ident_trim _ O) as It. unfold ident_text in It; cbn [fst snd] in It.
  split; [|split; [|split; [|split]]].
  - apply trim_cat; [exact T|exact N|]. apply neat_space; [exact It|exact B].
  - intros Z. apply sapp_eq_nil in Z as [Z _]. contradiction.
  - rewrite !sforall_app in *. rewrite L, C. reflexivity.
  - intros r R1 R2. rewrite sapp_assoc. apply D; [reflexivity|]. rewrite sapp_assoc. apply (free_dd " "); [reflexivity|]. apply E; assumption.
  - exists u, (x ++ " " ++ name_text tick n). split; [apply sapp_assoc|]. split; [exact U1|split; [exact U2|]]. right. destruct X as [->|[y ->]]; eexists; reflexivity.
Qed.
Lemma named_words i t w : named_key i t w -> words_ok w.
Proof.
  assert (U2 : forall w, spelled_in ["UNIQUE KEY"; "UNIQUE INDEX"] w -> words_ok w).
  { intros v (K & [<-|[<-|[]]] & S); [apply (words_two "UNIQUE" "KEY")|apply (words_two "UNIQUE" "INDEX")]; (exact S || discriminate || reflexivity). }
  assert (U1 : forall w, spelled "UNIQUE" w -> words_ok w) by (intros v S; apply (words_one "UNIQUE"); (exact S || discriminate || reflexivity)).
  intros [v S _|v (K & [<-|I] & S) _|v tick S O|v tick S O].
  - apply (words_two "PRIMARY" "KEY"); (exact S || discriminate || reflexivity).
  - apply U1, S.
  - apply U2. exists K. auto.
  - apply words_name; [|exact O]. destruct S as [S|[S _]]; auto.
  - apply words_name; [|exact O]. destruct S as (K & [<-|[<-|[]]] & S); [apply (words_one "KEY")|apply (words_one "INDEX")]; (exact S || discriminate || reflexivity).
Qed.
Lemma ident_dd x r : ident_ok x -> starts no_dash r = true -> no_dd false r = true -> no_dd false (ident_text x ++ r) = true.
Proof. intros O. apply name_dropped, O. Qed.
Lemma idents_dd sp l r : Forall ident_ok l -> starts no_dash r = true -> no_dd false r = true -> no_dd false (idents_text sp l ++ r) = true.
Proof.
  intros F S R. induction F as [|x l X F IH]; [exact R|]. destruct l as [|y l]; [rewrite idents_one; apply ident_dd; assumption|].
  rewrite idents_cons, sapp_assoc. apply ident_dd; [exact X|reflexivity|]. cbn [String.append]. apply (free_dd ","); [reflexivity|].
  rewrite sapp_assoc. apply free_dd; [destruct sp; reflexivity|exact IH].
Qed.
Lemma ident_dropped x : ident_ok x -> sforall not_space (ident_text x) = true /\ ident_text x <> "" /\ sforall solid (ident_text x) = true.
Proof. intros O. apply (name_dropped (fst x)), O. Qed.
Lemma ident_open d v x c r : Ascii.eqb d "(" || Ascii.eqb d "," = true -> sforall is_space v = true -> ident_ok x -> stop c = true -> no_drop (String c r) ->
  no_drop (String d (v ++ ident_text x ++ String c r)).
Proof.
  intros D V X C R. destruct (ident_dropped x X) as (A & B & E). apply no_drop_open; auto.
  - destruct (ident_text x); [contradiction|]. cbn [sforall] in A. apply andb_true_iff in A. apply A.
  - apply solid_open, E.
  - apply no_drop_app; [|apply no_drop_app; assumption]. apply (sforall_imp is_space); [|exact V]. intros z. clear. destruct z as [[|] [|] [|] [|] [|] [|] [|] [|]]; vm_compute; congruence.
Qed.
Lemma idents_drop sp l r : l <> [] -> Forall ident_ok l -> no_drop r -> forall d v, Ascii.eqb d "(" || Ascii.eqb d "," = true -> sforall is_space v = true ->
  no_drop (String d (v ++ idents_text sp l ++ String ")" r)).
Proof.
  intros N F R. induction F as [|x l X F IH]; intros d v D V; [contradiction|]. destruct l as [|y l].
  - rewrite idents_one. apply ident_open; auto. apply close_drop, R.
  - rewrite idents_cons, sapp_assoc. cbn [String.append]. apply ident_open; auto. rewrite sapp_assoc. apply IH; [discriminate|reflexivity|destruct sp; reflexivity].
Qed.
Lemma key_def i s : key_written i s -> def_text s.
Proof.
  intros [w g sp l _ N F K]. destruct (named_words _ _ _ K) as (T & Wn & L & D & u & x & Q & U1 & U2 & X). unfold key_columns. constructor.
  - apply trim_cat; [exact T|exact Wn|].
    assert (G : trim ("(" ++ idents_text sp l ++ ")") = true) by (apply trim_app; [reflexivity|discriminate|]; apply trim_neat, idents_trim; auto).
    destruct g; cbn [gap_text String.append]; [apply neat_space; [exact G|discriminate]|apply trim_neat, G].
  - intros r S R. rewrite !sapp_assoc. apply D; [destruct g; reflexivity|]. apply free_dd; [destruct g; reflexivity|]. apply (free_dd "("); [reflexivity|].
    apply idents_dd; [exact F|reflexivity|]. apply (free_dd ")"); [reflexivity|exact R].
  - intros r R. rewrite !sapp_assoc. apply no_drop_app; [exact L|]. apply no_drop_app; [destruct g; reflexivity|]. cbn [String.append].
    apply (idents_drop sp l r N F R "("%char ""); reflexivity.
  - intros v r V. rewrite Q in *. rewrite !sapp_assoc. rewrite sforall_app in L. apply andb_true_iff in L as [L _].
    destruct X as [->|[y ->]]; [|cbn [String.append]; apply first_word; auto]. cbn [String.append]. destruct g; cbn [gap_text String.append]; [apply first_word; auto|].
    apply first_word; auto. right. split; [reflexivity|]. destruct (idents_start sp l N F) as (c & z & -> & Dg). cbn [String.append starts]. rewrite Dg. reflexivity.
  - intros Z. apply sapp_eq_nil in Z as [Z _]. contradiction.
Qed.
Lemma index_def i : readable_index i -> def_text (index_str i).
Proof. intros R. apply (key_def i), index_written, R. Qed.

(** *** Foreign keys *)

Lemma action_facts K x a : K = "ON DELETE" \/ K = "ON UPDATE" -> action_written K x a ->
  neat a = true /\ sforall no_dash a = true /\ sforall solid a = true.
Proof.
  intros HK [|y k Y S]; [repeat split|]. destruct (spelled_free _ _ S) as (T & N & D & L); [| | | |split; [apply neat_space; assumption|cbn [sforall String.append]; rewrite D, L; auto]];
    clear - HK Y; unfold allowed_actions in Y; cbn [In] in Y; destruct HK as [->| ->]; repeat (destruct Y as [<-|Y]; [reflexivity || discriminate|]); contradiction.
Qed.
Lemma fk_written_def k s : fk_written k s -> def_text s.
Proof.
  intros [k1 k2 k3 tn tc tt tf g a1 a2 S1 S2 S3 N C T F X Y].
  destruct (action_facts "ON DELETE" _ a1 (or_introl eq_refl) X) as (X1 & X2 & X3), (action_facts "ON UPDATE" _ a2 (or_intror eq_refl) Y) as (Y1 & Y2 & Y3).
  destruct (spelled_free "CONSTRAINT" k1 S1) as (A1 & A2 & A3 & A4); [reflexivity|discriminate|reflexivity|reflexivity|].
  destruct (spelled_free "FOREIGN KEY" k2 S2) as (B1 & B2 & B3 & B4); [reflexivity|discriminate|reflexivity|reflexivity|].
  destruct (spelled_free "REFERENCES" k3 S3) as (C1 & C2 & C3 & C4); [reflexivity|discriminate|reflexivity|reflexivity|].
  destruct (name_dropped tn _ (proj1 N)) as [(N1 & N2 & N3) N4], (name_dropped tc _ (proj1 C)) as [(M1 & M2 & M3) M4].
  destruct (name_dropped tt _ (proj1 T)) as [(T1 & T2 & T3) T4], (name_dropped tf _ (proj1 F)) as [(F1 & F2 & F3) F4].
  constructor.
  - apply trim_cat; [exact A1|exact A2|]. apply (neat_space (name_text tn (k_name k) ++ _)).
    2:{ intros Z. apply sapp_eq_nil in Z as [Z _]. contradiction. }
    apply trim_app; [exact N1|exact N2|]. apply (neat_space (k2 ++ _)).
    2:{ intros Z. apply sapp_eq_nil in Z as [Z _]. contradiction. }
    apply trim_cat; [exact B1|exact B2|]. apply (neat_cat " ("); [reflexivity|]. apply neat_app'; [exact M1|].
    apply (neat_cat ")" (String " " _)); [reflexivity|]. apply (neat_space (k3 ++ _)).
    2:{ intros Z. apply sapp_eq_nil in Z as [Z _]. contradiction. }
    apply trim_cat; [exact C1|exact C2|]. apply (neat_space (name_text tt (k_ftable k) ++ _)).
    2:{ intros Z. apply sapp_eq_nil in Z as [Z _]. contradiction. }
    apply trim_app; [exact T1|exact T2|].
    assert (G : trim ("(" ++ name_text tf (k_fcolumn k) ++ ")" ++ a1 ++ a2) = true).
    { apply trim_app; [reflexivity|discriminate|]. apply neat_app'; [exact F1|]. apply (neat_cat ")"); [reflexivity|]. apply neat_cat; assumption. }
    destruct g; [apply (neat_space ("(" ++ _)); [exact G|discriminate]|apply trim_neat, G].
  - intros r _ R. rewrite !sapp_assoc. apply free_dd; [exact A3|]. apply (free_dd " "); [reflexivity|]. apply N4; [reflexivity|].
    apply (free_dd " "); [reflexivity|]. apply free_dd; [exact B3|]. apply (free_dd " ("); [reflexivity|]. apply M4; [reflexivity|].
    apply (free_dd ") "); [reflexivity|]. apply free_dd; [exact C3|]. apply (free_dd " "); [reflexivity|]. apply T4; [destruct g; reflexivity|].
    apply free_dd; [destruct g; reflexivity|]. apply (free_dd "("); [reflexivity|]. apply F4; [reflexivity|]. apply (free_dd ")"); [reflexivity|].
    apply free_dd; [exact X2|]. apply free_dd; [exact Y2|exact R].
  - intros r R. rewrite !sapp_assoc. apply no_drop_app; [exact A4|]. apply (no_drop_app " "); [reflexivity|]. apply no_drop_app; [exact N3|].
    apply (no_drop_app " "); [reflexivity|]. apply no_drop_app; [exact B4|]. apply (no_drop_app " " (String "(" _)); [reflexivity|].
    apply (open_drop "(" _ ")"); auto. apply (no_drop_app ") "); [reflexivity|]. apply no_drop_app; [exact C4|]. apply (no_drop_app " "); [reflexivity|].
    apply no_drop_app; [exact T3|]. apply no_drop_app; [destruct g; reflexivity|]. apply (open_drop "(" _ ")"); auto.
    apply (no_drop_app ")"); [reflexivity|]. apply no_drop_app; [exact X3|]. apply no_drop_app; [exact Y3|exact R].
  - intros v r V. rewrite sapp_assoc. apply first_word; auto. rewrite (caseless not_space k1 "CONSTRAINT"); [reflexivity|letters|exact S1].
  - intros Z. apply sapp_eq_nil in Z as [Z _]. contradiction.
Qed.
Lemma fk_def k : readable_fk k -> def_text (constraint_str k).
Proof. intros R. apply (fk_written_def k), constraint_written, R. Qed.
