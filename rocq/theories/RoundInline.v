(** Columns whose definition ends in PRIMARY KEY. *)
From Verif Require Export WriteCreate SpecInline.

(** ** Choosing among the classes *)

Lemma best_among {C} (classes : list (pclass C)) s x (P : C -> Prop) :
  Forall (fun c => beaten (String.length x) s c \/ exists d, c s = Ok (Some d, x) /\ P d) classes ->
  Exists (fun c => exists d, c s = Ok (Some d, x)) classes ->
  exists d, best_child classes s None = Ok (Some (d, x)) /\ P d.
Proof.
  intros F Ex.
  (* once the best is reached it stays *)
  assert (K : forall l d, Forall (fun c => beaten (String.length x) s c \/ exists d, c s = Ok (Some d, x) /\ P d) l ->
    best_child l s (Some (d, x)) = Ok (Some (d, x))).
  { intros l d G. apply best_keep. eapply Forall_impl; [|exact G]. intros c [B|(d' & B & _)]; [apply beaten_tied, B|]. exists (Some d'), x. auto. }
  assert (G : forall b, (forall d r, b = Some (d, r) -> String.length x < String.length r) -> exists d, best_child classes s b = Ok (Some (d, x)) /\ P d);
    [|apply G; discriminate].
  revert F. induction Ex as [c l (d & E)|c l Ex IH]; intros F b B; inversion F as [|? ? H F']; subst; cbn [best_child].
  - destruct H as [(m & r & E' & H)|(d' & E' & Pd)]; rewrite E in E'; injection E' as <-; subst.
    + destruct H as [H|H]; [discriminate|lia].
    + rewrite E. cbn [bind]. exists d. split; [|exact Pd]. destruct b as [[db rb]|]; [|apply K, F'].
      specialize (B db rb eq_refl). apply Nat.ltb_lt in B. rewrite B. apply K, F'.
  - destruct H as [(m & r & E' & H)|(d' & E' & Pd)]; rewrite E'; cbn [bind].
    + destruct m as [m|]; [|apply (IH F'), B]. destruct H as [H|H]; [discriminate|]. apply (IH F'). intros d0 r0 E0.
      destruct b as [[db rb]|]; [|injection E0 as <- <-; lia].
      destruct (Nat.ltb (String.length r) (String.length rb)); injection E0 as <- <-; [lia|]. apply (B db rb eq_refl).
    + exists d'. split; [|exact Pd]. destruct b as [[db rb]|]; [|apply K, F']. specialize (B db rb eq_refl). apply Nat.ltb_lt in B. rewrite B. apply K, F'.
Qed.

(** ** Attributes before PRIMARY KEY *)

Lemma sim_nil {C} os (v : pvals C) : sim os [] v = (v, []).
Proof. destruct os; reflexivity. Qed.
Lemma sim_keep {C} os x : Forall (fun o => @hit C o x = None) os -> forall l (v : pvals C),
  sim os (l +++ [x]) v = (fst (sim os l v), snd (sim os l v) +++ [x]).
Proof.
  induction 1 as [|o os H F IH]; intros l v; [reflexivity|]. destruct l as [|i l]; cbn [List.app sim].
  - rewrite H. pose proof (IH [] v) as Q. cbn [List.app] in Q. rewrite Q, sim_nil. reflexivity.
  - destruct (hit o i); [apply IH|apply (IH (i :: l))].
Qed.
Lemma sim_name {C} os : forall l (v : pvals C), vtext "name" (fst (sim os l v)) = vtext "name" v.
Proof.
  induction os as [|o os IH]; intros l v; [reflexivity|]. cbn [sim]. destruct l as [|i l]; [reflexivity|].
  destruct (hit o i) as [x|]; [|apply IH]. rewrite IH. unfold vtext. rewrite dget_dset. destruct o; reflexivity.
Qed.
Lemma spaced_length l r : String.length r <= String.length (spaced l r).
Proof. induction l as [|i l IH]; [cbn; lia|]. cbn [spaced String.length]. rewrite slength_app. lia. Qed.

Section Inline.
  Variables (tick : bool) (name w : string) (f : length_form) (items : list item) (k : string) (e : ending).
  Notation nm := (name_text tick name).
  Notation pk := (IPrimaryKey k).
  Notation text := (col_text nm w f (items +++ [pk]) e).
  Hypothesis Hname : nm <> "" /\ sforall name_char nm = true.
  Hypothesis Hstrip : strip_char bquote nm = name.
  Hypothesis Hw : w <> "" /\ sforall is_word w = true.
  Hypothesis Hfk : upper w <> "FOREIGN".
  Hypothesis Hf : length_ok f.
  Hypothesis Hitems : items_ok items.
  Hypothesis Hk : spelled "PRIMARY KEY" k.
  Hypothesis He : ending_ok e.
  Definition tail : string := k ++ ending_raw e.
  Notation L := (String.length tail).

  Lemma pk_ok : item_ok pk.
  Proof. split; [exact Hk|exact I]. Qed.
  Lemma all_ok : items_ok (items +++ [pk]).
  Proof. apply Forall_app. split; [exact Hitems|]. constructor; [apply pk_ok|constructor]. Qed.
  Lemma left_tail m : items_ok m -> left_of e (m +++ [pk]) = tail /\ m = [] \/ L < String.length (left_of e (m +++ [pk])).
  Proof.
    intros M. destruct m as [|i m]; [left; split; reflexivity|right]. cbn [List.app left_of stream]. unfold more. rewrite spaced_app, slength_app.
    pose proof (spaced_length m (spaced [pk] (ending_raw e))) as S1. cbn [spaced item_text String.length] in S1. cbn [spaced item_text]. unfold tail. lia.
  Qed.
  Lemma more_tail : L < String.length (more (items +++ [pk]) e).
  Proof.
    unfold more. rewrite spaced_app. pose proof (spaced_length items (spaced [pk] (ending_raw e))) as S1. cbn [spaced item_text String.length] in S1. cbn [spaced item_text]. unfold tail. lia.
  Qed.
  Lemma inline_trim : trim text = true.
  Proof. apply col_trim; first [assumption|apply all_ok]. Qed.

  Definition fits_tail (c : pclass def) : Prop :=
    beaten L text c \/ exists d, c text = Ok (Some d, tail) /\ exists p, d = DefCol p /\ p_name p = name.
  Definition takes_tail (c : pclass def) : Prop := exists d, c text = Ok (Some d, tail).
  Definition named (process : pvals leaf -> pcol) : Prop := forall v, p_name (process v) = extract_name v.

  Lemma fits_none rules process r : run_rules rules text [] = Ok (None, r) -> fits_tail (child_of rules process DefCol).
  Proof. intros R. left. eapply class_tied_none; [apply inline_trim|exact R]. Qed.
  Lemma fits_long rules process v r : run_rules rules text [] = Ok (Some v, r) -> L < String.length r -> fits_tail (child_of rules process DefCol).
  Proof. intros R G. left. eapply class_tied; [apply inline_trim|exact R|lia]. Qed.
  Lemma fits_sim rules process v m : named process -> run_rules rules text [] = Ok (Some (comma_vals e (m +++ [pk]) v), left_of e (m +++ [pk])) ->
    items_ok m -> vtext "name" v = nm -> fits_tail (child_of rules process DefCol) /\ (m = [] -> takes_tail (child_of rules process DefCol)).
  Proof.
    intros Np R M V. assert (E : comma_vals e (m +++ [pk]) v = v) by (destruct m; reflexivity). rewrite E in R.
    split.
    - destruct (left_tail m M) as [[T _]|G]; [|eapply fits_long; eauto]. right. rewrite T in R. exists (DefCol (process v)). split; [apply class_run; [apply inline_trim|exact R]|].
      exists (process v). split; [reflexivity|]. rewrite Np. unfold extract_name. rewrite V. exact Hstrip.
    - intros ->. exists (DefCol (process v)). apply class_run; [apply inline_trim|exact R].
  Qed.
  (** Classes that do not know PRIMARY KEY. *)
  Lemma fits_class rules process os v : named process -> Forall (fun o => @hit leaf o pk = None) os -> vtext "name" v = nm ->
    run_rules rules text [] = Ok (Some (comma_vals e (snd (sim os (items +++ [pk]) v)) (fst (sim os (items +++ [pk]) v))), left_of e (snd (sim os (items +++ [pk]) v))) ->
    fits_tail (child_of rules process DefCol) /\ (snd (sim os items v) = [] -> takes_tail (child_of rules process DefCol)).
  Proof.
    intros Np F V R. rewrite (sim_keep os pk F) in R. cbn [fst snd] in R.
    apply (fits_sim rules process (fst (sim os items v)) (snd (sim os items v))); [exact Np|exact R|apply sim_ok, Hitems|]. rewrite sim_name. exact V.
  Qed.
  Lemma others_fit : nameable tick name f items -> Forall fits_tail [primary_class; key_class; unique_class; foreign_class; bare_class].
  Proof.
    intros [C N]. eapply Forall_impl; [|apply (name_beaten tick name L w (length_text f ++ more (items +++ [pk]) e) C)].
    - intros c B. left. exact B.
    - intros E. apply (N E).
    - intros E T. destruct (N E) as [_ U]. destruct (prefix "UNIQUE" (upper name)) eqn:P; [|apply unique_other; assumption]. destruct (U eq_refl) as [Nf Ni].
      apply unique_beaten; try assumption; [apply (sforall_imp _ _ _ name_ok_name), C|apply all_ok|destruct items; discriminate|].
      destruct (left_tail items Hitems) as [[_ Z]|Z]; [contradiction|]. destruct items as [|i l]; [contradiction|]. exact Z.
    - exact Hw.
    - destruct f; [|reflexivity..]. apply more_starts; reflexivity.
    - left. exact Hfk.
    - apply rest_neat; first [assumption|apply all_ok].
  Qed.
  Lemma bare_fit rules process os : f <> NoLength -> rules = rname :: rtype :: map orule os +++ [rcomma] -> fits_tail (child_of rules process DefCol).
  Proof.
    intros N ->. eapply fits_long; [apply bare_length; first [assumption|apply all_ok]|]. rewrite slength_app. pose proof more_tail. lia.
  Qed.
End Inline.

Ltac silent := repeat (constructor; [reflexivity|]); constructor.
Ltac name_kept := intros v; unfold character_process, numeric_process, decimal_process, enum_process, plain_process, text_process, datetime_process;
  repeat match goal with |- context [sense ?q ?x ?y] => destruct (sense q x y) end; reflexivity.
Lemma character_named : named character_process. Proof. name_kept. Qed.
Lemma numeric_named : named numeric_process. Proof. name_kept. Qed.
Lemma decimal_named : named decimal_process. Proof. name_kept. Qed.
Lemma enum_named : named enum_process. Proof. name_kept. Qed.
Lemma plain_named : named plain_process. Proof. name_kept. Qed.
Lemma text_named : named text_process. Proof. name_kept. Qed.
Lemma datetime_named : named datetime_process. Proof. name_kept. Qed.

Lemma sim_suffix {C} os : forall l (v : pvals C), exists p, l = p +++ snd (sim os l v).
Proof.
  induction os as [|o os IH]; intros l v; [exists []; reflexivity|]. cbn [sim]. destruct l as [|i l]; [exists []; reflexivity|].
  destruct (hit o i); [|apply (IH (i :: l) v)]. destruct (IH l (dset (oname o) p v)) as [q E]. exists (i :: q). cbn [List.app]. congruence.
Qed.

Section First.
  Variables (tick : bool) (name w : string) (server u n a : bool) (lu ln ld la lcs lco : list item) (k : string) (e : ending).
  Variables (d : option string) (cs co : string).
  Notation nm := (name_text tick name).
  Notation items := (arranged server lu ln ld la lcs lco).
  Notation pk := (IPrimaryKey k).
  Notation text f := (col_text nm w f (items +++ [pk]) e).
  Notation v0 := ([("name", VText nm); ("type", VText w)] : pvals leaf).
  Hypothesis Hname : nm <> "" /\ sforall name_char nm = true.
  Hypothesis Hstrip : strip_char bquote nm = name.
  Hypothesis Hw : w <> "" /\ sforall is_word w = true.
  Hypothesis Hfk : upper w <> "FOREIGN".
  Hypothesis Hitems : items_ok items.
  Hypothesis Hk : spelled "PRIMARY KEY" k.
  Hypothesis He : ending_ok e.
  Hypothesis Fu : flag IUnsigned "UNSIGNED" u lu.
  Hypothesis Fn : nullness n ln.
  Hypothesis D : defaults d ld.
  Hypothesis Fa : flag IAuto "AUTO_INCREMENT" a la.
  Hypothesis Hcs : argument ICharset "CHARACTER SET" cs lcs.
  Hypothesis Hco : argument ICollate "COLLATE" co lco.
  Hypothesis Hwords : lcs <> [] \/ lco <> [] -> u = false /\ a = false.
  Let Fd := defaults_form _ _ D.
  Let Fcs := argument_form _ _ _ _ Hcs.
  Let Fco := argument_form _ _ _ _ Hco.
  Notation fits f := (fits_tail tick name w f items k e).
  Notation takes f := (takes_tail tick name w f items k e).
  Notation reads f := (exists p, best_child definition_classes (text f) None = Ok (Some (DefCol p, tail k e)) /\ p_name p = name).
  Let Hall : items_ok (items +++ [pk]) := all_ok items k Hitems Hk.

  Lemma reads_from f : nameable tick name f items -> length_ok f -> Forall (fits f) [character_class; numeric_class; decimal_class; enum_class; plain_class; text_class; datetime_class] ->
    Exists (takes f) [character_class; numeric_class; decimal_class; enum_class; plain_class; text_class; datetime_class] -> reads f.
  Proof.
    intros Hok Hf F Ex. destruct (best_among definition_classes (text f) (tail k e) (fun d => exists p, d = DefCol p /\ p_name p = name)) as (d' & B & p & -> & N).
    - apply (proj2 (Forall_app _ [primary_class; key_class; unique_class; foreign_class; bare_class] _)). split; [|exact F].
      apply others_fit; assumption.
    - apply (proj2 (Exists_app _ [primary_class; key_class; unique_class; foreign_class; bare_class] _)). right. exact Ex.
    - exists p. auto.
  Qed.
  Lemma paren_fit rules process rs : rules = rname :: rtype :: lit "(" :: rs -> fits NoLength (child_of rules process DefCol).
  Proof. intros ->. eapply fits_none; try assumption; [exact I|]. apply paren_none; assumption. Qed.
  Lemma words_in : lcs = [] /\ lco = [] \/ (lcs <> [] \/ lco <> []).
  Proof. destruct lcs; [|right; left; discriminate]. destruct lco; [auto|right; right; discriminate]. Qed.

  Lemma later_fit f : length_ok f -> f <> NoLength -> Forall (fits f) [enum_class; plain_class; text_class; datetime_class].
  Proof.
    intros G N. constructor; [|constructor; [|constructor; [|constructor; [|constructor]]]].
    - destruct (enum_run nm w (items +++ [pk]) e Hname Hw Hall He enum_rules enum_os f G N eq_refl) as (v & V & R).
      apply (fits_class tick name w f items k e Hname Hstrip Hw G Hitems Hk He enum_rules enum_process enum_os v enum_named); [silent|exact V|exact R].
    - apply (bare_fit tick name w f items k e Hname Hw G Hitems Hk He plain_rules plain_process plain_os N eq_refl).
    - apply (bare_fit tick name w f items k e Hname Hw G Hitems Hk He text_rules text_process text_os N eq_refl).
    - apply (bare_fit tick name w f items k e Hname Hw G Hitems Hk He datetime_rules datetime_process datetime_os N eq_refl).
  Qed.
  Lemma first_one l : nameable tick name (OneNumber l) items -> digits l -> reads (OneNumber l).
  Proof.
    intros Hok G.
    pose proof (one_one nm w (items +++ [pk]) e Hname Hw Hall He l character_os G) as Rc.
    pose proof (one_one nm w (items +++ [pk]) e Hname Hw Hall He l numeric_os G) as Rn.
    destruct (fits_class tick name w (OneNumber l) items k e Hname Hstrip Hw G Hitems Hk He character_rules character_process character_os (one_vals nm w l) character_named)
      as [Fc Tc]; [silent|reflexivity|exact Rc|].
    destruct (fits_class tick name w (OneNumber l) items k e Hname Hstrip Hw G Hitems Hk He numeric_rules numeric_process numeric_os (one_vals nm w l) numeric_named)
      as [Fm Tm]; [silent|reflexivity|exact Rn|].
    apply reads_from; [exact Hok|exact G| |].
    - constructor; [exact Fc|constructor; [exact Fm|constructor]]; [|apply later_fit; [exact G|discriminate]].
      edestruct (dec_one nm w (items +++ [pk]) e Hname Hw Hall He l) as [r R]; [exact G|]. eapply fits_none; try eassumption; exact R.
    - destruct words_in as [[Z1 Z2]|Z].
      + right. left. apply Tm. apply (numeric_wins nm w e server u n a lu ln ld la lcs lco Fu Fn Fd Fa Fcs Fco l Z1 Z2).
      + left. apply Tc. destruct (Hwords Z) as [Hu Ha]. apply (character_wins nm w e server u n a lu ln ld la lcs lco Fu Fn Fd Fa Fcs Fco l Hu Ha).
  Qed.
  Lemma first_two l m : nameable tick name (TwoNumbers l m) items -> digits l -> digits m -> a = false -> lcs = [] -> lco = [] -> reads (TwoNumbers l m).
  Proof.
    intros Hok G M Ha Z1 Z2. assert (GM : length_ok (TwoNumbers l m)) by (split; assumption).
    pose proof (dec_two nm w (items +++ [pk]) e Hname Hw Hall He l m decimal_os G M) as R.
    destruct (fits_class tick name w (TwoNumbers l m) items k e Hname Hstrip Hw GM Hitems Hk He decimal_rules decimal_process decimal_os (two_vals nm w l m) decimal_named)
      as [Fm Tm]; [silent|reflexivity|exact R|].
    apply reads_from; [exact Hok|exact GM| |].
    - constructor; [|constructor; [|constructor; [exact Fm|apply later_fit; [exact GM|discriminate]]]];
        (edestruct (one_two nm w (items +++ [pk]) e Hname Hw Hall He l m) as [r R']; [exact G|exact M|]; eapply fits_none; try eassumption; exact R').
    - right. right. left. apply Tm. apply (decimal_wins nm w e server u n a lu ln ld la lcs lco Fu Fn Fd Fa Fcs Fco l m Ha Z1 Z2).
  Qed.
  (** The class of the plain types stops at AUTO_INCREMENT, or at a character set. *)
  Lemma plain_auto : a = true -> lcs = [] -> lco = [] -> snd (sim plain_os (items +++ [pk]) v0) = [pk].
  Proof.
    intros -> -> ->. clear Fcs Fco. unfold arranged. inversion Fa; subst.
    destruct server; cbn [List.app]; rewrite ?app_nil_r; destruct Fu, Fn, Fd; cbn [List.app sim hit snd fst]; reflexivity.
  Qed.
  Lemma plain_words : lcs <> [] \/ lco <> [] -> snd (sim plain_os (items +++ [pk]) v0) <> [].
  Proof.
    intros Z. destruct (Hwords Z) as [-> ->]. inversion Fa; inversion Fu; subst. unfold arranged.
    destruct server; cbn [List.app]; rewrite ?app_nil_r; destruct Fn, Fd, Fcs, Fco; cbn [List.app sim hit snd fst];
      try discriminate; destruct Z as [Z|Z]; exfalso; apply Z; reflexivity.
  Qed.
  Lemma plain_suffix : snd (sim plain_os (items +++ [pk]) v0) <> [] -> exists m, snd (sim plain_os (items +++ [pk]) v0) = m +++ [pk] /\ items_ok m.
  Proof.
    intros N. destruct (sim_suffix plain_os (items +++ [pk]) v0) as [p E]. revert N E. generalize (snd (sim plain_os (items +++ [pk]) v0)) as l. intros l.
    destruct l as [|x l _] using rev_ind; [contradiction|]. intros _ E. rewrite app_assoc in E. apply app_inj_tail in E as [E <-].
    exists l. split; [reflexivity|]. pose proof Hitems as O. unfold items_ok in O. rewrite E in O. apply Forall_app in O. apply O.
  Qed.
  Lemma first_bare : nameable tick name NoLength items -> a = true \/ lcs <> [] \/ lco <> [] -> reads NoLength.
  Proof.
    intros Hok H.
    pose proof (bare_none nm w (items +++ [pk]) e Hname Hw Hall He plain_os) as Rp.
    pose proof (bare_none nm w (items +++ [pk]) e Hname Hw Hall He text_os) as Rt.
    pose proof (bare_none nm w (items +++ [pk]) e Hname Hw Hall He datetime_os) as Rd.
    destruct (fits_class tick name w NoLength items k e Hname Hstrip Hw I Hitems Hk He text_rules text_process text_os v0 text_named)
      as [Ft Tt]; [silent|reflexivity|exact Rt|].
    destruct (fits_class tick name w NoLength items k e Hname Hstrip Hw I Hitems Hk He datetime_rules datetime_process datetime_os v0 datetime_named)
      as [Fdt _]; [silent|reflexivity|exact Rd|].
    assert (Q : exists m, snd (sim plain_os (items +++ [pk]) v0) = m +++ [pk] /\ items_ok m /\ (lcs = [] -> lco = [] -> m = [])).
    { destruct words_in as [[Z1 Z2]|Z].
      - destruct H as [H|[H|H]]; [|congruence|congruence]. exists []. split; [apply plain_auto; assumption|]. split; [constructor|auto].
      - destruct (plain_suffix (plain_words Z)) as (m & E & O). exists m. split; [exact E|]. split; [exact O|]. intros Z1 Z2. destruct Z; contradiction. }
    destruct Q as (m & E & O & M). rewrite E in Rp.
    destruct (fits_sim tick name w NoLength items k e Hname Hstrip Hw I Hitems Hk He plain_rules plain_process (fst (sim plain_os (items +++ [pk]) v0)) m plain_named)
      as [Fp Tp]; [exact Rp|exact O|apply (sim_name plain_os)|].
    apply reads_from; [exact Hok|exact I| |].
    - do 4 (constructor; [eapply paren_fit; reflexivity|]). constructor; [exact Fp|constructor; [exact Ft|constructor; [exact Fdt|constructor]]].
    - destruct words_in as [[Z1 Z2]|Z].
      + do 4 right. left. apply Tp, (M Z1 Z2).
      + do 5 right. left. apply Tt. destruct (Hwords Z) as [Hu Ha]. apply (text_wins nm w e server u n a lu ln ld la lcs lco Fu Fn Fd Fa Fcs Fco Hu Ha).
  Qed.
End First.

(** ** PRIMARY KEY by itself *)

Lemma primary_split k : spelled "PRIMARY KEY" k -> exists a b, k = a ++ " " ++ b /\ lower a = "primary" /\ lower b = "key".
Proof. intros S. destruct (split_word "PRIMARY" "KEY" k S) as (a & b & E & A & B). exists a, b. auto. Qed.
Lemma no_match K k r : lower k <> "" -> match K, lower k with String a _, String c _ => Ascii.eqb (to_lower a) c = false | _, _ => False end -> match_lit K (k ++ r) = None.
Proof.
  intros N H. destruct K as [|a K]; [contradiction|]. destruct k as [|c k]; [contradiction|]. cbn [String.append match_lit]. unfold lower in H. cbn [smap] in H. rewrite H. reflexivity.
Qed.
Lemma primary_column k e : spelled "PRIMARY KEY" k -> ending_ok e -> exists a b p, k = a ++ " " ++ b /\ lower a = "primary" /\
  best_child definition_classes (k ++ ending_raw e) None = Ok (Some (DefCol p, ending_left e)) /\ p_name p = a /\ upper (p_type p) = "KEY".
Proof.
  intros S He. destruct (primary_split k S) as (a & b & E & A & B). exists a, b.
  assert (Hname : a <> "" /\ sforall name_char a = true) by (apply (spelled_name "PRIMARY"); [exact A|discriminate|reflexivity]).
  assert (Hty : b <> "" /\ sforall is_word b = true) by (apply (spelled_word "KEY"); [exact B|discriminate|reflexivity]).
  assert (Ht : k ++ ending_raw e = col_text a b NoLength [] e).
  { rewrite E. unfold col_text, more. cbn [length_text spaced String.append]. rewrite !sapp_assoc. reflexivity. }
  assert (T : trim (k ++ ending_raw e) = true) by (rewrite Ht; apply col_trim; first [assumption|exact I|constructor]).
  pose (v0 := [("name", VText a); ("type", VText b)] : pvals leaf).
  assert (R : forall os, run_rules (rname :: rtype :: map orule os +++ [rcomma]) (k ++ ending_raw e) [] = Ok (Some (comma_vals e [] v0), ending_left e)).
  { intros os. rewrite Ht, (bare_none a b [] e Hname Hty (Forall_nil _) He os). rewrite sim_nil. reflexivity. }
  exists (plain_process (comma_vals e [] v0)). split; [exact E|]. split; [exact A|]. split; [|].
  - apply (best_pick ([primary_class; key_class; unique_class; foreign_class; bare_class] +++ [character_class; numeric_class; decimal_class; enum_class])
             plain_class [text_class; datetime_class]).
    + apply Forall_app. split.
      * assert (Lk : lower k = "primary key") by exact S.
        assert (M : forall K, match K with String c _ => Ascii.eqb (to_lower c) "p" = false | _ => False end -> match_lit K (k ++ ending_raw e) = None).
        { intros K H. apply no_match; rewrite Lk; [discriminate|]. destruct K; [contradiction|exact H]. }
        assert (G : forall A rules (process : pvals leaf -> A) wrap r, run_rules rules (k ++ ending_raw e) [] = Ok (None, r) -> beaten (String.length (ending_left e)) (k ++ ending_raw e) (child_of rules process wrap)).
        { intros A' rules process wrap r Q. exists None, r. rewrite child_trim by exact T. rewrite Q. auto. }
        constructor; [|constructor; [|constructor; [|constructor; [|constructor; [|constructor]]]]].
        -- eapply G. unfold primary_rules, lit. rewrite (step_lit "PRIMARY KEY" "PRIMARY KEY" false _ _ (ending_raw e)); [|apply match_lit_app; symmetry; exact S|].
           2:{ change (ending_raw e) with (more [] e). rewrite strip_more; [|constructor|exact He]. apply stream_trim; [constructor|exact He]. }
           change (ending_raw e) with (more [] e). rewrite strip_more; [|constructor|exact He]. apply fail_lit. destruct e; [reflexivity|reflexivity|apply He; clear; cbn; tauto].
        -- eapply G. apply fail_re. cbn [re_match]. rewrite !M by reflexivity. reflexivity.
        -- eapply G. apply fail_lit, M. reflexivity.
        -- eapply G. apply fail_lit, M. reflexivity.
        -- eapply G. apply fail_lit, M. reflexivity.
      * repeat (constructor; [eapply class_tied_none; [exact T|rewrite Ht; apply paren_none; first [assumption|constructor]]|]). constructor.
    + apply class_run; [exact T|apply (R plain_os)].
    + constructor; [eapply class_tied; [exact T|apply (R text_os)|lia]|]. constructor; [eapply class_tied; [exact T|apply (R datetime_os)|lia]|constructor].
  - assert (Vn : vtext "name" (comma_vals e [] v0) = a) by (destruct e; reflexivity). assert (Vt : vtext "type" (comma_vals e [] v0) = b) by (destruct e; reflexivity).
    assert (Sa : strip_char bquote a = a) by (apply strip_none, has_char_forall; rewrite (caseless (fun d => negb (Ascii.eqb bquote d)) a "PRIMARY"); [reflexivity|letters|exact A]).
    unfold plain_process, extract_name. rewrite Vn, Vt. cbn [p_name p_type].
    assert (Nt : normalize_type b = b) by (unfold normalize_type; rewrite B; reflexivity). pose proof (upper_caseless b "KEY" B) as U. split; [exact Sa|]. rewrite Nt, U. exact U.
Qed.

(** ** A definition that is read as two *)

Lemma inline_text tick n w f l k : column_definition tick n w f l ++ " " ++ k = column_definition tick n w f (l +++ [IPrimaryKey k]).
Proof.
  unfold column_definition. rewrite !sapp_assoc. do 4 f_equal. induction l as [|i l IH]; [cbn; rewrite sapp_nil_r; reflexivity|]. cbn [items_text List.app]. rewrite <- IH, !sapp_assoc. reflexivity.
Qed.
Theorem inline_two m s k e : written m s -> hard m -> spelled "PRIMARY KEY" k -> ending_ok e ->
  exists p q, best_child definition_classes ((s ++ " " ++ k) ++ ending_raw e) None = Ok (Some (DefCol p, k ++ ending_raw e)) /\ p_name p = m_name m
    /\ best_child definition_classes (k ++ ending_raw e) None = Ok (Some (DefCol q, ending_left e)) /\ lower (p_name q) = "primary" /\ upper (p_type q) = "KEY".
Proof.
  intros [tick w f server lu ln ld la lcs lco d cs co Hn Ht Hw Hf Fu Fn D Ed Fa Hcs Ecs Hco Eco HC HF] Hd Hk He.
  destruct (primary_column k e Hk He) as (a & b & q & _ & A & B & Q1 & Q2).
  apply readable_facts in Ht. pose proof (word_typed _ _ _ _ _ Ht Hw) as Ty. destruct (name_facts tick _ (proj1 Hn)) as [Hname Hstrip].
  pose proof (arranged_items server _ _ _ _ _ _ _ _ _ _ _ _ Fu Fn D Fa Hcs Hco) as Hitems. rewrite inline_text, definition_text.
  enough (G : exists p, best_child definition_classes (col_text (name_text tick (m_name m)) w f (arranged server lu ln ld la lcs lco +++ [IPrimaryKey k]) e) None = Ok (Some (DefCol p, tail k e)) /\ p_name p = m_name m).
  { destruct G as (p & G & N). exists p, q. split; [exact G|]. split; [exact N|]. split; [exact B|]. rewrite Q1. auto. }
  assert (HC' : lcs <> [] \/ lco <> [] -> m_unsigned m = false /\ m_auto m = false) by (intros Z; apply HC, Z).
  pose proof (ty_word _ _ _ _ Ty) as Hword. pose proof (ty_fk _ _ _ _ Ty) as Hfk.
  destruct f as [|l|l k']; cbn [length_ok] in Hf.
  - eapply first_bare; try eassumption. destruct Hd as [Hd|[Hd|[Hd|[Hd Hd']]]]; [auto| | |].
    + right. left. intros ->. apply silent in Hcs. subst cs. apply Hd, Ecs.
    + right. right. intros ->. apply silent in Hco. subst co. apply Hd, Eco.
    + exfalso. inversion Hw; subst; congruence.
  - eapply first_one; eassumption.
  - destruct Hf as [H1 H2], HF as (HA & HB & HD). eapply first_two; eassumption.
Qed.
Lemma inline_def s k : def_text s -> spelled "PRIMARY KEY" k -> def_text (s ++ " " ++ k).
Proof.
  intros T S. destruct (spelled_free "PRIMARY KEY" k S) as (K1 & K2 & K3 & K4); [reflexivity|discriminate|reflexivity|reflexivity|].
  constructor.
  - apply trim_cat; [apply T|apply T|]. apply (neat_space k); assumption.
  - intros r R1 R2. rewrite !sapp_assoc. apply T; [reflexivity|]. apply (free_dd " "); [reflexivity|]. apply free_dd; assumption.
  - intros r R. rewrite !sapp_assoc. apply T. apply (no_drop_app " "); [reflexivity|]. apply no_drop_app; assumption.
  - intros w r W. rewrite !sapp_assoc. apply T, W.
  - intros Z. apply sapp_eq_nil in Z as [_ Z]. discriminate.
Qed.

(** ** The definitions one after the other *)

(** Definitions before others. *)
Fixpoint leading (ds : list wdef) (r : string) : string := match ds with [] => r | d :: ds' => rdef_text d ++ ", " ++ leading ds' r end.
Lemma body_leading ds x ds' r : body (ds +++ x :: ds') ++ r = leading ds (body (x :: ds') ++ r).
Proof.
  induction ds as [|d ds IH]; [reflexivity|]. cbn [List.app leading]. rewrite <- IH. unfold body. cbn [map].
  rewrite (join_cons _ (rdef_text d)) by (destruct ds; discriminate). rewrite !sapp_assoc. reflexivity.
Qed.
Lemma leading_trim ds r : Forall def_ok ds -> trim r = true -> r <> "" -> trim (leading ds r) = true /\ leading ds r <> "".
Proof.
  intros F R N. induction F as [|d ds D F [IH1 IH2]]; [auto|]. cbn [leading]. pose proof (rdef_def d D) as T.
  split; [|intros Z; apply sapp_eq_nil in Z as [Z _]; apply (def_some _ T), Z].
  apply trim_cat; [apply T|apply T|]. apply (neat_app ","); [reflexivity|discriminate|]. apply (neat_space (leading ds r)); assumption.
Qed.
Lemma kids_before ds r : Forall rdef_ok ds -> trim r = true -> r <> "" -> forall n ms, exists ps,
  kids (List.length ds + n) definition_classes (leading ds r) ms = kids n definition_classes r (ms +++ ps) /\ Forall2 same_def ds ps.
Proof.
  intros F R N. induction F as [|d ds D F IH]; intros n ms.
  - exists []. rewrite app_nil_r. split; [reflexivity|constructor].
  - destruct (leading_trim ds r (rdef_shapes _ F) R N) as [T1 T2].
    destruct (rdef_read d (EComma (leading ds r)) D) as (p & B & Sd); [split; assumption|apply calm_comma|].
    destruct (IH n (ms +++ [p])) as (ps & K & P). exists (p :: ps). split; [|constructor; assumption].
    assert (Z : is_empty (leading (d :: ds) r) = false).
    { pose proof (leading_trim (d :: ds) r (rdef_shapes _ (Forall_cons _ D F)) R N) as [_ T]. destruct (leading (d :: ds) r); [contradiction|reflexivity]. }
    change (List.length (d :: ds) + n) with (S (List.length ds + n)). cbn [kids]. rewrite Z. cbn [leading].
    change (rdef_text d ++ ", " ++ leading ds r) with (rdef_text d ++ ending_raw (EComma (leading ds r))). rewrite B. cbn [bind ending_left]. rewrite K, <- app_assoc. reflexivity.
Qed.

(** One of the definitions is read as two. *)
Definition twice_read (x : wdef) (P : def -> def -> Prop) : Prop :=
  def_ok x /\ forall e, ending_ok e -> exists p q z, z <> "" /\ best_child definition_classes (rdef_text x ++ ending_raw e) None = Ok (Some (p, z))
    /\ best_child definition_classes z None = Ok (Some (q, ending_left e)) /\ P p q.
Lemma kids_twice ds x ds' P gap r n : Forall rdef_ok ds -> twice_read x P -> Forall rdef_ok ds' -> neat r = true -> List.length ds + List.length ds' + 2 < n ->
  exists ps p q ps', kids n definition_classes (body (ds +++ x :: ds') ++ closing gap r) [] = Ok (Some (ps +++ p :: q :: ps', ")" ++ r))
    /\ Forall2 same_def ds ps /\ P p q /\ Forall2 same_def ds' ps'.
Proof.
  intros F [Dx Hx] F' R L. rewrite body_leading. set (r0 := body (x :: ds') ++ closing gap r).
  assert (T0 : trim r0 = true /\ r0 <> "") by (apply body_trim; [discriminate|constructor; [exact Dx|apply rdef_shapes, F']|exact R]).
  destruct T0 as [T0 N0].
  destruct (kids_before ds r0 F T0 N0 (S (S (n - S (S (List.length ds))))) []) as (ps & K & Ps).
  replace (List.length ds + S (S (n - S (S (List.length ds))))) with n in K by lia. rewrite K. clear K. cbn [List.app].
  set (n' := n - S (S (List.length ds))) in *. assert (L' : List.length ds' < n') by (unfold n'; lia).
  assert (E : exists e, ending_ok e /\ r0 = rdef_text x ++ ending_raw e /\ ending_left e = (if list_is_nil ds' then ")" ++ r else body ds' ++ closing gap r)).
  { destruct ds' as [|d' ds''].
    - exists (EClose gap r). split; [exact R|]. split; reflexivity.
    - exists (EComma (body (d' :: ds'') ++ closing gap r)). split; [apply body_trim; [discriminate|apply rdef_shapes, F'|exact R]|]. split; [|reflexivity].
      unfold r0. cbn [ending_raw ending_text]. unfold body at 1. cbn [map]. rewrite join_cons by discriminate. rewrite !sapp_assoc. reflexivity. }
  destruct E as (e & He & E0 & El). destruct (Hx e He) as (p & q & z & Nz & B1 & B2 & Pq).
  assert (Z0 : is_empty r0 = false) by (destruct r0; [contradiction|reflexivity]). assert (Zz : is_empty z = false) by (destruct z; [contradiction|reflexivity]).
  assert (Q : exists ps', kids (S (S n')) definition_classes r0 ps = Ok (Some (ps +++ p :: q :: ps', ")" ++ r)) /\ Forall2 same_def ds' ps').
  { cbn [kids]. rewrite Z0, E0, B1. cbn [bind]. rewrite Zz, B2. cbn [bind]. rewrite El, <- app_assoc. cbn [List.app].
    destruct ds' as [|d' ds''].
    - exists []. split; [|constructor]. cbn [list_is_nil]. destruct n' as [|n']; [lia|]. cbn [kids]. rewrite no_more_defs by exact R. cbn [bind is_empty String.append].
      destruct ps; reflexivity.
    - cbn [list_is_nil]. destruct (kids_defs (d' :: ds'') gap r ltac:(discriminate) F' R (S (n' - S (List.length (d' :: ds'')))) (ps +++ [p; q])) as (ps' & K & P').
      exists ps'. split; [|exact P']. replace (List.length (d' :: ds'') + S (n' - S (List.length (d' :: ds'')))) with n' in K by lia. rewrite K. cbn [kids].
      rewrite no_more_defs by exact R. cbn [bind is_empty String.append]. rewrite <- app_assoc. destruct ps; reflexivity. }
  destruct Q as (ps' & K & P'). exists ps, p, q, ps'. auto.
Qed.

(** ** A definition that is read as the column and the key *)

Definition with_primary (p : pcol) : pcol :=
  mkPcol (p_name p) (p_type p) (p_length p) false (p_has_default p) (p_default p) (p_unsigned p) (p_charset p) (p_collate p) (p_auto p) true (p_warnings p).
Lemma plain_primary nm ty e server u n lu ln ld k :
  flag IUnsigned "UNSIGNED" u lu -> nullness n ln -> default_form ld ->
  snd (sim plain_os (arranged server lu ln ld [] [] [] +++ [IPrimaryKey k]) ([("name", VText nm); ("type", VText ty)] : pvals leaf)) = []
  /\ plain_process (comma_vals e [] (fst (sim plain_os (arranged server lu ln ld [] [] [] +++ [IPrimaryKey k]) ([("name", VText nm); ("type", VText ty)] : pvals leaf))))
     = with_primary (plain_process (comma_vals e [] (fst (sim plain_os (arranged server lu ln ld [] [] []) ([("name", VText nm); ("type", VText ty)] : pvals leaf))))).
Proof.
  intros Fu Fn Fd. unfold arranged. destruct server; cbn [List.app]; rewrite ?app_nil_r; destruct Fu, Fn, Fd; cbn [List.app sim hit snd fst]; (split; [reflexivity|destruct e; reflexivity]).
Qed.
Lemma primary_means p m c : as_definition p = Ok c -> means c m -> exists c', as_definition (with_primary p) = Ok c' /\ means c' (not_null m).
Proof.
  intros A M. unfold as_definition in *. cbn [with_primary p_type]. destruct (dget (upper (p_type p)) type_map); [|discriminate]. injection A as <-. eexists. split; [reflexivity|].
  destruct M as [M1 M2 M3 M4 M5 M6 M7 M8 M9 M10 M11]. constructor; try assumption.
Qed.
Theorem inline_one m s k e : written m s -> easy m -> spelled "PRIMARY KEY" k -> ending_ok e ->
  exists p c, best_child definition_classes ((s ++ " " ++ k) ++ ending_raw e) None = Ok (Some (DefCol p, ending_left e))
    /\ as_definition p = Ok c /\ means c (not_null m) /\ p_name p = m_name m /\ p_primary p = true.
Proof.
  intros W Hd Hk He. pose proof (written_read m s e W He) as R. revert R.
  destruct W as [tick w f server lu ln ld la lcs lco d cs co Hn Ht Hw Hf Fu Fn D Ed Fa Hcs Ecs Hco Eco HC HF].
  destruct Hd as (Ha & Hc & Ho & Hl).
  apply readable_facts in Ht. pose proof (word_typed _ _ _ _ _ Ht Hw) as Ty. destruct (name_facts tick _ (proj1 Hn)) as [Hname Hstrip].
  rewrite Ha in Fa. apply flag_false in Fa as Za.
  assert (Zc : lcs = []).
  { destruct Hcs as [|q x _ (N & _ & _)|q x _ N _]; [reflexivity| |]; exfalso; rewrite Hc in Ecs; destruct x; first [contradiction|discriminate Ecs]. }
  assert (Zo : lco = []).
  { destruct Hco as [|q x _ (N & _ & _)|q x _ N _]; [reflexivity| |]; exfalso; rewrite Ho in Eco; destruct x; first [contradiction|discriminate Eco]. }
  assert (Zf : f = NoLength).
  { rewrite Hl in Hw. inversion Hw; reflexivity. }
  pose proof (arranged_items server _ _ _ _ _ _ _ _ _ _ _ _ Fu Fn D Fa Hcs Hco) as Hitems.
  subst lcs lco la f. intros R. rewrite definition_text in R. rewrite inline_text, definition_text.
  set (nm := name_text tick (m_name m)) in *. set (items := arranged server lu ln ld [] [] []) in *. pose proof (ty_word _ _ _ _ Ty) as Hword. pose proof (ty_fk _ _ _ _ Ty) as Hfk.
  pose proof (all_ok items k Hitems Hk) as Hall.
  pose (v0 := [("name", VText nm); ("type", VText w)] : pvals leaf).
  assert (B : forall l, items_ok l -> snd (sim plain_os l v0) = [] ->
    best_child definition_classes (col_text nm w NoLength l e) None = Ok (Some (DefCol (plain_process (comma_vals e [] (fst (sim plain_os l v0)))), ending_left e))).
  { intros l Ol Z. assert (T : trim (col_text nm w NoLength l e) = true) by (apply text_trim; first [assumption|exact I]).
    apply (best_pick ([primary_class; key_class; unique_class; foreign_class; bare_class] +++ [character_class; numeric_class; decimal_class; enum_class])
             plain_class [text_class; datetime_class]).
    - apply Forall_app. split; [apply (others tick (m_name m) w NoLength l e Hword I Ol He (named_column _ _ _ _ (lengthless_name _ _ _ Hn)) Hfk)|].
      repeat (constructor; [eapply class_tied_none; [exact T|apply paren_none; assumption]|]). constructor.
    - apply class_run; [exact T|]. pose proof (bare_none nm w l e Hname Hword Ol He plain_os) as Q. fold v0 in Q. rewrite Z in Q. exact Q.
    - constructor; [apply (bare_tied tick (m_name m) w NoLength l e Hname Hword I Ol He text_rules text_process text_os eq_refl)|].
      constructor; [|constructor]. apply (bare_tied tick (m_name m) w NoLength l e Hname Hword I Ol He datetime_rules datetime_process datetime_os eq_refl). }
  pose proof (defaults_form _ _ D) as Fd.
  destruct (plain_primary nm w e server (m_unsigned m) (m_null m) lu ln ld k Fu Fn Fd) as [Z1 Z2]. fold items in Z1, Z2. fold v0 in Z1, Z2.
  assert (Z0 : snd (sim plain_os items v0) = []).
  { apply (plain_wins nm w e server (m_unsigned m) (m_null m) (m_auto m) lu ln ld [] [] [] Fu Fn Fd); try reflexivity; [rewrite Ha; exact Fa|constructor|constructor]. }
  destruct R as (p & c & B0 & A & M & _ & N & _). rewrite (B items Hitems Z0) in B0. injection B0 as <-.
  destruct (primary_means _ m c A M) as (c' & A' & M'). rewrite (B _ Hall Z1), Z2. eexists _, c'. split; [reflexivity|]. split; [exact A'|]. split; [exact M'|]. split; [exact N|reflexivity].
Qed.
