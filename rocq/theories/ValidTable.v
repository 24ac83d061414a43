(** Lemmas about the errors of one table. *)
From Verif Require Export ValidFacts.

(** ** Running checks *)

Definition check_ok (k : check) : Prop := exists l, k = Errs l.
Definition check_list (k : check) : list string := match k with Errs l => l | Fail _ => [] end.

Lemma run_checks_ok l : (forall k, In k l -> check_ok k) -> run_checks l = (concat (map check_list l), None).
Proof.
  induction l as [|k l IH]; simpl; intros H; [reflexivity|].
  destruct (H k (or_introl eq_refl)) as (es & ->). rewrite IH; auto.
Qed.
Lemma run_checks_none l es : run_checks l = (es, None) -> forall k, In k l -> check_ok k.
Proof.
  revert es; induction l as [|k l IH]; simpl; intros es H k' [].
  - subst k'. destruct k; [eexists; reflexivity|discriminate].
  - destruct k; [|discriminate]. destruct (run_checks l) as [r x] eqn:E. inversion H; subst. eapply IH; eauto.
Qed.
Lemma run_checks_app l m : run_checks (l +++ m) =
  match run_checks l with
  | (es, None) => let '(fs, x) := run_checks m in (es +++ fs, x)
  | (es, Some e) => (es, Some e)
  end.
Proof.
  induction l as [|[es|e] l IH]; simpl.
  - destruct (run_checks m); reflexivity.
  - rewrite IH. destruct (run_checks l) as [r [x|]]; [reflexivity|]. destruct (run_checks m). rewrite app_assoc. reflexivity.
  - reflexivity.
Qed.
(** The exception is that of the first failing check. *)
Lemma run_checks_some l es e : run_checks l = (es, Some e) -> In (Fail e) l.
Proof.
  revert es; induction l as [|[x|x] l IH]; simpl; intros es H; [discriminate| |left; congruence].
  destruct (run_checks l) as [r y] eqn:E. inversion H; subst. right. eapply IH; eauto.
Qed.

Lemma in_concat_nil {A} (l : list (list A)) : concat l = [] <-> forall x, In x l -> x = [].
Proof.
  induction l as [|x l IH]; simpl; [split; [intros _ x []|reflexivity]|].
  split.
  - intros H y [<-|Hy]; apply app_eq_nil in H as [? ?]; [assumption|]. apply IH; assumption.
  - intros H. rewrite (H x (or_introl eq_refl)). simpl. apply IH. auto.
Qed.
Lemma map_nil_iff {A B} (f : A -> B) l : map f l = [] <-> l = [].
Proof. destruct l; simpl; split; congruence. Qed.
Lemma if_nil {A} (b : bool) (x : A) l : (if b then x :: l else []) = [] <-> b = false.
Proof. destruct b; split; congruence. Qed.

(** ** Children *)

Lemma scan_children_ok tn l : (forall c, In c l -> ch_exn c = None) ->
  scan_children tn l = mkTerrs (concat (map (fun c => map (in_table tn) (ch_schema c)) l))
    (concat (map (fun c => map (in_table tn) (ch_swarn c)) l))
    (concat (map (fun c => map (in_table tn) (ch_parsing c)) l))
    (concat (map (fun c => map (in_table tn) (ch_pwarn c)) l)) None.
Proof.
  induction l as [|c l IH]; simpl; intros H; [reflexivity|].
  rewrite (H c (or_introl eq_refl)), IH by auto. reflexivity.
Qed.

Section Float.
  Context {FO : FloatOracle}.

  Definition columns_checked (t : table) : Prop :=
    forall n c, In (n, c) (t_columns t) -> exists l, column_errors c = Ok l.

  Lemma column_errors_iff c l : column_errors c = Ok l <-> column_checked c = (l, None).
  Proof.
    unfold column_errors. destruct (column_checked c) as [m [e|]]; split; congruence.
  Qed.

  Lemma children_ok seen t : columns_checked t -> forall c, In c (children seen t) -> ch_exn c = None.
  Proof.
    intros H c. unfold children. rewrite !in_app_iff, !in_map_iff.
    intros [(x & <- & Hx)|[(x & <- & Hx)|(x & <- & Hx)]]; try reflexivity.
    apply dvals_in in Hx as (n & Hx). destruct (H n x Hx) as (l & E). apply column_errors_iff in E.
    unfold column_child. rewrite E. simpl. destruct (seen (c_name x)); reflexivity.
  Qed.

  Lemma children_seen seen seen' t : columns_checked t -> children seen t = children seen' t.
  Proof.
    intros H. unfold children. f_equal. apply map_ext_in. intros x Hx.
    apply dvals_in in Hx as (n & Hx). destruct (H n x Hx) as (l & E). apply column_errors_iff in E.
    unfold column_child. rewrite E. destruct (seen (c_name x)), (seen' (c_name x)); reflexivity.
  Qed.

  Lemma find_all_seen seen t : columns_checked t -> find_all_errors_seen seen t = find_all_errors t.
  Proof.
    intros H. unfold find_all_errors, find_all_errors_seen. rewrite (children_seen seen (fun _ => false) t H). reflexivity.
  Qed.

  Lemma sbi_find seen t t' : sbi t t' -> find_all_errors_seen seen t' = find_all_errors_seen seen t.
  Proof. unfold sbi. intros ->. reflexivity. Qed.

  Lemma auto_check_ok t : (forall n i, In (n, i) (t_indexes t) -> ix_columns i <> []) -> check_ok (auto_increment_check t).
  Proof.
    intros K. unfold auto_increment_check. destruct (filter col_auto _) as [|a [|b l]]; try (eexists; reflexivity).
    destruct (primaries t) as [|p ps] eqn:E; [eexists; reflexivity|].
    assert (Hp : In p (dvals (t_indexes t))).
    { assert (Hp : In p (primaries t)) by (rewrite E; left; reflexivity). apply filter_In in Hp. tauto. }
    apply dvals_in in Hp as (n & Hp). specialize (K n p Hp).
    destruct (ix_columns p) as [|f r] eqn:Ep; [contradiction|].
    rewrite (proj2 (first_col_ok p f)) by eauto. eexists; reflexivity.
  Qed.

  Lemma find_all_ok t : columns_checked t -> (forall n i, In (n, i) (t_indexes t) -> ix_columns i <> []) ->
    te_exn (find_all_errors t) = None
    /\ te_schema (find_all_errors t) =
       (if is_empty (t_name t) then ["Table missing name"] else [])
       +++ (if list_is_nil (t_columns t) then ["Table '" ++ t_name t ++ "' does not have any columns"] else [])
       +++ concat (map (fun c => map (in_table (t_name t)) (ch_schema c)) (children (fun _ => false) t))
       +++ (if Nat.ltb 1 (List.length (primaries t)) then ["Table '" ++ t_name t ++ "' has more than one PRIMARY index"] else [])
       +++ check_list (auto_increment_check t)
       +++ index_column_errors t
    /\ te_parsing (find_all_errors t) =
       concat (map (fun c => map (in_table (t_name t)) (ch_parsing c)) (children (fun _ => false) t)).
  Proof.
    intros H K. unfold find_all_errors, find_all_errors_seen.
    rewrite (scan_children_ok _ _ (children_ok _ t H)). cbn [te_exn te_schema te_parsing te_swarnings te_pwarnings].
    rewrite run_checks_ok.
    - cbn [te_exn te_schema te_parsing]. split; [reflexivity|]. split; [|reflexivity].
      cbn [map concat check_list err_if]. rewrite <- !app_assoc, app_nil_r. reflexivity.
    - intros k [<-|[<-|[<-|[]]]]; try (eexists; reflexivity). apply auto_check_ok, K.
  Qed.

  (** ** The table as a whole *)

  Lemma index_errors_nil i : index_errors i = [] <-> index_sound i.
  Proof.
    unfold index_errors, index_sound. split.
    - intros H. apply app_eq_nil in H as [H1 H]. apply app_eq_nil in H as [H2 H3].
      apply if_nil in H1, H2, H3. split; [intros E; apply is_empty_iff in E; congruence|].
      split; [destruct (ix_columns i); [discriminate|congruence]|]. apply Nat.ltb_ge in H3. exact H3.
    - intros (H1 & H2 & H3).
      replace (is_empty (ix_name i)) with false by (symmetry; apply not_true_is_false; rewrite is_empty_iff; auto).
      replace (list_is_nil (ix_columns i)) with false by (destruct (ix_columns i); [contradiction|reflexivity]).
      replace (Nat.ltb max_name_length (String.length (ix_name i))) with false by (symmetry; apply Nat.ltb_ge; exact H3).
      reflexivity.
  Qed.

  Lemma constraint_errors_nil k : constraint_errors k = [] <-> fk_sound k.
  Proof.
    unfold constraint_errors, fk_sound. change fk_actions with allowed_actions.
    assert (Em : forall s, is_empty s = false <-> s <> "").
    { intros s. split; intros H; [intros E; apply is_empty_iff in E; congruence|].
      apply not_true_is_false. rewrite is_empty_iff. exact H. }
    split.
    - intros H. apply app_eq_nil in H as [H1 H]. apply app_eq_nil in H as [H2 H]. apply app_eq_nil in H as [H3 H].
      apply app_eq_nil in H as [H4 H]. apply app_eq_nil in H as [H5 H]. apply app_eq_nil in H as [H6 H7].
      apply if_nil in H4, H5, H6, H7. rewrite H4 in H1. apply if_nil in H1. apply Nat.ltb_ge in H1.
      destruct (smem (k_on_delete k) _) eqn:E1; [|discriminate]. destruct (smem (k_on_update k) _) eqn:E2; [|discriminate].
      apply smem_iff in E1, E2. repeat split; auto; apply Em; assumption.
    - intros (H1 & H2 & H3 & H4 & H5 & H6 & H7).
      apply Em in H1, H5, H6, H7. apply smem_iff in H3, H4. rewrite H1, H3, H4, H5, H6, H7.
      replace (Nat.ltb max_name_length (String.length (k_name k))) with false by (symmetry; apply Nat.ltb_ge; exact H2).
      reflexivity.
  Qed.

  (** ** Valid columns *)

  Lemma run_nil l : run_checks l = ([], None) <-> Forall (fun k => k = Errs []) l.
  Proof.
    induction l as [|[es|e] l IH]; simpl.
    - split; [constructor|reflexivity].
    - destruct (run_checks l) as [r x]. split.
      + intros E. injection E as E1 E2. apply app_eq_nil in E1 as [-> ->]. subst x.
        apply Forall_cons; [reflexivity|]. apply IH. reflexivity.
      + intros F. inversion F as [|? ? E F']; subst. injection E as ->. apply IH in F'. injection F' as -> ->. reflexivity.
    - split; [discriminate|]. intros F. inversion F as [|? ? E F']. discriminate.
  Qed.

  Lemma err_if_nil b m : err_if b m = Errs [] <-> b = false.
  Proof. unfold err_if. destruct b; split; congruence. Qed.

  Lemma tru_length_no l : tru_length l = false <-> no_length_given l.
  Proof.
    unfold no_length_given. destruct l as [|s|z|l]; simpl.
    - intuition.
    - unfold truthy. destruct s; simpl; split; intros H; auto; try discriminate; intuition discriminate.
    - destruct (Z.eqb_spec z 0); subst; simpl; split; intros H; auto; try discriminate. intuition congruence.
    - destruct l; simpl; split; intros H; auto; try discriminate; intuition discriminate.
  Qed.

  Lemma tru_ob_no o : tru_ob o = false <-> o <> Some true.
  Proof. destruct o as [[|]|]; simpl; split; congruence. Qed.
  Lemma tru_ob_yes o : tru_ob o = true <-> o = Some true.
  Proof. destruct o as [[|]|]; simpl; split; congruence. Qed.

  Lemma tru_ol_no o : tru_ol o = false <-> no_values o.
  Proof. unfold no_values. destruct o as [[|]|]; simpl; split; intros H; auto; try discriminate; destruct H; discriminate. Qed.

  Lemma upper_nil s : upper s = "" <-> s = "".
  Proof. unfold upper. destruct s; simpl; split; intros H; [auto|auto|discriminate|discriminate]. Qed.

  Lemma unset_upper o : tru_os (option_map upper o) = false <-> unset o.
  Proof.
    unfold unset. destruct o as [s|]; simpl; [|intuition].
    unfold truthy. rewrite negb_false_iff, is_empty_iff, upper_nil. split; [intros ->; auto|intros [H|H]; congruence].
  Qed.

  Lemma none_upper (o : option string) : negb (opt_is_none (option_map upper o)) = false <-> o = None.
  Proof. destruct o; simpl; split; congruence. Qed.

  Lemma smem_no x l : smem x l = false <-> ~ In x l.
  Proof. rewrite <- smem_iff. destruct (smem x l); split; congruence. Qed.

  Lemma and_false a b : a && b = false <-> (a = true -> b = false).
  Proof. destruct a, b; simpl; intuition congruence. Qed.

  Lemma forall_app_iff {A} (P : A -> Prop) l m : Forall P (l +++ m) <-> Forall P l /\ Forall P m.
  Proof. apply Forall_app. Qed.

  Lemma forall_cons_iff {A} (P : A -> Prop) x l : Forall P (x :: l) <-> P x /\ Forall P l.
  Proof. split; [intros H; inversion H; auto|intros [? ?]; constructor; auto]. Qed.

  Lemma forall_nil_iff {A} (P : A -> Prop) : Forall P [] <-> True.
  Proof. split; auto. Qed.

  Lemma string_checks_nil c : Forall (fun k => k = Errs []) (string_checks c) <-> string_sound c.
  Proof.
    unfold string_checks. rewrite !forall_cons_iff, forall_nil_iff, !err_if_nil, !and_false, !negb_false_iff, !smem_iff.
    rewrite !tru_ob_no.
    assert (B : In (c_type c) ["BINARY"; "VARBINARY"] <->
                String.eqb (c_type c) "BINARY" || String.eqb (c_type c) "VARBINARY" = true).
    { rewrite orb_true_iff, !String.eqb_eq. simpl. intuition congruence. }
    assert (K : forall o, (forall s, option_map upper o = Some s -> s = "BINARY") <->
                String.eqb (match option_map upper o with None => "BINARY" | Some s => s end) "BINARY" = true).
    { intros [s|]; cbn [option_map]; rewrite String.eqb_eq; split; auto; intros; congruence. }
    assert (C : (if tru_os (c_charset c) || tru_os (c_collate c)
                 then Errs ((if smem (c_type c) str_allowed_collation then []
                             else [of_type c ++ " cannot have a collation/character set"])
                            +++ (if (String.eqb (c_type c) "BINARY" || String.eqb (c_type c) "VARBINARY")
                                    && (negb (String.eqb (match c_collate c with None => "BINARY" | Some s => s end) "BINARY")
                                        || negb (String.eqb (match c_charset c with None => "BINARY" | Some s => s end) "BINARY"))
                                 then [of_type c ++ " can only have a collate/character set of BINARY"] else []))
                 else Errs []) = Errs [] <->
                (unset (c_rawcharset c) /\ unset (c_rawcollate c) \/ In (c_type c) (short_string_types +++ list_types))
                /\ (In (c_type c) ["BINARY"; "VARBINARY"] ->
                    unset (c_rawcharset c) /\ unset (c_rawcollate c)
                    \/ (forall s, c_charset c = Some s -> s = "BINARY") /\ (forall s, c_collate c = Some s -> s = "BINARY"))).
    { unfold c_charset, c_collate. rewrite !K, B, <- !unset_upper.
      change (short_string_types +++ list_types) with str_allowed_collation. rewrite <- smem_iff.
      set (a := tru_os _). set (b := tru_os _). set (d := smem _ _). set (e := String.eqb (c_type c) _ || _).
      set (f := String.eqb (match option_map upper (c_rawcharset c) with _ => _ end) _).
      set (g := String.eqb (match option_map upper (c_rawcollate c) with _ => _ end) _).
      clearbody a b d e f g. clear B K. destruct a, b, d, e, f, g; simpl; intuition congruence. }
    rewrite C. clear C B K.
    split.
    - intros (H1 & H2 & (H3 & H4) & H5 & H6 & H7 & _). constructor; auto.
      + destruct (tru_length (c_length c)) eqn:T; [right; auto|left; apply tru_length_no; exact T].
      + destruct (tru_ol (c_enum_values c)) eqn:T; [right; auto|left; apply tru_ol_no; exact T].
    - intros [H1 H2 H3 H4 H5 H6 H7]. repeat split; auto.
      + intros T. destruct H5 as [H5|H5]; [apply tru_length_no in H5; congruence|exact H5].
      + intros T. destruct H6 as [H6|H6]; [apply tru_ol_no in H6; congruence|exact H6].
  Qed.

  Lemma numeric_default_nil c :
    Forall (fun k => k = Errs [])
      (match default_dtype (c_default c) with
       | TStr => [Errs [of_type c ++ " cannot have a string value as a default"]]
       | _ =>
           [err_if (match default_dtype (c_default c) with TFloat => true | _ => false end && negb (smem (c_type c) allow_float))
              (of_type c ++ " must have an integer value as a default");
            if String.eqb (c_type c) "BIT" then
              match int_of_default (c_default c) with
              | Raise e => Fail e
              | Ok z => err_if (negb (Z.eqb z 0) && negb (Z.eqb z 1))
                          ("Column '" ++ c_name c ++ "' of type 'BIT' must have a default of 1 or 0")
              end
            else Errs []]
       end) <->
    match c_default c with
    | DNone | DInt _ => True
    | DStr s => py_int s <> None \/ (float_of_string s <> None /\ In (c_type c) fractional_types)
    end
    /\ (c_type c = "BIT" ->
        exists z, (z = 0%Z \/ z = 1%Z)
                  /\ (c_default c = DInt z \/ exists s, c_default c = DStr s /\ py_int s = Some z)).
  Proof.
    assert (Zb : forall z m, err_if (negb (Z.eqb z 0) && negb (Z.eqb z 1)) m = Errs [] <-> z = 0%Z \/ z = 1%Z).
    { intros z m. rewrite err_if_nil. destruct (Z.eqb_spec z 0), (Z.eqb_spec z 1); simpl; intuition congruence. }
    assert (Bt : forall k, (if String.eqb (c_type c) "BIT" then k else Errs []) = Errs [] <-> (c_type c = "BIT" -> k = Errs [])).
    { intros k. destruct (String.eqb_spec (c_type c) "BIT"); intuition congruence. }
    destruct (c_default c) as [|s|z]; cbn [default_dtype int_of_default].
    - rewrite !forall_cons_iff, forall_nil_iff, Bt. unfold err_if. simpl. split.
      + intros (_ & H & _). split; [exact I|]. intros E. apply H in E. discriminate.
      + intros (_ & H). split; [reflexivity|]. split; [|exact I]. intros E. apply H in E as (z & _ & [E|(s & E & _)]); discriminate.
    - destruct (py_int s) as [z|] eqn:P; [|destruct (float_of_string s) as [f|] eqn:Q].
      + rewrite !forall_cons_iff, forall_nil_iff, Bt, Zb. simpl. unfold err_if. split.
        * intros (_ & H & _). split; [left; discriminate|]. intros E. exists z. split; [auto|right; eauto].
        * intros (_ & H). split; [reflexivity|]. split; [|exact I]. intros E.
          apply H in E as (z' & Hz & [E|(s' & E & P')]); [discriminate|]. injection E as <-. assert (z = z') by congruence. subst. exact Hz.
      + rewrite !forall_cons_iff, forall_nil_iff, Bt, err_if_nil. cbn [andb]. rewrite negb_false_iff, smem_iff. split.
        * intros (H1 & H & _). split; [right; split; [discriminate|exact H1]|]. intros E. apply H in E. discriminate.
        * intros ([H1|[_ H1]] & H); [congruence|]. split; [exact H1|]. split; [|exact I]. intros E.
          apply H in E as (z' & Hz & [E|(s' & E & P')]); [discriminate|]. congruence.
      + rewrite !forall_cons_iff. split; [intros [H _]; discriminate|]. intros ([H|[H _]] & _); congruence.
    - rewrite !forall_cons_iff, forall_nil_iff, Bt, Zb. unfold err_if. simpl. split.
      + intros (_ & H & _). split; [exact I|]. intros E. exists z. auto.
      + intros (_ & H). split; [reflexivity|]. split; [|exact I]. intros E.
        apply H in E as (z' & Hz & [E|(s' & E & P')]); [|discriminate]. injection E as <-. exact Hz.
  Qed.

  Lemma numeric_checks_nil c : Forall (fun k => k = Errs []) (numeric_checks c) <-> numeric_sound c.
  Proof.
    unfold numeric_checks. cbv zeta. rewrite forall_app_iff, numeric_default_nil.
    rewrite !forall_cons_iff, forall_nil_iff, !err_if_nil.
    assert (L : (if tru_length (c_length c) then
                   if smem (c_type c) no_length then Errs [of_type c ++ " cannot have a length"]
                   else err_if (length_has_comma (c_length c) && negb (smem (c_type c) allow_float))
                          (of_type c ++ " must have an integer value as its length")
                 else Errs []) = Errs [] <->
                no_length_given (c_length c)
                \/ (~ In (c_type c) ["FLOAT"; "DOUBLE"; "BIT"]
                    /\ ((forall s, c_length c = LStr s -> has_char ","%char s = false)
                        \/ In (c_type c) fractional_types))).
    { rewrite <- tru_length_no. destruct (tru_length (c_length c)); [|tauto].
      change ["FLOAT"; "DOUBLE"; "BIT"] with no_length. rewrite <- smem_no. destruct (smem (c_type c) no_length); [intuition congruence|].
      rewrite err_if_nil, and_false, negb_false_iff, smem_iff.
      assert (X : (forall s, c_length c = LStr s -> has_char ","%char s = false) <-> length_has_comma (c_length c) = false).
      { unfold length_has_comma. destruct (c_length c); split; intros H; auto; try (intros ? ?; discriminate); intros ? E; congruence. }
      rewrite X. destruct (length_has_comma (c_length c)); intuition congruence. }
    rewrite L. clear L. unfold c_charset, c_collate. rewrite !none_upper, tru_ol_no, and_false, tru_ob_yes, smem_no.
    split.
    - intros ((H1 & H2) & H3 & H4 & H5 & H6 & H7 & _). constructor; auto.
    - intros [H1 H2 H3 H4 H5 H6 H7]. repeat split; auto.
  Qed.

  Lemma enum_checks_nil c : c_autoinc c <> Some true -> c_unsigned c <> Some true ->
    (Forall (fun k => k = Errs []) (enum_checks c) <-> enum_sound c).
  Proof.
    intros A U. unfold enum_checks, enum_default_check. apply tru_ob_no in A, U. rewrite A, U.
    rewrite !forall_cons_iff, forall_nil_iff, !err_if_nil, negb_false_iff. unfold enum_sound. split.
    - intros (H1 & H2 & _). destruct (c_enum_values c) as [[|v vs]|] eqn:E; try discriminate.
      exists (v :: vs). split; [reflexivity|]. split; [discriminate|].
      destruct (c_default c) as [|s|z]; [auto| |].
      + right. right. exists s. split; [reflexivity|]. simpl in H2. unfold truthy in H2. destruct (is_empty s) eqn:X.
        * apply is_empty_iff in X. auto.
        * right. apply smem_iff. cbn [negb] in H2. apply err_if_nil in H2. apply negb_false_iff in H2. exact H2.
      + cbn [tru_default] in H2. destruct (Z.eqb_spec z 0); [subst; auto|]. cbn [negb] in H2. discriminate.
    - intros (vs & -> & N & H). destruct vs as [|v vs]; [contradiction|]. split; [reflexivity|]. split; [|auto].
      destruct H as [->|[->|(s & -> & H)]]; [reflexivity|reflexivity|]. cbn [tru_default]. unfold truthy.
      destruct (is_empty s) eqn:X; [reflexivity|]. cbn [negb]. destruct H as [->|H]; [discriminate|].
      apply err_if_nil. apply negb_false_iff. apply smem_iff. exact H.
  Qed.

  Lemma column_errors_nil c : column_errors c = Ok [] <-> column_sound c.
  Proof.
    rewrite column_errors_iff. unfold column_checked. rewrite run_nil. unfold column_checks, base_checks, column_sound.
    rewrite forall_app_iff, !forall_cons_iff, forall_nil_iff, !err_if_nil.
    assert (N : forall s, is_empty s = false <-> s <> "").
    { intros s. rewrite <- is_empty_iff. destruct (is_empty s); split; congruence. }
    rewrite !N. unfold c_type at 1. rewrite upper_nil.
    destruct (c_kind c).
    - rewrite forall_nil_iff. tauto.
    - rewrite numeric_checks_nil. tauto.
    - rewrite string_checks_nil. tauto.
    - assert (X : ~ Forall (fun k => k = Errs []) (date_checks c)).
      { unfold date_checks. rewrite !forall_cons_iff. intros (_ & _ & _ & _ & H & _). discriminate. }
      tauto.
    - rewrite forall_app_iff, string_checks_nil. split.
      + intros ((H1 & H2 & _) & H3 & H4). split; [exact H1|]. split; [exact H2|]. split; [exact H3|].
        apply enum_checks_nil; [exact (ss_autoinc _ H3)|exact (ss_unsigned _ H3)|exact H4].
      + intros (H1 & H2 & H3 & H4). split; [auto|]. split; [exact H3|].
        apply enum_checks_nil; [exact (ss_autoinc _ H3)|exact (ss_unsigned _ H3)|exact H4].
  Qed.

  Lemma children_nil t : columns_checked t ->
    (concat (map (fun c => map (in_table (t_name t)) (ch_schema c)) (children (fun _ => false) t)) = [] <->
     (forall n c, In (n, c) (t_columns t) -> column_sound c)
     /\ (forall n i, In (n, i) (t_indexes t) -> index_sound i)
     /\ (forall n k, In (n, k) (t_constraints t) -> fk_sound k)).
  Proof.
    intros H. unfold children. rewrite !map_app, !concat_app, !map_map. split.
    - intros E. apply app_eq_nil in E as [E1 E]. apply app_eq_nil in E as [E2 E3].
      rewrite in_concat_nil in E1, E2, E3. split; [|split].
      + intros n c Hc. destruct (H n c Hc) as (l & El). specialize (E1 (map (in_table (t_name t)) l)).
        assert (X : map (in_table (t_name t)) l = []).
        { apply E1. apply in_map_iff. exists c. split; [|eapply in_dvals; eauto].
          apply column_errors_iff in El. unfold column_child. rewrite El. reflexivity. }
        apply map_nil_iff in X. subst. apply column_errors_nil. exact El.
      + intros n i Hi. apply index_errors_nil. apply (map_nil_iff (in_table (t_name t))). apply E2.
        apply in_map_iff. exists i. split; [reflexivity|eapply in_dvals; eauto].
      + intros n k Hk. apply constraint_errors_nil. apply (map_nil_iff (in_table (t_name t))). apply E3.
        apply in_map_iff. exists k. split; [reflexivity|eapply in_dvals; eauto].
    - intros (H1 & H2 & H3).
      rewrite !concat_map_nil; [reflexivity|..]; intros x Hx; apply dvals_in in Hx as (n & Hx); apply map_nil_iff.
      + apply constraint_errors_nil. eauto.
      + apply index_errors_nil. eauto.
      + specialize (H1 n x Hx). apply column_errors_nil, column_errors_iff in H1. unfold column_child. rewrite H1. reflexivity.
  Qed.

  Lemma filter_le1 {A} (p : A -> bool) (l : list A) :
    List.length (filter p l) <= 1 <->
    forall i j x y, nth_error l i = Some x -> nth_error l j = Some y -> p x = true -> p y = true -> i = j.
  Proof.
    induction l as [|a l IH]; simpl.
    - split; [|lia]. intros _ i j x y H. destruct i; discriminate.
    - split.
      + intros H i j x y Hx Hy Px Py. destruct (p a) eqn:Pa; simpl in H.
        * assert (N : forall n z, nth_error l n = Some z -> p z = true -> False).
          { intros n z Hz Pz. assert (In z (filter p l)) by (apply filter_In; split; [eapply nth_error_In; eauto|auto]).
            destruct (filter p l); simpl in *; [contradiction|lia]. }
          destruct i, j; simpl in *; auto; exfalso; eauto.
        * destruct i, j; simpl in *; try (inversion Hx; subst; congruence); try (inversion Hy; subst; congruence).
          f_equal. eapply (proj1 IH H); eauto.
      + intros H. assert (H' : List.length (filter p l) <= 1).
        { apply IH. intros i j x y Hx Hy Px Py. assert (S i = S j); [|congruence]. eapply H; simpl; eauto. }
        destruct (p a) eqn:Pa; [|exact H']. simpl.
        destruct (filter p l) as [|z zs] eqn:E; [simpl; lia|]. exfalso.
        assert (Hz : In z (filter p l)) by (rewrite E; left; reflexivity).
        apply filter_In in Hz as [Hz Pz]. apply In_nth_error in Hz as (n & Hn).
        specialize (H 0 (S n) a z eq_refl Hn Pa Pz). discriminate.
  Qed.

  Lemma one_of {V} (p : V -> bool) (d : dict string V) : NoDup (dkeys d) ->
    (List.length (filter p (dvals d)) <= 1 <->
     forall n v m w, In (n, v) d -> In (m, w) d -> p v = true -> p w = true -> n = m).
  Proof.
    intros ND. rewrite filter_le1. split.
    - intros H n v m w Hv Hw Pv Pw. apply In_nth_error in Hv as (i & Hi). apply In_nth_error in Hw as (j & Hj).
      assert (i = j).
      { apply (H i j v w); auto; unfold dvals; rewrite nth_error_map; [rewrite Hi|rewrite Hj]; reflexivity. }
      subst. congruence.
    - intros H i j x y Hx Hy Px Py. unfold dvals in *. rewrite nth_error_map in Hx, Hy.
      destruct (nth_error d i) as [[n v]|] eqn:Ei; [|discriminate]. destruct (nth_error d j) as [[m w]|] eqn:Ej; [|discriminate].
      simpl in *. inversion Hx; inversion Hy; subst.
      assert (n = m) by (eapply H; eauto using nth_error_In). subst m.
      apply (proj1 (NoDup_nth_error (dkeys d))); auto.
      + unfold dkeys. rewrite map_length. apply nth_error_Some. congruence.
      + unfold dkeys. rewrite !nth_error_map, Ei, Ej. reflexivity.
  Qed.

  Lemma is_primary_iff i : is_primary i = true <-> ix_type i = IPrimary.
  Proof. unfold is_primary. destruct (ix_type i); simpl; split; congruence. Qed.
  Lemma col_auto_iff c : col_auto c = true <-> c_autoinc c = Some true.
  Proof. apply tru_ob_iff. Qed.

  Lemma auto_nil t : kept t -> NoDup (dkeys (t_columns t)) -> List.length (primaries t) <= 1 ->
    (check_list (auto_increment_check t) = [] <->
     (forall n c m d, In (n, c) (t_columns t) -> In (m, d) (t_columns t) ->
        c_autoinc c = Some true -> c_autoinc d = Some true -> n = m)
     /\ (forall n c, In (n, c) (t_columns t) -> c_autoinc c = Some true ->
        exists m i rest, In (m, i) (t_indexes t) /\ ix_type i = IPrimary /\ ix_columns i = n :: rest)).
  Proof.
    intros K ND P1. pose proof (one_of col_auto (t_columns t) ND) as O.
    assert (O' : (forall n c m d, In (n, c) (t_columns t) -> In (m, d) (t_columns t) ->
        c_autoinc c = Some true -> c_autoinc d = Some true -> n = m)
        <-> List.length (filter col_auto (dvals (t_columns t))) <= 1).
    { rewrite O. split; intros H n c m d Hc Hd; [rewrite !col_auto_iff|rewrite <- !col_auto_iff]; eauto. }
    rewrite O'. clear O O'.
    assert (A : forall n c, In (n, c) (t_columns t) -> c_autoinc c = Some true -> In c (filter col_auto (dvals (t_columns t)))).
    { intros n c Hc Ac. apply filter_In. split; [eapply in_dvals; eauto|apply col_auto_iff, Ac]. }
    unfold auto_increment_check. destruct (filter col_auto (dvals (t_columns t))) as [|a [|b l]] eqn:E; simpl.
    - split; [intros _|auto]. split; [lia|]. intros n c Hc Ac. destruct (A n c Hc Ac).
    - assert (Ha : In a (filter col_auto (dvals (t_columns t)))) by (rewrite E; left; reflexivity).
      apply filter_In in Ha as [Ha Aa]. apply dvals_in in Ha as (an & Ha).
      pose proof (kept_named _ K _ _ Ha) as Na.
      assert (U : forall n c, In (n, c) (t_columns t) -> c_autoinc c = Some true -> c = a /\ n = an).
      { intros n c Hc Ac. destruct (A n c Hc Ac) as [<-|[]]. split; [reflexivity|].
        rewrite <- (kept_named _ K _ _ Hc). exact Na. }
      destruct (primaries t) as [|p ps] eqn:Ep.
      + simpl. split; [discriminate|]. intros [_ H]. destruct (H an a Ha) as (m & i & r & Hi & Ti & _).
        { apply col_auto_iff, Aa. }
        assert (In i (primaries t)); [|rewrite Ep in *; contradiction].
        apply filter_In. split; [eapply in_dvals; eauto|apply is_primary_iff, Ti].
      + destruct ps as [|q qs]; [|simpl in P1; lia].
        assert (Hp : In p (primaries t)) by (rewrite Ep; left; reflexivity).
        apply filter_In in Hp as [Hp Tp]. apply dvals_in in Hp as (pn & Hp).
        destruct (ix_columns p) as [|f r] eqn:Ec; [exfalso; exact (kept_keys _ K _ _ Hp Ec)|].
        assert (Ef : first_col p = Ok f) by (apply first_col_ok; eauto). rewrite Ef. simpl.
        rewrite if_nil, negb_false_iff, String.eqb_eq. split.
        * intros ->. split; [lia|]. intros n c Hc Ac. destruct (U n c Hc Ac) as [-> ->].
          exists pn, p, r. rewrite <- Na. repeat split; auto. apply is_primary_iff, Tp.
        * intros [_ H]. destruct (H an a Ha) as (m & i & r' & Hi & Ti & Ei).
          { apply col_auto_iff, Aa. }
          assert (Hi' : In i (primaries t)) by (apply filter_In; split; [eapply in_dvals; eauto|apply is_primary_iff, Ti]).
          rewrite Ep in Hi'. destruct Hi' as [<-|[]]. rewrite Ec in Ei. inversion Ei; subst. reflexivity.
    - split; [discriminate|]. intros [H _]. lia.
  Qed.

  Lemma index_column_errors_nil t : index_column_errors t = [] <->
    forall n i c, In (n, i) (t_indexes t) -> In c (ix_columns i) -> In c (dkeys (t_columns t)).
  Proof.
    unfold index_column_errors. rewrite in_concat_nil. split.
    - intros H n i c Hi Hc.
      assert (X : concat (map (fun c => if dmem c (t_columns t) then []
         else ["Table '" ++ t_name t ++ "' has index '" ++ ix_name i ++ "' that references non-existent column '" ++ c ++ "'"])
         (ix_columns i)) = []).
      { apply H. apply in_map_iff. exists i. split; [reflexivity|eapply in_dvals; eauto]. }
      rewrite in_concat_nil in X. apply dmem_iff.
      destruct (dmem c (t_columns t)) eqn:E; [reflexivity|]. exfalso.
      discriminate (X ["Table '" ++ t_name t ++ "' has index '" ++ ix_name i ++ "' that references non-existent column '" ++ c ++ "'"]).
      apply in_map_iff. exists c. rewrite E. auto.
    - intros H x Hx. apply in_map_iff in Hx as (i & <- & Hi). apply dvals_in in Hi as (n & Hi).
      apply concat_map_nil. intros c Hc. rewrite (proj2 (dmem_iff c (t_columns t))); [reflexivity|eauto].
  Qed.

  Lemma table_errors_iff t : kept t -> NoDup (dkeys (t_columns t)) -> NoDup (dkeys (t_indexes t)) -> columns_checked t ->
    exists l, table_errors t = Ok l /\ (l = [] <-> table_sound t).
  Proof.
    intros K N1 N2 H. destruct (find_all_ok t H (kept_keys _ K)) as (E1 & E2 & _).
    unfold table_errors. rewrite E1. eexists. split; [reflexivity|]. rewrite E2. clear E1 E2.
    pose proof (one_of is_primary (t_indexes t) N2) as O. change (filter is_primary (dvals (t_indexes t))) with (primaries t) in O.
    split.
    - intros E. apply app_eq_nil in E as [A1 E]. apply app_eq_nil in E as [A2 E]. apply app_eq_nil in E as [A3 E].
      apply app_eq_nil in E as [A4 E]. apply app_eq_nil in E as [A5 A6].
      apply if_nil in A1, A2, A4. apply Nat.ltb_ge in A4.
      apply (children_nil t H) in A3 as (C1 & C2 & C3). apply (auto_nil t K N1 A4) in A5 as [B1 B2].
      rewrite index_column_errors_nil in A6.
      constructor; auto.
      + intros X. apply is_empty_iff in X. congruence.
      + destruct (t_columns t); [discriminate|congruence].
      + intros n i m j Hi Hj Ti Tj. apply is_primary_iff in Ti, Tj. eapply (proj1 O A4); eauto.
    - intros S. destruct S as [S1 S2 S3 S4 S5 S6 S7 S8 S9].
      assert (L : List.length (primaries t) <= 1).
      { apply O. intros n i m j Hi Hj Pi Pj. apply is_primary_iff in Pi, Pj. eauto. }
      replace (is_empty (t_name t)) with false by (symmetry; apply not_true_is_false; rewrite is_empty_iff; auto).
      replace (list_is_nil (t_columns t)) with false by (destruct (t_columns t); [contradiction|reflexivity]).
      rewrite (proj2 (children_nil t H)) by auto.
      replace (Nat.ltb 1 (List.length (primaries t))) with false by (symmetry; apply Nat.ltb_ge; exact L).
      rewrite (proj2 (auto_nil t K N1 L)) by auto. rewrite (proj2 (index_column_errors_nil t)) by auto. reflexivity.
  Qed.

  (** ** Columns that raise *)

  (** The exceptions that asking one column for its errors can raise. *)
  Lemma checkable_exn c e : checkable c -> snd (column_checked c) = Some e -> exists m, e = AttributeError m.
  Proof.
    unfold column_checked. destruct (run_checks (column_checks c)) as [l x] eqn:E. simpl. intros H ->.
    apply run_checks_some in E. unfold column_checks in E. rewrite in_app_iff in E. unfold checkable in H.
    assert (B : ~ In (Fail e) (base_checks c)) by (intros [X|[X|[]]]; discriminate).
    destruct E as [E|E]; [contradiction|].
    assert (NS : ~ In (Fail e) (string_checks c)).
    { unfold string_checks. intros [X|[X|[X|[X|[X|[X|[]]]]]]]; try discriminate.
      revert X. destruct (tru_os _ || tru_os _); discriminate. }
    destruct (c_kind c).
    - destruct E.
    - exfalso. unfold numeric_checks in E. rewrite in_app_iff in E. destruct E as [E|E].
      + destruct (default_dtype (c_default c)) eqn:Ed.
        * destruct E as [X|[X|[]]]; [discriminate|]. destruct (String.eqb_spec (c_type c) "BIT"); [|discriminate].
          destruct (H e0) as [(z & Hz)|(s & Hs & [Hp|Hf])]; rewrite ?Hz, ?Hs in *; simpl in *; try discriminate.
          -- destruct (py_int s); [discriminate|]. destruct (float_of_string s); discriminate.
          -- destruct (py_int s); [discriminate|]. destruct (float_of_string s); discriminate.
        * destruct E as [X|[X|[]]]; [discriminate|]. destruct (String.eqb_spec (c_type c) "BIT"); [|discriminate].
          destruct (H e0) as [(z & Hz)|(s & Hs & Hp)]; rewrite ?Hz, ?Hs in *; simpl in *; try discriminate.
          destruct (py_int s); [discriminate|]. destruct (float_of_string s); discriminate.
        * destruct E as [X|[X|[]]]; [discriminate|]. destruct (String.eqb_spec (c_type c) "BIT"); [|discriminate].
          destruct (H e0) as [(z & Hz)|(s & Hs & Hp)]; rewrite ?Hz, ?Hs in *; simpl in *; try discriminate.
          destruct (py_int s); [discriminate|]. destruct (float_of_string s); [|discriminate]. destruct Hp; congruence.
        * destruct E as [X|[]]. discriminate.
      + destruct E as [X|[X|[X|[X|[X|[]]]]]]; try discriminate.
        revert X. destruct (tru_length _); [|discriminate]. destruct (smem _ no_length); discriminate.
    - contradiction.
    - unfold date_checks in E. destruct E as [X|[X|[X|[X|[X|[]]]]]]; try discriminate.
      + destruct (tru_ob (c_autoinc c)) eqn:Ea; [|discriminate]. apply tru_ob_iff in Ea. contradiction.
      + inversion X; subst. eauto.
    - rewrite in_app_iff in E. destruct E as [E|E]; [contradiction|]. exfalso. destruct H as [H1 H2].
      destruct E as [X|[X|[X|[X|[]]]]]; try discriminate.
      + unfold enum_default_check in X. destruct (tru_default (c_default c)) eqn:Ed; [|discriminate].
        destruct (c_enum_values c); [discriminate|].
        destruct (H2 eq_refl) as [E|[E|E]]; rewrite E in Ed; discriminate.
      + destruct (tru_ob (c_autoinc c)) eqn:Ea; [|discriminate]. apply tru_ob_iff in Ea. contradiction.
  Qed.

  Lemma not_checkable_raises c : ~ checkable c -> exists l e, column_checked c = (l, Some e) /\ forall m, e <> AttributeError m.
  Proof.
    unfold checkable, column_checked, column_checks. intros H. rewrite run_checks_app.
    unfold base_checks. cbn [run_checks err_if]. rewrite ?app_nil_r.
    destruct (c_kind c).
    - exfalso; apply H; exact I.
    - destruct (String.eqb_spec (c_type c) "BIT") as [E|E]; [|exfalso; apply H; intros; contradiction].
      unfold numeric_checks. rewrite E.
      destruct (c_default c) as [|s|z] eqn:Ed.
      + simpl. do 2 eexists. split; [reflexivity|]. discriminate.
      + destruct (py_int s) as [z|] eqn:Ep.
        { exfalso. apply H. intros _. right. exists s. split; [reflexivity|]. left. congruence. }
        destruct (float_of_string s) eqn:Ef.
        * unfold int_of_default, default_dtype. rewrite Ep, Ef. simpl. do 2 eexists. split; [reflexivity|]. discriminate.
        * exfalso. apply H. intros _. right. exists s. auto.
      + exfalso. apply H. intros _. left. eauto.
    - exfalso; apply H; exact I.
    - destruct (c_autoinc c) as [[|]|] eqn:Ea; try (exfalso; apply H; discriminate).
      unfold date_checks. rewrite Ea. simpl. do 2 eexists. split; [reflexivity|]. discriminate.
    - rewrite run_checks_app. unfold string_checks. cbn [run_checks err_if].
      destruct (tru_os (c_charset c) || tru_os (c_collate c)); cbn [run_checks].
      all: unfold enum_checks, enum_default_check; cbn [run_checks err_if].
      all: destruct (tru_default (c_default c)) eqn:Ed.
      all: destruct (c_enum_values c) as [l|] eqn:Ev; cbn [run_checks err_if].
      all: try (destruct (c_autoinc c) as [[|]|] eqn:Ea; simpl;
                [do 2 eexists; split; [reflexivity|discriminate]
                |exfalso; apply H; split; [discriminate|];
                 first [ intros X; discriminate X
                       | intros _; destruct (c_default c) as [|s|z]; simpl in Ed;
                         [left; reflexivity
                         |right; left; apply truthy_false in Ed; congruence
                         |right; right; apply negb_false_iff in Ed; apply Z.eqb_eq in Ed; congruence] ]..]).
      all: do 2 eexists; (split; [reflexivity|discriminate]).
  Qed.
End Float.
