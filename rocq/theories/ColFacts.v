(** The column comparison sees every meaningful difference but AUTO_INCREMENT and enum values. *)
From Verif Require Export SpecColumn DiffMore.

Lemma length_eqb_eq x y : length_eqb x y = true -> x = y.
Proof.
  destruct x, y; simpl; intros H; try discriminate; try reflexivity.
  - apply String.eqb_eq in H. congruence.
  - apply Z.eqb_eq in H. congruence.
  - apply (list_eqb_eq String.eqb String.eqb_eq) in H. congruence.
Qed.
Lemma default_eqb_eq x y : default_eqb x y = true <-> x = y.
Proof.
  destruct x, y; simpl; split; intros H; try discriminate; try reflexivity.
  - apply String.eqb_eq in H. congruence.
  - injection H as ->. apply String.eqb_refl.
  - apply Z.eqb_eq in H. congruence.
  - injection H as ->. apply Z.eqb_refl.
Qed.
Lemma bool_eqb_false a b : a <> b -> Bool.eqb a b = false.
Proof. destruct a, b; simpl; congruence. Qed.

Section Float.
  Context {FO : FloatOracle}.

  Lemma same_common_true wl a b :
    same_common wl a b = Ok true ->
    c_name a = c_name b /\ (wl = true -> c_length a = c_length b) /\ c_null a = c_null b
    /\ c_type a = c_type b /\ tru_ob (c_unsigned a) = tru_ob (c_unsigned b)
    /\ default_none_mismatch a b = false /\ same_default a b = Ok true.
  Proof.
    unfold same_common. intros H.
    destruct (String.eqb (c_name a) (c_name b)) eqn:E1; simpl in H; [|discriminate].
    destruct (wl && negb (length_eqb (c_length a) (c_length b))) eqn:E2; simpl in H; [discriminate|].
    destruct (Bool.eqb (c_null a) (c_null b)) eqn:E3; simpl in H; [|discriminate].
    destruct (String.eqb (c_type a) (c_type b)) eqn:E4; simpl in H; [|discriminate].
    destruct (Bool.eqb (tru_ob (c_unsigned a)) (tru_ob (c_unsigned b))) eqn:E5; simpl in H; [|discriminate].
    destruct (default_none_mismatch a b) eqn:E6; [discriminate|].
    apply String.eqb_eq in E1, E4. apply eqb_prop in E3, E5. repeat split; auto.
    intros ->. simpl in E2. apply negb_false_iff in E2. apply length_eqb_eq, E2.
  Qed.

  Lemma really_same_common a b :
    really_same a b = Ok true -> exists wl, same_common wl a b = Ok true
      /\ (wl = false -> integer_type a)
      /\ (is_string_kind (c_kind a) = true ->
          attr_clash (c_collate a) (c_collate b) = false /\ attr_clash (c_charset a) (c_charset b) = false).
  Proof.
    unfold really_same. intros H. destruct (c_kind a) eqn:K.
    - exists true. split; [assumption|]. split; [discriminate|]. simpl; discriminate.
    - exists (negb (smem (c_type a) integer_types)). split; [assumption|]. split; [|simpl; discriminate].
      intros E. apply negb_false_iff, smem_iff in E. split; assumption.
    - apply bind_ok in H as (r & H & E). destruct r; [|discriminate]. simpl in E. injection E as E.
      apply andb_true_iff in E as [E1 E2]. apply negb_true_iff in E1, E2.
      exists true. split; [assumption|]. split; [discriminate|]. auto.
    - exists true. split; [assumption|]. split; [discriminate|]. simpl; discriminate.
    - apply bind_ok in H as (r & H & E). destruct r; [|discriminate]. simpl in E. injection E as E.
      apply andb_true_iff in E as [E1 E2]. apply negb_true_iff in E1, E2.
      exists true. split; [assumption|]. split; [discriminate|]. auto.
  Qed.

  Lemma no_default_type_iff a :
    no_default_type a <-> is_string_kind (c_kind a) && smem (c_type a) no_literal_default_types = true.
  Proof. unfold no_default_type. rewrite andb_true_iff, smem_iff. reflexivity. Qed.

  Lemma attr_clash_both x y s t :
    x = Some s -> y = Some t -> both_differ s t -> attr_clash x y = true.
  Proof.
    intros -> -> (H1 & H2 & H3). unfold attr_clash. simpl. apply truthy_iff in H1, H2. rewrite H1, H2. simpl.
    destruct (String.eqb_spec s t); [contradiction|reflexivity].
  Qed.

  Lemma same_default_plain a b :
    c_kind a <> KNumeric -> is_string_kind (c_kind a) && smem (c_type a) no_literal_default_types = false ->
    same_default a b = Ok true -> default_eqb (c_default a) (c_default b) = true.
  Proof.
    unfold same_default. intros K ND H. destruct (c_kind a); try congruence;
      cbn [is_string_kind andb] in ND; try rewrite ND in H; injection H as H; exact H.
  Qed.

  Lemma number_float d f : number d f <-> float_of_default d = Ok f.
  Proof.
    destruct d as [|s|z]; cbn [number float_of_default]; [split; [intros []|discriminate]|destruct (float_of_string s)|destruct (float_of_int z)]; split; congruence.
  Qed.

  Lemma numeric_default_differs a b :
    c_default a <> c_default b -> different_numbers a b -> numeric_same_default a b = Ok true -> False.
  Proof.
    intros Nd (x & y & Fx & Fy & D) H. apply number_float in Fx, Fy. unfold numeric_same_default in H.
    assert (N : c_default a <> DNone /\ c_default b <> DNone).
    { split; intros E; rewrite E in *; discriminate. }
    assert (G : (if negb (String.eqb (c_type a) "DECIMAL") then
          let* x := float_of_default (c_default a) in
          let* y := float_of_default (c_default b) in
          Ok (float_eqb x y)
        else
          match c_length a with
          | LStr s =>
              match split_char ","%char s with
              | [_; d] =>
                  match py_int d with
                  | None => Raise (ValueError "invalid literal for int()")
                  | Some n =>
                      let* x := float_of_default (c_default a) in
                      let* x' := round_f x n in
                      let* y := float_of_default (c_default b) in
                      let* y' := round_f y n in
                      Ok (float_eqb x' y' || default_eqb (c_default a) (c_default b))
                  end
              | _ => Ok (default_eqb (c_default a) (c_default b))
              end
          | _ => Raise (AttributeError "object has no attribute 'split'")
          end) = Ok true).
    { destruct N as [N1 N2]. destruct (c_default a); [congruence| |]; destruct (c_default b); try congruence; exact H. }
    clear H. assert (De : default_eqb (c_default a) (c_default b) = false).
    { apply not_true_iff_false. rewrite default_eqb_eq. exact Nd. }
    rewrite De, Fx, Fy in G. cbn [bind] in G.
    destruct D as [[T F]|(T & _ & F)].
    - rewrite (proj2 (String.eqb_neq _ _) T) in G. cbn [negb] in G. congruence.
    - rewrite T, String.eqb_refl in G. cbn [negb] in G.
      destruct (c_length a) as [|s| |]; try discriminate.
      destruct (split_char "," s) as [|? [|d [|? ?]]]; try discriminate.
      destruct (py_int d) as [n|]; [|discriminate].
      unfold round_f in G. destruct (float_round x n) as [x'|] eqn:H1; [|discriminate]. cbn [bind] in G.
      destruct (float_round y n) as [y'|] eqn:H2; [|discriminate]. cbn [bind] in G.
      rewrite (F n x' y' H1 H2) in G. discriminate.
  Qed.

  Lemma not_really_same a b : meaningful a b -> really_same a b <> Ok true.
  Proof.
    intros M H. pose proof H as H0. apply really_same_common in H as (wl & H & Hwl & Hs).
    apply same_common_true in H as (En & El & Enull & Et & Eu & Ed & Esd).
    destruct M as [M|NI Mp Ml|M|M|M|M|M]; try contradiction.
    - destruct wl; [apply Ml; auto|]. apply NI. auto.
    - destruct M as [ND M]. rewrite no_default_type_iff in ND.
      apply not_true_iff_false in ND. unfold default_none_mismatch in Ed. rewrite ND in Ed.
      apply negb_false_iff, eqb_prop in Ed.
      destruct M as [[M1 M2]|[[M1 M2]|[[M1 M2]|(M1 & M2 & M3)]]].
      + rewrite M1 in Ed. destruct (c_default b); simpl in Ed; congruence.
      + rewrite M2 in Ed. destruct (c_default a); simpl in Ed; congruence.
      + apply M2. f_equal. apply default_eqb_eq. apply (same_default_plain a b); auto.
      + unfold same_default in Esd. rewrite M1 in Esd. revert Esd. apply numeric_default_differs; [|exact M3].
        intros E. rewrite E in M2. contradiction.
    - unfold charset_text in M. destruct (is_string_kind (c_kind a)) eqn:K; [|destruct M as [[] _]; reflexivity].
      destruct (Hs eq_refl) as [_ C]. destruct (is_string_kind (c_kind b)); [|destruct M as (_ & [] & _); reflexivity].
      destruct (c_charset a) eqn:Ca; [|destruct M as [[] _]; reflexivity].
      destruct (c_charset b) eqn:Cb; [|destruct M as (_ & [] & _); reflexivity].
      rewrite (attr_clash_both _ _ s s0 eq_refl eq_refl M) in C. discriminate.
    - unfold collate_text in M. destruct (is_string_kind (c_kind a)) eqn:K; [|destruct M as [[] _]; reflexivity].
      destruct (Hs eq_refl) as [C _]. destruct (is_string_kind (c_kind b)); [|destruct M as (_ & [] & _); reflexivity].
      destruct (c_collate a) eqn:Ca; [|destruct M as [[] _]; reflexivity].
      destruct (c_collate b) eqn:Cb; [|destruct M as (_ & [] & _); reflexivity].
      rewrite (attr_clash_both _ _ s s0 eq_refl eq_refl M) in C. discriminate.
  Qed.

  Lemma meaningful_text a b :
    clean_column a = true -> clean_column b = true -> c_name a = c_name b -> meaningful a b ->
    column_str a <> column_str b.
  Proof.
    intros Ca Cb En M E.
    destruct (column_text_determines a b Ca Cb En E) as (Et & Ep & Eu & Ek & Ed & _ & Ec & Eo).
    destruct M as [M|NI Mp Ml|M|M|M|(_ & _ & M)|(_ & _ & M)]; try contradiction.
    destruct M as [_ [[M1 M2]|[[M1 M2]|[[M1 M2]|(M1 & M2 & M3)]]]]; try contradiction.
    - rewrite M1 in Ed. destruct (c_default b); simpl in Ed; congruence.
    - rewrite M2 in Ed. destruct (c_default a); simpl in Ed; congruence.
  Qed.

  Lemma meaningful_changed a b r :
    clean_column a = true -> clean_column b = true -> c_name a = c_name b -> meaningful a b ->
    column_changed a b = Ok r -> r = true.
  Proof.
    intros Ca Cb En M H. unfold column_changed in H.
    destruct (String.eqb_spec (column_str a) (column_str b)) as [E|E]; [exfalso; revert E; apply meaningful_text; auto|].
    apply bind_ok in H as (s & Hs & [= <-]). pose proof (not_really_same a b M) as N. destruct s; [contradiction|reflexivity].
  Qed.

  Lemma meaningful_in src tgt alters n a b :
    wf_table src -> wf_table tgt -> diff src tgt = Ok alters ->
    In (n, a) (t_columns src) -> In (n, b) (t_columns tgt) ->
    clean_column a = true -> clean_column b = true -> meaningful a b ->
    In (ChangeColumn b) (concat (map al_ops alters)).
  Proof.
    intros Ws Wt D Ha Hb Ca Cb M. apply (column_changed_in src tgt alters n a b); auto.
    pose proof D as D0. apply diff_iff in D0 as [C _]; auto. destruct (C n a b Ha Hb) as (r & Hr).
    rewrite Hr. f_equal. apply (meaningful_changed a b); auto.
    rewrite (wf_cols_named _ Ws n a Ha), (wf_cols_named _ Wt n b Hb). reflexivity.
  Qed.
End Float.
