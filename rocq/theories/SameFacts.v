(** Which columns are taken for the same, exactly. *)
From Verif Require Import ColFacts.

Section Same.
  Context {FO : FloatOracle}.

  Lemma length_eqb_iff x y : length_eqb x y = true <-> x = y.
  Proof.
    split; [apply length_eqb_eq|]. intros <-. destruct x; cbn; [reflexivity|apply String.eqb_refl|apply Z.eqb_refl|]. apply (list_eqb_eq String.eqb String.eqb_eq). reflexivity.
  Qed.
  Lemma clash_iff x y : attr_clash x y = false <-> forall s t, x = Some s -> y = Some t -> ~ both_differ s t.
  Proof.
    unfold attr_clash, both_differ. destruct x as [s|], y as [t|]; cbn; try (split; [intros _ ? ? E1 E2; discriminate|reflexivity]).
    2: rewrite andb_false_r; cbn; split; [intros _ ? ? E1 E2; discriminate|reflexivity].
    split.
    - intros H s' t' [= <-] [= <-] (H1 & H2 & H3). apply truthy_iff in H1, H2. rewrite H1, H2 in H. cbn in H. apply negb_false_iff, String.eqb_eq in H. contradiction.
    - intros H. destruct (truthy s) eqn:T1; [|reflexivity]. destruct (truthy t) eqn:T2; [|reflexivity]. cbn. apply negb_false_iff, String.eqb_eq.
      destruct (String.eqb_spec s t) as [E|E]; [exact E|]. exfalso. apply (H s t eq_refl eq_refl). apply truthy_iff in T1, T2. auto.
  Qed.

  Lemma dnone_iff d : is_dnone d = true <-> d = DNone.
  Proof. destruct d; cbn; split; congruence. Qed.

  Lemma numeric_true a b : numeric_same_default a b = Ok true <-> same_number a b.
  Proof.
    assert (Z : c_default a = DNone \/ c_default b = DNone -> (numeric_same_default a b = Ok true <-> c_default a = DNone /\ c_default b = DNone)).
    { unfold numeric_same_default. intros [E|E]; rewrite E; [destruct (c_default b); split; intuition congruence|destruct (c_default a); split; intuition congruence]. }
    destruct (is_dnone (c_default a)) eqn:Da; [apply dnone_iff in Da|destruct (is_dnone (c_default b)) eqn:Db; [apply dnone_iff in Db|]].
    1,2: rewrite Z by auto; unfold same_number; split; [auto|]; intros [H|[(_ & f & g & F & G & _)|(_ & H1 & H2 & _)]]; [exact H| |contradiction].
    1: rewrite Da in F; destruct F. 1: rewrite Db in G; destruct G.
    assert (Na : c_default a <> DNone) by (intros E; rewrite E in Da; discriminate). assert (Nb : c_default b <> DNone) by (intros E; rewrite E in Db; discriminate). clear Z.
    unfold same_number, numeric_same_default. destruct (c_default a) as [|sa|za] eqn:Ea; [contradiction| |]; (destruct (c_default b) as [|sb|zb] eqn:Eb; [contradiction| |]).
    all: rewrite <- Ea, <- Eb in *; clear Da Db.
    all: destruct (String.eqb_spec (c_type a) "DECIMAL") as [T|T]; cbn [negb].
    all: match goal with
      | |- (let* x := _ in _) = _ <-> _ =>
          split;
          [intros H; apply bind_ok in H as (f & F & H); apply bind_ok in H as (g & G & [= H]); apply number_float in F, G; right; left; split; [exact T|]; exists f, g; auto
          |intros [[H _]|[(_ & f & g & F & G & H)|(H & _)]]; [contradiction| |contradiction]; apply number_float in F, G; rewrite F, G; cbn [bind]; rewrite H; reflexivity]
      | _ => idtac end.
    all: split.
    all: try (intros H; destruct (c_length a) as [|s|z|l] eqn:L; try discriminate; right; right; split; [exact T|split; [exact Na|split; [exact Nb|exists s; split; [reflexivity|]]]];
      destruct (split_char _ s) as [|p [|d [|q r]]] eqn:Sp;
      [right; split; [intros; discriminate|]; injection H as H; apply default_eqb_eq, H
      |right; split; [intros; discriminate|]; injection H as H; apply default_eqb_eq, H
      |left; destruct (py_int d) as [n|] eqn:P; [|discriminate]; apply bind_ok in H as (f & F & H); apply bind_ok in H as (f' & F' & H); apply bind_ok in H as (g & G & H); apply bind_ok in H as (g' & G' & [= H]);
         apply number_float in F, G; unfold round_f in F', G'; exists p, d, n, f, g, f', g'; destruct (float_round f n); [|discriminate]; destruct (float_round g n); [|discriminate];
         apply orb_true_iff in H; rewrite default_eqb_eq in H; repeat (split; [first [reflexivity|assumption|congruence]|]); exact H
      |right; split; [intros; discriminate|]; injection H as H; apply default_eqb_eq, H]).
    all: intros [[H _]|[(H & _)|(_ & _ & _ & s & L & H)]]; try contradiction; rewrite L; destruct H as [(p & d & n & f & g & f' & g' & Sp & P & F & G & F' & G' & H)|(Sp & H)].
    all: try (rewrite Sp, P; apply number_float in F, G; rewrite F, G; unfold round_f; cbn [bind]; rewrite F', G'; cbn [bind]; f_equal; apply orb_true_iff; rewrite default_eqb_eq; exact H).
    all: destruct (split_char _ s) as [|p [|d [|q r]]]; try (exfalso; exact (Sp _ _ eq_refl)); f_equal; apply default_eqb_eq, H.
  Qed.

  Lemma same_common_iff wl a b : same_common wl a b = Ok true <->
    c_name a = c_name b /\ (wl = true -> c_length a = c_length b) /\ c_null a = c_null b
    /\ c_type a = c_type b /\ tru_ob (c_unsigned a) = tru_ob (c_unsigned b)
    /\ default_none_mismatch a b = false /\ same_default a b = Ok true.
  Proof.
    split; [apply same_common_true|]. intros (E1 & E2 & E3 & E4 & E5 & E6 & E7). unfold same_common.
    rewrite E1, E3, E4, E5, E6, !String.eqb_refl, !Bool.eqb_reflx. cbn [negb]. destruct wl; cbn [andb]; [rewrite (proj2 (length_eqb_iff _ _) (E2 eq_refl))|]; exact E7.
  Qed.

  (** [a.is_really_the_same_as(b)], in terms of what the columns say. *)
  Lemma really_same_iff : forall a b, really_same a b = Ok true <-> no_difference a b.
  Proof.
    intros a b. unfold no_difference.
    assert (Df : forall k, c_kind a = k -> (default_none_mismatch a b = false /\ same_default a b = Ok true)
      <-> (no_default_type a \/ (c_kind a <> KNumeric /\ c_default a = c_default b) \/ (c_kind a = KNumeric /\ same_number a b))).
    { intros k K. rewrite no_default_type_iff. unfold default_none_mismatch, same_default. rewrite K. destruct k; cbn [is_string_kind andb].
      1: { rewrite negb_false_iff. split.
           - intros [_ [= H]]. apply default_eqb_eq in H. right. left. split; [discriminate|exact H].
           - intros [H|[[_ H]|[H _]]]; try discriminate. rewrite H, Bool.eqb_reflx. split; [reflexivity|]. f_equal. apply default_eqb_eq. reflexivity. }
      1: { rewrite negb_false_iff, numeric_true. split; [intros [_ H]; auto|]. intros [H|[[H _]|[_ H]]]; [discriminate|contradiction|]. split; [|exact H].
           destruct H as [(H1 & H2)|[(_ & f & g & F & G & _)|(_ & H1 & H2 & _)]]; [rewrite H1, H2; reflexivity|destruct (c_default a), (c_default b); cbn in *; try contradiction; reflexivity|].
           destruct (c_default a), (c_default b); try contradiction; reflexivity. }
      2: { rewrite negb_false_iff. split.
           - intros [_ [= H]]. apply default_eqb_eq in H. right. left. split; [discriminate|exact H].
           - intros [H|[[_ H]|[H _]]]; try discriminate. rewrite H, Bool.eqb_reflx. split; [reflexivity|]. f_equal. apply default_eqb_eq. reflexivity. }
      all: destruct (smem (c_type a) no_literal_default_types); [split; auto|]; rewrite negb_false_iff; split;
        [intros [_ [= H]]; apply default_eqb_eq in H; right; left; split; [discriminate|exact H]
        |intros [H|[[_ H]|[H _]]]; try discriminate; rewrite H, Bool.eqb_reflx; split; [reflexivity|]; f_equal; apply default_eqb_eq; reflexivity]. }
    specialize (Df _ eq_refl).
    assert (Len : forall wl, (wl = false <-> integer_type a) -> ((wl = true -> c_length a = c_length b) <-> integer_type a \/ c_length a = c_length b)).
    { intros [] W; split; [auto|intros [H|H] _; [apply W in H; discriminate|exact H]|intros _; left; apply W; reflexivity|intros _ X; discriminate]. }
    assert (Int : negb (smem (c_type a) integer_types) = false <-> In (c_type a) ["INT"; "INTEGER"; "TINYINT"; "SMALLINT"; "MEDIUMINT"; "BIGINT"]) by (rewrite negb_false_iff, smem_iff; reflexivity).
    assert (Rest : forall wl, (wl = false <-> integer_type a) -> (same_common wl a b = Ok true <-> c_name a = c_name b /\ c_type a = c_type b /\ c_null a = c_null b /\ tru_ob (c_unsigned a) = tru_ob (c_unsigned b)
        /\ (integer_type a \/ c_length a = c_length b) /\ (no_default_type a \/ (c_kind a <> KNumeric /\ c_default a = c_default b) \/ (c_kind a = KNumeric /\ same_number a b)))).
    { intros wl W. rewrite same_common_iff, <- Df, <- (Len wl W). clear. tauto. }
    assert (Plain : forall (A B C D E F G X : Prop), ~ X -> (A /\ B /\ C /\ D /\ E /\ F <-> A /\ B /\ C /\ D /\ E /\ F /\ (X -> G))) by (clear; tauto).
    unfold really_same. destruct (c_kind a) eqn:K; cbn [is_string_kind].
    - rewrite (Rest true) by (unfold integer_type; rewrite K; split; [discriminate|intros [[=] _]]). apply Plain. discriminate.
    - rewrite (Rest (negb (smem (c_type a) integer_types))) by (unfold integer_type; rewrite K, Int; clear; tauto). apply Plain. discriminate.
    - pose proof (Rest true) as R. destruct (same_common true a b) as [[]|e]; cbn [bind negb].
      + rewrite <- !clash_iff. rewrite <- K in *.
        assert (E : forall x y, Ok (negb x && negb y) = Ok true <-> x = false /\ y = false) by (intros [] []; cbn; intuition congruence).
        rewrite E. destruct (proj1 (R ltac:(unfold integer_type; rewrite K; split; [discriminate|intros [[=] _]])) eq_refl) as (H1 & H2 & H3 & H4 & H5 & H6). split; [intros [? ?]; do 6 (split; [assumption|]); intros _; split; assumption|]. intros (_ & _ & _ & _ & _ & _ & H). exact (H eq_refl).
      + split; [discriminate|]. intros (H1 & H2 & H3 & H4 & H5 & H6 & _). rewrite <- K in *. assert (X : Ok false = Ok true) by (apply R; [unfold integer_type; rewrite K; split; [discriminate|intros [[=] _]]|repeat (split; [assumption|]); exact H6]). discriminate.
      + split; [discriminate|]. intros (H1 & H2 & H3 & H4 & H5 & H6 & _). rewrite <- K in *. assert (X : Raise e = Ok true) by (apply R; [unfold integer_type; rewrite K; split; [discriminate|intros [[=] _]]|repeat (split; [assumption|]); exact H6]). discriminate.
    - rewrite (Rest true) by (unfold integer_type; rewrite K; split; [discriminate|intros [[=] _]]). apply Plain. discriminate.
    - pose proof (Rest true) as R. destruct (same_common true a b) as [[]|e]; cbn [bind negb].
      + rewrite <- !clash_iff. rewrite <- K in *.
        assert (E : forall x y, Ok (negb x && negb y) = Ok true <-> x = false /\ y = false) by (intros [] []; cbn; intuition congruence).
        rewrite E. destruct (proj1 (R ltac:(unfold integer_type; rewrite K; split; [discriminate|intros [[=] _]])) eq_refl) as (H1 & H2 & H3 & H4 & H5 & H6). split; [intros [? ?]; do 6 (split; [assumption|]); intros _; split; assumption|]. intros (_ & _ & _ & _ & _ & _ & H). exact (H eq_refl).
      + split; [discriminate|]. intros (H1 & H2 & H3 & H4 & H5 & H6 & _). rewrite <- K in *. assert (X : Ok false = Ok true) by (apply R; [unfold integer_type; rewrite K; split; [discriminate|intros [[=] _]]|repeat (split; [assumption|]); exact H6]). discriminate.
      + split; [discriminate|]. intros (H1 & H2 & H3 & H4 & H5 & H6 & _). rewrite <- K in *. assert (X : Raise e = Ok true) by (apply R; [unfold integer_type; rewrite K; split; [discriminate|intros [[=] _]]|repeat (split; [assumption|]); exact H6]). discriminate.
  Qed.
End Same.
