(** Exact forms of properties that hold only under a condition: the condition is also necessary.
    C25, C28, C29. *)
From Verif Require Import ExactSql RowRead.

(** ** C25 *)

(** A call fails, with IndexError, exactly if a row has no value at the position of the id column; that
    needs an INSERT with a column list. *)
Theorem C25_exact : forall t r,
  snd (add_rows t r) = None /\
    ~ (r_explicit r <> 0 /\ In "id" (insert_columns t r)
       /\ exists vals, In vals (r_raw r) /\ forall v, ~ value_for "id" (insert_columns t r) vals v)
  \/ (exists m, snd (add_rows t r) = Some (IndexError m)) /\
     r_explicit r <> 0 /\ In "id" (insert_columns t r)
     /\ exists vals, In vals (r_raw r) /\ forall v, ~ value_for "id" (insert_columns t r) vals v.
Proof.
  intros t r. unfold add_rows.
  assert (Ec : (if negb (Nat.eqb (r_explicit r) 0) then r_columns r else dkeys (t_columns t)) = insert_columns t r).
  { unfold insert_columns. destruct (r_explicit r); reflexivity. }
  rewrite Ec. destruct (smem "id" (insert_columns t r)) eqn:Sm; cbn [negb].
  2: { left. split; [reflexivity|]. intros (_ & I & _). apply smem_false in Sm. contradiction. }
  apply smem_iff in Sm. set (cols := insert_columns t r) in *. set (explicit := negb (Nat.eqb (r_explicit r) 0)).
  assert (G : forall l st,
    (snd (add_rows_loop (t_name t) explicit cols (list_index "id" cols) l st) = None
       /\ ~ (r_explicit r <> 0 /\ exists vals, In vals l /\ forall v, ~ value_for "id" cols vals v))
    \/ ((exists m, snd (add_rows_loop (t_name t) explicit cols (list_index "id" cols) l st) = Some (IndexError m))
        /\ r_explicit r <> 0 /\ exists vals, In vals l /\ forall v, ~ value_for "id" cols vals v)).
  { induction l as [|vals l IH]; intros [rows errs]; cbn [add_rows_loop].
    - left. split; [reflexivity|]. intros (_ & v & [] & _).
    - assert (D : (exists st', add_one_row (t_name t) explicit cols (list_index "id" cols) (rows, errs) vals = Ok st'
                     /\ ~ (r_explicit r <> 0 /\ forall v, ~ value_for "id" cols vals v))
              \/ (exists m, add_one_row (t_name t) explicit cols (list_index "id" cols) (rows, errs) vals = Raise (IndexError m)
                     /\ r_explicit r <> 0 /\ forall v, ~ value_for "id" cols vals v)).
      { unfold add_one_row. destruct (nth_error vals (list_index "id" cols)) as [v|] eqn:Nv.
        - left. assert (V : ~ (r_explicit r <> 0 /\ forall v, ~ value_for "id" cols vals v)).
          { intros [_ H]. apply (H v). apply value_for_nth; assumption. }
          destruct (negb explicit && negb (Nat.eqb (List.length vals) (List.length cols))); [eauto|].
          destruct (is_empty (rval_str v)); [eauto|]. destruct (dmem (rval_str v) rows); eauto.
        - assert (V : forall v, ~ value_for "id" cols vals v).
          { intros v H. apply value_for_nth in H; [|assumption]. congruence. }
          destruct explicit eqn:Ex; cbn [negb andb].
          + right. eexists. split; [reflexivity|]. split; [|exact V]. unfold explicit in Ex. intros H. rewrite H in Ex. discriminate.
          + left. assert (N : ~ r_explicit r <> 0).
            { intros H. unfold explicit in Ex. destruct (r_explicit r); [congruence|discriminate]. }
            destruct (Nat.eqb_spec (List.length vals) (List.length cols)) as [El|_]; cbn [negb]; [|eexists; split; [reflexivity|tauto]].
            exfalso. apply nth_error_None in Nv. destruct (list_index_spec "id" cols Sm) as (l2 & E & _ & Hl).
            apply (f_equal (@List.length string)) in E. rewrite app_length, Hl in E. simpl in E. lia. }
      destruct D as [(st' & -> & N)|(m & -> & N1 & N2)].
      + destruct (IH st') as [[E H]|(E & H1 & v & Iv & H2)].
        * left. split; [exact E|]. intros (H1 & v & [<-|Iv] & H2); [apply N; auto|]. apply H. eauto.
        * right. split; [exact E|]. split; [exact H1|]. exists v. split; [right; exact Iv|exact H2].
      + right. split; [exists m; reflexivity|]. split; [exact N1|]. exists vals. split; [left; reflexivity|exact N2]. }
  specialize (G (r_raw r) (match t_rows t with Some d => d | None => [] end, t_global_errors t +++ r_perrors r)).
  destruct (add_rows_loop _ _ _ _ _ _) as [[rows' ge'] e]. cbn [snd] in *. destruct G as [[-> H]|(E & H1 & H2)].
  - left. split; [reflexivity|]. intros (H1 & _ & H2). auto.
  - right. auto.
Qed.

(** ** C28, C29 *)

(** Between quotes the text stands for itself: it has no quote, and a backslash only before % or _,
    where MySQL keeps it. *)
Definition verbatim (s : string) : Prop :=
  (forall a b, s <> a ++ String squote b)
  /\ (forall a b, s = a ++ String backslash b -> exists c r, b = String c r /\ (c = "%"%char \/ c = "_"%char)).

Lemma verbatim_iff : forall s, verbatimb s = true <-> verbatim s.
Proof.
  refine (string_ind2 _ _). intros n IH s L. destruct s as [|c s]; cbn [verbatimb].
  - split; [intros _|reflexivity]. split; intros [|x a] b; discriminate.
  - assert (St : forall c0 s0, String c0 s0 = s \/ s0 = s -> (String.length s0 < n)%nat) by (intros c0 s0 E; rewrite <- L; destruct E as [<-| ->]; simpl; lia).
    destruct (Ascii.eqb_spec c squote) as [->|Nq].
    { split; [discriminate|]. intros [H _]. exfalso. apply (H "" s). reflexivity. }
    destruct (Ascii.eqb_spec c backslash) as [->|Nb].
    + destruct s as [|d s].
      * split; [discriminate|]. intros [_ H]. destruct (H "" "" eq_refl) as (c & r & E & _). discriminate.
      * rewrite andb_true_iff, IH by (apply (St d); auto). split.
        -- intros [Hd [V1 V2]]. assert (D : d = "%"%char \/ d = "_"%char) by (apply orb_true_iff in Hd as [Hd|Hd]; apply Ascii.eqb_eq in Hd; auto).
           assert (Nd : d <> squote /\ d <> backslash) by (destruct D; subst d; split; discriminate). destruct Nd as [N1 N2]. split.
           ++ intros [|x [|y a]] b E; [discriminate|injection E as _ E _; congruence|injection E as _ _ E; eapply V1, E].
           ++ intros [|x [|y a]] b E.
              ** injection E as <-. eauto.
              ** injection E as _ E _. congruence.
              ** injection E as _ _ E. eapply V2, E.
        -- intros [V1 V2]. destruct (V2 "" _ eq_refl) as (x & r & E & D). injection E as <- <-.
           split; [destruct D; subst d; reflexivity|]. split.
           ++ intros a b E. apply (V1 (String backslash (String d a)) b). rewrite E. reflexivity.
           ++ intros a b E. apply (V2 (String backslash (String d a)) b). rewrite E. reflexivity.
    + rewrite IH by (apply (St c); auto). split.
      * intros [V1 V2]. split.
        -- intros [|x a] b E; [injection E as E _; congruence|injection E as _ E; eapply V1, E].
        -- intros [|x a] b E; [injection E as E _; congruence|injection E as _ E; eapply V2, E].
      * intros [V1 V2]. split.
        -- intros a b E. apply (V1 (String c a) b). rewrite E. reflexivity.
        -- intros a b E. apply (V2 (String c a) b). rewrite E. reflexivity.
Qed.

(** A DELETE reads as the deletion of the row with that id exactly for these ids. *)
Theorem C29_delete_exact : forall t id, has_char bquote t = false ->
  (tokens (op_str (ORowDelete t id))
     = Some [TWord "DELETE"; TWord "FROM"; TName t; TWord "WHERE"; TWord "id"; TPunct "="; TText id; TPunct ";"]
   <-> verbatim id).
Proof. intros t id H. rewrite <- verbatim_iff. apply delete_exact. unfold good_name. rewrite H. reflexivity. Qed.

(** An UPDATE reads as setting the columns to the values in the row with that id exactly if no value has
    a quote and the id is such a text. *)
Theorem C28_update_exact : forall t d id, has_char bquote t = false ->
  (forall c, In c (dkeys d) -> has_char bquote c = false) -> dget "id" d = Some id ->
  (tokens (op_str (ORowUpdate t d))
     = Some ([TWord "UPDATE"; TName t; TWord "SET"]
             +++ commas (map (fun p => [TName (fst p); TPunct "="] +++ value_tokens (snd p))
                   (filter (fun p => negb (String.eqb (fst p) "id")) d))
             +++ [TWord "WHERE"; TWord "id"; TPunct "="; TText (rval_str id); TPunct ";"])
   <-> (forall c v, In (c, v) d -> c <> "id" -> has_char squote (rval_str v) = false) /\ verbatim (rval_str id)).
Proof.
  intros t d id Ht Hd Hi. rewrite <- verbatim_iff. rewrite <- (update_exact t d id).
  - cbn [op_tokens]. rewrite Hi. reflexivity.
  - unfold good_name. rewrite Ht. reflexivity.
  - intros c Hc. unfold good_name. rewrite (Hd c Hc). reflexivity.
  - exact Hi.
Qed.

(** ** Samples *)
Example ex_C25_exact : exists t r vals, r_explicit r <> 0 /\ In "id" (insert_columns t r) /\ In vals (r_raw r)
  /\ forall v, ~ value_for "id" (insert_columns t r) vals v.
Proof.
  exists (mkTable "t" [] [] [] [] None None None false [] [] false), (mkRows "t" [[RStr "x"]] ["name"; "id"] 2 [] []), [RStr "x"].
  split; [discriminate|]. split; [right; left; reflexivity|]. split; [left; reflexivity|].
  intros v H. apply value_for_nth in H; [|right; left; reflexivity]. discriminate.
Qed.
Example ex_verbatim : verbatim "50\% of a\_b" /\ ~ verbatim "a\b" /\ ~ verbatim "it's" /\ ~ verbatim "end\".
Proof. rewrite <- !verbatim_iff. repeat split; discriminate. Qed.

Print Assumptions C25_exact.
Print Assumptions C28_update_exact.
Print Assumptions C29_delete_exact.
