(** Reading foreign keys: rendered ones, and those written in any letter case, with or without
    back-quotes and with the actions left out. *)
From Verif Require Export RoundKeys.
From Verif Require Import SpecActs.

Lemma spelled_starts K k r (p : ascii -> bool) : spelled K k -> K <> "" -> (forall c, p c = p (to_lower c)) -> starts p K = true -> starts p (k ++ r) = true.
Proof.
  intros S N P H. unfold spelled in S. destruct K as [|c K]; [contradiction|]. destruct k as [|d k]; [discriminate|]. unfold lower in S. cbn [smap] in S. injection S as S1 S2.
  cbn [String.append starts] in *. rewrite P, S1, <- P. exact H.
Qed.

Section Actions.
  Variable e : ending.
  Hypothesis He : ending_ok e.
  Notation E := (ending_text e).
  Notation R := (ending_raw e).

  Lemma skip_all p rs s (v : pvals leaf) : (forall a, match_lit (p ++ a) s = None) -> forall l,
    run_rules (map (fun a => lit_opt (p ++ a)) l +++ rs) s v = run_rules rs s v.
  Proof. intros M. induction l as [|a l IH]; [reflexivity|]. cbn [map List.app]. unfold lit_opt at 1. rewrite skip_lit by apply M. exact IH. Qed.
  (** What actions leave in the values. *)
  Fixpoint acted (p : string) (l : list string) (v : pvals leaf) : pvals leaf :=
    match l with x :: l' => acted p l' (dset (p ++ x) (VText (p ++ x)) v) | [] => v end.
  Lemma other_action K x b k r : K = "ON DELETE" \/ K = "ON UPDATE" -> In x allowed_actions -> In b allowed_actions -> b <> x -> spelled (K ++ " " ++ x) k -> match_lit ((K ++ " ") ++ b) (k ++ r) = None.
  Proof.
    intros HK X B N S. apply (spelled_none _ _ _ _ S). clear - HK X B N. unfold allowed_actions in X, B. cbn [In] in X, B.
    destruct HK as [->| ->]; repeat (destruct X as [<-|X]; [repeat (destruct B as [<-|B]; [first [congruence|reflexivity]|]); contradiction|]); contradiction.
  Qed.
  Lemma action_text K x k t : K = "ON DELETE" \/ K = "ON UPDATE" -> In x allowed_actions -> spelled (K ++ " " ++ x) k -> neat t = true -> trim (k ++ t) = true /\ k ++ t <> "".
  Proof.
    intros HK X S T. split.
    - apply (spelled_trim (K ++ " " ++ x)); [exact S| | |exact T]; clear - HK X; unfold allowed_actions in X; cbn [In] in X;
        destruct HK as [->| ->]; repeat (destruct X as [<-|X]; [reflexivity || discriminate|]); contradiction.
    - intros Z. apply sapp_eq_nil in Z as [Z _]. revert Z. apply (lower_nonempty k (K ++ " " ++ x) S). destruct HK as [->| ->]; discriminate.
  Qed.
  Lemma actions_neat K l a : K = "ON DELETE" \/ K = "ON UPDATE" -> actions_written K l a -> Forall (fun x => In x allowed_actions) l ->
    forall t, neat t = true -> strip t <> "" -> neat (a ++ t) = true /\ strip (a ++ t) <> ""
      /\ (l = [] -> a = "") /\ (forall x l', l = x :: l' -> exists k r, strip (a ++ t) = k ++ r /\ spelled (K ++ " " ++ x) k).
  Proof.
    intros HK W. induction W as [|x k l a S W IH]; intros F t T N.
    - repeat split; try assumption. discriminate.
    - inversion F as [|? ? X F']; subst. destruct (IH F' t T N) as (N1 & _ & _). cbn [String.append]. rewrite sapp_assoc.
      destruct (action_text K x k (a ++ t) HK X S N1) as [Tk Zk]. rewrite strip_space by exact Tk.
      split; [apply neat_space; assumption|]. split; [exact Zk|]. split; [discriminate|]. intros y l' [= <- <-]. exists k, (a ++ t). auto.
  Qed.
  Lemma filter_same (f g : string -> bool) l : (forall x, In x l -> f x = g x) -> filter f l = filter g l.
  Proof. induction l as [|x l IH]; intros H; [reflexivity|]. cbn [filter]. rewrite (H x (or_introl eq_refl)), IH; [reflexivity|]. intros y Y. apply H. right. exact Y. Qed.
  Lemma actions_run K t : K = "ON DELETE" \/ K = "ON UPDATE" -> neat t = true -> strip t <> "" -> (forall b, match_lit ((K ++ " ") ++ b) (strip t) = None) ->
    forall m l a, NoDup m -> incl m allowed_actions -> l = filter (fun x => smem x l) m -> actions_written K l a ->
    forall rs v, run_rules (map (fun b => lit_opt ((K ++ " ") ++ b)) m +++ rs) (strip (a ++ t)) v = run_rules rs (strip t) (acted (K ++ " ") l v).
  Proof.
    intros HK T Nt M. induction m as [|b m IH]; intros l a ND I E W rs v.
    - cbn [filter] in E. subst l. inversion W; subst. reflexivity.
    - assert (A : Forall (fun x => In x allowed_actions) l).
      { rewrite E. apply Forall_forall. intros x X. apply filter_In in X. apply I, X. }
      assert (I' : incl m allowed_actions) by (intros x X; apply I; right; exact X).
      inversion ND as [|? ? Nb ND']; subst. cbn [filter] in E. destruct (smem b l) eqn:Eb.
      + destruct l as [|x l]; [discriminate|]. injection E as -> E. inversion W as [|? k ? a' S W']; subst. inversion A as [|? ? X A']; subst.
        destruct (actions_neat K l a' HK W' A' t T Nt) as (N1 & Z1 & _). cbn [String.append]. rewrite sapp_assoc.
        destruct (action_text K b k (a' ++ t) HK X S N1) as [Tk Zk]. rewrite strip_space by exact Tk.
        cbn [map List.app]. unfold lit_opt at 1. rewrite (step_lit _ _ true _ _ (a' ++ t)); [|apply match_lit_app; rewrite sapp_assoc; symmetry; exact S|exact Z1].
        cbn [acted]. apply IH; try assumption. rewrite E at 1. apply filter_same. intros y Y. unfold smem. cbn [existsb].
        destruct (String.eqb_spec y b) as [->|_]; [contradiction|reflexivity].
      + cbn [map List.app]. unfold lit_opt at 1. rewrite skip_lit.
        * apply IH; assumption.
        * destruct (actions_neat K l a HK W A t T Nt) as (_ & _ & Z & S). destruct l as [|x l].
          -- rewrite (Z eq_refl). apply M.
          -- destruct (S x l eq_refl) as (k & r & -> & Sk). inversion A as [|? ? X _]; subst. apply (other_action K x); try assumption; [apply I; left; reflexivity|].
             intros ->. unfold smem in Eb. cbn [existsb] in Eb. rewrite String.eqb_refl in Eb. discriminate.
  Qed.
  Lemma order_nodup : NoDup allowed_actions.
  Proof. repeat constructor; cbn; intuition discriminate. Qed.
  Lemma order_actions l : actions_ordered l -> Forall (fun x => In x allowed_actions) l.
  Proof. intros E. unfold actions_ordered in E. rewrite E. apply Forall_forall. intros x X. apply filter_In in X. apply X. Qed.
  (** No action follows that could have been read with those written. *)
  Definition fk_end (a2 : string) : Prop := match_lit "ON UPDATE " E = None /\ (a2 = "" -> match_lit "ON DELETE " E = None).

  Lemma actions_read xs ys a1 a2 : fk_end a2 -> actions_ordered xs -> actions_ordered ys -> actions_written "ON DELETE" xs a1 -> actions_written "ON UPDATE" ys a2 ->
    neat (a1 ++ a2 ++ R) = true /\ strip (a1 ++ a2 ++ R) <> ""
    /\ forall v, run_rules action_rules (strip (a1 ++ a2 ++ R)) v = Ok (Some (comma_vals e [] (acted "ON UPDATE " ys (acted "ON DELETE " xs v))), ending_left e).
  Proof.
    intros [U D] Ox Oy A B. pose proof (order_actions _ Ox) as Fx. pose proof (order_actions _ Oy) as Fy.
    assert (Rn : neat R = true) by apply raw_neat, He. assert (Rs : strip R <> "") by (rewrite raw_strip by exact He; apply ending_nonempty).
    destruct (actions_neat "ON UPDATE" ys a2 (or_intror eq_refl) B Fy R Rn Rs) as (N2 & M2 & Z2 & S2).
    destruct (actions_neat "ON DELETE" xs a1 (or_introl eq_refl) A Fx (a2 ++ R) N2 M2) as (N1 & M1 & _).
    split; [exact N1|split; [exact M1|]]. intros v. unfold action_rules. change "ON DELETE " with ("ON DELETE" ++ " ").
    assert (M : forall b, match_lit (("ON DELETE" ++ " ") ++ b) (strip (a2 ++ R)) = None).
    { intros b. destruct ys as [|z ys].
      - specialize (Z2 eq_refl). rewrite Z2. change ("" ++ R) with R. rewrite raw_strip by exact He. apply (match_none_app "ON DELETE "), D, Z2.
      - destruct (S2 z ys eq_refl) as (k & r & -> & Sk). apply (spelled_none _ _ _ _ Sk). clear. reflexivity. }
    assert (Mu : forall b, match_lit (("ON UPDATE" ++ " ") ++ b) (strip R) = None).
    { intros b. rewrite raw_strip by exact He. apply (match_none_app "ON UPDATE "), U. }
    rewrite (actions_run "ON DELETE" (a2 ++ R) (or_introl eq_refl) N2 M2 M allowed_actions xs a1 order_nodup (incl_refl _) Ox A).
    change "ON UPDATE " with ("ON UPDATE" ++ " ").
    rewrite (actions_run "ON UPDATE" R (or_intror eq_refl) Rn Rs Mu allowed_actions ys a2 order_nodup (incl_refl _) Oy B).
    rewrite raw_strip by exact He. apply (finish e He []). constructor.
  Qed.

  (** Looking the values up again. *)
  Lemma acted_get p n : (forall a, keqb n (p ++ a) = false) -> forall l v, dget n (acted p l v) = dget n v.
  Proof. intros H. induction l as [|x l IH]; intros v; [reflexivity|]. cbn [acted]. rewrite IH, dget_dset, H. reflexivity. Qed.
  Lemma acted_mem p a : forall l v, dmem (p ++ a) (acted p l v) = smem a l || dmem (p ++ a) v.
  Proof.
    induction l as [|x l IH]; intros v; [reflexivity|]. cbn [acted]. rewrite IH, !dmem_dget, dget_dset. unfold smem. cbn [existsb].
    destruct (String.eqb_spec a x) as [->|N].
    - rewrite (proj2 (keqb_true _ _) eq_refl), orb_true_r. reflexivity.
    - destruct (keqb (p ++ a) (p ++ x)) eqn:Ek; [|reflexivity]. apply keqb_true in Ek. apply sapp_inj_l in Ek. contradiction.
  Qed.
  Lemma comma_get n v : n <> "ending_comma" -> dget n (comma_vals e [] v) = dget n v.
  Proof.
    clear He. intros N. unfold comma_vals. destruct e; try reflexivity. rewrite dget_dset. destruct (keqb n "ending_comma") eqn:K; [|reflexivity]. apply keqb_true in K. contradiction.
  Qed.
  Lemma find_first event l (v : pvals leaf) : actions_ordered l -> (forall a, In a allowed_actions -> dmem ("ON " ++ event ++ " " ++ a) v = smem a l) ->
    find_action event v = (first_action l, contradictions event l).
  Proof.
    intros O H. unfold find_action. rewrite (filter_same _ (fun a => smem a l)) by exact H. change allowed_actions with action_order. rewrite <- O. destruct l; reflexivity.
  Qed.
End Actions.

Section Fk.
  Variables (k1 k2 k3 : string) (n c t fc : ident) (g : bool) (xs ys : list string) (a1 a2 : string) (e : ending).
  Hypothesis Hk1 : spelled "CONSTRAINT" k1.
  Hypothesis Hk2 : spelled "FOREIGN KEY" k2.
  Hypothesis Hk3 : spelled "REFERENCES" k3.
  Hypothesis Hn : ident_ok n.
  Hypothesis Hc : ident_ok c.
  Hypothesis Ht : ident_ok t.
  Hypothesis Hfc : ident_ok fc.
  Hypothesis Ox : actions_ordered xs.
  Hypothesis Oy : actions_ordered ys.
  Hypothesis Hx : actions_written "ON DELETE" xs a1.
  Hypothesis Hy : actions_written "ON UPDATE" ys a2.
  Hypothesis He : ending_ok e.
  Hypothesis Hend : fk_end e a2.
  Notation R := (ending_raw e).

  Definition fk6 : string := a1 ++ a2 ++ R.
  Definition fk5 : string := ident_text fc ++ String ")" fk6.
  Definition fk4 : string := "(" ++ fk5.
  Definition fk3 : string := ident_text t ++ gap_text g ++ fk4.
  Definition fk2 : string := (") " ++ k3) ++ String " " fk3.
  Definition fk1 : string := ident_text c ++ fk2.
  Definition fk0 : string := (k2 ++ " (") ++ fk1.
  Definition fk_named : string := ident_text n ++ String " " fk0.
  Definition fk_text : string := k1 ++ String " " fk_named.

  Lemma ident_more z r : ident_ok z -> neat r = true -> trim (ident_text z ++ r) = true /\ ident_text z ++ r <> "".
  Proof.
    intros Z N. split; [apply trim_app; [apply ident_not_space, Z|apply ident_name, Z|exact N]|].
    intros Q. apply sapp_eq_nil in Q as [Q _]. apply (proj2 (ident_name z Z)), Q.
  Qed.
  Lemma fk6_neat : neat fk6 = true.
  Proof. apply (actions_read e He xs ys a1 a2 Hend Ox Oy Hx Hy). Qed.
  Lemma fk5_trim : trim fk5 = true /\ fk5 <> "".
  Proof. apply ident_more; [exact Hfc|]. apply (neat_app ")"); [reflexivity|discriminate|apply fk6_neat]. Qed.
  Lemma fk4_trim : trim fk4 = true /\ fk4 <> "".
  Proof. split; [|discriminate]. unfold fk4. apply trim_app; [reflexivity|discriminate|]. apply trim_neat, fk5_trim. Qed.
  Lemma fk3_trim : trim fk3 = true /\ fk3 <> "".
  Proof. apply ident_more; [exact Ht|]. destruct g; [apply neat_space; apply fk4_trim|apply trim_neat, fk4_trim]. Qed.
  Lemma refer_spelled : spelled ") REFERENCES" (") " ++ k3).
  Proof. unfold spelled in *. unfold lower in *. cbn [smap String.append]. rewrite Hk3. reflexivity. Qed.
  Lemma foreign_spelled : spelled "FOREIGN KEY (" (k2 ++ " (").
  Proof.
    unfold spelled in *. change "FOREIGN KEY (" with ("FOREIGN KEY" ++ " ("). assert (G : forall a b, lower (a ++ b) = lower a ++ lower b); [|rewrite !G, Hk2; reflexivity].
    unfold lower. induction a as [|d a IH]; intros b; [reflexivity|]. cbn [String.append smap]. rewrite IH. reflexivity.
  Qed.
  Lemma fk2_trim : trim fk2 = true /\ fk2 <> "".
  Proof. split; [|discriminate]. apply (spelled_trim ") REFERENCES"); [apply refer_spelled|reflexivity|discriminate|]. apply neat_space; apply fk3_trim. Qed.
  Lemma fk1_trim : trim fk1 = true /\ fk1 <> "".
  Proof. apply ident_more; [exact Hc|]. apply trim_neat, fk2_trim. Qed.
  Lemma fk0_trim : trim fk0 = true /\ fk0 <> "".
  Proof.
    split; [|intros Z; apply sapp_eq_nil in Z as [Z _]; apply sapp_eq_nil in Z as [_ Z]; discriminate].
    apply (spelled_trim "FOREIGN KEY ("); [apply foreign_spelled|reflexivity|discriminate|]. apply trim_neat, fk1_trim.
  Qed.
  Lemma fk_named_trim : trim fk_named = true /\ fk_named <> "".
  Proof. apply ident_more; [exact Hn|]. apply neat_space; apply fk0_trim. Qed.
  Lemma fk_text_trim : trim fk_text = true.
  Proof. apply (spelled_trim "CONSTRAINT"); [exact Hk1|reflexivity|discriminate|]. apply neat_space; apply fk_named_trim. Qed.

  Definition referred (v : pvals leaf) : pvals leaf :=
    dset ")" (VText ")") (dset "foreign_column_name" (VText (ident_text fc)) (dset "(" (VText "(") (dset "foreign_table_name" (VText (ident_text t ++ gap_text g))
        (dset ") REFERENCES" (VText ") REFERENCES") (dset "column_name" (VText (ident_text c)) v))))).
  Lemma run_reference (v : pvals leaf) : run_rules (reference_rules +++ action_rules) fk1 v
    = Ok (Some (comma_vals e [] (acted "ON UPDATE " ys (acted "ON DELETE " xs (referred v)))), ending_left e).
  Proof.
    destruct (actions_read e He xs ys a1 a2 Hend Ox Oy Hx Hy) as (N6 & S6 & G).
    unfold reference_rules, lit, fk1. cbn [List.app].
    rewrite (step_re "column_name" _ false _ _ (VText (ident_text c)) fk2); [|apply plus_word; [apply ident_name, Hc|apply ident_name, Hc|reflexivity]|rewrite trim_strip by apply fk2_trim; apply fk2_trim].
    rewrite trim_strip by apply fk2_trim.
    rewrite (step_lit ") REFERENCES" ") REFERENCES" false _ _ (String " " fk3)); [|apply match_lit_app; symmetry; apply refer_spelled|rewrite strip_space by apply fk3_trim; apply fk3_trim].
    rewrite strip_space by apply fk3_trim.
    rewrite (step_re "foreign_table_name" _ false _ _ (VText (ident_text t ++ gap_text g)) fk4); [| |rewrite trim_strip by apply fk4_trim; apply fk4_trim].
    2:{ unfold fk3. rewrite <- sapp_assoc.
        apply plus_word; [|intros Z; apply sapp_eq_nil in Z as [Z _]; apply (proj2 (ident_name t Ht)), Z|reflexivity]. rewrite sforall_app. apply andb_true_iff. split; [|destruct g; reflexivity].
        apply (sforall_imp name_char); [|apply ident_name, Ht]. intros z. unfold name_char, not_open. rewrite !negb_true_iff, !orb_false_iff. tauto. }
    rewrite trim_strip by apply fk4_trim.
    rewrite (step_lit "(" "(" false _ _ fk5); [|reflexivity|rewrite trim_strip by apply fk5_trim; apply fk5_trim].
    rewrite trim_strip by apply fk5_trim. unfold fk5.
    assert (T : trim (String ")" fk6) = true) by (apply (trim_app ")"); [reflexivity|discriminate|apply fk6_neat]).
    rewrite (step_re "foreign_column_name" _ false _ _ (VText (ident_text fc)) (String ")" fk6)); [| |rewrite trim_strip by exact T; discriminate].
    2:{ apply plus_word; [|apply ident_name, Hfc|reflexivity]. apply (sforall_imp name_char); [|apply ident_name, Hfc].
        intros z. unfold name_char, not_close. rewrite !negb_true_iff, !orb_false_iff. tauto. }
    rewrite trim_strip by exact T.
    rewrite (step_lit ")" ")" false _ _ fk6); [|reflexivity|exact S6]. apply G.
  Qed.
  Lemma left_short : String.length (ending_left e) <= String.length fk1.
  Proof.
    unfold fk1, fk2, fk3, fk4, fk5, fk6. repeat (rewrite ?slength_app; cbn [String.append String.length]). pose proof (ending_left_length e). pose proof (raw_length e). lia.
  Qed.

  (** What the values mean. *)
  Lemma acting_process name v : dget "column_name" v = None -> (forall a, In a allowed_actions -> dmem ("ON DELETE " ++ a) v = false /\ dmem ("ON UPDATE " ++ a) v = false) ->
    foreign_with name (comma_vals e [] (acted "ON UPDATE " ys (acted "ON DELETE " xs (referred v))))
    = mkConstraint name (snd c) (snd t) (snd fc) (first_action xs) (first_action ys) (contradictions "DELETE" xs +++ contradictions "UPDATE" ys) [].
  Proof.
    intros Nc Na. set (u := comma_vals e [] _).
    assert (G : forall m, m <> "ending_comma" -> (forall a, keqb m ("ON UPDATE " ++ a) = false) -> (forall a, keqb m ("ON DELETE " ++ a) = false) -> dget m u = dget m (referred v)).
    { intros m M1 M2 M3. unfold u. rewrite comma_get by exact M1. rewrite !acted_get by assumption. reflexivity. }
    assert (R : forall a, In a allowed_actions -> dmem ("ON DELETE " ++ a) (referred v) = false /\ dmem ("ON UPDATE " ++ a) (referred v) = false).
    { intros a I. destruct (Na a I) as [N1 N2]. rewrite dmem_dget in N1, N2. unfold referred. rewrite !dmem_dget, !dget_dset.
      split; [destruct (dget ("ON DELETE " ++ a) v)|destruct (dget ("ON UPDATE " ++ a) v)]; first [discriminate|reflexivity]. }
    assert (Fd : find_action "DELETE" u = (first_action xs, contradictions "DELETE" xs)).
    { apply find_first; [exact Ox|]. intros a I. change ("ON " ++ "DELETE" ++ " " ++ a) with ("ON DELETE " ++ a). unfold u. rewrite dmem_dget, comma_get by (destruct a; discriminate).
      rewrite acted_get by reflexivity. rewrite <- dmem_dget, acted_mem, (proj1 (R a I)), orb_false_r. reflexivity. }
    assert (Fu : find_action "UPDATE" u = (first_action ys, contradictions "UPDATE" ys)).
    { apply find_first; [exact Oy|]. intros a I. change ("ON " ++ "UPDATE" ++ " " ++ a) with ("ON UPDATE " ++ a). unfold u. rewrite dmem_dget, comma_get by (destruct a; discriminate).
      rewrite <- dmem_dget, acted_mem, dmem_dget, acted_get by reflexivity. rewrite <- dmem_dget, (proj2 (R a I)), orb_false_r. reflexivity. }
    unfold foreign_with. rewrite Fd, Fu. unfold clean, vtext. rewrite !G by (discriminate || reflexivity). unfold referred. rewrite !dget_dset. cbn [keqb].
    change (strip_char bquote (strip (ident_text c))) with (strip_char bquote (strip (ident_text c))).
    f_equal; [apply ident_clean, Hc|apply ident_clean_gap, Ht|apply ident_clean, Hfc].
  Qed.

  Lemma fk_reads : best_child definition_classes fk_text None = Ok (Some (DefFk false (mkConstraint (snd n) (snd c) (snd t) (snd fc)
    (first_action xs) (first_action ys) (contradictions "DELETE" xs +++ contradictions "UPDATE" ys) []), ending_left e)).
  Proof.
    pose proof fk_text_trim as T. pose proof run_reference as G.
    assert (M : forall l, diverge l "CONSTRAINT" = true -> match_lit l fk_text = None) by (intros l D; apply (spelled_none l "CONSTRAINT"); assumption).
    apply (best_pick [primary_class; key_class; unique_class] foreign_class (skipn 4 definition_classes)).
    - constructor; [|constructor; [|constructor; [|constructor]]].
      + apply primary_none; [exact T|apply M; reflexivity].
      + apply key_none; [exact T|apply M; reflexivity|apply M; reflexivity].
      + apply unique_none; [exact T|apply M; reflexivity].
    - unfold foreign_class. erewrite class_run; [|exact T|].
      2:{ unfold foreign_rules, lit, rname. cbn [List.app].
          rewrite (step_lit "CONSTRAINT" "CONSTRAINT" false _ _ (String " " fk_named)); [|apply match_lit_app; symmetry; exact Hk1|rewrite strip_space by apply fk_named_trim; apply fk_named_trim].
          rewrite strip_space by apply fk_named_trim. unfold fk_named.
          rewrite (step_re "name" _ false _ _ (VText (ident_text n)) (String " " fk0)); [|apply plus_word; [apply ident_name, Hn|apply ident_name, Hn|reflexivity]|rewrite strip_space by apply fk0_trim; apply fk0_trim].
          rewrite strip_space by apply fk0_trim. unfold fk0 at 1.
          rewrite (step_lit "FOREIGN KEY (" "FOREIGN KEY (" false _ _ fk1); [|apply match_lit_app; symmetry; apply foreign_spelled|rewrite trim_strip by apply fk1_trim; apply fk1_trim].
          rewrite trim_strip by apply fk1_trim. apply G. }
      f_equal. f_equal. f_equal. f_equal.
      unfold foreign_process. rewrite acting_process.
      + f_equal. unfold clean, vtext. rewrite comma_get by discriminate. rewrite !acted_get by reflexivity. apply ident_clean, Hn.
      + reflexivity.
      + intros a I. clear - I. unfold allowed_actions in I. cbn [In] in I. repeat (destruct I as [<-|I]; [split; reflexivity|]). destruct I.
    - constructor; [apply beaten_tied, unnamed_none; [exact T|apply M; reflexivity]|].
      change (Forall (tied (String.length (ending_left e)) fk_text) column_classes).
      assert (W1 : k1 <> "" /\ sforall name_char k1 = true) by (apply (spelled_name "CONSTRAINT"); [exact Hk1|discriminate|reflexivity]).
      pose proof fk_named_trim as [Tn Nn]. pose proof fk0_trim as [T0 N0]. pose proof fk1_trim as [T1 N1]. pose proof left_short as Ls.
      assert (Cn : ident_text n = ticked (snd n) \/ fst n = false /\ ident_text n = snd n) by (destruct n as [[|] m]; auto).
      unfold fk_text in *. destruct Cn as [Cn|[Fn Cn]].
      + eapply Forall_impl; [apply beaten_tied|]. apply no_type; [exact W1|reflexivity|exact T|rewrite strip_space by exact Tn; exact Nn|rewrite strip_space by exact Tn; unfold fk_named; rewrite Cn; reflexivity].
      + assert (Q : fk0 = (k2 ++ " ") ++ String "(" fk1) by (unfold fk0; rewrite !sapp_assoc; reflexivity).
        assert (B : sforall before (k2 ++ " ") = true).
        { rewrite sforall_app. apply andb_true_iff. split; [|reflexivity]. rewrite (caseless before k2 "FOREIGN KEY"); [reflexivity|letters|exact Hk2]. }
        assert (T4 : trim (String "(" fk1) = true) by (apply (trim_app "("); [reflexivity|discriminate|apply trim_neat; exact T1]).
        apply some_type with (ty := snd n) (r2 := String " " fk0) (z := fk0).
        * exact W1.
        * reflexivity.
        * exact T.
        * rewrite strip_space by exact Tn. exact Nn.
        * split; [apply Hn|apply Hn, Fn].
        * rewrite strip_space by exact Tn. unfold fk_named. rewrite Cn. reflexivity.
        * reflexivity.
        * apply strip_space, T0.
        * exact N0.
        * intros os v. destruct (run_before fk1 T4 os _ v B) as (v' & x' & Q' & _). rewrite Q. eexists _, _. split; [exact Q'|].
          rewrite slength_app. cbn [String.length]. lia.
        * left. rewrite Q. apply before_open; [exact B|]. intros Z. apply sapp_eq_nil in Z as [_ Z]. discriminate.
  Qed.

  (** Without a name. *)
  Lemma run_references os r (v : pvals leaf) : run_rules (map orule os +++ [rcomma]) (k3 ++ r) v = Ok (Some v, k3 ++ r).
  Proof.
    pose proof Hk3 as S. unfold spelled in S. destruct k3 as [|d k]; [discriminate|]. unfold lower in S. cbn [smap] in S. injection S as Sd _.
    assert (D : d = "r"%char \/ d = "R"%char) by (clear - Sd; revert Sd; destruct d as [[|] [|] [|] [|] [|] [|] [|] [|]]; vm_compute; intros; first [discriminate|auto]).
    cbn [String.append]. destruct D as [-> | ->]; (induction os as [|o os IH]; [reflexivity|]; rewrite <- IH; destruct o; reflexivity).
  Qed.
  Lemma enum_reference os (v : pvals leaf) : exists m r,
    run_rules (lit "(" :: RDel "enum_values" "," squote false :: lit ")" :: map orule os +++ [rcomma]) (String "(" fk1) v = Ok (m, r)
    /\ (m = None \/ String.length (ending_left e) <= String.length r).
  Proof.
    pose proof fk1_trim as [T1 N1]. pose proof fk3_trim as [T3 N3]. unfold lit.
    rewrite (step_lit "(" "(" false _ _ fk1); [|reflexivity|rewrite trim_strip by exact T1; exact N1]. rewrite trim_strip by exact T1.
    set (q := String " " (k3 ++ String " " fk3)). assert (Q : fk1 = ident_text c ++ String ")" q) by (unfold fk1, fk2, q; rewrite !sapp_assoc; reflexivity). rewrite Q.
    assert (G : forall x, sforall (fun c => negb (Ascii.eqb c squote || Ascii.eqb c ")")) x = true -> forall has cur vals l, exists vals',
      delim squote "," ")" has false cur vals l (x ++ String ")" q) = (false, vals', String ")" q)).
    { induction x as [|d x IH]; intros X has cur vals l'; [eexists; reflexivity|]. cbn [sforall] in X. apply andb_true_iff in X as [X1 X2].
      apply negb_true_iff, orb_false_iff in X1 as [Xq Xc]. cbn [String.append delim]. rewrite Xq.
      assert (M : match_lit ")" (String d (x ++ String ")" q)) = None).
      { cbn [match_lit]. replace (Ascii.eqb (to_lower ")") (to_lower d)) with false; [reflexivity|].
        clear - Xc. destruct d as [[|] [|] [|] [|] [|] [|] [|] [|]]; vm_compute in Xc |- *; congruence. }
      rewrite M. destruct (Ascii.eqb d "," || Ascii.eqb d " "); apply (IH X2). }
    destruct (G (ident_text c)) with (has := false) (cur := "") (vals := @nil string) (l := "") as [vs D].
    { change (ident_text c) with (idents_text true [c]). apply idents_chars; [reflexivity|reflexivity|reflexivity| |constructor; [exact Hc|constructor]].
      intros d. clear. destruct d as [[|] [|] [|] [|] [|] [|] [|] [|]]; vm_compute; congruence. }
    assert (DL : delimited squote "," ")" (ident_text c ++ String ")" q) = Ok (match vs with [] => None | _ => Some (vs, String ")" q) end)).
    { unfold delimited. rewrite D. destruct vs; reflexivity. }
    destruct vs as [|x vs].
    - eexists None, _. split; [|left; reflexivity]. cbn [run_rules run_rule]. change (lower ")") with ")". rewrite DL. reflexivity.
    - rewrite (step_del "enum_values" "," squote false ")" ")" false _ _ (x :: vs) (String ")" q)); [|exact DL|discriminate].
      assert (Tk : trim (k3 ++ String " " fk3) = true).
      { apply (spelled_trim "REFERENCES"); [exact Hk3|reflexivity|discriminate|]. apply neat_space; assumption. }
      assert (Nk : k3 ++ String " " fk3 <> "") by (intros Z; apply sapp_eq_nil in Z as [_ Z]; discriminate).
      rewrite (step_lit ")" ")" false _ _ q); [|reflexivity|unfold q; rewrite strip_space by exact Tk; exact Nk].
      unfold q. rewrite strip_space by exact Tk. rewrite run_references. eexists _, _. split; [reflexivity|]. right.
      rewrite slength_app. cbn [String.length]. unfold fk3, fk4, fk5, fk6. repeat (rewrite ?slength_app; cbn [String.append String.length]).
      pose proof (ending_left_length e). pose proof (raw_length e). lia.
  Qed.
  Lemma bare_reads : best_child definition_classes fk0 None = Ok (Some (DefFk true (mkConstraint (snd c ++ "_" ++ snd t ++ "_fk") (snd c) (snd t) (snd fc)
    (first_action xs) (first_action ys) (contradictions "DELETE" xs +++ contradictions "UPDATE" ys) []), ending_left e)).
  Proof.
    pose proof fk0_trim as [T _]. pose proof run_reference as G. pose proof fk1_trim as [T1 N1].
    assert (M : forall l, diverge l "FOREIGN KEY (" = true -> match_lit l fk0 = None).
    { intros l D. unfold fk0. apply (spelled_none l "FOREIGN KEY ("); [apply foreign_spelled|exact D]. }
    apply (best_pick [primary_class; key_class; unique_class; foreign_class] bare_class (skipn 5 definition_classes)).
    - constructor; [|constructor; [|constructor; [|constructor; [|constructor]]]].
      + apply primary_none; [exact T|apply M; reflexivity].
      + apply key_none; [exact T|apply M; reflexivity|apply M; reflexivity].
      + apply unique_none; [exact T|apply M; reflexivity].
      + apply foreign_none; [exact T|apply M; reflexivity].
    - unfold bare_class. erewrite class_run; [|exact T|].
      2:{ unfold bare_rules, lit. unfold fk0 at 1.
          rewrite (step_lit "FOREIGN KEY (" "FOREIGN KEY (" false _ _ fk1); [|apply match_lit_app; symmetry; apply foreign_spelled|rewrite trim_strip by exact T1; exact N1].
          rewrite trim_strip by exact T1. apply G. }
      f_equal. f_equal. f_equal. f_equal.
      unfold bare_process. rewrite acting_process.
      + f_equal. unfold clean, vtext. rewrite !comma_get by discriminate. rewrite !acted_get by reflexivity.
        change (strip_char bquote (strip (ident_text c)) ++ "_" ++ strip_char bquote (strip (ident_text t ++ gap_text g)) ++ "_fk" = snd c ++ "_" ++ snd t ++ "_fk").
        rewrite ident_clean by exact Hc. rewrite ident_clean_gap by exact Ht. reflexivity.
      + reflexivity.
      + intros a I. clear - I. unfold allowed_actions in I. cbn [In] in I. repeat (destruct I as [<-|I]; [split; reflexivity|]). destruct I.
    - change (Forall (tied (String.length (ending_left e)) fk0) column_classes).
      destruct (split_word "FOREIGN" "KEY" k2 Hk2) as (a & b & Ew & A & B).
      assert (Bw : b <> "" /\ sforall is_word b = true) by (apply (spelled_word "KEY"); [exact B|discriminate|reflexivity]).
      assert (T4 : trim (String "(" fk1) = true) by (apply (trim_app "("); [reflexivity|discriminate|apply trim_neat; exact T1]).
      assert (Tb : trim (b ++ String " " (String "(" fk1)) = true).
      { apply (spelled_trim "KEY"); [exact B|reflexivity|discriminate|]. apply neat_space; [exact T4|discriminate]. }
      assert (Nb : b ++ String " " (String "(" fk1) <> "") by (intros Z; apply sapp_eq_nil in Z as [_ Z]; discriminate).
      assert (Q : fk0 = a ++ String " " (b ++ String " " (String "(" fk1))) by (unfold fk0; rewrite Ew; repeat (rewrite ?sapp_assoc; cbn [String.append]); reflexivity).
      rewrite Q in T |- *.
      apply some_type with (ty := b) (r2 := String " " (String "(" fk1)) (z := String "(" fk1).
      + apply (spelled_name "FOREIGN"); [exact A|discriminate|reflexivity].
      + reflexivity.
      + exact T.
      + rewrite strip_space by exact Tb. exact Nb.
      + exact Bw.
      + apply strip_space, Tb.
      + reflexivity.
      + apply strip_space, T4.
      + discriminate.
      + intros os v. destruct (run_before fk1 T4 os "" v eq_refl) as (v' & x' & Q' & _). eexists _, _. split; [exact Q'|].
        rewrite slength_app. cbn [String.length]. pose proof left_short. lia.
      + right. exists fk1. split; [reflexivity|]. split; [|split; [exact T1|split; [exact N1|apply enum_reference]]].
        unfold fk1. destruct (idents_start true [c] ltac:(discriminate) ltac:(constructor; [exact Hc|constructor])) as (d & r & E & D).
        change (idents_text true [c]) with (ident_text c) in E. rewrite E. cbn [String.append starts]. rewrite D. reflexivity.
  Qed.
End Fk.
Lemma action_list K x a : action_written K x a -> exists l, actions_ordered l /\ actions_written K l a /\ first_action l = x /\ forall event, contradictions event l = [].
Proof.
  intros [|y k Y S].
  - exists []. split; [reflexivity|]. split; [constructor|split; reflexivity].
  - exists [y]. split; [|split; [rewrite <- (sapp_nil_r k); apply actions_more; [exact S|constructor]|split; reflexivity]].
    clear - Y. unfold allowed_actions in Y. cbn [In] in Y. repeat (destruct Y as [<-|Y]; [reflexivity|]). destruct Y.
Qed.
Lemma fk_read k1 k2 k3 n c t fc g x y a1 a2 e : spelled "CONSTRAINT" k1 -> spelled "FOREIGN KEY" k2 -> spelled "REFERENCES" k3 ->
  ident_ok n -> ident_ok c -> ident_ok t -> ident_ok fc -> action_written "ON DELETE" x a1 -> action_written "ON UPDATE" y a2 -> ending_ok e -> fk_end e a2 ->
  best_child definition_classes (fk_text k1 k2 k3 n c t fc g a1 a2 e) None = Ok (Some (DefFk false (mkConstraint (snd n) (snd c) (snd t) (snd fc) x y [] []), ending_left e)).
Proof.
  intros K1 K2 K3 N C T F X Y He Hend. destruct (action_list _ _ _ X) as (xs & Ox & Wx & <- & Cx), (action_list _ _ _ Y) as (ys & Oy & Wy & <- & Cy).
  rewrite (fk_reads k1 k2 k3 n c t fc g xs ys a1 a2 e K1 K2 K3 N C T F Ox Oy Wx Wy He Hend), Cx, Cy. reflexivity.
Qed.

Lemma calm_fk_end e a : calm_end e -> fk_end e a.
Proof. intros C. split; [|intros _]; apply C; cbn; tauto. Qed.
Theorem fk_written_read k s e : fk_written k s -> ending_ok e -> calm_end e ->
  best_child definition_classes (s ++ ending_raw e) None
  = Ok (Some (DefFk false (mkConstraint (k_name k) (k_column k) (k_ftable k) (k_fcolumn k) (k_on_delete k) (k_on_update k) [] []), ending_left e)).
Proof.
  intros [k1 k2 k3 tn tc tt tf g a1 a2 S1 S2 S3 N C T F X Y] He Hc.
  pose proof (fk_read k1 k2 k3 (tn, k_name k) (tc, k_column k) (tt, k_ftable k) (tf, k_fcolumn k) g (k_on_delete k) (k_on_update k) a1 a2 e S1 S2 S3 N C T F X Y He (calm_fk_end e a2 Hc)) as Q.
  cbn [snd] in Q. rewrite <- Q.
  f_equal. unfold fk_text, fk_named, fk0, fk1, fk2, fk3, fk4, fk5, fk6, ident_text. cbn [fst snd]. repeat (cbn [String.append]; rewrite ?sapp_assoc). reflexivity.
Qed.

Lemma constraint_written k : readable_fk k -> fk_written k (constraint_str k).
Proof.
  intros R. destruct (rk_names k R) as (A & B & C & D), (rk_actions k R) as [X Y].
  assert (Q : constraint_str k = "CONSTRAINT" ++ " " ++ name_text true (k_name k) ++ " " ++ "FOREIGN KEY" ++ " (" ++ name_text true (k_column k) ++ ") " ++ "REFERENCES" ++ " "
     ++ name_text true (k_ftable k) ++ gap_text true ++ "(" ++ name_text true (k_fcolumn k) ++ ")" ++ (" " ++ "ON DELETE" ++ " " ++ k_on_delete k) ++ (" " ++ "ON UPDATE" ++ " " ++ k_on_update k)).
  { unfold constraint_str. cbn [join name_text gap_text]. unfold ticked. repeat (cbn [String.append]; rewrite ?sapp_assoc). rewrite ?sapp_nil_r. reflexivity. }
  rewrite Q. apply written_fk; try apply clean_ident; try assumption; try reflexivity; apply action_said; (assumption || reflexivity).
Qed.
Theorem fk_round k e : readable_fk k -> ending_ok e -> calm_end e ->
  exists k', best_child definition_classes (constraint_str k ++ ending_raw e) None = Ok (Some (DefFk false k', ending_left e))
    /\ alike_fk k k' /\ k_perrors k' = [] /\ k_pwarnings k' = [].
Proof.
  intros R He Hc. eexists. split; [apply (fk_written_read k _ e (constraint_written k R) He Hc)|]. repeat split.
Qed.
