(** Facts used to run the parsers on texts with unknown parts. *)
From Verif Require Export EngineFacts.

(** ** Literals *)

Lemma match_lit_app l k s : lower l = lower k -> match_lit l (k ++ s) = Some s.
Proof.
  revert k. induction l as [|a l IH]; intros [|b k] H; try discriminate; simpl; [reflexivity|].
  injection H as H1 H2. rewrite H1, Ascii.eqb_refl. apply IH, H2.
Qed.
Lemma match_lit_self l s : match_lit l (l ++ s) = Some s.
Proof. apply match_lit_app. reflexivity. Qed.

(** At some place within both, the two texts have different letters. *)
Fixpoint diverge (l k : string) : bool :=
  match l, k with
  | String a l', String b k' => negb (Ascii.eqb (to_lower a) (to_lower b)) || diverge l' k'
  | _, _ => false
  end.
Lemma diverge_none l : forall k s, diverge l k = true -> match_lit l (k ++ s) = None.
Proof.
  induction l as [|a l IH]; intros [|b k] s H; try discriminate; simpl in *.
  destruct (Ascii.eqb (to_lower a) (to_lower b)); [|reflexivity]. apply IH, H.
Qed.
Lemma match_lit_char a l c s : Ascii.eqb (to_lower a) (to_lower c) = false -> match_lit (String a l) (String c s) = None.
Proof. simpl. intros ->. reflexivity. Qed.

(** The same input up to letter case: the outcome is the same up to letter case. *)
Lemma match_lit_case l : forall s t, lower s = lower t ->
  match match_lit l s, match_lit l t with
  | Some a, Some b => lower a = lower b
  | None, None => True
  | _, _ => False
  end.
Proof.
  induction l as [|a l IH]; intros s t H; simpl; [exact H|].
  destruct s as [|b s], t as [|c t]; try discriminate; [exact I|].
  injection H as H1 H2. rewrite H1. destruct (Ascii.eqb (to_lower a) (to_lower c)); [apply IH, H2|exact I].
Qed.
Lemma match_lit_keyword l : forall k k' s, lower k = lower k' -> String.length k <= String.length l ->
  match_lit l (k ++ s) = match_lit l (k' ++ s).
Proof.
  induction l as [|a l IH]; intros k k' s H L.
  - destruct k; [|simpl in L; lia]. destruct k'; [reflexivity|discriminate].
  - destruct k as [|b k], k' as [|c k']; try discriminate; [reflexivity|].
    injection H as H1 H2. simpl. rewrite H1. simpl in L.
    destruct (Ascii.eqb (to_lower a) (to_lower c)); [apply IH; [exact H2|lia]|reflexivity].
Qed.

(** ** White space at the ends *)

(** Ready for a rule: normalised and not starting with a space. *)
Definition trim (s : string) : bool := neat s && starts not_space s.
Lemma trim_strip s : trim s = true -> strip s = s.
Proof.
  unfold trim. rewrite andb_true_iff. intros [T S]. rewrite (strip_neat _ T). apply lstrip_id, S.
Qed.
Lemma trim_normalize s : trim s = true -> normalize s = s.
Proof. intros H. rewrite normalize_neat; [apply trim_strip, H|]. apply andb_true_iff in H. tauto. Qed.
Lemma strip_space s : trim s = true -> strip (String " " s) = s.
Proof.
  intros H. pose proof (trim_strip _ H) as E. unfold trim in H. apply andb_true_iff in H as [T S].
  unfold strip, strip_by in *. simpl rstrip_by. rewrite (neat_rstrip _ _ T) in *.
  destruct s as [|c s]; [reflexivity|]. simpl lstrip_by at 1.
  change (is_space " ") with true. exact E.
Qed.
Lemma trim_neat s : trim s = true -> neat s = true.
Proof. unfold trim. rewrite andb_true_iff. tauto. Qed.
Lemma strip_trim s : neat s = true -> trim (strip s) = true.
Proof.
  intros T. unfold trim. rewrite (neat_strip _ T), (strip_neat _ T). apply lstrip_starts.
Qed.
Lemma neat_app a b : sforall not_space a = true -> a <> "" -> neat b = true -> neat (a ++ b) = true.
Proof.
  intros A N B. destruct a as [|c a]; [contradiction|]. clear N. unfold neat. simpl in *.
  apply andb_true_iff in A as [Ac A]. unfold not_space in Ac. apply negb_true_iff in Ac. rewrite Ac.
  revert A. clear Ac c. induction a as [|c a IH]; simpl; intros A; [exact B|].
  apply andb_true_iff in A as [Ac A]. unfold not_space in Ac. apply negb_true_iff in Ac. rewrite Ac. apply IH, A.
Qed.
Lemma neat_app' a b : sforall not_space a = true -> neat b = true -> neat (a ++ b) = true.
Proof. intros A B. destruct a as [|c a]; [exact B|]. apply neat_app; [exact A|discriminate|exact B]. Qed.
Lemma trim_app a b : sforall not_space a = true -> a <> "" -> neat b = true -> trim (a ++ b) = true.
Proof.
  intros A N B. unfold trim. rewrite (neat_app _ _ A N B). destruct a as [|c a]; [contradiction|].
  simpl in *. apply andb_true_iff in A as [-> _]. reflexivity.
Qed.
Lemma neat_space s : trim s = true -> s <> "" -> neat (String " " s) = true.
Proof.
  unfold trim. rewrite andb_true_iff. intros [T S] N. destruct s as [|c s]; [contradiction|].
  unfold neat in *. simpl in *. unfold not_space in S. apply negb_true_iff in S. rewrite S in *. exact T.
Qed.

(** ** Running one rule *)

Section Steps.
  Context {C : Type}.
  Notation vals := (pvals C).

  Lemma step_lit n l o rs s t (v : vals) : match_lit l s = Some t -> strip t <> "" ->
    run_rules (RLit n l o :: rs) s v = run_rules rs (strip t) (dset n (VText l) v).
  Proof.
    intros M N. cbn [run_rules run_rule]. rewrite M. cbn [bind rule_name].
    destruct (strip t) as [|c u] eqn:E; [contradiction|reflexivity].
  Qed.
  Lemma end_lit n l o rs s t (v : vals) : match_lit l s = Some t -> strip t = "" -> forallb rule_opt rs = true ->
    run_rules (RLit n l o :: rs) s v = Ok (Some (dset n (VText l) v), "").
  Proof. intros M N F. cbn [run_rules run_rule]. rewrite M. cbn [bind rule_name]. rewrite N, F. reflexivity. Qed.
  Lemma skip_lit n l rs s (v : vals) : match_lit l s = None -> run_rules (RLit n l true :: rs) s v = run_rules rs s v.
  Proof. intros M. cbn [run_rules run_rule]. rewrite M. reflexivity. Qed.
  Lemma fail_lit n l rs s (v : vals) : match_lit l s = None -> run_rules (RLit n l false :: rs) s v = Ok (None, s).
  Proof. intros M. cbn [run_rules run_rule]. rewrite M. reflexivity. Qed.

  Lemma step_re n r o rs s x t (v : vals) : re_match r s = Some (x, t) -> strip t <> "" ->
    run_rules (RRe n r o :: rs) s v = run_rules rs (strip t) (dset n x v).
  Proof.
    intros M N. cbn [run_rules run_rule]. rewrite M. cbn [bind rule_name].
    destruct (strip t) as [|c u] eqn:E; [contradiction|reflexivity].
  Qed.
  Lemma skip_re n r rs s (v : vals) : @re_match C r s = None -> run_rules (RRe n r true :: rs) s v = run_rules rs s v.
  Proof. intros M. cbn [run_rules run_rule]. rewrite M. reflexivity. Qed.
  Lemma fail_re n r rs s (v : vals) : @re_match C r s = None -> run_rules (RRe n r false :: rs) s v = Ok (None, s).
  Proof. intros M. cbn [run_rules run_rule]. rewrite M. reflexivity. Qed.

  Lemma step_del n sep q o m e o' rs s l t (v : vals) : delimited q sep (lower e) s = Ok (Some (l, t)) -> t <> "" ->
    run_rules (RDel n sep q o :: RLit m e o' :: rs) s v = run_rules (RLit m e o' :: rs) t (dset n (VList l) v).
  Proof.
    intros M N. cbn [run_rules run_rule]. rewrite M. cbn [bind rule_name].
    destruct t as [|c u]; [contradiction|reflexivity].
  Qed.
End Steps.

Lemma plus_word {C} p a b : sforall p a = true -> a <> "" -> starts (fun c => negb (p c)) b = true ->
  @re_match C (plus p) (a ++ b) = Some (VText a, b).
Proof.
  intros A N B. unfold plus. cbn [re_match]. rewrite (span_app _ _ _ A B).
  destruct a; [contradiction|reflexivity].
Qed.
Lemma plus_none {C} p c s : p c = false -> @re_match C (plus p) (String c s) = None.
Proof. intros P. unfold plus. cbn [re_match span]. rewrite P. reflexivity. Qed.
Lemma after_word {C} l k p a b : lower l = lower k -> sforall p a = true -> a <> "" ->
  starts (fun c => negb (p c)) b = true -> @re_match C (ReAfter l p) (k ++ a ++ b) = Some (VText a, b).
Proof.
  intros L A N B. cbn [re_match]. rewrite (match_lit_app _ _ _ L), (span_app _ _ _ A B).
  destruct a; [contradiction|reflexivity].
Qed.
Lemma after_none {C} l p s : match_lit l s = None -> @re_match C (ReAfter l p) s = None.
Proof. intros M. cbn [re_match]. rewrite M. reflexivity. Qed.
Lemma within_none {C} l p e s : match_lit l s = None -> @re_match C (ReWithin l p e) s = None.
Proof. intros M. cbn [re_match]. rewrite M. reflexivity. Qed.

(** ** Delimited lists *)

Fixpoint spaces (n : nat) : string := match n with O => "" | S n' => String " " (spaces n') end.

Section Delim.
  Variable q : ascii.
  Hypothesis q_comma : q <> ","%char.
  Hypothesis q_space : q <> " "%char.
  Hypothesis q_close : q <> ")"%char.

  Lemma delim_last sep e has in_q cur vals l1 l2 c s :
    delim q sep e has in_q cur vals l1 (String c s) = delim q sep e has in_q cur vals l2 (String c s).
  Proof. reflexivity. Qed.

  Lemma delim_inside sep e has v : forall cur vals l s, has_char q v = false ->
    exists l', delim q sep e has true cur vals l (v ++ String q s)
             = delim q sep e false false (cur ++ v) (vals +++ [cur ++ v]) l' s.
  Proof.
    induction v as [|c v IH]; intros cur vals l s H; simpl.
    - rewrite Ascii.eqb_refl, sapp_nil_r. eexists. reflexivity.
    - unfold has_char in H. simpl in H. apply orb_false_iff in H as [Hc H].
      rewrite Ascii.eqb_sym, Hc.
      destruct (IH (cur ++ String c "") vals (String c (v ++ String q s)) s H) as [l' E].
      exists l'. rewrite E. rewrite sapp_assoc. reflexivity.
  Qed.

  Notation scan := (delim q "," ")").

  Lemma scan_close has cur vals l s :
    scan has false cur vals l (String ")" s) = (false, if has then vals +++ [cur] else vals, String ")" s).
  Proof. cbn [delim]. destruct (Ascii.eqb ")" q) eqn:E; [apply Ascii.eqb_eq in E; congruence|]. reflexivity. Qed.
  Lemma scan_comma has cur vals l s :
    scan has false cur vals l (String "," s)
    = scan false false "" (if has then vals +++ [cur] else vals) (String "," s) s.
  Proof. cbn [delim]. destruct (Ascii.eqb "," q) eqn:E; [apply Ascii.eqb_eq in E; congruence|]. reflexivity. Qed.
  Lemma scan_space has cur vals l s :
    scan has false cur vals l (String " " s)
    = scan false false "" (if has then vals +++ [cur] else vals) (String " " s) s.
  Proof. cbn [delim]. destruct (Ascii.eqb " " q) eqn:E; [apply Ascii.eqb_eq in E; congruence|]. reflexivity. Qed.
  Lemma scan_spaces n : forall cur vals l s, s <> "" ->
    exists cur', scan false false cur vals l (spaces n ++ s) = scan false false cur' vals l s.
  Proof.
    induction n as [|n IH]; intros cur vals l s N; [exists cur; reflexivity|].
    simpl spaces. simpl String.append. rewrite scan_space.
    destruct (IH "" vals (String " " (spaces n ++ s)) s N) as [cur' E]. exists cur'. rewrite E.
    destruct s; [contradiction|]. apply delim_last.
  Qed.
  Lemma scan_open has cur vals l s :
    scan has false cur vals l (String q s) = scan true true "" vals (String q s) s.
  Proof. simpl. rewrite Ascii.eqb_refl. reflexivity. Qed.

  (** One value with spaces around it, as it stands in a list. *)
  Definition quoted_item (x : nat * string * nat) : string :=
    let '(a, v, b) := x in spaces a ++ String q (v ++ String q (spaces b)).
  Definition item_value (x : nat * string * nat) : string := snd (fst x).

  Lemma scan_item x cur vals l s : has_char q (item_value x) = false -> s <> "" ->
    exists cur' l', scan false false cur vals l (quoted_item x ++ s)
                    = scan false false cur' (vals +++ [item_value x]) l' s.
  Proof.
    destruct x as [[a v] b]. unfold quoted_item, item_value. cbn [fst snd]. intros H N.
    rewrite sapp_assoc. destruct (scan_spaces a cur vals l (String q (v ++ String q (spaces b)) ++ s)) as [c1 E1]; [discriminate|].
    rewrite E1. simpl String.append. rewrite scan_open, sapp_assoc. simpl String.append.
    destruct (delim_inside "," ")" true v "" vals (String q (v ++ String q (spaces b ++ s))) (spaces b ++ s) H) as [l2 E2].
    rewrite E2. simpl ("" ++ v). destruct (scan_spaces b v (vals +++ [v]) l2 s N) as [c3 E3].
    exists c3, l2. exact E3.
  Qed.

  Lemma scan_items l : forall cur vals last rest, l <> [] -> (forall x, In x l -> has_char q (item_value x) = false) ->
    scan false false cur vals last (join "," (map quoted_item l) ++ String ")" rest)
    = (false, vals +++ map item_value l, String ")" rest).
  Proof.
    induction l as [|x l IH]; intros cur vals last rest N H; [contradiction|].
    assert (has_char q (item_value x) = false) as Hx by (apply H; left; reflexivity).
    destruct l as [|y l].
    - simpl join. destruct (scan_item x cur vals last (String ")" rest) Hx ltac:(discriminate)) as (c' & l' & E).
      rewrite E, scan_close. reflexivity.
    - cbn [map]. rewrite join_cons by discriminate. rewrite !sapp_assoc. change (map quoted_item (y :: l)) with (map quoted_item (y :: l)).
      destruct (scan_item x cur vals last ("," ++ join "," (quoted_item y :: map quoted_item l) ++ String ")" rest) Hx ltac:(discriminate)) as (c' & l' & E).
      rewrite E. change ("," ++ ?a) with (String "," a). rewrite scan_comma.
      change (quoted_item y :: map quoted_item l) with (map quoted_item (y :: l)).
      rewrite IH; [rewrite <- app_assoc; reflexivity|discriminate|]. intros z Z. apply H. right. exact Z.
  Qed.

  Lemma delimited_items l rest : l <> [] -> (forall x, In x l -> has_char q (item_value x) = false) ->
    delimited q "," ")" (join "," (map quoted_item l) ++ String ")" rest)
    = Ok (Some (map item_value l, String ")" rest)).
  Proof.
    intros N H. unfold delimited. rewrite (scan_items l "" [] "" rest N H).
    destruct l; [contradiction|reflexivity].
  Qed.
End Delim.
