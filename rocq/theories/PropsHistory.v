(** C44 and C45: exactly what a table object reports after any history of calls. *)
From Verif Require Import ApplyFacts Samples PropsTable.

(** ** Specification *)

(** The call makes an index start with [n]. *)
Definition led (n : string) (t : table) (c : call) : Prop :=
  match c with
  | CAddIndex i => ~ In (ix_name i) (dkeys (t_indexes t)) /\ hd_error (ix_columns i) = Some n
  | CChangeIndex i => In (ix_name i) (dkeys (t_indexes t)) /\ hd_error (ix_columns i) = Some n
  | _ => False
  end.
(** The call takes away an index that starts with [n]. *)
Definition unled (n : string) (t : table) (c : call) : Prop :=
  match c with
  | CRemoveIndex m => exists i, In (m, i) (t_indexes t) /\ hd_error (ix_columns i) = Some n
  | CChangeIndex i => hd_error (ix_columns i) <> Some n /\ exists old, In (ix_name i, old) (t_indexes t) /\ hd_error (ix_columns old) = Some n
  | _ => False
  end.
(** The call adds a primary key. *)
Definition adds_primary (i : index) (t : table) (c : call) : Prop :=
  c = CAddIndex i /\ ix_type i = IPrimary /\ ~ In (ix_name i) (dkeys (t_indexes t)).
Definition never (P : table -> call -> Prop) : table -> list call -> Prop := always (fun t c => ~ P t c).

(** ** C44 *)

Lemma one_value {V} (d : dict string V) n a b : NoDup (dkeys d) -> In (n, a) d -> In (n, b) d -> a = b.
Proof. intros N A B. apply (dget_iff n a d N) in A. apply (dget_iff n b d N) in B. congruence. Qed.
Lemma led_step t c s n : distinct t -> with_cols t -> brings_columns c -> t_indexed t = Some s ->
  exists s', t_indexed (fst (perform t c)) = Some s' /\ (In n s' <-> led n t c \/ In n s /\ ~ unled n t c).
Proof.
  intros D W B E.
  assert (Same : ~ led n t c -> ~ unled n t c -> t_indexed (fst (perform t c)) = t_indexed t -> exists s', t_indexed (fst (perform t c)) = Some s' /\ (In n s' <-> led n t c \/ In n s /\ ~ unled n t c)).
  { intros L U X. exists s. rewrite X. split; [exact E|]. tauto. }
  destruct c as [c p|m|c|i|m|i|k|m|k|m].
  - apply Same; [intros []|intros []|]. unfold perform, add_column. destruct (dmem _ _); [reflexivity|]. destruct p as [| |a]; [reflexivity|destruct (t_ordered t); reflexivity|].
    destruct (is_empty a); [reflexivity|]. destruct (dmem a _); reflexivity.
  - apply Same; [intros []|intros []|]. unfold perform, remove_column. destruct (dmem _ _); reflexivity.
  - apply Same; [intros []|intros []|]. unfold perform, change_column. destruct (dmem _ _); reflexivity.
  - cbn [perform]. unfold add_index. destruct (dmem (ix_name i) (t_indexes t)) eqn:M.
    + exists s. split; [exact E|]. apply dmem_iff in M. cbn. tauto.
    + apply dmem_false in M. rewrite E. cbn [brings_columns] in B. unfold first_col. cbn [led unled]. destruct (ix_columns i) as [|x r]; [contradiction|].
      exists (set_add x s). split; [reflexivity|]. rewrite set_add_in. cbn [hd_error]. split; [|intros [[_ [= ->]]|[H _]]; auto].
      intros [->|H]; [left; auto|]. tauto.
  - cbn [perform]. unfold remove_index. cbn [led unled]. destruct (dget m (t_indexes t)) as [i|] eqn:G.
    + apply dget_in in G. pose proof (W m i G) as Wi. unfold first_col. destruct (ix_columns i) as [|x r] eqn:Ci; [contradiction|].
      cbn [fst t_indexed with_indexes]. rewrite E. cbn [option_map]. exists (set_discard x s). split; [reflexivity|]. rewrite set_discard_in. split.
      * intros [N H]. right. split; [exact H|]. intros (j & J & Hj). destruct D as (_ & D & _). rewrite (one_value _ _ _ _ D J G), Ci in Hj. cbn in Hj. congruence.
      * intros [[]|[H U]]. split; [|exact H]. intros ->. apply U. exists i. rewrite Ci. auto.
    + exists s. split; [exact E|]. split; [|tauto]. intros H. right. split; [exact H|]. intros (j & J & _). apply dget_none in G. apply G. exact (in_dkeys _ _ _ J).
  - cbn [perform]. unfold change_index. cbn [led unled brings_columns] in *. destruct (dget (ix_name i) (t_indexes t)) as [old|] eqn:G.
    + apply dget_in in G. pose proof (W _ _ G) as Wi. rewrite E. unfold first_col. destruct (ix_columns old) as [|x r] eqn:Co; [contradiction|].
      destruct (ix_columns i) as [|y r'] eqn:Ci; [contradiction|]. exists (set_add y (set_discard x s)). split; [reflexivity|]. rewrite set_add_in, set_discard_in. cbn [hd_error]. split.
      * intros [->|[N H]]; [left; split; [exact (in_dkeys _ _ _ G)|reflexivity]|]. right. split; [exact H|]. intros (_ & j & J & Hj). destruct D as (_ & D & _).
        rewrite (one_value _ _ _ _ D J G), Co in Hj. cbn in Hj. congruence.
      * intros [[_ [= ->]]|[H U]]; [left; reflexivity|]. destruct (string_dec n y) as [->|Ny]; [left; reflexivity|]. right. split; [|exact H]. intros ->. apply U. split; [congruence|].
        exists old. rewrite Co. auto.
    + exists s. split; [exact E|]. pose proof (proj1 (dget_none _ _) G) as Z.
      split; [|tauto]. intros H. right. split; [exact H|]. intros (_ & j & J & _). apply Z. exact (in_dkeys _ _ _ J).
  - apply Same; [intros []|intros []|]. unfold perform, add_constraint. destruct (dmem _ _); reflexivity.
  - apply Same; [intros []|intros []|]. unfold perform, remove_constraint. destruct (dmem _ _); reflexivity.
  - apply Same; [intros []|intros []|]. unfold perform, change_constraint. destruct (dmem _ _); reflexivity.
  - apply Same; [intros []|intros []|]. unfold perform, column_is_indexed. cbn [fst]. destruct (negb _); [reflexivity|]. rewrite E. cbn. exact E.
Qed.

Lemma always_app P l : forall t m, always P t (l +++ m) <-> always P t l /\ always P (performed t l) m.
Proof. induction l as [|c l IH]; intros t m; cbn; [tauto|]. rewrite IH. unfold performed. cbn. tauto. Qed.
(** What the table remembers, from when it was first asked. *)
Definition remembered (n : string) (t : table) (l : list call) : Prop :=
  leads t n /\ never (unled n) t l
  \/ exists l1 c l2, l = l1 +++ c :: l2 /\ led n (performed t l1) c /\ never (unled n) (performed t (l1 +++ [c])) l2.

Lemma remembered_set n l : forall t s, distinct t -> with_cols t -> (forall c, In c l -> brings_columns c) -> t_indexed t = Some s ->
  exists s', t_indexed (performed t l) = Some s' /\
    (In n s' <-> (In n s /\ never (unled n) t l)
       \/ exists l1 c l2, l = l1 +++ c :: l2 /\ led n (performed t l1) c /\ never (unled n) (performed t (l1 +++ [c])) l2).
Proof.
  induction l as [|c l IH]; intros t s D W B E.
  - exists s. split; [exact E|]. split; [left; split; [assumption|exact I]|]. intros [[H _]|(l1 & c & l2 & Z & _)]; [exact H|destruct l1; discriminate].
  - destruct (led_step t c s n D W (B c (or_introl eq_refl)) E) as (s1 & E1 & H1).
    destruct (IH (fst (perform t c)) s1) as (s2 & E2 & H2); [apply distinct_perform, D|apply with_cols_perform; [exact W|apply B; left; reflexivity]|intros; apply B; right; assumption|exact E1|].
    exists s2. split; [exact E2|]. rewrite H2, H1. unfold never. cbn [always]. split.
    + intros [[[L|[S U]] A]|(l1 & x & l2 & -> & L & A)].
      * right. exists [], c, l. auto.
      * left. auto.
      * right. exists (c :: l1), x, l2. auto.
    + intros [[S [U A]]|(l1 & x & l2 & Z & L & A)]; [left; auto|]. destruct l1 as [|y l1]; injection Z as -> ->.
      * left. auto.
      * right. exists l1, x, l2. auto.
Qed.

(** From the first question about one of its columns on, a table answers for [n] according to the
    last call that made an index start with [n] or took one away. *)
Theorem C44_exact : forall t m l n, kept t -> distinct t -> In m (dkeys (t_columns t)) -> (forall c, In c l -> brings_columns c) ->
  let asked := performed t [CAsk m] in
  let now := performed asked l in
  exists b, snd (column_is_indexed now n) = Ok b /\ (b = true <-> In n (dkeys (t_columns now)) /\ remembered n asked l).
Proof.
  intros t m l n K D M B asked now. destruct (kept_ask t m K) as (b0 & _ & _ & Ka). change (kept asked) in Ka.
  assert (S : exists s, t_indexed asked = Some s).
  { unfold asked. cbn. unfold column_is_indexed. rewrite (proj2 (dmem_iff _ _) M). cbn [negb]. destruct (t_indexed t) as [s|] eqn:E; [exists s; exact E|].
    destruct (firsts_mapM t) as [x ->]; [exact (SpecValid.kept_keys t K)|]. exists x. reflexivity. }
  destruct S as [s S]. assert (Da : distinct asked) by (apply distinct_performed, D).
  destruct (remembered_set n l asked s Da (SpecValid.kept_keys _ Ka) B S) as (s' & E & H). fold now in E.
  unfold column_is_indexed. destruct (dmem n (t_columns now)) eqn:N; cbn [negb].
  - rewrite E. exists (smem n s'). split; [reflexivity|]. apply dmem_iff in N. rewrite smem_iff, H, (kept_indexed _ Ka s S). unfold remembered. tauto.
  - exists false. split; [reflexivity|]. apply dmem_false in N. split; [discriminate|tauto].
Qed.
(** Hence the answer is wrong after removing one of two indexes that start with the same column. *)
Theorem C44_refuted_always : forall t m n a b i j, kept t -> distinct t -> In m (dkeys (t_columns t)) -> In n (dkeys (t_columns t)) ->
  a <> b -> In (a, i) (t_indexes t) -> In (b, j) (t_indexes t) -> hd_error (ix_columns i) = Some n -> hd_error (ix_columns j) = Some n ->
  let now := performed t [CAsk m; CRemoveIndex a] in
  snd (column_is_indexed now n) = Ok false /\ In n (dkeys (t_columns now)) /\ leads now n.
Proof.
  intros t m n a b i j K D M N A Ha Hb Hi Hj now.
  destruct (C44_exact t m [CRemoveIndex a] n K D M) as (r & E & H). { intros c [<-|[]]. exact I. }
  change (performed (performed t [CAsk m]) [CRemoveIndex a]) with now in *.
  destruct (sbi_fields _ _ (sbi_ask t m)) as (_ & F1 & F2 & _).
  assert (Fr : t_columns now = t_columns t /\ t_indexes now = dpop a (t_indexes t)).
  { unfold now. cbn. unfold remove_index. rewrite F2. destruct D as (_ & D & _).
    destruct (dget a (t_indexes t)) as [x|] eqn:G; [|exfalso; apply dget_none in G; apply G; exact (in_dkeys _ _ _ Ha)].
    apply dget_in in G. rewrite (one_value _ _ _ _ D G Ha). unfold first_col. destruct (ix_columns i) as [|y r']; [discriminate|]. cbn. rewrite ?F2. auto. }
  destruct Fr as [Fc Fi]. split.
  - rewrite E. f_equal. destruct r; [|reflexivity]. exfalso. destruct (proj1 H eq_refl) as [_ [[_ U]|(l1 & c & l2 & Z & L & _)]].
    + destruct U as [U _]. apply U. exists i. cbn. rewrite F2. auto.
    + destruct l1 as [|y l1]; [|destruct l1; discriminate]. injection Z as <- <-. exact L.
  - split; [rewrite Fc; exact N|]. destruct (ix_columns j) as [|x r'] eqn:Cj; [discriminate|]. cbn in Hj. injection Hj as ->. exists b, j, r'. split; [|exact Cj].
    rewrite Fi. unfold dpop. apply filter_In. split; [exact Hb|]. cbn. apply negb_true_iff, String.eqb_neq. congruence.
Qed.
Example ex_C44_always : kept two_indexes /\ distinct two_indexes /\ In ("one", key "one" ["a"]) (t_indexes two_indexes) /\ In ("two", key "two" ["a"; "b"]) (t_indexes two_indexes).
Proof.
  split. { constructor; simpl; [|intros n i [[= <- <-]|[[= <- <-]|[]]]; discriminate|discriminate]. intros n c [[= <- <-]|[[= <- <-]|[]]]; reflexivity. }
  split; [repeat split; repeat constructor; simpl; intuition discriminate|]. cbn. auto.
Qed.

(** ** C45 *)

Lemma primary_step t c : (exists i, adds_primary i t c /\ t_primary (fst (perform t c)) = Some i)
  \/ (forall i, ~ adds_primary i t c) /\ t_primary (fst (perform t c)) = t_primary t.
Proof.
  assert (Same : (forall i, c <> CAddIndex i) -> t_primary (fst (perform t c)) = t_primary t ->
    (exists i, adds_primary i t c /\ t_primary (fst (perform t c)) = Some i) \/ (forall i, ~ adds_primary i t c) /\ t_primary (fst (perform t c)) = t_primary t).
  { intros N E. right. split; [|exact E]. intros i [X _]. exact (N i X). }
  destruct c as [c p|m|c|i|m|i|k|m|k|m].
  - apply Same; [discriminate|]. unfold perform, add_column. destruct (dmem _ _); [reflexivity|]. destruct p as [| |a]; [reflexivity|destruct (t_ordered t); reflexivity|].
    destruct (is_empty a); [reflexivity|]. destruct (dmem a _); reflexivity.
  - apply Same; [discriminate|]. unfold perform, remove_column. destruct (dmem _ _); reflexivity.
  - apply Same; [discriminate|]. unfold perform, change_column. destruct (dmem _ _); reflexivity.
  - cbn [perform]. unfold add_index. destruct (dmem (ix_name i) (t_indexes t)) eqn:M.
    + right. split; [|reflexivity]. apply dmem_iff in M. intros j ([= <-] & _ & X). contradiction.
    + apply dmem_false in M. unfold is_primary. destruct (ix_type i) eqn:T; [right; split|right; split|left; exists i; split; [split; [reflexivity|auto]|]].
      all: try (intros j ([= <-] & X & _); congruence). all: destruct (t_indexed t); [destruct (first_col i)|]; reflexivity.
  - apply Same; [discriminate|]. cbn [perform]. unfold remove_index. destruct (dget _ _) as [i|]; [|reflexivity]. destruct (first_col i); reflexivity.
  - apply Same; [discriminate|]. cbn [perform]. unfold change_index. destruct (dget _ _) as [old|]; [|reflexivity]. destruct (t_indexed t); [|reflexivity].
    destruct (first_col old); [|reflexivity]. destruct (first_col i); reflexivity.
  - apply Same; [discriminate|]. unfold perform, add_constraint. destruct (dmem _ _); reflexivity.
  - apply Same; [discriminate|]. unfold perform, remove_constraint. destruct (dmem _ _); reflexivity.
  - apply Same; [discriminate|]. unfold perform, change_constraint. destruct (dmem _ _); reflexivity.
  - apply Same; [discriminate|]. unfold perform, column_is_indexed. cbn [fst]. destruct (negb _); [reflexivity|]. destruct (t_indexed t); [reflexivity|]. destruct (mapM _ _); reflexivity.
Qed.
Definition any_primary (t : table) (c : call) : Prop := exists i, adds_primary i t c.

(** The primary key reported is the last one that was added, whatever became of it since, and
    otherwise the one at the beginning. *)
Theorem C45_exact : forall l t p, t_primary (performed t l) = p <->
  p = t_primary t /\ never any_primary t l
  \/ exists l1 i l2, l = l1 +++ CAddIndex i :: l2 /\ adds_primary i (performed t l1) (CAddIndex i)
       /\ never any_primary (performed t (l1 +++ [CAddIndex i])) l2 /\ p = Some i.
Proof.
  assert (F : forall l t, t_primary t = t_primary (performed t l) /\ never any_primary t l
    \/ exists l1 i l2, l = l1 +++ CAddIndex i :: l2 /\ adds_primary i (performed t l1) (CAddIndex i)
         /\ never any_primary (performed t (l1 +++ [CAddIndex i])) l2 /\ t_primary (performed t l) = Some i).
  { induction l as [|c l IH]; intros t; [left; split; [reflexivity|exact I]|]. rewrite performed_cons.
    destruct (IH (fst (perform t c))) as [[E A]|(l1 & i & l2 & -> & X & A & P)].
    - destruct (primary_step t c) as [(i & X & P)|[X P]].
      + right. exists [], i, l. pose proof X as [Ec _]. subst c. split; [reflexivity|]. split; [exact X|]. split; [exact A|]. rewrite <- E. exact P.
      + left. split; [congruence|]. split; [intros [i Y]; exact (X i Y)|exact A].
    - right. exists (c :: l1), i, l2. auto. }
  assert (U : forall l t l1 i l2, l = l1 +++ CAddIndex i :: l2 -> adds_primary i (performed t l1) (CAddIndex i) ->
    never any_primary (performed t (l1 +++ [CAddIndex i])) l2 -> t_primary (performed t l) = Some i).
  { assert (N : forall l t, never any_primary t l -> t_primary (performed t l) = t_primary t).
    { induction l as [|c l IH]; intros t A; [reflexivity|]. destruct A as [A1 A2]. rewrite performed_cons, (IH _ A2). destruct (primary_step t c) as [(i & X & _)|[_ P]]; [|exact P].
      exfalso. apply A1. exists i. exact X. }
    intros l t l1 i l2 -> X A. rewrite performed_app in *. change (performed (performed t l1) [CAddIndex i]) with (fst (perform (performed t l1) (CAddIndex i))) in A. change (performed (performed t l1) (CAddIndex i :: l2)) with (performed (fst (perform (performed t l1) (CAddIndex i))) l2).
    rewrite (N _ _ A). destruct (primary_step (performed t l1) (CAddIndex i)) as [(j & [[= <-] _] & P)|[Y _]]; [exact P|]. exfalso. exact (Y i X). }
  intros l t p. split.
  - intros <-. destruct (F l t) as [[E A]|(l1 & i & l2 & E & X & A & P)]; [left; auto|right; exists l1, i, l2; auto].
  - intros [[-> A]|(l1 & i & l2 & E & X & A & ->)]; [|exact (U l t l1 i l2 E X A)].
    destruct (F l t) as [[E _]|(l1 & i & l2 & -> & X & _)]; [congruence|]. exfalso. apply (proj1 (always_app _ _ _ _)) in A as [_ [A _]]. apply A. exists i. exact X.
Qed.
(** Hence a primary key that was removed is reported, always. *)
Theorem C45_refuted_always : forall t n i, distinct t -> In (n, i) (t_indexes t) -> ix_type i = IPrimary -> t_primary t = Some i ->
  t_primary (performed t [CRemoveIndex n]) = Some i.
Proof.
  intros t n i D H P E. apply C45_exact. left. split; [congruence|]. split; [|exact I]. intros [j [X _]]. discriminate.
Qed.
Example ex_C45_exact : t_primary (performed with_primary [CRemoveIndex "id"; CAddIndex (mkIndex "pk" ["id"] IPrimary []); CRemoveIndex "pk"]) = Some (mkIndex "pk" ["id"] IPrimary [])
  /\ distinct with_primary /\ In ("id", primary_key ["id"]) (t_indexes with_primary) /\ t_primary with_primary = Some (primary_key ["id"]).
Proof. split; [reflexivity|]. split; [repeat split; repeat constructor; simpl; tauto|]. split; [left; reflexivity|reflexivity]. Qed.

Print Assumptions C44_exact.
Print Assumptions C44_refuted_always.
Print Assumptions C45_exact.
Print Assumptions C45_refuted_always.
