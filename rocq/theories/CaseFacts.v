(** The two servers do the same where names are spelled alike. *)
From Verif Require Import Facts SpecCase DiffFacts TableFacts PlanFacts.

(** ** Lists of things with identities *)
Section Agree.
  Context {A I : Type} (id : A -> I) (e f : I -> I -> bool) (U : I -> Prop).
  Hypothesis agree : forall a b, U a -> U b -> e a b = f a b.
  Notation ok := (fun l => Forall (fun a => U (id a)) l).

  Lemma has_agree i l : U i -> ok l -> has_id id e i l = has_id id f i l.
  Proof.
    intros Ui F. unfold has_id. induction F as [|a l Ua F IH]; [reflexivity|]. cbn [existsb]. rewrite (agree i (id a) Ui Ua), IH. reflexivity.
  Qed.
  Lemma drop_agree i l : U i -> ok l -> drop_id id e i l = drop_id id f i l.
  Proof.
    intros Ui F. unfold drop_id. rewrite (has_agree i l Ui F). destruct (has_id id f i l); [f_equal|reflexivity].
    induction F as [|a l Ua F IH]; [reflexivity|]. cbn [filter]. rewrite (agree i (id a) Ui Ua), IH. reflexivity.
  Qed.
  Lemma drop_keeps i l l' : ok l -> drop_id id f i l = Some l' -> ok l'.
  Proof.
    intros F. unfold drop_id. destruct (has_id id f i l); [|discriminate]. intros [= <-]. apply Forall_forall. intros a J. apply filter_In in J as [J _].
    rewrite Forall_forall in F. apply F, J.
  Qed.
  Lemma end_agree a l : U (id a) -> ok l -> put_end id e a l = put_end id f a l.
  Proof. intros Ui F. unfold put_end. rewrite (has_agree _ l Ui F). reflexivity. Qed.
  Lemma end_keeps a l l' : U (id a) -> ok l -> put_end id f a l = Some l' -> ok l'.
  Proof. intros Ui F. unfold put_end. destruct (has_id id f (id a) l); [discriminate|]. intros [= <-]. apply Forall_app. auto. Qed.
  Lemma replace_agree a l : U (id a) -> ok l -> replace_id id e a l = replace_id id f a l.
  Proof.
    intros Ui F. unfold replace_id. rewrite (has_agree _ l Ui F). destruct (has_id id f (id a) l); [f_equal|reflexivity].
    induction F as [|b l Ub F IH]; [reflexivity|]. cbn [map]. rewrite (agree _ (id b) Ui Ub), IH. reflexivity.
  Qed.
  Lemma replace_keeps a l l' : U (id a) -> ok l -> replace_id id f a l = Some l' -> ok l'.
  Proof.
    intros Ui F. unfold replace_id. destruct (has_id id f (id a) l); [|discriminate]. intros [= <-].
    induction F as [|b l Ub F IH]; [constructor|]. cbn [map]. constructor; [destruct (f (id a) (id b)); assumption|exact IH].
  Qed.
  Lemma after_agree i a l : U i -> ok l -> put_after id e i a l = put_after id f i a l.
  Proof.
    intros Ui F. induction F as [|b l Ub F IH]; [reflexivity|]. cbn [put_after]. rewrite (agree i (id b) Ui Ub), IH. reflexivity.
  Qed.
  Lemma after_keeps i a : U (id a) -> forall l l', ok l -> put_after id f i a l = Some l' -> ok l'.
  Proof.
    intros Ua l. induction l as [|b l IH]; intros l' F E; [discriminate|]. cbn [put_after] in E. inversion F as [|? ? Ub F']; subst.
    destruct (f i (id b)); [injection E as <-; auto|]. destruct (put_after id f i a l) as [l1|] eqn:Q; [|discriminate]. injection E as <-. constructor; [exact Ub|apply (IH l1 F' eq_refl)].
  Qed.
End Agree.

Lemma run_agree {S O} (g h : S -> O -> option S) (Inv : S -> Prop) (P : O -> Prop) :
  (forall s o, Inv s -> P o -> g s o = h s o /\ forall s', h s o = Some s' -> Inv s') ->
  forall l s, Inv s -> Forall P l -> run_all g l s = run_all h l s /\ forall s', run_all h l s = Some s' -> Inv s'.
Proof.
  intros H l. induction l as [|o l IH]; intros s I F; cbn [run_all]; [split; [reflexivity|intros s' [= <-]; exact I]|].
  inversion F as [|? ? Po F']; subst. destruct (H s o I Po) as [-> K]. destruct (h s o) as [s1|]; [|split; [reflexivity|discriminate]]. apply IH; auto.
Qed.

(** ** One table *)
Section Table.
  Variables (same : string -> string -> bool) (Uc Uk Uf : string -> Prop).
  Hypothesis Hc : forall a b, Uc a -> Uc b -> same a b = String.eqb a b.
  Hypothesis Hk : forall a b, Uk a -> Uk b -> same a b = String.eqb a b.
  Hypothesis Hf : forall a b, Uf a -> Uf b -> same a b = String.eqb a b.

  Definition op_within (o : aop) : Prop :=
    match o with
    | AddColumn c p => Uc (c_name c) /\ match p with PAfter a => Uc a | _ => True end
    | ChangeColumn c | RemoveColumn c => Uc (c_name c)
    | AddKey i | RemoveKey i | ChangeKey i => Uk (ix_name i)
    | AddConstraint k | RemoveConstraint k | ChangeConstraint k => Uf (k_name k)
    end.
  Definition Ui (x : key_id) : Prop := match x with KPrimary => True | KNamed n => Uk n end.
  Definition cols_within (l : list column) : Prop := Forall (fun c => Uc (c_name c)) l.
  Definition keys_within (l : list index) : Prop := Forall (fun i => Ui (id_of_key i)) l.
  Definition fks_within (l : list constraint) : Prop := Forall (fun k => Uf (k_name k)) l.
  Record within (st : stable) : Prop := { in_cols : cols_within (st_cols st); in_keys : keys_within (st_keys st); in_fks : fks_within (st_fks st) }.

  Lemma key_agree a b : Ui a -> Ui b -> key_same same a b = key_id_eqb a b.
  Proof. destruct a, b; cbn; auto. Qed.
  Lemma key_within i : Uk (ix_name i) -> Ui (id_of_key i).
  Proof. intros U. unfold id_of_key. destruct (ix_type i); cbn; auto. Qed.

  Lemma cols_agree ops l : Forall op_within ops -> cols_within l ->
    loose_cols same ops l = exec_cols ops l /\ forall l', exec_cols ops l = Some l' -> cols_within l'.
  Proof.
    intros F L. unfold loose_cols, exec_cols.
    destruct (run_agree (loose_pass1 same) col_pass1 cols_within op_within) with (l := ops) (s := l) as [-> K]; auto.
    { intros s o I P. destruct o; cbn [loose_pass1 col_pass1 op_within] in *; try (split; [reflexivity|intros s' [= <-]; exact I]).
      - split; [apply (replace_agree c_name same String.eqb Uc Hc); assumption|intros s'; apply (replace_keeps c_name String.eqb Uc); assumption].
      - split; [apply (drop_agree c_name same String.eqb Uc Hc); assumption|intros s'; apply (drop_keeps c_name String.eqb Uc); assumption]. }
    destruct (run_all col_pass1 ops l) as [l1|]; [|split; [reflexivity|discriminate]]. specialize (K l1 eq_refl).
    apply (run_agree (loose_pass2 same) col_pass2 cols_within op_within); auto.
    intros s o I P. destruct o as [c p| | | | | | | |]; cbn [loose_pass2 col_pass2 op_within] in *; try (split; [reflexivity|intros s' [= <-]; exact I]).
    destruct P as [Pc Pp]. rewrite (has_agree c_name same String.eqb Uc Hc) by assumption. destruct (has_id c_name String.eqb (c_name c) s); [split; [reflexivity|discriminate]|].
    destruct p as [| |a].
    - split; [reflexivity|]. intros s' [= <-]. apply Forall_app. auto.
    - split; [reflexivity|]. intros s' [= <-]. constructor; assumption.
    - split; [apply (after_agree c_name same String.eqb Uc Hc); assumption|]. intros s'. apply (after_keeps c_name String.eqb Uc); assumption.
  Qed.
  Lemma keys_agree ops l : Forall op_within ops -> keys_within l ->
    loose_keys same ops l = exec_keys ops l /\ forall l', exec_keys ops l = Some l' -> keys_within l'.
  Proof.
    intros F L. unfold loose_keys, exec_keys.
    destruct (run_agree (loose_key_pass1 same) key_pass1 keys_within op_within) with (l := ops) (s := l) as [-> K]; auto.
    { intros s o I P. destruct o as [| | |i|i|i| | |]; cbn [loose_key_pass1 key_pass1 op_within] in *; try (split; [reflexivity|intros s' [= <-]; exact I]).
      all: split; [apply (drop_agree id_of_key (key_same same) key_id_eqb Ui key_agree); [first [exact P | apply key_within, P]|exact I]|intros s'; apply (drop_keeps id_of_key key_id_eqb Ui), I]. }
    destruct (run_all key_pass1 ops l) as [l1|]; [|split; [reflexivity|discriminate]]. specialize (K l1 eq_refl).
    apply (run_agree (loose_key_pass2 same) key_pass2 keys_within op_within); auto.
    intros s o I P. destruct o as [| | |i|i|i| | |]; cbn [loose_key_pass2 key_pass2 op_within] in *; try (split; [reflexivity|intros s' [= <-]; exact I]);
      apply key_within in P; (split; [apply (end_agree id_of_key (key_same same) key_id_eqb Ui key_agree); assumption|intros s'; apply (end_keeps id_of_key key_id_eqb Ui); assumption]).
  Qed.
  Lemma fks_agree ops l : Forall op_within ops -> fks_within l ->
    loose_fks same ops l = exec_fks ops l /\ forall l', exec_fks ops l = Some l' -> fks_within l'.
  Proof.
    intros F L. unfold loose_fks, exec_fks.
    destruct (run_agree (loose_fk_drop same) fk_drop fks_within op_within) with (l := ops) (s := l) as [-> K]; auto.
    { intros s o I P. destruct o; cbn [loose_fk_drop fk_drop op_within] in *; try (split; [reflexivity|intros s' [= <-]; exact I]);
        (split; [apply (drop_agree k_name same String.eqb Uf Hf); assumption|intros s'; apply (drop_keeps k_name String.eqb Uf); assumption]). }
    destruct (run_all fk_drop ops l) as [l1|]; [|split; [reflexivity|discriminate]]. specialize (K l1 eq_refl).
    apply (run_agree (loose_fk_add same l) (fk_add l) fks_within op_within); auto.
    intros s o I P. destruct o; cbn [loose_fk_add fk_add op_within] in *; try (split; [reflexivity|intros s' [= <-]; exact I]);
      rewrite (has_agree k_name same String.eqb Uf Hf) by assumption; (destruct (has_id k_name String.eqb _ l); [split; [reflexivity|discriminate]|]);
      (split; [apply (end_agree k_name same String.eqb Uf Hf); assumption|intros s'; apply (end_keeps k_name String.eqb Uf); assumption]).
  Qed.
  Lemma alter_agree ops st : Forall op_within ops -> within st ->
    loose_alter same ops st = exec_alter ops st /\ forall st', exec_alter ops st = Some st' -> within st'.
  Proof.
    intros F [A B C]. unfold loose_alter, exec_alter. destruct (cols_agree ops _ F A) as [-> Ka], (keys_agree ops _ F B) as [-> Kb], (fks_agree ops _ F C) as [-> Kc].
    split; [reflexivity|]. intros st'. destruct (exec_cols _ _), (exec_keys _ _), (exec_fks _ _); try discriminate. intros [= <-]. constructor; cbn; auto.
  Qed.
  Lemma create_agree cs ks fs : cols_within cs -> keys_within ks -> fks_within fs ->
    loose_create same cs ks fs = exec_create cs ks fs /\ forall st', exec_create cs ks fs = Some st' -> within st'.
  Proof.
    intros A B C. unfold loose_create, exec_create.
    destruct (run_agree (fun l c => put_end c_name same c l) (fun l c => put_end c_name String.eqb c l) cols_within (fun c => Uc (c_name c))) with (l := cs) (s := @nil column) as [-> Ka]; [|constructor|exact A|].
    { intros s o I P. split; [apply (end_agree c_name same String.eqb Uc Hc); assumption|intros s'; apply (end_keeps c_name String.eqb Uc); assumption]. }
    destruct (run_agree (fun l c => put_end id_of_key (key_same same) c l) (fun l c => put_end id_of_key key_id_eqb c l) keys_within (fun c => Ui (id_of_key c))) with (l := ks) (s := @nil index) as [-> Kb]; [|constructor|exact B|].
    { intros s o I P. split; [apply (end_agree id_of_key (key_same same) key_id_eqb Ui key_agree); assumption|intros s'; apply (end_keeps id_of_key key_id_eqb Ui); assumption]. }
    destruct (run_agree (fun l c => put_end k_name same c l) (fun l c => put_end k_name String.eqb c l) fks_within (fun c => Uf (k_name c))) with (l := fs) (s := @nil constraint) as [-> Kc]; [|constructor|exact C|].
    { intros s o I P. split; [apply (end_agree k_name same String.eqb Uf Hf); assumption|intros s'; apply (end_keeps k_name String.eqb Uf); assumption]. }
    split; [reflexivity|]. intros st'. destruct (run_all _ cs _), (run_all _ ks _), (run_all _ fs _); try discriminate. intros [= <-]. constructor; cbn; auto.
  Qed.
End Table.

(** ** The plan *)
Section Plan.
  Context {FO : FloatOracle}.
  Variables (from to : tables).
  Hypothesis Wf : wf_tables from.
  Hypothesis Wt : wf_tables to.

  Definition uc (n c : string) : Prop := In c (column_names from n +++ column_names to n).
  Definition uk (n c : string) : Prop := In c (index_names from n +++ index_names to n).
  Definition uf (n c : string) : Prop := In c (fk_names from n +++ fk_names to n).
  Notation ow n := (op_within (uc n) (uk n) (uf n)).

  Lemma at_from {V} (f : table -> dict string V) name n t (x : V) : In (n, t) from -> In x (dvals (f t)) -> In (name x) (names_at f name from n +++ names_at f name to n).
  Proof. intros I J. apply in_app_iff. left. unfold names_at. rewrite (proj2 (dget_iff n t from (wf_names _ Wf)) I). apply in_map, J. Qed.
  Lemma at_to {V} (f : table -> dict string V) name n t (x : V) : In (n, t) to -> In x (dvals (f t)) -> In (name x) (names_at f name from n +++ names_at f name to n).
  Proof. intros I J. apply in_app_iff. right. unfold names_at. rewrite (proj2 (dget_iff n t to (wf_names _ Wt)) I). apply in_map, J. Qed.

  Definition op_ok (o : op) : Prop :=
    match o with
    | OCreate t => In (t_name t, t) to
    | OAlter a => Forall (ow (al_table a)) (al_ops a)
    | _ => True
    end.
  Lemma alter1_ok n l : Forall (ow n) l -> Forall op_ok (alter1 n l).
  Proof. intros F. rewrite alter1_eq. destruct (list_is_nil l); constructor; [exact F|constructor]. Qed.
  Lemma constraints_ok n (f : constraint -> aop) l : (f = RemoveConstraint \/ f = AddConstraint) -> (forall k, In k l -> uf n (k_name k)) -> Forall (ow n) (map f l).
  Proof. intros E H. apply Forall_forall. intros x I. apply in_map_iff in I as (k & <- & I). destruct E as [-> | ->]; cbn; apply H, I. Qed.
  Lemma pos_within n t a : In (n, t) to -> forall b, pos_of (map fst (t_columns t)) a = PAfter b -> uc n b.
  Proof.
    intros I b E. assert (G : forall l p, (forall x, p = PAfter x -> uc n x) -> (forall x, In x l -> uc n x) -> forall q, before_in p a l = Some q -> forall x, q = PAfter x -> uc n x).
    { induction l as [|y l IH]; intros p Hp Hl q B x Q; cbn [before_in] in B; [discriminate|]. destruct (String.eqb y a); [injection B as <-; apply Hp, Q|].
      apply (IH (PAfter y)) with (q := q); auto; [intros z [= <-]; apply Hl; left; reflexivity|intros z J; apply Hl; right; exact J]. }
    unfold pos_of in E. destruct (before_in PFirst a (map fst (t_columns t))) as [q|] eqn:B; [|discriminate]. apply (G (map fst (t_columns t)) PFirst) with (q := q); auto; [discriminate|].
    intros x J. apply in_map_iff in J as ([y c] & <- & J). cbn [fst]. pose proof (proj2 (wf_named _ Wt n t I)) as W. rewrite <- (wf_cols_named _ W y c J).
    apply (at_to t_columns c_name n t c I). eapply in_dvals; eauto.
  Qed.
  Lemma kitchen_ok n s t : In (n, s) from -> In (n, t) to -> Forall (ow n) (kitchen_list s t).
  Proof.
    intros Is It. unfold kitchen_list. rewrite key_ops_eq. rewrite !Forall_app. repeat split; apply Forall_forall; intros o I; apply in_map_iff in I as (q & <- & I); cbn [op_within].
    - apply filter_In in I as [I _]. destruct q as [m c]. cbn [fst snd]. split; [apply (at_to t_columns c_name n t c It); eapply in_dvals; eauto|].
      destruct (pos_of _ m) as [| |b] eqn:P; auto. apply (pos_within n t m It b P).
    - apply changed_cols_in in I as (m & a & _ & D & _). apply dget_in in D. apply (at_to t_columns c_name n t q It). eapply in_dvals; eauto.
    - apply filter_In in I as [I _]. destruct q as [m c]. cbn [fst snd]. apply (at_from t_columns c_name n s c Is). eapply in_dvals; eauto.
    - unfold new_keys in I. apply in_map_iff in I as ([m i] & <- & I). apply filter_In in I as [I _]. apply filter_In in I as [I _]. apply (at_to t_indexes ix_name n t i It). eapply in_dvals; eauto.
    - unfold gone_keys in I. apply in_map_iff in I as ([m i] & <- & I). apply filter_In in I as [I _]. apply filter_In in I as [I _]. apply (at_from t_indexes ix_name n s i Is). eapply in_dvals; eauto.
    - destruct q as [a b]. apply changed_keys_in in I as (m & _ & D & _). apply dget_in in D. cbn [snd]. apply (at_to t_indexes ix_name n t b It). eapply in_dvals; eauto.
  Qed.
  Lemma concat_ok {A} (f : A -> list op) l : (forall x, In x l -> Forall op_ok (f x)) -> Forall op_ok (concat (map f l)).
  Proof. intros H. apply Forall_forall. intros o I. apply in_concat in I as (q & I & J). apply in_map_iff in I as (x & <- & I). specialize (H x I). rewrite Forall_forall in H. apply H, J. Qed.
  Lemma plan_ok disable : Forall op_ok (plan_list from to disable).
  Proof.
    unfold plan_list, body_list. rewrite !Forall_app.
    assert (D : forall o, (o = ODisable \/ o = OEnable) -> Forall op_ok (if disable then [o] else [])) by (intros o [-> | ->]; destruct disable; repeat constructor).
    assert (C : forall n s, In (n, s) (common from to) -> In (n, s) from /\ In (n, tgt_of to (n, s)) to).
    { intros n s I. apply in_common in I as [I (t & E)]. split; [exact I|]. unfold tgt_of. cbn [fst]. rewrite E. apply dget_in, E. }
    repeat split; try (apply D; auto).
    - apply Forall_forall. intros o I. apply in_map_iff in I as ([n t] & <- & I). apply filter_In in I as [I _]. cbn. rewrite (proj1 (wf_named _ Wt n t I)). exact I.
    - apply concat_ok. intros [n s] I. apply alter1_ok, constraints_ok; [auto|]. intros k J. apply in_map_iff in J as ([[kn k'] x] & <- & J). cbn [fst snd].
      apply cycled_in_iff in J as [J _]. apply (at_from t_constraints k_name n s k' I). eapply in_dvals; eauto.
    - apply concat_ok. intros [n s] I. destruct (C n s I) as [If It]. apply Forall_app. split; [apply alter1_ok, constraints_ok; [auto|]|apply alter1_ok, kitchen_ok; assumption].
      intros k J. apply filter_In in J as [J _]. cbn [fst snd] in *. apply gone_fks_in in J as (m & J & _).
      apply (at_from t_constraints k_name n s k If). eapply in_dvals; eauto.
    - apply concat_ok. intros [n s] I. destruct (C n s I) as [If It]. apply alter1_ok, constraints_ok; [auto|]. cbn [fst snd] in *.
      intros k J. apply filter_In in J as [J _]. apply new_fks_in in J as (m & J & _); [|apply (wf_named _ Wf n s If)|apply (wf_named _ Wt _ _ It)].
      apply (at_to t_constraints k_name n _ k It). eapply in_dvals; eauto.
    - apply concat_ok. intros [n s] I. apply alter1_ok, constraints_ok; [auto|]. cbn [fst snd]. intros k J. apply once_in in J as (kn & k0 & m & J & _).
      destruct (dget n to) as [t|] eqn:E.
      + destruct (cycle_target from to n s t kn k0 k m E) as (H & _); [eapply wf_named; [exact Wt|apply dget_in, E]|exact J|].
        apply dget_in in E. apply (at_to t_constraints k_name n t k E). eapply in_dvals; eauto.
      + apply cycled_in_iff in J as [_ J]. unfold cycle_of in J. rewrite E in J. destruct (_ || _); discriminate.
    - apply Forall_forall. intros o I. apply in_map_iff in I as (p & <- & I). exact Logic.I.
  Qed.

  Variable same : string -> string -> bool.
  Hypothesis Hc : forall n a b, uc n a -> uc n b -> same a b = String.eqb a b.
  Hypothesis Hk : forall n a b, uk n a -> uk n b -> same a b = String.eqb a b.
  Hypothesis Hf : forall n a b, uf n a -> uf n b -> same a b = String.eqb a b.

  Definition server_within (s : server) : Prop := forall n st, s n = Some st -> within (uc n) (uk n) (uf n) st.
  Lemma from_within : server_within (server_of from).
  Proof.
    intros n st E. unfold server_of in E. destruct (dget n from) as [t|] eqn:D; [|discriminate]. injection E as <-. apply dget_in in D.
    constructor; apply Forall_forall; cbn [stable_of st_cols st_keys st_fks]; intros x I.
    - apply (at_from t_columns c_name n t x D I).
    - apply key_within, (at_from t_indexes ix_name n t x D I).
    - apply (at_from t_constraints k_name n t x D I).
  Qed.
  Lemma supd_within s n v : server_within s -> (forall st, v = Some st -> within (uc n) (uk n) (uf n) st) -> server_within (supd s n v).
  Proof. intros S H m st E. unfold supd in E. destruct (String.eqb_spec m n) as [->|N]; [apply H, E|apply S, E]. Qed.
  Lemma exec_agree s o : server_within s -> op_ok o -> loose_exec same s o = exec s o /\ forall s', exec s o = Some s' -> server_within s'.
  Proof.
    intros S O. destruct o as [t|a|n| | | | |]; cbn [loose_exec exec op_ok] in *; try (split; [reflexivity|intros s' [= <-]; exact S]).
    - destruct (s (t_name t)); [split; [reflexivity|discriminate]|].
      destruct (create_agree same (uc (t_name t)) (uk (t_name t)) (uf (t_name t)) (Hc _) (Hk _) (Hf _) (dvals (t_columns t)) (dvals (t_indexes t)) (dvals (t_constraints t))) as [-> K].
      + apply Forall_forall. intros x I. apply (at_to t_columns c_name _ t x O I).
      + apply Forall_forall. intros x I. apply key_within, (at_to t_indexes ix_name _ t x O I).
      + apply Forall_forall. intros x I. apply (at_to t_constraints k_name _ t x O I).
      + split; [reflexivity|]. intros s'. destruct (exec_create _ _ _) as [st|]; [|discriminate]. intros [= <-]. apply supd_within; [exact S|]. intros st' [= <-]. apply K. reflexivity.
    - destruct (s (al_table a)) as [st|] eqn:E; [|split; [reflexivity|discriminate]].
      destruct (alter_agree same (uc (al_table a)) (uk (al_table a)) (uf (al_table a)) (Hc _) (Hk _) (Hf _) (al_ops a) st O (S _ _ E)) as [-> K].
      split; [reflexivity|]. intros s'. destruct (exec_alter _ _) as [st'|]; [|discriminate]. intros [= <-]. apply supd_within; [exact S|]. intros st1 [= <-]. apply K. reflexivity.
    - destruct (s n); split; try reflexivity; try discriminate. intros s' [= <-]. apply supd_within; [exact S|discriminate].
  Qed.
  Lemma plan_agree disable pre post : plan_list from to disable = pre +++ post -> loose_all same pre (server_of from) = exec_all pre (server_of from).
  Proof.
    intros E. pose proof (plan_ok disable) as F. rewrite E in F. apply Forall_app in F as [F _].
    apply (run_agree (loose_exec same) exec server_within op_ok exec_agree pre (server_of from) from_within F).
  Qed.
End Plan.
