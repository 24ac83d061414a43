(** The loop of CreateParser.process against SpecDefs.v. *)
From Verif Require Import Facts ReadFacts SpecDefs.
From Coq Require Import Lia.

Lemma stake_sub n s : stake n s = substring 0 n s.
Proof. revert s. induction n as [|n IH]; intros [|c s]; cbn [stake substring]; try reflexivity. rewrite IH. reflexivity. Qed.

Lemma called_eq tname k : rename_fk k (bare_name tname k) = fk_called tname true k.
Proof. unfold rename_fk, bare_name, fk_called. rewrite stake_sub. reflexivity. Qed.
Lemma called_column tname bare k : k_column (fk_called tname bare k) = k_column k.
Proof. destruct bare; reflexivity. Qed.

Lemma meant_eq p c : column_meant p c <-> as_definition p = Ok c.
Proof.
  unfold column_meant, as_definition. split.
  - intros (kind & -> & ->). reflexivity.
  - destruct (dget _ type_map) as [kind|]; [|discriminate]. intros [= <-]. eauto.
Qed.

Lemma yields_snoc {A} (R : list def -> def -> A -> Prop) l d L X : forall before,
  yields R before l L -> yields R (before +++ l) [d] X -> yields R before (l +++ [d]) (L +++ X).
Proof.
  intros before H. induction H as [before|before e l L N H IH|before e l a L N H IH]; intros Y; cbn [app].
  - rewrite app_nil_r in Y. exact Y.
  - apply yields_skip; [exact N|]. apply IH. rewrite <- app_assoc. exact Y.
  - apply yields_take; [exact N|]. apply IH. rewrite <- app_assoc. exact Y.
Qed.
Lemma yields_none {A} (R : list def -> def -> A -> Prop) before d : (forall a, ~ R before d a) -> yields R before [d] [].
Proof. intros H. apply yields_skip; [exact H|constructor]. Qed.
Lemma yields_one {A} (R : list def -> def -> A -> Prop) before d a : R before d a -> yields R before [d] [a].
Proof. intros H. eapply yields_take; [exact H|constructor]. Qed.

Lemma dset_new {V} (k : string) (v : V) d : dmem k d = false -> dset k v d = d +++ [(k, v)].
Proof.
  unfold dmem. induction d as [|[k' v'] d IH]; [reflexivity|]. simpl. destruct (String.eqb k k'); [discriminate|]. intros H. rewrite IH; auto.
Qed.

Lemma of_mut_ok {A} (a : A) : of_mut (a, None) = Ok a. Proof. reflexivity. Qed.

Section Loop.
  Variable tname : string.
  Variable all : list def.
  Hypothesis no_empty : ~ key_named tname all all "".

  Lemma column_snoc before d n : column_named (before +++ [d]) n <-> column_named before n \/ exists q, d = DefCol q /\ p_name q = n.
  Proof.
    unfold column_named. split.
    - intros (q & I & E). apply in_app_iff in I as [I|[->|[]]]; eauto.
    - intros [(q & I & E)|(q & -> & E)]; exists q; (split; [apply in_app_iff; simpl; auto|exact E]).
  Qed.
  Lemma fk_snoc before d n : fk_named tname (before +++ [d]) n
    <-> fk_named tname before n \/ exists bare k, d = DefFk bare k /\ k_name (fk_called tname bare k) = n.
  Proof.
    unfold fk_named. split.
    - intros (b & k & I & E). apply in_app_iff in I as [I|[->|[]]]; eauto.
    - intros [(b & k & I & E)|(b & k & -> & E)]; exists b, k; (split; [apply in_app_iff; simpl; auto|exact E]).
  Qed.
  Lemma split_snoc {A} (before : list A) d l x l' : before +++ [d] = l +++ x :: l' ->
    (l = before /\ x = d /\ l' = []) \/ exists l2, before = l +++ x :: l2.
  Proof.
    intros E. induction l' as [|y l' _] using rev_ind.
    - apply app_inj_tail in E as [-> ->]. auto.
    - right. rewrite app_comm_cons, app_assoc in E. apply app_inj_tail in E as [-> _]. eauto.
  Qed.
  Lemma key_snoc before d n : key_named tname all (before +++ [d]) n
    <-> key_named tname all before n
        \/ (exists i, d = DefIndex i /\ ix_name i = n)
        \/ (exists p, d = DefCol p /\ p_primary p = true /\ ~ column_named before (p_name p) /\ p_name p = n)
        \/ (exists k, d = DefFk true k /\ ~ fk_named tname before (k_name (fk_called tname true k)) /\ ~ in_some_key all (k_column k) /\ k_column k = n).
  Proof.
    unfold key_named. split.
    - intros [(i & I & E)|[(l & p & l' & E & P & N & Q)|(l & k & l' & E & P & N & Q)]].
      + apply in_app_iff in I as [I|[->|[]]]; [left; eauto|right; left; eauto].
      + apply split_snoc in E as [(-> & <- & _)|(l2 & ->)]; [right; right; left; eauto|left; right; left; do 3 eexists; eauto].
      + apply split_snoc in E as [(-> & <- & _)|(l2 & ->)]; [right; right; right; eauto|left; right; right; do 3 eexists; eauto].
    - intros [[(i & I & E)|[(l & p & l' & -> & P & N & Q)|(l & k & l' & -> & P & N & Q)]]|[(i & -> & E)|[(p & -> & P & N & Q)|(k & -> & P & N & Q)]]].
      + left. exists i. split; [apply in_app_iff; auto|exact E].
      + right. left. exists l, p, (l' +++ [d]). rewrite <- app_assoc. auto.
      + right. right. exists l, k, (l' +++ [d]). rewrite <- app_assoc. auto.
      + left. exists i. split; [apply in_app_iff; simpl; auto|exact E].
      + right. left. exists before, p, []. auto.
      + right. right. exists before, k, []. auto.
  Qed.

  Lemma key_more before rest n : key_named tname all before n -> key_named tname all (before +++ rest) n.
  Proof.
    unfold key_named. intros [(j & I & E)|[(l & p & l' & -> & P & N & Q)|(l & k & l' & -> & P & N & Q)]].
    - left. exists j. split; [apply in_app_iff; auto|exact E].
    - right. left. exists l, p, (l' +++ rest). rewrite <- app_assoc. auto.
    - right. right. exists l, k, (l' +++ rest). rewrite <- app_assoc. auto.
  Qed.

  (** After the definitions [before] of [all]. *)
  Record after (before : list def) (t : table) : Prop := {
    af_name : t_name t = tname;
    af_indexed : t_indexed t = None;
    af_cols : forall n, In n (dkeys (t_columns t)) <-> column_named before n;
    af_fks : forall n, In n (dkeys (t_constraints t)) <-> fk_named tname before n;
    af_keys : forall n, In n (dkeys (t_indexes t)) <-> key_named tname all before n;
    af_within : forall n i, In (n, i) (t_indexes t) -> In (DefIndex i) all \/ ix_columns i = [n];
    af_C : exists C, yields gives_column [] before C /\ t_columns t = map (fun c => (c_name c, c)) C;
    af_K : exists K, yields (gives_key tname all) [] before K /\ t_indexes t = map (fun i => (ix_name i, i)) K;
    af_F : exists F, yields (gives_fk tname) [] before F /\ t_constraints t = map (fun k => (k_name k, k)) F;
    af_M : exists M, yields (gives_message tname all) [] before M /\ t_global_errors t = M
  }.

  Lemma dmem_named {V} (d : dict string V) n P : (forall m, In m (dkeys d) <-> P m) -> (dmem n d = true <-> P n).
  Proof. intros H. rewrite <- H. apply dmem_iff. Qed.
  Lemma dmem_unnamed {V} (d : dict string V) n P : (forall m, In m (dkeys d) <-> P m) -> (dmem n d = false <-> ~ P n).
  Proof. intros H. rewrite <- H, <- dmem_iff. destruct (dmem n d); split; congruence. Qed.

  Ltac other := (intros ? X; inversion X; fail) || (intros ? X; inversion X; subst; tauto).
  Ltac same H := destruct H as (?L & ?Y & ?E); eexists; split; [eapply yields_snoc; [eassumption|cbn [app]; apply yields_none; other]|rewrite app_nil_r; assumption].

  Lemma step before d t : after before t -> (exists post, all = before +++ d :: post) ->
    (exists t', process_def all t d = Ok t' /\ ~ fails tname all before d /\ after (before +++ [d]) t')
    \/ (exists m, process_def all t d = Raise (ValueError m)) /\ fails tname all before d.
  Proof.
    intros A (post & Ep). destruct A as [An Ai Ac Af Ak Aw AC AK AF AM]. destruct d as [p|i|bare k|o].
    - (* a column *)
      cbn [process_def]. destruct (dmem (p_name p) (t_columns t)) eqn:Dc.
      + apply (dmem_named _ _ _ Ac) in Dc. left. eexists. split; [reflexivity|]. split; [intros X; inversion X; tauto|].
        constructor; cbn [add_global_error t_name t_columns t_indexes t_constraints t_indexed t_global_errors]; auto.
        * intros n. rewrite Ac, column_snoc. split; [auto|]. intros [H|(q & [= <-] & <-)]; auto.
        * intros n. rewrite Af, fk_snoc. split; [auto|]. intros [H|(b & q & [=] & _)]; auto.
        * intros n. rewrite Ak, key_snoc. split; [auto|]. intros [H|[(i & [=] & _)|[(q & [= <-] & _ & N & _)|(q & [=] & _)]]]; tauto.
        * same AC.
        * same AK.
        * same AF.
        * destruct AM as (M & Y & E). eexists. split; [eapply yields_snoc; [eassumption|cbn [app]; apply yields_one, gives_two_columns, Dc]|rewrite E, An; reflexivity].
      + pose proof Dc as Dc'. apply (dmem_unnamed _ _ _ Ac) in Dc.
        destruct (as_definition p) as [c|e] eqn:Ed; cbn [bind].
        2: { right. split; [unfold as_definition in Ed; destruct (dget _ type_map); [discriminate|]; injection Ed as <-; eauto|].
             apply fails_type; [exact Dc|]. intros c M. apply meant_eq in M. congruence. }
        apply meant_eq in Ed. assert (Nc : c_name c = p_name p) by (destruct Ed as (kind & _ & ->); reflexivity).
        unfold add_column. rewrite Nc, Dc'. rewrite !of_mut_ok. cbn [bind]. rewrite (dset_new _ _ _ Dc').
        set (t1 := with_columns t _ _).
        assert (A1 : p_primary p = false \/ ~ key_named tname all before (p_name p) -> forall t2,
                  t2 = (if p_primary p then with_indexes t1 (t_indexes t +++ [(p_name p, mkIndex "" [p_name p] IPrimary [])]) (Some (mkIndex "" [p_name p] IPrimary [])) None else t1) ->
                  after (before +++ [DefCol p]) t2).
        { intros Np t2 ->. constructor.
          - destruct (p_primary p); exact An.
          - destruct (p_primary p); [reflexivity|exact Ai].
          - intros n. replace (t_columns _) with (t_columns t +++ [(p_name p, c)]) by (destruct (p_primary p); reflexivity).
            rewrite column_snoc. unfold dkeys. rewrite map_app, in_app_iff. fold (dkeys (t_columns t)). rewrite Ac. cbn [map fst In].
            split; [intros [H|[H|[]]]; eauto|]. intros [H|(q & [= <-] & <-)]; auto.
          - intros n. replace (t_constraints _) with (t_constraints t) by (destruct (p_primary p); reflexivity).
            rewrite Af, fk_snoc. split; [auto|]. intros [H|(b & q & [=] & _)]; auto.
          - intros n. rewrite key_snoc. destruct (p_primary p) eqn:Pp; cbn [with_indexes t_indexes].
            + unfold dkeys. rewrite map_app, in_app_iff. fold (dkeys (t_indexes t)). rewrite Ak. cbn [map fst In].
              split; [intros [H|[H|[]]]; [auto|right; right; left; eauto]|]. intros [H|[(i & [=] & _)|[(q & [= <-] & _ & N & <-)|(q & [=] & _)]]]; auto.
            + unfold t1. cbn [with_columns t_indexes]. rewrite Ak.
              split; [auto|]. intros [H|[(i & [=] & _)|[(q & [= <-] & Q & N & <-)|(q & [=] & _)]]]; [auto|congruence].
          - intros n i. destruct (p_primary p); cbn [with_indexes t_indexes]; [|apply Aw]. intros I. apply in_app_iff in I as [I|[[= <- <-]|[]]]; [auto|right; reflexivity].
          - destruct AC as (C & Y & E). exists (C +++ [c]). split; [eapply yields_snoc; [exact Y|apply yields_one; constructor; auto]|].
            replace (t_columns _) with (t_columns t +++ [(p_name p, c)]) by (destruct (p_primary p); reflexivity). rewrite E, map_app. cbn [map]. rewrite Nc. reflexivity.
          - destruct AK as (K & Y & E). destruct (p_primary p) eqn:Pp; cbn [with_indexes t_indexes].
            + eexists. split; [eapply yields_snoc; [exact Y|apply yields_one, gives_primary; auto]|]. rewrite E, map_app. reflexivity.
            + exists K. split; [rewrite <- (app_nil_r K); eapply yields_snoc; [exact Y|apply yields_none; intros a X; inversion X; congruence]|exact E].
          - replace (t_constraints _) with (t_constraints t) by (destruct (p_primary p); reflexivity). same AF.
          - replace (t_global_errors _) with (t_global_errors t) by (destruct (p_primary p); reflexivity). same AM. }
        destruct (p_primary p) eqn:Pp.
        * unfold add_index. change (ix_name (mkIndex "" [p_name p] IPrimary [])) with (p_name p). change (t_indexes t1) with (t_indexes t).
          destruct (dmem (p_name p) (t_indexes t)) eqn:Dk.
          -- right. split; [eexists; reflexivity|]. apply (dmem_named _ _ _ Ak) in Dk. apply fails_primary; auto.
          -- pose proof Dk as Dk'. apply (dmem_unnamed _ _ _ Ak) in Dk'. left. change (t_indexed t1) with (t_indexed t). rewrite Ai. unfold of_mut. cbn [fst snd].
             eexists. split; [reflexivity|]. split.
             ++ intros X; inversion X; subst; [|tauto]. match goal with H : forall c, ~ _ |- _ => exact (H c Ed) end.
             ++ apply A1; [auto|]. rewrite (dset_new _ _ _ Dk). reflexivity.
        * left. eexists. split; [reflexivity|]. split; [intros X; inversion X; subst; [match goal with H : forall c, ~ _ |- _ => exact (H c Ed) end|congruence]|]. apply A1; auto.
    - (* a key *)
      cbn [process_def]. assert (Ne : ix_name i <> "").
      { intros H. apply no_empty. left. exists i. split; [rewrite Ep; apply in_app_iff; right; left; reflexivity|exact H]. }
      assert (Ln : ~ key_named tname all before "").
      { intros H. apply no_empty. apply (key_more _ (DefIndex i :: post)) in H. rewrite <- Ep in H. exact H. }
      destruct (dmem (ix_rawname i) (t_indexes t)) eqn:Dk.
      + apply (dmem_named _ _ _ Ak) in Dk. assert (Nr : ix_rawname i <> "") by (intros E; rewrite E in Dk; contradiction).
        assert (En : ix_name i = ix_rawname i) by (unfold ix_name; destruct (ix_rawname i); [congruence|reflexivity]).
        left. eexists. split; [reflexivity|]. split; [intros X; inversion X; congruence|]. rewrite <- En in *.
        constructor; cbn [add_global_error t_name t_columns t_indexes t_constraints t_indexed t_global_errors]; auto.
        * intros n. rewrite Ac, column_snoc. split; [auto|]. intros [H|(q & [=] & _)]; auto.
        * intros n. rewrite Af, fk_snoc. split; [auto|]. intros [H|(b & q & [=] & _)]; auto.
        * intros n. rewrite Ak, key_snoc. split; [auto|]. intros [H|[(j & [= <-] & <-)|[(q & [=] & _)|(q & [=] & _)]]]; tauto.
        * same AC.
        * same AK.
        * same AF.
        * destruct AM as (M & Y & E). eexists. split; [eapply yields_snoc; [eassumption|cbn [app]; apply yields_one, gives_two_keys, Dk]|rewrite E, An; reflexivity].
      + pose proof Dk as Dk'. apply (dmem_unnamed _ _ _ Ak) in Dk'. unfold add_index. destruct (dmem (ix_name i) (t_indexes t)) eqn:Dn.
        * right. split; [eexists; reflexivity|]. apply (dmem_named _ _ _ Ak) in Dn. apply fails_key; [|exact Dn].
          unfold ix_name in Dn. destruct (ix_rawname i) as [|x r]; [reflexivity|]. cbn in Dn. contradiction.
        * rewrite Ai. unfold of_mut. cbn [fst snd]. left. eexists. split; [reflexivity|]. pose proof Dn as Dn'. apply (dmem_unnamed _ _ _ Ak) in Dn'.
          split; [intros X; inversion X; tauto|]. rewrite (dset_new _ _ _ Dn).
          constructor; cbn [with_indexes t_name t_columns t_indexes t_constraints t_indexed t_global_errors]; auto.
          -- intros n. rewrite Ac, column_snoc. split; [auto|]. intros [H|(q & [=] & _)]; auto.
          -- intros n. rewrite Af, fk_snoc. split; [auto|]. intros [H|(b & q & [=] & _)]; auto.
          -- intros n. rewrite key_snoc. unfold dkeys. rewrite map_app, in_app_iff. fold (dkeys (t_indexes t)). rewrite Ak. cbn [map fst In].
             split; [intros [H|[H|[]]]; eauto|]. intros [H|[(j & [= <-] & <-)|[(q & [=] & _)|(q & [=] & _)]]]; auto.
          -- intros n j I. apply in_app_iff in I as [I|[[= <- <-]|[]]]; [auto|left]. rewrite Ep. apply in_app_iff. right. left. reflexivity.
          -- same AC.
          -- destruct AK as (K & Y & E). exists (K +++ [i]). split; [eapply yields_snoc; [exact Y|apply yields_one; constructor; auto]|]. rewrite E, map_app. reflexivity.
          -- same AF.
          -- same AM.
    - (* a foreign key *)
      cbn [process_def]. rewrite An.
      replace (if bare then rename_fk k (bare_name tname k) else k) with (fk_called tname bare k) by (destruct bare; [rewrite called_eq|]; reflexivity).
      set (k' := fk_called tname bare k). assert (Kc : k_column k' = k_column k) by apply called_column.
      destruct (dmem (k_name k') (t_constraints t)) eqn:Df.
      + apply (dmem_named _ _ _ Af) in Df. left. eexists. split; [reflexivity|]. split; [intros X; inversion X|].
        constructor; cbn [add_global_error t_name t_columns t_indexes t_constraints t_indexed t_global_errors]; auto.
        * intros n. rewrite Ac, column_snoc. split; [auto|]. intros [H|(q & [=] & _)]; auto.
        * intros n. rewrite Af, fk_snoc. split; [auto|]. intros [H|(b & q & [= <- <-] & <-)]; auto.
        * intros n. rewrite Ak, key_snoc. split; [auto|]. intros [H|[(j & [=] & _)|[(q & [=] & _)|(q & [= -> <-] & N & _)]]]; [auto|]. contradiction.
        * same AC.
        * same AK.
        * same AF.
        * destruct AM as (M & Y & E). eexists. split; [eapply yields_snoc; [eassumption|cbn [app]; apply yields_one, gives_two_fks, Df]|rewrite E; reflexivity].
      + pose proof Df as Df'. apply (dmem_unnamed _ _ _ Af) in Df'. unfold add_constraint. rewrite Df. rewrite !of_mut_ok. cbn [bind].
        rewrite (dset_new _ _ _ Df), Kc. set (t1 := with_constraints t _). change (t_indexes t1) with (t_indexes t).
        assert (Hi : dmem (k_column k) (t_indexes t) || existsb (fun i => smem (k_column k) (ix_columns i)) (dvals (t_indexes t)) = true
                     -> key_named tname all before (k_column k) \/ in_some_key all (k_column k)).
        { intros H. apply orb_true_iff in H as [H|H]; [left; apply (dmem_named _ _ _ Ak), H|]. apply existsb_exists in H as (j & I & H).
          apply smem_iff in H. apply dvals_in in I as (n & I). destruct (Aw n j I) as [J|J]; [right; exists j; auto|].
          left. rewrite J in H. destruct H as [<-|[]]. apply Ak. eapply in_dkeys; eauto. }
        assert (Hf : existsb (def_index_on (k_column k)) all = true <-> in_some_key all (k_column k)).
        { rewrite existsb_exists. split.
          - intros (x & I & H). destruct x as [|j| |]; try discriminate. cbn [def_index_on] in H. apply smem_iff in H. exists j. auto.
          - intros (j & I & H). exists (DefIndex j). split; [exact I|]. cbn [def_index_on]. apply smem_iff, H. }
        assert (A1 : forall t2, (bare = true /\ ~ key_named tname all before (k_column k) /\ ~ in_some_key all (k_column k)
                    /\ t2 = with_indexes t1 (t_indexes t +++ [(k_column k, mkIndex (k_column k) [k_column k] IIndex [])]) (t_primary t1) None)
                  \/ ((bare = false \/ key_named tname all before (k_column k) \/ in_some_key all (k_column k)) /\ t2 = t1) ->
                  after (before +++ [DefFk bare k]) t2).
        { intros t2 H2. assert (Ec : t_columns t2 = t_columns t) by (destruct H2 as [(_ & _ & _ & ->)|[_ ->]]; reflexivity).
          assert (Ef : t_constraints t2 = t_constraints t +++ [(k_name k', k')]) by (destruct H2 as [(_ & _ & _ & ->)|[_ ->]]; reflexivity).
          assert (Em : t_global_errors t2 = t_global_errors t) by (destruct H2 as [(_ & _ & _ & ->)|[_ ->]]; reflexivity).
          constructor.
          - destruct H2 as [(_ & _ & _ & ->)|[_ ->]]; exact An.
          - destruct H2 as [(_ & _ & _ & ->)|[_ ->]]; [reflexivity|exact Ai].
          - intros n. rewrite Ec, Ac, column_snoc. split; [auto|]. intros [H|(q & [=] & _)]; auto.
          - intros n. rewrite Ef, fk_snoc. unfold dkeys. rewrite map_app, in_app_iff. fold (dkeys (t_constraints t)). rewrite Af. cbn [map fst In].
            split; [intros [H|[H|[]]]; eauto|]. intros [H|(b & q & [= <- <-] & <-)]; auto.
          - intros n. rewrite key_snoc. destruct H2 as [(-> & N1 & N2 & ->)|[H ->]]; cbn [with_indexes t_indexes].
            + unfold dkeys. rewrite map_app, in_app_iff. fold (dkeys (t_indexes t)). rewrite Ak. cbn [map fst In].
              split; [intros [H|[H|[]]]; [auto|right; right; right; eauto]|]. intros [H|[(j & [=] & _)|[(q & [=] & _)|(q & [= <-] & _ & _ & <-)]]]; auto.
            + unfold t1. cbn [with_constraints t_indexes]. rewrite Ak. split; [auto|].
              intros [X|[(j & [=] & _)|[(q & [=] & _)|(q & [= -> <-] & _ & N & <-)]]]; [auto|]. destruct H as [H|[H|H]]; [discriminate|exact H|contradiction].
          - intros n i. destruct H2 as [(-> & N1 & N2 & ->)|[H ->]]; cbn [with_indexes t_indexes]; [|apply Aw].
            intros I. apply in_app_iff in I as [I|[[= <- <-]|[]]]; [auto|right; reflexivity].
          - rewrite Ec. same AC.
          - destruct AK as (K & Y & E). destruct H2 as [(-> & N1 & N2 & ->)|[H ->]]; cbn [with_indexes t_indexes].
            + eexists. split; [eapply yields_snoc; [exact Y|apply yields_one, gives_made; auto]|]. rewrite E, map_app. cbn [map].
              assert (Q : ix_name (mkIndex (k_column k) [k_column k] IIndex []) = k_column k) by (unfold ix_name; cbn; destruct (k_column k); reflexivity).
              rewrite Q. reflexivity.
            + exists K. split; [rewrite <- (app_nil_r K); eapply yields_snoc; [exact Y|apply yields_none]|exact E]. intros a X. inversion X; subst. destruct H as [H|[H|H]]; [discriminate|contradiction|contradiction].
          - destruct AF as (F & Y & E). exists (F +++ [k']). split; [eapply yields_snoc; [exact Y|apply yields_one; constructor; exact Df']|]. rewrite Ef, E, map_app. reflexivity.
          - rewrite Em. same AM. }
        left. destruct (bare && negb _ && negb _) eqn:B.
        * apply andb_true_iff in B as [B Fu]. apply andb_true_iff in B as [-> Hx]. apply negb_true_iff in Hx, Fu.
          apply orb_false_iff in Hx as [Hx _]. unfold add_index.
          assert (Q : ix_name (mkIndex (k_column k) [k_column k] IIndex []) = k_column k) by (unfold ix_name; cbn; destruct (k_column k); reflexivity).
          rewrite Q. change (t_indexes t1) with (t_indexes t). rewrite Hx. change (t_indexed t1) with (t_indexed t). rewrite Ai. unfold of_mut. cbn [fst snd].
          eexists. split; [reflexivity|]. split; [intros X; inversion X|]. apply A1. left. split; [reflexivity|].
          split; [apply (dmem_unnamed _ _ _ Ak), Hx|]. split; [rewrite <- Hf, Fu; discriminate|]. rewrite (dset_new _ _ _ Hx). reflexivity.
        * eexists. split; [reflexivity|]. split; [intros X; inversion X|]. apply A1. right. split; [|reflexivity].
          destruct bare; [|auto]. right. cbn [andb] in B. apply andb_false_iff in B as [B|B]; apply negb_false_iff in B; [auto|right; apply Hf, B].
    - right. split; [eexists; reflexivity|constructor].
  Qed.

  Lemma loop post : forall before t, all = before +++ post -> after before t ->
    (exists t', foldM (process_def all) post t = Ok t' /\ after all t'
       /\ forall l d l', post = l +++ d :: l' -> ~ fails tname all (before +++ l) d)
    \/ (exists m, foldM (process_def all) post t = Raise (ValueError m))
       /\ exists l d l', post = l +++ d :: l' /\ fails tname all (before +++ l) d.
  Proof.
    induction post as [|d post IH]; intros before t E A.
    - left. exists t. split; [reflexivity|]. rewrite app_nil_r in E. subst. split; [exact A|]. intros [|? ?] ? ? [=].
    - cbn [foldM]. destruct (step before d t A (ex_intro _ post E)) as [(t' & -> & N & A')|[(m & ->) F]]; cbn [bind].
      + destruct (IH (before +++ [d]) t') as [(t2 & -> & A2 & H)|[(m & ->) (l & d' & l' & -> & F)]]; [rewrite <- app_assoc; exact E|exact A'| |].
        * left. exists t2. split; [reflexivity|]. split; [exact A2|]. intros [|x l] d' l' [= <- Q]; [rewrite app_nil_r; exact N|].
          specialize (H l d' l' Q). rewrite <- app_assoc in H. exact H.
        * right. split; [eauto|]. exists (d :: l), d', l'. split; [reflexivity|]. rewrite <- app_assoc in F. exact F.
      + right. split; [eauto|]. exists [], d, post. split; [reflexivity|]. rewrite app_nil_r. exact F.
  Qed.
End Loop.
