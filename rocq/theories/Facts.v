(** Lemmas about lists, strings and dicts. *)
From Verif Require Export PyDict.
From Coq Require Export Permutation.

Lemma bind_ok {A B} (x : res A) (f : A -> res B) (b : B) :
  bind x f = Ok b <-> exists a, x = Ok a /\ f a = Ok b.
Proof. destruct x; simpl; split; intros H; [eauto|destruct H as (a'&[= ->]&?); auto|discriminate|destruct H as (a'&[=]&?)]. Qed.

Lemma mapM_ok {A B} (f : A -> res B) l r :
  mapM f l = Ok r <-> Forall2 (fun a b => f a = Ok b) l r.
Proof.
  revert r; induction l as [|a l IH]; intros r; simpl.
  - split; intros H; [injection H as <-; constructor|inversion H; reflexivity].
  - rewrite bind_ok. split.
    + intros (b & Hb & H). apply bind_ok in H as (bs & Hbs & [= <-]).
      constructor; [assumption|apply IH; assumption].
    + intros H; inversion H; subst. exists y; split; [assumption|].
      apply bind_ok. eexists; split; [apply IH; eassumption|reflexivity].
Qed.

Lemma mapM_Ok_map {A B} (f : A -> res B) (g : A -> B) l :
  (forall a, In a l -> f a = Ok (g a)) -> mapM f l = Ok (map g l).
Proof.
  induction l as [|a l IH]; simpl; intros H; [reflexivity|].
  rewrite (H a (or_introl eq_refl)), IH by (intros; apply H; auto). reflexivity.
Qed.

Lemma smem_iff x l : smem x l = true <-> In x l.
Proof.
  unfold smem. rewrite existsb_exists. split.
  - intros (y & Hy & E). apply String.eqb_eq in E; subst; assumption.
  - intros H. exists x; split; [assumption|apply String.eqb_refl].
Qed.

Lemma smem_false x l : smem x l = false <-> ~ In x l.
Proof. rewrite <- smem_iff. destruct (smem x l); split; congruence. Qed.

Lemma smem_app x l m : smem x (l +++ m) = smem x l || smem x m.
Proof. apply existsb_app. Qed.

Lemma keqb_refl {K} `{EqbOk K} (k : K) : keqb k k = true.
Proof. destruct (keqb_spec k k); congruence. Qed.
Lemma keqb_true {K} `{EqbOk K} (k k' : K) : keqb k k' = true <-> k = k'.
Proof. destruct (keqb_spec k k'); split; congruence. Qed.
Lemma keqb_false {K} `{EqbOk K} (k k' : K) : keqb k k' = false <-> k <> k'.
Proof. destruct (keqb_spec k k'); split; congruence. Qed.

Section Dict.
  Context {K : Type} {EK : EqbOk K} {V : Type}.
  Implicit Types (d : dict K V).

  Lemma dmem_iff k d : dmem k d = true <-> In k (dkeys d).
  Proof.
    unfold dmem, dkeys. rewrite existsb_exists, in_map_iff. split.
    - intros (p & Hp & E). apply keqb_true in E. subst; eauto.
    - intros (p & E & Hp). exists p; split; [assumption|]. apply keqb_true; auto.
  Qed.
  Lemma dmem_false k d : dmem k d = false <-> ~ In k (dkeys d).
  Proof. rewrite <- dmem_iff. destruct (dmem k d); split; congruence. Qed.

  Lemma in_dkeys k v d : In (k, v) d -> In k (dkeys d).
  Proof. intros H. apply (in_map fst) in H. exact H. Qed.
  Lemma in_dvals k v d : In (k, v) d -> In v (dvals d).
  Proof. intros H. apply (in_map snd) in H. exact H. Qed.
  Lemma dkeys_in k d : In k (dkeys d) -> exists v, In (k, v) d.
  Proof. unfold dkeys. rewrite in_map_iff. intros ((k', v) & <- & H). eauto. Qed.
  Lemma dvals_in v d : In v (dvals d) -> exists k, In (k, v) d.
  Proof. unfold dvals. rewrite in_map_iff. intros ((k', v') & <- & H). eauto. Qed.

  Lemma dget_in k v d : dget k d = Some v -> In (k, v) d.
  Proof.
    induction d as [|[k' v'] d IH]; simpl; [discriminate|].
    destruct (keqb_spec k k'); intros H; [left; congruence|right; auto].
  Qed.
  Lemma dget_none k d : dget k d = None <-> ~ In k (dkeys d).
  Proof.
    induction d as [|[k' v'] d IH]; simpl; [tauto|].
    destruct (keqb_spec k k').
    - split; [discriminate|intros H; exfalso; apply H; left; congruence].
    - rewrite IH. split; intros H; [intros [E|E]; [congruence|auto]|intros E; apply H; auto].
  Qed.
  Lemma dget_some_key k d : In k (dkeys d) -> exists v, dget k d = Some v.
  Proof. intros H. destruct (dget k d) eqn:E; [eauto|apply dget_none in E; contradiction]. Qed.
  Lemma dget_iff k v d : NoDup (dkeys d) -> (dget k d = Some v <-> In (k, v) d).
  Proof.
    intros ND. split; [apply dget_in|].
    induction d as [|[k' v'] d IH]; simpl; [tauto|].
    simpl in ND. inversion ND as [|? ? Hn ND']; subst.
    intros [E|E].
    - injection E as -> ->. rewrite keqb_refl. reflexivity.
    - destruct (keqb_spec k k'); [subst; exfalso; apply Hn; eapply in_dkeys; eauto|auto].
  Qed.
  Lemma dmem_dget k d : dmem k d = match dget k d with Some _ => true | None => false end.
  Proof.
    destruct (dget k d) eqn:E.
    - apply dmem_iff. apply dget_in in E. eapply in_dkeys; eauto.
    - apply dmem_false, dget_none, E.
  Qed.

  Lemma dget_dset k v d k' : dget k' (dset k v d) = if keqb k' k then Some v else dget k' d.
  Proof.
    induction d as [|[a b] d IH]; simpl.
    - destruct (keqb_spec k' k); reflexivity.
    - destruct (keqb_spec k a); simpl.
      + subst. destruct (keqb_spec k' a); reflexivity.
      + rewrite IH. destruct (keqb_spec k' a), (keqb_spec k' k); congruence.
  Qed.
  Lemma dset_absent k v d : dmem k d = false -> dset k v d = d +++ [(k, v)].
  Proof.
    induction d as [|[a b] d IH]; simpl; intros H; [reflexivity|].
    apply orb_false_iff in H as [H1 H2]. rewrite H1, IH; auto.
  Qed.
  Lemma dkeys_dset_present k v d : dmem k d = true -> dkeys (dset k v d) = dkeys d.
  Proof.
    induction d as [|[a b] d IH]; simpl; intros H; [discriminate|].
    destruct (keqb_spec k a); simpl; [congruence|].
    rewrite IH; [reflexivity|]. exact H.
  Qed.
  Lemma dkeys_dpop k d : dkeys (dpop k d) = filter (fun x => negb (keqb k x)) (dkeys d).
  Proof.
    induction d as [|[a b] d IH]; simpl; [reflexivity|].
    destruct (keqb k a); simpl; rewrite IH; reflexivity.
  Qed.
  Lemma dget_dpop k d k' : dget k' (dpop k d) = if keqb k' k then None else dget k' d.
  Proof.
    induction d as [|[a b] d IH]; simpl.
    - destruct (keqb k' k); reflexivity.
    - destruct (keqb_spec k a); simpl.
      + subst. rewrite IH. destruct (keqb_spec k' a); reflexivity.
      + rewrite IH. destruct (keqb_spec k' a), (keqb_spec k' k); congruence.
  Qed.
End Dict.

Lemma NoDup_map_inv' {A B} (f : A -> B) l : NoDup (map f l) -> NoDup l.
Proof. apply NoDup_map_inv. Qed.

Lemma NoDup_map_inj {A B} (f : A -> B) l a b :
  NoDup (map f l) -> In a l -> In b l -> f a = f b -> a = b.
Proof.
  induction l as [|x l IH]; simpl; [tauto|].
  intros ND Ha Hb E. inversion ND as [|? ? Hn ND']; subst.
  destruct Ha as [->|Ha], Hb as [->|Hb]; auto.
  - exfalso; apply Hn. rewrite E. apply in_map, Hb.
  - exfalso; apply Hn. rewrite <- E. apply in_map, Ha.
Qed.

Lemma NoDup_filter_map {A B} (f : A -> B) p l : NoDup (map f l) -> NoDup (map f (filter p l)).
Proof.
  induction l as [|x l IH]; simpl; intros ND; [constructor|].
  inversion ND as [|? ? Hn ND']; subst.
  destruct (p x); simpl; [|auto]. constructor; [|auto].
  intros H. apply Hn. apply in_map_iff in H as (y & E & Hy). apply filter_In in Hy as [Hy _].
  rewrite <- E. apply in_map, Hy.
Qed.

Lemma NoDup_app_intro {A} (l m : list A) :
  NoDup l -> NoDup m -> (forall x, In x l -> ~ In x m) -> NoDup (l +++ m).
Proof.
  induction l as [|a l IH]; simpl; intros Hl Hm H; [assumption|].
  inversion Hl; subst. constructor.
  - rewrite in_app_iff. intros [Hx|Hx]; [contradiction|exact (H a (or_introl eq_refl) Hx)].
  - apply IH; [assumption|assumption|]. intros x Hx. apply H; auto.
Qed.

Lemma filter_true {A} (p : A -> bool) l : (forall a, In a l -> p a = true) -> filter p l = l.
Proof.
  induction l as [|a l IH]; simpl; intros H; [reflexivity|].
  rewrite (H a) by auto. f_equal; apply IH; auto.
Qed.
Lemma filter_none {A} (p : A -> bool) l : (forall a, In a l -> p a = false) -> filter p l = [].
Proof.
  induction l as [|a l IH]; simpl; intros H; [reflexivity|].
  rewrite (H a) by auto. apply IH; auto.
Qed.
Lemma filter_map_comm {A B} (f : A -> B) (p : B -> bool) l :
  filter p (map f l) = map f (filter (fun a => p (f a)) l).
Proof. induction l as [|a l IH]; simpl; [reflexivity|]. destruct (p (f a)); simpl; rewrite IH; reflexivity. Qed.
Lemma filter_filter {A} (p q : A -> bool) l :
  filter p (filter q l) = filter (fun a => q a && p a) l.
Proof. induction l as [|a l IH]; simpl; [reflexivity|]. destruct (q a); simpl; rewrite IH; reflexivity. Qed.

Lemma concat_map_single {A B} (f : A -> bool) (g : A -> B) l :
  concat (map (fun a => if f a then [g a] else []) l) = map g (filter f l).
Proof. induction l as [|a l IH]; simpl; [reflexivity|]. rewrite IH. destruct (f a); reflexivity. Qed.

Lemma concat_map_nil {A B} (f : A -> list B) l : (forall a, In a l -> f a = []) -> concat (map f l) = [].
Proof. induction l as [|a l IH]; simpl; intros H; [reflexivity|]. rewrite (H a), IH; auto. Qed.

Lemma list_eqb_eq {A} (eqb : A -> A -> bool) (Heqb : forall a b, eqb a b = true <-> a = b) l m :
  list_eqb eqb l m = true <-> l = m.
Proof.
  revert m; induction l as [|a l IH]; intros [|b m]; simpl; try (split; congruence).
  rewrite andb_true_iff, Heqb, IH. split; [intros [-> ->]; reflexivity|intros [= -> ->]; auto].
Qed.

Lemma Forall2_in_l {A B} (R : A -> B -> Prop) l m a :
  Forall2 R l m -> In a l -> exists b, In b m /\ R a b.
Proof.
  induction 1 as [|x y l m Hxy H IH]; simpl; [tauto|].
  intros [->|Ha]; [eauto|]. destruct (IH Ha) as (b & Hb & HR). eauto.
Qed.
Lemma Forall2_in_r {A B} (R : A -> B -> Prop) l m b :
  Forall2 R l m -> In b m -> exists a, In a l /\ R a b.
Proof.
  induction 1 as [|x y l m Hxy H IH]; simpl; [tauto|].
  intros [->|Ha]; [eauto|]. destruct (IH Ha) as (c & Hb & HR). eauto.
Qed.
