(** Lemmas about the server specification. *)
From Verif Require Export Facts SpecServer Mygration.

(** ** [run_all] *)
Lemma run_all_app {S O} (f : S -> O -> option S) a b s :
  run_all f (a +++ b) s = match run_all f a s with Some s' => run_all f b s' | None => None end.
Proof.
  revert s; induction a as [|o a IH]; intros s; simpl; [reflexivity|].
  destruct (f s o); [apply IH|reflexivity].
Qed.

Lemma run_all_skip {S O} (f : S -> O -> option S) ops s :
  (forall o, In o ops -> forall s, f s o = Some s) -> run_all f ops s = Some s.
Proof.
  induction ops as [|o ops IH]; simpl; intros H; [reflexivity|].
  rewrite (H o) by auto. apply IH. auto.
Qed.

Lemma run_all_concat {S O X} (f : S -> O -> option S) (g : S -> X -> option S) (h : O -> list X) ops s :
  (forall s o, In o ops -> f s o = run_all g (h o) s) -> run_all f ops s = run_all g (concat (map h ops)) s.
Proof.
  revert s; induction ops as [|o ops IH]; intros s H; simpl; [reflexivity|].
  rewrite run_all_app, (H s o) by (left; reflexivity).
  destruct (run_all g (h o) s); [|reflexivity]. apply IH. intros; apply H; right; assumption.
Qed.

Lemma run_all_map {S O X} (f : S -> O -> option S) (g : X -> O) l s :
  run_all f (map g l) s = run_all (fun s x => f s (g x)) l s.
Proof.
  revert s; induction l as [|x l IH]; intros s; simpl; [reflexivity|].
  destruct (f s (g x)); [apply IH|reflexivity].
Qed.

Lemma run_all_ext {S O} (f g : S -> O -> option S) l s :
  (forall s o, In o l -> f s o = g s o) -> run_all f l s = run_all g l s.
Proof.
  revert s; induction l as [|o l IH]; intros s H; simpl; [reflexivity|].
  rewrite (H s o) by (left; reflexivity). destruct (g s o); [|reflexivity].
  apply IH. intros; apply H; right; assumption.
Qed.

(** ** Lists with identities *)
Section Ids.
  Context {A I : Type} (id : A -> I) (eqb : I -> I -> bool).
  Hypothesis eqb_ok : forall x y, eqb x y = true <-> x = y.

  Lemma eqb_refl' x : eqb x x = true.
  Proof. apply eqb_ok. reflexivity. Qed.
  Lemma eqb_neq x y : x <> y -> eqb x y = false.
  Proof. intros H. destruct (eqb x y) eqn:E; [apply eqb_ok in E; contradiction|reflexivity]. Qed.

  Lemma has_id_iff i l : has_id id eqb i l = true <-> In i (map id l).
  Proof.
    unfold has_id. rewrite existsb_exists, in_map_iff. split.
    - intros (a & Ha & E). apply eqb_ok in E. eauto.
    - intros (a & E & Ha). exists a. split; [assumption|]. apply eqb_ok. auto.
  Qed.
  Lemma has_id_false i l : has_id id eqb i l = false <-> ~ In i (map id l).
  Proof. rewrite <- has_id_iff. destruct (has_id id eqb i l); split; congruence. Qed.

  Lemma run_drops ids l :
    NoDup ids -> (forall i, In i ids -> In i (map id l)) ->
    run_all (fun l i => drop_id id eqb i l) ids l
    = Some (filter (fun a => negb (existsb (fun i => eqb i (id a)) ids)) l).
  Proof.
    revert l; induction ids as [|i ids IH]; intros l ND H; simpl.
    - f_equal. symmetry. apply filter_true. reflexivity.
    - inversion ND as [|? ? Hn ND']; subst.
      unfold drop_id at 1. rewrite (proj2 (has_id_iff i l)) by (apply H; left; reflexivity).
      rewrite IH.
      + f_equal. rewrite filter_filter. apply filter_ext. intros a.
        rewrite negb_orb. reflexivity.
      + assumption.
      + intros j Hj. assert (Hjl : In j (map id l)) by (apply H; right; assumption).
        apply in_map_iff in Hjl as (a & <- & Ha). apply in_map. apply filter_In. split; [assumption|].
        rewrite eqb_neq; [reflexivity|]. intros ->. contradiction.
  Qed.

  Lemma run_puts l l0 :
    NoDup (map id l) -> (forall a, In a l -> ~ In (id a) (map id l0)) ->
    run_all (fun l a => put_end id eqb a l) l l0 = Some (l0 +++ l).
  Proof.
    revert l0; induction l as [|a l IH]; intros l0 ND H; simpl.
    - rewrite app_nil_r. reflexivity.
    - simpl in ND. inversion ND as [|? ? Hn ND']; subst.
      unfold put_end at 1. rewrite (proj2 (has_id_false (id a) l0)) by (apply H; left; reflexivity).
      rewrite IH.
      + rewrite <- app_assoc. reflexivity.
      + assumption.
      + intros b Hb. rewrite map_app, in_app_iff. simpl. intros [Hc|[Hc|[]]].
        * apply (H b); [right; assumption|assumption].
        * apply Hn. rewrite Hc. apply in_map, Hb.
  Qed.

  (** The converse: a successful run tells that the additions were new. *)
  Lemma run_puts_inv l l0 r :
    run_all (fun l a => put_end id eqb a l) l l0 = Some r ->
    r = l0 +++ l /\ NoDup (map id l) /\ (forall a, In a l -> ~ In (id a) (map id l0)).
  Proof.
    revert l0; induction l as [|a l IH]; intros l0; simpl.
    - intros [= <-]. rewrite app_nil_r. repeat split; [constructor|]. intros ? [].
    - unfold put_end at 1. destruct (has_id id eqb (id a) l0) eqn:E; [discriminate|].
      apply has_id_false in E. intros H. apply IH in H as (-> & ND & Hd).
      rewrite <- app_assoc. repeat split.
      + constructor; [|assumption]. intros Hc. apply in_map_iff in Hc as (b & Eb & Hb).
        apply (Hd b Hb). rewrite map_app, in_app_iff. right. left. symmetry. exact Eb.
      + intros b [<-|Hb]; [assumption|]. intros Hc. apply (Hd b Hb). rewrite map_app, in_app_iff. auto.
  Qed.

  Lemma put_after_spec anchor c l X Y :
    map id l = X +++ anchor :: Y -> ~ In anchor X ->
    exists l', put_after id eqb anchor c l = Some l' /\ map id l' = X +++ anchor :: id c :: Y
               /\ Permutation l' (c :: l).
  Proof.
    revert l; induction X as [|x X IH]; intros l E Hn.
    - destruct l as [|a l]; [discriminate|]. simpl in E. injection E as Ea El.
      simpl. rewrite Ea, eqb_refl'. eexists. split; [reflexivity|]. simpl. split; [congruence|].
      apply perm_swap.
    - destruct l as [|a l]; [discriminate|]. simpl in E. injection E as Ea El.
      destruct (IH l El) as (l' & E' & M & P); [intros H; apply Hn; right; assumption|].
      simpl. rewrite eqb_neq; [|intros ->; apply Hn; left; congruence].
      rewrite E'. simpl. eexists. split; [reflexivity|]. simpl. split; [congruence|].
      rewrite P. apply perm_swap.
  Qed.

  Lemma run_replaces bs l :
    NoDup (map id bs) -> (forall b, In b bs -> In (id b) (map id l)) ->
    run_all (fun l b => replace_id id eqb b l) bs l
    = Some (map (fun x => match find (fun b => eqb (id b) (id x)) bs with Some b => b | None => x end) l).
  Proof.
    revert l; induction bs as [|b bs IH]; intros l ND H; simpl.
    - rewrite map_id. reflexivity.
    - simpl in ND. inversion ND as [|? ? Hn ND']; subst.
      unfold replace_id at 1. rewrite (proj2 (has_id_iff (id b) l)) by (apply H; left; reflexivity).
      assert (Em : map id (map (fun x => if eqb (id b) (id x) then b else x) l) = map id l).
      { rewrite map_map. apply map_ext. intros a. destruct (eqb (id b) (id a)) eqn:E; [|reflexivity].
        apply eqb_ok in E. assumption. }
      rewrite IH.
      + f_equal. rewrite map_map. apply map_ext. intros a.
        destruct (eqb (id b) (id a)) eqn:E; [|reflexivity].
        destruct (find (fun b0 => eqb (id b0) (id b)) bs) eqn:F; [|reflexivity].
        apply find_some in F as [Hin Heq]. apply eqb_ok in Heq. exfalso. apply Hn.
        rewrite <- Heq. apply in_map, Hin.
      + assumption.
      + intros b' Hb'. rewrite Em. apply H. right; assumption.
  Qed.
End Ids.

Lemma seqb_ok (x y : string) : String.eqb x y = true <-> x = y.
Proof. apply String.eqb_eq. Qed.
Lemma key_id_ok (x y : key_id) : key_id_eqb x y = true <-> x = y.
Proof.
  destruct x, y; simpl; try (split; congruence).
  rewrite String.eqb_eq. split; congruence.
Qed.

(** ** Empty ALTERs *)
Lemma exec_alter_nil t : exec_alter [] t = Some t.
Proof. destruct t; reflexivity. Qed.

Lemma exec_alters_nonempty n ops t :
  exec_alters (opt_list (nonempty_alter n ops)) t = exec_alter ops t.
Proof.
  unfold nonempty_alter. destruct ops as [|o ops]; simpl.
  - symmetry. apply exec_alter_nil.
  - unfold exec_alters. simpl. destruct (exec_alter (o :: ops) t); reflexivity.
Qed.
