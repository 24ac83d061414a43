(** What servers report is compared with what the files say. *)
From Verif Require Import DiffMore PlanMore NumFacts.
From Verif Require Export SpecStored WriteCreate.

Local Opaque max_turns max_statements.

(** ** Plans without operations *)
Section Plan.
  Context {FO : FloatOracle}.

  Lemma differences_same {V W} (a : dict string V) (b : dict string W) : (forall n, In n (dkeys a) <-> In n (dkeys b)) ->
    exists l, differences a b = ([], [], l) /\ forall n, In n l -> In n (dkeys a).
  Proof.
    intros H. unfold differences.
    assert (E1 : filter (fun k => negb (dmem k a)) (dkeys b) = []) by (apply filter_none; intros k Hk; apply negb_false_iff, dmem_iff, H, Hk).
    assert (E2 : filter (fun k => negb (dmem k b)) (dkeys a) = []) by (apply filter_none; intros k Hk; apply negb_false_iff, dmem_iff, H, Hk).
    rewrite E1, E2. eexists. split; [reflexivity|]. intros n I. first [apply filter_In in I as [I J]]. first [exact I|apply H, I].
  Qed.
  Lemma plan_quiet from to :
    (forall n, In n (dkeys from) <-> In n (dkeys to)) ->
    (forall n s t, dget n from = Some s -> dget n to = Some t -> diff_split s t = Ok (mkSplit None None None)) ->
    (forall tn s kn k, In (tn, s) from -> In (kn, k) (t_constraints s) ->
       changing_column from to tn (k_column k) = false /\ changing_column from to (k_ftable k) (k_fcolumn k) = false) ->
    plan_tables false to (Some from) = Ok [].
  Proof.
    intros N D C. unfold plan_tables. destruct (differences_same from to N) as (l & E & L). rewrite E.
    assert (U : mapM (update_table from to) l = Ok (map (fun _ => ([], [])) l)).
    { apply mapM_Ok_map. intros n Hn. apply L in Hn. unfold update_table, dgetE.
      destruct (dget_some_key n from Hn) as (s & Hs). destruct (dget_some_key n to (proj1 (N n) Hn)) as (t & Ht). rewrite Hs, Ht. cbn [bind].
      rewrite (D n s t Hs Ht). reflexivity. }
    cbn [mapM bind]. rewrite U. cbn [bind].
    assert (Z : forall (l : list string), concat (map fst (map (fun _ => (@nil op, @nil op)) l)) = [] /\
                 concat (map snd (map (fun _ => (@nil op, @nil op)) l)) = []).
    { intros q. rewrite !map_map. split; apply concat_map_nil; reflexivity. }
    destruct (Z l) as [-> ->].
    assert (Cy : forall p, In p from -> cycled_of_table from to (fst p) (snd p) = []).
    { intros [tn s] I. unfold cycled_of_table. apply concat_map_nil. intros [kn k] J. cbn [fst snd] in *. unfold cycle_of.
      destruct (C tn s kn k I J) as [-> ->]. reflexivity. }
    assert (E1 : drop_fk_ops from to = []).
    { unfold drop_fk_ops. apply concat_map_nil. intros p I. rewrite Cy by exact I. reflexivity. }
    assert (E2 : add_fk_ops from to = []).
    { unfold add_fk_ops. apply concat_map_nil. intros p I. rewrite Cy by exact I. reflexivity. }
    rewrite E1, E2. reflexivity.
  Qed.
End Plan.

(** ** Columns *)

Definition form_text (f : length_form) : string := match f with NoLength => "" | OneNumber n => n | TwoNumbers n m => n ++ "," ++ m end.
Lemma plain_length c m : means c m -> plainly c -> c_length c = LStr (form_text (m_length m)).
Proof.
  intros M ((x & E) & _). pose proof (me_length _ _ M) as H. rewrite E in *. inversion H as [S Q|n S L D Q|n k S L D D' Q]; cbn [form_text length_shown length_str] in *; f_equal.
  - destruct x; [reflexivity|discriminate].
  - exact L.
  - exact L.
Qed.
Definition given (s : string) : option string := if is_empty s then None else Some s.
Lemma shown_given c o : o <> Some "" -> (c_kind c <> KString -> o = None) -> o = given (shown_text c o).
Proof.
  intros N K. unfold shown_text. destruct (c_kind c); try (rewrite (K ltac:(discriminate)); reflexivity). destruct o as [[|a s]|]; [exfalso; apply N; reflexivity|reflexivity|reflexivity].
Qed.
Lemma plain_charset c m : means c m -> plainly c -> c_charset c = given (m_charset m) /\ c_collate c = given (m_collate m).
Proof.
  intros M (_ & A & B & _ & K). rewrite <- (me_charset _ _ M), <- (me_collate _ _ M).
  split; (apply shown_given; [assumption|]); intros H; apply K, H.
Qed.
Lemma plain_default c m : means c m -> plainly c -> c_default c = match m_default m with Some d => DStr d | None => DNone end.
Proof.
  intros M (_ & _ & _ & D & _). pose proof (me_default _ _ M) as E. destruct (c_default c); cbn in E; rewrite <- E; [reflexivity|reflexivity|contradiction].
Qed.
Lemma given_clash a b : a = b \/ b = "" \/ a = "" -> attr_clash (given a) (given b) = false.
Proof.
  intros [E|[E|E]]; subst; unfold attr_clash; [|destruct a; reflexivity|destruct b; reflexivity].
  destruct b as [|x b]; [reflexivity|]. change (given (String x b)) with (Some (String x b)). unfold ostr_eqb, opt_eqb. rewrite String.eqb_refl. reflexivity.
Qed.
Lemma split_plain s : sforall is_digit s = true -> split_char "," s = [s].
Proof.
  induction s as [|c s IH]; [reflexivity|]. cbn [sforall split_char]. intros H. apply andb_true_iff in H as [A B].
  destruct (Ascii.eqb_spec "," c) as [<-|_]; [discriminate A|]. rewrite (IH B). reflexivity.
Qed.
Lemma split_two a b : sforall is_digit a = true -> sforall is_digit b = true -> split_char "," (a ++ "," ++ b) = [a; b].
Proof.
  intros A B. induction a as [|c a IH].
  - cbn [String.append split_char]. rewrite Ascii.eqb_refl, (split_plain b B). reflexivity.
  - cbn [sforall] in A. apply andb_true_iff in A as [A1 A2]. change (String c a ++ "," ++ b) with (String c (a ++ "," ++ b)). cbn [split_char].
    destruct (Ascii.eqb_spec "," c) as [<-|_]; [discriminate A1|]. rewrite (IH A2). reflexivity.
Qed.
Lemma split_not_two f : (forall n k, f <> TwoNumbers n k) -> length_ok f -> exists x, split_char "," (form_text f) = [x].
Proof.
  intros N L. destruct f as [|n|n k]; [exists ""; reflexivity|exists n; apply split_plain, L|exfalso; eapply N; reflexivity].
Qed.
Lemma form_ok c m : means c m -> length_ok (m_length m).
Proof. intros M. pose proof (me_length _ _ M) as H. inversion H; cbn; auto. Qed.

Lemma readable_kind t k : In (t, k) readable_types -> k = KNumeric \/ k = KDate \/ k = KString.
Proof. unfold readable_types. rewrite !in_app_iff, !in_map_iff. intros [(x & E & _)|[(x & E & _)|(x & E & _)]]; injection E; auto. Qed.
Lemma integers_listed x : In x integers -> smem x integer_types = true.
Proof. intros H. apply smem_iff. cbn in *. tauto. Qed.
Lemma smem_undefaulted x : In x undefaulted -> smem x no_literal_default_types = true.
Proof. intros H. apply smem_iff. exact H. Qed.

Section Quiet.
  Context {FO : FloatOracle}.

  Lemma amounts c c' m m' x x' : means c m -> means c' m' -> plainly c -> plainly c' -> m_kind m = KNumeric -> c_type c' = m_type m -> m_length m' = m_length m \/ m_type m <> "DECIMAL" ->
    c_default c = DStr x -> c_default c' = DStr x' -> same_amount m x x' -> numeric_same_default c' c = Ok true.
  Proof.
    intros M M' P P' K T L D D' A. unfold numeric_same_default. rewrite D, D', T. pose proof (form_ok c m M) as Ok1.
    destruct A as [d d' y y' Nt F F' E|p s n d d' y y' z z' Ty Le Py F F' R R' E|d Ty Le].
    - destruct (String.eqb_spec (m_type m) "DECIMAL") as [Z|_]; [contradiction|]. cbn [negb float_of_default]. rewrite F, F'. cbn [bind]. rewrite E. reflexivity.
    - rewrite Ty. cbn [negb String.eqb Ascii.eqb Bool.eqb]. rewrite (plain_length c' m' M' P').
      destruct L as [L|L]; [|contradiction]. rewrite L, Le. cbn [form_text]. rewrite Le in Ok1. cbn in Ok1. rewrite split_two by apply Ok1. rewrite Py. cbn [float_of_default].
      rewrite F, F'. cbn [bind]. unfold round_f. rewrite R, R'. cbn [bind]. destruct E as [E|E]; [rewrite E; reflexivity|]. subst d'. cbn [default_eqb]. rewrite String.eqb_refl, orb_true_r. reflexivity.
    - rewrite Ty. cbn [negb String.eqb Ascii.eqb Bool.eqb]. rewrite (plain_length c' m' M' P').
      destruct L as [L|L]; [|contradiction]. rewrite L. destruct (split_not_two _ Le Ok1) as (q & ->). cbn [default_eqb]. rewrite String.eqb_refl. reflexivity.
  Qed.

  Lemma column_quiet m m' c c' : said_column m c -> said_column m' c' -> reported m m' -> column_changed c' c = Ok false.
  Proof.
    intros (M & _ & P & R) (M' & _ & P' & R') Rep. destruct Rep as [|m' En Ek Et Eu Enl Ea El Ed Ec Eo].
    - assert (A : alike_column c' c).
      { apply (means_alike c' c m); auto; [destruct (readable_kind _ _ R) as [->|[->| ->]]; discriminate|..].
        - rewrite (plain_default c' m M' P'). destruct (m_default m); exact Logic.I.
        - rewrite (plain_default c m M P). destruct (m_default m); exact Logic.I. }
      unfold column_changed. rewrite (sc_text _ _ A), String.eqb_refl. reflexivity.
    - assert (G : really_same c' c = Ok true); [|unfold column_changed; destruct (String.eqb _ _); [reflexivity|rewrite G; reflexivity]].
      assert (Cm : forall wl, (wl = true -> m_length m' = m_length m) -> default_none_mismatch c' c = false -> same_common wl c' c = same_default c' c).
      { intros wl Hl Hd. unfold same_common. rewrite (me_name _ _ M), (me_name _ _ M'), En, String.eqb_refl. cbn [negb].
        replace (wl && negb (length_eqb (c_length c') (c_length c))) with false.
        - rewrite (me_null _ _ M), (me_null _ _ M'), Enl, Bool.eqb_reflx. cbn [negb].
          rewrite (me_type _ _ M), (me_type _ _ M'), Et, String.eqb_refl. cbn [negb].
          rewrite (me_unsigned _ _ M), (me_unsigned _ _ M'), Eu, Bool.eqb_reflx. cbn [negb]. rewrite Hd. reflexivity.
        - destruct wl; [|reflexivity]. rewrite (plain_length c m M P), (plain_length c' m' M' P'), (Hl eq_refl). cbn [length_eqb]. rewrite String.eqb_refl. reflexivity. }
      assert (Kd : c_kind c' = m_kind m) by (rewrite (me_kind _ _ M'); exact Ek).
      assert (Td : c_type c' = m_type m) by (rewrite (me_type _ _ M'); exact Et).
      assert (Eq : m_default m' = m_default m -> default_eqb (c_default c') (c_default c) = true).
      { intros E. rewrite (plain_default c m M P), (plain_default c' m' M' P'), E. destruct (m_default m); [apply String.eqb_refl|reflexivity]. }
      assert (Mm : m_default m' = m_default m -> default_none_mismatch c' c = false).
      { intros E. unfold default_none_mismatch. rewrite (plain_default c m M P), (plain_default c' m' M' P'), E. destruct (_ && _); [reflexivity|]. destruct (m_default m); reflexivity. }
      unfold really_same. rewrite Kd, Td. unfold same_default_as in Ed. destruct (readable_kind _ _ R) as [K|[K|K]]; rewrite K in *; cbn [bind].
      + rewrite Cm.
        * unfold same_default. rewrite Kd. destruct Ed as [[D D']|(x & x' & D & D' & A)].
          -- unfold numeric_same_default. rewrite (plain_default c' m' M' P'), (plain_default c m M P), D, D'. reflexivity.
          -- apply (amounts c c' m m' x x'); auto.
             ++ destruct El as [El|El]; [left; exact El|right]. intros Z. rewrite Z in El. cbn in El. intuition discriminate.
             ++ rewrite (plain_default c m M P), D. reflexivity.
             ++ rewrite (plain_default c' m' M' P'), D'. reflexivity.
        * intros W. destruct El as [El|El]; [exact El|]. rewrite (integers_listed _ El) in W. discriminate W.
        * unfold default_none_mismatch. rewrite Kd. cbn [is_string_kind andb]. rewrite (plain_default c' m' M' P'), (plain_default c m M P).
          destruct Ed as [[D D']|(x & x' & D & D' & A)]; rewrite D, D'; reflexivity.
      + assert (Hl : true = true -> m_length m' = m_length m).
        { intros _. destruct El as [El|El]; [exact El|]. exfalso. clear -El R. cbn in El.
          repeat destruct El as [El|El]; try contradiction; rewrite <- El in R; vm_compute in R; intuition discriminate. }
        rewrite (Cm true Hl (Mm Ed)). unfold same_default. rewrite Kd, (Eq Ed). reflexivity.
      + assert (Hl : true = true -> m_length m' = m_length m).
        { intros _. destruct El as [El|El]; [exact El|]. exfalso. clear -El R. cbn in El.
          repeat destruct El as [El|El]; try contradiction; rewrite <- El in R; vm_compute in R; intuition discriminate. }
        assert (Sd : same_default c' c = Ok true /\ default_none_mismatch c' c = false).
        { destruct Ed as [U|E]; [|split; [unfold same_default; rewrite Kd, Td, (Eq E); destruct (smem _ _); reflexivity|apply Mm, E]].
          unfold same_default, default_none_mismatch. rewrite Kd, Td, (smem_undefaulted _ U). split; reflexivity. }
        rewrite (Cm true Hl (proj2 Sd)), (proj1 Sd). cbn [bind negb].
        destruct (plain_charset c m M P) as [-> ->]. destruct (plain_charset c' m' M' P') as [-> ->].
        rewrite !given_clash; [reflexivity|exact Ec|exact Eo].
  Qed.
  (** The attributes that foreign keys depend on. *)
  Lemma steady_type m m' c c' : said_column m c -> said_column m' c' -> reported m m' ->
    m_length m' = m_length m /\ m_charset m' = m_charset m /\ m_collate m' = m_collate m -> column_type_differs c' c = false.
  Proof.
    intros (M & _ & P & R) (M' & _ & P' & R') Rep (El & Ec & Eo).
    assert (E : m_type m' = m_type m /\ m_unsigned m' = m_unsigned m) by (destruct Rep; auto). destruct E as [Et Eu].
    unfold column_type_differs. rewrite (me_type _ _ M), (me_type _ _ M'), Et, String.eqb_refl, (me_unsigned _ _ M), (me_unsigned _ _ M'), Eu, Bool.eqb_reflx.
    rewrite (plain_length c m M P), (plain_length c' m' M' P'), El. destruct (plain_charset c m M P) as [-> ->]. destruct (plain_charset c' m' M' P') as [-> ->]. rewrite Ec, Eo.
    assert (O : forall x, ostr_eqb x x = true) by (intros [s|]; simpl; auto using String.eqb_refl).
    cbn [length_eqb]. rewrite String.eqb_refl, !O. reflexivity.
  Qed.
End Quiet.

(** ** Tables *)

Lemma forall2_in {A B} (R : A -> B -> Prop) l l' y : Forall2 R l l' -> In y l' -> exists x, In x l /\ R x y.
Proof. induction 1 as [|a b l l' H F IH]; intros []; [subst; exists a; split; [left; reflexivity|exact H]|]. destruct IH as (x & I & Q); [assumption|]. exists x. split; [right; exact I|exact Q]. Qed.
Lemma forall2_names {A V} (f : A -> string) (R : A -> V -> Prop) l d : Forall2 (fun a p => fst p = f a /\ R a (snd p)) l d -> dkeys d = map f l.
Proof. induction 1 as [|a p l d [H _] F IH]; [reflexivity|]. cbn [dkeys map] in *. f_equal; [exact H|exact IH]. Qed.
Lemma same_named {A} (f : A -> string) l x y : NoDup (map f l) -> In x l -> In y l -> f x = f y -> x = y.
Proof.
  induction l as [|a l IH]; [contradiction|]. cbn [map]. intros N X Y E. inversion N as [|? ? N1 N2]; subst. destruct X as [<-|X], Y as [<-|Y]; auto.
  - exfalso. apply N1. rewrite E. apply in_map, Y.
  - exfalso. apply N1. rewrite <- E. apply in_map, X.
Qed.

Section Tables.
  Variables (t : table) (T : tmeaning) (semi : bool).
  Hypothesis R : read_table t T semi.
  Lemma read_column_names : dkeys (t_columns t) = map m_name (tm_columns T).
  Proof. apply (forall2_names m_name (fun m c => means c m)), R. Qed.
  Lemma read_key_names : dkeys (t_indexes t) = map ix_name (tm_keys T).
  Proof. apply (forall2_names ix_name alike_index), R. Qed.
  Lemma read_fk_names : dkeys (t_constraints t) = map k_name (tm_fks T).
  Proof. apply (forall2_names k_name alike_fk), R. Qed.
  Lemma read_column_at n c : In (n, c) (t_columns t) -> exists m, In m (tm_columns T) /\ m_name m = n /\ said_column m c.
  Proof.
    intros I. destruct (forall2_in _ _ _ _ (rd_columns _ _ _ R) I) as (m & Im & S). exists m. split; [exact Im|split; [|exact S]].
    rewrite <- (proj1 (rd_named _ _ _ R) n c I). symmetry. apply S.
  Qed.
  Lemma read_key_at n i' : In (n, i') (t_indexes t) -> exists i, In i (tm_keys T) /\ ix_name i = n /\ alike_index i i'.
  Proof.
    intros I. destruct (forall2_in _ _ _ _ (rd_keys _ _ _ R) I) as (i & Ii & S). exists i. split; [exact Ii|split; [|apply S]].
    rewrite <- (proj1 (proj2 (rd_named _ _ _ R)) n i' I). symmetry. apply alike_ix_name, S.
  Qed.
  Lemma read_fk_at n k' : In (n, k') (t_constraints t) -> exists k, In k (tm_fks T) /\ k_name k = n /\ alike_fk k k'.
  Proof.
    intros I. destruct (forall2_in _ _ _ _ (rd_fks _ _ _ R) I) as (k & Ik & S). exists k. split; [exact Ik|split; [|apply S]].
    rewrite <- (proj2 (proj2 (rd_named _ _ _ R)) n k' I). apply S.
  Qed.
  Lemma read_wf : wf_table t.
  Proof.
    pose proof (rd_sound _ _ _ R) as So. constructor.
    - rewrite read_column_names. apply So.
    - apply R.
    - rewrite read_key_names. apply So.
    - apply R.
    - rewrite read_fk_names. apply So.
    - apply R.
    - replace (List.length (filter is_primary (dvals (t_indexes t)))) with (List.length (filter is_primary (tm_keys T))); [apply So|].
      pose proof (rd_keys _ _ _ R) as F. clear -F. induction F as [|i p l d [(_ & _ & E) _] F IH]; [reflexivity|]. cbn [dvals map filter].
      replace (is_primary (snd p)) with (is_primary i) by (unfold is_primary; rewrite E; reflexivity). destruct (is_primary i); cbn [List.length]; [f_equal|]; exact IH.
  Qed.
End Tables.

Section Quiet2.
  Context {FO : FloatOracle}.

  Lemma reported_names l l' : Forall2 reported l l' -> map m_name l' = map m_name l.
  Proof. induction 1 as [|m m' l l' H F IH]; [reflexivity|]. cbn [map]. rewrite IH. f_equal. destruct H; auto. Qed.
  Lemma table_quiet T T' t t' semi semi' : read_table t T semi -> read_table t' T' semi' -> reported_table T T' ->
    diff t' t = Ok [] /\ diff_split t' t = Ok (mkSplit None None None).
  Proof.
    intros R R' [En Ec [K1 K2] [F1 F2]]. pose proof (rd_sound _ _ _ R) as So. pose proof (rd_sound _ _ _ R') as So'.
    apply diff_empty; [apply (read_wf t' T' semi' R')|apply (read_wf t T semi R)| | | | |].
    - intros n. rewrite (read_column_names t T semi R), (read_column_names t' T' semi' R'), (reported_names _ _ Ec). reflexivity.
    - intros n c' c I' I. destruct (read_column_at t T semi R n c I) as (m & Im & Nm & S). destruct (read_column_at t' T' semi' R' n c' I') as (m' & Im' & Nm' & S').
      apply (column_quiet m m'); auto. destruct (forall2_in _ _ _ _ Ec Im') as (q & Iq & Rq).
      replace m with q; [exact Rq|]. apply (same_named m_name (tm_columns T)); auto; [apply So|]. rewrite Nm, <- Nm'. destruct Rq; auto.
    - apply key_ops_nil.
      + intros n. rewrite (read_key_names t T semi R), (read_key_names t' T' semi' R'), !in_map_iff. split.
        * intros (y & <- & I). destruct (K2 y I) as (x & Ix & E & _). exists x. auto.
        * intros (y & <- & I). destruct (K1 y I) as (x & Ix & E & _). exists x. auto.
      + intros n i' i I' I. destruct (read_key_at t T semi R n i I) as (x & Ix & Nx & A & B & C). destruct (read_key_at t' T' semi' R' n i' I') as (x' & Ix' & Nx' & A' & B' & C').
        destruct (K2 x' Ix') as (z & Iz & E1 & E2 & E3). assert (z = x) by (apply (same_named ix_name (tm_keys T)); auto; [apply So|congruence]). subst z.
        unfold key_changed, same_shape. rewrite <- B, <- B', E2, <- C, <- C', E3.
        replace (list_eqb String.eqb (ix_columns x) (ix_columns x)) with true by (symmetry; apply (list_eqb_eq String.eqb String.eqb_eq); reflexivity).
        destruct (ix_type x); apply andb_false_r.
    - intros n. rewrite (read_fk_names t T semi R), (read_fk_names t' T' semi' R'), !in_map_iff. split.
      + intros (y & <- & I). destruct (F2 y I) as (x & Ix & E & _). exists x. auto.
      + intros (y & <- & I). destruct (F1 y I) as (x & Ix & E & _). exists x. auto.
    - intros n k' k I' I. destruct (read_fk_at t T semi R n k I) as (x & Ix & Nx & A). destruct (read_fk_at t' T' semi' R' n k' I') as (x' & Ix' & Nx' & A').
      destruct (F2 x' Ix') as (z & Iz & E). assert (z = x) by (apply (same_named k_name (tm_fks T)); auto; [apply So|]; destruct E; congruence). subst z.
      rewrite (alike_fk_str _ _ A), (alike_fk_str _ _ A'), (alike_fk_str _ _ E). reflexivity.
  Qed.

  (** ** Databases *)
  Definition entries (ts : list table) : tables := map (fun t => (t_name t, t)) ts.
  Lemma read_names ts Ts (b : bool) : Forall2 (fun t T => read_table t T b) ts Ts -> map t_name ts = map tm_name Ts.
  Proof. induction 1 as [|t T ts Ts H F IH]; [reflexivity|]. cbn [map]. rewrite IH. f_equal. apply H. Qed.
  Lemma entries_at ts Ts b n t : Forall2 (fun t T => read_table t T b) ts Ts -> In (n, t) (entries ts) -> exists T, In T Ts /\ tm_name T = n /\ read_table t T b.
  Proof.
    intros F I. apply in_map_iff in I as (x & E & I). injection E as <- <-. induction F as [|t T ts Ts H F IH]; [contradiction|]. destruct I as [->|I].
    - exists T. split; [left; reflexivity|]. split; [symmetry; apply H|exact H].
    - destruct (IH I) as (U & IU & Q). exists U. split; [right; exact IU|exact Q].
  Qed.
  Lemma entries_keys ts : dkeys (entries ts) = map t_name ts.
  Proof. unfold entries, dkeys. rewrite map_map. reflexivity. Qed.

  Lemma reported_ready ts Ts ts' Ts' b b' :
    Forall2 (fun t T => read_table t T b) ts Ts -> Forall2 (fun t T => read_table t T b') ts' Ts' ->
    NoDup (map tm_name Ts) -> NoDup (map tm_name Ts') -> matched reported_table Ts Ts' -> settled_fks Ts Ts' ->
    (forall n, In n (dkeys (entries ts')) <-> In n (dkeys (entries ts)))
    /\ (forall n s t, dget n (entries ts') = Some s -> dget n (entries ts) = Some t -> diff_split s t = Ok (mkSplit None None None))
    /\ (forall tn s kn k, In (tn, s) (entries ts') -> In (kn, k) (t_constraints s) ->
       changing_column (entries ts') (entries ts) tn (k_column k) = false /\ changing_column (entries ts') (entries ts) (k_ftable k) (k_fcolumn k) = false).
  Proof.
    intros F F' N N' [M1 M2] St.
    assert (Pair : forall T T', In T Ts -> In T' Ts' -> tm_name T = tm_name T' -> reported_table T T').
    { intros T T' I I' E. destruct (M2 T' I') as (U & IU & Q). replace T with U; [exact Q|]. apply (same_named tm_name Ts); auto. rewrite E, (rp_name _ _ Q). reflexivity. }
    assert (Ch : forall n c, settled Ts Ts' n c -> changing_column (entries ts') (entries ts) n c = false).
    { intros n c S. unfold changing_column. destruct (dget n (entries ts')) as [t'|] eqn:E'; [|reflexivity]. destruct (dget n (entries ts)) as [t|] eqn:E; [|reflexivity].
      destruct (dget c (t_columns t')) as [y|] eqn:D'; [|reflexivity]. destruct (dget c (t_columns t)) as [x|] eqn:D; [|reflexivity].
      apply dget_in in E, E', D, D'. destruct (entries_at _ _ _ _ _ F E) as (T & IT & NT & R). destruct (entries_at _ _ _ _ _ F' E') as (T' & IT' & NT' & R').
      destruct (read_column_at t T b R c x D) as (m & Im & Nm & Sm). destruct (read_column_at t' T' b' R' c y D') as (m' & Im' & Nm' & Sm').
      apply (steady_type m m'); auto; [|apply (S T T'); auto].
      pose proof (Pair T T' IT IT' ltac:(congruence)) as Q. destruct (forall2_in _ _ _ _ (rp_columns _ _ Q) Im') as (q & Iq & Rq).
      replace m with q; [exact Rq|]. apply (same_named m_name (tm_columns T)); auto; [apply R|]. rewrite Nm, <- Nm'. destruct Rq; auto. }
    split; [|split].
    - intros n. rewrite !entries_keys, (read_names _ _ _ F), (read_names _ _ _ F'), !in_map_iff. split.
      + intros (T' & <- & I). destruct (M2 T' I) as (T & IT & Q). exists T. split; [symmetry; apply Q|exact IT].
      + intros (T & <- & I). destruct (M1 T I) as (T' & IT & Q). exists T'. split; [apply Q|exact IT].
    - intros n t' t E' E. apply dget_in in E, E'. destruct (entries_at _ _ _ _ _ F E) as (T & IT & NT & R). destruct (entries_at _ _ _ _ _ F' E') as (T' & IT' & NT' & R').
      apply (table_quiet T T' t t' b b'); auto. apply Pair; congruence || assumption.
    - intros tn t' kn k I J. destruct (entries_at _ _ _ _ _ F' I) as (T' & IT' & NT' & R'). destruct (read_fk_at t' T' b' R' kn k J) as (x & Ix & Nx & A).
      destruct (St T' x IT' Ix) as [S1 S2]. destruct A as (_ & A1 & A2 & A3 & _). rewrite A1, A2, A3, NT' in *. split; apply Ch; assumption.
  Qed.
  Theorem reported_plan ts Ts ts' Ts' b b' :
    Forall2 (fun t T => read_table t T b) ts Ts -> Forall2 (fun t T => read_table t T b') ts' Ts' ->
    NoDup (map tm_name Ts) -> NoDup (map tm_name Ts') -> matched reported_table Ts Ts' -> settled_fks Ts Ts' ->
    plan_tables false (entries ts) (Some (entries ts')) = Ok [].
  Proof. intros F F' N N' M St. destruct (reported_ready ts Ts ts' Ts' b b' F F' N N' M St) as (A & B & C). apply plan_quiet; assumption. Qed.
  (** The rows do not matter. *)
  Definition same_definition (t u : table) : Prop :=
    t_name u = t_name t /\ t_columns u = t_columns t /\ t_indexes u = t_indexes t /\ t_constraints u = t_constraints t /\ t_primary u = t_primary t /\ t_ordered u = t_ordered t.
  Lemma dget_changed (f : table -> table) n ts : dget n (map (fun t => (t_name t, f t)) ts) = option_map f (dget n (entries ts)).
  Proof. induction ts as [|t ts IH]; [reflexivity|]. simpl. destruct (String.eqb n (t_name t)); [reflexivity|exact IH]. Qed.
  Lemma diff_split_same s t u : same_definition t u -> diff_split s u = diff_split s t.
  Proof. destruct t, u. intros (A & B & C & D & E & F). cbn in *. subst. reflexivity. Qed.
  Theorem reported_plan_rows ts Ts ts' Ts' b b' (f : table -> table) : (forall t, same_definition t (f t)) ->
    Forall2 (fun t T => read_table t T b) ts Ts -> Forall2 (fun t T => read_table t T b') ts' Ts' ->
    NoDup (map tm_name Ts) -> NoDup (map tm_name Ts') -> matched reported_table Ts Ts' -> settled_fks Ts Ts' ->
    plan_tables false (map (fun t => (t_name t, f t)) ts) (Some (entries ts')) = Ok [].
  Proof.
    intros Sf F F' N N' M St. destruct (reported_ready ts Ts ts' Ts' b b' F F' N N' M St) as (A & B & C). apply plan_quiet.
    - intros n. rewrite A. unfold entries, dkeys. rewrite !map_map. reflexivity.
    - intros n s t E1 E2. rewrite dget_changed in E2. destruct (dget n (entries ts)) as [u|] eqn:Eu; [|discriminate]. injection E2 as <-. rewrite (diff_split_same s u) by apply Sf. apply (B n); assumption.
    - assert (Ch : forall n c, changing_column (entries ts') (map (fun t => (t_name t, f t)) ts) n c = changing_column (entries ts') (entries ts) n c).
      { intros n c. unfold changing_column. rewrite dget_changed. destruct (dget n (entries ts')); [|reflexivity]. destruct (dget n (entries ts)) as [u|]; [|reflexivity]. cbn [option_map]. destruct (Sf u) as (_ & -> & _). reflexivity. }
      intros tn s kn k I J. rewrite !Ch. apply (C tn s kn k I J).
  Qed.
End Quiet2.

(** ** What servers report can be read *)

Lemma upper_lower s : upper (lower s) = upper s.
Proof. unfold upper, lower. induction s as [|c s IH]; [reflexivity|]. cbn [smap]. rewrite IH. f_equal. destruct c as [[|] [|] [|] [|] [|] [|] [|] [|]]; reflexivity. Qed.
Lemma spelled_lower K : spelled K (lower K).
Proof. unfold spelled. unfold lower. induction K as [|c s IH]; [reflexivity|]. cbn [smap]. rewrite IH. f_equal. destruct c as [[|] [|] [|] [|] [|] [|] [|] [|]]; reflexivity. Qed.
Lemma readable_not_boolean t k : In (t, k) readable_types -> boolean (lower t) = false.
Proof.
  unfold readable_types, boolean. rewrite upper_lower. intros H. vm_compute in H. repeat destruct H as [H|H]; try contradiction; injection H as <- <-; reflexivity.
Qed.
Lemma items_app a b : items_text (a +++ b) = items_text a ++ items_text b.
Proof. induction a as [|i a IH]; [reflexivity|]. cbn [List.app items_text]. rewrite IH, !sapp_assoc. reflexivity. Qed.
Definition show_arg (mk : string -> string -> item) (K s : string) : list item := if is_empty s then [] else [mk K (lower s)].
Definition show_nulls (m : meaning) : list item :=
  if m_null m then if String.eqb (m_type m) "TIMESTAMP" then [INull "NULL"] else [] else [INotNull "NOT NULL"].
Definition show_defaults (m : meaning) : list item :=
  match m_default m with
  | Some d => if String.eqb d "CURRENT_TIMESTAMP" then [IDefault "DEFAULT" "CURRENT_TIMESTAMP"] else [IQuoted "DEFAULT" d]
  | None => if m_null m && negb (existsb (String.eqb (m_type m)) undefaulted) then [IDefault "DEFAULT" "NULL"] else []
  end.
Lemma show_arg_written mk K s : s = "" \/ bare_word (lower s) /\ upper s = s -> exists x, argument mk K x (show_arg mk K s) /\ s = upper x.
Proof.
  unfold show_arg. intros [->|[B U]]; [exists ""; split; [constructor|reflexivity]|]. destruct (is_empty s) eqn:E.
  - exists "". split; [constructor|]. destruct s; [reflexivity|discriminate].
  - exists (lower s). split; [constructor; [reflexivity|exact B]|]. rewrite upper_lower, U. reflexivity.
Qed.
Lemma show_column_written m : plain_column m -> written m (show_column m).
Proof.
  intros [Pn Pt Pl Pd Pu Pc Po Ps P2].
  destruct (show_arg_written ICharset "CHARACTER SET" _ Pc) as (cs & Ac & Ec). destruct (show_arg_written ICollate "COLLATE" _ Po) as (co & Ao & Eo).
  assert (Z : forall mk K s, show_arg mk K s <> [] -> s <> "") by (intros mk K s H ->; apply H; reflexivity).
  assert (Z' : forall mk K s, show_arg mk K s = [] -> s = "") by (intros mk K s H; unfold show_arg in H; destruct s; [reflexivity|discriminate H]).
  replace (show_column m) with (column_definition true (m_name m) (lower (m_type m)) (m_length m)
    (arranged true (if m_unsigned m then [IUnsigned "unsigned"] else []) (show_nulls m) (show_defaults m) (if m_auto m then [IAuto "AUTO_INCREMENT"] else [])
       (show_arg ICharset "CHARACTER SET" (m_charset m)) (show_arg ICollate "COLLATE" (m_collate m)))).
  - apply (written_as m true (lower (m_type m)) (m_length m) true _ _ _ _ _ _ (m_default m) cs co); auto.
    + split; [exact Pn|discriminate].
    + constructor. apply spelled_lower.
    + destruct (m_unsigned m); constructor. reflexivity.
    + unfold show_nulls. destruct (m_null m); [destruct (String.eqb _ _)|]; constructor; reflexivity.
    + unfold show_defaults. destruct (m_default m) as [d|].
      * destruct (String.eqb_spec d "CURRENT_TIMESTAMP") as [->|_]; [|constructor; [reflexivity|exact Pd]]. constructor; [reflexivity| |discriminate].
        split; [discriminate|]. split; [exact Pd|discriminate].
      * destruct (_ && _); constructor; reflexivity.
    + symmetry. apply default_same, (readable_not_boolean _ _ Pt).
    + destruct (m_auto m); constructor. reflexivity.
    + intros [H|H]; apply Z in H; auto.
    + destruct (m_length m) as [|n|n k] eqn:L; [|exact Logic.I|].
      * intros C1 C2 k s E. apply Z' in C1, C2. unfold show_defaults in E. destruct (m_default m) as [d|]; [|destruct (_ && _); discriminate E].
        destruct (String.eqb d _); [discriminate E|]. injection E as _ <-. apply (Pu eq_refl C1 C2 d eq_refl).
      * destruct (P2 n k eq_refl) as (A & -> & ->). auto.
  - unfold column_definition, show_column, name_text, arranged. rewrite !items_app. unfold show_nulls, show_defaults, show_default, show_arg.
    repeat f_equal; repeat match goal with |- context [if ?b then _ else _] => destruct b | |- context [match m_default m with _ => _ end] => destruct (m_default m) end; cbn [items_text item_text]; rewrite ?sapp_nil_r; reflexivity.
Qed.
Lemma ticked_ok n : clean_name n -> ident_ok (true, n).
Proof. intros C. split; [exact C|discriminate]. Qed.
Lemma show_key_written i : plain_key i -> key_written i (show_key i).
Proof.
  intros [[N C] Pn].
  assert (T : " (" ++ join "," (map ticked (ix_columns i)) ++ ")" = key_columns true false (map (fun c => (true, c)) (ix_columns i))).
  { unfold key_columns, idents_text. cbn [gap_text sep_text]. rewrite map_map. reflexivity. }
  unfold show_key. rewrite T. apply written_key.
  - rewrite map_map. cbn [snd]. symmetry. apply map_id.
  - destruct (ix_columns i); [contradiction|discriminate].
  - apply Forall_forall. intros x I. apply in_map_iff in I as (c & <- & I). rewrite Forall_forall in C. apply ticked_ok, C, I.
  - destruct (ix_type i).
    + apply (name_key i "KEY" true); [exists "KEY"; split; [cbn; tauto|reflexivity]|apply ticked_ok, Pn].
    + apply (name_unique i "UNIQUE KEY" true); [left; exists "UNIQUE KEY"; split; [cbn; tauto|reflexivity]|apply ticked_ok, Pn].
    + apply (name_primary i "PRIMARY KEY"); [reflexivity|exact Pn].
Qed.
Lemma show_action_written q K x : In x allowed_actions -> action_written K x (show_action q K x).
Proof.
  intros I. unfold show_action. destruct (q && String.eqb x "RESTRICT") eqn:E; [apply andb_true_iff in E as [_ E]; apply String.eqb_eq in E; subst; constructor|]. apply (action_said K x (K ++ " " ++ x)); [exact I|reflexivity].
Qed.
Lemma show_fk_written q k : plain_fk k -> fk_written k (show_fk q k).
Proof.
  intros [(A & B & C & D) [E F]].
  pose proof (written_fk k "CONSTRAINT" "FOREIGN KEY" "REFERENCES" true true true true true _ _ eq_refl eq_refl eq_refl (ticked_ok _ A) (ticked_ok _ B) (ticked_ok _ C) (ticked_ok _ D)
    (show_action_written (fst q) "ON DELETE" _ E) (show_action_written (snd q) "ON UPDATE" _ F)) as W.
  exact W.
Qed.
Lemma shown_parts q T : plain_table T ->
  Forall2 part_written (map PartColumn (tm_columns T) +++ map PartKey (tm_keys T) +++ map PartFk (tm_fks T))
    (map show_column (tm_columns T) +++ map show_key (tm_keys T) +++ map (fun k => show_fk (q (k_name k)) k) (tm_fks T)).
Proof.
  intros [_ _ C K F _]. apply Forall2_app; [|apply Forall2_app].
  - induction C; cbn [map]; constructor; [constructor; apply show_column_written; assumption|assumption].
  - induction K; cbn [map]; constructor; [constructor; apply show_key_written; assumption|assumption].
  - induction F; cbn [map]; constructor; [constructor; apply show_fk_written; assumption|assumption].
Qed.
Lemma concat_nils {A B} (f : A -> list B) l : (forall x, f x = []) -> concat (map f l) = [].
Proof. intros H. induction l as [|x l IH]; [reflexivity|]. cbn [map concat]. rewrite H, IH. reflexivity. Qed.
Lemma concat_ones {A} (l : list A) : concat (map (fun x => [x]) l) = l.
Proof. induction l as [|x l IH]; [reflexivity|]. cbn [map concat List.app]. rewrite IH. reflexivity. Qed.
Theorem show_create_written q T : plain_table T -> create_written T false (show_create q T).
Proof.
  intros P.
  assert (H : create_head (tm_name T) ("CREATE TABLE " ++ ticked (tm_name T))).
  { apply (head_as (tm_name T) "CREATE TABLE" "" true); [reflexivity|left; reflexivity|apply P]. }
  pose proof (create_as T false ("CREATE TABLE " ++ ticked (tm_name T)) (nl ++ "  ") (nl ++ "  ") nl _ _ (pt_sound T P) H (shown_parts q T P)) as Q.
  unfold show_create. rewrite <- (sapp_nil_r (options_written (tm_options T))). rewrite !sapp_assoc in Q. rewrite ?sapp_assoc. apply Q.
  - unfold columns_in. rewrite !map_app, !concat_app, !map_map, concat_ones, !concat_nils by reflexivity. rewrite !app_nil_r. reflexivity.
  - unfold keys_in. rewrite !map_app, !concat_app, !map_map, concat_ones, !concat_nils by reflexivity. rewrite !app_nil_r. reflexivity.
  - unfold fks_in. rewrite !map_app, !concat_app, !map_map, concat_ones, !concat_nils by reflexivity. reflexivity.
  - apply P.
  - reflexivity.
  - reflexivity.
  - discriminate.
  - reflexivity.
Qed.
Lemma relaid_same s : relaid s s.
Proof. induction s; constructor; assumption. Qed.

(** ** Lists of sources *)
Definition sole (s : string) (t : table) : Prop := forall file, read_sql file s = (mkReader [(t_name t, t)] [] [] true, Ok "").
Lemma read_sources srcs Ts semi : Forall2 (fun s T => source_of T semi s) srcs Ts ->
  exists ts, Forall2 sole srcs ts /\ Forall2 (fun t T => read_table t T semi) ts Ts.
Proof.
  induction 1 as [|s T srcs Ts S F (ts & A & B)]; [exists []; split; constructor|]. destruct (source_parse T semi s S) as (t & _ & R & L).
  exists (t :: ts). split; constructor; assumption.
Qed.
Lemma shown_sources q Ts : Forall plain_table Ts -> Forall2 (fun s T => source_of T false s) (map (show_create q) Ts) Ts.
Proof.
  induction 1 as [|T Ts P F IH]; cbn [map]; constructor; [|exact IH]. exists (show_create q T). split; [apply show_create_written, P|apply relaid_same].
Qed.
Lemma show_create_semi q T : plain_table T -> create_written T true (show_create q T ++ ";").
Proof.
  intros P. pose proof (show_create_written q T P) as W. revert W. generalize (show_create q T). intros x W. destruct W as [h w0 w1 w2 parts ss So Hh F Ec Ek Ef Fo W0 W1 W1n W2].
  rewrite !sapp_assoc. apply (create_as T true h w0 w1 w2 parts ss); assumption.
Qed.
