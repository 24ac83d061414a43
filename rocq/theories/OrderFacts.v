(** Reading sources in another order: the lemmas behind C93. *)
From Verif Require Export SpecOrder ReadMore LocalFacts AcceptFacts.
From Coq Require Import Permutation.

Definition readable (src : source) : Prop := caught (snd (read_sql (fst src) (snd src))) = None.

(** Rows stored under their tables, each table once. *)
Definition sorted_rows (d : dict string (list rows_def)) : Prop :=
  NoDup (dkeys d) /\ forall n ws, In (n, ws) d -> ws <> [] /\ Forall (fun w => r_table w = n) ws.
Lemma sorted_push d w : sorted_rows d -> sorted_rows (dpush (r_table w) w d).
Proof.
  intros [N H]. split; [apply nodup_dset, N|]. intros n ws I. unfold dpush in I. apply dset_in in I as [[-> ->]|I]; [|eauto].
  split; [intros E; apply app_eq_nil in E as [_ E]; discriminate|]. apply Forall_app. split; [|repeat constructor].
  destruct (dget (r_table w) d) as [l|] eqn:E; [|constructor]. apply dget_in in E. apply (H _ _ E).
Qed.
Lemma sorted_loop n : forall file r data, sorted_rows (rd_rows r) -> sorted_rows (rd_rows (fst (read_loop n file r data))).
Proof.
  induction n as [|n IH]; intros file r data F; cbn [read_loop]; destruct (is_empty data); [exact F..|].
  destruct (is_empty (strip data)); [exact F|].
  destruct (statement_of (strip data)); [apply IH, F| | |exact F].
  - destruct (create_parse (strip data)) as [[m rest]|e]; [apply IH; exact F|exact F].
  - destruct (insert_parse (strip data)) as [[m rest]|e]; [apply IH, sorted_push, F|exact F].
Qed.
Lemma reader_sorted src : sorted_rows (rd_rows (reader_of src)).
Proof. apply sorted_loop. split; [constructor|intros ? ? []]. Qed.
Lemma reader_filed src : filed (reader_of src).
Proof. apply filed_loop. split; [constructor|intros ? ? []]. Qed.

Definition pushed (d : dict string (list rows_def)) (w : rows_def) := dpush (r_table w) w d.
Lemma dset_middle {V} k (v v' : V) (d d' : dict string V) : ~ In k (dkeys d) -> dset k v (d +++ (k, v') :: d') = d +++ (k, v) :: d'.
Proof.
  induction d as [|[m u] d IH]; intros N; cbn [app dset].
  - rewrite keqb_refl. reflexivity.
  - change (keqb k m) with (String.eqb k m). destruct (String.eqb_spec k m) as [->|X]; [destruct N; left; reflexivity|].
    rewrite IH; [reflexivity|]. intros I. apply N. right. exact I.
Qed.
Lemma push_more n ws : Forall (fun w => r_table w = n) ws -> forall (d : dict string (list rows_def)) l, ~ In n (dkeys d) ->
  fold_left pushed ws (d +++ [(n, l)]) = d +++ [(n, l +++ ws)].
Proof.
  induction 1 as [|w ws <- F IH]; intros d l N; [rewrite app_nil_r; reflexivity|]. cbn [fold_left]. unfold pushed at 2. unfold dpush.
  assert (G : dget (r_table w) (d +++ [(r_table w, l)]) = Some l).
  { clear -N. induction d as [|[m u] d IH]; cbn [app dget]; [rewrite keqb_refl; reflexivity|]. change (keqb (r_table w) m) with (String.eqb (r_table w) m).
    destruct (String.eqb_spec (r_table w) m) as [E|X]; [destruct N; left; auto|]. apply IH. intros I. apply N. right. exact I. }
  rewrite G, dset_middle by exact N. rewrite IH by exact N. rewrite <- app_assoc. reflexivity.
Qed.
Lemma push_sorted R : forall d, sorted_rows R -> NoDup (dkeys (d +++ R)) -> fold_left pushed (concat (dvals R)) d = d +++ R.
Proof.
  induction R as [|[n ws] R IH]; intros d [N S] ND; [rewrite app_nil_r; reflexivity|]. cbn [dvals map concat snd]. rewrite fold_left_app.
  assert (Nn : ~ In n (dkeys d)).
  { unfold dkeys in *. rewrite map_app in ND. cbn [map fst] in ND. apply NoDup_remove_2 in ND. intros I. apply ND, in_or_app. auto. }
  destruct (S n ws (or_introl eq_refl)) as [E F].
  assert (Q : fold_left pushed ws d = d +++ [(n, ws)]).
  { destruct ws as [|w ws]; [congruence|]. inversion F as [|? ? F1 F2]; subst. cbn [fold_left]. unfold pushed at 2. unfold dpush.
    rewrite (proj2 (dget_none _ _) Nn). rewrite dset_absent by (apply dmem_false, Nn). cbn [app]. exact (push_more _ _ F2 d [w] Nn). }
  rewrite Q. change (concat (map snd R)) with (concat (dvals R)). rewrite IH.
  - rewrite <- app_assoc. reflexivity.
  - split; [inversion N; assumption|]. intros m l I. apply S. right. exact I.
  - rewrite <- app_assoc. exact ND.
Qed.

Lemma NoDup_app_remove_r' {A B} (f : A -> B) (a b c : list A) : NoDup (map f (a +++ b) +++ map f c) -> NoDup (map f (a +++ b)).
Proof. generalize (map f (a +++ b)) as l. induction l as [|x l IH]; intros H; [constructor|]. cbn [app] in H. inversion H as [|? ? H1 H2]; subst. constructor; [|apply IH, H2]. intros I. apply H1, in_or_app. auto. Qed.
Lemma foldM_needs {A S} (P : A -> Prop) (f : S -> A -> res S) : (forall s a s', f s a = Ok s' -> P a) -> forall l s s', foldM f l s = Ok s' -> Forall P l.
Proof.
  intros H. induction l as [|a l IH]; intros s s' E; [constructor|]. cbn [foldM] in E. apply bind_ok in E as (s1 & E1 & E2). constructor; eauto.
Qed.
Section Read.
  Context {FO : FloatOracle}.

  Definition files_db (T : tables) (D : dict string (list rows_def)) (E : list string) : database :=
    mkDatabase (map (fun p => (fst p, fresh (snd p))) T) (Some D) E [] None None None None.

  Lemma push_files ws : forall T D E, fold_left push_rows ws (files_db T D E) = files_db T (fold_left pushed ws D) E.
  Proof. induction ws as [|w ws IH]; intros T D E; [reflexivity|]. cbn [fold_left]. rewrite <- IH. reflexivity. Qed.

  Lemma read_step src T D E : NoDup (dkeys (T +++ rd_tables (reader_of src))) -> NoDup (dkeys (D +++ rd_rows (reader_of src))) ->
    readable src ->
    read_source (files_db T D E) src = Ok (files_db (T +++ rd_tables (reader_of src)) (D +++ rd_rows (reader_of src)) (E +++ rd_errors (reader_of src))).
  Proof.
    intros NT ND R. pose proof (reader_filed src) as F. pose proof (reader_sorted src) as S. unfold readable in R.
    assert (A : read_sql (fst src) (snd src) = (reader_of src, snd (read_sql (fst src) (snd src)))) by apply surjective_pairing.
    unfold read_source. rewrite A. revert NT ND R F S. generalize (reader_of src) as r. generalize (snd (read_sql (fst src) (snd src))) as e.
    clear A. intros e r NT ND R F S. rewrite R.
    rewrite put_all; [|apply filed_nodup, F|].
    - cbn [bind]. rewrite (filed_list _ F). f_equal.
      change (add_errors (set_tables (files_db T D E) (d_tables (files_db T D E) +++ map (fun p => (fst p, fresh (snd p))) (rd_tables r))) (rd_errors r))
        with (mkDatabase (map (fun p : string * table => (fst p, fresh (snd p))) T +++ map (fun p => (fst p, fresh (snd p))) (rd_tables r)) (Some D) (E +++ rd_errors r) [] None None None None).
      rewrite <- map_app. change (mkDatabase (map (fun p : string * table => (fst p, fresh (snd p))) (T +++ rd_tables r)) (Some D) (E +++ rd_errors r) [] None None None None)
        with (files_db (T +++ rd_tables r) D (E +++ rd_errors r)). rewrite push_files, push_sorted by assumption. reflexivity.
    - intros t I. apply dmem_false. cbn [files_db d_tables]. unfold dkeys in *. rewrite map_map. cbn [fst]. rewrite map_app in NT.
      unfold dvals in I. apply in_map_iff in I as ([n t'] & <- & I). cbn [snd]. destruct F as [_ F]. rewrite (F n t' I). intros J.
      apply (nodup_split (map fst T) (map fst (rd_tables r)) n NT J). apply (in_map fst) in I. exact I.
  Qed.

  Definition src_tables (srcs : list source) : tables := concat (map (fun s => rd_tables (reader_of s)) srcs).
  Definition all_rows (srcs : list source) : dict string (list rows_def) := concat (map (fun s => rd_rows (reader_of s)) srcs).
  Definition all_errors (srcs : list source) : list string := concat (map (fun s => rd_errors (reader_of s)) srcs).

  Lemma read_all_by (rd : source -> reader) :
    (forall src T D E, NoDup (dkeys (T +++ rd_tables (rd src))) -> NoDup (dkeys (D +++ rd_rows (rd src))) -> readable src ->
       read_source (files_db T D E) src = Ok (files_db (T +++ rd_tables (rd src)) (D +++ rd_rows (rd src)) (E +++ rd_errors (rd src)))) ->
    forall srcs T D E, NoDup (dkeys (T +++ concat (map (fun s => rd_tables (rd s)) srcs))) -> NoDup (dkeys (D +++ concat (map (fun s => rd_rows (rd s)) srcs))) ->
    Forall readable srcs ->
    foldM read_source srcs (files_db T D E)
    = Ok (files_db (T +++ concat (map (fun s => rd_tables (rd s)) srcs)) (D +++ concat (map (fun s => rd_rows (rd s)) srcs)) (E +++ concat (map (fun s => rd_errors (rd s)) srcs))).
  Proof.
    intros St. induction srcs as [|s srcs IH]; intros T D E NT ND R; cbn [map concat foldM] in *; [rewrite !app_nil_r; reflexivity|].
    inversion R as [|? ? R1 R2]; subst. rewrite !app_assoc in *. rewrite St.
    - cbn [bind]. apply IH; assumption.
    - unfold dkeys in *. rewrite map_app in NT. apply NoDup_app_remove_r' in NT. exact NT.
    - unfold dkeys in *. rewrite map_app in ND. apply NoDup_app_remove_r' in ND. exact ND.
    - exact R1.
  Qed.
  Lemma read_all srcs : forall T D E, NoDup (dkeys (T +++ src_tables srcs)) -> NoDup (dkeys (D +++ all_rows srcs)) -> Forall readable srcs ->
    foldM read_source srcs (files_db T D E) = Ok (files_db (T +++ src_tables srcs) (D +++ all_rows srcs) (E +++ all_errors srcs)).
  Proof. exact (read_all_by reader_of read_step srcs). Qed.
  Lemma read_source_readable b s b1 : read_source b s = Ok b1 -> readable s.
  Proof.
    unfold read_source, readable. destruct (read_sql (fst s) (snd s)) as [r e]. cbn [snd]. destruct (caught e); [discriminate|reflexivity].
  Qed.
  Lemma read_needs srcs b b' : foldM read_source srcs b = Ok b' -> Forall readable srcs.
  Proof. apply foldM_needs. exact read_source_readable. Qed.

  (** ** Rows into tables *)
  Definition fits (D : dict string (list rows_def)) (T : dict string tobj) : Prop :=
    forall n ws, In (n, ws) D -> exists o o', dget n T = Some o /\ foldM obj_add_rows ws o = Ok o'.
  Definition with_added (D : dict string (list rows_def)) (p : string * tobj) : tobj :=
    match dget (fst p) D with
    | Some ws => match foldM obj_add_rows ws (snd p) with Ok o => o | Raise _ => snd p end
    | None => snd p
    end.
  Definition filled (D : dict string (list rows_def)) (T : dict string tobj) : dict string tobj := map (fun p => (fst p, with_added D p)) T.

  Lemma filled_set n ws o o' D T : ~ In n (dkeys D) -> NoDup (dkeys T) -> dget n T = Some o -> foldM obj_add_rows ws o = Ok o' ->
    filled D (dset n o' T) = filled ((n, ws) :: D) T.
  Proof.
    intros N NT G X. unfold filled. induction T as [|[m u] T IH]; [discriminate|]. cbn [dkeys map fst] in NT. inversion NT as [|? ? N1 N2]; subst.
    cbn [dset dget] in *. change (keqb n m) with (String.eqb n m) in *. destruct (String.eqb_spec n m) as [->|F].
    - injection G as ->. cbn [map fst]. f_equal.
      + f_equal. unfold with_added. cbn [fst snd dget]. rewrite keqb_refl, X. rewrite (proj2 (dget_none m D) N). reflexivity.
      + apply map_ext_in. intros [k v] I. f_equal. unfold with_added. cbn [fst dget]. change (keqb k m) with (String.eqb k m).
        destruct (String.eqb_spec k m) as [->|F]; [destruct N1; eapply in_dkeys; eauto|reflexivity].
    - cbn [map fst]. f_equal; [|apply IH; assumption]. f_equal. unfold with_added. cbn [fst dget]. change (keqb m n) with (String.eqb m n).
      destruct (String.eqb_spec m n); [congruence|reflexivity].
  Qed.

  Lemma combine_iff D : forall b b', NoDup (dkeys D) -> (forall n ws, In (n, ws) D -> ws <> []) -> NoDup (dkeys (d_tables b)) ->
    (foldM combine_one D b = Ok b' <-> fits D (d_tables b) /\ b' = set_tables b (filled D (d_tables b))).
  Proof.
    induction D as [|[n ws] D IH]; intros b b' ND NE NT.
    - cbn [foldM]. assert (Q : set_tables b (filled [] (d_tables b)) = b).
      { unfold filled, with_added. cbn [dget]. rewrite <- (map_id (d_tables b)) at 1. destruct b as [ts]; cbn [d_tables set_tables]. unfold set_tables. cbn. f_equal.
        rewrite map_id. rewrite <- (map_id ts) at 2. apply map_ext. intros []; reflexivity. }
      rewrite Q. split; [intros [= <-]; split; [intros ? ? []|reflexivity]|intros [_ ->]; reflexivity].
    - cbn [dkeys map fst] in ND. inversion ND as [|? ? N1 N2]; subst. cbn [foldM]. unfold combine_one at 1. destruct (dget n (d_tables b)) as [o|] eqn:G.
      + destruct (foldM obj_add_rows ws o) as [o'|e] eqn:X; cbn [bind].
        * rewrite IH; [|exact N2|intros m l I; apply (NE m); right; exact I|cbn [set_tables d_tables]; apply nodup_dset, NT]. cbn [set_tables d_tables].
          rewrite (filled_set n ws o o' D (d_tables b) N1 NT G X). change (set_tables (set_tables b (dset n o' (d_tables b))) (filled ((n, ws) :: D) (d_tables b)))
            with (set_tables b (filled ((n, ws) :: D) (d_tables b))).
          assert (Q : fits D (dset n o' (d_tables b)) <-> fits ((n, ws) :: D) (d_tables b)); [|tauto].
          unfold fits. split.
          -- intros H m l [[= <- <-]|I]; [eauto|]. destruct (H m l I) as (u & u' & Hu & Hl). rewrite dget_dset in Hu. change (keqb m n) with (String.eqb m n) in Hu.
             destruct (String.eqb_spec m n) as [->|F]; [destruct N1; eapply in_dkeys; eauto|]. eauto.
          -- intros H m l I. destruct (H m l (or_intror I)) as (u & u' & Hu & Hl). exists u, u'. split; [|exact Hl]. rewrite dget_dset. change (keqb m n) with (String.eqb m n).
             destruct (String.eqb_spec m n) as [->|F]; [destruct N1; eapply in_dkeys; eauto|]. exact Hu.
        * split; [discriminate|]. intros [H _]. destruct (H n ws (or_introl eq_refl)) as (u & u' & Hu & Hl). congruence.
      + destruct ws as [|w ws]; [destruct (NE n [] (or_introl eq_refl)); reflexivity|]. cbn [bind]. split; [discriminate|].
        intros [H _]. destruct (H n _ (or_introl eq_refl)) as (u & u' & Hu & _). congruence.
  Qed.

  (** ** Sources that do not share tables *)
  Definition parted (srcs : list source) : Prop := NoDup (dkeys (src_tables srcs)) /\ NoDup (dkeys (all_rows srcs)).

  Lemma files_iff srcs b : parted srcs ->
    (file_database srcs = Ok b <-> Forall readable srcs
       /\ fits (all_rows srcs) (map (fun p => (fst p, fresh (snd p))) (src_tables srcs))
       /\ b = mkDatabase (filled (all_rows srcs) (map (fun p => (fst p, fresh (snd p))) (src_tables srcs))) (Some (all_rows srcs)) (all_errors srcs) [] None None None None).
  Proof.
    intros [NT ND]. unfold file_database. change empty_database with (files_db [] [] []).
    assert (NE : forall n ws, In (n, ws) (all_rows srcs) -> ws <> []).
    { intros n ws I. unfold all_rows in I. apply in_concat in I as (l & Hl & I). apply in_map_iff in Hl as (s & <- & _). apply (proj2 (reader_sorted s) n ws I). }
    assert (NT' : NoDup (dkeys (map (fun p : string * table => (fst p, fresh (snd p))) (src_tables srcs)))) by (unfold dkeys in *; rewrite map_map; exact NT).
    split.
    - intros H. apply bind_ok in H as (b1 & H1 & H2). assert (R := read_needs _ _ _ H1). split; [exact R|].
      rewrite (read_all srcs [] [] []) in H1 by assumption. injection H1 as <-. unfold Reader.combine in H2. cbn [files_db d_rows app] in H2.
      apply (combine_iff (all_rows srcs)) in H2; [exact H2|assumption..].
    - intros (R & F & ->). rewrite (read_all srcs [] [] []) by assumption. cbn [bind]. unfold Reader.combine. cbn [files_db d_rows app].
      apply (combine_iff (all_rows srcs)); [assumption..|]. split; [exact F|reflexivity].
  Qed.

  Lemma apart_keys {A V} (g : A -> dict string V) (R : A -> A -> Prop) l : (forall a, NoDup (dkeys (g a))) ->
    (forall a b, R a b -> forall n, In n (dkeys (g a)) -> ~ In n (dkeys (g b))) -> ForallOrdPairs R l -> NoDup (dkeys (concat (map g l))).
  Proof.
    intros N H F. induction F as [|a l Fa F IH]; [constructor|]. cbn [map concat]. unfold dkeys in *. rewrite map_app. apply NoDup_app_intro; [apply N|exact IH|].
    intros x I J. apply in_map_iff in J as (q & <- & J). apply in_concat in J as (m & Hm & J). apply in_map_iff in Hm as (b & <- & Hb).
    rewrite Forall_forall in Fa. apply (H a b (Fa b Hb) (fst q) I). apply in_map, J.
  Qed.
  Lemma apart_parted_by (rd : source -> reader) srcs : (forall a, NoDup (dkeys (rd_tables (rd a)))) -> (forall a, NoDup (dkeys (rd_rows (rd a)))) ->
    ForallOrdPairs (fun s s' => (forall n, In n (dkeys (rd_tables (rd s))) -> ~ In n (dkeys (rd_tables (rd s'))))
                             /\ (forall n, In n (dkeys (rd_rows (rd s))) -> ~ In n (dkeys (rd_rows (rd s'))))) srcs ->
    NoDup (dkeys (concat (map (fun s => rd_tables (rd s)) srcs))) /\ NoDup (dkeys (concat (map (fun s => rd_rows (rd s)) srcs))).
  Proof.
    intros H1 H2 F. split.
    - eapply (apart_keys (fun s => rd_tables (rd s))); [exact H1| |exact F]. intros a b [H _]. exact H.
    - eapply (apart_keys (fun s => rd_rows (rd s))); [exact H2| |exact F]. intros a b [_ H]. exact H.
  Qed.
  Lemma reader_tables_once a : NoDup (dkeys (rd_tables (reader_of a))).
  Proof. destruct (reader_filed a) as [H _]. exact H. Qed.
  Lemma reader_rows_once a : NoDup (dkeys (rd_rows (reader_of a))).
  Proof. destruct (reader_sorted a) as [H _]. exact H. Qed.
  Lemma apart_parted srcs : ForallOrdPairs apart srcs -> parted srcs.
  Proof. exact (apart_parted_by reader_of srcs reader_tables_once reader_rows_once). Qed.

  Lemma parted_perm srcs srcs' : Permutation srcs srcs' -> parted srcs -> parted srcs'.
  Proof. intros P [A B]. split; [refine (Permutation_NoDup _ A)|refine (Permutation_NoDup _ B)]; apply Permutation_map, perm_concat, P. Qed.
  Lemma fits_perm D D' T T' : NoDup (dkeys T) -> Permutation D D' -> Permutation T T' -> fits D T -> fits D' T'.
  Proof.
    intros N PD PT F n ws I. destruct (F n ws) as (o & o' & G & X); [eapply Permutation_in; [apply Permutation_sym, PD|exact I]|].
    exists o, o'. split; [|exact X]. rewrite <- (dget_perm n T T' N PT). exact G.
  Qed.
  Lemma filled_perm D D' T T' : NoDup (dkeys D) -> Permutation D D' -> Permutation T T' -> Permutation (filled D T) (filled D' T').
  Proof.
    intros N PD PT. unfold filled. rewrite (map_ext (fun p => (fst p, with_added D p)) (fun p => (fst p, with_added D' p))); [apply Permutation_map, PT|].
    intros p. unfold with_added. rewrite (dget_perm (fst p) D D' N PD). reflexivity.
  Qed.

  Lemma files_order srcs srcs' b : parted srcs -> Permutation srcs srcs' -> file_database srcs = Ok b ->
    exists b', file_database srcs' = Ok b' /\ Permutation (db_tables b) (db_tables b') /\ Permutation (d_global_errors b) (d_global_errors b')
      /\ unasked b /\ unasked b' /\ exists D D', d_rows b = Some D /\ d_rows b' = Some D' /\ NoDup (dkeys D) /\ Permutation D D'.
  Proof.
    intros Pa P E. assert (Pa' := parted_perm _ _ P Pa). destruct Pa as [NT ND]. apply files_iff in E as (R & F & ->); [|split; assumption].
    assert (PT : Permutation (map (fun p : string * table => (fst p, fresh (snd p))) (src_tables srcs)) (map (fun p => (fst p, fresh (snd p))) (src_tables srcs')))
      by (apply Permutation_map, perm_concat, P).
    assert (PD : Permutation (all_rows srcs) (all_rows srcs')) by (apply perm_concat, P).
    assert (NT' : NoDup (dkeys (map (fun p : string * table => (fst p, fresh (snd p))) (src_tables srcs)))) by (unfold dkeys in *; rewrite map_map; exact NT).
    eexists. split; [apply files_iff; [exact Pa'|]; split; [eapply Permutation_Forall; eauto|]; split; [eapply fits_perm; eauto|reflexivity]|].
    assert (U : forall D T, (forall n o, In (n, o) T -> o = fresh (Database.to_table o)) -> forall n o, In (n, o) (filled D T) -> o = fresh (Database.to_table o)).
    { intros D T H n o I. apply in_map_iff in I as ([k u] & [= <- <-] & I). specialize (H k u I). unfold with_added. cbn [fst snd]. destruct (dget k D) as [ws|]; [|exact H].
      destruct (foldM obj_add_rows ws u) as [o|] eqn:X; [|exact H]. apply (foldM_inv (fun o => o = fresh (Database.to_table o)) _ _ _ _) in X; [exact X| |exact H].
      intros a w a' _ Ha Hw. unfold obj_add_rows in Hw. destruct (add_rows (Database.to_table a) w) as [t [x|]]; [discriminate|]. injection Hw as <-. rewrite Ha. reflexivity. }
    assert (U0 : forall T n o, In (n, o) (map (fun p : string * table => (fst p, fresh (snd p))) T) -> o = fresh (Database.to_table o)).
    { intros T n o I. apply in_map_iff in I as ([k u] & [= <- <-] & _). reflexivity. }
    split; [apply Permutation_map, filled_perm; assumption|]. split; [apply perm_concat, P|].
    split; [split; [|repeat split]; cbn [d_tables]; apply U, U0|]. split; [split; [|repeat split]; cbn [d_tables]; apply U, U0|].
    exists (all_rows srcs), (all_rows srcs'). auto.
  Qed.

  (** ** Errors *)
  Lemma quiet_order ts ts' D D' ge ge' gw gw' : NoDup (dkeys ts) -> (forall n t, In (n, t) ts -> kept t) ->
    (forall n ws r, In (n, ws) D -> In r ws -> listed r) ->
    Permutation ts ts' -> Permutation D D' -> Permutation ge ge' ->
    snd (db_errors (new_database ts (Some D) ge gw)) = Ok [] -> snd (db_errors (new_database ts' (Some D') ge' gw')) = Ok [].
  Proof.
    intros N K X Pt Pd Pg E. assert (N' : NoDup (dkeys ts')) by (refine (Permutation_NoDup _ N); apply Permutation_map, Pt).
    assert (It : forall n t, In (n, t) ts' -> In (n, t) ts) by (intros n t; apply Permutation_in, Permutation_sym, Pt).
    assert (Id : forall n t, In (n, t) D' -> In (n, t) D) by (intros n t; apply Permutation_in, Permutation_sym, Pd).
    assert (K' : forall n t, In (n, t) ts' -> kept t) by (intros n t I; apply (K n t (It n t I))).
    apply (errors_iff ts D ge gw K) in E as (-> & F & Q & R & P). apply (errors_iff ts' D' ge' gw' K').
    apply Permutation_nil in Pg. split; [exact Pg|]. split; [|split; [|split]].
    - apply (fks_iff ts N K) in F as [F1 F2]. apply (fks_iff ts' N' K'). split.
      + intros n t kn k I J. destruct (F1 n t kn k (It n t I) J) as (ft & c & fc & [S1 S2 S3 S4 S5 S6 S7 S8 S9 S10 S11]).
        exists ft, c, fc. rewrite (dget_perm _ ts ts' N Pt) in S1. constructor; assumption.
      + refine (Permutation_NoDup _ F2). apply perm_concat, Pt.
    - intros n t I. apply (Q n t (It n t I)).
    - apply loop_nil; [exact N'|intros n r I; apply in_flat in I as (ws & I & J); apply (X n ws r (Id _ _ I) J)|].
      intros n r I. apply in_flat in I as (ws & I & J). assert (V : forall n r, In (n, r) (flat_rows D) -> listed r)
        by (intros m w M; apply in_flat in M as (l & M & M'); apply (X m l w M M')).
      destruct (proj1 (loop_nil ts (flat_rows D) N V None) R n r) as (t & M & C); [apply in_flat; exists ws; split; [apply Id, I|exact J]|].
      exists t. split; [|exact C]. apply (Permutation_in _ Pt), M.
    - intros n r I. apply in_flat in I as (ws & I & J). apply (P n r). apply in_flat. exists ws. split; [apply Id, I|exact J].
  Qed.
End Read.
