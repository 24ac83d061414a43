(** CREATE TABLE statements as people and servers write them. *)
From Verif Require Export RoundRead.

Local Opaque max_turns max_statements.

(** ** The definitions *)

Definition said_column (m : meaning) (c : column) : Prop :=
  means c m /\ c_perrors c = [] /\ plainly c /\ In (m_type m, m_kind m) readable_types.
Definition said_index (i i' : index) : Prop := alike_index i i' /\ ix_perrors i' = [].
Definition said_fk (k k' : constraint) : Prop := alike_fk k k' /\ k_perrors k' = [] /\ k_pwarnings k' = [].
Definition piece_of (p : part) : piece meaning :=
  match p with PartColumn m => PCol m | PartKey i => PIndex i | PartFk k => PFk k end.
Lemma part_ok p s : part_written p s -> rdef_ok (s, piece_means m_name said_column said_index said_fk (piece_of p)).
Proof.
  intros [m x W|i x W|k x W].
  - split; [apply (written_def m), W|]. intros e E Ec. destruct (written_read m x e W E) as (p' & c & B & A & M & P & N & Q & Pl).
    exists (DefCol p'). split; [exact B|]. exists c. unfold said_column. assert (R : In (m_type m, m_kind m) readable_types) by (destruct W; assumption). auto 6.
  - split; [apply (key_def i), W|]. intros e E Ec. eexists. split; [apply (key_written_read i x e W E)|]. repeat split.
  - split; [apply (fk_written_def k), W|]. intros e E Ec. eexists. split; [apply (fk_written_read k x e W E Ec)|]. repeat split.
Qed.
Lemma columns_of l : pcols (map piece_of l) = columns_in l.
Proof. unfold pcols, columns_in. rewrite map_map. f_equal. apply map_ext. intros []; reflexivity. Qed.
Lemma keys_of l : pindexes (map piece_of l) = keys_in l.
Proof. unfold pindexes, keys_in. rewrite map_map. f_equal. apply map_ext. intros []; reflexivity. Qed.
Lemma fks_of l : pfks (map piece_of l) = fks_in l.
Proof. unfold pfks, fks_in. rewrite map_map. f_equal. apply map_ext. intros []; reflexivity. Qed.
Lemma parts_count l : List.length l = List.length (columns_in l) + List.length (keys_in l) + List.length (fks_in l).
Proof.
  unfold columns_in, keys_in, fks_in. induction l as [|[m|i|k] l IH]; [reflexivity|..]; cbn [map concat List.length List.app]; rewrite IH; lia.
Qed.
Lemma key_some i s : key_written i s -> ix_name i <> "".
Proof.
  intros [w g sp l E N F _]. unfold ix_name. destruct (truthy (ix_rawname i)) eqn:T; [apply truthy_iff, T|]. rewrite E.
  destruct F as [|x l [(X & _) _] F]; [contradiction|exact X].
Qed.
Lemma options_as l : options_written l = (if list_is_nil l then "" else " " ++ options_text l).
Proof.
  unfold options_written, options_text. induction l as [|o l IH]; [reflexivity|]. destruct l as [|o' l]; [reflexivity|].
  cbn [map] in *. rewrite !(join_cons _ (_ ++ _)) by discriminate. cbn [list_is_nil] in *. rewrite IH. rewrite (join_cons " " (option_text o)) by discriminate.
  unfold option_text. rewrite !sapp_assoc. reflexivity.
Qed.

(** ** The statement *)

Lemma named_says {A V} (f : A -> string) (g : V -> string) (R R' : A -> V -> Prop) l l' :
  Forall2 R l l' -> (forall a v, R a v -> g v = f a /\ R' a v) -> Forall2 (fun a p => fst p = f a /\ R' a (snd p)) l (map (fun v => (g v, v)) l').
Proof. intros F H. induction F as [|a v l l' Q F IH]; constructor; [apply (H a v Q)|exact IH]. Qed.

(** A table just read. *)
Record read_table (t : table) (T : tmeaning) (semi : bool) : Prop := {
  rd_sound : sound_table T;
  rd_says : table_says t T;
  rd_columns : Forall2 (fun m p => said_column m (snd p)) (tm_columns T) (t_columns t);
  rd_keys : Forall2 (fun i p => said_index i (snd p)) (tm_keys T) (t_indexes t);
  rd_fks : Forall2 (fun k p => said_fk k (snd p)) (tm_fks T) (t_constraints t);
  rd_named : (forall n c, In (n, c) (t_columns t) -> c_name c = n) /\ (forall n i, In (n, i) (t_indexes t) -> ix_name i = n) /\ (forall n k, In (n, k) (t_constraints t) -> k_name k = n);
  rd_errors : t_global_errors t = (if semi then [] else ["Missing ending semicolon for table " ++ tm_name T]);
  rd_rest : t_global_warnings t = [] /\ t_rows t = None /\ t_tracking t = false /\ t_indexed t = None /\ t_ordered t = true
}.
Lemma create_written_follow T semi s r rest : create_written T semi s ->
  table_end (RoundTable.stop semi ++ r) rest semi -> no_dd false r = true -> no_drop r ->
  exists t, create_parse (s ++ r) = Ok (Some t, rest) /\ read_table t T semi /\ no_dd false (s ++ r) = true /\ no_drop (s ++ r).
Proof.
  intros [h w0 w1 w2 parts ss So Hh F Ec Ek Ef Fo W0 W1 W1n W2] Hz Rd Rp.
  assert (Zd : no_dd false (RoundTable.stop semi ++ r) = true) by (destruct semi; exact Rd).
  assert (Zp : no_drop (RoundTable.stop semi ++ r)) by (destruct semi; [apply (no_drop_app ";"); [reflexivity|exact Rp]|exact Rp]).
  set (ps := List.combine ss (map piece_of parts)).
  assert (L : List.length ss = List.length (map piece_of parts)) by (rewrite map_length; clear -F; induction F; cbn [List.length]; congruence).
  assert (S1 : map fst ps = ss).
  { unfold ps. clear -L. revert L. generalize (map piece_of parts). induction ss as [|x l IH]; intros [|y q] L; try discriminate; [reflexivity|]. cbn. f_equal. apply IH. injection L as L. exact L. }
  assert (S2 : map snd ps = map piece_of parts).
  { unfold ps. clear -L. revert L. generalize (map piece_of parts). induction ss as [|x l IH]; intros [|y q] L; try discriminate; [reflexivity|]. cbn. f_equal. apply IH. injection L as L. exact L. }
  assert (Fd : Forall rdef_ok (map (fun x => (fst x, piece_means m_name said_column said_index said_fk (snd x))) ps)).
  { unfold ps. clear -F. induction F as [|p x parts ss P F IH]; [constructor|]. cbn [map List.combine fst snd]. constructor; [apply part_ok, P|exact IH]. }
  assert (Ne : Forall (fun i => ix_name i <> "") (tm_keys T)).
  { rewrite <- Ek. clear -F. unfold keys_in. induction F as [|p x parts ss P F IH]; [constructor|]. destruct P as [m x W|i x W|k x W]; cbn [map concat List.app]; auto.
    constructor; [apply (key_some i x), W|exact IH]. }
  assert (E : (h ++ " (" ++ w0 ++ join ("," ++ w1) ss ++ w2 ++ ")" ++ options_written (tm_options T) ++ (if semi then ";" else "")) ++ r
    = create_text w0 w1 w2 h (map fst ps) (tm_options T) (RoundTable.stop semi ++ r)).
  { unfold create_text, after_defs. rewrite S1, options_as. unfold RoundTable.stop. repeat (cbn [String.append]; rewrite ?sapp_assoc). reflexivity. }
  assert (Len : (0 < N.of_nat (List.length ps) < 1000)%N).
  { replace (List.length ps) with (List.length parts).
    - rewrite parts_count, Ec, Ek, Ef. apply So.
    - rewrite <- (map_length piece_of parts), <- S2, map_length. reflexivity. }
  rewrite E.
  destruct (create_reads m_name said_column said_index said_fk) with (w0 := w0) (w1 := w1) (w2 := w2) (n := tm_name T) (h := h) (ps := ps) (opts := tm_options T) (fin := RoundTable.stop semi ++ r) (rest := rest) (semi := semi)
    as (cs & is & kk & p & Gc & Gi & Gk & Q); rewrite ?S2, ?columns_of, ?keys_of, ?fks_of, ?Ec, ?Ek, ?Ef; auto; try apply So.
  - intros c c' [M _]. apply M.
  - intros i i' [A _]. apply alike_ix_name, A.
  - intros k k' [A _]. symmetry. apply A.
  - rewrite S2, columns_of, Ec in Gc. rewrite S2, keys_of, Ek in Gi. rewrite S2, fks_of, Ef in Gk.
    eexists. split; [exact Q|]. split.
    + constructor; cbn [t_name t_columns t_indexes t_constraints t_options t_global_errors t_global_warnings t_rows t_tracking t_indexed t_ordered]; auto.
      * constructor; cbn [t_name t_columns t_indexes t_constraints t_options]; try reflexivity.
        -- apply (named_says m_name c_name said_column (fun m c => means c m) _ _ Gc). intros m c [M _]. split; [apply M|exact M].
        -- apply (named_says ix_name ix_name said_index alike_index _ _ Gi). intros i i' [M _]. split; [apply alike_ix_name, M|exact M].
        -- apply (named_says k_name k_name said_fk alike_fk _ _ Gk). intros k k' [M _]. split; [symmetry; apply M|exact M].
      * clear -Gc. induction Gc; constructor; auto.
      * clear -Gi. induction Gi; constructor; auto.
      * clear -Gk. induction Gk; constructor; auto.
      * repeat split; intros n x X; apply in_map_iff in X as (y & Y & _); congruence.
    + assert (T1 : map rdef_text (map (fun x => (fst x, piece_means m_name said_column said_index said_fk (snd x))) ps) = map fst ps) by (rewrite map_map; reflexivity).
      assert (Nd : map (fun x => (fst x, piece_means m_name said_column said_index said_fk (snd x))) ps <> []).
      { destruct ps; [cbn in Len; lia|discriminate]. }
      apply rdef_shapes in Fd. rewrite <- T1. split; [apply (rendered_dd w0 w1 w2 (tm_name T) h _ _ _ rest semi)|apply (rendered_drop w0 w1 w2 (tm_name T) h)]; auto.
Qed.
Lemma create_written_read T semi s : create_written T semi s -> exists t, create_parse s = Ok (Some t, "") /\ read_table t T semi
  /\ no_dd false s = true /\ no_drop s.
Proof.
  intros W. destruct (create_written_follow T semi s "" "" W) as (t & H); [rewrite sapp_nil_r; apply stop_end|reflexivity|reflexivity|].
  rewrite sapp_nil_r in H. exists t. exact H.
Qed.

(** ** Layout *)

(** Spaces replaced by other white space. *)
Inductive respaced : string -> string -> Prop :=
| respaced_end : respaced "" ""
| respaced_char c s s' : respaced s s' -> respaced (String c s) (String c s')
| respaced_space d w s s' : is_space d = true -> sforall is_space w = true -> respaced s s' -> respaced (String " " s) (String d (w ++ s')).

Lemma space_dash c : is_space c = true -> Ascii.eqb c "-" = false.
Proof. destruct c as [[|] [|] [|] [|] [|] [|] [|] [|]]; vm_compute; congruence. Qed.
Lemma comment_drop t r : sforall (fun c => negb (Ascii.eqb c "010"%char)) t = true -> drop_dashes_from true (t ++ String newline r) = String newline (drop_dashes_from false r).
Proof.
  induction t as [|c t IH]; intros H; [reflexivity|]. cbn [sforall] in H. apply andb_true_iff in H as [C H]. apply negb_true_iff in C.
  cbn [String.append drop_dashes_from]. change newline with "010"%char at 1. rewrite C. apply IH, H.
Qed.
Lemma layout_drop w : layout w -> forall r, exists d v, is_space d = true /\ sforall is_space v = true /\ drop_dashes_from false (w ++ r) = String d (v ++ drop_dashes_from false r).
Proof.
  induction 1 as [c C|t N|a b A IHa B IHb]; intros r.
  - exists c, "". repeat split; [exact C|]. cbn [String.append drop_dashes_from]. rewrite (space_dash c C). reflexivity.
  - exists newline, "". repeat split. cbn [String.append drop_dashes_from Ascii.eqb Bool.eqb andb]. rewrite sapp_assoc. apply comment_drop, N.
  - rewrite sapp_assoc. destruct (IHa (b ++ r)) as (d & v & D & V & ->), (IHb r) as (d' & v' & D' & V' & ->).
    exists d, (v ++ String d' v'). split; [exact D|]. split; [rewrite sforall_app; cbn [sforall]; rewrite V, D', V'; reflexivity|]. rewrite sapp_assoc. reflexivity.
Qed.
Lemma relaid_dash s s' r' : relaid s s' -> s' = String "-" r' -> exists r, s = String "-" r.
Proof. intros [|c s0 s0' _|c w s0 s0' _ _ _] E; inversion E; eauto. Qed.
Lemma relaid_drop s s' : relaid s s' -> forall b, no_dd b s = true -> respaced s (drop_dashes_from false s').
Proof.
  induction 1 as [|c s s' R IH|c w s s' C W R IH]; intros b N.
  - constructor.
  - cbn [no_dd] in N. cbn [drop_dashes_from]. destruct (Ascii.eqb_spec c "-") as [->|C]; cbn [andb].
    + apply andb_true_iff in N as [_ N]. destruct s' as [|d r']; [constructor; inversion R; constructor|].
      destruct (Ascii.eqb_spec d "-") as [->|D]; [|constructor; apply (IH true), N].
      destruct (relaid_dash _ _ r' R eq_refl) as [r ->]. discriminate N.
    + constructor. apply (IH false), N.
  - cbn [no_dd] in N. apply Ascii.eqb_neq in C. rewrite C in N. cbn [no_dd Ascii.eqb Bool.eqb] in N. cbn [drop_dashes_from]. rewrite C. cbn [andb].
    destruct (layout_drop w W s') as (d & v & D & V & ->). constructor. constructor; [exact D|exact V|apply (IH false), N].
Qed.

Lemma collapse_white w r : sforall is_space w = true -> collapse_ws_from true (w ++ r) = collapse_ws_from true r.
Proof. induction w as [|c w IH]; intros H; [reflexivity|]. cbn [sforall] in H. apply andb_true_iff in H as [C H]. cbn [String.append collapse_ws_from]. rewrite C. apply IH, H. Qed.
Lemma respaced_collapse s s' : respaced s s' -> forall b, collapse_ws_from b s' = collapse_ws_from b s.
Proof.
  induction 1 as [|c s s' R IH|d w s s' D W R IH]; intros b; [reflexivity|..].
  - cbn [collapse_ws_from]. rewrite !IH. reflexivity.
  - cbn [collapse_ws_from]. rewrite D. change (is_space " ") with true. cbn iota. rewrite (collapse_white w s' W), IH. reflexivity.
Qed.

Lemma respaced_skip s s' : respaced s s' -> respaced (snd (span is_space s)) (snd (span is_space s')).
Proof.
  induction 1 as [|c s s' R IH|d w s s' D W R IH]; [constructor|..].
  - cbn [span]. destruct (is_space c); [|constructor; exact R]. destruct (span is_space s), (span is_space s'). exact IH.
  - cbn [span]. rewrite D. change (is_space " ") with true. cbn iota. destruct (span is_space s) as [a s1]. cbn [snd] in *.
    assert (E : snd (span is_space (w ++ s')) = snd (span is_space s')).
    { clear -W. induction w as [|c w IH]; [reflexivity|]. cbn [sforall] in W. apply andb_true_iff in W as [C W]. cbn [String.append span]. rewrite C.
      destruct (span is_space (w ++ s')). cbn [snd] in *. apply IH, W. }
    rewrite <- E in IH. destruct (span is_space (w ++ s')). exact IH.
Qed.
Lemma respaced_span (P : ascii -> bool) s s' : (forall c, P c = true -> is_space c = false) -> respaced s s' ->
  fst (span P s') = fst (span P s) /\ respaced (snd (span P s)) (snd (span P s')).
Proof.
  intros H R. assert (Sp : P " "%char = false) by (destruct (P " "%char) eqn:E; [apply H in E; discriminate E|reflexivity]).
  induction R as [|c s s' R IH|d w s s' D W R IH].
  - split; constructor.
  - cbn [span]. destruct (P c); [|split; [reflexivity|constructor; exact R]]. destruct (span P s), (span P s'). cbn [fst snd] in *. destruct IH as [-> IH]. auto.
  - cbn [span]. rewrite Sp. destruct (P d) eqn:E; [apply H in E; congruence|]. split; [reflexivity|]. constructor; assumption.
Qed.
Lemma respaced_bquote s s' : respaced s s' -> fst (opt_bquote s') = fst (opt_bquote s) /\ respaced (snd (opt_bquote s)) (snd (opt_bquote s')).
Proof.
  intros [|c x x' R|d w x x' D W R]; cbn [opt_bquote].
  - split; constructor.
  - destruct (Ascii.eqb c bquote); [split; [reflexivity|exact R]|split; [reflexivity|constructor; exact R]].
  - assert (E : Ascii.eqb d bquote = false) by (clear -D; destruct d as [[|] [|] [|] [|] [|] [|] [|] [|]]; vm_compute in *; congruence).
    rewrite E. split; [reflexivity|]. constructor; assumption.
Qed.
Lemma respaced_head c s s' r' : is_space c = false -> respaced s s' -> s' = String c r' -> exists r, s = String c r /\ respaced r r'.
Proof. intros C [|d x x' R|d w x x' D W R] E; inversion E; subst; [eauto|congruence]. Qed.
Lemma word_space c : is_word c = true -> is_space c = false.
Proof. destruct c as [[|] [|] [|] [|] [|] [|] [|] [|]]; vm_compute; congruence. Qed.
Lemma digit_space c : is_digit c = true -> is_space c = false.
Proof. destruct c as [[|] [|] [|] [|] [|] [|] [|] [|]]; vm_compute; congruence. Qed.
Lemma respaced_open s s' : respaced s s' -> prefix_length s = None -> prefix_length s' = None.
Proof.
  intros R N. destruct (prefix_length s') as [[g k]|] eqn:E; [exfalso|reflexivity]. revert N E. unfold prefix_length.
  pose proof (respaced_skip _ _ R) as R1. destruct (span is_space s) as [a s1], (span is_space s') as [a' s1']. cbn [snd] in R1.
  destruct (respaced_bquote _ _ R1) as [_ R2]. destruct (opt_bquote s1) as [b s2], (opt_bquote s1') as [b' s2']. cbn [snd] in R2.
  destruct (respaced_span is_word _ _ word_space R2) as [E3 R3]. destruct (span is_word s2) as [w s3], (span is_word s2') as [w' s3']. cbn [fst snd] in E3, R3. subst w'.
  destruct (is_empty w); [discriminate|].
  destruct (respaced_bquote _ _ R3) as [_ R4]. destruct (opt_bquote s3) as [e s4], (opt_bquote s3') as [e' s4']. cbn [snd] in R4.
  intros N E. destruct s4' as [|c s5']; [discriminate|]. destruct (Ascii.eqb_spec c "(") as [->|C].
  2:{ destruct c as [[|] [|] [|] [|] [|] [|] [|] [|]]; try discriminate E. apply C. reflexivity. }
  destruct (respaced_head "(" _ _ s5' eq_refl R4 eq_refl) as (s5 & -> & R5).
  destruct (respaced_span is_digit _ _ digit_space R5) as [E6 R6]. destruct (span is_digit s5) as [x s6], (span is_digit s5') as [x' s6']. cbn [fst snd] in E6, R6. subst x'.
  destruct s6' as [|c s7']; [discriminate|]. destruct (Ascii.eqb_spec c ")") as [->|C].
  2:{ destruct c as [[|] [|] [|] [|] [|] [|] [|] [|]]; try discriminate E. apply C. reflexivity. }
  destruct (respaced_head ")" _ _ s7' eq_refl R6 eq_refl) as (s7 & -> & R7).
  destruct (is_empty x); discriminate.
Qed.

Lemma prefix_counts s g k : prefix_length s = Some (g, k) -> String.length g < k /\ k <= String.length s.
Proof.
  intros P. destruct (prefix_length_spec _ _ _ P) as (d & r & E & _ & _ & Ek). rewrite E, Ek. rewrite !slength_app. simpl. rewrite ?slength_app. simpl. lia.
Qed.
Lemma drop_short s : forall n, String.length (drop_lengths_from n s) <= String.length s - n.
Proof.
  assert (K : forall m s n, String.length s <= m -> String.length (drop_lengths_from n s) <= String.length s - n).
  { induction m as [|m IH]; intros x n L; [destruct x; [cbn; lia|cbn in L; lia]|]. destruct x as [|c x]; [cbn; lia|]. cbn [String.length] in L. cbn [drop_lengths_from].
    destruct n as [|n]; [|cbn [String.length]; specialize (IH x n ltac:(lia)); lia].
    assert (G : String.length (String c (drop_lengths_from 0 x)) <= String.length (String c x) - 0) by (cbn [String.length]; specialize (IH x 0 ltac:(lia)); lia).
    destruct (Ascii.eqb c "(" || Ascii.eqb c ","); [|exact G]. destruct (prefix_length x) as [[g k]|] eqn:P; [|exact G].
    cbn [String.length]. rewrite slength_app. specialize (IH x k ltac:(lia)).
    destruct (prefix_counts _ _ _ P). lia. }
  intros n. apply (K (String.length s)). lia.
Qed.
Lemma no_drop_inv c s : no_drop (String c s) -> no_drop s /\ (Ascii.eqb c "(" || Ascii.eqb c "," = true -> prefix_length s = None).
Proof.
  unfold no_drop. cbn [drop_lengths_from]. destruct (Ascii.eqb c "(" || Ascii.eqb c ","); [|intros E; injection E as E; split; [exact E|discriminate]].
  destruct (prefix_length s) as [[g k]|] eqn:P; [|intros E; injection E as E; auto]. intros E. exfalso. injection E as E.
  destruct (prefix_counts _ _ _ P) as [A B]. pose proof (drop_short s k) as L. apply (f_equal String.length) in E. rewrite slength_app in E. lia.
Qed.
Lemma respaced_no_drop s s' : respaced s s' -> no_drop s -> no_drop s'.
Proof.
  induction 1 as [|c s s' R IH|d w s s' D W R IH]; intros N; [exact N|..].
  - destruct (no_drop_inv c s N) as [N1 N2]. unfold no_drop. cbn [drop_lengths_from]. rewrite (IH N1).
    destruct (Ascii.eqb c "(" || Ascii.eqb c ","); [|reflexivity]. rewrite (respaced_open _ _ R (N2 eq_refl)). reflexivity.
  - destruct (no_drop_inv " " s N) as [N1 _]. change (String d (w ++ s')) with (String d w ++ s'). apply no_drop_app; [|apply IH, N1].
    apply space_solid. cbn [sforall]. rewrite D, W. reflexivity.
Qed.

Theorem relaid_parse s s' : no_dd false s = true -> no_drop s -> relaid s s' -> create_parse s' = create_parse s.
Proof.
  intros D N R. pose proof (relaid_drop s s' R false D) as R'. unfold create_parse, parse_with, drop_lengths, normalize, collapse_ws.
  rewrite (no_dd_drop s D), N. fold (drop_dashes s') in R'. rewrite (respaced_no_drop _ _ R' N), (respaced_collapse _ _ R'). reflexivity.
Qed.

(** ** Reading it from a source *)

Lemma relaid_last x c s' : is_space c = false -> relaid (x ++ String c "") s' -> exists x', s' = x' ++ String c "".
Proof.
  intros C R. remember (x ++ String c "") as s eqn:E. revert x E. induction R as [|d s s' R IH|d w s s' D W R IH]; intros x E.
  - destruct x; discriminate.
  - destruct x as [|y x]; injection E as -> ->; [inversion R; subst; exists ""; reflexivity|]. destruct (IH x eq_refl) as [x' ->]. exists (String y x'). reflexivity.
  - destruct x as [|y x]; [discriminate|]. injection E as -> E. destruct x as [|z x]; cbn [String.append] in E; injection E as <- ->; [discriminate C|].
    destruct (IH x eq_refl) as [x' ->]. exists (String y (w ++ x')). cbn [String.append]. rewrite sapp_assoc. reflexivity.
Qed.
Lemma ends_solid s : s <> "" -> forall w, neat_from w s = true -> exists x c, s = x ++ String c "" /\ is_space c = false.
Proof.
  induction s as [|c s IH]; intros N w H; [contradiction|]. cbn [neat_from] in H. destruct s as [|d s].
  - exists "", c. split; [reflexivity|]. destruct (is_space c); [|reflexivity]. rewrite andb_false_r in H. discriminate H.
  - assert (H' : exists w', neat_from w' (String d s) = true) by (destruct (is_space c); [exists true; apply andb_true_iff in H; apply H|exists false; exact H]).
    destruct H' as [w' H']. destruct (IH ltac:(discriminate) w' H') as (x & e & -> & E). exists (String c x), e. auto.
Qed.
Lemma strip_ends c m e : is_space c = false -> is_space e = false -> strip (String c (m ++ String e "")) = String c (m ++ String e "").
Proof.
  intros C E. unfold strip, strip_by. change (String c (m ++ String e "")) with (String c m ++ String e "").
  assert (R : rstrip_by is_space (String c m ++ String e "") = String c m ++ String e "").
  { generalize (String c m). intros q. induction q as [|d q IH]; [cbn; rewrite E; reflexivity|]. cbn [String.append rstrip_by]. rewrite IH.
    destruct (q ++ String e "") eqn:Z; [destruct q; discriminate|reflexivity]. }
  rewrite R. cbn [String.append lstrip_by]. rewrite C. reflexivity.
Qed.
Lemma relaid_literal K : sforall not_space K = true -> forall s s', relaid s s' -> match_lit K s <> None -> match_lit K s' <> None.
Proof.
  induction K as [|a K IH]; intros H s s' R M; [destruct s'; discriminate|]. cbn [sforall] in H. apply andb_true_iff in H as [A H].
  destruct R as [|c s s' R|c w s s' C W R]; [exact M| |].
  - cbn [match_lit] in *. destruct (Ascii.eqb (to_lower a) (to_lower c)); [|exact M]. apply (IH H s s' R M).
  - cbn [match_lit] in *. destruct (Ascii.eqb (to_lower a) (to_lower c)); [|exact M]. destruct K as [|b K]; [destruct (w ++ s'); discriminate|]. exfalso.
    cbn [match_lit] in M. cbn [sforall] in H. apply andb_true_iff in H as [B _]. apply M.
    replace (Ascii.eqb (to_lower b) (to_lower " ")) with false; [reflexivity|]. clear -B. unfold not_space in B. destruct b as [[|] [|] [|] [|] [|] [|] [|] [|]]; vm_compute in *; congruence.
Qed.
(** The statement begins with CREATE and ends in no white space. *)
Definition begins (s : string) : Prop := match_lit "create" s <> None.
Lemma begins_create s : begins s -> exists c m, s = String c m /\ is_space c = false /\ statement_of s = SCreate.
Proof.
  unfold begins. intros M. destruct s as [|c m]; [exfalso; apply M; reflexivity|]. exists c, m. split; [reflexivity|].
  assert (L : Ascii.eqb "c" (to_lower c) = true) by (cbn [match_lit] in M; change (to_lower "c") with "c"%char in M; destruct (Ascii.eqb "c" (to_lower c)); [reflexivity|exfalso; apply M; reflexivity]).
  split; [clear -L; destruct c as [[|] [|] [|] [|] [|] [|] [|] [|]]; vm_compute in *; congruence|].
  unfold statement_of. assert (P : String.prefix "--" (String c m) || String.prefix "/*" (String c m) || String.prefix "#" (String c m) = false).
  { clear -L. destruct c as [[|] [|] [|] [|] [|] [|] [|] [|]]; vm_compute in L; try discriminate L; reflexivity. }
  rewrite P. destruct (match_lit "create" (String c m)); [reflexivity|contradiction].
Qed.
Lemma create_ends T semi s : create_written T semi s -> begins s /\ exists x c, s = x ++ String c "" /\ is_space c = false.
Proof.
  intros [h w0 w1 w2 parts ss So Hh F Ec Ek Ef Fo W0 W1 W1n W2]. split.
  - destruct Hh as [k j tick K _ _]. unfold begins. intros N. apply (match_none_app "create" " table") in N. rewrite !sapp_assoc in N.
    rewrite match_lit_app in N by (unfold spelled in K; rewrite K; reflexivity). discriminate N.
  - destruct (after_strip (tm_options T) (RoundTable.stop semi) "" semi (stop_end semi) Fo) as [An _].
    assert (Z : neat_from false (")" ++ after_defs (tm_options T) (RoundTable.stop semi)) = true) by exact An.
    destruct (ends_solid (")" ++ after_defs (tm_options T) (RoundTable.stop semi)) ltac:(discriminate) false Z) as (x & c & E & C).
    exists (h ++ " (" ++ w0 ++ join ("," ++ w1) ss ++ w2 ++ x), c. split; [|exact C]. rewrite !sapp_assoc. do 5 f_equal. rewrite <- E.
    unfold after_defs. rewrite options_as. unfold RoundTable.stop. repeat (cbn [String.append]; rewrite ?sapp_assoc). reflexivity.
Qed.

Lemma read_statement file s t : begins s -> (exists x c, s = x ++ String c "" /\ is_space c = false) -> create_parse s = Ok (Some t, "") ->
  read_sql file s = (mkReader [(t_name t, t)] [] [] true, Ok "").
Proof.
  intros B (x & e & E & Se) P. destruct (begins_create s B) as (c & m & Ec & Sc & St).
  assert (S : strip s = s).
  { destruct x as [|d x]; cbn [String.append] in E; [rewrite E; unfold strip, strip_by; cbn; rewrite Se; cbn; rewrite Se; reflexivity|].
    rewrite E in *. injection Ec as -> _. apply strip_ends; assumption. }
  assert (N : is_empty s = false) by (rewrite Ec; reflexivity).
  unfold read_sql. pose proof statements_enough as L. destruct max_statements as [|[|n]]; [lia|lia|]. clear L.
  cbn [read_loop]. rewrite N, S, N, St, P. reflexivity.
Qed.

(** A source that holds one statement. *)
Theorem source_parse T semi s' : source_of T semi s' -> exists t, create_parse s' = Ok (Some t, "") /\ read_table t T semi
  /\ forall file, read_sql file s' = (mkReader [(t_name t, t)] [] [] true, Ok "").
Proof.
  intros (s & W & R). destruct (create_written_read T semi s W) as (t & P & Rt & D & N). exists t.
  assert (P' : create_parse s' = Ok (Some t, "")) by (rewrite <- P; apply relaid_parse; assumption). split; [exact P'|]. split; [exact Rt|].
  intros file. destruct (create_ends T semi s W) as [B (x & c & -> & C)]. apply read_statement; [|destruct (relaid_last x c s' C R) as [x' ->]; eauto|exact P'].
  apply (relaid_literal "create" eq_refl _ _ R B).
Qed.
