(** Lemmas about reading configuration. *)
From Verif Require Export Dotenv StrFacts ReadMore.

Lemma rstrip_pad p a w : sforall p w = true -> rstrip_by p (a ++ w) = rstrip_by p a.
Proof.
  intros W. assert (E : rstrip_by p w = "").
  { induction w as [|c w IH]; [reflexivity|]. simpl in *. apply andb_true_iff in W as [Wc W]. rewrite (IH W), Wc. reflexivity. }
  induction a as [|c a IH]; simpl; [exact E|]. rewrite IH. reflexivity.
Qed.
Lemma rstrip_keep p a c t : p c = false -> rstrip_by p (a ++ String c t) = a ++ String c (rstrip_by p t).
Proof.
  intros P. assert (E : rstrip_by p (String c t) = String c (rstrip_by p t)).
  { simpl. rewrite P. destruct (rstrip_by p t); reflexivity. }
  rewrite rstrip_app; rewrite E; [reflexivity|discriminate].
Qed.
Lemma lstrip_pad p w a : sforall p w = true -> lstrip_by p (w ++ a) = lstrip_by p a.
Proof. induction w as [|c w IH]; simpl; [reflexivity|]. rewrite andb_true_iff. intros [-> H]. apply IH, H. Qed.
Lemma strip_pad w1 w2 a : sforall is_space w1 = true -> sforall is_space w2 = true -> strip a = a -> strip (w1 ++ a ++ w2) = a.
Proof.
  intros W1 W2 A. unfold strip, strip_by in *. rewrite <- sapp_assoc, rstrip_pad by exact W2.
  destruct a as [|c a].
  - rewrite sapp_nil_r. change w1 with ("" ++ w1). rewrite rstrip_pad by exact W1. reflexivity.
  - rewrite rstrip_app; [|intros Z; rewrite Z in A; discriminate]. rewrite lstrip_pad by exact W1. exact A.
Qed.
(** From a first visible character to a last one. *)
Lemma strip_keep w c b d t : sforall is_space w = true -> is_space c = false -> is_space d = false ->
  strip (w ++ String c (b ++ String d t)) = String c (b ++ String d (rstrip_by is_space t)).
Proof.
  intros W C D. unfold strip, strip_by. change (String c (b ++ String d t)) with ((String c b) ++ String d t).
  rewrite <- sapp_assoc, rstrip_keep by exact D. rewrite sapp_assoc, lstrip_pad by exact W. simpl. rewrite C. reflexivity.
Qed.
Lemma rstrip_all p w : sforall p w = true -> rstrip_by p w = "".
Proof. intros H. exact (rstrip_pad p "" w H). Qed.

Lemma stake_app a b : stake (String.length a) (a ++ b) = a.
Proof. induction a as [|c a IH]; simpl; [destruct b; reflexivity|]. rewrite IH. reflexivity. Qed.
Lemma stake_app_more n a b : stake (String.length a + n) (a ++ b) = a ++ stake n b.
Proof. induction a as [|c a IH]; simpl; [reflexivity|]. rewrite IH. reflexivity. Qed.

Lemma sindex_char c s : has_char c s = false -> sindex (String c "") s = None.
Proof.
  unfold has_char. induction s as [|d s IH]; [reflexivity|]. simpl. rewrite orb_false_iff. intros [E H].
  destruct (ascii_dec c d) as [->|_]; [rewrite Ascii.eqb_refl in E; discriminate|]. rewrite (IH H). reflexivity.
Qed.
Lemma sindex_char_at c a b : has_char c a = false -> sindex (String c "") (a ++ String c b) = Some (String.length a).
Proof.
  unfold has_char. induction a as [|d a IH]; simpl.
  - intros _. destruct (ascii_dec c c) as [_|N]; [destruct b; reflexivity|contradiction].
  - rewrite orb_false_iff. intros [E H]. destruct (ascii_dec c d) as [->|_]; [rewrite Ascii.eqb_refl in E; discriminate|].
    rewrite (IH H). reflexivity.
Qed.

Lemma closing_plain q v : forall prev i r, has_char q v = false -> has_char backslash v = false -> prev <> backslash ->
  closing q prev i (v ++ String q r) = Some (i + String.length v).
Proof.
  unfold has_char. induction v as [|c v IH]; intros prev i r Q B P; simpl.
  - rewrite Ascii.eqb_refl. destruct (Ascii.eqb_spec prev backslash); [contradiction|]. simpl. f_equal. lia.
  - simpl in Q, B. apply orb_false_iff in Q as [Q1 Q], B as [B1 B].
    rewrite (Ascii.eqb_sym c q), Q1. simpl. rewrite IH; [f_equal; lia|exact Q|exact B|].
    intros ->. discriminate.
Qed.
Lemma replace2_none o1 o2 n s : has_char o1 s = false -> replace2 o1 o2 n s = s.
Proof.
  unfold has_char. induction s as [|c s IH]; [reflexivity|]. cbn [replace2 sexists]. rewrite orb_false_iff. intros [E H].
  destruct s as [|d s']; [reflexivity|]. rewrite (Ascii.eqb_sym c o1), E. cbn [andb]. rewrite (IH H). reflexivity.
Qed.
Lemma span_all p s : sforall p s = true -> span p s = (s, "").
Proof. induction s as [|c s IH]; simpl; [reflexivity|]. rewrite andb_true_iff. intros [-> H]. rewrite (IH H). reflexivity. Qed.

(** ** A line with a key *)

(** A key: visible at both ends, no separator, no comment sign in front. *)
Record good_key (k : string) : Prop := {
  gk_some : k <> "";
  gk_strip : strip k = k;
  gk_sep : forall c, c = "="%char \/ c = ":"%char -> has_char c k = false;
  gk_comment : String.prefix "#" k = false
}.
Definition separator (c : ascii) : Prop := c = "="%char \/ c = ":"%char.

Lemma strip_first c s : strip (String c s) = String c s -> is_space c = false.
Proof.
  unfold strip, strip_by. intros H. destruct (is_space c) eqn:E; [|reflexivity]. exfalso.
  simpl in H. destruct (rstrip_by is_space s) as [|d r] eqn:R.
  - rewrite E in H. discriminate.
  - cbn [lstrip_by] in H. rewrite E in H. pose proof (strip_le s) as L. unfold strip, strip_by in L. rewrite R in L.
    cbn [lstrip_by] in L. rewrite H in L. simpl in L. lia.
Qed.

(** Every line [w0 key w1 sep value], cut into key and value. *)
Lemma parse_line_cut w0 key w1 sep rest : sforall is_space w0 = true -> sforall is_space w1 = true -> good_key key -> separator sep ->
  has_char line_break rest = false ->
  exists clean, strip (w0 ++ key ++ w1 ++ String sep rest) = clean
    /\ String.eqb (stake 1 clean) "#" = false /\ is_empty clean = false
    /\ exists k0 k1, span (fun c => negb (Ascii.eqb c "=" || Ascii.eqb c ":")) clean = (String k0 k1, String sep (rstrip_by is_space rest))
    /\ strip (String k0 k1) = key
    /\ fst (span (fun c => negb (Ascii.eqb c line_break)) (rstrip_by is_space rest)) = rstrip_by is_space rest.
Proof.
  intros W0 W1 [K1 K2 K3 K4] Sp L. destruct key as [|c key]; [contradiction|].
  pose proof (strip_first _ _ K2) as C.
  assert (D : is_space sep = false) by (destruct Sp as [->| ->]; reflexivity).
  exists (String c ((key ++ w1) ++ String sep (rstrip_by is_space rest))). split; [|split; [|split; [|exists c, (key ++ w1); split; [|split]]]].
  - rewrite <- (strip_keep w0 c (key ++ w1) sep rest W0 C D). simpl. rewrite sapp_assoc. reflexivity.
  - simpl in K4. simpl. destruct (ascii_dec "#" c) as [<-|N]; [destruct key; discriminate|].
    destruct (Ascii.eqb_spec c "#"); [congruence|reflexivity].
  - reflexivity.
  - change (String c ((key ++ w1) ++ String sep (rstrip_by is_space rest))) with ((String c (key ++ w1)) ++ String sep (rstrip_by is_space rest)).
    apply span_app.
    + change (String c (key ++ w1)) with (String c key ++ w1). rewrite sforall_app, andb_true_iff. split.
      * assert (X : forall s, sforall (fun x => negb (Ascii.eqb x "=" || Ascii.eqb x ":")) s = negb (has_char "=" s || has_char ":" s)).
        { unfold has_char. induction s as [|x s IH]; [reflexivity|]. cbn [sforall sexists]. rewrite IH, (Ascii.eqb_sym x "="), (Ascii.eqb_sym x ":").
          destruct (Ascii.eqb "=" x), (Ascii.eqb ":" x), (sexists (Ascii.eqb "=") s), (sexists (Ascii.eqb ":") s); reflexivity. }
        rewrite X, (K3 "="%char (or_introl eq_refl)), (K3 ":"%char (or_intror eq_refl)). reflexivity.
      * revert W1. apply sforall_imp. intros x Hx. destruct (Ascii.eqb_spec x "=") as [->|_]; [discriminate|].
        destruct (Ascii.eqb_spec x ":") as [->|_]; [discriminate|reflexivity].
    + destruct Sp as [->| ->]; reflexivity.
  - change (String c (key ++ w1)) with ("" ++ String c key ++ w1). apply strip_pad; [reflexivity|exact W1|exact K2].
  - rewrite span_all; [reflexivity|]. clear - L. unfold has_char in L. induction rest as [|x r IH]; [reflexivity|].
    cbn [rstrip_by sexists] in *. apply orb_false_iff in L as [L1 L2]. specialize (IH L2). rewrite (Ascii.eqb_sym line_break x) in L1.
    destruct (rstrip_by is_space r) eqn:R; [destruct (is_space x); [reflexivity|cbn [sforall]; rewrite L1; reflexivity]|].
    cbn [sforall] in *. rewrite L1. exact IH.
Qed.

(** What may follow the closing quote: white space, or a semicolon with white space around it. *)
Definition blank_or_semicolon (t : string) : Prop :=
  sforall is_space t = true \/ exists a b, t = a ++ ";" ++ b /\ sforall is_space a = true /\ sforall is_space b = true.

Lemma bos_tail t : blank_or_semicolon t -> rstrip_by is_space t = "" \/ strip (rstrip_by is_space t) = ";".
Proof.
  intros [H|(a & b & -> & A & B)]; [left; apply rstrip_all, H|right].
  rewrite strip_rstrip. change (";" ++ b) with (";" ++ b). apply (strip_pad a b ";" A B). reflexivity.
Qed.
Lemma space_no c w : is_space c = false -> sforall is_space w = true -> has_char c w = false.
Proof.
  intros C. unfold has_char. induction w as [|d w IH]; [reflexivity|]. cbn [sforall sexists]. rewrite andb_true_iff. intros [D H].
  rewrite (IH H). destruct (Ascii.eqb_spec c d) as [->|_]; [congruence|reflexivity].
Qed.
Lemma bos_no_hash t : blank_or_semicolon t -> has_char "#" t = false.
Proof.
  intros [H|(a & b & -> & A & B)]; [apply space_no; auto|]. rewrite !has_char_app.
  rewrite (space_no "#" a), (space_no "#" b); auto.
Qed.
Lemma rstrip_has c p s : has_char c s = false -> has_char c (rstrip_by p s) = false.
Proof.
  unfold has_char. induction s as [|d s IH]; [auto|]. cbn [rstrip_by sexists]. rewrite orb_false_iff. intros [D H]. specialize (IH H).
  destruct (rstrip_by p s); [destruct (p d); [reflexivity|cbn [sexists]; rewrite D; reflexivity]|]. cbn [sexists] in *. rewrite D. exact IH.
Qed.

Lemma sindex_from_app sub a b : sindex_from sub (a ++ b) (String.length a) = option_map (Nat.add (String.length a)) (sindex sub b).
Proof. unfold sindex_from. rewrite sdrop_app. reflexivity. Qed.

Lemma quoted_line q w0 key w1 sep w2 v tail post :
  q = squote \/ q = dquote -> sforall is_space w0 = true -> sforall is_space w1 = true -> sforall is_space w2 = true ->
  has_char line_break w2 = false -> good_key key -> separator sep ->
  has_char q v = false -> has_char backslash v = false -> has_char line_break v = false ->
  blank_or_semicolon tail -> has_char line_break tail = false ->
  (post = "" \/ (exists c, post = String "#" c /\ has_char line_break c = false) /\ starts (fun c => negb (is_space c)) v = true) ->
  parse_line "#" (w0 ++ key ++ w1 ++ String sep (w2 ++ String q (v ++ String q (tail ++ post)))) = Ok (Some (key, v)).
Proof.
  intros Q W0 W1 W2 L2 K Sp Qv Bv Lv T Lt Po.
  assert (Qs : is_space q = false) by (destruct Q as [->| ->]; reflexivity).
  assert (Lq : Ascii.eqb line_break q = false) by (destruct Q as [->| ->]; reflexivity).
  assert (Lp : has_char line_break post = false).
  { destruct Po as [->|[(c & -> & Lc) _]]; [reflexivity|exact Lc]. }
  set (rest := w2 ++ String q (v ++ String q (tail ++ post))).
  assert (Lr : has_char line_break rest = false).
  { unfold rest, has_char in *. rewrite sexists_app. cbn [sexists]. rewrite sexists_app. cbn [sexists]. rewrite sexists_app.
    rewrite L2, Lv, Lt, Lp, Lq. reflexivity. }
  destruct (parse_line_cut w0 key w1 sep rest W0 W1 K Sp Lr) as (clean & Ec & C1 & C2 & k0 & k1 & Es & Ek & Ev).
  unfold parse_line. rewrite Ec. change (String.length "#") with 1. rewrite C1, C2, Es, Ek, Ev. rewrite strip_rstrip.
  set (rt := rstrip_by is_space (tail ++ post)).
  assert (Er : strip rest = String q (v ++ String q rt)).
  { unfold rest, rt. apply (strip_keep w2 q v q (tail ++ post)); auto. }
  rewrite Er. clear Ec C1 C2 Es Ek Ev Lr Er.
  replace (negb (Ascii.eqb q squote) && negb (Ascii.eqb q dquote)) with false by (destruct Q as [->| ->]; reflexivity).
  replace (has_char q (v ++ String q rt)) with true.
  2:{ unfold has_char. rewrite sexists_app. cbn [sexists]. rewrite Ascii.eqb_refl, orb_true_r. reflexivity. }
  cbn [negb]. destruct v as [|c v']; [simpl String.append; cbv iota; rewrite Ascii.eqb_refl; reflexivity|].
  change (String c v' ++ String q rt) with (String c (v' ++ String q rt)). cbv iota.
  pose proof Qv as Qv0. pose proof Bv as Bv0. unfold has_char in Qv0, Bv0. cbn [sexists] in Qv0, Bv0.
  apply orb_false_iff in Qv0 as [Qc Qv'], Bv0 as [Bc Bv']. rewrite (Ascii.eqb_sym c q), Qc.
  rewrite (closing_plain q v' c 1 rt Qv' Bv'); [|intros ->; discriminate].
  change (1 + String.length v') with (String.length (String c v')).
  change (String c (v' ++ String q rt)) with (String c v' ++ String q rt). remember (String c v') as v eqn:Hv.
  rewrite sindex_from_app.
  assert (X : exists r', (match option_map (Nat.add (String.length v)) (sindex "#" (String q rt)) with
                          | Some i => strip (stake i (v ++ String q rt)) | None => v ++ String q rt end) = v ++ String q r'
                         /\ (r' = "" \/ strip r' = ";")).
  { assert (Hq : Ascii.eqb "#" q = false) by (destruct Q as [->| ->]; reflexivity).
    destruct Po as [->|[(cm & -> & Lc) St]].
    - unfold rt. rewrite sapp_nil_r. rewrite (sindex_char "#").
      + exists (rstrip_by is_space tail). split; [reflexivity|]. apply bos_tail, T.
      + unfold has_char. cbn [sexists]. rewrite Hq. apply rstrip_has, bos_no_hash, T.
    - unfold rt. rewrite rstrip_keep by reflexivity.
      change (String q (tail ++ String "#" (rstrip_by is_space cm))) with (String q tail ++ String "#" (rstrip_by is_space cm)).
      rewrite sindex_char_at.
      + cbn [option_map]. exists (rstrip_by is_space tail). split; [|apply bos_tail, T].
        rewrite <- sapp_assoc, <- slength_app, stake_app. rewrite Hv in *. cbn [starts] in St. apply negb_true_iff in St.
        apply (strip_keep "" c v' q tail); auto.
      + unfold has_char. cbn [sexists]. rewrite Hq. apply bos_no_hash, T. }
  destruct X as (r' & -> & R).
  replace (Nat.ltb (String.length v + 1) (String.length (v ++ String q r')) && negb (String.eqb (strip (sdrop (String.length v + 1) (v ++ String q r'))) ";")) with false.
  - rewrite stake_app. rewrite replace2_none by exact Bv. reflexivity.
  - destruct R as [->|R].
    + rewrite slength_app. cbn [String.length]. rewrite Nat.ltb_irrefl. reflexivity.
    + replace (v ++ String q r') with ((v ++ String q "") ++ r') by (rewrite sapp_assoc; reflexivity).
      replace (String.length v + 1) with (String.length (v ++ String q "")) by (rewrite slength_app; reflexivity).
      rewrite sdrop_app, R, andb_false_r. reflexivity.
Qed.

(** ** Unquoted values *)

Lemma unquoted_line w0 key w1 sep v post :
  sforall is_space w0 = true -> sforall is_space w1 = true -> good_key key -> separator sep ->
  has_char squote v = false -> has_char dquote v = false -> has_char "#" v = false -> has_char line_break v = false ->
  (post = "" \/ exists c, post = String "#" c /\ has_char line_break c = false) ->
  parse_line "#" (w0 ++ key ++ w1 ++ String sep (v ++ post)) = Ok (Some (key, strip v)).
Proof.
  intros W0 W1 K Sp Sv Dv Hv Lv Po.
  assert (Lr : has_char line_break (v ++ post) = false).
  { rewrite has_char_app, Lv. destruct Po as [->|(c & -> & Lc)]; [reflexivity|exact Lc]. }
  destruct (parse_line_cut w0 key w1 sep (v ++ post) W0 W1 K Sp Lr) as (clean & Ec & C1 & C2 & k0 & k1 & Es & Ek & Ev).
  unfold parse_line. rewrite Ec. change (String.length "#") with 1. rewrite C1, C2, Es, Ek, Ev. rewrite strip_rstrip.
  clear Ec C1 C2 Es Ek Ev Lr.
  assert (N : forall q, has_char q v = false -> has_char q (strip v) = false).
  { intros q H. unfold strip, strip_by. pose proof (rstrip_has q is_space v H) as R. clear - R. unfold has_char in *.
    induction (rstrip_by is_space v) as [|c s IH]; [reflexivity|]. cbn [lstrip_by sexists] in *. apply orb_false_iff in R as [R1 R].
    destruct (is_space c); [auto|cbn [sexists]; rewrite R1, R; reflexivity]. }
  destruct Po as [->|(cm & -> & Lc)].
  - rewrite sapp_nil_r. destruct (strip v) as [|q v'] eqn:E; [reflexivity|].
    pose proof (N squote Sv) as N1. pose proof (N dquote Dv) as N2. pose proof (N "#"%char Hv) as N3.
    unfold has_char in N1, N2. cbn [sexists] in N1, N2. apply orb_false_iff in N1 as [N1 N1'], N2 as [N2 N2'].
    rewrite (Ascii.eqb_sym q squote), (Ascii.eqb_sym q dquote), N1, N2. cbn [negb andb].
    rewrite (sindex_char "#" _ N3). unfold has_char. cbn [sexists]. rewrite N1, N2, N1', N2'. reflexivity.
  - assert (Ex : strip (v ++ String "#" cm) = lstrip_by is_space v ++ String "#" (rstrip_by is_space cm)).
    { unfold strip, strip_by. rewrite rstrip_keep by reflexivity. clear. induction v as [|c v IH]; [reflexivity|].
      simpl. destruct (is_space c); [exact IH|reflexivity]. }
    rewrite Ex.
    assert (N' : forall q, has_char q v = false -> has_char q (lstrip_by is_space v) = false).
    { clear. intros q. unfold has_char. induction v as [|c s IH]; [auto|]. cbn [lstrip_by sexists]. rewrite orb_false_iff. intros [R1 R].
      destruct (is_space c); [auto|cbn [sexists]; rewrite R1, R; reflexivity]. }
    destruct (lstrip_by is_space v) as [|q v'] eqn:E.
    + cbn [String.append]. change (negb (Ascii.eqb "#" squote) && negb (Ascii.eqb "#" dquote)) with true. cbv iota.
      replace (sindex "#" (String "#" (rstrip_by is_space cm))) with (Some 0) by (symmetry; exact (sindex_char_at "#" "" _ eq_refl)).
      assert (Z : strip v = ""). { rewrite <- strip_rstrip. unfold strip, strip_by. rewrite rstrip_idem.
        assert (G : forall s, lstrip_by is_space s = "" -> rstrip_by is_space s = "").
        { clear. induction s as [|c s IH]; [auto|]. simpl. destruct (is_space c); [intros H; rewrite (IH H); reflexivity|discriminate]. }
        rewrite (G v E). reflexivity. }
      rewrite Z. reflexivity.
    + pose proof (N' squote Sv) as N1. pose proof (N' dquote Dv) as N2. pose proof (N' "#"%char Hv) as N3.
      change (String q v' ++ String "#" (rstrip_by is_space cm)) with (String q (v' ++ String "#" (rstrip_by is_space cm))). cbv iota.
      pose proof N1 as M1. pose proof N2 as M2. unfold has_char in M1, M2. cbn [sexists] in M1, M2. apply orb_false_iff in M1 as [M1 _], M2 as [M2 _].
      rewrite (Ascii.eqb_sym q squote), (Ascii.eqb_sym q dquote), M1, M2. cbn [negb andb].
      change (String q (v' ++ String "#" (rstrip_by is_space cm))) with (String q v' ++ String "#" (rstrip_by is_space cm)).
      rewrite (sindex_char_at "#" (String q v') _ N3), stake_app. rewrite <- E.
      assert (Y : strip (lstrip_by is_space v) = strip v).
      { clear. assert (G : forall s, lstrip_by is_space (rstrip_by is_space (lstrip_by is_space s)) = lstrip_by is_space (rstrip_by is_space s)).
        { induction s as [|c s IH]; [reflexivity|]. simpl. destruct (is_space c) eqn:S.
          - rewrite IH. destruct (rstrip_by is_space s) eqn:R; [reflexivity|]. simpl. rewrite S. reflexivity.
          - simpl. rewrite S. reflexivity. }
        exact (G v). }
      rewrite Y, (N squote Sv), (N dquote Dv). reflexivity.
Qed.
