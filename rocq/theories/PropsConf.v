(** C61-C65 and C69: configuration. *)
From Verif Require Import ConfFacts NumFacts.

(** ** C61 *)

(** Full statement: also for values with white space in front and a comment behind.  False, see
    [C61_refuted].  [w0], [w1], [w2] are white space; behind the closing quote there may be white
    space and a semicolon; a comment may follow if the value does not start with white space. *)
Theorem C61_quoted_value_partial : forall q w0 key w1 sep w2 v tail post,
  q = squote \/ q = dquote -> sforall is_space w0 = true -> sforall is_space w1 = true -> sforall is_space w2 = true ->
  has_char line_break w2 = false -> good_key key -> separator sep ->
  has_char q v = false -> has_char backslash v = false -> has_char line_break v = false ->
  blank_or_semicolon tail -> has_char line_break tail = false ->
  (post = "" \/ (exists c, post = String "#" c /\ has_char line_break c = false) /\ starts (fun c => negb (is_space c)) v = true) ->
  parse_line "#" (w0 ++ key ++ w1 ++ String sep (w2 ++ String q (v ++ String q (tail ++ post)))) = Ok (Some (key, v)).
Proof. exact quoted_line. Qed.
Example ex_C61 : parse_line "#" " KEY = 'a # ""b"": c= ' ; # note's" = Ok (Some ("KEY", "a # ""b"": c= ")) /\ good_key "KEY"
  /\ blank_or_semicolon " ; ".
Proof.
  split; [reflexivity|]. split; [constructor; [discriminate|reflexivity|intros c [->| ->]; reflexivity|reflexivity]|].
  right. exists " ", " ". repeat split.
Qed.
Theorem C61_refuted : parse_line "#" "KEY=' v' # note" = Ok (Some ("KEY", "v'"))
  /\ parse_line "#" "KEY=' v'" = Ok (Some ("KEY", " v")).
Proof. split; reflexivity. Qed.
(** The empty value is not stored at all. *)
Theorem C61_refuted_empty : forall loads, loads "KEY=''" = None -> parse_text loads "#" "KEY=''" = Ok [].
Proof. intros loads E. unfold parse_text. rewrite E. reflexivity. Qed.

(** ** C62 *)

Definition ignored (line : string) : Prop := strip line = "" \/ String.prefix "#" (strip line) = true.
Theorem C62_ignored_lines : forall line, ignored line ->
  parse_line "#" line = Ok None
  /\ forall l1 l2, parse_lines "#" (l1 +++ line :: l2) = parse_lines "#" (l1 +++ l2).
Proof.
  intros line I. assert (E : parse_line "#" line = Ok None).
  { unfold parse_line. destruct I as [->|P]; [reflexivity|]. apply prefix_iff in P as (b & ->). simpl. destruct b; reflexivity. }
  split; [exact E|]. intros l1 l2. unfold parse_lines. rewrite !foldM_app. destruct (foldM (put_line "#") l1 []) as [d|]; [|reflexivity].
  simpl. unfold put_line at 1. rewrite E. reflexivity.
Qed.
Example ex_C62_ignored : ignored "   " /\ ignored "  # A=1".
Proof. split; [left|right]; reflexivity. Qed.

Theorem C62_unquoted_value : forall w0 key w1 sep v post,
  sforall is_space w0 = true -> sforall is_space w1 = true -> good_key key -> separator sep ->
  has_char squote v = false -> has_char dquote v = false -> has_char "#" v = false -> has_char line_break v = false ->
  (post = "" \/ exists c, post = String "#" c /\ has_char line_break c = false) ->
  parse_line "#" (w0 ++ key ++ w1 ++ String sep (v ++ post)) = Ok (Some (key, strip v)).
Proof. exact unquoted_line. Qed.
Example ex_C62_unquoted : parse_line "#" " my key : a b=c  # it's" = Ok (Some ("my key", "a b=c")).
Proof. reflexivity. Qed.

(** A text is read line by line unless it is JSON. *)
Lemma split_join c l : l <> [] -> (forall x, In x l -> has_char c x = false) -> split_char c (join (String c "") l) = l.
Proof.
  intros N H. induction l as [|x l IH]; [contradiction|].
  assert (G : forall x r, has_char c x = false -> split_char c (x ++ String c r) = x :: split_char c r).
  { clear. unfold has_char. induction x as [|d x IH]; intros r E.
    - cbn [String.append split_char]. rewrite Ascii.eqb_refl. reflexivity.
    - cbn [sexists] in E. apply orb_false_iff in E as [E1 E]. cbn [String.append split_char]. rewrite E1, (IH r E). reflexivity. }
  assert (G1 : forall x, has_char c x = false -> split_char c x = [x]).
  { clear. unfold has_char. induction x as [|d x IH]; [reflexivity|]. cbn [sexists split_char]. rewrite orb_false_iff. intros [E1 E].
    rewrite E1, (IH E). reflexivity. }
  destruct l as [|y l]; [apply G1, H; left; reflexivity|]. rewrite join_cons by discriminate.
  change (String c "" ++ join (String c "") (y :: l)) with (String c (join (String c "") (y :: l))).
  rewrite G by (apply H; left; reflexivity). rewrite IH; [reflexivity|discriminate|]. intros z Z. apply H. right. exact Z.
Qed.
Theorem C62_text_lines : forall loads lines, lines <> [] -> (forall x, In x lines -> has_char line_break x = false) ->
  let text := join (String line_break "") lines in
  (loads text = None \/ loads text = Some JFalsy) -> parse_text loads "#" text = parse_lines "#" lines.
Proof.
  intros loads lines N H text L. unfold parse_text. unfold text in *. rewrite (split_join _ _ N H).
  destruct L as [->| ->]; reflexivity.
Qed.

(** Full statement: the last assignment wins.  False when its value is empty, see [C62_refuted].
    Proved: the last assignment of a non-empty value wins, and there are no other entries. *)
Theorem C62_last_assignment_partial : forall lines d, parse_lines "#" lines = Ok d -> forall k v,
  dget k d = Some v <->
  exists l1 line l2 s, lines = l1 +++ line :: l2 /\ parse_line "#" line = Ok (Some (k, s)) /\ k <> "" /\ s <> ""
    /\ v = CStr s /\ forall x s', In x l2 -> parse_line "#" x = Ok (Some (k, s')) -> s' = "".
Proof.
  intros lines. induction lines as [|line lines IH] using rev_ind; intros d E k v.
  - injection E as <-. split; [discriminate|]. intros (l1 & line & l2 & s & Z & _). destruct l1; discriminate.
  - unfold parse_lines in E. rewrite foldM_app in E. destruct (foldM (put_line "#") lines []) as [d0|] eqn:E0; [|discriminate].
    cbn [bind foldM] in E. specialize (IH d0 E0). unfold put_line in E. destruct (parse_line "#" line) as [p|] eqn:Ep; [|discriminate].
    cbn [bind] in E. injection E as E.
    assert (Keep : dget k d = dget k d0 -> (forall s', p = Some (k, s') -> s' = "" \/ k = "") ->
      (dget k d = Some v <-> exists l1 x l2 s, lines +++ [line] = l1 +++ x :: l2 /\ parse_line "#" x = Ok (Some (k, s)) /\ k <> "" /\ s <> ""
        /\ v = CStr s /\ forall y s', In y l2 -> parse_line "#" y = Ok (Some (k, s')) -> s' = "")).
    { intros G Np. rewrite G, IH. split.
      - intros (l1 & x & l2 & s & -> & P1 & P2 & P3 & P4 & P5). exists l1, x, (l2 +++ [line]), s.
        split; [rewrite <- app_assoc; reflexivity|]. repeat (split; [assumption|]). intros y s' Hy Y. apply in_app_iff in Hy as [Hy|[<-|[]]]; [eauto|].
        rewrite Ep in Y. injection Y as ->. destruct (Np s' eq_refl); [assumption|contradiction].
      - intros (l1 & x & l2 & s & Z & P1 & P2 & P3 & P4 & P5). destruct l2 as [|y l2] using rev_ind.
        + apply app_inj_tail in Z as [-> ->]. rewrite Ep in P1. injection P1 as ->. destruct (Np s eq_refl); contradiction.
        + clear IHl2. rewrite app_comm_cons, app_assoc in Z. apply app_inj_tail in Z as [-> <-]. exists l1, x, l2, s.
          split; [reflexivity|]. repeat (split; [assumption|]). intros z s' Hz. apply P5. apply in_app_iff. left. exact Hz. }
    destruct p as [[k0 v0]|]; [|subst d; apply Keep; [reflexivity|discriminate]].
    destruct (is_empty k0 || is_empty v0) eqn:Em.
    + subst d. apply Keep; [reflexivity|]. intros s' [= -> ->]. apply orb_true_iff in Em as [Em|Em]; apply is_empty_iff in Em; auto.
    + apply orb_false_iff in Em as [Ek Ev]. destruct (String.eqb_spec k k0) as [->|N].
      * subst d. rewrite dget_dset. simpl. rewrite String.eqb_refl. split.
        -- intros [= <-]. exists lines, line, [], v0. split; [reflexivity|]. split; [exact Ep|].
           split; [intros ->; discriminate|]. split; [intros ->; discriminate|]. split; [reflexivity|]. intros x s' [].
        -- intros (l1 & x & l2 & s & Z & P1 & P2 & P3 & P4 & P5). destruct l2 as [|y l2] using rev_ind.
           ++ apply app_inj_tail in Z as [-> ->]. rewrite Ep in P1. injection P1 as <-. congruence.
           ++ clear IHl2. rewrite app_comm_cons, app_assoc in Z. apply app_inj_tail in Z as [-> <-].
              assert (v0 = ""). { apply (P5 line); [apply in_app_iff; right; left; reflexivity|exact Ep]. } subst. discriminate.
      * apply Keep; [|intros s' [= -> _]; contradiction]. subst d. rewrite dget_dset. simpl.
        destruct (String.eqb_spec k k0); [contradiction|reflexivity].
Qed.
Example ex_C62 : parse_lines "#" ["A=1"; "# A=2"; ""; "B='x' ; # y"; "A : 3"] = Ok [("A", CStr "3"); ("B", CStr "x")].
Proof. reflexivity. Qed.
Theorem C62_refuted : parse_lines "#" ["A=1"; "A="] = Ok [("A", CStr "1")] /\ parse_line "#" "A=" = Ok (Some ("A", "")).
Proof. split; reflexivity. Qed.

(** ** C63 *)

Definition inside (a s : string) : Prop := exists u v, s = u ++ a ++ v.
Lemma inside_refl s : inside s s.
Proof. exists "", "". rewrite sapp_nil_r. reflexivity. Qed.
Lemma inside_trans a b c : inside a b -> inside b c -> inside a c.
Proof. intros (u & v & ->) (u' & v' & ->). exists (u' ++ u), (v ++ v'). rewrite !sapp_assoc. reflexivity. Qed.
Lemma inside_lstrip p s : inside (lstrip_by p s) s.
Proof. induction s as [|c s IH]; [apply inside_refl|]. cbn [lstrip_by]. destruct (p c); [|apply inside_refl]. destruct IH as (u & v & E). exists (String c u), v. cbn. rewrite <- E. reflexivity. Qed.
Lemma inside_rstrip p s : inside (rstrip_by p s) s.
Proof.
  exists "". induction s as [|c s (v & IH)]; [exists ""; reflexivity|]. cbn [rstrip_by]. destruct (rstrip_by p s) as [|d r] eqn:E.
  - destruct (p c); [exists (String c s)|exists s]; reflexivity.
  - exists v. cbn. cbn in IH. rewrite <- IH. reflexivity.
Qed.
Lemma inside_strip s : inside (strip s) s.
Proof. unfold strip, strip_by. eapply inside_trans; [apply inside_lstrip|apply inside_rstrip] || (eapply inside_trans; [apply inside_rstrip|apply inside_lstrip]). Qed.
Lemma inside_tail c s : inside s (String c s).
Proof. exists (String c ""), "". rewrite sapp_nil_r. reflexivity. Qed.
Lemma inside_fst p s a b : span p s = (a, b) -> inside a s.
Proof. intros E. exists "", b. apply span_suffix in E. exact E. Qed.
Lemma inside_snd p s a b : span p s = (a, b) -> inside b s.
Proof. intros E. exists a, "". rewrite sapp_nil_r. apply span_suffix in E. exact E. Qed.

(** There is a quote but none closes: an escaped one. *)
Lemma closing_escaped q s : forall prev i, prev <> q -> closing q prev i s = None -> has_char q s = true ->
  inside (String backslash (String q "")) (String prev s).
Proof.
  unfold has_char. induction s as [|c s IH]; intros prev i P E H; [discriminate|]. cbn [closing] in E. cbn [sexists] in H.
  destruct (Ascii.eqb_spec c q) as [->|N].
  - destruct (Ascii.eqb_spec prev backslash) as [->|N]; [|discriminate]. exists "", s. reflexivity.
  - rewrite (proj2 (Ascii.eqb_neq q c)) in H by congruence. cbn [orb andb] in *.
    eapply inside_trans; [exact (IH c (S i) N E H)|apply inside_tail].
Qed.

Definition escaped_quote (line : string) : Prop :=
  exists q, (q = squote \/ q = dquote) /\ inside (String backslash (String q "")) line.

(** Full statement: a line is read or raises DotEnvSyntaxError.  False, see [C63_refuted].  Proved:
    the only other exception is a ValueError, and only on a line with an escaped quote. *)
Theorem C63_documented_error_partial : forall comment line e, parse_line comment line = Raise e ->
  (exists m, e = DotEnvSyntaxError m) \/ (exists m, e = ValueError m) /\ escaped_quote line.
Proof.
  intros comment line e. unfold parse_line. destruct (String.eqb _ comment); [discriminate|]. destruct (is_empty (strip line)); [discriminate|].
  destruct (span _ (strip line)) as [k rest] eqn:Es. destruct k as [|k0 k]; [intros [= <-]; eauto|]. destruct rest as [|r0 v0]; [intros [= <-]; eauto|].
  destruct (span _ v0) as [v1 r1] eqn:Ev. cbn [fst].
  assert (I : inside (strip v1) line).
  { eapply inside_trans; [apply inside_strip|]. eapply inside_trans; [exact (inside_fst _ _ _ _ Ev)|].
    eapply inside_trans; [apply (inside_tail r0)|]. eapply inside_trans; [exact (inside_snd _ _ _ _ Es)|]. apply inside_strip. }
  destruct (strip v1) as [|q v]; [discriminate|].
  destruct (Ascii.eqb_spec q squote) as [Q1|Q1]; [|destruct (Ascii.eqb_spec q dquote) as [Q2|Q2]]; cbn [negb andb].
  3:{ destruct (sindex comment _) as [i|]; match goal with |- (if ?b then _ else _) = _ -> _ => destruct b end; try discriminate; intros [= <-]; eauto. }
  all: destruct (has_char q v) eqn:Hq; cbn [negb]; [|intros [= <-]; eauto]; destruct v as [|c v]; [discriminate|];
    destruct (Ascii.eqb_spec c q) as [C|C]; [discriminate|]; destruct (closing q c 1 v) as [ix|] eqn:Ec.
  1,3: match goal with |- (if ?b then _ else _) = _ -> _ => destruct b end; try discriminate; intros [= <-]; eauto.
  all: intros [= <-]; right; split; [eauto|]; exists q; split; [auto|].
  all: eapply inside_trans; [apply (closing_escaped q v c 1 C Ec)|eapply inside_trans; [apply inside_tail|exact I]].
  all: unfold has_char in *; cbn [sexists] in Hq; rewrite (proj2 (Ascii.eqb_neq q c)) in Hq by congruence; exact Hq.
Qed.
Example ex_C63 : (exists m, parse_line "#" "A='it" = Raise (DotEnvSyntaxError m)) /\ ~ escaped_quote "A='it".
Proof.
  split; [eexists; reflexivity|]. intros (q & _ & u & v & E).
  assert (H : has_char backslash "A='it" = true). { rewrite E. unfold has_char. rewrite !sexists_app. cbn [sexists]. rewrite Ascii.eqb_refl. apply orb_true_r. }
  discriminate H.
Qed.
Theorem C63_refuted : exists line m, parse_line "#" line = Raise (ValueError m).
Proof. exists ("A='x" ++ String backslash (String squote "")). eexists. reflexivity. Qed.

(** ** C64 *)

(** The setting [s] names the environment entry [v]. *)
Definition named (conf env : config) (s : string) (v : cval) : Prop :=
  exists n, dget s conf = Some (CStr n) /\ dget n env = Some v.
Definition settings : list string := ["hostname_key"; "database_key"; "username_key"; "password_key"].

(** Full statement: without the hypothesis on the settings.  False, see [C64_refuted]: an array or
    object as a setting in a JSON file raises TypeError. *)
Theorem C64_credentials_partial : forall env conf, (forall s t, In s settings -> dget s conf <> Some (CUnhashable t)) ->
  match credentials env conf with
  | Ok d => exists h b u p, named conf env "hostname_key" h /\ named conf env "database_key" b
              /\ named conf env "username_key" u /\ named conf env "password_key" p
              /\ d = [("host", h); ("database", b); ("user", u); ("password", p)]
  | Raise e => (exists m, e = ValueError m) /\ exists s, In s settings /\ forall v, ~ named conf env s v
  end.
Proof.
  intros env conf U. unfold credentials, required. cbn [mapM].
  assert (C : forall k, In k settings -> (exists v, dget k conf = Some v /\ check_required conf k = Ok tt)
      \/ dget k conf = None /\ exists m, check_required conf k = Raise (ValueError m)).
  { intros k _. unfold check_required. destruct (dget k conf) eqn:E; [left|right].
    - eexists. split; [reflexivity|]. rewrite dmem_dget, E. reflexivity.
    - split; [reflexivity|]. rewrite dmem_dget, E. eauto. }
  assert (N : forall k, In k settings -> dget k conf = None -> exists s, In s settings /\ forall v, ~ named conf env s v).
  { intros k K E. exists k. split; [exact K|]. intros v (n & Z & _). congruence. }
  destruct (C "hostname_key") as [(h & Dh & ->)|(Z & m & ->)]; [simpl; tauto| |split; [eauto|apply (N _) in Z; [exact Z|simpl; tauto]]].
  destruct (C "username_key") as [(u & Du & ->)|(Z & m & ->)]; [simpl; tauto| |split; [eauto|apply (N _) in Z; [exact Z|simpl; tauto]]].
  destruct (C "password_key") as [(p & Dp & ->)|(Z & m & ->)]; [simpl; tauto| |split; [eauto|apply (N _) in Z; [exact Z|simpl; tauto]]].
  destruct (C "database_key") as [(b & Db & ->)|(Z & m & ->)]; [simpl; tauto| |split; [eauto|apply (N _) in Z; [exact Z|simpl; tauto]]].
  cbn [bind]. unfold key_map. cbn [mapM].
  assert (F : forall k x v, In k settings -> dget k conf = Some v -> (exists w, named conf env k w /\ fulfil conf env (k, x) = Ok (x, w))
      \/ (exists m, fulfil conf env (k, x) = Raise (ValueError m)) /\ forall w, ~ named conf env k w).
  { intros k x v K E. unfold fulfil, named. cbn [fst snd]. rewrite E. cbn [bind]. destruct v as [n|t|t].
    - destruct (dget n env) as [w|] eqn:W; [left; eauto|right]. split; [eauto|]. intros w (n' & Z1 & Z2). congruence.
    - right. split; [eauto|]. intros w (n' & Z1 & Z2). congruence.
    - exfalso. exact (U _ _ K E). }
  destruct (F "hostname_key" "host" _ ltac:(simpl; tauto) Dh) as [(wh & Nh & ->)|((m & ->) & Z)]; [|split; [eauto|eexists; split; [|exact Z]; simpl; tauto]].
  destruct (F "database_key" "database" _ ltac:(simpl; tauto) Db) as [(wb & Nb & ->)|((m & ->) & Z)]; [|split; [eauto|eexists; split; [|exact Z]; simpl; tauto]].
  destruct (F "username_key" "user" _ ltac:(simpl; tauto) Du) as [(wu & Nu & ->)|((m & ->) & Z)]; [|split; [eauto|eexists; split; [|exact Z]; simpl; tauto]].
  destruct (F "password_key" "password" _ ltac:(simpl; tauto) Dp) as [(wp & Np & ->)|((m & ->) & Z)]; [|split; [eauto|eexists; split; [|exact Z]; simpl; tauto]].
  cbn [bind]. exists wh, wb, wu, wp. auto 10.
Qed.
Definition conf4 : config := [("hostname_key", CStr "H"); ("username_key", CStr "U"); ("password_key", CStr "P"); ("database_key", CStr "D")].
Definition env4 : config := [("P", CStr "secret"); ("H", CStr "localhost"); ("D", CStr "shop"); ("U", CStr "root")].
Example ex_C64 : (forall s t, In s settings -> dget s conf4 <> Some (CUnhashable t))
  /\ credentials env4 conf4 = Ok [("host", CStr "localhost"); ("database", CStr "shop"); ("user", CStr "root"); ("password", CStr "secret")].
Proof. split; [|reflexivity]. intros s t [<-|[<-|[<-|[<-|[]]]]]; discriminate. Qed.
Theorem C64_refuted : exists env conf m, credentials env conf = Raise (TypeError m).
Proof. exists env4, (dset "database_key" (CUnhashable "['D']") conf4). eexists. reflexivity. Qed.
(** The name of an environment file that does not exist is read as if it was its content. *)
Theorem C64_missing_file : forall loads file name, name <> "" -> file name = None -> loads name = None ->
  load loads file name = parse_lines "#" (split_char line_break name).
Proof. intros loads file name N F L. unfold load, parse_text. destruct name; [contradiction|]. cbn [is_empty]. rewrite F, L. reflexivity. Qed.

(** ** C65 *)

Definition dir_name (d : string) : Prop := d <> "" /\ has_char slash d = false.
(** The path of the file [f] in the directory with the names [ds]. *)
Definition path_in (ds : list string) (f : string) : string := "/" ++ join "/" ds ++ "/" ++ f.

Lemma split_path ds f : Forall dir_name ds -> ds <> [] -> dir_name f ->
  split_char slash (strip_char slash (path_in ds f)) = ds +++ [f].
Proof.
  intros D N [F1 F2]. unfold path_in.
  assert (J : join "/" ds ++ "/" ++ f = join "/" (ds +++ [f])).
  { clear D. induction ds as [|d ds IH]; [contradiction|]. destruct ds as [|e ds]; [reflexivity|].
    change ((d :: e :: ds) +++ [f]) with (d :: (e :: ds) +++ [f]). rewrite (join_cons _ d ((e :: ds) +++ [f])), (join_cons _ d (e :: ds)) by discriminate.
    rewrite <- IH by discriminate. rewrite !sapp_assoc. reflexivity. }
  assert (L : strip_char slash ("/" ++ join "/" ds ++ "/" ++ f) = join "/" ds ++ "/" ++ f).
  { unfold strip_char, strip_by. destruct ds as [|d ds]; [contradiction|]. apply Forall_cons_iff in D as [[D1 D2] D].
    assert (Z : exists c r, join "/" (d :: ds) = String c r /\ Ascii.eqb slash c = false).
    { destruct d as [|c d]; [contradiction|]. unfold has_char in D2. cbn [sexists] in D2. apply orb_false_iff in D2 as [D2 _].
      destruct ds as [|e ds]; [exists c, d|exists c, (d ++ "/" ++ join "/" (e :: ds))]; split; try assumption; reflexivity. }
    destruct Z as (c & r & Z & Ec). rewrite Z.
    assert (R : forall a, rstrip_by (Ascii.eqb slash) (a ++ f) = a ++ f).
    { intros a. rewrite rstrip_app; rewrite (rstrip_none _ f F2); [reflexivity|exact F1]. }
    first [ rewrite <- (sapp_assoc (String c r) "/" f), <- (sapp_assoc "/" (String c r ++ "/") f), R ; cbn [String.append lstrip_by]; rewrite Ascii.eqb_refl, Ec; reflexivity
          | cbn [String.append lstrip_by]; rewrite Ascii.eqb_refl, Ec;
            change (String c (r ++ String "/" f)) with (String c r ++ "/" ++ f); rewrite <- (sapp_assoc (String c r) "/" f); apply R ]. }
  rewrite L, J. apply split_join.
  - intros Z. apply app_eq_nil in Z as [_ Z]. discriminate.
  - intros x I. apply in_app_iff in I as [I|[<-|[]]]; [|exact F2]. rewrite Forall_forall in D. apply D, I.
Qed.

Lemma search_spec file dirs f n :
  match search file dirs f n with
  | Some p => exists k, 1 <= k <= n /\ p = path_in (firstn k dirs) f /\ file p <> None
                /\ forall j, k < j <= n -> file (path_in (firstn j dirs) f) = None
  | None => forall j, 1 <= j <= n -> file (path_in (firstn j dirs) f) = None
  end.
Proof.
  induction n as [|n IH]; [simpl; intros; lia|]. cbn [search]. fold (path_in (firstn (S n) dirs) f).
  destruct (file (path_in (firstn (S n) dirs) f)) eqn:E.
  - exists (S n). split; [lia|]. split; [reflexivity|]. split; [congruence|]. intros; lia.
  - destruct (search file dirs f n).
    + destruct IH as (k & K & -> & P & Q). exists k. split; [lia|]. split; [reflexivity|]. split; [exact P|]. intros j J.
      destruct (Nat.eq_dec j (S n)) as [->|]; [exact E|]. apply Q. lia.
    + intros j J. destruct (Nat.eq_dec j (S n)) as [->|]; [exact E|]. apply IH. lia.
Qed.

(** Full statement: including the root directory, and for names with directories.  False, see
    [C65_refuted] and [C65_refuted_directory].  Proved for a file name without slash and the
    directories other than the root. *)
Theorem C65_nearest_file_partial : forall file ds f, Forall dir_name ds -> ds <> [] -> dir_name f ->
  match resolve_config file ("/" ++ join "/" ds) f with
  | Ok p => exists k, 1 <= k <= List.length ds /\ p = path_in (firstn k ds) f /\ file p <> None
              /\ forall j, k < j <= List.length ds -> file (path_in (firstn j ds) f) = None
  | Raise e => (exists m, e = ValueError m) /\ forall j, 1 <= j <= List.length ds -> file (path_in (firstn j ds) f) = None
  end.
Proof.
  intros file ds f D N F. pose proof (split_path ds f D N F) as P. unfold path_in in P. rewrite <- sapp_assoc in P. destruct F as [F1 F2].
  destruct f as [|c f]; [contradiction|]. unfold resolve_config. unfold has_char in F2. cbn [sexists] in F2. apply orb_false_iff in F2 as [F2 _].
  destruct (Ascii.eqb_spec c slash) as [->|_]; [discriminate|]. rewrite P, removelast_last, last_last.
  pose proof (search_spec file ds (String c f) (List.length ds)) as H. destruct (search file ds (String c f) (List.length ds)); [exact H|].
  split; [eauto|exact H].
Qed.
Theorem C65_absolute : forall file cwd p, exists m,
  resolve_config file cwd (String "/" p) = match file (String "/" p) with Some _ => Ok (String "/" p) | None => Raise (ValueError m) end.
Proof. intros. eexists. cbn [resolve_config]. change (Ascii.eqb "/" slash) with true. cbn iota. destruct (file (String "/" p)); reflexivity. Qed.
Definition only (p : string) : string -> option string := fun x => if String.eqb x p then Some "" else None.
Example ex_C65 : resolve_config (only "/home/mygrate.conf") "/home/me/app" "mygrate.conf" = Ok "/home/mygrate.conf"
  /\ Forall dir_name ["home"; "me"; "app"] /\ "/home/me/app" = "/" ++ join "/" ["home"; "me"; "app"].
Proof. split; [reflexivity|]. split; [|reflexivity]. repeat constructor; discriminate. Qed.
(** The root directory is not looked at. *)
Theorem C65_refuted : exists m, resolve_config (only "/mygrate.conf") "/home" "mygrate.conf" = Raise (ValueError m).
Proof. eexists. reflexivity. Qed.
(** A name with a directory is looked for without this directory in the parents. *)
Theorem C65_refuted_directory :
  resolve_config (only "/home/me/mygrate.conf") "/home/me/app" "conf/mygrate.conf" = Ok "/home/me/mygrate.conf"
  /\ exists m, resolve_config (only "/home/me/conf/mygrate.conf") "/home/me/app" "conf/mygrate.conf" = Raise (ValueError m).
Proof. split; [reflexivity|]. eexists. reflexivity. Qed.

(** ** C69 *)

(** A path in the configuration file [dir/f]. *)
Definition resolved (dir s : string) (r : string) : Prop :=
  (exists t, s = String "/" t) /\ r = s \/ (forall t, s <> String "/" t) /\ r = dir ++ "/" ++ s.

Lemma dirname_path ds f : Forall dir_name ds -> ds <> [] -> has_char slash f = false ->
  dirname (path_in ds f) = "/" ++ join "/" ds.
Proof.
  intros D N F. unfold dirname.
  assert (S : split_char slash (path_in ds f) = ("" :: ds) +++ [f]).
  { assert (J : path_in ds f = join "/" (("" :: ds) +++ [f])).
    { unfold path_in. change (("" :: ds) +++ [f]) with ("" :: (ds +++ [f])). rewrite join_cons by (intros Z; apply app_eq_nil in Z as [_ Z]; discriminate).
      cbn [String.append]. f_equal. clear D. induction ds as [|d ds IH]; [contradiction|]. destruct ds as [|e ds]; [reflexivity|].
      change ((d :: e :: ds) +++ [f]) with (d :: (e :: ds) +++ [f]). rewrite (join_cons _ d ((e :: ds) +++ [f])), (join_cons _ d (e :: ds)) by discriminate.
      rewrite <- IH by discriminate. rewrite !sapp_assoc. reflexivity. }
    rewrite J. apply split_join; [discriminate|]. intros x I. apply in_app_iff in I as [[<-|I]|[<-|[]]]; [reflexivity| |exact F].
    rewrite Forall_forall in D. apply D, I. }
  rewrite S. clear S. destruct ds as [|d ds]; [contradiction|]. cbn [List.app].
  change ("" :: d :: ds +++ [f]) with (("" :: d :: ds) +++ [f]). rewrite removelast_last.
  rewrite join_cons by discriminate. cbn [String.append].
  assert (B : exists a e, join "/" (d :: ds) = a ++ e /\ dir_name e).
  { clear N F. induction ds as [|e ds IH] in d, D |- *.
    - apply Forall_cons_iff in D as [D _]. exists "", d. split; [reflexivity|exact D].
    - apply Forall_cons_iff in D as [_ D]. destruct (IH e D) as (a & x & E & X). exists (d ++ "/" ++ a), x.
      split; [|exact X]. rewrite join_cons by discriminate. rewrite E, !sapp_assoc. reflexivity. }
  destruct B as (a & e & E & [E1 E2]). rewrite E.
  assert (NA : sforall (Ascii.eqb slash) (String "/" ((a ++ e) ++ "/")) = false).
  { cbn [sforall]. rewrite !sforall_app. destruct e as [|c e]; [contradiction|]. unfold has_char in E2. cbn [sexists sforall] in *.
    apply orb_false_iff in E2 as [-> _]. rewrite andb_false_l, !andb_false_r. reflexivity. }
  match goal with |- (if ?b then _ else _) = _ => replace b with false by (symmetry; exact NA) end.
  change (String "/" ((a ++ e) ++ "/")) with ("/" ++ ((a ++ e) ++ "/")). rewrite <- !sapp_assoc.
  rewrite (rstrip_pad _ _ "/") by reflexivity. rewrite rstrip_app; rewrite (rstrip_none _ e E2); [|exact E1].
  rewrite !sapp_assoc. reflexivity.
Qed.

(** The SQL directory and the environment file are taken relative to the directory of the
    configuration file that was found, wherever the command is run. *)
Theorem C69_relative_settings : forall loads file cwd name ds f conf0 sd se,
  Forall dir_name ds -> ds <> [] -> dir_name f ->
  resolve_config file cwd name = Ok (path_in ds f) -> load loads file (path_in ds f) = Ok conf0 ->
  dget "files_directory" conf0 = Some (CStr sd) -> dget "env_file" conf0 = Some (CStr se) -> sd <> "" -> se <> "" ->
  exists conf rd re, load_config loads file cwd (Some name) = Ok conf
    /\ dget "files_directory" conf = Some (CStr rd) /\ resolved ("/" ++ join "/" ds) sd rd
    /\ dget "env_file" conf = Some (CStr re) /\ resolved ("/" ++ join "/" ds) se re
    /\ (forall k, k <> "files_directory" -> k <> "env_file" -> dget k conf = dget k conf0)
    /\ sql_files loads file cwd (Some name) = Ok (CStr rd)
    /\ driver_credentials loads file cwd (Some name) = (let* e := load loads file re in credentials e conf).
Proof.
  intros loads file cwd name ds f conf0 sd se D N [_ F] R L Gd Ge Nd Ne.
  assert (X : forall s, s <> "" -> exists r, relative_to (CStr s) (path_in ds f) = Ok r /\ resolved ("/" ++ join "/" ds) s r).
  { intros s Z. destruct s as [|c s]; [contradiction|]. unfold relative_to. rewrite (dirname_path ds f D N F). eexists. split; [reflexivity|].
    unfold resolved. destruct (Ascii.eqb_spec c slash) as [->|C]; [left|right]; (split; [|reflexivity]); [eauto|]. intros t [= Z' _]. contradiction. }
  destruct (X sd Nd) as (rd & Ed & Pd), (X se Ne) as (re & Ee & Pe).
  assert (LC : load_config loads file cwd (Some name) = Ok (dset "env_file" (CStr re) (dset "files_directory" (CStr rd) conf0))).
  { unfold load_config. rewrite R. cbn [bind]. rewrite L. cbn [bind]. rewrite Gd, Ed. cbn [bind]. rewrite dget_dset. 
    change (keqb "env_file" "files_directory") with false. cbn iota. rewrite Ge, Ee. reflexivity. }
  eexists _, rd, re. split; [exact LC|].
  assert (G1 : dget "files_directory" (dset "env_file" (CStr re) (dset "files_directory" (CStr rd) conf0)) = Some (CStr rd))
    by (rewrite !dget_dset; reflexivity).
  assert (G2 : dget "env_file" (dset "env_file" (CStr re) (dset "files_directory" (CStr rd) conf0)) = Some (CStr re))
    by (rewrite !dget_dset; reflexivity).
  split; [exact G1|]. split; [exact Pd|]. split; [exact G2|]. split; [exact Pe|]. split.
  { intros k K1 K2. rewrite !dget_dset. simpl. destruct (String.eqb_spec k "env_file"); [contradiction|]. destruct (String.eqb_spec k "files_directory"); [contradiction|reflexivity]. }
  split; [unfold sql_files; rewrite LC; cbn [bind]; rewrite G1; reflexivity|].
  unfold driver_credentials. rewrite LC. cbn [bind]. rewrite G2. reflexivity.
Qed.
Definition site (p : string) : option string :=
  if String.eqb p "/home/mygrate.conf" then Some ("files_directory='sql'" ++ String line_break "env_file=/etc/env")
  else if String.eqb p "/etc/env" then Some "A=1" else None.
Example ex_C69 : resolve_config site "/home/me" "mygrate.conf" = Ok (path_in ["home"] "mygrate.conf")
  /\ load_config (fun _ => None) site "/home/me" (Some "mygrate.conf")
     = Ok [("files_directory", CStr "/home/sql"); ("env_file", CStr "/etc/env")].
Proof. split; reflexivity. Qed.
(** In the root directory: the same path, written with two slashes. *)
Theorem C69_root : forall f s, has_char slash f = false -> s <> "" ->
  exists r, relative_to (CStr s) ("/" ++ f) = Ok r /\ ((exists t, s = String "/" t) /\ r = s \/ (forall t, s <> String "/" t) /\ r = "//" ++ s).
Proof.
  intros f s F N. destruct s as [|c s]; [contradiction|]. eexists. split; [reflexivity|].
  destruct (Ascii.eqb_spec c slash) as [->|C]; [left; eauto|right]. split; [intros t [= Z _]; contradiction|].
  assert (D : dirname ("/" ++ f) = "/"); [|rewrite D; reflexivity].
  unfold dirname. change ("/" ++ f) with (join "/" [""; f]). rewrite split_join; [reflexivity|discriminate|].
  intros x [<-|[<-|[]]]; [reflexivity|exact F].
Qed.
(** An empty setting raises IndexError. *)
Theorem C69_empty_setting : forall loads file cwd name path conf0, resolve_config file cwd name = Ok path ->
  load loads file path = Ok conf0 -> dget "files_directory" conf0 = Some (CStr "") ->
  exists m, load_config loads file cwd (Some name) = Raise (IndexError m).
Proof. intros loads file cwd name path conf0 R L G. eexists. unfold load_config. rewrite R. cbn [bind]. rewrite L. cbn [bind]. rewrite G. reflexivity. Qed.

Print Assumptions C61_quoted_value_partial.
Print Assumptions C61_refuted.
Print Assumptions C61_refuted_empty.
Print Assumptions C62_ignored_lines.
Print Assumptions C62_unquoted_value.
Print Assumptions C62_text_lines.
Print Assumptions C62_last_assignment_partial.
Print Assumptions C62_refuted.
Print Assumptions C63_documented_error_partial.
Print Assumptions C63_refuted.
Print Assumptions C64_credentials_partial.
Print Assumptions C64_refuted.
Print Assumptions C64_missing_file.
Print Assumptions C65_nearest_file_partial.
Print Assumptions C65_absolute.
Print Assumptions C65_refuted.
Print Assumptions C65_refuted_directory.
Print Assumptions C69_relative_settings.
Print Assumptions C69_root.
Print Assumptions C69_empty_setting.
