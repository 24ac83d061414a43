(** C61 to C63: [parse_line] is what SpecConf.v says. *)
From Verif Require Import ConfFacts SpecConf.

(** [parse_line] after the key and the value were cut out. *)
Definition value_part (line key value : string) : res (option (string * string)) :=
  match value with
  | EmptyString => Ok (Some (key, ""))
  | String q v =>
      if negb (Ascii.eqb q squote) && negb (Ascii.eqb q dquote) then
        let value := match sindex "#" value with Some i => strip (stake i value) | None => value end in
        if has_char dquote value || has_char squote value
        then Raise (DotEnvSyntaxError ("Syntax error: unclosed quote in line " ++ line))
        else Ok (Some (key, value))
      else if negb (has_char q v) then Raise (DotEnvSyntaxError ("Syntax error: unclosed quote in line " ++ line))
      else match v with
           | EmptyString => Ok (Some (key, ""))
           | String c v' =>
               if Ascii.eqb c q then Ok (Some (key, ""))
               else match closing q c 1 v' with
                    | None => Raise (ValueError "substring not found")
                    | Some index =>
                        let v := match sindex_from "#" v index with Some i => strip (stake i v) | None => v end in
                        if Nat.ltb (index + 1) (String.length v) && negb (String.eqb (strip (sdrop (index + 1) v)) ";")
                        then Raise (DotEnvSyntaxError ("Syntax error: data found outside of the quote in line " ++ line))
                        else Ok (Some (key, replace2 backslash q (String q "") (stake index v)))
                    end
           end
  end.
Lemma parse_line_parts line : parse_line "#" line =
  let clean := strip line in
  if String.eqb (stake 1 clean) "#" then Ok None
  else if is_empty clean then Ok None
  else
    let '(k, rest) := span (fun c => negb (Ascii.eqb c "=" || Ascii.eqb c ":")) clean in
    match k, rest with
    | String _ _, String _ v0 => value_part line (strip k) (strip (fst (span (fun c => negb (Ascii.eqb c line_break)) v0)))
    | _, _ => Raise (DotEnvSyntaxError ("Syntax error: no data found in line: " ++ line))
    end.
Proof. reflexivity. Qed.

Definition outcome (r : res (option (string * string))) (o : reading) : Prop :=
  match r, o with
  | Ok None, Nothing => True
  | Ok (Some (k, v)), Setting k' v' => k = k' /\ v = v'
  | Raise (DotEnvSyntaxError _), Malformed => True
  | Raise (ValueError _), Crashes => True
  | _, _ => False
  end.

(** ** Strings *)
Lemma char_split c s : (has_char c s = false /\ sindex (String c "") s = None)
  \/ exists a b, s = a ++ String c b /\ has_char c a = false /\ sindex (String c "") s = Some (String.length a).
Proof.
  destruct (has_char c s) eqn:H; [right|left; split; [reflexivity|apply sindex_char, H]].
  assert (X : exists a b, s = a ++ String c b /\ has_char c a = false).
  { clear - H. unfold has_char in *. induction s as [|d s IH]; [discriminate|]. cbn [sexists] in H. destruct (Ascii.eqb_spec c d) as [->|N].
    - exists "", s. split; reflexivity.
    - destruct (IH H) as (a & b & -> & A). exists (String d a), b. split; [reflexivity|]. cbn [sexists]. rewrite (proj2 (Ascii.eqb_neq c d) N). exact A. }
  destruct X as (a & b & -> & A). exists a, b. split; [reflexivity|]. split; [exact A|apply sindex_char_at, A].
Qed.
Lemma has_strip c s : is_space c = false -> has_char c (strip s) = has_char c s.
Proof.
  intros C. assert (R : has_char c (rstrip_by is_space s) = has_char c s).
  { unfold has_char. induction s as [|d s IH]; [reflexivity|]. cbn [rstrip_by sexists]. rewrite <- IH. destruct (rstrip_by is_space s); [|reflexivity].
    destruct (is_space d) eqn:D; [|reflexivity]. cbn [sexists]. destruct (Ascii.eqb_spec c d) as [->|_]; [congruence|reflexivity]. }
  rewrite <- R. unfold strip, strip_by. generalize (rstrip_by is_space s). intros t. unfold has_char. induction t as [|d t IH]; [reflexivity|].
  cbn [lstrip_by sexists]. destruct (is_space d) eqn:D; [|reflexivity]. rewrite IH. destruct (Ascii.eqb_spec c d) as [->|_]; [congruence|reflexivity].
Qed.
Lemma quote_cases q : is_quote q = true -> q = squote \/ q = dquote.
Proof. unfold is_quote. rewrite orb_true_iff, !Ascii.eqb_eq. auto. Qed.
Lemma quote_negs q : negb (Ascii.eqb q squote) && negb (Ascii.eqb q dquote) = negb (is_quote q).
Proof. unfold is_quote. rewrite negb_orb. reflexivity. Qed.
Lemma quote_hash q : is_quote q = true -> Ascii.eqb "#" q = false /\ Ascii.eqb q backslash = false.
Proof. intros H. apply quote_cases in H as [->| ->]; split; reflexivity. Qed.
Lemma has_at c a b : has_char c (a ++ String c b) = true.
Proof. unfold has_char. rewrite sexists_app. cbn [sexists]. rewrite Ascii.eqb_refl. apply orb_true_r. Qed.
Lemma has_find c s : has_char c s = true -> exists a b, s = a ++ String c b.
Proof. intros H. destruct (char_split c s) as [[E _]|(a & b & E & _)]; [congruence|]. eauto. Qed.

(** ** The closing quote *)
Lemma ends_cons c s : s <> "" -> ends_backslash (String c s) <-> ends_backslash s.
Proof.
  intros N. split; intros (a & E).
  - destruct a as [|d a]; [injection E as -> ->; contradiction|]. injection E as -> ->. exists a. reflexivity.
  - exists (String c a). rewrite E. reflexivity.
Qed.
Lemma ends_one c : ends_backslash (String c "") <-> c = backslash.
Proof. split; [intros (a & E)|intros ->; exists ""; reflexivity]. destruct a as [|d a]; [cbn in E; congruence|]. destruct a; discriminate. Qed.

(** [prev] is not looked at itself. *)
Definition escaped_after (q prev : ascii) (s : string) : Prop := forall a b, s = a ++ String q b -> ends_backslash (String prev a).
Lemma escaped_step q prev c s : escaped_after q prev (String c s) <-> (c = q -> prev = backslash) /\ escaped_after q c s.
Proof.
  split.
  - intros H. split; [intros ->; apply ends_one, (H "" s eq_refl)|]. intros a b ->. specialize (H (String c a) b eq_refl).
    rewrite ends_cons in H by discriminate. exact H.
  - intros [H1 H2] a b E. destruct a as [|d a]; injection E as -> E.
    + apply ends_one, H1. reflexivity.
    + rewrite ends_cons by discriminate. apply (H2 a b E).
Qed.
Lemma escaped_nil q prev : escaped_after q prev "".
Proof. intros a b E. destruct a; discriminate. Qed.
Lemma escaped_all q c s : c <> q -> escaped_after q c s <-> all_escaped q (String c s).
Proof.
  intros N. split; intros H a b E.
  - destruct a as [|d a]; injection E as -> E; [contradiction|]. apply (H a b E).
  - specialize (H (String c a) b). rewrite E in H. apply H. reflexivity.
Qed.
Lemma escaped_not q c s : all_escaped q (String c s) -> c <> q.
Proof. intros H ->. destruct (H "" s eq_refl) as (a & E). destruct a; discriminate. Qed.

Lemma closing_none q s : forall prev i, closing q prev i s = None <-> escaped_after q prev s.
Proof.
  induction s as [|c s IH]; intros prev i; [split; [intros _; apply escaped_nil|reflexivity]|]. rewrite escaped_step. cbn [closing].
  destruct (Ascii.eqb_spec c q) as [->|N], (Ascii.eqb_spec prev backslash) as [->|M]; cbn [andb negb]; rewrite ?IH; try tauto.
  split; [discriminate|]. intros [H _]. exfalso. auto.
Qed.
Lemma closing_some q s : forall prev i n, closing q prev i s = Some n <-> exists t r, s = t ++ String q r /\ n = i + String.length t
  /\ escaped_after q prev t /\ ~ ends_backslash (String prev t).
Proof.
  induction s as [|c s IH]; intros prev i n.
  - split; [discriminate|]. intros (t & r & E & _). destruct t; discriminate.
  - cbn [closing]. destruct (Ascii.eqb c q && negb (Ascii.eqb prev backslash)) eqn:B.
    + apply andb_true_iff in B as [B1 B2]. apply Ascii.eqb_eq in B1 as ->. apply negb_true_iff, Ascii.eqb_neq in B2. split.
      * intros [= <-]. exists "", s. split; [reflexivity|]. split; [cbn; lia|]. split; [apply escaped_nil|]. rewrite ends_one. exact B2.
      * intros (t & r & E & -> & H1 & H2). destruct t as [|d t]; [cbn; f_equal; lia|]. injection E as <- E.
        apply escaped_step in H1 as [H1 _]. exfalso. apply B2, H1. reflexivity.
    + rewrite IH. split.
      * intros (t & r & -> & -> & H1 & H2). exists (String c t), r. split; [reflexivity|]. split; [cbn; lia|]. split.
        -- apply escaped_step. split; [|exact H1]. intros ->. rewrite Ascii.eqb_refl in B. destruct (Ascii.eqb_spec prev backslash); [assumption|discriminate].
        -- rewrite ends_cons by discriminate. exact H2.
      * intros (t & r & E & -> & H1 & H2). destruct t as [|d t].
        -- injection E as -> ->. exfalso. rewrite Ascii.eqb_refl in B. rewrite ends_one in H2. destruct (Ascii.eqb_spec prev backslash); [auto|discriminate].
        -- injection E as <- ->. exists t, r. split; [reflexivity|]. split; [cbn; lia|]. apply escaped_step in H1 as [_ H1]. split; [exact H1|].
           rewrite ends_cons in H2 by discriminate. exact H2.
Qed.
Lemma quoted_cons q c t : c <> q -> quoted_text q (String c t) <-> escaped_after q c t /\ ~ ends_backslash (String c t).
Proof. intros N. unfold quoted_text. rewrite <- (escaped_all q c t N). split; [tauto|]. intros [A B]. split; [discriminate|]. auto. Qed.

(** ** The end of a quoted value *)
Lemma harmlessb v n : harmless (sdrop n v) <-> Nat.ltb n (String.length v) && negb (String.eqb (strip (sdrop n v)) ";") = false.
Proof.
  assert (D : sdrop n v = "" <-> ~ n < String.length v).
  { revert v. induction n as [|n IH]; intros [|c v]; cbn [sdrop String.length]; try (split; [intros; lia|reflexivity]).
    - split; [discriminate|lia].
    - rewrite IH. lia. }
  unfold harmless. rewrite andb_false_iff, negb_false_iff, String.eqb_eq, Nat.ltb_ge, D. split; (intros [H|H]; [left; lia|right; exact H]).
Qed.

Lemma quoted_end q t a : is_quote q = true -> quoted_text q t -> forall line key,
  value_part line key (String q (t ++ String q a)) =
  (let v := match sindex "#" a with Some i => cut_text q t (stake i a) | None => t ++ String q a end in
   if Nat.ltb (String.length t + 1) (String.length v) && negb (String.eqb (strip (sdrop (String.length t + 1) v)) ";")
   then Raise (DotEnvSyntaxError ("Syntax error: data found outside of the quote in line " ++ line))
   else Ok (Some (key, unescaped q (stake (String.length t) v)))).
Proof.
  intros Q T line key. unfold value_part. rewrite quote_negs, Q, has_at. cbn [negb].
  destruct t as [|c t]; [destruct T as [T _]; contradiction|].
  assert (N : c <> q) by (destruct T as (_ & T & _); exact (escaped_not q c t T)).
  pose proof (proj1 (quoted_cons q c t N) T) as [T1 T2].
  cbn [String.append]. rewrite (proj2 (Ascii.eqb_neq c q) N).
  rewrite (proj2 (closing_some q (t ++ String q a) c 1 (1 + String.length t))) by eauto 10.
  change (1 + String.length t) with (String.length (String c t)).
  change (String c (t ++ String q a)) with (String c t ++ String q a).
  set (u := String c t). rewrite sindex_from_app.
  assert (E : sindex "#" (String q a) = option_map S (sindex "#" a)).
  { destruct (quote_hash q Q) as [H _]. cbn [sindex String.prefix]. destruct (ascii_dec "#" q) as [<-|_]; [discriminate|]. reflexivity. }
  rewrite E. destruct (sindex "#" a) as [i|]; cbn [option_map]; [|reflexivity].
  replace (String.length u + S i) with (String.length u + (S i)) by lia. rewrite stake_app_more. reflexivity.
Qed.
Lemma sdrop_tail t q a : sdrop (String.length t + 1) (t ++ String q a) = a.
Proof. induction t as [|c t IH]; [reflexivity|exact IH]. Qed.

Lemma stray_part line key u post : starts_quoted u = false -> has_char "#" u = false -> post = "" \/ (exists c, post = String "#" c) ->
  strip (u ++ post) = u ++ post ->
  value_part line key (u ++ post) = if has_char dquote u || has_char squote u then Raise (DotEnvSyntaxError ("Syntax error: unclosed quote in line " ++ line))
                                    else Ok (Some (key, strip u)).
Proof.
  intros S H P St. unfold value_part. destruct (u ++ post) as [|q v] eqn:E.
  - destruct u; [reflexivity|discriminate].
  - assert (Q : is_quote q = false).
    { destruct u as [|c u]; [|injection E as <- _; exact S]. cbn in E. destruct P as [->|(c & ->)]; [discriminate|]. injection E as <- _. reflexivity. }
    rewrite quote_negs, Q. cbn [negb]. rewrite <- E.
    assert (X : (match sindex "#" (u ++ post) with Some i => strip (stake i (u ++ post)) | None => u ++ post end) = strip u).
    { destruct P as [->|(c & ->)].
      - rewrite sapp_nil_r in *. rewrite (sindex_char "#" u H). rewrite E. symmetry. exact St.
      - rewrite (sindex_char_at "#" u c H), stake_app. reflexivity. }
    rewrite X, !has_strip by reflexivity. reflexivity.
Qed.

Lemma value_exact line key v : strip v = v -> forall r, value_reads v r -> outcome (value_part line key v) (with_key key r).
Proof.
  intros St r H. destruct H as [u post S H P Q1 Q2|u post S H P Q|q u Q H|q u Q|q u Q H1 H2|q t a Q T A H|q t a Q T A H|q t a c Q T A H|q t a c Q T A H].
  - rewrite stray_part by assumption. rewrite Q1, Q2. cbn. auto.
  - rewrite stray_part by assumption. replace (has_char dquote u || has_char squote u) with true; [exact I|]. destruct Q as [->| ->]; [rewrite orb_true_r|]; reflexivity.
  - unfold value_part. rewrite quote_negs, Q, H. exact I.
  - unfold value_part. rewrite quote_negs, Q. cbn [negb]. change (String q u) with ("" ++ String q u). rewrite has_at. cbn. rewrite Ascii.eqb_refl. cbn. auto.
  - unfold value_part. rewrite quote_negs, Q, H1. cbn [negb]. destruct u as [|c u]; [discriminate|]. pose proof (escaped_not q c u H2) as N.
    rewrite (proj2 (Ascii.eqb_neq c q) N). rewrite (proj2 (closing_none q u c 1)); [exact I|]. apply escaped_all; assumption.
  - rewrite (quoted_end q t a Q T), (sindex_char "#" a A). cbv zeta. rewrite <- (sdrop_tail t q a) in H. apply harmlessb in H. rewrite H, stake_app. cbn. auto.
  - rewrite (quoted_end q t a Q T), (sindex_char "#" a A). cbv zeta. rewrite <- (sdrop_tail t q a) in H. rewrite harmlessb in H. apply not_false_is_true in H.
    rewrite H. exact I.
  - rewrite (quoted_end q t _ Q T), (sindex_char_at "#" a c A), stake_app. cbv zeta. apply harmlessb in H. rewrite H. cbn. auto.
  - rewrite (quoted_end q t _ Q T), (sindex_char_at "#" a c A), stake_app. cbv zeta. rewrite harmlessb in H. apply not_false_is_true in H. rewrite H. exact I.
Qed.

Lemma harmless_dec s : harmless s \/ ~ harmless s.
Proof.
  unfold harmless. destruct (string_dec s "") as [->|N]; [left; auto|]. destruct (string_dec (strip s) ";") as [->|M]; [left; auto|right; tauto].
Qed.
Lemma value_total v : exists r, value_reads v r.
Proof.
  destruct (starts_quoted v) eqn:S.
  - destruct v as [|q v]; [discriminate|]. cbn [starts_quoted] in S. destruct (has_char q v) eqn:H; [|eexists; apply v_open; assumption].
    destruct v as [|c v]; [discriminate|]. destruct (Ascii.eqb_spec c q) as [->|N]; [eexists; apply v_empty; assumption|].
    destruct (closing q c 1 v) as [n|] eqn:C.
    + apply closing_some in C as (t & a & -> & _ & T1 & T2). pose proof (proj2 (quoted_cons q c t N) (conj T1 T2)) as T.
      change (String c (t ++ String q a)) with (String c t ++ String q a). destruct (char_split "#" a) as [[A _]|(b & d & -> & B & _)].
      * destruct (harmless_dec a); eexists; [apply v_closed|apply v_more]; assumption.
      * destruct (harmless_dec (sdrop (String.length (String c t) + 1) (cut_text q (String c t) b))); eexists; [apply v_noted|apply v_noted_more]; assumption.
    + apply closing_none in C. eexists. apply v_never; [assumption..|]. apply escaped_all; assumption.
  - assert (X : exists u post, v = u ++ post /\ starts_quoted u = false /\ has_char "#" u = false /\ (post = "" \/ exists c, post = String "#" c)).
    { destruct (char_split "#" v) as [[A _]|(a & b & -> & A & _)].
      - exists v, "". rewrite sapp_nil_r. auto.
      - exists a, (String "#" b). split; [reflexivity|]. split; [|eauto]. destruct a; [reflexivity|exact S]. }
    destruct X as (u & post & -> & U1 & U2 & U3). destruct (has_char squote u) eqn:Q1; [eexists; apply v_stray; auto|].
    destruct (has_char dquote u) eqn:Q2; eexists; [apply v_stray|apply v_bare]; auto.
Qed.
Lemma outcome_one r o o' : outcome r o -> outcome r o' -> o = o'.
Proof.
  destruct r as [[[k v]|]|e]; [| |destruct e]; destruct o, o'; cbn; try contradiction; try reflexivity. intros [-> ->] [-> ->]. reflexivity.
Qed.

(** ** The line *)
Lemma no_separator s : sforall (fun c => negb (Ascii.eqb c "=" || Ascii.eqb c ":")) s = negb (has_separator s).
Proof.
  unfold has_separator, has_char. induction s as [|x s IH]; [reflexivity|]. cbn [sforall sexists]. rewrite IH, (Ascii.eqb_sym x "="), (Ascii.eqb_sym x ":").
  destruct (Ascii.eqb "=" x), (Ascii.eqb ":" x), (sexists (Ascii.eqb "=") s), (sexists (Ascii.eqb ":") s); reflexivity.
Qed.
Lemma no_break s : has_char line_break s = false -> fst (span (fun c => negb (Ascii.eqb c line_break)) s) = s.
Proof.
  intros H. rewrite span_all; [reflexivity|]. revert H. unfold has_char. induction s as [|c s IH]; [reflexivity|]. cbn [sexists sforall]. rewrite orb_false_iff.
  intros [H1 H2]. rewrite (Ascii.eqb_sym c), H1. apply IH, H2.
Qed.
Lemma first_hash c s : String.eqb (stake 1 (String c s)) "#" = Ascii.eqb c "#".
Proof. cbn [stake]. destruct (Ascii.eqb_spec c "#") as [->|N]; [reflexivity|]. apply String.eqb_neq. congruence. Qed.
Lemma strip_has_not c s : has_char c s = false -> has_char c (strip s) = false.
Proof.
  intros H. unfold strip, strip_by. pose proof (rstrip_has c is_space s H) as R. revert R. generalize (rstrip_by is_space s). intros t.
  unfold has_char. induction t as [|d t IH]; [auto|]. cbn [lstrip_by]. destruct (is_space d); [|auto]. cbn [sexists]. rewrite orb_false_iff. intros [_ R]. apply IH, R.
Qed.

Lemma line_exact line : has_char line_break line = false -> forall r, line_reads (strip line) r -> outcome (parse_line "#" line) r.
Proof.
  intros L r H. apply strip_has_not in L. rewrite parse_line_parts. cbv zeta. revert L. destruct H as [|s|c s N H|c s H|c k sep v r N H Sp V]; intros L.
  - exact I.
  - rewrite first_hash. exact I.
  - rewrite first_hash, (proj2 (Ascii.eqb_neq c "#") N). cbn [is_empty]. rewrite span_all by (rewrite no_separator, H; reflexivity). exact I.
  - rewrite first_hash. assert (N : c <> "#"%char) by (intros ->; discriminate). rewrite (proj2 (Ascii.eqb_neq c "#") N). cbn [is_empty span].
    unfold is_separator in H. rewrite H. exact I.
  - change (String c k ++ String sep v) with (String c (k ++ String sep v)) at 1 2. rewrite first_hash, (proj2 (Ascii.eqb_neq c "#") N). cbn [is_empty].
    rewrite span_app.
    + rewrite no_break; [apply value_exact; [apply strip_idem|exact V]|]. rewrite has_char_app in L. apply orb_false_iff in L as [_ L].
      unfold has_char in *. cbn [sexists] in L. apply orb_false_iff in L as [_ L]. exact L.
    + rewrite no_separator, H. reflexivity.
    + cbn [starts]. unfold is_separator in Sp. rewrite Sp. reflexivity.
Qed.
Lemma line_total s : exists r, line_reads s r.
Proof.
  destruct s as [|c s]; [eexists; constructor|]. destruct (Ascii.eqb_spec c "#") as [->|N]; [eexists; constructor|].
  destruct (is_separator c) eqn:C; [eexists; apply l_nameless; exact C|].
  destruct (has_separator (String c s)) eqn:H; [|eexists; apply l_unassigned; assumption].
  assert (X : exists k sep v, s = k ++ String sep v /\ has_separator (String c k) = false /\ is_separator sep = true).
  { assert (H' : has_separator s = true).
    { revert H C. unfold has_separator, is_separator, has_char. cbn [sexists]. rewrite (Ascii.eqb_sym c "="), (Ascii.eqb_sym c ":").
      destruct (Ascii.eqb "=" c), (Ascii.eqb ":" c); cbn; auto; discriminate. }
    assert (Y : exists k sep v, s = k ++ String sep v /\ has_separator k = false /\ is_separator sep = true).
    { pose proof (span_spec (fun c => negb (Ascii.eqb c "=" || Ascii.eqb c ":")) s) as P. destruct (span _ s) as [k rest]. destruct P as (-> & P1 & P2).
      rewrite no_separator in P1. apply negb_true_iff in P1. destruct rest as [|sep v].
      - rewrite sapp_nil_r in H'. congruence.
      - exists k, sep, v. split; [reflexivity|]. split; [exact P1|]. cbn [starts] in P2. rewrite negb_involutive in P2. exact P2. }
    destruct Y as (k & sep & v & -> & Y1 & Y2). exists k, sep, v. split; [reflexivity|]. split; [|exact Y2].
    revert Y1 C. unfold has_separator, is_separator, has_char. cbn [sexists]. rewrite (Ascii.eqb_sym c "="), (Ascii.eqb_sym c ":").
    destruct (Ascii.eqb "=" c), (Ascii.eqb ":" c); cbn; auto; discriminate. }
  destruct X as (k & sep & v & -> & X1 & X2). destruct (value_total (strip v)) as [r V]. eexists.
  change (String c (k ++ String sep v)) with (String c k ++ String sep v). apply l_setting; eassumption.
Qed.
