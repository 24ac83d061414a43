(** C61 to C63: exactly what a configuration file says, for every text; C65: exactly which one is used. *)
From Verif Require Import ConfFacts ConfExact SpecConf PropsConf.

(** Every line without a line break reads as SpecConf.v says, and as nothing else. *)
Theorem C63_line_exact : forall line, has_char line_break line = false ->
  forall r, outcome (parse_line "#" line) r <-> line_reads (strip line) r.
Proof.
  intros line L r. split; [|apply line_exact, L]. intros O. destruct (line_total (strip line)) as [r' H].
  rewrite (outcome_one _ _ _ O (line_exact line L r' H)). exact H.
Qed.
Example ex_C63_line : has_char line_break " KEY = 'it\'s' ; " = false /\ line_reads (strip " KEY = 'it\'s' ; ") (Setting "KEY" "it's")
  /\ line_reads (strip "KEY='' nonsense") (Setting "KEY" "") /\ line_reads (strip "KEY=' v' # note") (Setting "KEY" "v'")
  /\ line_reads (strip "KEY='a' b") Malformed /\ line_reads (strip "KEY='a\' # b") Crashes.
Proof. split; [reflexivity|]. repeat split; apply C63_line_exact; cbn; auto. Qed.

(** A line ends with ValueError, instead of the documented error, exactly if its value begins with a
    quote and all further ones, at least one, have a backslash before them. *)
Theorem C63_exact : forall line, has_char line_break line = false ->
  (exists e, parse_line "#" line = Raise e /\ ~ (exists m, e = DotEnvSyntaxError m)) <->
  exists c k sep v q u, strip line = String c k ++ String sep v /\ c <> "#"%char /\ has_separator (String c k) = false /\ is_separator sep = true
    /\ strip v = String q u /\ is_quote q = true /\ has_char q u = true /\ all_escaped q u.
Proof.
  intros line L. transitivity (outcome (parse_line "#" line) Crashes).
  - split.
    + intros (e & E & N). destruct (line_total (strip line)) as [r H]. apply (C63_line_exact line L) in H. rewrite E in *.
      destruct e, r; cbn in *; try contradiction; try exact I. exfalso. apply N. eauto.
    + intros O. destruct (parse_line "#" line) as [[[k v]|]|e]; cbn in O; [contradiction..|]. exists e. split; [reflexivity|]. intros (m & ->). contradiction.
  - rewrite (C63_line_exact line L). split.
    + intros H. remember (strip line) as s eqn:Es. remember Crashes as r0 eqn:Er. destruct H as [|s|c s N H|c s H|c k sep v r N H Sp V]; try discriminate.
      destruct r; try discriminate. exists c, k, sep, v. remember (strip v) as w eqn:Ew. remember CrashValue as r1 eqn:Er1. destruct V; try discriminate.
      exists q, u. auto 10.
    + intros (c & k & sep & v & q & u & -> & N & H & Sp & E & Q & U1 & U2). change Crashes with (with_key (strip (String c k)) CrashValue).
      apply l_setting; [assumption..|]. rewrite E. apply v_never; assumption.
Qed.
Example ex_C63_exact : strip "PASS='it\'s" = "PASS" ++ String "=" "'it\'s" /\ has_char squote "it\'s" = true /\ all_escaped squote "it\'s".
Proof.
  split; [reflexivity|]. split; [reflexivity|]. intros a b E. exists "it".
  destruct a as [|? a]; [discriminate|]. injection E as <- E. destruct a as [|? a]; [discriminate|]. injection E as <- E.
  destruct a as [|? a]; [discriminate|]. injection E as <- E. destruct a as [|? a]; [reflexivity|]. injection E as _ E.
  destruct a as [|? a]; [discriminate|]. injection E as _ E. destruct a; discriminate.
Qed.

Lemma stake_has_not c n : forall s, has_char c s = false -> has_char c (stake n s) = false.
Proof.
  unfold has_char. induction n as [|n IH]; intros s B; [destruct s; reflexivity|]. destruct s as [|d s]; [reflexivity|].
  cbn [sexists stake] in *. apply orb_false_iff in B as [B1 B2]. rewrite B1. apply IH, B2.
Qed.
(** A quoted value with a comment behind it is read exactly unless it begins with white space: then
    it never is. *)
Theorem C61_comment_exact : forall q w0 key w1 sep w2 v tail c,
  q = squote \/ q = dquote -> sforall is_space w0 = true -> sforall is_space w1 = true -> sforall is_space w2 = true ->
  has_char line_break w2 = false -> good_key key -> separator sep ->
  has_char q v = false -> has_char backslash v = false -> has_char line_break v = false ->
  blank_or_semicolon tail -> has_char line_break tail = false -> has_char line_break c = false ->
  (parse_line "#" (w0 ++ key ++ w1 ++ String sep (w2 ++ String q (v ++ String q (tail ++ String "#" c)))) = Ok (Some (key, v))
   <-> starts (fun c => negb (is_space c)) v = true).
Proof.
  intros q w0 key w1 sep w2 v tail c Q W0 W1 W2 L2 K Sp Qv Bv Lv T Lt Lc. split.
  - intros P. destruct v as [|x v]; [reflexivity|]. cbn [starts]. destruct (is_space x) eqn:X; [exfalso|reflexivity].
    assert (Qs : is_space q = false) by (destruct Q as [->| ->]; reflexivity).
    assert (Qq : is_quote q = true) by (destruct Q as [->| ->]; reflexivity).
    assert (Lq : Ascii.eqb line_break q = false) by (destruct Q as [->| ->]; reflexivity).
    set (rest := w2 ++ String q (String x v ++ String q (tail ++ String "#" c))) in *.
    assert (Lr : has_char line_break rest = false).
    { unfold rest, has_char in *. rewrite sexists_app. cbn [sexists]. rewrite sexists_app. cbn [sexists]. rewrite sexists_app. cbn [sexists].
      cbn [sexists] in Lv. rewrite L2, Lv, Lt, Lc, Lq. reflexivity. }
    destruct (parse_line_cut w0 key w1 sep rest W0 W1 K Sp Lr) as (clean & Ec & C1 & C2 & k0 & k1 & Es & Ek & Ev).
    rewrite parse_line_parts in P. cbv zeta in P. rewrite Ec, C1, C2, Es, Ek, Ev, strip_rstrip in P.
    assert (Er : strip rest = String q (String x v ++ String q (tail ++ String "#" (rstrip_by is_space c)))).
    { unfold rest. rewrite (strip_keep w2 q (String x v) q (tail ++ String "#" c)) by auto. rewrite rstrip_keep by reflexivity. reflexivity. }
    rewrite Er in P. rewrite (quoted_end q (String x v)) in P; [|exact Qq|].
    2:{ split; [discriminate|]. split.
        - intros a b E. rewrite E, has_at in Qv. discriminate.
        - intros (a & E). rewrite E, has_at in Bv. discriminate. }
    rewrite (sindex_char_at "#" tail) in P by apply bos_no_hash, T. rewrite stake_app in P. cbv zeta in P.
    match type of P with (if ?b then _ else _) = _ => destruct b; [discriminate|] end. injection P as P.
    assert (Y : exists y r, cut_text q (String x v) tail = String y r /\ is_space y = false).
    { destruct (cut_text q (String x v) tail) as [|y r] eqn:E.
      - exfalso. assert (H : has_char q (cut_text q (String x v) tail) = true) by (unfold cut_text; rewrite has_strip by exact Qs; apply has_at).
        rewrite E in H. discriminate.
      - exists y, r. split; [reflexivity|]. apply (strip_first y r). rewrite <- E. unfold cut_text. apply strip_idem. }
    destruct Y as (y & r & Y & Z).
    assert (B : has_char backslash (cut_text q (String x v) tail) = false).
    { unfold cut_text. rewrite has_strip by reflexivity. rewrite has_char_app, Bv. cbn [orb]. unfold has_char. cbn [sexists].
      rewrite (Ascii.eqb_sym backslash q), (proj2 (quote_hash q Qq)). fold (has_char backslash tail).
      destruct T as [T|(a & b & -> & A & B)]; [apply space_no; auto|]. rewrite !has_char_app, (space_no backslash a), (space_no backslash b); auto. }
    rewrite Y in P, B. unfold unescaped in P. rewrite replace2_none in P.
    + cbn [String.length stake] in P. injection P as -> _. congruence.
    + apply (stake_has_not backslash (String.length (String x v)) (String y r)), B.
  - intros S. apply quoted_line; try assumption. right. split; [eauto|exact S].
Qed.
Example ex_C61_comment : good_key "PASS" /\ has_char squote " secret" = false /\ blank_or_semicolon " ".
Proof. split; [|split; [reflexivity|left; reflexivity]]. constructor; try reflexivity; [discriminate|]. intros c [->| ->]; reflexivity. Qed.

(** A whole text that is not JSON: reading fails exactly at the first line that is malformed or
    crashes; otherwise a key has the last value that is not empty. *)
Definition bad_line (line : string) : Prop := line_reads (strip line) Malformed \/ line_reads (strip line) Crashes.
Theorem C62_text_exact : forall loads lines, lines <> [] -> (forall x, In x lines -> has_char line_break x = false) ->
  let text := join (String line_break "") lines in
  loads text = None \/ loads text = Some JFalsy ->
  match parse_text loads "#" text with
  | Ok d => (forall line, In line lines -> ~ bad_line line)
      /\ forall k v, dget k d = Some v <->
         exists l1 line l2 s, lines = l1 +++ line :: l2 /\ line_reads (strip line) (Setting k s) /\ k <> "" /\ s <> ""
           /\ v = CStr s /\ forall x s', In x l2 -> line_reads (strip x) (Setting k s') -> s' = ""
  | Raise e => exists l1 line l2, lines = l1 +++ line :: l2 /\ (forall x, In x l1 -> ~ bad_line x)
      /\ (line_reads (strip line) Malformed /\ (exists m, e = DotEnvSyntaxError m) \/ line_reads (strip line) Crashes /\ exists m, e = ValueError m)
  end.
Proof.
  intros loads lines N H text J. unfold text. rewrite (C62_text_lines loads lines N H J).
  assert (S : forall x k s, In x lines -> parse_line "#" x = Ok (Some (k, s)) <-> line_reads (strip x) (Setting k s)).
  { intros x k s X. rewrite <- (C63_line_exact x (H x X)). destruct (parse_line "#" x) as [[[k' s']|]|e]; [| |destruct e]; cbn; split; try discriminate; try contradiction.
    - intros [= -> ->]. auto.
    - intros [-> ->]. reflexivity. }
  assert (G : forall x p, In x lines -> parse_line "#" x = Ok p -> ~ bad_line x).
  { intros x p X E [B|B]; apply (C63_line_exact x (H x X)) in B; rewrite E in B; destruct p as [[? ?]|]; exact B. }
  destruct (parse_lines "#" lines) as [d|e] eqn:E.
  - split.
    + intros line I. assert (P : exists p, parse_line "#" line = Ok p).
      { clear - E I. unfold parse_lines in E. revert E. generalize (@nil (string * cval)). induction lines as [|x l IH]; intros d0 E; [destruct I|].
        cbn [foldM] in E. destruct (put_line "#" d0 x) as [d1|] eqn:P; [|discriminate]. destruct I as [->|I]; [|exact (IH I d1 E)].
        unfold put_line in P. destruct (parse_line "#" line); [eauto|discriminate]. }
      destruct P as [p P]. exact (G line p I P).
    + intros k v. rewrite (C62_last_assignment_partial lines d E k v). split; intros (l1 & x & l2 & s & Z & P & K & V & C & A); exists l1, x, l2, s.
      all: assert (X : In x lines) by (rewrite Z; apply in_app_iff; right; left; reflexivity).
      all: assert (Y : forall y, In y l2 -> In y lines) by (intros y I; rewrite Z; apply in_app_iff; right; right; exact I).
      all: split; [exact Z|]; split; [apply S; assumption|]; repeat (split; [assumption|]).
      all: intros y s' I P'; apply (A y s' I), S; auto.
  - clear N J. unfold parse_lines in E. assert (I : forall x, In x lines -> In x lines) by auto. revert E I.
    generalize (@nil (string * cval)). generalize lines at 1 2 4. intros l. induction l as [|x l IH]; intros d0 E I; [discriminate|].
    cbn [foldM] in E. unfold put_line at 1 in E. destruct (parse_line "#" x) as [p|e0] eqn:P.
    + cbn [bind] in E. apply IH in E as (l1 & y & l2 & -> & B & R); [|intros; apply I; right; assumption]. exists (x :: l1), y, l2. split; [reflexivity|]. split; [|exact R].
      intros z [<-|Z]; [apply (G x p (I x (or_introl eq_refl)) P)|auto].
    + injection E as ->. exists [], x, l. split; [reflexivity|]. split; [intros ? []|]. destruct (line_total (strip x)) as [r R].
      pose proof R as O. apply (C63_line_exact x (H x (I x (or_introl eq_refl)))) in O. rewrite P in O. destruct e, r; cbn in O; try contradiction; eauto.
Qed.
Example ex_C62_text : forall x, In x ["A=1"; ""; "A : '2' # two"; "A="] -> has_char line_break x = false.
Proof. intros x [<-|[<-|[<-|[<-|[]]]]]; reflexivity. Qed.

(** ** C65 *)

Lemma join_last l f : exists a, join "/" (l +++ [f]) = a ++ f.
Proof.
  induction l as [|d l (a & E)]; [exists ""; reflexivity|]. exists (d ++ "/" ++ a). change ((d :: l) +++ [f]) with (d :: (l +++ [f])).
  rewrite join_cons by (destruct l; discriminate). rewrite E, !sapp_assoc. reflexivity.
Qed.
Lemma join_first d l : dir_name d -> exists c r, join "/" (d :: l) = String c r /\ Ascii.eqb slash c = false.
Proof.
  intros [D1 D2]. destruct d as [|c d]; [contradiction|]. unfold has_char in D2. cbn [sexists] in D2. apply orb_false_iff in D2 as [D2 _].
  destruct l as [|e l]; [exists c, d|exists c, (d ++ "/" ++ join "/" (e :: l))]; split; try assumption; reflexivity.
Qed.
Lemma strip_slashes w l : l <> [] -> Forall dir_name l -> sforall (Ascii.eqb slash) w = true -> strip_char slash (w ++ join "/" l) = join "/" l.
Proof.
  intros N D W. destruct l as [|f l _] using rev_ind; [contradiction|]. pose proof D as D0. apply Forall_app in D0 as [_ F]. apply Forall_cons_iff in F as [[F1 F2] _].
  destruct (join_last l f) as [a E]. unfold strip_char, strip_by. rewrite E, <- sapp_assoc, rstrip_app; rewrite (rstrip_none _ f F2); [|exact F1].
  rewrite sapp_assoc, lstrip_pad by exact W. rewrite <- E.
  assert (X : exists c r, join "/" (l +++ [f]) = String c r /\ Ascii.eqb slash c = false).
  { destruct l as [|d l]; [apply (join_first f []); split; assumption|]. apply Forall_cons_iff in D as [D _]. exact (join_first d (l +++ [f]) D). }
  destruct X as (c & r & -> & C). cbn [lstrip_by]. rewrite C. reflexivity.
Qed.
Lemma join_both a b : a <> [] -> b <> [] -> join "/" (a +++ b) = join "/" a ++ "/" ++ join "/" b.
Proof.
  intros A B. induction a as [|x a IH]; [contradiction|]. destruct a as [|y a]; [apply (join_cons "/" x b B)|].
  change ((x :: y :: a) +++ b) with (x :: ((y :: a) +++ b)). rewrite (join_cons "/" x ((y :: a) +++ b)), (join_cons "/" x (y :: a)) by discriminate.
  rewrite IH by discriminate. rewrite !sapp_assoc. reflexivity.
Qed.

(** Which file a relative name stands for, in every working directory and with or without
    directories in the name: the directories of the working directory and of the name are tried
    together, from the longest path to the shortest, but never the root itself. *)
Theorem C65_exact : forall file ds es f, Forall dir_name (ds +++ es) -> dir_name f ->
  let all := ds +++ es in
  match resolve_config file ("/" ++ join "/" ds) (join "/" (es +++ [f])) with
  | Ok p => exists k, 1 <= k <= List.length all /\ p = path_in (firstn k all) f /\ file p <> None
              /\ forall j, k < j <= List.length all -> file (path_in (firstn j all) f) = None
  | Raise e => (exists m, e = ValueError m) /\ forall j, 1 <= j <= List.length all -> file (path_in (firstn j all) f) = None
  end.
Proof.
  intros file ds es f D F all.
  assert (X : exists c r, join "/" (es +++ [f]) = String c r /\ Ascii.eqb slash c = false).
  { destruct es as [|d es]; [apply (join_first f []), F|]. apply Forall_app in D as [_ D]. apply Forall_cons_iff in D as [D _]. exact (join_first d (es +++ [f]) D). }
  assert (P : split_char slash (strip_char slash (("/" ++ join "/" ds) ++ "/" ++ join "/" (es +++ [f]))) = all +++ [f]).
  { assert (A : Forall dir_name (all +++ [f])) by (apply Forall_app; split; [exact D|repeat constructor; apply F]).
    assert (N : es +++ [f] <> []) by (destruct es; discriminate). unfold all. rewrite <- app_assoc. unfold all in A. rewrite <- app_assoc in A.
    assert (E : strip_char slash (("/" ++ join "/" ds) ++ "/" ++ join "/" (es +++ [f])) = join "/" (ds +++ es +++ [f])).
    { destruct ds as [|d ds].
      - exact (strip_slashes "//" (es +++ [f]) N A eq_refl).
      - rewrite sapp_assoc, <- join_both by (discriminate || exact N). apply strip_slashes; [discriminate|exact A|reflexivity]. }
    rewrite E. apply split_join; [destruct ds; [exact N|discriminate]|]. intros x I. rewrite Forall_forall in A. apply A, I. }
  destruct X as (c & r & E & C). unfold resolve_config. rewrite E in *. rewrite Ascii.eqb_sym, C, P, removelast_last, last_last.
  pose proof (search_spec file all f (List.length all)) as H. destruct (search file all f (List.length all)); [exact H|]. split; [eauto|exact H].
Qed.
Example ex_C65_exact : resolve_config (only "/srv/app/db.conf") ("/" ++ join "/" ["srv"; "app"]) (join "/" (["conf"] +++ ["db.conf"])) = Ok (path_in (firstn 2 ["srv"; "app"; "conf"]) "db.conf")
  /\ (exists m, resolve_config (only "/db.conf") ("/" ++ join "/" []) (join "/" ([] +++ ["db.conf"])) = Raise (ValueError m))
  /\ Forall dir_name (["srv"; "app"] +++ ["conf"]) /\ dir_name "db.conf".
Proof. split; [reflexivity|]. split; [eexists; reflexivity|]. split; [repeat constructor; discriminate|]. split; [discriminate|reflexivity]. Qed.

Print Assumptions C63_line_exact.
Print Assumptions C63_exact.
Print Assumptions C61_comment_exact.
Print Assumptions C62_text_exact.
Print Assumptions C65_exact.
