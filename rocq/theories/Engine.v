(** The rule based parser: core/parse/*.py. *)
From Verif Require Export Database.

(** ** Regular expressions *)

(** The forms used by the parsers, all matched at the start of the string with [re.IGNORECASE]
    (rule_regexp.py line 41).
    - [ReClass p m]: one or more characters satisfying [p], at most [m] if given;
    - [ReAfter lit p]: [lit] then a group of one or more characters satisfying [p];
    - [ReWithin lit p e]: the same, then the character [e], which does not satisfy [p];
    - [ReAlt a b]: ["(a)|(b)"] for two words.
    Greedy matching needs no backtracking in these forms: each repetition is followed by nothing or by
    a character outside its class. *)
Inductive regexp : Type :=
| ReClass (p : ascii -> bool) (most : option nat)
| ReAfter (lit : string) (p : ascii -> bool)
| ReWithin (lit : string) (p : ascii -> bool) (e : ascii)
| ReAlt (a b : string).

(** [s[:len(lit)].lower() == lit.lower()] (rule_literal.py lines 47-48), and the rest. *)
Fixpoint match_lit (lit s : string) : option string :=
  match lit, s with
  | EmptyString, _ => Some s
  | String a l', String b s' => if Ascii.eqb (to_lower a) (to_lower b) then match_lit l' s' else None
  | String _ _, EmptyString => None
  end.

(** [span] with an upper bound on the number of characters. *)
Fixpoint span_upto (n : nat) (p : ascii -> bool) (s : string) : string * string :=
  match n, s with
  | S n', String c s' =>
      if p c then let '(a, b) := span_upto n' p s' in (String c a, b) else ("", s)
  | _, _ => ("", s)
  end.

(** The value a rule stores in [_values].  [VNone] is [group(1)] of an alternative not taken. *)
Inductive pval (C : Type) : Type :=
| VNone | VText (s : string) | VList (l : list string) | VKids (l : list C).
Arguments VNone {C}. Arguments VText {C} s. Arguments VList {C} l. Arguments VKids {C} l.

(** [re.match(regexp, string, re.IGNORECASE)]: the value of rule_regexp.py lines 50-55 and the
    rest of the string, not yet stripped. *)
Definition re_match {C} (r : regexp) (s : string) : option (pval C * string) :=
  match r with
  | ReClass p m =>
      let '(a, b) := match m with None => span p s | Some n => span_upto n p s end in
      if is_empty a then None else Some (VText a, b)
  | ReAfter lit p =>
      match match_lit lit s with
      | None => None
      | Some s' => let '(a, b) := span p s' in if is_empty a then None else Some (VText a, b)
      end
  | ReWithin lit p e =>
      match match_lit lit s with
      | None => None
      | Some s' =>
          let '(a, b) := span p s' in
          if is_empty a then None
          else match b with
               | String c b' => if Ascii.eqb c e then Some (VText a, b') else None
               | EmptyString => None
               end
      end
  | ReAlt x y =>
      match match_lit x s with
      | Some s' => Some (VText (stake (String.length x) s), s')
      | None => match match_lit y s with
                | Some s' => Some (VNone, s')
                | None => None
                end
      end
  end.

(** ** Delimited lists *)

(** The loop of rule_delimited.py lines 75-140.  [e] is the lower-cased literal of the next rule;
    [last] is the string from the last index reached on.  The result is [in_quote], the values and
    [string[index:]] at the end of the loop. *)
Fixpoint delim (q sep : ascii) (e : string) (has in_q : bool) (cur : string) (vals : list string)
  (last s : string) : bool * list string * string :=
  match s with
  | EmptyString => (in_q, vals, last)
  | String c s' =>
      if Ascii.eqb c q then
        if in_q then delim q sep e false false cur (vals +++ [cur]) s s'
        else delim q sep e true true "" vals s s'
      else if in_q then delim q sep e has true (cur ++ String c "") vals s s'
      else if match match_lit e s with Some _ => true | None => false end then
             (false, if has then vals +++ [cur] else vals, s)
      else if Ascii.eqb c sep || Ascii.eqb c " " then
             delim q sep e false false "" (if has then vals +++ [cur] else vals) s s'
      else delim q sep e true false (cur ++ String c "") vals s s'
  end.

(** rule_delimited.py lines 142-157 *)
Definition delimited (q sep : ascii) (e s : string) : res (option (list string * string)) :=
  let '(in_q, vals, rest) := delim q sep e false false "" [] "" s in
  if in_q then Raise (SyntaxError ("Opening quote without closing quote at " ++ s))
  else match vals with
       | [] => Ok None
       | _ => Ok (Some (vals, rest))
       end.

(** ** Repeated children *)

Section Engine.
  (** [C] is the type of what the child parsers produce. *)
  Context {C : Type}.

  (** What [child().parse(string)] does: the object if it matched, and the string returned. *)
  Definition pclass := string -> res (option C * string).

  (** rule_children.py lines 62-88: the child that leaves the least, the first of equals.
      [if best_match] asks for the number of stored values (parser.py lines 36-38), which is not
      zero for a matched parser because each class starts with a required rule. *)
  Fixpoint best_child (classes : list pclass) (s : string) (best : option (C * string))
    : res (option (C * string)) :=
    match classes with
    | [] => Ok best
    | c :: cs =>
        let* r := c s in
        match r with
        | (None, _) => best_child cs s best
        | (Some m, rest) =>
            best_child cs s
              (match best with
               | Some (_, bl) => if Nat.ltb (String.length rest) (String.length bl)
                                 then Some (m, rest) else best
               | None => Some (m, rest)
               end)
        end
    end.

  (** rule_children.py lines 49-109; [n] is the number of turns left before "Max depth reached". *)
  Fixpoint kids (n : nat) (classes : list pclass) (s : string) (matches : list C)
    : res (option (list C * string)) :=
    if is_empty s then Ok (Some (matches, ""))
    else match n with
         | O => Raise (ValueError "Max depth reached")
         | S n' =>
             let* b := best_child classes s None in
             match b with
             | Some (m, rest) => kids n' classes rest (matches +++ [m])
             | None => Ok (match matches with [] => None | _ => Some (matches, s) end)
             end
         end.

  (** ** Rules *)

  (** A rule and whether it is optional.  An unnamed literal is stored under its own text
      (rule_literal.py lines 40-42). *)
  Inductive rule : Type :=
  | RLit (name lit : string) (opt : bool)
  | RRe (name : string) (r : regexp) (opt : bool)
  | RDel (name : string) (sep q : ascii) (opt : bool)
  | RKids (name : string) (classes : list pclass) (opt : bool).

  Definition rule_opt (r : rule) : bool :=
    match r with RLit _ _ o | RRe _ _ o | RDel _ _ _ o | RKids _ _ o => o end.
  Definition rule_name (r : rule) : string :=
    match r with RLit n _ _ | RRe n _ _ | RDel n _ _ _ | RKids n _ _ => n end.

  (** rule_children.py line 59 *)
  Definition max_turns : nat := N.to_nat 1000.

  (** One rule on the string, given the rules after it: the value and [leftovers].  Literals and
      regular expressions strip what is left (rule_literal.py line 54, rule_regexp.py line 51). *)
  Definition run_rule (r : rule) (next : list rule) (s : string) : res (option (pval C * string)) :=
    match r with
    | RLit _ lit _ =>
        Ok (match match_lit lit s with Some s' => Some (VText lit, strip s') | None => None end)
    | RRe _ re _ =>
        Ok (match re_match re s with Some (v, s') => Some (v, strip s') | None => None end)
    | RDel _ sep q _ =>
        match next with
        | RLit _ e _ :: _ =>
            let* d := delimited q sep (lower e) s in
            Ok (match d with Some (l, s') => Some (VList l, s') | None => None end)
        | _ => Raise (ValueError "Delimited rules must be followed by a literal for rule")
        end
    | RKids _ classes _ =>
        let* d := kids max_turns classes s [] in
        Ok (match d with Some (l, s') => Some (VKids l, s') | None => None end)
    end.

  Definition pvals := dict string (pval C).

  (** parser.py lines 74-107: [None] if the parser did not match, and the string returned. *)
  Fixpoint run_rules (rules : list rule) (s : string) (vals : pvals) : res (option pvals * string) :=
    match rules with
    | [] => Ok (Some vals, s)
    | r :: rs =>
        let* m := run_rule r rs s in
        match m with
        | None => if rule_opt r then run_rules rs s vals else Ok (None, s)
        | Some (v, rest) =>
            let vals' := dset (rule_name r) v vals in
            if is_empty rest then
              Ok (if forallb rule_opt rs then Some vals' else None, rest)
            else run_rules rs rest vals'
        end
    end.

  (** parser.py line 70 *)
  Definition normalize (s : string) : string := strip (collapse_ws s).

  (** parser.py lines 66-114: [process] is given the values. *)
  Definition parse_with {A} (rules : list rule) (process : pvals -> res A) (s : string)
    : res (option A * string) :=
    let* r := run_rules rules (normalize s) [] in
    match r with
    | (None, rest) => Ok (None, rest)
    | (Some vals, rest) => let* a := process vals in Ok (Some a, rest)
    end.

  (** Reading [_values].  A rule's value has the type of the rule, so the other cases are not
      reached. *)
  Definition vtext (n : string) (v : pvals) : string :=
    match dget n v with Some (VText s) => s | _ => "" end.
  Definition vopt (n : string) (v : pvals) : option string :=
    match dget n v with Some (VText s) => Some s | _ => None end.
  Definition vlist (n : string) (v : pvals) : list string :=
    match dget n v with Some (VList l) => l | _ => [] end.
  Definition vkids (n : string) (v : pvals) : list C :=
    match dget n v with Some (VKids l) => l | _ => [] end.
End Engine.
Arguments pclass C : clear implicits.
Arguments rule C : clear implicits.
Arguments pvals C : clear implicits.

(** A literal stored under its own text. *)
Definition lit {C} (s : string) : rule C := RLit s s false.
Definition lit_opt {C} (s : string) : rule C := RLit s s true.
