(** The tests of /repo/mygrations/core/parse/rule_*_test.py on the model, one [Example] for each test
    method that parses.  The others test the constructors' checks of their arguments, and a regular
    expression that no parser uses; these are not modelled.
    Checks on literals, NOT PROOFS OF PROPERTIES. *)
From Verif Require Import Suite.

(** [rule.parse(s)], [rule.result] and [rule.leftovers] ([None] stands for a rule that does not match:
    the result is [''] and all is left) *)
Definition run (r : rule string) (next : list (rule string)) (s : string) := run_rule r next s.

(** rule_literal_test.py lines 29, 34, 42, 50 *)
Example literal_match_beginning_only : run (RLit "bob" "," false) [] "hey," = Ok None.
Proof. reflexivity. Qed.
Example literal_no_leftovers_for_full_match :
  run (RLit "bob" "23483438" false) [] "23483438" = Ok (Some (VText "23483438", "")).
Proof. reflexivity. Qed.
Example literal_calc_leftovers_trim : run (RLit "bob" "," false) [] ", bob" = Ok (Some (VText ",", "bob")).
Proof. reflexivity. Qed.

(** rule_regexp_test.py lines 27, 33, 41, 60 *)
Definition digits : rule string := RRe "bob" (ReClass is_digit None) false.
Example regexp_match_beginning_only : run digits [] "hey 123" = Ok None.
Proof. reflexivity. Qed.
Example regexp_no_leftovers_for_full_match : run digits [] "23483438" = Ok (Some (VText "23483438", "")).
Proof. reflexivity. Qed.
Example regexp_calc_leftovers_trim : run digits [] "999 bob" = Ok (Some (VText "999", "bob")).
Proof. reflexivity. Qed.

(** rule_delimited_test.py lines 51-88.  No quote: a character that does not occur. *)
Example delimited_parse_without_quote :
  run (RDel "bob" "," "~" false) [lit ")"] "1,2,3,4)" = Ok (Some (VList ["1"; "2"; "3"; "4"], ")")).
Proof. reflexivity. Qed.
Example delimited_parse_optional_quotes :
  run (RDel "bob" "," "`" false) [lit ")"] "asdf,`bob`,huh,`okay`) sup"
  = Ok (Some (VList ["asdf"; "bob"; "huh"; "okay"], ") sup")).
Proof. reflexivity. Qed.
Example delimited_syntax_error_missing_quote :
  exists m, run (RDel "bob" "," "`" false) [lit ")"] "asdf,`bob)" = Raise (SyntaxError m).
Proof. eexists. reflexivity. Qed.
Example delimited_separator_in_quotes :
  run (RDel "bob" "," "`" false) [lit ")"] "asdf,`bob,`,huh,`okay`) sup"
  = Ok (Some (VList ["asdf"; "bob,"; "huh"; "okay"], ") sup")).
Proof. reflexivity. Qed.
Example delimited_alternate_characters :
  run (RDel "bob" "X" "<" false) [lit "asdf"] "<hey<X<sup<asdf" = Ok (Some (VList ["hey"; "sup"], "asdf")).
Proof. reflexivity. Qed.

(** rule_children_test.py lines 4-12: the three parsers, each giving its name *)
Definition named (n : string) (rules : list (rule string)) : pclass string :=
  parse_with rules (fun _ => Ok n).
Definition test_rule := named "TestRule" [lit "bob"; lit "greg"].
Definition test_rule_two := named "TestRuleTwo" [RRe "test_regexp" (ReClass is_digit None) false; lit "sup"].
Definition test_rule_overlap :=
  named "TestRuleOverlap" [RRe "test_overlap" (ReClass (fun c => negb (is_space c)) None) false].

(** lines 32-70 *)
Example children_match_start_only :
  run (RKids "test" [test_rule; test_rule_two] false) [] "okay bob greg" = Ok None.
Proof. vm_compute. reflexivity. Qed.
Example children_match_any_order :
  run (RKids "test" [test_rule; test_rule_two] false) [] "999 sup bob greg bob greg 1234568 sup hey"
  = Ok (Some (VKids ["TestRuleTwo"; "TestRule"; "TestRule"; "TestRuleTwo"], "hey")).
Proof. vm_compute. reflexivity. Qed.
Example children_matches_most_wins :
  run (RKids "test" [test_rule_overlap; test_rule] false) [] "bob greg" = Ok (Some (VKids ["TestRule"], "")).
Proof. vm_compute. reflexivity. Qed.
Example children_missing_required_cant_match :
  run (RKids "test" [test_rule_overlap; test_rule] false) [] "bob" = Ok (Some (VKids ["TestRuleOverlap"], "")).
Proof. vm_compute. reflexivity. Qed.
