(** The tests of /repo/mygrations under helpers
    on the model (see Suite.v): each [Example] is one test method, statement by statement.
    Checks on literals, NOT PROOFS OF PROPERTIES. *)
From Verif Require Import Suite.

(** helpers/dotenv_test.py line 52 *)
Example dotenv_test_test_dont_interrupt_syntax_error :
  let v_self_dotenv := (p_new "dotenv" [] (PDict [])) in
  let k1 := p_raised "DotEnvSyntaxError" ((p_dotenv "parse" [(PStr "name")])) in
  failing [k1] = [].
Proof. vm_compute. reflexivity. Qed.

(** helpers/dotenv_test.py line 57 *)
Example dotenv_test_test_parse_each_line :
  let v_self_dotenv := (p_new "dotenv" [] (PDict [])) in
  let v_parsed := (p_dotenv "parse" [(PStr "key = value
name = bob #sup")]) in
  let k1 := p_eq (p_dict [((PStr "key"), (PStr "value")); ((PStr "name"), (PStr "bob"))]) v_parsed in
  failing [k1] = [].
Proof. vm_compute. reflexivity. Qed.

(** helpers/dotenv_test.py line 64 *)
Example dotenv_test_test_parse_skip_empty :
  let v_self_dotenv := (p_new "dotenv" [] (PDict [])) in
  let v_parsed := (p_dotenv "parse" [(PStr "key = value



   name = ""bob"" # sup
 another = ""test\""value""#okay")]) in
  let k1 := p_eq (p_dict [((PStr "key"), (PStr "value")); ((PStr "name"), (PStr "bob")); ((PStr "another"), (PStr "test""value"))]) v_parsed in
  failing [k1] = [].
Proof. vm_compute. reflexivity. Qed.

(** helpers/dotenv_test.py line 71 *)
Example dotenv_test_test_opening_comment :
  let v_self_dotenv := (p_new "dotenv" [] (PDict [])) in
  let k1 := p_eq (PList [(PBool false); (PBool false)]) (p_dotenv "parse_line" [(PStr "# name = test"); (PStr "#")]) in
  failing [k1] = [].
Proof. vm_compute. reflexivity. Qed.

(** helpers/dotenv_test.py line 75 *)
Example dotenv_test_test_opening_comment_with_space :
  let v_self_dotenv := (p_new "dotenv" [] (PDict [])) in
  let k1 := p_eq (PList [(PBool false); (PBool false)]) (p_dotenv "parse_line" [(PStr " # name = test"); (PStr "#")]) in
  failing [k1] = [].
Proof. vm_compute. reflexivity. Qed.

(** helpers/dotenv_test.py line 80 *)
Example dotenv_test_test_any_comment_charater :
  let v_self_dotenv := (p_new "dotenv" [] (PDict [])) in
  let k1 := p_eq (PList [(PBool false); (PBool false)]) (p_dotenv "parse_line" [(PStr "; name = test"); (PStr ";")]) in
  failing [k1] = [].
Proof. vm_compute. reflexivity. Qed.

(** helpers/dotenv_test.py line 85 *)
Example dotenv_test_test_multi_character_comment :
  let v_self_dotenv := (p_new "dotenv" [] (PDict [])) in
  let k1 := p_eq (PList [(PBool false); (PBool false)]) (p_dotenv "parse_line" [(PStr "weirdcomment name = test"); (PStr "weirdcomment")]) in
  failing [k1] = [].
Proof. vm_compute. reflexivity. Qed.

(** helpers/dotenv_test.py line 90 *)
Example dotenv_test_test_ignore_empty_lines :
  let v_self_dotenv := (p_new "dotenv" [] (PDict [])) in
  let k1 := p_eq (PList [(PBool false); (PBool false)]) (p_dotenv "parse_line" [(PStr "  "); (PStr "#")]) in
  failing [k1] = [].
Proof. vm_compute. reflexivity. Qed.

(** helpers/dotenv_test.py line 95 *)
Example dotenv_test_test_invalid_format :
  let v_self_dotenv := (p_new "dotenv" [] (PDict [])) in
  let k1 := p_raised "DotEnvSyntaxError" ((p_dotenv "parse_line" [(PStr "sup"); (PStr "#")])) in
  failing [k1] = [].
Proof. vm_compute. reflexivity. Qed.

(** helpers/dotenv_test.py line 101 *)
Example dotenv_test_test_empty_value_equal :
  let v_self_dotenv := (p_new "dotenv" [] (PDict [])) in
  let k1 := p_eq (PList [(PStr "key"); (PStr "")]) (p_dotenv "parse_line" [(PStr "key="); (PStr "#")]) in
  failing [k1] = [].
Proof. vm_compute. reflexivity. Qed.

(** helpers/dotenv_test.py line 106 *)
Example dotenv_test_test_empty_value_colon :
  let v_self_dotenv := (p_new "dotenv" [] (PDict [])) in
  let k1 := p_eq (PList [(PStr "key"); (PStr "")]) (p_dotenv "parse_line" [(PStr "key:"); (PStr "#")]) in
  failing [k1] = [].
Proof. vm_compute. reflexivity. Qed.

(** helpers/dotenv_test.py line 111 *)
Example dotenv_test_test_empty_value_equal_spaces :
  let v_self_dotenv := (p_new "dotenv" [] (PDict [])) in
  let k1 := p_eq (PList [(PStr "key"); (PStr "")]) (p_dotenv "parse_line" [(PStr " key 	=	  "); (PStr "#")]) in
  failing [k1] = [].
Proof. vm_compute. reflexivity. Qed.

(** helpers/dotenv_test.py line 116 *)
Example dotenv_test_test_empty_value_equal_colon :
  let v_self_dotenv := (p_new "dotenv" [] (PDict [])) in
  let k1 := p_eq (PList [(PStr "key"); (PStr "")]) (p_dotenv "parse_line" [(PStr " key 	:	  "); (PStr "#")]) in
  failing [k1] = [].
Proof. vm_compute. reflexivity. Qed.

(** helpers/dotenv_test.py line 121 *)
Example dotenv_test_test_value_no_quotes_equal :
  let v_self_dotenv := (p_new "dotenv" [] (PDict [])) in
  let k1 := p_eq (PList [(PStr "key"); (PStr "asdf")]) (p_dotenv "parse_line" [(PStr "key=asdf"); (PStr "#")]) in
  failing [k1] = [].
Proof. vm_compute. reflexivity. Qed.

(** helpers/dotenv_test.py line 126 *)
Example dotenv_test_test_value_no_quotes_colon :
  let v_self_dotenv := (p_new "dotenv" [] (PDict [])) in
  let k1 := p_eq (PList [(PStr "key"); (PStr "asdf")]) (p_dotenv "parse_line" [(PStr "key:asdf"); (PStr "#")]) in
  failing [k1] = [].
Proof. vm_compute. reflexivity. Qed.

(** helpers/dotenv_test.py line 131 *)
Example dotenv_test_test_value_no_quotes_equal_spaces :
  let v_self_dotenv := (p_new "dotenv" [] (PDict [])) in
  let k1 := p_eq (PList [(PStr "key"); (PStr "asdf bob")]) (p_dotenv "parse_line" [(PStr "key= asdf bob  	"); (PStr "#")]) in
  failing [k1] = [].
Proof. vm_compute. reflexivity. Qed.

(** helpers/dotenv_test.py line 146 *)
Example dotenv_test_test_value_no_quotes_equal_colon :
  let v_self_dotenv := (p_new "dotenv" [] (PDict [])) in
  let k1 := p_eq (PList [(PStr "key"); (PStr "asdf bob")]) (p_dotenv "parse_line" [(PStr "key : asdf bob  	; a comment"); (PStr ";")]) in
  failing [k1] = [].
Proof. vm_compute. reflexivity. Qed.

(** helpers/dotenv_test.py line 141 *)
Example dotenv_test_test_value_no_quotes_equal_comment :
  let v_self_dotenv := (p_new "dotenv" [] (PDict [])) in
  let k1 := p_eq (PList [(PStr "key"); (PStr "asdf bob")]) (p_dotenv "parse_line" [(PStr "key = asdf bob  	# a comment"); (PStr "#")]) in
  failing [k1] = [].
Proof. vm_compute. reflexivity. Qed.

(** helpers/dotenv_test.py line 151 *)
Example dotenv_test_test_no_lone_quotes_double :
  let v_self_dotenv := (p_new "dotenv" [] (PDict [])) in
  let k1 := p_raised "DotEnvSyntaxError" ((p_dotenv "parse_line" [(PStr "name = valu""e"); (PStr "#")])) in
  failing [k1] = [].
Proof. vm_compute. reflexivity. Qed.

(** helpers/dotenv_test.py line 156 *)
Example dotenv_test_test_no_lone_quotes_single :
  let v_self_dotenv := (p_new "dotenv" [] (PDict [])) in
  let k1 := p_raised "DotEnvSyntaxError" ((p_dotenv "parse_line" [(PStr "name = valu'e"); (PStr "#")])) in
  failing [k1] = [].
Proof. vm_compute. reflexivity. Qed.

(** helpers/dotenv_test.py line 161 *)
Example dotenv_test_test_empty_single :
  let v_self_dotenv := (p_new "dotenv" [] (PDict [])) in
  let k1 := p_eq (PList [(PStr "db"); (PStr "")]) (p_dotenv "parse_line" [(PStr "db = ''"); (PStr "#")]) in
  failing [k1] = [].
Proof. vm_compute. reflexivity. Qed.

(** helpers/dotenv_test.py line 166 *)
Example dotenv_test_test_empty_double :
  let v_self_dotenv := (p_new "dotenv" [] (PDict [])) in
  let k1 := p_eq (PList [(PStr "db"); (PStr "")]) (p_dotenv "parse_line" [(PStr "db = """""); (PStr "#")]) in
  failing [k1] = [].
Proof. vm_compute. reflexivity. Qed.

(** helpers/dotenv_test.py line 171 *)
Example dotenv_test_test_empty_single_comment :
  let v_self_dotenv := (p_new "dotenv" [] (PDict [])) in
  let k1 := p_eq (PList [(PStr "db"); (PStr "")]) (p_dotenv "parse_line" [(PStr "db = '' # database name"); (PStr "#")]) in
  failing [k1] = [].
Proof. vm_compute. reflexivity. Qed.

(** helpers/dotenv_test.py line 176 *)
Example dotenv_test_test_empty_double_comment :
  let v_self_dotenv := (p_new "dotenv" [] (PDict [])) in
  let k1 := p_eq (PList [(PStr "db"); (PStr "")]) (p_dotenv "parse_line" [(PStr "db = """" ; database name"); (PStr ";")]) in
  failing [k1] = [].
Proof. vm_compute. reflexivity. Qed.

(** helpers/dotenv_test.py line 181 *)
Example dotenv_test_test_single_quotes :
  let v_self_dotenv := (p_new "dotenv" [] (PDict [])) in
  let k1 := p_eq (PList [(PStr "db"); (PStr "dijere")]) (p_dotenv "parse_line" [(PStr "db = 'dijere' "); (PStr "#")]) in
  failing [k1] = [].
Proof. vm_compute. reflexivity. Qed.

(** helpers/dotenv_test.py line 187 *)
Example dotenv_test_test_double_quotes :
  let v_self_dotenv := (p_new "dotenv" [] (PDict [])) in
  let k1 := p_eq (PList [(PStr "db"); (PStr "dijere")]) (p_dotenv "parse_line" [(PStr "db = ""dijere"" "); (PStr "#")]) in
  failing [k1] = [].
Proof. vm_compute. reflexivity. Qed.

(** helpers/dotenv_test.py line 193 *)
Example dotenv_test_test_no_closing_quote_single :
  let v_self_dotenv := (p_new "dotenv" [] (PDict [])) in
  let k1 := p_raised "DotEnvSyntaxError" ((p_dotenv "parse_line" [(PStr "name = 'test"); (PStr "#")])) in
  failing [k1] = [].
Proof. vm_compute. reflexivity. Qed.

(** helpers/dotenv_test.py line 198 *)
Example dotenv_test_test_no_closing_quote_double :
  let v_self_dotenv := (p_new "dotenv" [] (PDict [])) in
  let k1 := p_raised "DotEnvSyntaxError" ((p_dotenv "parse_line" [(PStr "name = ""test"); (PStr "#")])) in
  failing [k1] = [].
Proof. vm_compute. reflexivity. Qed.

(** helpers/dotenv_test.py line 203 *)
Example dotenv_test_test_double_quotes_with_comment :
  let v_self_dotenv := (p_new "dotenv" [] (PDict [])) in
  let k1 := p_eq (PList [(PStr "db"); (PStr "bob")]) (p_dotenv "parse_line" [(PStr "db = ""bob"" ; database name"); (PStr ";")]) in
  failing [k1] = [].
Proof. vm_compute. reflexivity. Qed.

(** helpers/dotenv_test.py line 208 *)
Example dotenv_test_test_single_quotes_with_comment :
  let v_self_dotenv := (p_new "dotenv" [] (PDict [])) in
  let k1 := p_eq (PList [(PStr "db"); (PStr "bob")]) (p_dotenv "parse_line" [(PStr "db = 'bob' 	# database name"); (PStr "#")]) in
  failing [k1] = [].
Proof. vm_compute. reflexivity. Qed.

(** helpers/dotenv_test.py line 213 *)
Example dotenv_test_test_text_outside_of_double :
  let v_self_dotenv := (p_new "dotenv" [] (PDict [])) in
  let k1 := p_raised "DotEnvSyntaxError" ((p_dotenv "parse_line" [(PStr "name = ""test"" sup # hey"); (PStr "#")])) in
  failing [k1] = [].
Proof. vm_compute. reflexivity. Qed.

(** helpers/dotenv_test.py line 218 *)
Example dotenv_test_test_text_outside_of_single :
  let v_self_dotenv := (p_new "dotenv" [] (PDict [])) in
  let k1 := p_raised "DotEnvSyntaxError" ((p_dotenv "parse_line" [(PStr "name = 'test' sup ; hey"); (PStr ";")])) in
  failing [k1] = [].
Proof. vm_compute. reflexivity. Qed.

(** helpers/dotenv_test.py line 223 *)
Example dotenv_test_test_allow_ending_semicolon :
  let v_self_dotenv := (p_new "dotenv" [] (PDict [])) in
  let k1 := p_eq (PList [(PStr "name"); (PStr "test")]) (p_dotenv "parse_line" [(PStr "name = 'test';"); (PStr "#")]) in
  failing [k1] = [].
Proof. vm_compute. reflexivity. Qed.

(** helpers/dotenv_test.py line 229 *)
Example dotenv_test_test_escaped_single_quote :
  let v_self_dotenv := (p_new "dotenv" [] (PDict [])) in
  let k1 := p_eq (PList [(PStr "db"); (PStr "asdf'qwerty'")]) (p_dotenv "parse_line" [(PStr "db = 'asdf\'qwerty\''"); (PStr "#")]) in
  failing [k1] = [].
Proof. vm_compute. reflexivity. Qed.

(** helpers/dotenv_test.py line 234 *)
Example dotenv_test_test_escaped_double_quote :
  let v_self_dotenv := (p_new "dotenv" [] (PDict [])) in
  let k1 := p_eq (PList [(PStr "db"); (PStr "asdf""qwerty""")]) (p_dotenv "parse_line" [(PStr "db = ""asdf\""qwerty\"""""); (PStr "#")]) in
  failing [k1] = [].
Proof. vm_compute. reflexivity. Qed.

(** helpers/dotenv_test.py line 239 *)
Example dotenv_test_test_preserve_other_slashes :
  let v_self_dotenv := (p_new "dotenv" [] (PDict [])) in
  let k1 := p_eq (PList [(PStr "db"); (PStr "asdf\bob")]) (p_dotenv "parse_line" [(PStr "db = ""asdf\bob"""); (PStr "#")]) in
  failing [k1] = [].
Proof. vm_compute. reflexivity. Qed.

(** helpers/dotenv_test.py line 244 *)
Example dotenv_test_test_double_quote_in_single_quote :
  let v_self_dotenv := (p_new "dotenv" [] (PDict [])) in
  let k1 := p_eq (PList [(PStr "db"); (PStr "asdf""bob")]) (p_dotenv "parse_line" [(PStr "db = 'asdf""bob'"); (PStr "#")]) in
  failing [k1] = [].
Proof. vm_compute. reflexivity. Qed.

(** helpers/dotenv_test.py line 249 *)
Example dotenv_test_test_single_quote_in_double_quote :
  let v_self_dotenv := (p_new "dotenv" [] (PDict [])) in
  let k1 := p_eq (PList [(PStr "db"); (PStr "asdf'bob")]) (p_dotenv "parse_line" [(PStr "db = ""asdf'bob"""); (PStr "#")]) in
  failing [k1] = [].
Proof. vm_compute. reflexivity. Qed.
