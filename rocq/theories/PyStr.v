(** The used part of Python's [str].  Strings are Coq strings over 8-bit [ascii].
    SIMPLIFICATION: Python's Unicode tables are followed for code points 0-127 only;
    code points 128-255 are treated as caseless, non-space, non-digit and non-word. *)
From Verif Require Export PyBase.

Definition code (c : ascii) : N := N_of_ascii c.

Definition in_range (lo hi : N) (c : ascii) : bool :=
  (N.leb lo (code c) && N.leb (code c) hi)%bool.

(** [str.isspace] and [\s] (ASCII part): 9-13, 28-32. *)
Definition is_space (c : ascii) : bool := in_range 9 13 c || in_range 28 32 c.
(** [str.isdigit]/[isnumeric] and [\d] (ASCII part). *)
Definition is_digit (c : ascii) : bool := in_range 48 57 c.
Definition is_upper (c : ascii) : bool := in_range 65 90 c.
Definition is_lower (c : ascii) : bool := in_range 97 122 c.
(** [\w] (ASCII part). *)
Definition is_word (c : ascii) : bool :=
  is_upper c || is_lower c || is_digit c || Ascii.eqb c "_"%char.

Definition to_lower (c : ascii) : ascii :=
  if is_upper c then ascii_of_N (code c + 32) else c.
Definition to_upper (c : ascii) : ascii :=
  if is_lower c then ascii_of_N (code c - 32) else c.

Fixpoint smap (f : ascii -> ascii) (s : string) : string :=
  match s with
  | EmptyString => EmptyString
  | String c s' => String (f c) (smap f s')
  end.

(** [s.lower()], [s.upper()]. *)
Definition lower (s : string) : string := smap to_lower s.
Definition upper (s : string) : string := smap to_upper s.

Definition is_empty (s : string) : bool :=
  match s with EmptyString => true | _ => false end.

(** Truth value of a string. *)
Definition truthy (s : string) : bool := negb (is_empty s).

Fixpoint sforall (p : ascii -> bool) (s : string) : bool :=
  match s with
  | EmptyString => true
  | String c s' => p c && sforall p s'
  end.

Fixpoint sexists (p : ascii -> bool) (s : string) : bool :=
  match s with
  | EmptyString => false
  | String c s' => p c || sexists p s'
  end.

(** [c in s] for a one-character string. *)
Definition has_char (c : ascii) (s : string) : bool := sexists (Ascii.eqb c) s.

(** [s.isdigit()], [s.isnumeric()] (ASCII part): non-empty, digits only. *)
Definition isdigit (s : string) : bool := truthy s && sforall is_digit s.

(** [s.strip()] and [s.strip(chars)], through a character test. *)
Fixpoint lstrip_by (p : ascii -> bool) (s : string) : string :=
  match s with
  | EmptyString => EmptyString
  | String c s' => if p c then lstrip_by p s' else s
  end.

Fixpoint rstrip_by (p : ascii -> bool) (s : string) : string :=
  match s with
  | EmptyString => EmptyString
  | String c s' =>
      match rstrip_by p s' with
      | EmptyString => if p c then EmptyString else String c EmptyString
      | r => String c r
      end
  end.

Definition strip_by (p : ascii -> bool) (s : string) : string := lstrip_by p (rstrip_by p s).
Definition strip (s : string) : string := strip_by is_space s.
Definition strip_char (c : ascii) (s : string) : string := strip_by (Ascii.eqb c) s.

(** Slices [s[:n]] and [s[n:]]. *)
Fixpoint stake (n : nat) (s : string) : string :=
  match n, s with
  | S n', String c s' => String c (stake n' s')
  | _, _ => EmptyString
  end.

Fixpoint sdrop (n : nat) (s : string) : string :=
  match n, s with
  | S n', String _ s' => sdrop n' s'
  | _, _ => s
  end.

(** [sep.join(l)]. *)
Fixpoint join (sep : string) (l : list string) : string :=
  match l with
  | [] => ""
  | [x] => x
  | x :: l' => x ++ sep ++ join sep l'
  end.

(** [s.split(c)] for a one-character separator. *)
Fixpoint split_char (c : ascii) (s : string) : list string :=
  match s with
  | EmptyString => [""]
  | String d s' =>
      if Ascii.eqb c d then "" :: split_char c s'
      else match split_char c s' with
           | w :: ws => String d w :: ws
           | [] => [String d ""]
           end
  end.

(** [s.replace(old, new)] for a one-character [old]. *)
Fixpoint replace1 (old : ascii) (new : string) (s : string) : string :=
  match s with
  | EmptyString => EmptyString
  | String c s' =>
      if Ascii.eqb c old then new ++ replace1 old new s' else String c (replace1 old new s')
  end.

(** [s.replace(old, new)] for a two-character [old], left to right, not overlapping. *)
Fixpoint replace2 (o1 o2 : ascii) (new : string) (s : string) : string :=
  match s with
  | EmptyString => EmptyString
  | String c s' =>
      match s' with
      | String d s'' =>
          if Ascii.eqb c o1 && Ascii.eqb d o2 then new ++ replace2 o1 o2 new s''
          else String c (replace2 o1 o2 new s')
      | EmptyString => s
      end
  end.

(** [s.index(sub)] as an option: [None] where Python raises ValueError. *)
Fixpoint sindex (sub s : string) : option nat :=
  if String.prefix sub s then Some 0
  else match s with
       | EmptyString => None
       | String _ s' => option_map S (sindex sub s')
       end.

(** [sub in s] and the truth value of [s.count(sub)] for non-empty [sub]. *)
Definition scontains (sub s : string) : bool := negb (opt_is_none (sindex sub s)).

(** The longest prefix of characters satisfying [p], and the rest. *)
Fixpoint span (p : ascii -> bool) (s : string) : string * string :=
  match s with
  | EmptyString => ("", "")
  | String c s' =>
      if p c then let '(a, b) := span p s' in (String c a, b) else ("", s)
  end.

(** [re.sub('\s+', ' ', s)] (parser.py line 70). *)
Fixpoint collapse_ws_from (in_ws : bool) (s : string) : string :=
  match s with
  | EmptyString => EmptyString
  | String c s' =>
      if is_space c then
        if in_ws then collapse_ws_from true s'
        else String " " (collapse_ws_from true s')
      else String c (collapse_ws_from false s')
  end.
Definition collapse_ws (s : string) : string := collapse_ws_from false s.

(** ** Numbers *)

(** [str(n)] for an [int]. *)
Definition digit_char (n : N) : ascii := ascii_of_N (48 + n).
Fixpoint digits_of_pos_fuel (fuel : nat) (n : N) (acc : string) : string :=
  match fuel with
  | O => acc
  | S f =>
      let acc' := String (digit_char (N.modulo n 10)) acc in
      if N.ltb n 10 then acc' else digits_of_pos_fuel f (N.div n 10) acc'
  end.
Definition str_of_N (n : N) : string := digits_of_pos_fuel (S (N.to_nat (N.size n))) n "".
Definition str_of_Z (z : Z) : string :=
  match z with
  | Zneg p => String "-" (str_of_N (Npos p))
  | Z0 => "0"
  | Zpos p => str_of_N (Npos p)
  end.

(** [int(s)] for a string (ASCII part): white space around, an optional sign, digits with
    single underscores between them. [None] where Python raises ValueError. *)
Fixpoint int_digits (s : string) (acc : Z) (prev_digit : bool) : option Z :=
  match s with
  | EmptyString => if prev_digit then Some acc else None
  | String c s' =>
      if is_digit c then int_digits s' (acc * 10 + (Z.of_N (code c) - 48))%Z true
      else if Ascii.eqb c "_"%char && prev_digit then int_digits s' acc false
      else None
  end.
Definition py_int (s : string) : option Z :=
  match strip s with
  | String "-" s' => option_map Z.opp (int_digits s' 0%Z false)
  | String "+" s' => int_digits s' 0%Z false
  | s' => int_digits s' 0%Z false
  end.

(** ** [repr] of a string and of a list of strings (ASCII part), used where the code formats
    a list with [%s] (column.py line 216 with the list that type_enum.py line 31 stores). *)
Definition hex_digit (n : N) : ascii :=
  if N.ltb n 10 then ascii_of_N (48 + n) else ascii_of_N (87 + n).
Fixpoint repr_body (q : ascii) (s : string) : string :=
  match s with
  | EmptyString => EmptyString
  | String c s' =>
      let rest := repr_body q s' in
      if Ascii.eqb c q || Ascii.eqb c "\"%char then String "\" (String c rest)
      else if N.eqb (code c) 10 then String "\" (String "n" rest)
      else if N.eqb (code c) 13 then String "\" (String "r" rest)
      else if N.eqb (code c) 9 then String "\" (String "t" rest)
      else if N.ltb (code c) 32 || N.eqb (code c) 127 then
        String "\" (String "x" (String (hex_digit (N.div (code c) 16))
                                  (String (hex_digit (N.modulo (code c) 16)) rest)))
      else String c rest
  end.
Definition squote : ascii := "'"%char.
Definition dquote : ascii := """"%char.
Definition bquote : ascii := "`"%char.
Definition backslash : ascii := "\"%char.
Definition py_repr (s : string) : string :=
  let q := if has_char squote s && negb (has_char dquote s) then dquote else squote in
  String q (repr_body q s ++ String q "").
Definition repr_list (l : list string) : string :=
  "[" ++ join ", " (map py_repr l) ++ "]".
