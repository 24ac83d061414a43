# Formal model of mygrations: design

Source under study: `/repo` (cmancone/mygrations, Python).  Model and proofs: `/verif/rocq/theories` (Coq 8.16.1).
The code cannot be run here; the model was written by reading it.  Every definition cites file and lines.

## 1. Trusted base

* Coq's kernel (`coqc`, re-checked with `coqchk`).
* The axioms printed by `Print Assumptions` under each theorem (target: "Closed under the global context" everywhere;
  section 6 lists what is actually printed).
* The reading of the Python code.  Two things tie the model to the code: the cited lines, and the files `Suite*.v`, in
  which the repository's own unit and integration tests are transcribed statement by statement and evaluated on the
  model (249 tests; 12 more are left out: constructor checks of the rule classes, float defaults, index types no caller
  gives, a test without assertion, JSON and file handles).  These are tests, not proofs; no theorem depends on them.
* The specification files `Spec*.v`: the meaning of DDL statements for a server (only the structural part described
  below), MySQL's string literal rules, and the small declarative predicates used in statements.
* Oracles (type class / section arguments, universally quantified in every theorem): Python's `float()` parsing,
  equality and `round`, `os.path.isfile`, `json.loads`, the success or failure of each statement sent to MySQL.

## 2. What is modelled

| Model file | Code |
| --- | --- |
| `Py*.v` | the used part of Python: `str` methods, `int()`, ordered dicts, exceptions as values |
| `Column.v` | `core/definitions/columns/*.py` (attributes, `__str__`, errors, `is_really_the_same_as`) |
| `Index.v` | `core/definitions/{index,constraint,option}.py` |
| `Table.v` | `core/definitions/table.py`: mutators, caches, rows, errors |
| `Database.v` | `core/definitions/database.py`: FK validation, errors, caches, mutators |
| `Ops.v` | `formats/mysql/mygrations/operations/*.py` (data and rendered SQL text) |
| `Diff.v` | `formats/mysql/definitions/table.py` (`to`, `to_rows`) |
| `Mygration.v` | `formats/mysql/mygrations/{mygration,row_mygration}.py` |
| `Engine.v`, `Parsers.v`, `Reader.v` | `core/parse/*.py`, `formats/mysql/file_reader/**`, `formats/mysql/db_reader/database.py` |
| `Commands.v` | `core/commands/{plan,apply,check}.py`, `drivers/pymysql/pymysql.py:execute` |
| `Suite.v`, `Suite*.v` | the tests `**/*_test.py` (except `core/operations`) replayed on the model |
| `Dotenv.v` | `helpers/{dotenv,db_credentials}.py`, `core/commands/base.py` |
| `Cli.v` | `mygrate.py`, `core/commands/{base,plan,apply,check}.py` as whole runs, `file_reader/database.py:_process`, `drivers/pymysql/pymysql.py`; from `plan_export.py`, `version.py` and `import` only that they fail to import |

Specification files, written without the model's helpers: `SpecServer.v` (effect of DDL), `SpecRows.v` (effect of row
operations), `SpecSql.v` (how MySQL reads literals and quoted names), `SpecLive.v` (results of SELECT, when the plan
command reads rows), `SpecRead.v` (which definitions are plain enough to be read back, and what "the same table" means),
`SpecWrite.v` (definitions and whole CREATE TABLE statements as people and servers write them, and what they mean),
`SpecStored.v` (what a server reports about tables it stores, and the text of SHOW CREATE TABLE), `SpecMany.v`
(sources with several statements and the rows they give), `SpecEnum.v` (ENUM and SET columns), and the small definitions above the theorems in `Props*.v`.  `*Facts.v`, `ReadMore.v`, `PlanExec.v`
`Round*.v` and the like hold lemmas only.

### Simplifications (each repeated at the definition)

* A Python `str` is a Coq `string` (list of 8-bit `ascii`).  Case conversion, white space, digits and `\w` follow
  Python for code points 0-127; higher code points are treated as caseless, non-space, non-word.
* Column defaults are `None`, `str` or `int`; a programmatic `float` default is not modelled (parsers never build one).
  Row values are `None`, `str`, `int` or an opaque value with a type, an equality key and a `str()`.
* Object identity is not modelled.  Definitions are values; the only aliasing in the code that matters for behaviour
  (error caches, the `_indexed_columns` set, `_primary`) is explicit state of the model.
* Except in `Cli.v`, `print` and stderr output are dropped and files are given by their contents.  `Cli.v` has all that the
  commands print, including the lines of the readers for files and tables that raise ValueError (one list entry per `print`).
  A file is text: one that is not valid in the encoding of the platform is not modelled.
* `Cli.v` has a `world`: file contents, directories with the order in which they are listed, and a server that answers
  each statement by rows or an exception as a function of everything done before on the connection.  Files do not change
  during a run.  `glob` is modelled for absolute patterns with `*`, `?`, `[...]`, without `**`.  The command line is given
  as the values that `argparse` produces.
* Not modelled: what `plan_export`, `version` and `import` would do (their modules fail at import), `argparse`,
  `core/operations/*` (superseded by the `formats/mysql` copies, which are the ones used), the PyMySQL library and the
  network, MySQL itself apart from `Spec*.v`.

### The server specification

`SpecServer.v` gives each operation its effect on a map from table names to (ordered columns, indexes, foreign keys):
`CREATE` needs an absent name; `DROP` a present one; `ALTER` applies its clauses from left to right and fails as a whole
if one fails; `ADD` column needs an absent name (and an existing anchor for `AFTER`), `CHANGE`/`DROP` a present one, and
likewise for keys and foreign keys.  A separate predicate says when a `CHANGE` alters the type of a column that a live
foreign key uses (MySQL error 3780, as described in `mygration.py` lines 124-127).  Data, locking and implicit commits are
not part of it.

## 3. Naming

`Cnn_<what>` is a full proof of the property or of one of its clauses; `Cnn_<what>_partial` is weaker than the property
(the comment says what is missing); `Cnn_<what>_refuted` proves, by a concrete witness evaluated by the kernel, that the
code as modelled violates the property.  A property with a `_refuted` theorem is recorded in MANIFEST.json as `partial`
and its note says what is violated and what is proved under which added hypotheses.  `Cnn_exact` states the
added hypotheses as an equivalence: the conclusion holds if and only if they do.  C87-C89 are themselves such
equivalences, so they are recorded as proved; their `_refuted` only shows that the condition is not always met.  `Example`s named `ex_...` beside a
theorem show that its hypotheses are met by a concrete non-trivial case.

## 4. Plan per property

| Id | Modelled with | How it is proved |
| --- | --- | --- |
| C01 | Diff, Mygration | both comparisons short-circuit on equal text; induction over the dicts |
| C02 | Diff, SpecServer | invariant over the executed clauses: names present = source + added so far; conversely a changed primary key stops the execution |
| C03 | Diff, SpecServer | invariant: columns restricted to target names are in target order |
| C04 | Diff, SpecServer | decisions depend only on kept pairs; refuted for an index kept because of a dropped FK; exact when indexes are distinct |
| C05 | Column, Diff | case analysis of the comparison; refuted for AUTO_INCREMENT and enum values ; C05_exact gives the exact condition |
| C06 | Diff | unfolding of the two result forms and of the clause kinds |
| C07 | Diff | greedy matching is an injective partial map between same-shape indexes |
| C08 | Mygration | membership in the three name lists |
| C09 | Mygration, SpecServer | induction over the table list |
| C10 | Mygration, SpecServer | per-table simulation, then composition; refuted for an FK name clash; exact condition by inverting the execution of each table |
| C11 | Mygration, SpecServer | uses C04; refuted by integer display width on FK columns; both conditions are necessary |
| C12 | Mygration, SpecServer | invariant "no live FK touches a changing column"; refuted for removed FKs and for new tables; exact condition in PropsLinks |
| C13 | Mygration | induction over the table of FKs to cycle |
| C14 | Mygration, SpecServer | positions in the concatenated list; uses C10's intermediate states |
| C15 | Mygration, Commands | case analysis |
| C16 | Commands | case analysis plus absence of check operations in the parts |
| C17 | Mygration, SpecServer | hypotheses of C10 are preserved by every prefix (stages of LinkFacts) |
| C18 | Mygration | filters are followed by truthiness tests |
| C19 | Diff, SpecRows | induction over operations against a map of rows; exactly which server rows lead to the state of the files in PropsSync |
| C20 | Diff | loose equality is reflexive up to `str` |
| C21 | Mygration, Diff | membership and NoDup |
| C22 | Table, Mygration | refuted by witness; positive clause for accepted inserts; exactly which rows are deleted in PropsSync |
| C23 | Table | refuted by NULL against the text None; exact characterisation |
| C24 | Mygration | refuted by witness; second apply proved to converge; exactly when one is needed in PropsSync |
| C25 | Table | induction over the raw rows; exactly which calls fail in PropsExact |
| C26 | Diff, Ops | a differing common column is never the id |
| C27 | Ops, SpecSql | lexer inverts escaping |
| C28 | Ops, SpecSql | refuted by a quote; partial for values without quote; exact condition for UPDATEs in PropsExact (a quote leaves the reader of SpecSql with fewer pairs or a shorter text, ExactSql) |
| C29 | Ops, SpecSql | refuted by a quote; partial; exact condition in PropsExact |
| C30 | Ops | refuted for DROP column and DROP TABLE; proved for the others |
| C31 | Column, SpecSql | refuted by a quote; partial; exact form in `PropsDefault.v` (a literal that runs over its end stops behind a space, so it cannot be the default) |
| C32 | Database | reflection between the code's cascade and a declarative predicate |
| C33 | Database | counting argument over the accumulated dict |
| C34 | Table | reflection |
| C35 | Database | refuted by a DATE column; partial |
| C36 | Column, Parsers, SpecEnum | refuted; the exact errors for every definition that is read |
| C37 | Database, Column | refuted by BIT and ENUM; partial: exact set of raising columns |
| C38 | Reader | refuted by witness |
| C39 | Reader, Mygration | refuted by witness (unknown type, then DROP TABLE) |
| C40 | Table, Database | refuted by witness; where they do go is proved |
| C41 | Reader | refuted by witness (KeyError), proved for every such input |
| C42 | Database | state machine with cache; invariant; parsing cache refuted |
| C43 | Table | refinement to ordered association lists |
| C44 | Table | refuted by two indexes with one first column; partial invariant; exact: the last call that put an index on the column or took one away decides (PropsHistory) |
| C45 | Table | refuted by removal; partial; exact: the last primary key added (PropsHistory) |
| C46 | Table, Diff | refuted for key operations; proved for the others |
| C47 | Table | list lemma |
| C48 | Engine, Reader | suffix and length lemmas per rule; statement loop refuted on unmatched CREATE |
| C49 | Engine | lower-casing lemma |
| C50 | Engine | induction over the value list with the scanner state |
| C51 | Reader | prefix lemma |
| C52 | Parsers, Constraint | symbolic execution of the rules |
| C53 | Parsers, Index | as C52 with C50 |
| C54 | Parsers, Column | as C52, per type family |
| C55 | Parsers, Reader, Ops | C52-C54 plus choice among definition parsers |
| C56 | Parsers, Ops | refuted by a quote, by white space and by the text NULL; partial; exact for rows without quotes |
| C57 | Engine, Reader | refuted by the iteration limit, for every limit; exact limit for INSERT (999 groups, 1000 at the very end) and for the tool's own CREATE TABLE (999 definitions); beyond it the file is ignored (C102) |
| C58 | Parsers | case analysis of `process` |
| C59 | Parsers | symbolic execution |
| C60 | Parsers | refuted by a column named unique_id; partial for back-quoted names and for bare names that are no key word and do not begin with UNIQUE (key_id, index_no, primary_contact, ...), or do and have a length and an attribute; every other column whose name begins with UNIQUE swallows what follows (PropsLost.v) |
| C61 | Dotenv | scan lemmas; exact with a comment behind the value (SpecConf, ConfExact) |
| C62 | Dotenv | per line, then fold over lines; exact for whole texts (SpecConf, PropsLines) |
| C63 | Dotenv | refuted by an escaped final quote; partial: exact set of other errors; every line reads as the relation of SpecConf and only so (total, deterministic) |
| C64 | Dotenv | case analysis |
| C65 | Dotenv | list search; refuted for the root directory; exact for all working directories and names |
| C66 | Commands | induction over the statements with a failure oracle |
| C67 | Commands | refuted by a failure in the middle |
| C68 | Reader, Commands, SpecLive, SpecRows | composition of the row reader with C19 |
| C69 | Dotenv | splitting lemmas for paths |
| C70 | Parsers, SpecSql | both readers run on the same text; refuted by null, escapes, line breaks and doubled quotes |
| C71 | Engine, Parsers, Reader, SpecWrite | reading lemma per definition, composed over the list of definitions; layout is erased by the normalisation |
| C72 | Mygration, Column, SpecWrite, SpecStored | C71 on both sides, then the comparison finds no difference; refuted by witnesses |
| C73 | Reader, Mygration, SpecStored | C71 and C08; refuted by a COMMENT |
| C74 | Parsers, Reader, Mygration | the removal of lengths commutes with the text around it, whether a length is there or not; which ending of a column name a key drops; the plan never looks at options |
| C75 | Reader, SpecWrite, SpecMany | induction over the statements with the text that follows; rows are added table by table |
| C76 | Reader, Diff, SpecMany, SpecRows | C75 then C19 |
| C77 | Parsers, Column, Diff, SpecEnum | induction over the values; the rendering of a list is injective |
| C78 | Cli | induction over the listed tables and the tables of the files |
| C79 | Cli | both commands share the plan; induction over its statements |
| C80 | Cli | case analysis of both commands on the same errors; the status after a refusal is refuted |
| C81 | Cli | case analysis; refuted for the commands that fail to import |
| C82 | Cli | `fnmatch` of `*.sql` is a test of the last characters; refuted by a path with brackets |
| C83 | Cli, Mygration | evaluation for an arbitrary server; refuted for the empty directory |
| C84 | Cli, Commands, Reader | a server that answers consistently gives what `Commands.v` assumes; refuted by views |
| C85 | Cli and everything below it | C75, C72, C68 and C84 composed; refuted in general by INT(10) under a foreign key (PropsRuns) |
| C86 | Cli and everything below it | the plan of C10 and C19 executed, then a second run on what the server shows (`shows`, PropsAgain); refuted in general by a run that never settles (PropsRuns) |
| C87 | Mygration, SpecServer, SpecLinks | each state reached by a prefix of the plan, by the stage it is in (LinkFacts: creates, cycled drops, table turns, additions, drops); iff, with pairs for which it fails |
| C88 | Mygration, SpecServer, SpecLinks | the same stages, for any need of a foreign key that is decided by columns and indexes (LinkMore, `supported_all`) |
| C89 | Mygration, SpecServer, SpecLinks | another instance of the same lemma |
| C90 | Mygration, SpecServer, SpecData | a plan seen from one table (`on_plan`), and which clauses of its one main ALTER add or drop columns (LocalFacts); SpecData tied to SpecServer |
| C91 | Mygration | all decisions go through lookups, which a reordering does not change; Permutation of the parts of the plan |
| C92 | Mygration | the plan seen from one table is empty if and only if each of its five parts is |
| C93 | Reader, Mygration, SpecOrder | reading sources that are apart is concatenation (OrderFacts), what is read is stored in good order (FileFacts), then C91; CheckFacts for the command; refuted by two definitions of a table and by two rows with one id |
| C94 | Database, Table, Column, SpecAccept | `errors` without caches is empty if and only if each part is (AcceptFacts), with C32-C34; which columns end a table's validation; FileFacts for files, CheckFacts for the command; refuted by a DATE column |
| C95 | Cli and everything below it | what is read is the same but for what neither the comparison nor the statements look at (`ntab`, MeaningFacts); plan and apply do not see the rest; `check` does: refuted by TEXT DEFAULT NULL |
| C96 | Cli, Database, Table, SpecWarn | the children of a table before the first that raises (WarnFacts), with `checkable` of C37; the exact list, hence the exact output; refuted by a DATE column |
| C97 | Reader, Table, Index, SpecDefs | induction over the definitions with what each gives after those before it (`yields`, DefFacts); exact; refuted by a key with the name of the primary key's first column |
| C98 | Reader, Parsers, SpecInline, SpecWrite | the column parsers on every written column followed by PRIMARY KEY (RoundInline): one child, or the column and then a column PRIMARY of type KEY, which `as_definition` refuses; the rest of the statement by the round-trip lemmas and C97_exact (InlineFacts); refuted by AUTO_INCREMENT or a length before the words |
| C99 | Mygration, Diff, SpecServer, SpecCase | SpecCase is the server of SpecServer with the comparison of names as a parameter; both servers agree as long as all names met are among those of the two sides, which holds of every operation of a plan and is kept by each (CaseFacts); the respelled column from C90; refuted by columns a/A and Name/name |
| C100 | Parsers, Reader, SpecTrail | the reading lemmas of RoundTable allow a definition to be followed by words (ending `EWords`); each pair of unknown words is read as a column of unknown type, on which create_process raises and the file is ignored (RoundTrail); refuted by five texts MySQL accepts; `odd_none`, `lead_read` and `odd_parse` (OddFacts) for the words that are reported |
| C101 | Cli | the lines that reading prints (`source_notice`, `table_notice`) are part of a run; exact output; empty for written sources (C75) and shown tables (C72); refuted by a file with USING BTREE |
| C102 | Cli, Reader | a file of which nothing is read leaves the database as it was, so all commands run as without it but for one line; refuted concretely |
| C103 | Cli, Reader, Mygration, SpecCut | `yields` (RoundRows) abstracts what reading a source gives from how it ended; sources cut off by a caught error give their first statements (RoundCut); drops of `build_commands` exactly; refuted by a file that defines a table after one with USING BTREE |
| C104 | Reader, Engine, Parsers, Cli, SpecCrash | which exceptions the rules can raise, by induction over the engine (`mild`, CrashFacts, built like `steady` of EngineFacts); what is left of a text is never white space only; rows read from files never make `add_rows` raise; hence exactly when check ends with an exception; refuted by a blank file and by an escaped apostrophe |
| C105 | Commands, Column, Reader, Cli, SpecStop | case analysis of every step of a plan against a server that answers (StopFacts): reading the definitions, reading the rows, comparing columns, comparing rows (never fails: `rows_planned`); refuted by a live row with an empty id |
| C106 | Mygration, Commands, Cli, SpecPlan, SpecServer | the half-changed tables (`prefix_mid`), as shown by the server, satisfy the hypotheses of C10 again (ResumeMore: `resume_plan`); the run lemma `one_run` is applied to both runs (PropsResume); refuted by a primary key that is refused each time |
| C107 | Diff, Mygration, SpecRows, SpecUnique | each id is touched once, so at any point every row is the old or the new one (UniqueFacts: `exec_mid`); the order of the statements decides which pairs meet (`unique_exact`); refuted by a moved and by two exchanged rows |
| C108 | Diff, Mygration, SpecRows, SpecRefer | the rows after the run (C19) and the rows of untouched tables, by case; refuted by a deleted row that is referred to |
| C109 | Mygration, Commands, Cli, SpecUnique | shape of every plan (`build_shape`): structure, then rows; refuted by a world with a duplicate that the files settle |
| C110 | Dotenv | composition of `C64_credentials_partial` with reading of both files; `says` covers both formats; refuted by `{}` |
| C111 | Parsers, SpecNote | `sense_remark` for each class of columns, with the winner of each way of writing (RoundColumn, EnumFacts); refuted in both directions at the level of check |
| C112 | Parsers, Table, SpecActs | `actions_run` reads a list of actions in the order of the rules, for named and unnamed foreign keys (RoundFk: `fk_reads`, `bare_reads`); `act_statement` carries it to CREATE TABLE (ActFacts), C97 to the table; `parsing_new` to check; refuted for other orders and for tables with dates |
| C113 | Reader, Cli, SpecOther | `loop_told` (what the loop adds to the errors), `database_told` for all sources; `other_read` reads C75 statements up to the unknown one (OtherFacts); refuted for statements that begin with CREATE |
| C114 | Reader, Cli, SpecRemark | `remarked_read` reads statements and comments piece by piece (RemarkFacts), `line_hides` for comments on what has become one line; then as C103; refuted by a table after a comment with a number sign |
| C115 | Parsers, Reader, Cli, SpecInside | `drop_line`: the deletion of comments has no effect on what is around them; `create_white`, `begun_reads`: a text that begins with CREATE reaches the parser as it is; `insert_cut` (InsideFacts) for what is left of an INSERT; refuted for comments among rows |
| C116 | Parsers, Reader, Cli, SpecInside | from C57 for INSERT; `C116_alike` from C115; refuted by a text with two hyphens in a file that begins with CREATE |
| C117 | Parsers, Reader, Cli | `all_read` (the reading stops after the name, PropsList); rows for the name "" stay until the end (`combined_table`), for all sources; `C113_nothing_sent` for all commands |
| C118 | Parsers, Engine, Reader, Cli, SpecHalt | `list_none`, `ticked_none` (no class matches a word and a parenthesis, or CONSTRAINT and a name with back-quotes, whatever follows), `stop_parse` from `kids_before`, `stop_read` (HaltFacts); the commands by `C113_nothing_sent` and `C113_told`; `two_read` (two words read as a column) and `late_parse` for FULLTEXT KEY k (a) and the like; `begun_source` (the statements before are read whatever follows) and `unfinished_loop` for files with statements before |
| C119 | Parsers, Engine, Reader, SpecNamed | `named_bare` (CONSTRAINT and a word are read as a column), `constraint_read` (and then the key), `kids_long`; the type is then unknown (`C97_exact`) |
| C120 | Parsers, Engine, Reader, Cli | `list_parse`: the rules after the name see the same text |
| C121 | Parsers, Engine, Database, Table | `sole_read`: the class for unique keys leaves the least text; the classes for columns read UNIQUE and a comma as a name |
| C122 | Parsers, Database, Mygration, Cli | the name of a table runs up to white space; tables are compared by that name (C103) |
| C123 | Parsers, Reader, SpecTrail | `auto_reads`: the rules of a column have AUTO_INCREMENT last, so NOT NULL is left over and read as a column NOT of the type NULL; then as C100 |
| C124 | Parsers, Reader, Database | refuted by evaluation: the key is read as columns of unknown types, on which create_process raises |

## 5. Properties that cannot be expressed

None is left out completely.  Not expressible in the model, hence not claimed: real MySQL behaviour beyond section 2
(data conversion, locking, implicit commits of DDL), network failures inside PyMySQL, file encodings.

## 6. Assumptions printed

`Print Assumptions` under every theorem of the `Props*.v` files prints "Closed under the global context": no axiom is used.
`coqchk` additionally lists axioms of standard library modules that are loaded but not used (`ssrunder`).
