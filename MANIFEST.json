{
 "claims": [
  {
   "property": "C01",
   "status": "proved",
   "theorems": [
    "C01_table_self_diff_empty",
    "C01_plan_self_empty",
    "C01_mygration_self"
   ],
   "note": "The database level for every database whose error list is empty (otherwise there is no plan, C15)."
  },
  {
   "property": "C02",
   "status": "partial",
   "theorems": [
    "C02_diff_reaches_target_partial",
    "C02_exact",
    "C02_refuted"
   ],
   "note": "Proved when a primary key stored under the same name on both sides has the same columns (or the same text); C02_exact: the statements execute if and only if that holds. Refuted otherwise: changing a PRIMARY KEY renders DROP KEY `id`, which fails."
  },
  {
   "property": "C03",
   "status": "proved",
   "theorems": [
    "C03_column_order"
   ],
   "note": "For every executed diff (execution succeeds by C02 under the same hypotheses)."
  },
  {
   "property": "C04",
   "status": "partial",
   "theorems": [
    "C04_second_diff_empty_partial",
    "C04_exact",
    "C04_refuted"
   ],
   "note": "Refuted for an index kept because its name is the name of a foreign key that the diff drops. Proved when no index stands for another only because of a foreign key that the diff drops; C04_exact: this is exactly what is needed when no two indexes of a table have the same columns and kind."
  },
  {
   "property": "C05",
   "status": "partial",
   "theorems": [
    "C05_meaningful_difference_partial",
    "C05_refuted",
    "C05_exact"
   ],
   "note": "Proved for type, length, null, unsigned, default, charset and collation for columns whose texts are unambiguous; refuted for AUTO_INCREMENT and enum values. C05_exact: between tables with unique names a column is changed exactly when its text differs and the columns are not ones taken for the same, spelled out attribute by attribute."
  },
  {
   "property": "C06",
   "status": "proved",
   "theorems": [
    "C06_split_and_unsplit_agree"
   ],
   "note": ""
  },
  {
   "property": "C07",
   "status": "proved",
   "theorems": [
    "C07_index_suppression_sound",
    "C07_every_target_index_present"
   ],
   "note": "For diffs with an unchanged primary key (see C02)."
  },
  {
   "property": "C08",
   "status": "proved",
   "theorems": [
    "C08_right_tables"
   ],
   "note": ""
  },
  {
   "property": "C09",
   "status": "proved",
   "theorems": [
    "C09_plan_from_nothing"
   ],
   "note": ""
  },
  {
   "property": "C10",
   "status": "partial",
   "theorems": [
    "C10_plan_reaches_target_partial",
    "C10_exact",
    "C10_plan_exists",
    "C10_refuted"
   ],
   "note": "Proved for pairs with an unchanged primary key, named foreign keys in the target and no foreign key name taken over from a source foreign key that is not dropped first; C10_exact: for named foreign keys the plan executes if and only if the other two hold. Refuted without each of them."
  },
  {
   "property": "C11",
   "status": "partial",
   "theorems": [
    "C11_second_plan_empty_partial",
    "C11_exact",
    "C11_texts_tell",
    "C11_refuted"
   ],
   "note": "Refuted: INT against INT(10) under a foreign key cycles the foreign key on every run. Proved when declared-equivalent columns used by foreign keys of the sources have the same type attributes and no index stands for another only because of a vanishing foreign key; C11_exact: the next plan is empty exactly then (no two indexes of a table with the same columns and kind, names without back-quotes)."
  },
  {
   "property": "C12",
   "status": "partial",
   "theorems": [
    "C12_no_type_change_under_fk_partial",
    "C12_refuted",
    "C12_exact"
   ],
   "note": "Refuted for a foreign key that the target drops without replacement and for foreign keys of new tables; proved when neither touches a column whose type changes. C12_exact says for which pairs it holds."
  },
  {
   "property": "C13",
   "status": "proved",
   "theorems": [
    "C13_dropped_and_added_once",
    "C13_cycled_around_changes",
    "C13_dropped_tables"
   ],
   "note": ""
  },
  {
   "property": "C14",
   "status": "proved",
   "theorems": [
    "C14_nothing_after_fk_additions",
    "C14_references_exist"
   ],
   "note": "The second for plannable pairs (C10's hypotheses) whose target references resolve."
  },
  {
   "property": "C15",
   "status": "proved",
   "theorems": [
    "C15_no_structure_with_errors"
   ],
   "note": ""
  },
  {
   "property": "C16",
   "status": "proved",
   "theorems": [
    "C16_bracketed",
    "C16_mygration_bracketed"
   ],
   "note": "The second for a migration that is asked to switch the checks itself."
  },
  {
   "property": "C17",
   "status": "proved",
   "theorems": [
    "C17_resume"
   ],
   "note": "For plannable pairs (C10's hypotheses)."
  },
  {
   "property": "C18",
   "status": "proved",
   "theorems": [
    "C18_alters_nonempty_and_directed"
   ],
   "note": "For plannable pairs (C10's hypotheses)."
  },
  {
   "property": "C19",
   "status": "partial",
   "theorems": [
    "C19_rows_reached_partial",
    "C19_refuted",
    "C19_exact"
   ],
   "note": "Proved when the live rows have every column the file sets; refuted for a column the live table does not have yet (C24). C19_exact: the rows are reached if and only if for each row that is live already the tool sees a difference in a column that both sides have, or the server holds equal values in all columns the file gives."
  },
  {
   "property": "C20",
   "status": "proved",
   "theorems": [
    "C20_no_operation_for_equal_rows",
    "C20_synchronised_rows"
   ],
   "note": "The second: after executing the row operations, any reading of the result gives an empty row plan (same hypothesis on columns as C19)."
  },
  {
   "property": "C21",
   "status": "proved",
   "theorems": [
    "C21_tracked_tables_each_id_once"
   ],
   "note": ""
  },
  {
   "property": "C22",
   "status": "partial",
   "theorems": [
    "C22_accepted_rows_survive_partial",
    "C22_refuted",
    "C22_exact"
   ],
   "note": "Refuted: an INSERT without id column is rejected without an error reported by the database and all live rows are deleted; proved: the id of an accepted row is never deleted. C22_exact: exactly those live ids are deleted that no accepted row of an INSERT has."
  },
  {
   "property": "C23",
   "status": "partial",
   "theorems": [
    "C23_value_equality_partial",
    "C23_refuted"
   ],
   "note": "Exact up to NULL against the text None, which are considered equal."
  },
  {
   "property": "C24",
   "status": "partial",
   "theorems": [
    "C24_new_column_values_partial",
    "C24_refuted",
    "C24_exact"
   ],
   "note": "Refuted: the plan that adds the column leaves the row untouched; proved for new rows and rows with another difference. C24_exact: a value arrives if and only if the row is new, the tool sees a difference in a column that both sides have, or the value was there."
  },
  {
   "property": "C25",
   "status": "partial",
   "theorems": [
    "C25_add_rows_partial",
    "C25_refuted",
    "C25_exact"
   ],
   "note": "Proved for every call that returns; refuted by a row shorter than the position of its id column (IndexError). C25_exact: a call fails if and only if an INSERT with a column list has such a row, always with IndexError."
  },
  {
   "property": "C26",
   "status": "proved",
   "theorems": [
    "C26_updates_not_vacuous"
   ],
   "note": ""
  },
  {
   "property": "C27",
   "status": "proved",
   "theorems": [
    "C27_insert_values",
    "C27_insert_statement"
   ],
   "note": "The values for every row; the whole statement when table and column names contain no back-quote (see C30)."
  },
  {
   "property": "C28",
   "status": "partial",
   "theorems": [
    "C28_update_values_partial",
    "C28_quotes_change_the_value",
    "C28_refuted",
    "C28_update_exact"
   ],
   "note": "Proved for values without single quotes; refuted for every value with one: its literal reads back as another value. C28_update_exact: an UPDATE reads as intended if and only if no value has a quote and the id has no quote and no backslash but before % or _."
  },
  {
   "property": "C29",
   "status": "partial",
   "theorems": [
    "C29_where_partial",
    "C29_refuted",
    "C29_delete_exact",
    "C28_update_exact"
   ],
   "note": "Proved for ids without quotes and backslashes; refuted otherwise (ids are not escaped). C29_delete_exact, C28_update_exact: exactly the ids without quotes and without backslashes but before % or _."
  },
  {
   "property": "C30",
   "status": "partial",
   "theorems": [
    "C30_statements_partial",
    "C30_drops_unquoted",
    "C30_refuted"
   ],
   "note": "Every statement reads exactly as intended, except DROP TABLE and DROP of a column, which use the bare name; names containing back-quotes are not escaped."
  },
  {
   "property": "C31",
   "status": "partial",
   "theorems": [
    "C31_default_partial",
    "C31_refuted",
    "C31_exact"
   ],
   "note": "Proved for defaults without quotes, backslashes and leading zeros; refuted for each of those. C31_exact: for a column whose other parts are harmless, the text of the default arrives in its place with everything around it exactly if it is a number without leading zeros, or not made of digits and free of quotes and of backslashes other than before % and _."
  },
  {
   "property": "C32",
   "status": "proved",
   "theorems": [
    "C32_foreign_key_exact",
    "C32_database_foreign_keys_exact",
    "C32_unfulfilled_exact"
   ],
   "note": "For tables whose columns are stored under their names, whose indexes have columns and whose remembered set of indexed columns is right (C44 says when it is)."
  },
  {
   "property": "C33",
   "status": "proved",
   "theorems": [
    "C33_duplicate_names_exact"
   ],
   "note": ""
  },
  {
   "property": "C34",
   "status": "proved",
   "theorems": [
    "C34_column_validation_exact",
    "C34_table_validation_exact"
   ],
   "note": "Table level: for tables whose columns can be validated at all (see C37)."
  },
  {
   "property": "C35",
   "status": "partial",
   "theorems": [
    "C35_table_errors_reach_database_partial",
    "C35_refuted",
    "C35_exact"
   ],
   "note": "Proved for tables whose own error list can be asked; refuted for a table with a DATE column: AttributeError is swallowed by hasattr. C35_exact: exactly the tables without a column of the date class are heard."
  },
  {
   "property": "C36",
   "status": "partial",
   "theorems": [
    "C36_never_accepted",
    "C36_always_refused",
    "C36_refuted"
   ],
   "note": "False: no ENUM or SET column read from SQL has an empty error list, because the parsed values are never stored; C36_always_refused gives the exact errors, or the exception with a default."
  },
  {
   "property": "C37",
   "status": "partial",
   "theorems": [
    "C37_validation_returns_partial",
    "C37_raising_columns",
    "C37_refuted",
    "C37_exact",
    "C37_files_exact"
   ],
   "note": "Refuted by a BIT column without default, by an INSERT without column list and by a live database object; proved for checkable columns and INSERTs with column lists; the raising columns are characterised exactly. C37_exact: for INSERTs with column lists, asking raises exactly if a table has a column that cannot be checked with no DATE or TIME column before it; C37_files_exact: the same for files, where it is also exactly when the check command raises."
  },
  {
   "property": "C38",
   "status": "partial",
   "theorems": [
    "C38_second_definition_silent",
    "C38_refuted",
    "C38_refuted_stale"
   ],
   "note": "False: storing a table never reports anything; a second definition also hides the errors of tables read later."
  },
  {
   "property": "C39",
   "status": "partial",
   "theorems": [
    "C39_unmatched_reported_partial",
    "C39_refuted",
    "C39_refuted_type"
   ],
   "note": "Proved for statements that do not match the grammar (one source); refuted for those whose processing raises ValueError: the table is lost without error and the plan drops the live table."
  },
  {
   "property": "C40",
   "status": "partial",
   "theorems": [
    "C40_table_messages_ignored",
    "C40_refuted"
   ],
   "note": "False: the error list does not depend on the messages recorded on tables at all."
  },
  {
   "property": "C41",
   "status": "partial",
   "theorems": [
    "C41_never_reported",
    "C41_refuted"
   ],
   "note": "False: reading such sources always raises, so nothing is ever reported as an error of the database."
  },
  {
   "property": "C42",
   "status": "partial",
   "theorems": [
    "C42_errors_follow_the_structure_partial",
    "C42_asking_again",
    "C42_refuted",
    "C42_new_column_is_checked",
    "C42_later_column_is_checked"
   ],
   "note": "Asking again: proved in every state. After mutations: proved for tables whose validation does not raise and whose parts carry no parser messages; refuted otherwise. C42_new_column_is_checked: a column whose check raises is met by the next question after it was added or replaced, whatever was asked before. C42_later_column_is_checked: a column that stands after one whose check ended with an exception is still met by the next question after an operation on other columns."
  },
  {
   "property": "C43",
   "status": "partial",
   "theorems": [
    "C43_mutators_partial",
    "C43_rejected",
    "C43_refuted",
    "C43_constructor",
    "C43_exact"
   ],
   "note": "Proved for every history, except adding a column first to a table whose columns are a plain dict (refuted: it is appended and AttributeError raised) and indexes without columns. C43_exact: after any history a legal call works exactly when it does not ask for the first place in a plain dict; then the column is appended and AttributeError raised."
  },
  {
   "property": "C44",
   "status": "partial",
   "theorems": [
    "C44_column_is_indexed_partial",
    "C44_refuted",
    "C44_exact",
    "C44_refuted_always"
   ],
   "note": "Proved for histories that never remove or change an index sharing its first column with another; refuted otherwise. C44_exact: from the first question on, the answer follows the last call that made an index start with the column or took one away; C44_refuted_always: it is wrong after removing any one of two indexes that start with the column."
  },
  {
   "property": "C45",
   "status": "partial",
   "theorems": [
    "C45_primary_partial",
    "C45_refuted",
    "C45_exact",
    "C45_refuted_always"
   ],
   "note": "Proved for histories that neither remove nor change a primary key nor add a second; refuted by removing the primary key. C45_exact: the key reported is the last one added, whatever became of it; C45_refuted_always: a removed one always stays reported."
  },
  {
   "property": "C46",
   "status": "partial",
   "theorems": [
    "C46_clauses_apply_partial",
    "C46_key_clauses_fail",
    "C46_refuted"
   ],
   "note": "Column and foreign key clauses apply in sequence and give the target; no key clause can be applied (AttributeError)."
  },
  {
   "property": "C47",
   "status": "proved",
   "theorems": [
    "C47_column_before"
   ],
   "note": ""
  },
  {
   "property": "C48",
   "status": "partial",
   "theorems": [
    "C48_definitions_consume_partial",
    "C48_statements_consume_partial",
    "C48_repetition_limit_partial",
    "C48_loop_progress_partial",
    "C48_refuted"
   ],
   "note": "Every parser that matches consumes and returns a suffix; the statement loop progresses except at texts it cannot pass; refuted for CREATE VIEW, which is read again until the limit."
  },
  {
   "property": "C49",
   "status": "proved",
   "theorems": [
    "C49_keyword_case",
    "C49_text_case"
   ],
   "note": ""
  },
  {
   "property": "C50",
   "status": "proved",
   "theorems": [
    "C50_quoted_list"
   ],
   "note": "Before the closing parenthesis, as in every rule of the grammar that has such a list."
  },
  {
   "property": "C51",
   "status": "partial",
   "theorems": [
    "C51_leading_comments_partial",
    "C51_source_partial",
    "C51_refuted",
    "C51_insert_hides",
    "C51_between_partial"
   ],
   "note": "Proved for comments before a statement at the beginning of the text; refuted after an INSERT: the comment swallows the rest of the file. C51_insert_hides: after any INSERT statement a comment with -- or # hides everything up to the end of the file, whatever it is, and nothing is reported. C51_between_partial: sources that begin with a statement may have closed block comments between all statements and at the end (and comments with two hyphens if they begin with CREATE TABLE); exactly the statements before the first comment with # count."
  },
  {
   "property": "C52",
   "status": "proved",
   "theorems": [
    "C52_foreign_key_read_back",
    "C52_definition_read_back"
   ],
   "note": "In a whole statement and for the definition on its own."
  },
  {
   "property": "C53",
   "status": "partial",
   "theorems": [
    "C53_index_read_back_partial",
    "C53_definition_read_back_partial",
    "C53_refuted",
    "C53_refuted_primary",
    "C53_nameless_lost"
   ],
   "note": "Proved for primary keys without name, unique keys and named keys; refuted for a plain key without name and for a primary key with one: the whole statement is refused. C53_nameless_lost: a plain key without a name is never read back, for all columns, tables, definitions before it and texts after it: no table is read and the text is reported."
  },
  {
   "property": "C54",
   "status": "partial",
   "theorems": [
    "C54_column_read_back_partial",
    "C54_definition_read_back_partial",
    "C54_written_read_partial",
    "C54_same_meaning_partial",
    "C54_refuted"
   ],
   "note": "Proved for every type but ENUM and SET with plain defaults, in every letter case, with or without back-quotes, in the tool's and in the server's order of attributes (SpecWrite.v); refuted by a default that contains a space."
  },
  {
   "property": "C55",
   "status": "partial",
   "theorems": [
    "C55_create_read_back_partial",
    "C55_directory_partial",
    "C55_refuted"
   ],
   "note": "Proved for tables made of readable definitions (SpecRead.v), also for a whole directory; refuted by ENUM."
  },
  {
   "property": "C56",
   "status": "partial",
   "theorems": [
    "C56_what_is_read",
    "C56_insert_read_back_partial",
    "C56_exact",
    "C56_refuted",
    "C56_refuted_spaces",
    "C56_refuted_null"
   ],
   "note": "C56_what_is_read: for every row without single quotes, the values read are the texts with each run of white space as one space, and NULL for the text NULL; C56_exact: among these rows exactly those without such runs and without the text NULL come back. Refuted for quotes (the source is unreadable), runs of white space and the text NULL (another row)."
  },
  {
   "property": "C57",
   "status": "partial",
   "theorems": [
    "C57_below_the_limit_partial",
    "C57_insert_read_partial",
    "C57_refuted",
    "C57_insert_exact",
    "C57_own_statement_exact",
    "C57_file_ignored"
   ],
   "note": "Proved below 1000 definitions or groups, for INSERT with the exact values; refuted from 1000 on: ValueError. C57_insert_exact and C57_own_statement_exact give the limits exactly; C57_file_ignored: a file whose INSERT has too many groups is read as if it were not there (one line is printed, C102)."
  },
  {
   "property": "C58",
   "status": "partial",
   "theorems": [
    "C58_unnamed_keys_partial",
    "C58_refuted",
    "C112_statement_partial",
    "C58_uncovered"
   ],
   "note": "Proved for distinct names; refuted when an index of that name is on another column. C112_statement_partial: unnamed foreign keys in statements, as texts. C58_uncovered: whatever the table, an index named like a column and not containing it, before each unnamed foreign key on the column, leaves the column without an index when nothing else covers it."
  },
  {
   "property": "C59",
   "status": "partial",
   "theorems": [
    "C59_integer_partial",
    "C59_boolean_partial",
    "C59_integer_no_change_partial",
    "C59_boolean_no_change_partial",
    "C59_refuted",
    "C59_refuted_unknown"
   ],
   "note": "Proved for INTEGER, BOOL and BOOLEAN with plain attributes; refuted by NUMERIC, which MySQL reports as decimal, and by DEC, FIXED and REAL, which raise ValueError."
  },
  {
   "property": "C60",
   "status": "partial",
   "theorems": [
    "C60_back_quoted_partial",
    "C60_bare_partial",
    "C60_refuted",
    "C60_unique_lost",
    "C60_refuted_primary"
   ],
   "note": "Proved for back-quoted names and for bare names other than the words KEY, INDEX, PRIMARY, CONSTRAINT and FOREIGN, those that begin with UNIQUE only with a length and an attribute; refuted for other unquoted names that start with UNIQUE, and C60_unique_lost shows for all of them without a length that the column and what follows it up to the next list in parentheses become a unique key."
  },
  {
   "property": "C61",
   "status": "partial",
   "theorems": [
    "C61_quoted_value_partial",
    "C61_refuted",
    "C61_refuted_empty",
    "C61_comment_exact"
   ],
   "note": "Proved including white space around and semicolon or comment behind; refuted for a value that starts with white space and is followed by a comment (the closing quote becomes part of the value), and for the empty value, which is not stored. C61_comment_exact: with a comment behind it a quoted value is read exactly if and only if it does not begin with white space."
  },
  {
   "property": "C62",
   "status": "partial",
   "theorems": [
    "C62_ignored_lines",
    "C62_unquoted_value",
    "C62_text_lines",
    "C62_last_assignment_partial",
    "C62_refuted",
    "C62_text_exact"
   ],
   "note": "The last assignment of a non-empty value wins; refuted when the last one is empty: the earlier value stays. C62_text_exact: exactly what a whole text gives, and at which line it fails, for every text that is not JSON."
  },
  {
   "property": "C63",
   "status": "partial",
   "theorems": [
    "C63_documented_error_partial",
    "C63_refuted",
    "C63_line_exact",
    "C63_exact"
   ],
   "note": "The only other exception is ValueError, only on lines with an escaped quote; refuted by a value whose last quote is escaped. C63_line_exact: exactly what every line reads as (SpecConf.v); C63_exact: exactly which lines raise ValueError."
  },
  {
   "property": "C64",
   "status": "partial",
   "theorems": [
    "C64_credentials_partial",
    "C64_refuted",
    "C64_missing_file"
   ],
   "note": "Proved unless a setting is a JSON array or object (TypeError). A missing environment file is not reported: its name is parsed as the content."
  },
  {
   "property": "C65",
   "status": "partial",
   "theorems": [
    "C65_nearest_file_partial",
    "C65_absolute",
    "C65_refuted",
    "C65_refuted_directory",
    "C65_exact"
   ],
   "note": "Proved for names without directory and all directories but the root; refuted for the root and for names with a directory. C65_exact: exactly which file is found, in every working directory and with directories in the name."
  },
  {
   "property": "C66",
   "status": "proved",
   "theorems": [
    "C66_apply_in_order"
   ],
   "note": ""
  },
  {
   "property": "C67",
   "status": "partial",
   "theorems": [
    "C67_enabled_after_success_partial",
    "C67_checks_stay_off",
    "C67_refuted"
   ],
   "note": "False: whenever a statement other than the first is refused the checks stay off; proved only for an apply that succeeds."
  },
  {
   "property": "C68",
   "status": "proved",
   "theorems": [
    "C68_raw_row",
    "C68_live_rows_read",
    "C68_command_rows"
   ],
   "note": "The last for file rows that only set columns the live table has (for the others see C24)."
  },
  {
   "property": "C69",
   "status": "proved",
   "theorems": [
    "C69_relative_settings",
    "C69_root",
    "C69_empty_setting"
   ],
   "note": "For settings that are non-empty strings; a configuration file in the root directory gives paths starting with two slashes; an empty setting raises IndexError."
  },
  {
   "property": "C70",
   "status": "partial",
   "theorems": [
    "C70_insert_means_partial",
    "C70_refuted",
    "C70_refuted_escape",
    "C70_refuted_lines",
    "C70_refuted_quotes"
   ],
   "note": "Proved for upper case keywords and literals whose only escape is a doubled backslash; refuted by lower-case null, by an escaped line break, by a line break inside a text and by a doubled quote."
  },
  {
   "property": "C71",
   "status": "partial",
   "theorems": [
    "C71_statement_read_partial",
    "C71_no_change_partial",
    "C71_directory_partial",
    "C71_plan_partial",
    "C71_refuted",
    "C71_refuted_refused"
   ],
   "note": "Proved for one statement per source, in the ways of SpecWrite.v (any letter case, order of definitions, quoting, layout and line comments); refuted by KEY k (id ASC), where ASC is read as a column, and by statements that are refused."
  },
  {
   "property": "C72",
   "status": "partial",
   "theorems": [
    "C72_nothing_to_do_partial",
    "C72_report_read_partial",
    "C72_no_difference_partial",
    "C72_refuted",
    "C72_refuted_time",
    "C72_refuted_action",
    "C72_refuted_length"
   ],
   "note": "Proved for the tables of SpecStored.v when length, character set and collation of the columns in foreign keys are reported as in the files; refuted without that (a foreign key is dropped and added in every plan when MySQL leaves out the display width), by current_timestamp in small letters, by NO ACTION and by DECIMAL without a length."
  },
  {
   "property": "C73",
   "status": "partial",
   "theorems": [
    "C73_never_missing_partial",
    "C73_refuted",
    "C73_refuted_lost"
   ],
   "note": "Proved for the reports of SpecStored.v; refuted by a COMMENT on a column (CREATE TABLE again and a DROP TABLE without a name), by an unknown type and by USING BTREE."
  },
  {
   "property": "C74",
   "status": "partial",
   "theorems": [
    "C74_lengths_ignored",
    "C74_options_ignored",
    "C74_refuted",
    "C74_refuted_length",
    "C74_length_absent",
    "C74_columns",
    "C74_columns_number"
   ],
   "note": "False: C74_lengths_ignored and C74_options_ignored show for all inputs that neither is ever planned. C74_lengths_ignored is for sources that begin with CREATE; the refutations give an option that stays different and a key on a TEXT column without its number. C74_length_absent: a key with a number of characters and one without are read alike, wherever it stands. C74_columns: of the columns given to a key, exactly the spaces around them and a final number in parentheses are dropped."
  },
  {
   "property": "C75",
   "status": "partial",
   "theorems": [
    "C75_sources_read_partial",
    "C75_nothing_to_do_partial",
    "C75_refuted",
    "C75_refuted_hash",
    "C75_refuted_length",
    "C75_refuted_hyphens"
   ],
   "note": "Proved for the statements and layouts of SpecMany.v (comments only in sources that begin with CREATE TABLE, up to 10000 statements); refuted by an equals sign within 30 characters after a CREATE TABLE statement (the INSERT becomes an option), by a comment with a number sign, by f(x(12)) in a text and by two hyphens in a text."
  },
  {
   "property": "C76",
   "status": "partial",
   "theorems": [
    "C76_rows_reached_partial",
    "C76_refuted"
   ],
   "note": "Proved for the sources of C75 when the live rows are loaded with the columns the sources give, up to the confusion of NULL and the text None, which refutes the full statement."
  },
  {
   "property": "C77",
   "status": "partial",
   "theorems": [
    "C77_values_read_partial",
    "C77_same_values_partial",
    "C77_other_values_partial",
    "C77_refuted",
    "C77_refuted_quote",
    "C77_refuted_order"
   ],
   "note": "Reading and comparing is proved for the definitions of SpecEnum.v; refuted for rendering (the list is shown as a Python list and read back with one more value), for values with a quote and for the order of attributes that servers use."
  },
  {
   "property": "C78",
   "status": "proved",
   "theorems": [
    "C78_plan_reads_only",
    "C78_check_offline"
   ],
   "note": ""
  },
  {
   "property": "C79",
   "status": "proved",
   "theorems": [
    "C79_apply_follows_plan"
   ],
   "note": "Includes the case in which a refused plan still makes apply connect and commit."
  },
  {
   "property": "C80",
   "status": "partial",
   "theorems": [
    "C80_check_status",
    "C80_refused_status",
    "C80_refuted"
   ],
   "note": "The first sentence is proved; the second is false: C80_refused_status shows that plan and apply end with status 0 whenever check finds errors. C80_refuted gives a concrete site."
  },
  {
   "property": "C81",
   "status": "partial",
   "theorems": [
    "C81_commands_partial",
    "C81_refuted"
   ],
   "note": "plan, apply and check run; version, import, plan_export, --version and no command end with an import error, whatever the files and the server are."
  },
  {
   "property": "C82",
   "status": "partial",
   "theorems": [
    "C82_directory_files_partial",
    "C82_refuted"
   ],
   "note": "Proved for absolute paths without the characters *, ? and [; refuted by /srv/[app], which is read as an empty directory."
  },
  {
   "property": "C83",
   "status": "partial",
   "theorems": [
    "C83_refuted_empty",
    "C83_missing_directory"
   ],
   "note": "False for directories without SQL files: C83_refuted_empty shows for every server that all its tables are dropped and check finds no problems. A missing path is reported, as an unrecognised command (C83_missing_directory)."
  },
  {
   "property": "C84",
   "status": "partial",
   "theorems": [
    "C84_plan_seen",
    "C84_refuted"
   ],
   "note": "Proved for databases of which every listed name has a table definition; refuted for every database with a view: plan and apply end with KeyError."
  },
  {
   "property": "C85",
   "status": "partial",
   "theorems": [
    "C85_in_sync_partial",
    "C85_refuted"
   ],
   "note": "Proved for the sources of C75 and the servers of C72; the refutations of C72 to C76 apply to the rest. C85_refuted: a file with INT(10) under a foreign key and a server that shows int; a foreign key is dropped and added."
  },
  {
   "property": "C86",
   "status": "partial",
   "theorems": [
    "C86_converges_partial",
    "C86_refuted"
   ],
   "note": "Proved for the sources of C75, servers that show tables as in C72, and the hypotheses of C10, C11 and C19 (which are needed: see their refutations): the printed statements run on structure and rows, and the second run is silent for every server that shows what it then holds. Columns that were kept must be shown as before; new definitions may be shown in the ways of C72. C86_refuted: these statements leave the server as it was, so every run prints them again."
  },
  {
   "property": "C87",
   "status": "proved",
   "theorems": [
    "C87_fk_names_exact",
    "C87_refuted"
   ],
   "note": "For plannable pairs (C10's hypotheses). C87_refuted: names do not always stay unique, with two pairs in which the names are unique before and after."
  },
  {
   "property": "C88",
   "status": "proved",
   "theorems": [
    "C88_fk_columns_exact",
    "C88_refuted"
   ],
   "note": "For plannable pairs (C10's hypotheses) with names without back-quotes. C88_refuted: the condition does not always hold."
  },
  {
   "property": "C89",
   "status": "proved",
   "theorems": [
    "C89_fk_indexes_exact",
    "C89_refuted"
   ],
   "note": "As C88."
  },
  {
   "property": "C90",
   "status": "proved",
   "theorems": [
    "C90_data_kept",
    "C90_follows_server"
   ],
   "note": "Data is kept apart from its type: what MySQL does to values when a column changes its type is not modelled. C90_follows_server ties the contents to the server of SpecServer.v."
  },
  {
   "property": "C91",
   "status": "proved",
   "theorems": [
    "C91_table_order",
    "C91_table_order_rows"
   ],
   "note": ""
  },
  {
   "property": "C92",
   "status": "proved",
   "theorems": [
    "C92_left_alone",
    "C92_same_table"
   ],
   "note": ""
  },
  {
   "property": "C93",
   "status": "partial",
   "theorems": [
    "C93_file_order_partial",
    "C93_accepted_order_partial",
    "C93_refuted",
    "C93_refuted_rows",
    "C93_files_order_partial",
    "C93_files_accepted_order_partial",
    "C93_check_order_partial"
   ],
   "note": "Proved for files that share neither the definition of a table nor the INSERTs for a table. Refuted otherwise: of two definitions of a table the one read last counts, of two rows with one id the first, and nothing is reported in either case. The C93_files_ theorems need no condition on how the tables are stored: FileFacts.v proves it of everything the reader builds. C93_check_order_partial: the order in which the directory is listed does not change the exit status of check."
  },
  {
   "property": "C94",
   "status": "partial",
   "theorems": [
    "C94_accepted_exact",
    "C94_faultless_partial",
    "C94_faultless_accepted",
    "C94_refuted",
    "C94_files_exact",
    "C94_files_faultless_partial",
    "C94_check_status"
   ],
   "note": "C94_accepted_exact says exactly what is accepted. It is what the property says but for tables with a DATE or TIME column (date.py raises AttributeError, which hasattr takes for no errors): C94_faultless_partial without such columns, C94_refuted with one. INSERTs without a column list are excluded throughout (C37: they can raise). C94_files_exact, C94_files_faultless_partial: the same for files none of whose tables is defined twice, and for the answer of check. C94_check_status: the check command exits with 0 exactly if the files are accepted, and with an exception exactly as C37_files_exact says."
  },
  {
   "property": "C95",
   "status": "partial",
   "theorems": [
    "C95_same_plan_partial",
    "C95_same_run_partial",
    "C95_refuted"
   ],
   "note": "C95_same_plan_partial: the same plan for any live database; C95_same_run_partial: the same output, statements and exit status of plan and apply, provided check accepts both. Missing: check itself can answer differently (C95_refuted: TEXT and TEXT DEFAULT NULL mean the same, the second is refused); only texts of the form C75 covers."
  },
  {
   "property": "C96",
   "status": "partial",
   "theorems": [
    "C96_warnings_exact",
    "C96_check_output",
    "C96_every_column_partial",
    "C96_refuted"
   ],
   "note": "C96_warnings_exact gives the exact list and C96_check_output the exact output, for files none of whose tables is defined twice. The list is what the property says but for tables with a DATE or TIME column, where the columns from that one on are not looked at (C96_refuted: 'No problems found'); C96_every_column_partial without such columns."
  },
  {
   "property": "C97",
   "status": "partial",
   "theorems": [
    "C97_exact",
    "C97_no_note_partial",
    "C97_key_after_primary_lost",
    "C97_key_before_primary_raises",
    "C97_file_ignored",
    "C97_refuted"
   ],
   "note": "C97_exact says exactly which definitions count, which messages there are, and when reading fails; C97_no_note_partial: every definition of a table read without a message about it counts. Refuted: a primary key goes under its first column's name, so a key with that name after it is lost without a word (the message is kept where check does not look, C40), and before it the whole file is ignored and the live table is planned to be dropped."
  },
  {
   "property": "C98",
   "status": "partial",
   "theorems": [
    "C98_read_partial",
    "C98_hidden",
    "C98_refuted"
   ],
   "note": "C98_read_partial: true of a column without a length, AUTO_INCREMENT, character set and collation, with anything before and after it and in any layout. C98_hidden: with any of these (TINYINT with a length is covered by neither) reading fails and the file is ignored, whatever else is in it (one line is printed, C102; check finds no problem). C98_refuted: `id int not null auto_increment primary key` and `VARCHAR(20) NOT NULL PRIMARY KEY` pass check, leave no table, and against a server that has the tables the plan drops them."
  },
  {
   "property": "C99",
   "status": "partial",
   "theorems": [
    "C99_same_run_partial",
    "C99_reaches_target_partial",
    "C99_respelled",
    "C99_refuted"
   ],
   "note": "C99_same_run_partial: if in no table two names differ in letter case only, on one side or across, every prefix of the plan does the same on both kinds of server, so C10 holds for MySQL (C99_reaches_target_partial). C99_respelled: a column spelled otherwise is always dropped with its contents and made anew in the same statement. C99_refuted: check accepts a file with columns a and A, which MySQL refuses to create, and one that spells Name where the server has name. Table names are compared as spelled."
  },
  {
   "property": "C100",
   "status": "partial",
   "theorems": [
    "C100_hidden",
    "C100_refuted",
    "C100_refused_partial",
    "C100_reported_partial",
    "C118_after_refused_partial",
    "C118_after_reported_partial"
   ],
   "note": "The full statement is false. C100_hidden: if after any definition of a file's CREATE TABLE stand pairs of words the tool does not know (each read as a column whose type it has no class for), in any layout and with anything before and after, reading fails and the file is ignored (one line is printed, C102; check finds no problem). C100_refuted: USING BTREE after a key, REFERENCES in a column, ZEROFILL, DOUBLE PRECISION and ON UPDATE before ON DELETE SET NULL pass check, leave no table, and the plan drops the tables of the server. C100_refused_partial: if any number of pairs of unknown words and then a single one follow a definition, before a parenthesis or before a space and a character that is not of a word (COMMENT 'text', INVISIBLE), GENERATED ALWAYS AS (a + b)), check fails and plan and apply send nothing, whatever comes before and after; C100_reported_partial: and the text from that word on is printed unless an exception ends check. C118_after_refused_partial and C118_after_reported_partial hold for these words too: the same when other statements come before in the same file."
  },
  {
   "property": "C101",
   "status": "partial",
   "theorems": [
    "C101_output_exact",
    "C101_only_statements_partial",
    "C101_refuted"
   ],
   "note": "C101_output_exact: what plan prints is a line for each source not read to its end, a line for each live table not understood, and the statements. C101_only_statements_partial: only the statements for the sources of C75 and the servers of C72. C101_refuted: a file with USING BTREE puts an error line in front of the statements, on standard output."
  },
  {
   "property": "C102",
   "status": "partial",
   "theorems": [
    "C102_one_line",
    "C102_refuted"
   ],
   "note": "False. C102_one_line: whenever nothing of a file is read, check, plan and apply do what they do without the file, with the same exit status, and print one line more; C98_hidden, C100_hidden, C97_file_ignored and C57_insert_exact give such files. C102_refuted: check prints the line and then that there are no problems. Files of which something is read before the error: C103_cut."
  },
  {
   "property": "C103",
   "status": "partial",
   "theorems": [
    "C103_dropped_exact",
    "C103_cut",
    "C103_dropped_partial",
    "C103_refuted"
   ],
   "note": "False of files that end in text that is not understood. C103_dropped_exact: for every run the tables dropped are exactly those shown by the server that were not read from the files. C103_cut: a file counts up to the first statement that is not understood, exactly, whatever follows. C103_dropped_partial: both together, in terms of the statements, for the sources of C75 (cut off or not) and the servers of C72. C103_refuted: check passes and a table is dropped that the file defines."
  },
  {
   "property": "C104",
   "status": "partial",
   "theorems": [
    "C104_reading",
    "C104_white",
    "C104_kinds",
    "C104_files_exact",
    "C104_check_exact",
    "C104_all_commands",
    "C104_white_file",
    "C104_no_crash_partial",
    "C104_refuted",
    "C104_refuted_quote"
   ],
   "note": "False. C104_reading: for every text, reading returns, raises a ValueError (caught), raises an IndexError for a text of white space only (C104_white: always), or a SyntaxError for a text with an apostrophe or backtick. C104_check_exact: for files that define no table twice, check ends with an exception exactly if a file is white space only, a quote is not closed, rows are given for a table no file defines, or a table has a column that cannot be checked; C104_all_commands: then plan and apply end the same way before anything is sent. C104_kinds gives the exception. C104_no_crash_partial: no exception in check otherwise. C104_refuted, C104_refuted_quote: a file holding a line break; an INSERT with the value 'it\\'s'. Missing: files that define a table twice; exceptions of plan and apply that come from the server (C37, C41 and the claims on live tables)."
  },
  {
   "property": "C105",
   "status": "partial",
   "theorems": [
    "C105_columns",
    "C105_plan_exact",
    "C105_apply",
    "C105_plan_partial",
    "C105_refuted"
   ],
   "note": "False. C105_plan_exact: for files that check is content with (no table defined twice) and any server that answers, plan ends with an exception exactly if a definition is white space only or has an unclosed quote, the rows of a table managed by the files cannot be fetched or one of them has an empty id, or two columns of the same name cannot be compared; otherwise it ends with a plan. C105_columns: which columns those are. C105_apply: then apply does the same as plan and has only asked. C105_plan_partial: the plan for definitions with closed quotes, rows with ids and defaults that are numbers. C105_refuted: a server with a row whose id is the empty text. A view among the tables (no definition shown) is C84_refuted. Missing: servers that list a table twice."
  },
  {
   "property": "C106",
   "status": "partial",
   "theorems": [
    "C106_resumed_partial",
    "C106_refuted"
   ],
   "note": "Proved for the sources of C75, servers that show tables as in C72, and the hypotheses of C10 and C19: for every split of the printed statements, the first part runs, and whatever the server then shows of what it holds, and whatever rows it then has, the next plan is made, runs, and reaches the tables and rows of the files. C106_refuted: a statement the server refuses (C10: a second primary key) is refused again each time. Missing: pairs outside C10's hypotheses; files outside C75."
  },
  {
   "property": "C107",
   "status": "partial",
   "theorems": [
    "C107_exact",
    "C107_other_tables",
    "C107_never_refused_partial",
    "C107_moved_refuted",
    "C107_swapped_refuted"
   ],
   "note": "False. C107_exact: the statements are never refused exactly if the rows before and after obey the key, no added row has the values of a row that was there, and no row that stays takes the values of a row behind it in the server's list. C107_other_tables: tables without rows in the files are not touched. C107_moved_refuted: a row that gets a new id is inserted before the old one is deleted. C107_swapped_refuted: two rows exchange their values. Values are compared byte by byte (no collation)."
  },
  {
   "property": "C108",
   "status": "partial",
   "theorems": [
    "C108_exact",
    "C108_kept_partial",
    "C108_refuted"
   ],
   "note": "False: foreign key checks are off, nothing is cascaded and no file row is checked. C108_exact: when references hold after the run, by who holds the rows of the two tables. C108_kept_partial: they are kept if no DELETE is about a row that is referred to. C108_refuted: a user keeps the role that is deleted. One-column references to the id; the referring column of file rows is set and not NULL."
  },
  {
   "property": "C109",
   "status": "partial",
   "theorems": [
    "C109_structure_first",
    "C109_exact",
    "C109_refuted"
   ],
   "note": "False. C109_structure_first: in every plan the statements that change tables meet the rows as they are before the run. C109_exact: so the key can be added exactly if the live rows obey it. C109_refuted: check and plan are content, the files settle a duplicate, and the key is added before the UPDATE that settles it."
  },
  {
   "property": "C110",
   "status": "partial",
   "theorems": [
    "C110_json_partial",
    "C110_no_object",
    "C110_refuted"
   ],
   "note": "C110_json_partial: for objects with members whose settings are no arrays or objects, and for files in lines, in any combination. C110_no_object: JSON that is no object ends the command with Python's exception. C110_refuted: the object without members is read as lines. json.loads is an oracle."
  },
  {
   "property": "C111",
   "status": "partial",
   "theorems": [
    "C111_remarks_exact",
    "C111_covers",
    "C111_enum_exact",
    "C111_text_partial",
    "C111_refuted",
    "C111_refuted_needless",
    "C111_refuted_missing"
   ],
   "note": "False: the remark follows from how the length is written, not from the type. C111_remarks_exact: the exact remark for every column definition of C54 (C111_covers: all of them); C111_enum_exact: for those of C56. C111_text_partial: for texts with a length the remark is the right one, but for digits without quotes. C111_refuted: INT(11) DEFAULT -1 is said to lack quotes. C111_refuted_needless: quotes around a number matter in DECIMAL(10,2) only. C111_refuted_missing: CHAR DEFAULT a passes. Which remarks check prints: C96."
  },
  {
   "property": "C112",
   "status": "partial",
   "theorems": [
    "C112_read_exact",
    "C112_statement_partial",
    "C112_reported_partial",
    "C112_refuted",
    "C112_refuted_order",
    "C112_refuted_date"
   ],
   "note": "C112_read_exact: a foreign key with or without a name and any actions, those on deletions first and each group in the order CASCADE, NO ACTION, RESTRICT, SET DEFAULT, SET NULL, is read with the first action of each group and an error for each further one. C112_statement_partial: so it comes to stand in the table of a CREATE TABLE statement. C112_reported_partial: check reports the errors of every table without date columns. C112_refuted: in other orders the file is ignored and check is content; C112_refuted_order: so it is with ON UPDATE before ON DELETE; C112_refuted_date: a date column hides the contradiction."
  },
  {
   "property": "C113",
   "status": "partial",
   "theorems": [
    "C113_errors_exact",
    "C113_reported_partial",
    "C113_refuted",
    "C113_refuted_create",
    "C113_nothing_sent",
    "C113_told"
   ],
   "note": "C113_errors_exact: for any sources the errors begin with one complaint, with text and file name, for each source whose reading ends at a statement that is not known, in order. C113_reported_partial: true of text that begins neither with a comment nor with CREATE or INSERT, after any statements of C75. C113_refuted: a CREATE TABLE statement without its last parenthesis is reported without file and text; C113_refuted_create: so is CREATE DATABASE (the file is named on a line of its own). C113_nothing_sent: for any sources, if one of them is reported in this way then check fails and plan and apply send nothing, also when an exception ends them. C113_told: for any sources, unless an exception ends check, every such complaint is printed by all commands."
  },
  {
   "property": "C114",
   "status": "partial",
   "theorems": [
    "C114_dropped_partial",
    "C114_refuted"
   ],
   "note": "C114_dropped_partial: for sources of C75 with closed block comments between the statements and comments with #, exactly the tables of the server without a statement that counts (before the first # comment after a statement) are dropped. C114_refuted: a table defined on the lines after a # comment is dropped although check finds no problem."
  },
  {
   "property": "C115",
   "status": "partial",
   "theorems": [
    "C115_create_partial",
    "C115_check_partial",
    "C115_insert_hides",
    "C115_refuted"
   ],
   "note": "C115_create_partial: for every text that begins with CREATE, whatever it holds, any number of such comments after the first word leaves what is read unchanged; C115_check_partial: and what check prints. C115_insert_hides: in a file that begins with INSERT, everything after a comment among the rows is lost, for all rows and all texts after it, and nothing is reported. C115_refuted: the rows after the comment are deleted from the server although check finds no problem."
  },
  {
   "property": "C116",
   "status": "partial",
   "theorems": [
    "C116_insert_partial",
    "C116_alike",
    "C116_refuted"
   ],
   "note": "C116_insert_partial: for files that are one INSERT statement (in the layout of C57). C116_alike: in every file that begins with CREATE, what stands after two hyphens up to the end of the line, quoted or not, makes no difference. C116_refuted: the plan overwrites a text that file and server have in common."
  },
  {
   "property": "C117",
   "status": "partial",
   "theorems": [
    "C117_refused_partial",
    "C117_exception",
    "C117_alone",
    "C117_refuted"
   ],
   "note": "C117_refused_partial: for every such statement as the beginning of a file, whatever the other files hold, check fails and plan and apply send nothing. C117_exception: unless some file has a table without a name, all commands end with an exception, with or without --force. C117_alone: which one, for a single file. C117_refuted: a valid statement for a table that exists ends check with KeyError: '', and neither text nor file is named."
  },
  {
   "property": "C118",
   "status": "partial",
   "theorems": [
    "C118_refused_partial",
    "C118_reported_partial",
    "C118_refuted",
    "C118_late_refused_partial",
    "C118_late_reported_partial",
    "C118_after_refused_partial",
    "C118_after_reported_partial"
   ],
   "note": "C118_refused_partial: true of definitions that begin with a word and an opening parenthesis (KEY (a), INDEX (a), CHECK (a > 0), FULLTEXT (a) ...) and of constraints other than foreign keys whose name has back-quotes (CONSTRAINT `u` UNIQUE (a)), after any known definitions, in any layout, before any text, whatever the other files hold; C118_reported_partial: and the text is printed unless an exception ends check. C118_refuted: CONSTRAINT u UNIQUE (a) is read as a column of the unknown type u, the file is ignored, check finds no error and the table of the server is dropped. C118_late_refused_partial: true also of FULLTEXT KEY k (a), SPATIAL INDEX k (a), CONSTRAINT c CHECK (a > 0) and the like, with or without back-quotes around k; the text that is printed then begins with the third word. C118_after_refused_partial, C118_after_reported_partial: the same when other statements that are known come before in the same file."
  },
  {
   "property": "C119",
   "status": "partial",
   "theorems": [
    "C119_hidden",
    "C119_refuted"
   ],
   "note": "With back-quotes around u it is reported (C118_refused_partial). Without, if u is no name of a type, C119_hidden: nothing of the file counts and check finds no error, for all columns, definitions, options and layouts. C119_refuted: then the table of the server is dropped; and if u is the name of a type the table is made with a column called CONSTRAINT."
  },
  {
   "property": "C120",
   "status": "partial",
   "theorems": [
    "C120_gap_partial",
    "C120_check_partial",
    "C120_after_partial"
   ],
   "note": "C120_gap_partial: for files that begin with the INSERT statement, whatever follows it; C120_check_partial: any number of such files among any others. C120_after_partial: the same for an INSERT after other statements that are known in the same file, for the rows, the errors, the text left and exceptions. Missing: that the tables of such a file are the same."
  },
  {
   "property": "C121",
   "status": "partial",
   "theorems": [
    "C121_lost",
    "C121_refuted",
    "C121_last_refused"
   ],
   "note": "The statement is false. C121_lost: for every column and every spelling, if the definition after it begins with a name between back-quotes or with two words, all the text from UNIQUE up to the next list in parentheses, the definitions in between included, is read as one unique key on the names in that list. C121_refuted: a file that check accepts and for which plan drops two columns that the file has, and the primary key. C121_last_refused: UNIQUE at the end of the last definition is reported and nothing is sent, unless a parenthesis is opened further on in the file."
  },
  {
   "property": "C122",
   "status": "partial",
   "theorems": [
    "C122_dropped",
    "C122_refuted"
   ],
   "note": "The statement is false. C122_dropped: if all tables of the files are named in this way, then for all definitions, layouts and servers plan drops every table of the server that has no dot in its name. C122_refuted: a file that check accepts, for the table that the server has; plan drops the table and creates one whose name is `shop.logs`."
  },
  {
   "property": "C123",
   "status": "partial",
   "theorems": [
    "C123_hidden",
    "C123_refuted"
   ],
   "note": "The statement is false. C123_hidden: for every column without length, or with a single number as length, whose attributes are AUTO_INCREMENT, perhaps after UNSIGNED, and then NOT NULL, nothing of the file counts and check finds no error, for all names, definitions, options and layouts. C123_refuted: then the table of the server is dropped, while nothing happens with the two attributes in the other order."
  },
  {
   "property": "C124",
   "status": "partial",
   "theorems": [
    "C124_refuted"
   ],
   "note": "The statement is false. C124_refuted: a file with such a key, with or without CONSTRAINT and a name, is accepted by check and the table of the server is dropped. Missing: which of these files are reported in general; with back-quotes around the name one is (ex_C124_quoted)."
  }
 ]
}
