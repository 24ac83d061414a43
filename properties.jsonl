{"id": "C01", "title": "Diff of a table or database with itself is empty", "statement": "table.to(table) returns no operation in either mode, and Mygration(db, db, False).operations is the empty list whenever db has no errors.", "quantifier": "all tables and databases, both values of split_operations, all float semantics of the interpreter", "why_tests_cant": "the space of schemas is unbounded; a test fixes one pair", "anchors": ["mygrations/formats/mysql/definitions/table.py:Table.to", "mygrations/formats/mysql/mygrations/mygration.py:Mygration._process"]}
{"id": "C02", "title": "Table diff applies cleanly and reaches the target", "statement": "Executing, in order, the operations of source.to(target) on the source table never adds something that exists nor drops/changes/positions-after something missing, and afterwards the table has exactly the target's column names, each column being the target's definition or a source definition that the tool declares equivalent, exactly the target's foreign keys, and an index for every target index.", "quantifier": "all pairs of tables with distinct column, index and constraint names", "why_tests_cant": "the space of schemas is unbounded; a test fixes one pair", "anchors": ["mygrations/formats/mysql/definitions/table.py:Table.to", "mygrations/core/definitions/table.py:Table._differences", "mygrations/formats/mysql/mygrations/operations/add_column.py"]}
{"id": "C03", "title": "Column order of the target is reproduced", "statement": "If the columns common to both tables occur in the same relative order, then after executing source.to(target) the column order is exactly the target's column order, wherever new columns were interleaved and old ones removed.", "quantifier": "all pairs of tables, all interleavings of added, kept and removed columns", "why_tests_cant": "the number of interleavings is unbounded", "anchors": ["mygrations/formats/mysql/definitions/table.py:Table.to", "mygrations/core/definitions/table.py:Table.column_before", "mygrations/core/definitions/table.py:Table.add_column"]}
{"id": "C04", "title": "Diff is empty after the diff has been executed", "statement": "After executing source.to(target), diffing the result against target again yields no operation.", "quantifier": "all pairs of tables", "why_tests_cant": "the space of schemas is unbounded; a test fixes one pair", "anchors": ["mygrations/formats/mysql/definitions/table.py:Table.to"]}
{"id": "C05", "title": "No meaningful column difference is ignored", "statement": "If a column of the same name differs between source and target in type, length (other than integer display width), nullability, default value, unsignedness, AUTO_INCREMENT, enum values, or in character set/collation when both are given, then source.to(target) contains a CHANGE of that column.", "quantifier": "all pairs of column definitions", "why_tests_cant": "combinations of attributes and values are unbounded", "anchors": ["mygrations/core/definitions/columns/column.py:Column.is_really_the_same_as", "mygrations/core/definitions/columns/numeric.py", "mygrations/core/definitions/columns/string.py", "mygrations/formats/mysql/definitions/table.py:Table.to"]}
{"id": "C06", "title": "Split and unsplit diffs carry the same operations", "statement": "The operations of to(target) flattened are those of to(target, True) flattened in the order removed_fks, kitchen_sink, fks; in split mode removed_fks holds only FK drops, fks only FK adds and kitchen_sink no FK operation; absent keys and omitted ALTERs are exactly the empty ones.", "quantifier": "all pairs of tables", "why_tests_cant": "the space of schemas is unbounded; a test fixes one pair", "anchors": ["mygrations/formats/mysql/definitions/table.py:Table.to"]}
{"id": "C07", "title": "Index changes are suppressed only when an equivalent index stays", "statement": "A target index that is not added has, after the diff is executed, an index with the same columns and type on the table; an index that is not dropped although the target lacks its name stands for exactly one such target index; and suppression happens only if one of the two names is a foreign key name.", "quantifier": "all pairs of tables, any number of indexes over the same columns", "why_tests_cant": "matching is a greedy assignment over arbitrary multisets of indexes", "anchors": ["mygrations/formats/mysql/definitions/table.py:Table.to"]}
{"id": "C08", "title": "Plan creates, drops and alters exactly the right tables", "statement": "Mygration(to, from) contains one CREATE TABLE, with the target's definition, for every table only in the target and no other; one DROP TABLE for every table only in the source and no other; and every ALTER names a table of the source.", "quantifier": "all pairs of databases", "why_tests_cant": "the space of schemas is unbounded; a test fixes one pair", "anchors": ["mygrations/formats/mysql/mygrations/mygration.py:Mygration._process"]}
{"id": "C09", "title": "Plan against nothing creates exactly the target", "statement": "With no source database the plan is one CREATE TABLE per target table in target order, and executing it on an empty server gives exactly the target's tables.", "quantifier": "all error-free databases", "why_tests_cant": "the space of schemas is unbounded; a test fixes one pair", "anchors": ["mygrations/formats/mysql/mygrations/mygration.py:Mygration._process"]}
{"id": "C10", "title": "Executing a plan on the source reaches the target", "statement": "Executing the plan's operations in order on the source structure never hits a missing or duplicate object and ends with exactly the target's tables, columns (up to the tool's equivalence), indexes (up to FK-named renames) and foreign keys.", "quantifier": "all pairs of databases whose target has no errors", "why_tests_cant": "the space of schemas is unbounded; a test fixes one pair", "anchors": ["mygrations/formats/mysql/mygrations/mygration.py:Mygration._process", "mygrations/formats/mysql/mygrations/mygration.py:Mygration._find_fk_ops_for_column_type_changes", "mygrations/formats/mysql/mygrations/mygration.py:Mygration._strip_cycled_fk_ops"]}
{"id": "C11", "title": "Plan is empty once the plan was executed", "statement": "After the plan was executed successfully, planning again gives no operation.", "quantifier": "all pairs of databases", "why_tests_cant": "the space of schemas is unbounded; a test fixes one pair; the repeat must be empty for every reachable result", "anchors": ["mygrations/formats/mysql/mygrations/mygration.py:Mygration._find_fk_ops_for_column_type_changes", "mygrations/formats/mysql/mygrations/mygration.py:Mygration._column_type_differs"]}
{"id": "C12", "title": "No column type change while a foreign key holds the column", "statement": "While the plan is executed, no CHANGE that alters a column's type attributes (type, length, unsigned, character set, collation) happens while a foreign key of any table uses that column on either side (MySQL error 3780).", "quantifier": "all pairs of databases, every point of the execution", "why_tests_cant": "depends on every ordering of tables and of FK references across tables", "anchors": ["mygrations/formats/mysql/mygrations/mygration.py:Mygration._find_fk_ops_for_column_type_changes"]}
{"id": "C13", "title": "Foreign keys cycled for a type change come back once, as in the target", "statement": "Every source foreign key that is dropped because of a column type change is dropped exactly once; for each target foreign key it stands for exactly one ADD with the target's definition follows; FKs of tables to be dropped are not re-added.", "quantifier": "all pairs of databases, any number of duplicate or renamed FKs", "why_tests_cant": "any number of duplicates may map to one target FK", "anchors": ["mygrations/formats/mysql/mygrations/mygration.py:Mygration._find_fk_ops_for_column_type_changes", "mygrations/formats/mysql/mygrations/mygration.py:Mygration._find_matching_constraint"]}
{"id": "C14", "title": "Foreign keys are added only after all tables and columns are final", "statement": "In a plan no CREATE TABLE, column or index operation follows an ADD of a foreign key by ALTER; and when such an ADD is executed the referencing and the referenced table and column exist.", "quantifier": "all pairs of databases", "why_tests_cant": "order must be right for every table order", "anchors": ["mygrations/formats/mysql/mygrations/mygration.py:Mygration._process"]}
{"id": "C15", "title": "A target with errors yields no structural change", "statement": "If the target database reports any error, Mygration.operations is None; `plan`/`apply` without force emit and execute nothing at all; with force only row operations (INSERT/UPDATE/DELETE) are emitted.", "quantifier": "all databases with errors, all live databases", "why_tests_cant": "must hold for every kind of error", "anchors": ["mygrations/formats/mysql/mygrations/mygration.py:Mygration.__init__", "mygrations/core/commands/plan.py:Plan.build_commands"]}
{"id": "C16", "title": "Commands are bracketed by disabling and enabling FK checks", "statement": "The list returned by plan is empty or starts with SET FOREIGN_KEY_CHECKS=0, ends with SET FOREIGN_KEY_CHECKS=1, has something in between, and contains neither anywhere else.", "quantifier": "all file databases and live databases", "why_tests_cant": "the space of schemas is unbounded; a test fixes one pair", "anchors": ["mygrations/core/commands/plan.py:Plan.build_commands", "mygrations/formats/mysql/mygrations/mygration.py:Mygration._process"]}
{"id": "C17", "title": "Interrupted apply can be resumed", "statement": "If only a prefix of the plan's operations was executed (crash or failing statement), planning again from the structure then present and executing that plan reaches the target.", "quantifier": "all pairs of databases, every crash point", "why_tests_cant": "every prefix of every plan", "anchors": ["mygrations/formats/mysql/mygrations/mygration.py:Mygration._process", "mygrations/drivers/pymysql/pymysql.py:PyMySQL.execute"]}
{"id": "C18", "title": "No empty or misdirected ALTER", "statement": "Every ALTER TABLE in a plan has at least one clause and names a table existing at that point of the execution.", "quantifier": "all pairs of databases", "why_tests_cant": "filtering may empty an ALTER in any combination", "anchors": ["mygrations/formats/mysql/mygrations/mygration.py:Mygration._strip_cycled_fk_ops", "mygrations/formats/mysql/mygrations/operations/alter_table.py"]}
{"id": "C19", "title": "Row synchronisation reaches the rows of the files", "statement": "Executing the row operations computed for a tracked table on the live rows gives exactly the ids of the file rows; every row has the file's values in all columns the file sets, up to the tool's value equality, and untouched columns keep their value.", "quantifier": "all sets of file rows and live rows", "why_tests_cant": "row sets are unbounded", "anchors": ["mygrations/formats/mysql/definitions/table.py:Table.to_rows", "mygrations/formats/mysql/mygrations/row_mygration.py:RowMygration._process"]}
{"id": "C20", "title": "No row operation for synchronised rows", "statement": "No operation is emitted for a row id present on both sides whose common columns are equal as strings/values; in particular rows re-read after they were synchronised produce no operation.", "quantifier": "all sets of rows and value types", "why_tests_cant": "row sets are unbounded", "anchors": ["mygrations/formats/mysql/definitions/table.py:Table.to_rows", "mygrations/core/definitions/table.py:Table._loose_equal"]}
{"id": "C21", "title": "Row synchronisation touches only tracked tables and each id once", "statement": "Row operations name only tables for which the files contain rows; per table every id occurs in at most one operation; ids only in the files are inserted, ids only live are deleted.", "quantifier": "all databases", "why_tests_cant": "the space of schemas is unbounded; a test fixes one pair", "anchors": ["mygrations/formats/mysql/mygrations/row_mygration.py:RowMygration._process", "mygrations/formats/mysql/definitions/table.py:Table.to_rows"]}
{"id": "C22", "title": "A bad INSERT never deletes live rows", "statement": "If an INSERT statement in the files is rejected (for example it has no id column), planning does not delete live rows because of it.", "quantifier": "all insert statements and live rows", "why_tests_cant": "any number of live rows is at stake", "anchors": ["mygrations/core/definitions/table.py:Table.add_rows", "mygrations/formats/mysql/definitions/table.py:Table.to_rows"]}
{"id": "C23", "title": "Value equality identifies only equal SQL values", "statement": "Two column values are considered equal only if they are the same SQL value: both NULL, or both non-NULL with the same text.", "quantifier": "all pairs of Python values a driver or parser can produce", "why_tests_cant": "values are unbounded", "anchors": ["mygrations/core/definitions/table.py:Table._loose_equal"]}
{"id": "C24", "title": "Values of newly added columns are written by the same apply", "statement": "If a tracked row's file values include a column that the live table does not have yet, then one plan adds the column and sets the value.", "quantifier": "all pairs of databases with tracked rows", "why_tests_cant": "the space of schemas is unbounded; a test fixes one pair", "anchors": ["mygrations/formats/mysql/definitions/table.py:Table.to_rows", "mygrations/core/commands/plan.py:Plan.build_commands"]}
{"id": "C25", "title": "Reading rows keeps the first of each id and loses none", "statement": "After add_rows every stored row is keyed by its own id, rows already stored are unchanged, each id of the input not stored before is stored with the first row having it, and every other input row is reported in the table's error list.", "quantifier": "all tables, Rows objects and histories of add_rows calls", "why_tests_cant": "histories are unbounded", "anchors": ["mygrations/core/definitions/table.py:Table.add_rows", "mygrations/core/definitions/table.py:Table.add_raw_row"]}
{"id": "C26", "title": "UPDATE statements are never vacuous and never change ids", "statement": "Every UPDATE operation emitted sets at least one column other than id, does not set id and selects exactly the row's own id.", "quantifier": "all row sets", "why_tests_cant": "the space of schemas is unbounded; a test fixes one pair", "anchors": ["mygrations/formats/mysql/definitions/table.py:Table.to_rows", "mygrations/formats/mysql/mygrations/operations/row_update.py"]}
{"id": "C27", "title": "INSERT statements carry the exact values", "statement": "Reading the VALUES list of a rendered INSERT with MySQL's string literal rules gives back exactly the row's values (NULL for None), and nothing in a value can end the literal early.", "quantifier": "all rows, all strings including quotes and backslashes", "why_tests_cant": "strings are unbounded", "anchors": ["mygrations/formats/mysql/mygrations/operations/row_insert.py:RowInsert.__str__"]}
{"id": "C28", "title": "UPDATE statements carry the exact values", "statement": "Reading the SET list of a rendered UPDATE with MySQL's string literal rules gives back exactly the row's values.", "quantifier": "all rows, all strings", "why_tests_cant": "strings are unbounded", "anchors": ["mygrations/formats/mysql/mygrations/operations/row_update.py:RowUpdate.__str__"]}
{"id": "C29", "title": "WHERE clauses select exactly the given id", "statement": "The id literal in a rendered UPDATE or DELETE denotes exactly the row id and nothing in the id can end the literal early.", "quantifier": "all ids", "why_tests_cant": "strings are unbounded", "anchors": ["mygrations/formats/mysql/mygrations/operations/row_update.py", "mygrations/formats/mysql/mygrations/operations/row_delete.py"]}
{"id": "C30", "title": "Identifiers are quoted", "statement": "In every rendered statement each table, column, index and constraint name appears between back-quotes, so that names which are reserved words or contain spaces work.", "quantifier": "all operations and names", "why_tests_cant": "names are unbounded", "anchors": ["mygrations/formats/mysql/mygrations/operations/remove_column.py", "mygrations/formats/mysql/mygrations/operations/remove_table.py"]}
{"id": "C31", "title": "Column defaults are rendered as the literal they denote", "statement": "The DEFAULT clause of a rendered column is a valid SQL literal denoting the column's default value.", "quantifier": "all column definitions", "why_tests_cant": "strings are unbounded", "anchors": ["mygrations/core/definitions/columns/column.py:Column.__str__"]}
{"id": "C32", "title": "Foreign key validation is exact", "statement": "A foreign key is reported iff referenced table or column is missing, its own column is missing, either column lacks a leading index, type/length/charset/collation/unsignedness differ, or SET NULL is used on a NOT NULL column.", "quantifier": "all databases and foreign keys", "why_tests_cant": "the space of schemas is unbounded; a test fixes one pair", "anchors": ["mygrations/core/definitions/database.py:Database.find_constraint_errors"]}
{"id": "C33", "title": "Duplicate foreign key names are reported exactly", "statement": "The number of duplicate-foreign-key errors is the number of foreign keys minus the number of distinct foreign key names over all tables; in particular none iff names are distinct database-wide.", "quantifier": "all databases", "why_tests_cant": "the space of schemas is unbounded; a test fixes one pair", "anchors": ["mygrations/core/definitions/database.py:Database.find_all_database_schema_errors"]}
{"id": "C34", "title": "Table validation is exact", "statement": "A table whose parts are checkable reports a schema error iff it lacks a name or columns, one of its parts has an error, it has several primary indexes, several AUTO_INCREMENT columns, an AUTO_INCREMENT column that is not first in the primary index, or an index over a missing column.", "quantifier": "all tables", "why_tests_cant": "the space of schemas is unbounded; a test fixes one pair", "anchors": ["mygrations/core/definitions/table.py:Table._find_all_errors"]}
{"id": "C35", "title": "Every table's schema errors reach the database's error list", "statement": "If a table of the database has a schema error then that error is in database.errors.", "quantifier": "all databases", "why_tests_cant": "depends on which other columns the table has", "anchors": ["mygrations/core/definitions/database.py:Database.find_all_table_schema_errors", "mygrations/core/definitions/columns/date.py"]}
{"id": "C36", "title": "A valid ENUM or SET column is accepted", "statement": "A table read from SQL with an ENUM or SET column with a list of values and a default from that list has no errors.", "quantifier": "all lists of values", "why_tests_cant": "lists are unbounded", "anchors": ["mygrations/formats/mysql/file_reader/parsers/type_enum.py", "mygrations/formats/mysql/file_reader/parsers/type.py:Type.as_definition", "mygrations/core/definitions/columns/enum.py"]}
{"id": "C37", "title": "Validation never raises", "statement": "Asking a database read from SQL for its errors returns a list; it never raises an exception.", "quantifier": "all databases read from SQL", "why_tests_cant": "inputs are unbounded", "anchors": ["mygrations/core/definitions/database.py:Database.errors", "mygrations/core/definitions/columns/numeric.py", "mygrations/core/definitions/columns/enum.py"]}
{"id": "C38", "title": "Two definitions of one table are reported", "statement": "If the SQL sources define the same table twice, the database reports an error.", "quantifier": "all lists of SQL sources", "why_tests_cant": "inputs are unbounded", "anchors": ["mygrations/formats/mysql/file_reader/database.py:Database._read"]}
{"id": "C39", "title": "A table definition that cannot be read is reported", "statement": "If a CREATE TABLE in the sources is not turned into a table then database.errors is not empty; in particular plan never drops a live table whose definition is in the files.", "quantifier": "all SQL sources", "why_tests_cant": "inputs are unbounded", "anchors": ["mygrations/formats/mysql/file_reader/database.py:Database._read", "mygrations/formats/mysql/file_reader/create_parser.py"]}
{"id": "C40", "title": "Errors recorded on a table reach the database's error list", "statement": "Errors recorded while reading a table or its rows (missing semicolon, duplicate column, index or constraint, duplicate row id, wrong number of values, missing id) are in database.errors.", "quantifier": "all SQL sources", "why_tests_cant": "inputs are unbounded", "anchors": ["mygrations/core/definitions/table.py:Table._find_all_errors", "mygrations/core/definitions/database.py:Database.errors"]}
{"id": "C41", "title": "INSERT into an unknown table is reported", "statement": "SQL sources with an INSERT for a table that no source defines give a database whose errors say so.", "quantifier": "all SQL sources", "why_tests_cant": "inputs are unbounded", "anchors": ["mygrations/formats/mysql/file_reader/database.py:Database._combine_tables_and_rows", "mygrations/core/definitions/database.py:Database.find_all_row_schema_errors"]}
{"id": "C42", "title": "Error lists are consistent over time", "statement": "database.errors asked repeatedly gives the same list, and after any add_table, remove_table or apply_operation it reflects the new structure.", "quantifier": "all histories of queries and mutations", "why_tests_cant": "histories are unbounded", "anchors": ["mygrations/core/definitions/database.py:Database.find_schema_errors", "mygrations/core/definitions/database.py:Database.apply_operation", "mygrations/core/definitions/table.py:Table.schema_errors"]}
{"id": "C43", "title": "Table mutators behave as ordered-map operations", "statement": "add/remove/change of columns, indexes and constraints succeed iff the name is absent/present as required, change exactly that entry (an addition at the requested position), keep the order of all others, and a rejected call changes nothing.", "quantifier": "all tables and histories of calls", "why_tests_cant": "histories are unbounded", "anchors": ["mygrations/core/definitions/table.py:Table.add_column", "mygrations/core/definitions/table.py:Table.change_index", "mygrations/core/definitions/table.py:Table.remove_constraint"]}
{"id": "C44", "title": "column_is_indexed is right after any history", "statement": "column_is_indexed(c) is True iff c is a column of the table and is the first column of one of its current indexes, whatever calls were made before.", "quantifier": "all histories of index calls and queries", "why_tests_cant": "histories are unbounded", "anchors": ["mygrations/core/definitions/table.py:Table.column_is_indexed", "mygrations/core/definitions/table.py:Table.remove_index", "mygrations/core/definitions/table.py:Table.change_index"]}
{"id": "C45", "title": "primary is right after any history", "statement": "table.primary is the current PRIMARY index if the table has one and None otherwise, whatever calls were made before.", "quantifier": "all histories of index calls", "why_tests_cant": "histories are unbounded", "anchors": ["mygrations/core/definitions/table.py:Table.primary", "mygrations/core/definitions/table.py:Table.remove_index"]}
{"id": "C46", "title": "Every operation a diff produces can be applied to a table object", "statement": "For each operation op in an ALTER of source.to(target), source.apply_operation(op) succeeds.", "quantifier": "all pairs of tables", "why_tests_cant": "the space of schemas is unbounded; a test fixes one pair", "anchors": ["mygrations/formats/mysql/mygrations/operations/add_key.py", "mygrations/formats/mysql/mygrations/operations/change_key.py", "mygrations/formats/mysql/mygrations/operations/remove_key.py", "mygrations/core/definitions/table.py:Table.apply_operation"]}
{"id": "C47", "title": "column_before names the predecessor", "statement": "column_before(c) is True for the first column, the preceding column's name for every other column, and raises for unknown columns.", "quantifier": "all tables", "why_tests_cant": "the space of schemas is unbounded; a test fixes one pair", "anchors": ["mygrations/core/definitions/table.py:Table.column_before"]}
{"id": "C48", "title": "Parsing consumes input from the front and terminates", "statement": "Every parser returns a suffix of its (whitespace-normalised) input; a matching definition parser consumes at least one character; hence the repetition over definitions and the statement loop terminate without relying on their iteration limits.", "quantifier": "all input strings", "why_tests_cant": "strings are unbounded", "anchors": ["mygrations/core/parse/parser.py:Parser.parse", "mygrations/core/parse/rule_children.py", "mygrations/core/parse/rule_delimited.py", "mygrations/formats/mysql/file_reader/reader.py"]}
{"id": "C49", "title": "Keywords are matched case-insensitively", "statement": "Changing the case of letters of a keyword in the input never changes whether a literal rule matches nor what is left over.", "quantifier": "all literals and inputs", "why_tests_cant": "strings are unbounded", "anchors": ["mygrations/core/parse/rule_literal.py"]}
{"id": "C50", "title": "Quoted lists are read back exactly", "statement": "A comma separated list of quoted values, none containing the quote character, followed by the closing parenthesis is read as exactly those values whatever else they contain, and the rest of the input is left over.", "quantifier": "all lists of values and rest strings", "why_tests_cant": "strings are unbounded", "anchors": ["mygrations/core/parse/rule_delimited.py:RuleDelimited.parse"]}
{"id": "C51", "title": "Comments before statements are skipped", "statement": "Line comments (-- or #) and closed block comments between statements do not change which tables and rows are read.", "quantifier": "all comments and statements", "why_tests_cant": "strings are unbounded", "anchors": ["mygrations/formats/mysql/file_reader/comment_parser.py", "mygrations/formats/mysql/file_reader/reader.py"]}
{"id": "C52", "title": "A rendered foreign key is read back unchanged", "statement": "Parsing the text the tool renders for a foreign key gives a foreign key with the same name, columns, table and actions.", "quantifier": "all foreign keys with valid actions and names free of white space, parentheses, commas, quotes and double dashes, in any table whose other definitions are plain in the same way", "why_tests_cant": "strings are unbounded", "anchors": ["mygrations/formats/mysql/file_reader/parsers/constraint_foreign.py", "mygrations/core/definitions/constraint.py:Constraint.__str__"]}
{"id": "C53", "title": "A rendered index is read back unchanged", "statement": "Parsing the text the tool renders for an index gives an index with the same name, type and columns.", "quantifier": "all indexes with clean names", "why_tests_cant": "strings are unbounded", "anchors": ["mygrations/formats/mysql/file_reader/parsers/index_key.py", "mygrations/formats/mysql/file_reader/parsers/index_unique.py", "mygrations/formats/mysql/file_reader/parsers/index_primary.py", "mygrations/core/definitions/index.py:Index.__str__"]}
{"id": "C54", "title": "A rendered column is read back unchanged", "statement": "Parsing the text the tool renders for a column gives a column with the same rendering, so that re-reading a created table shows no difference.", "quantifier": "all column definitions of supported types with clean names and defaults", "why_tests_cant": "strings are unbounded", "anchors": ["mygrations/formats/mysql/file_reader/parsers/type_numeric.py", "mygrations/formats/mysql/file_reader/parsers/type_character.py", "mygrations/formats/mysql/file_reader/parsers/type_plain.py", "mygrations/formats/mysql/file_reader/parsers/type_text.py", "mygrations/formats/mysql/file_reader/parsers/type_decimal.py", "mygrations/core/definitions/columns/column.py:Column.__str__"]}
{"id": "C55", "title": "A rendered CREATE TABLE is read back unchanged", "statement": "Reading the CREATE TABLE statement the tool renders for a table gives a table to which the diff from the original is empty.", "quantifier": "all tables with supported column types and clean names", "why_tests_cant": "strings are unbounded", "anchors": ["mygrations/formats/mysql/file_reader/create_parser.py", "mygrations/formats/mysql/mygrations/operations/create_table.py:CreateTable.__str__"]}
{"id": "C56", "title": "A rendered INSERT is read back unchanged", "statement": "Reading the INSERT statement the tool renders for a row gives back the row's values.", "quantifier": "all rows", "why_tests_cant": "strings are unbounded", "anchors": ["mygrations/formats/mysql/file_reader/insert_parser.py", "mygrations/formats/mysql/file_reader/parsers/insert_values.py", "mygrations/formats/mysql/mygrations/operations/row_insert.py"]}
{"id": "C57", "title": "The size of a table or INSERT does not matter", "statement": "A CREATE TABLE or INSERT statement is read correctly however many definitions or value groups it has.", "quantifier": "all numbers of definitions and value groups", "why_tests_cant": "size is unbounded", "anchors": ["mygrations/core/parse/rule_children.py:RuleChildren.parse"]}
{"id": "C58", "title": "Unnamed foreign keys get a deterministic name and an index", "statement": "An unnamed FOREIGN KEY is stored under the first 64 characters of table_column_reftable_fk, and its column is covered by some index after reading.", "quantifier": "all tables and unnamed foreign keys", "why_tests_cant": "strings are unbounded", "anchors": ["mygrations/formats/mysql/file_reader/create_parser.py:CreateParser.process", "mygrations/formats/mysql/file_reader/parsers/constraint_foreign.py:ConstraintForeignBare"]}
{"id": "C59", "title": "Type synonyms do not cause changes", "statement": "INTEGER reads as INT; BOOL and BOOLEAN read as TINYINT(1) with TRUE/FALSE defaults as 1/0; hence files using synonyms do not differ from what MySQL reports.", "quantifier": "all column definitions using synonyms, all letter cases", "why_tests_cant": "strings are unbounded", "anchors": ["mygrations/formats/mysql/file_reader/parsers/type.py:Type._normalize_type", "mygrations/formats/mysql/file_reader/parsers/type_plain.py"]}
{"id": "C60", "title": "A column's name does not change what it is parsed as", "statement": "A column definition is read as a column with that name and type whatever legal name it has.", "quantifier": "all column names", "why_tests_cant": "names are unbounded", "anchors": ["mygrations/formats/mysql/file_reader/create_parser.py", "mygrations/formats/mysql/file_reader/parsers/index_unique.py", "mygrations/core/parse/rule_children.py"]}
{"id": "C61", "title": "Quoted configuration values are read back exactly", "statement": "KEY='v' (or with double quotes) in a configuration file yields exactly v for every v without line break, backslash and that quote character, with or without trailing comment or semicolon.", "quantifier": "all keys and values", "why_tests_cant": "strings are unbounded", "anchors": ["mygrations/helpers/dotenv.py:dotenv.parse_line"]}
{"id": "C62", "title": "Configuration comments and blank lines are ignored", "statement": "Comment lines and blank lines contribute nothing; an unquoted value extends to the first comment character and is stripped; the last assignment of a key wins.", "quantifier": "all files", "why_tests_cant": "strings are unbounded", "anchors": ["mygrations/helpers/dotenv.py:dotenv.parse"]}
{"id": "C63", "title": "Malformed configuration raises only the documented error", "statement": "Parsing a configuration line either succeeds or raises DotEnvSyntaxError.", "quantifier": "all lines", "why_tests_cant": "strings are unbounded", "anchors": ["mygrations/helpers/dotenv.py:dotenv.parse_line"]}
{"id": "C64", "title": "Credentials come from the configured keys or are refused", "statement": "If the four key settings and the named environment entries exist, the credentials are exactly those entries; otherwise construction raises ValueError and no credentials are produced.", "quantifier": "all configurations and environments", "why_tests_cant": "unbounded", "anchors": ["mygrations/helpers/db_credentials.py:DbCredentials"]}
{"id": "C65", "title": "Configuration file is searched in the current directory and its parents", "statement": "A relative configuration file name resolves to the existing file in the nearest ancestor directory of the current directory, including the root; an absolute one only to itself; otherwise ValueError.", "quantifier": "all directory trees and working directories", "why_tests_cant": "unbounded", "anchors": ["mygrations/core/commands/base.py:Base._resolve_and_check_config_file_path"]}
{"id": "C66", "title": "Apply executes the plan in order and commits once at the end", "statement": "apply sends exactly the planned statements in order and commits once after the last; if statement k fails then exactly the first k statements were sent, no commit happens and the error is raised.", "quantifier": "all plans, all failure points", "why_tests_cant": "every failure point of every plan", "anchors": ["mygrations/core/commands/apply.py:Apply.execute", "mygrations/drivers/pymysql/pymysql.py:PyMySQL.execute"]}
{"id": "C67", "title": "A failed apply leaves foreign key checks enabled", "statement": "Whatever statement of an apply fails, the session's FOREIGN_KEY_CHECKS is 1 afterwards.", "quantifier": "all plans, all failure points", "why_tests_cant": "every failure point", "anchors": ["mygrations/core/commands/plan.py:Plan.build_commands", "mygrations/drivers/pymysql/pymysql.py:PyMySQL.execute"]}
{"id": "C68", "title": "The rows of managed tables are read from the live database completely, and the command synchronises them", "statement": "For every table whose rows the files manage and that exists live, the plan command holds exactly the rows SELECT * returns, under their ids, each with a value for every column of the live table (the returned one, or the column's default); tables that are not managed are left as they are. Executing the whole plan of the command then leaves exactly the rows of the files in every managed table and no change in the others.", "quantifier": "all file databases without errors, all live databases, all results of SELECT *", "why_tests_cant": "unbounded numbers of tables, rows and columns; depends on every combination of live and file rows", "anchors": ["mygrations/core/commands/plan.py:Plan.build_commands", "mygrations/formats/mysql/db_reader/database.py:Database.read_rows", "mygrations/core/definitions/table.py:Table.add_raw_row"]}
{"id": "C69", "title": "Paths in the configuration are relative to the configuration file", "statement": "The SQL directory and the environment file named in the configuration are used as they are if absolute and otherwise relative to the directory of the configuration file that was found, whatever the current directory; every other setting is as in the file. The credentials are then those of exactly that environment file.", "quantifier": "all directory trees, working directories and configuration files", "why_tests_cant": "unbounded numbers of directories and settings", "anchors": ["mygrations/core/commands/base.py:Base._load_config", "mygrations/core/commands/base.py:Base._relative_to_config_abs_path", "mygrations/core/commands/base.py:Base.get_driver"]}
{"id": "C70", "title": "INSERT statements in the files mean what they mean to MySQL", "statement": "The rows read from an INSERT statement are exactly the rows MySQL would store for the same text: the same groups in the same order, NULL where the keyword NULL is written in any letter case, and otherwise the text of the number or the value of the string literal after MySQL's escape rules.", "quantifier": "all texts that MySQL reads as an INSERT with a column list and literal values", "why_tests_cant": "strings, escapes, spellings and numbers of groups are unbounded", "anchors": ["mygrations/formats/mysql/file_reader/insert_parser.py", "mygrations/formats/mysql/file_reader/parsers/insert_values.py", "mygrations/core/parse/rule_delimited.py:RuleDelimited.parse"]}
{"id": "C71", "title": "CREATE TABLE means the same however it is written", "statement": "A CREATE TABLE statement in a file or from a server is read as the table it describes, whatever the letter case of its words, the quoting of its names, the order of its definitions and attributes, its layout and its comments: the same columns, keys, foreign keys and options, no error, and nothing left over. Two ways of writing the same tables give an empty plan.", "quantifier": "all tables, all ways of writing them that MySQL accepts", "why_tests_cant": "texts, layouts, numbers and orders of definitions are unbounded", "anchors": ["mygrations/formats/mysql/file_reader/create_parser.py", "mygrations/formats/mysql/file_reader/parsers", "mygrations/core/parse/parser.py:Parser.parse", "mygrations/formats/mysql/file_reader/reader.py:Reader.parse"]}
{"id": "C72", "title": "What a server reports about an up-to-date table is no change", "statement": "If the server stores the tables as the files describe them and reports them with SHOW CREATE TABLE, then the plan is empty: neither the display width of integers, nor the quoting and spelling of numeric defaults, nor an implied character set, nor the order of keys, nor table options lead to any operation.", "quantifier": "all sets of tables, all ways of writing the files, all reports", "why_tests_cant": "unbounded numbers of tables, columns and keys and all spellings of the numbers", "anchors": ["mygrations/formats/mysql/mygrations/mygration.py:Mygration._process", "mygrations/core/definitions/columns/numeric.py:Numeric.is_really_the_same_as", "mygrations/core/definitions/columns/string.py:String.is_really_the_same_as", "mygrations/formats/mysql/db_reader/database.py"]}
{"id": "C73", "title": "A table on the server is never taken for missing", "statement": "Whatever the definition of a table on the server is, the plan does not create it again, and it drops only tables that exist on the server and are not in the files.", "quantifier": "all definitions that a server reports, all files", "why_tests_cant": "all definitions that MySQL can report", "anchors": ["mygrations/formats/mysql/db_reader/database.py", "mygrations/formats/mysql/file_reader/reader.py:Reader.parse", "mygrations/formats/mysql/mygrations/mygration.py:Mygration._process"]}
{"id": "C74", "title": "Every part of a table's definition in the files reaches the server", "statement": "If the files change the number of characters of a column in a key, as in KEY k (name(10)), or an option of a table, as ENGINE or CHARSET, then the plan changes the table accordingly; a key on the first characters of a TEXT column is added with that number.", "quantifier": "all files, all live tables, all numbers and options", "why_tests_cant": "numbers, options and the text around them are unbounded; that something is never planned cannot be seen from examples", "anchors": ["mygrations/formats/mysql/file_reader/create_parser.py:CreateParser.parse", "mygrations/core/definitions/table.py:Table.to", "mygrations/formats/mysql/mygrations/mygration.py:Mygration._process"]}
{"id": "C75", "title": "Files with several statements are read completely", "statement": "A set of sources that hold CREATE TABLE and INSERT statements in any number, order and distribution over the sources gives exactly the tables they define, in order, each with exactly the rows that the INSERT statements for it give, in order, and without an error; rows may come before their table and from another source. Against a server that stores these tables the plan for the tables is empty.", "quantifier": "all numbers of sources and statements, all tables, rows, layouts and comments", "why_tests_cant": "texts and numbers of statements are unbounded, and every statement can influence how the next one is read", "anchors": ["mygrations/formats/mysql/file_reader/reader.py:Reader.parse", "mygrations/formats/mysql/file_reader/database.py:Database", "mygrations/formats/mysql/file_reader/create_parser.py:CreateParser.parse", "mygrations/core/definitions/table.py:Table.add_rows"]}
{"id": "C76", "title": "The rows of the INSERT statements arrive on the server", "statement": "Reading the sources, comparing with the rows of the server and executing the row operations leaves, in every table that the INSERT statements mention, exactly the rows they give: each with the values of the statement, and otherwise with what the server had or the defaults of the columns. Tables without INSERT statements keep their rows.", "quantifier": "all sources, all rows on the server", "why_tests_cant": "unbounded numbers of rows, tables, statements and sources, and all combinations with the rows of the server", "anchors": ["mygrations/formats/mysql/file_reader/reader.py:Reader.parse", "mygrations/formats/mysql/mygrations/row_mygration.py:RowMygration", "mygrations/core/definitions/table.py:Table.add_rows", "mygrations/core/operations"]}
{"id": "C77", "title": "The values of an ENUM or SET column are kept", "statement": "The values of an ENUM or SET column are read exactly and in order, whatever they contain; two definitions of a column are different exactly if something in them is, in particular if the lists of values differ in any way; and the text rendered for such a column has the same values.", "quantifier": "all lists of values, names and attributes", "why_tests_cant": "lists and values are unbounded", "anchors": ["mygrations/formats/mysql/file_reader/parsers/type_enum.py", "mygrations/core/parse/rule_delimited.py:RuleDelimited.parse", "mygrations/core/definitions/columns/column.py:Column.__str__", "mygrations/core/definitions/columns/string.py:String.is_really_the_same_as"]}
{"id": "C78", "title": "The plan command only reads", "statement": "mygrate plan connects at most once and sends SHOW TABLES, SHOW CREATE TABLE for the listed tables and SELECT * for tables of the files, in this order, up to the first that fails; it sends nothing else and commits nothing. mygrate check does not connect at all.", "quantifier": "all files, options, servers and answers, also failing ones", "why_tests_cant": "the answers of a server, and when it fails, are unbounded", "anchors": ["mygrations/core/commands/plan.py:Plan", "mygrations/core/commands/base.py:Base", "mygrations/core/commands/check.py:Check", "mygrations/drivers/pymysql/pymysql.py"]}
{"id": "C79", "title": "The apply command executes what the plan command shows", "statement": "Against the same files and server, mygrate apply reads what mygrate plan reads and then sends exactly the statements that plan prints, in this order, and commits; if one of them fails, the statements before it were sent, nothing after it is sent and nothing is committed.", "quantifier": "all files, options and servers, all points of failure", "why_tests_cant": "plans are unbounded and each statement may fail", "anchors": ["mygrations/core/commands/apply.py:Apply", "mygrations/core/commands/plan.py:Plan", "mygrations/drivers"]}
{"id": "C80", "title": "The exit status tells whether it worked", "statement": "mygrate check ends with status 0 exactly if the files have no errors. A command that refuses to work because the files have errors ends with another status than 0.", "quantifier": "all files and options", "why_tests_cant": "the files are unbounded, and the exit status is not covered by the unit tests", "anchors": ["mygrations/mygrate.py", "mygrations/core/commands/check.py:Check", "mygrations/core/commands/base.py:Base"]}
{"id": "C81", "title": "Every command that the command line offers exists", "statement": "Each of the commands that mygrate offers as a choice runs: it does not end with an error of the interpreter before it has read its options.", "quantifier": "all commands, options, files and servers", "why_tests_cant": "that a command never gets anywhere cannot be seen from examples", "anchors": ["mygrations/mygrate.py", "mygrations/core/commands"]}
{"id": "C82", "title": "All SQL files of the directory are read, and no others", "statement": "If the configured path is a directory then the sources are the files in it whose names end in .sql and do not begin with a dot, each once, whatever else is in the directory and whether or not the path ends in a slash.", "quantifier": "all paths, all contents of the directory", "why_tests_cant": "paths and directories are unbounded", "anchors": ["mygrations/formats/mysql/file_reader/database.py:Database", "mygrations/formats/mysql/file_reader/reader.py:Reader"]}
{"id": "C83", "title": "A wrong or empty directory is not a wish to drop everything", "statement": "If the configured directory does not exist or has no SQL files, then nothing is planned and the mistake is reported.", "quantifier": "all paths and all servers", "why_tests_cant": "all databases, and all paths that do not lead to files", "anchors": ["mygrations/formats/mysql/file_reader/database.py:Database", "mygrations/core/commands/check.py:Check", "mygrations/formats/mysql/mygrations/mygration.py:Mygration._process"]}
{"id": "C84", "title": "The plan command sees the database as it is", "statement": "If the server lists its tables, shows their definitions and gives their rows, then mygrate plan prints exactly the operations between the files and the database that these definitions and rows describe, whatever else is stored in the database, for instance views.", "quantifier": "all databases, all files, all histories of reading", "why_tests_cant": "databases are unbounded", "anchors": ["mygrations/drivers/pymysql/pymysql.py", "mygrations/formats/mysql/db_reader/database.py:Database", "mygrations/core/commands/base.py:Base"]}
{"id": "C85", "title": "Nothing to do if the server is in sync", "statement": "If mygrate check is content with the files and the server has the tables and rows they describe, then mygrate plan prints no statement and mygrate apply says that no changes are required; both succeed, and nothing but reading statements is sent.", "quantifier": "all files, all ways of writing them, all servers that store them", "why_tests_cant": "the whole chain from texts to commands, for unbounded tables, rows, layouts and answers", "anchors": ["mygrations/core/commands/plan.py:Plan", "mygrations/core/commands/apply.py:Apply", "mygrations/formats/mysql/file_reader/database.py:Database", "mygrations/formats/mysql/db_reader/database.py:Database", "mygrations/formats/mysql/mygrations/row_mygration.py:RowMygration"]}
{"id": "C86", "title": "The tool converges", "statement": "If mygrate check is content with the files and the statements that mygrate plan prints are executed, then they are accepted, and the next mygrate plan prints nothing and mygrate apply says that no changes are required, however the server then reports the definitions it was given.", "quantifier": "all files, all ways of writing them, all servers before, all reports of the server after", "why_tests_cant": "two runs with an unbounded plan between them, and a server that reports definitions in its own words", "anchors": ["mygrations/core/commands/plan.py:Plan", "mygrations/core/commands/apply.py:Apply", "mygrations/formats/mysql/mygrations/mygration.py:Mygration", "mygrations/formats/mysql/mygrations/row_mygration.py:RowMygration", "mygrations/formats/mysql/db_reader/database.py:Database"]}
{"id": "C87", "title": "When foreign key names stay unique during a migration", "statement": "If foreign key names are unique in the live database and in the files, then they are unique in the database after every statement of the plan exactly if no foreign key of a new table has a name that is in use in the live database, and none of the target has the name of one in a table that is dropped, except if that one is dropped first because a column changes its type. In particular renaming a table with a foreign key is a plan that the server refuses (MySQL error 1826).", "quantifier": "all pairs of databases, all prefixes of the plan", "why_tests_cant": "plans and databases are unbounded, and the order of statements depends on all of both databases", "anchors": ["mygrations/formats/mysql/mygrations/mygration.py:Mygration._process", "mygrations/formats/mysql/mygrations/mygration.py:Mygration._process_adds", "mygrations/formats/mysql/mygrations/mygration.py:Mygration._process_updates"]}
{"id": "C88", "title": "When foreign keys keep their columns during a migration", "statement": "If in the live database and in the files every foreign key refers to columns that exist, then this is so after every statement of the plan exactly if the foreign keys of new tables refer to columns that the live database has, and every foreign key that refers to a column which is dropped from a table that stays is one that is dropped first because of a type change, or belongs to a table that stays and is not after the other in the live database.", "quantifier": "all pairs of databases, all prefixes of the plan", "why_tests_cant": "plans and databases are unbounded, and the order of statements depends on all of both databases", "anchors": ["mygrations/formats/mysql/mygrations/mygration.py:Mygration._process", "mygrations/formats/mysql/mygrations/mygration.py:Mygration._process_updates"]}
{"id": "C89", "title": "When foreign keys keep their indexes during a migration", "statement": "The same for the indexes that a foreign key needs on its own column and on the column it refers to (MySQL errors 1822 and 1553).", "quantifier": "all pairs of databases, all prefixes of the plan", "why_tests_cant": "plans and databases are unbounded, and the order of statements depends on all of both databases", "anchors": ["mygrations/formats/mysql/mygrations/mygration.py:Mygration._process", "mygrations/formats/mysql/mygrations/mygration.py:Mygration._process_updates"]}
{"id": "C90", "title": "A migration keeps the data of columns that stay", "statement": "While the statements of a plan are executed, a column that both the live database and the files have, in a table of the same name, never loses its contents: it is not dropped and added again, nor is its table. At the end new columns hold what new columns hold, and only the columns of the files are left.", "quantifier": "all pairs of databases, all contents, all prefixes of the plan", "why_tests_cant": "data is lost by the order and combination of statements, over unbounded databases", "anchors": ["mygrations/formats/mysql/mygrations/mygration.py:Mygration._process", "mygrations/core/definitions/table.py:Table.to"]}
{"id": "C91", "title": "The order of tables does not matter", "statement": "If the tables of the live database or those of the files are listed in another order, then the plan has the same statements for every table in the same order, so the same statements altogether, and it can be executed and leads to the same database if this holds for one order. Likewise for rows.", "quantifier": "all pairs of databases, all orders of their tables", "why_tests_cant": "orders and databases are unbounded", "anchors": ["mygrations/formats/mysql/mygrations/mygration.py:Mygration._process", "mygrations/formats/mysql/mygrations/row_mygration.py:RowMygration"]}
{"id": "C92", "title": "Which tables a migration leaves alone", "statement": "No statement of a plan is about a table exactly if neither side has it, or both have it, the comparison of the two finds no difference, and no foreign key of it uses a column whose type changes. So a table that is the same on both sides is altered exactly if one of its foreign keys refers to a column of another table whose type changes.", "quantifier": "all pairs of databases, all tables", "why_tests_cant": "whether a table is touched depends on all other tables", "anchors": ["mygrations/formats/mysql/mygrations/mygration.py:Mygration._process", "mygrations/formats/mysql/mygrations/mygration.py:Mygration._process_updates"]}
{"id": "C93", "title": "The order in which files are read does not matter", "statement": "If the files of a directory are read in another order (the order in which the file system lists them is arbitrary), then the same tables with the same rows are read, the files are accepted as before, and the plans have the same statements for every table.", "quantifier": "all sets of files, all orders, all live databases", "why_tests_cant": "the listing order differs between machines and is unbounded; a test runs with the order of one file system", "anchors": ["mygrations/formats/mysql/file_reader/database.py:Database._process_directory", "mygrations/formats/mysql/file_reader/database.py:Database._read", "mygrations/formats/mysql/file_reader/database.py:Database._combine_tables_and_rows"]}
{"id": "C94", "title": "What is accepted", "statement": "A database has no errors exactly if nothing was reported while reading, every table is sound (C34) and was read without messages, every foreign key can be fulfilled and has a name of its own, and every INSERT is for an existing table, names only columns that it has and has as many values as columns.", "quantifier": "all databases", "why_tests_cant": "tables, columns, foreign keys and INSERTs are unbounded, and each check can be hidden by an exception in another", "anchors": ["mygrations/core/definitions/database.py:Database.errors", "mygrations/core/definitions/database.py:Database.find_schema_errors", "mygrations/core/definitions/table.py:Table._find_all_errors", "mygrations/core/definitions/columns/date.py:Date"]}
{"id": "C95", "title": "The plan depends on what the files say, not on how they are written", "statement": "If two directories say the same (the same tables in the same order with the same columns, keys, foreign keys and options, and for every table the same rows), however each is divided into files and statements, in whatever letter case, quoting, spacing and order of columns' attributes and of keys among columns it is written, then check answers the same, plan prints the same and apply sends the same statements.", "quantifier": "all pairs of texts in the written form of C75, all live databases, all answers of the server", "why_tests_cant": "the texts with the same meaning are unbounded", "anchors": ["mygrations/formats/mysql/file_reader/database.py:Database._read", "mygrations/formats/mysql/file_reader/create_parser.py:CreateParser", "mygrations/core/commands/plan.py:Plan.build_commands", "mygrations/core/commands/apply.py:Apply.execute"]}
{"id": "C96", "title": "Which warnings check gives and what it prints", "statement": "mygrate check warns about exactly the columns that do not allow NULL, have no default, are not AUTO_INCREMENT and are not in the primary key, once each and in the order of the files, and about what was noticed while reading; it prints the errors and then the warnings, and that there are no problems exactly if there are neither.", "quantifier": "all files, all tables and columns", "why_tests_cant": "tables and columns are unbounded, and an exception in the validation of one column hides the warnings of others", "anchors": ["mygrations/core/commands/check.py:Check.execute", "mygrations/core/definitions/database.py:Database.warnings", "mygrations/core/definitions/table.py:Table._find_all_errors", "mygrations/core/definitions/columns/column.py:Column"]}
{"id": "C97", "title": "Every definition of a CREATE TABLE counts", "statement": "Every column, key and foreign key that a CREATE TABLE with different names for its keys defines is in the table that is read from it, in the order written; if a name is used twice, check says so and accepts nothing.", "quantifier": "all lists of definitions, in every order", "why_tests_cant": "the definitions and their orders are unbounded, and each can hide a later one", "anchors": ["mygrations/formats/mysql/file_reader/create_parser.py:CreateParser.process", "mygrations/core/definitions/table.py:Table.add_index", "mygrations/core/definitions/index.py:Index.name"]}
{"id": "C98", "title": "A column may be declared the primary key where it is defined", "statement": "A column definition that ends in PRIMARY KEY is read as the column, not null, and a primary key on it, as if PRIMARY KEY (column) stood among the definitions.", "quantifier": "all columns, all definitions before and after it, all table options, every layout", "why_tests_cant": "the texts are unbounded, and which attributes stand before the words decides whether they are read", "anchors": ["mygrations/formats/mysql/file_reader/parsers/type_plain.py:TypePlain", "mygrations/formats/mysql/file_reader/parsers/type_numeric.py:TypeNumeric", "mygrations/formats/mysql/file_reader/parsers/type_character.py:TypeCharacter", "mygrations/formats/mysql/file_reader/create_parser.py:CreateParser.process", "mygrations/formats/mysql/file_reader/database.py:Database._read"]}
{"id": "C99", "title": "The letter case of names", "statement": "MySQL takes the names of columns, keys and foreign keys that differ in letter case only for the same. A plan does on such a server what it does on one that compares names as they are spelled, and a column that the files spell otherwise than the server keeps its contents.", "quantifier": "all pairs of databases, all prefixes of the plan", "why_tests_cant": "names and spellings are unbounded, and a test compares statements, not what a server makes of them", "anchors": ["mygrations/core/definitions/table.py:Table.to", "mygrations/core/definitions/table.py:Table._differences", "mygrations/formats/mysql/mygrations/mygration.py:Mygration._process"]}
{"id": "C100", "title": "Words the reader does not know are not passed over in silence", "statement": "If a CREATE TABLE has, after one of its definitions, words that the tool does not understand, check reports it; the table is never left out without an error.", "quantifier": "all tables, all definitions before and after, all unknown words, every layout", "why_tests_cant": "the words that MySQL allows and the tool does not know, and their places, are unbounded", "anchors": ["mygrations/formats/mysql/file_reader/create_parser.py:CreateParser.process", "mygrations/formats/mysql/file_reader/parsers/constraint_foreign.py:ConstraintForeign", "mygrations/formats/mysql/file_reader/parsers/index_key.py:IndexKey", "mygrations/formats/mysql/file_reader/parsers/type_plain.py:TypePlain", "mygrations/formats/mysql/file_reader/parsers/type_enum.py:TypeEnum", "mygrations/formats/mysql/file_reader/database.py:Database._read"]}
{"id": "C101", "title": "What plan prints is the statements", "statement": "What mygrate plan writes to standard output is the statements that apply would send, and nothing else; what is wrong with files or tables goes to standard error.", "quantifier": "all files, all servers, with and without --force", "why_tests_cant": "which of the files and of the live tables are not understood is open, and tests do not look at the output of whole runs", "anchors": ["mygrations/core/commands/plan.py:Plan.execute", "mygrations/formats/mysql/file_reader/database.py:Database._read", "mygrations/formats/mysql/db_reader/database.py:Database._load_tables"]}
{"id": "C102", "title": "A file that cannot be read is an error", "statement": "If a file cannot be read, mygrate check ends with a status other than 0, and plan and apply refuse to go on.", "quantifier": "all files, all other files before and after it, all servers", "why_tests_cant": "the files that cannot be read are unbounded", "anchors": ["mygrations/formats/mysql/file_reader/database.py:Database._read", "mygrations/core/commands/check.py:Check.execute", "mygrations/core/commands/plan.py:Plan.build_commands"]}
{"id": "C103", "title": "Only tables that no file defines are dropped", "statement": "mygrate plan prints a DROP TABLE for exactly the tables of the server for which no file has a CREATE TABLE statement.", "quantifier": "all files, also files with statements the tool does not understand, all servers", "why_tests_cant": "which statement of a file is not understood, and what follows it, is open", "anchors": ["mygrations/formats/mysql/file_reader/reader.py:Reader.parse", "mygrations/formats/mysql/file_reader/database.py:Database._read", "mygrations/formats/mysql/mygrations/mygration.py:Mygration._process"]}
{"id": "C104", "title": "Nothing in a file makes a command crash", "statement": "Whatever the SQL files contain, mygrate check, plan and apply end by reporting something; none of them ends with an uncaught exception because of what is in the files.", "quantifier": "all texts, all sets of files", "why_tests_cant": "the texts are unbounded; tests cannot show the absence of a text that raises", "anchors": ["mygrations/formats/mysql/file_reader/reader.py:Reader.parse", "mygrations/core/parse/rule_delimited.py:RuleDelimited.parse", "mygrations/formats/mysql/file_reader/database.py:Database._read", "mygrations/formats/mysql/file_reader/database.py:Database._combine_tables_and_rows", "mygrations/core/commands/check.py:Check.execute"]}
{"id": "C105", "title": "Nothing the server answers makes plan crash", "statement": "If mygrate check is content with the files and the server lists its tables, shows their definitions and gives their rows, mygrate plan ends with a plan, whatever the definitions and rows are; apply never stops with an exception before it sends its first change.", "quantifier": "all files, all definitions shown, all rows, with and without --force", "why_tests_cant": "what a server shows and holds is unbounded", "anchors": ["mygrations/core/commands/plan.py:Plan.build_commands", "mygrations/formats/mysql/db_reader/database.py:Database.read_rows", "mygrations/core/definitions/table.py:Table.add_raw_row", "mygrations/core/definitions/columns/numeric.py:Numeric._is_really_the_same_default", "mygrations/formats/mysql/mygrations/row_mygration.py:RowMygration._process"]}
{"id": "C106", "title": "An apply that stopped half way is finished by the next one", "statement": "If mygrate apply stops after any number of its statements, the next mygrate plan, made from what the server then shows and holds, ends with a plan whose statements run, and after them the server has the tables and the rows of the files; what became of rows in the meantime does not matter.", "quantifier": "all files, all servers, every point at which the first run stops, all reports of the server then", "why_tests_cant": "two runs with an unbounded plan between them and every prefix of it, and a server that reports definitions in its own words", "anchors": ["mygrations/core/commands/apply.py:Apply.execute", "mygrations/core/commands/plan.py:Plan.build_commands", "mygrations/formats/mysql/mygrations/mygration.py:Mygration._process", "mygrations/formats/mysql/mygrations/row_mygration.py:RowMygration._process", "mygrations/drivers/pymysql/pymysql.py:PyMySQL.execute"]}
{"id": "C107", "title": "Synchronising rows does not collide with unique keys", "statement": "If the rows of a managed table obey a unique key before the run and the rows of the files obey it, the server refuses none of the INSERT, UPDATE and DELETE statements of the plan for a duplicate value of the key.", "quantifier": "all tables, all unique keys, all rows of files and server, every prefix of the statements", "why_tests_cant": "whether two rows meet depends on the order of unboundedly many statements", "anchors": ["mygrations/core/definitions/table.py:Table.to_rows", "mygrations/formats/mysql/mygrations/row_mygration.py:RowMygration._process", "mygrations/formats/mysql/mygrations/operations/row_insert.py:RowInsert"]}
{"id": "C108", "title": "The references between rows hold after a run", "statement": "If every row refers to existing rows before the run, and the rows of the files do, every row refers to existing rows after the run.", "quantifier": "all tables, all references, all rows of files and server", "why_tests_cant": "the rows of tables that the files do not hold are unbounded and unknown to the tool", "anchors": ["mygrations/core/definitions/table.py:Table.to_rows", "mygrations/formats/mysql/mygrations/row_mygration.py:RowMygration._process", "mygrations/core/commands/plan.py:Plan.build_commands"]}
{"id": "C109", "title": "A unique key that the rows of the files obey can be added", "statement": "If the files declare a unique key that the live table lacks, and the rows of the files obey it, the server can execute the statement of the plan that adds the key.", "quantifier": "all files, all servers, all rows", "why_tests_cant": "the rows and the statements between them are unbounded", "anchors": ["mygrations/core/commands/plan.py:Plan.build_commands", "mygrations/formats/mysql/mygrations/mygration.py:Mygration._process", "mygrations/formats/mysql/mygrations/row_mygration.py:RowMygration._process"]}
{"id": "C110", "title": "Configuration and environment may be written in JSON", "statement": "If the configuration file, the environment file or both hold a JSON object, the commands connect with exactly the members that the four settings name and read the directory that files_directory names, as if the members were written line by line.", "quantifier": "all JSON objects, all files, all directories", "why_tests_cant": "objects, texts and directories are unbounded", "anchors": ["mygrations/helpers/dotenv.py:dotenv.parse", "mygrations/helpers/db_credentials.py:DbCredentials", "mygrations/core/commands/base.py:Base._load_config"]}
{"id": "C111", "title": "Remarks about quotes around defaults fit the column", "statement": "mygrate check remarks on the default of a column exactly if it is a text without quotes in a column for texts, or stands between quotes in a column for numbers; the remark names the column and the table.", "quantifier": "all column definitions, in all ways of writing them", "why_tests_cant": "which of several readings of a definition is chosen depends on how much of an unbounded text each understands; the remark depends on the reading", "anchors": ["mygrations/formats/mysql/file_reader/parsers/type_character.py:TypeCharacter.process", "mygrations/formats/mysql/file_reader/parsers/type_numeric.py:TypeNumeric.process", "mygrations/formats/mysql/file_reader/parsers/type_decimal.py:TypeDecimal.process", "mygrations/formats/mysql/file_reader/parsers/type_text.py:TypeText.process", "mygrations/formats/mysql/file_reader/parsers/type_enum.py:TypeEnum.process"]}
{"id": "C112", "title": "The actions of a foreign key", "statement": "A foreign key has at most one action for deletions and one for updates, named or not, in either order; mygrate check reports every further action for the same event, and the table is read with the action that was written.", "quantifier": "all foreign keys, all lists of actions, in all spellings, among any other definitions", "why_tests_cant": "the number and order of the actions and the text around them are unbounded", "anchors": ["mygrations/formats/mysql/file_reader/parsers/constraint_foreign.py:ConstraintForeign", "mygrations/formats/mysql/file_reader/create_parser.py:CreateParser.process", "mygrations/core/definitions/table.py:Table._find_all_errors"]}
{"id": "C113", "title": "Text that is not understood is reported with its file", "statement": "If a file holds text that the tool does not understand, mygrate check reports an error that names the text and the file and ends with a status other than 0; plan and apply print the same and send nothing.", "quantifier": "all files, all other files before and after it, all statements before the text, in all layouts", "why_tests_cant": "the files, the statements before and the text itself are unbounded", "anchors": ["mygrations/formats/mysql/file_reader/reader.py:Reader.parse", "mygrations/formats/mysql/file_reader/database.py:Database._read", "mygrations/core/commands/check.py:Check.execute", "mygrations/core/commands/plan.py:Plan.build_commands"]}
{"id": "C114", "title": "A comment makes no table vanish", "statement": "Whatever comments stand between the statements of the files, a table that is defined by a statement outside of comments is not dropped by plan and apply.", "quantifier": "all files with any statements and comments in any order and layout, all servers", "why_tests_cant": "the comments, the statements around them and the lines after them are unbounded", "anchors": ["mygrations/formats/mysql/file_reader/comment_parser.py:CommentParser.parse", "mygrations/formats/mysql/file_reader/reader.py:Reader.parse", "mygrations/core/parse/parser.py:Parser.parse", "mygrations/core/commands/plan.py:Plan.build_commands"]}
{"id": "C115", "title": "Comments inside of statements", "statement": "A comment from two hyphens to the end of its line, outside of quotes, changes nothing, also inside of a CREATE TABLE or INSERT statement: the same tables and rows are read and check prints the same.", "quantifier": "all files, all comments, all places in them", "why_tests_cant": "files, statements and comments are unbounded", "anchors": ["mygrations/formats/mysql/file_reader/create_parser.py:CreateParser.parse", "mygrations/formats/mysql/file_reader/insert_parser.py:InsertParser", "mygrations/core/parse/parser.py:Parser.parse", "mygrations/formats/mysql/file_reader/reader.py:Reader.parse"]}
{"id": "C116", "title": "Comment signs inside of quotes are text", "statement": "Two hyphens (or another comment sign) between quotes belong to the value: the row that is read has exactly the text between the quotes, and a row that the server already has is not changed.", "quantifier": "all files, all values", "why_tests_cant": "values and the text around them are unbounded", "anchors": ["mygrations/formats/mysql/file_reader/create_parser.py:CreateParser.parse", "mygrations/formats/mysql/file_reader/parsers/insert_values.py:InsertValues", "mygrations/formats/mysql/file_reader/reader.py:Reader.parse"]}
{"id": "C117", "title": "INSERT statements without a list of columns", "statement": "An INSERT statement without a list of columns (INSERT INTO t VALUES ..., SET ... or SELECT ...), which MySQL accepts, gives its rows to the table that it names, or check reports the text together with the file; no row of it is lost without a word.", "quantifier": "all such statements, all layouts, all other files before and after", "why_tests_cant": "the statement, the text after the name of the table and the other files are unbounded", "anchors": ["mygrations/formats/mysql/file_reader/insert_parser.py:InsertParser", "mygrations/formats/mysql/file_reader/reader.py:Reader.parse", "mygrations/formats/mysql/file_reader/database.py:Database._read", "mygrations/formats/mysql/file_reader/database.py:Database._combine"]}
{"id": "C118", "title": "Definitions that the tool does not know", "statement": "If a CREATE TABLE statement has a definition that MySQL knows and the tool does not, such as KEY (a), CHECK (a > 0) or CONSTRAINT u UNIQUE (a), check names the definition and the file and ends with a status other than 0, and plan and apply send nothing.", "quantifier": "all such definitions, all definitions before and any text after, all layouts, all other files", "why_tests_cant": "statements, definitions and files are unbounded; which of several readings of a definition is chosen depends on the text after it", "anchors": ["mygrations/formats/mysql/file_reader/create_parser.py:CreateParser", "mygrations/core/parse/rule_children.py:RuleChildren.parse", "mygrations/formats/mysql/file_reader/reader.py:Reader.parse", "mygrations/core/commands/check.py:Check.execute"]}
{"id": "C119", "title": "Unique keys that are named as constraints", "statement": "CONSTRAINT u UNIQUE (columns), in any of its forms, is read as the unique key u on these columns, or check reports it.", "quantifier": "all names, columns and forms of the key, all other definitions and options, all layouts, all other files", "why_tests_cant": "statements, names and files are unbounded; the definition is read as a column and a key, each by its own rules", "anchors": ["mygrations/formats/mysql/file_reader/create_parser.py:CreateParser", "mygrations/core/parse/rule_children.py:RuleChildren.parse", "mygrations/formats/mysql/file_reader/parsers/type_plain.py:TypePlain", "mygrations/formats/mysql/file_reader/parsers/index_unique.py:IndexUnique"]}
{"id": "C120", "title": "The space before the list of columns of an INSERT", "statement": "INSERT INTO t(id) and INSERT INTO t (id) give the same rows, errors, remaining text and exceptions, and the same output of check.", "quantifier": "all names, all texts after the parenthesis, all files", "why_tests_cant": "names and texts are unbounded", "anchors": ["mygrations/formats/mysql/file_reader/insert_parser.py:InsertParser", "mygrations/core/parse/rule_regexp.py:RuleRegexp.parse"]}
{"id": "C121", "title": "Columns that are declared UNIQUE where they are defined", "statement": "A column that is declared UNIQUE in its own definition, as in mail VARCHAR(20) NOT NULL UNIQUE, is read as that column and a unique key on it, or check reports it; the other definitions of the statement are read as without it.", "quantifier": "all columns, all spellings of UNIQUE, UNIQUE KEY and UNIQUE INDEX, all definitions after it", "why_tests_cant": "definitions and the text between them are unbounded; which of several readings is chosen depends on the text after the word", "anchors": ["mygrations/formats/mysql/file_reader/parsers/index_unique.py:IndexUnique", "mygrations/core/parse/rule_children.py:RuleChildren.parse", "mygrations/formats/mysql/file_reader/create_parser.py:CreateParser"]}
{"id": "C122", "title": "Tables that are named together with their database", "statement": "CREATE TABLE shop.users in a file is the table users of the database shop: if shop is the configured database and has this table as the file says, plan does nothing, and otherwise it is reported.", "quantifier": "all databases, tables, definitions and layouts, all server states", "why_tests_cant": "names, files and server states are unbounded", "anchors": ["mygrations/formats/mysql/file_reader/create_parser.py:CreateParser", "mygrations/formats/mysql/mygrations/mygration.py:Mygration", "mygrations/core/commands/plan.py:Plan.execute"]}
{"id": "C123", "title": "The order of NOT NULL and AUTO_INCREMENT", "statement": "A column is read alike whether NOT NULL stands before or after AUTO_INCREMENT, both of which MySQL accepts; at least the statement is not lost without a word.", "quantifier": "all names, types, other definitions, options and layouts, all other files", "why_tests_cant": "statements, names, layouts and files are unbounded; the rest of a definition is read as a definition of its own", "anchors": ["mygrations/formats/mysql/file_reader/parsers/type_plain.py:TypePlain", "mygrations/core/parse/rule_children.py:RuleChildren.parse", "mygrations/formats/mysql/file_reader/create_parser.py:CreateParser.process", "mygrations/formats/mysql/file_reader/database.py:Database._read"]}
{"id": "C124", "title": "Foreign keys of more than one column", "statement": "A foreign key of more than one column, which MySQL accepts, is read as such, or check reports it; the table is not dropped because of it.", "quantifier": "all tables, keys and layouts, all server states", "why_tests_cant": "statements, names, layouts and server states are unbounded", "anchors": ["mygrations/formats/mysql/file_reader/parsers/constraint_foreign.py:ConstraintForeign", "mygrations/core/parse/rule_children.py:RuleChildren.parse", "mygrations/formats/mysql/file_reader/create_parser.py:CreateParser.process"]}
