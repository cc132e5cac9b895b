{"id": "C01", "title": "Incremental edits reproduce the client's text (ASCII)", "statement": "If an open document and every inserted text are ASCII without vertical tab / form feed, and every didChange range is ordered and names existing positions of the document as it stands when that change is applied, then after any sequence of didChange notifications, each carrying any number of changes, the text the server analyses is exactly the text the client obtains by applying the same edits as the LSP specification prescribes.", "quantifier": "all documents, all lists of changes of any length, all ordered in-document ranges", "why_tests_cant": "Position arithmetic must be right for every document length, line-ending mix (LF, CRLF, CR) and edit sequence; errors compound over a session.", "anchors": ["jinja-lsp/src/lsp_files.rs:did_change", "jinja-lsp-queries/src/to_input_edit.rs:to_byte"]}
{"id": "C02", "title": "Incremental edits reproduce the client's text (any Unicode)", "statement": "For every Unicode document and every legal LSP edit (UTF-16 positions) the server's text after didChange equals the client's text.", "quantifier": "all Unicode documents and edits", "why_tests_cant": "Depends on the code points that precede the edit.", "anchors": ["jinja-lsp/src/lsp_files.rs:did_change", "jinja-lsp-queries/src/to_input_edit.rs:to_byte"]}
{"id": "C03", "title": "Byte offset / position conversion is exact", "statement": "For every text and every byte offset (clamped to the end) the server's offset-to-position conversion terminates without panicking and returns the line containing the offset and the byte distance from that line's start; converting back yields the same offset.", "quantifier": "all texts, all offsets", "why_tests_cant": "The conversion is a hand-written binary search; an off-by-one shows only at particular line counts and boundaries.", "anchors": ["jinja-lsp-queries/src/to_input_edit.rs:to_position", "jinja-lsp-queries/src/to_input_edit.rs:to_byte"]}
{"id": "C04", "title": "The edit description given to the incremental parser is truthful", "statement": "For every ASCII edit the start/old-end/new-end byte offsets and the three corresponding points handed to the incremental parser describe the edit that is really applied to the text.", "quantifier": "all ASCII documents and edits", "why_tests_cant": "Wrong edit descriptions corrupt the syntax tree only for particular shapes of edits (multi-line insertions, edits at the end).", "anchors": ["jinja-lsp-queries/src/to_input_edit.rs:to_input_edit", "jinja-lsp/src/lsp_files.rs:input_edit"]}
{"id": "C05", "title": "When a text edit crashes the server", "statement": "Applying one ranged change panics exactly when a line number exceeds the number of lines or a computed offset lies outside the document; in particular a change whose ranges are legal positions of an ASCII document never panics.", "quantifier": "all texts, ranges and inserted texts", "why_tests_cant": "A panic kills the server task; one must know it for every input.", "anchors": ["jinja-lsp/src/lsp_files.rs:did_change", "jinja-lsp-queries/src/to_input_edit.rs:to_byte"]}
{"id": "C06", "title": "Analysis sees exactly the stored text", "statement": "However the rope splits its text into chunks (at character boundaries), the string passed to parser and queries is byte for byte the UTF-8 encoding of the stored text: nothing is dropped, duplicated or reordered.", "quantifier": "all texts and all chunkings at character boundaries", "why_tests_cant": "Chunk boundaries depend on rope internals and edit history.", "anchors": ["jinja-lsp/src/lsp_files.rs:FileContent", "jinja-lsp/src/lsp_files.rs:FileWriter"]}
{"id": "C07", "title": "A change without a range replaces the document", "statement": "A didChange content change that carries no range (full-text sync, legal LSP) replaces the document's text.", "quantifier": "all states and texts", "why_tests_cant": "One witness is enough to refute it.", "anchors": ["jinja-lsp/src/lsp_files.rs:did_change"]}
{"id": "C08", "title": "Syntax trees never lag behind the text", "statement": "After any sequence of didOpen/didChange/didSave (every change carrying a range), the syntax tree used for each open document is the result of parsing that document's current text.", "quantifier": "all histories of notifications over any number of documents", "why_tests_cant": "Tree and text are updated in different maps by different code paths; a lag appears only after particular histories.", "anchors": ["jinja-lsp/src/lsp_files.rs:did_change", "jinja-lsp/src/lsp_files.rs:input_edit", "jinja-lsp/src/lsp_files.rs:add_tree", "jinja-lsp/src/lsp_files.rs:did_open"]}
{"id": "C09", "title": "Documents are isolated", "statement": "didOpen, didChange and didSave for one URI leave the text, tree, variables and code actions of every other URI unchanged; didChange for an unknown URI changes nothing at all.", "quantifier": "all states, URIs and payloads", "why_tests_cant": "Frame property over all other keys.", "anchors": ["jinja-lsp/src/lsp_files.rs:did_open", "jinja-lsp/src/lsp_files.rs:did_change", "jinja-lsp/src/lsp_files.rs:did_save"]}
{"id": "C10", "title": "Scopes of template definitions are exact for straight-line block structure", "statement": "In every well-formed template built from for/with/macro/block/set/if/filter/autoescape/raw statements nested to any depth, without else/elif branches, inline if expressions or block-sets, every defined name gets as scope end the start of the end tag of its innermost enclosing block statement (a macro's own name: of the block enclosing the macro), and the end of the file at top level; and the list of definitions is exactly the list of names introduced, in order, with the right kind.", "quantifier": "all templates of that shape, any nesting depth", "why_tests_cant": "Structural induction over nesting; tests only sample depths 1 and 2.", "anchors": ["jinja-lsp-queries/src/search/definition.rs:check", "jinja-lsp-queries/src/search/definition.rs:fix_end", "jinja-lsp-queries/src/search/definition.rs:identifiers"]}
{"id": "C11", "title": "A scope is never recorded too short (with else/elif and inline if)", "statement": "In every template as in C10 but also with else/elif branches, loop filters and inline if/else, the recorded scope end of every definition is never earlier than the true one, so no in-scope use is reported because of scope.", "quantifier": "all templates of that shape, any nesting depth", "why_tests_cant": "The analyser's scope stack gets out of step with the template after an else branch; what survives is an invariant over the whole stack.", "anchors": ["jinja-lsp-queries/src/search/definition.rs:check", "jinja-lsp-queries/src/search/definition.rs:fix_end"]}
{"id": "C12", "title": "else branches do not extend scopes", "statement": "A loop variable is not visible after its loop even if the loop body contains if/else.", "quantifier": "all templates", "why_tests_cant": "Refuted by a witness.", "anchors": ["jinja-lsp-queries/src/search/definition.rs:check"]}
{"id": "C13", "title": "Block set does not shorten the enclosing scope", "statement": "A loop variable is still in scope after a {% set x %}...{% endset %} inside the loop body.", "quantifier": "all templates", "why_tests_cant": "Refuted by a witness.", "anchors": ["jinja-lsp-queries/src/search/definition.rs:check"]}
{"id": "C14", "title": "Every loop target is defined", "statement": "Both names of {% for k, v in items %} are recorded as definitions.", "quantifier": "all for statements", "why_tests_cant": "Refuted for every for statement with two targets.", "anchors": ["jinja-lsp-queries/src/search/definition.rs:check", "jinja-lsp-queries/src/search/definition.rs:from"]}
{"id": "C15", "title": "A with/macro header defines only its own names", "statement": "Names on the right-hand side of with assignments and macro defaults are not recorded as definitions.", "quantifier": "all with/macro headers", "why_tests_cant": "Refuted by a witness; exact set proved for all headers.", "anchors": ["jinja-lsp-queries/src/search/definition.rs:check"]}
{"id": "C16", "title": "Analysis of definitions never panics on readable text", "statement": "The definition analysis cannot panic on any capture sequence whose keyword texts are readable, whatever the nesting, end tags without start tags included.", "quantifier": "all capture sequences", "why_tests_cant": "Unbalanced templates are the normal state while typing.", "anchors": ["jinja-lsp-queries/src/search/definition.rs:check"]}
{"id": "C17", "title": "Uses are grouped into objects exactly", "statement": "For every sequence of expressions made of dotted chains, filters and tests, the analysis yields exactly one object per chain, filter and test name, with the chain's head as name, the remaining segments as fields in order with their ranges, filters marked as filters and names after 'is' marked as tests; built-in names yield none.", "quantifier": "all expression sequences", "why_tests_cant": "Grouping uses positions of the last dot/pipe seen; errors depend on the sequence.", "anchors": ["jinja-lsp-queries/src/search/objects.rs:check", "jinja-lsp-queries/src/search/objects.rs:build_object", "jinja-lsp-queries/src/search/objects.rs:objects_query"]}
{"id": "C18", "title": "Cursor lookup does not panic", "statement": "Looking up the object under the cursor never panics provided no operator starts at the very beginning of the file.", "quantifier": "all capture sequences, all cursor positions, both build profiles", "why_tests_cant": "The lookup subtracts one from a length that may be zero.", "anchors": ["jinja-lsp-queries/src/search/objects.rs:objects_query"]}
{"id": "C19", "title": "Cursor lookup finds the object under the cursor", "statement": "Hovering any segment of a dotted chain yields the chain's head (name and range) with the attributes up to the one under the cursor; hovering a filter or test name yields that name with its kind; objects that start after the cursor are never selected.", "quantifier": "all expression sequences, all cursor positions on a segment or name", "why_tests_cant": "The look-ahead past the cursor depends on what follows it.", "anchors": ["jinja-lsp-queries/src/search/objects.rs:objects_query", "jinja-lsp/src/lsp_files.rs:hover"]}
{"id": "C20", "title": "Completion kind is decided by the cursor context", "statement": "A completion request in a template offers filters when the cursor is on a pipe (its trailing white space included); variables when it is in the white space of an expression; the typed part of the name, with a replacement range starting at the name, when it is inside a name of an expression; tests when it follows 'is' on the same line of a statement; and nothing outside expressions when no 'is' is pending.", "quantifier": "all templates made of expressions and statements, all cursor positions of those kinds", "why_tests_cant": "Decision table with overlapping conditions, evaluated on state accumulated over everything before the cursor.", "anchors": ["jinja-lsp-queries/src/search/objects.rs:completion", "jinja-lsp-queries/src/search/objects.rs:in_pipe", "jinja-lsp-queries/src/search/objects.rs:in_expr", "jinja-lsp-queries/src/search/objects.rs:is_test", "jinja-lsp/src/lsp_files.rs:completion"]}
{"id": "C21", "title": "The completion prefix is what was typed", "statement": "For a single-line identifier with the cursor between two of its characters (or at its end) the completion prefix is exactly the part of the identifier left of the cursor, without panic.", "quantifier": "all identifiers, all cursor columns, both build profiles", "why_tests_cant": "Column arithmetic with unsigned subtraction and byte slicing.", "anchors": ["jinja-lsp-queries/src/search/mod.rs:completion_start"]}
{"id": "C22", "title": "Variable diagnostics are sound and complete", "statement": "Linting a template reports a use of a name in front of the first syntax error exactly when it is not a filter or test, not a built-in, and no definition of that name in the file (template blocks excepted) is visible at the use; the kind is 'undefined' if the file defines the name elsewhere or no file does, and 'defined in another file' if only other files (or a block) do.", "quantifier": "all objects, all variable tables, all files", "why_tests_cant": "Quantifies over all tables and positions.", "anchors": ["jinja-lsp-queries/src/lsp_helper.rs:search_errors"]}
{"id": "C23", "title": "hide_undefined hides exactly the variable diagnostics", "statement": "With hide_undefined set no variable diagnostic is reported and the template-not-found diagnostics are unchanged.", "quantifier": "all inputs", "why_tests_cant": "Relates two runs on every input.", "anchors": ["jinja-lsp-queries/src/lsp_helper.rs:search_errors", "jinja-lsp/src/config.rs:walkdir"]}
{"id": "C24", "title": "Missing templates are reported exactly", "statement": "A template reference is reported as not found exactly when its name is empty (templates only) or the path formed from the template directory and the name does not exist; other file-system errors are not reported.", "quantifier": "all references, all file systems", "why_tests_cant": "Depends on the file system.", "anchors": ["jinja-lsp-queries/src/lsp_helper.rs:search_errors", "jinja-lsp-queries/src/lsp_helper.rs:path_items"]}
{"id": "C25", "title": "Lookups stay below the template directory", "statement": "The path checked for a template reference always begins with the configured template directory, even for absolute names.", "quantifier": "all names and directories", "why_tests_cant": "Path joining has special cases (absolute arguments, empty segments).", "anchors": ["jinja-lsp-queries/src/lsp_helper.rs:path_items"]}
{"id": "C26", "title": "Goto on a template reference opens the file that linting checked", "statement": "Goto-definition on a template reference resolves the same path that the linter checked.", "quantifier": "all names", "why_tests_cant": "Refuted for absolute names; proved for relative ones.", "anchors": ["jinja-lsp/src/lsp_files.rs:goto_definition", "jinja-lsp-queries/src/lsp_helper.rs:path_items"]}
{"id": "C27", "title": "Results do not depend on hash-map iteration order", "statement": "Diagnostics, hover types and completion sets are the same multiset for every iteration order of the server's hash maps.", "quantifier": "all states and all permutations of their maps", "why_tests_cant": "Iteration order is randomised per process.", "anchors": ["jinja-lsp-queries/src/lsp_helper.rs:search_errors", "jinja-lsp/src/lsp_files.rs:data_type", "jinja-lsp/src/lsp_files.rs:read_variables", "jinja-lsp-queries/src/search/templates.rs:collect"]}
{"id": "C28", "title": "Published diagnostics are faithful", "statement": "Each published diagnostic carries the range of the offending identifier, severity information exactly for 'defined in another file' and warning otherwise, and its fixed message; the published list has one entry per computed error, in order.", "quantifier": "all errors", "why_tests_cant": "All values.", "anchors": ["jinja-lsp/src/channels/diagnostics.rs:diagnostics_task", "jinja-lsp-queries/src/lsp_helper.rs:create_diagnostic", "jinja-lsp-queries/src/tree_builder.rs:severity"]}
{"id": "C29", "title": "A syntax error elsewhere does not hide local definitions", "statement": "While a template contains a syntax error, a use of a variable defined earlier in the same file is not reported as undefined.", "quantifier": "all states", "why_tests_cant": "Refuted by a witness.", "anchors": ["jinja-lsp/src/lsp_files.rs:add_variables", "jinja-lsp/src/lsp_files.rs:did_save", "jinja-lsp-queries/src/search/snippets_completion.rs:check"]}
{"id": "C30", "title": "Imported names are known", "statement": "A name bound by {% import 'x' as name %} is not reported as undefined.", "quantifier": "all templates", "why_tests_cant": "Refuted by a witness.", "anchors": ["jinja-lsp/src/lsp_files.rs:add_variables", "jinja-lsp-queries/src/lsp_helper.rs:search_errors"]}
{"id": "C31", "title": "Goto definition picks the innermost visible definition", "statement": "If a definition of the identifier under the cursor is visible, goto returns this file and the range of a visible definition of the same name that starts latest among all visible ones.", "quantifier": "all variable tables, all cursor positions", "why_tests_cant": "Maximum over arbitrary tables.", "anchors": ["jinja-lsp/src/lsp_files.rs:goto_definition", "jinja-lsp-queries/src/search/mod.rs:Identifier"]}
{"id": "C32", "title": "Goto falls back to all other files", "statement": "If there is no visible local definition and the cursor is not on an existing template reference, goto returns exactly the variables of all other files whose first dotted segment equals the identifier.", "quantifier": "all variable tables", "why_tests_cant": "Quantifies over all tables and iteration orders.", "anchors": ["jinja-lsp/src/lsp_files.rs:goto_definition"]}
{"id": "C33", "title": "Hover, completion and linting agree on visibility", "statement": "Whenever hover or completion regard a definition as visible at a use that starts strictly inside the scope, linting does not report that use.", "quantifier": "all tables, all uses", "why_tests_cant": "Three independently written visibility tests.", "anchors": ["jinja-lsp/src/lsp_files.rs:data_type", "jinja-lsp/src/lsp_files.rs:read_variables", "jinja-lsp-queries/src/lsp_helper.rs:search_errors"]}
{"id": "C34", "title": "Variable completion is sound, complete and prefix-filtered", "statement": "Completion of an identifier lists exactly once every local name visible before the cursor (no blocks, no template names), restricted to names starting with the typed prefix if there is one, followed by every backend variable of every file.", "quantifier": "all tables, all cursor positions, all prefixes", "why_tests_cant": "Sets over all tables.", "anchors": ["jinja-lsp/src/lsp_files.rs:read_variables"]}
{"id": "C35", "title": "Template completion", "statement": "Every item offered for a template name is the path of an indexed template below the template directory, and every indexed template whose URI contains the typed prefix is offered; if some matching URI lacks the directory marker nothing is offered.", "quantifier": "all indexes", "why_tests_cant": "All-or-nothing behaviour appears only for particular indexes.", "anchors": ["jinja-lsp/src/lsp_files.rs:read_templates"]}
{"id": "C36", "title": "Document symbols mirror the index", "statement": "Document symbols of a file are, in order, exactly the stored variables with their name, range and kind.", "quantifier": "all tables", "why_tests_cant": "All values.", "anchors": ["jinja-lsp/src/lsp_files.rs:document_symbols"]}
{"id": "C37", "title": "Code actions", "statement": "A create-template action is offered exactly when the cursor is inside a reference last reported missing for that file, the reset action exactly when not and the cursor is inside an expression of a template.", "quantifier": "all states", "why_tests_cant": "All positions and tables.", "anchors": ["jinja-lsp/src/lsp_files.rs:code_action"]}
{"id": "C38", "title": "File classification", "statement": "A path is treated as template exactly for extensions html, jinja, j2 and as backend exactly for rs, py; dotfiles and names without extension are ignored.", "quantifier": "all paths", "why_tests_cant": "All strings.", "anchors": ["jinja-lsp/src/config.rs:file_ext"]}
{"id": "C39", "title": "Configuration precedence", "statement": "Initialisation options that parse win; otherwise the first of pyproject.toml, Cargo.toml, jinja-lsp.toml that is non-empty and parses; otherwise the previous configuration stays.", "quantifier": "all option values, file contents and previous configurations", "why_tests_cant": "All combinations.", "anchors": ["jinja-lsp/src/channels/lsp.rs:lsp_task", "jinja-lsp/src/config.rs:search_config"]}
{"id": "C40", "title": "Indexing loads every classified file and fails atomically", "statement": "After a successful (re)initialisation the index contains exactly the readable classified files below the configured directories with their disk contents; if any directory entry cannot be read the previous state is kept unchanged.", "quantifier": "all file systems and previous states", "why_tests_cant": "All directory trees.", "anchors": ["jinja-lsp/src/config.rs:walkdir", "jinja-lsp/src/channels/lsp.rs:lsp_task", "jinja-lsp/src/lsp_files.rs:read_file"]}
{"id": "C41", "title": "Reset keeps unsaved edits", "statement": "The reset command does not discard the unsaved text of open documents.", "quantifier": "all histories", "why_tests_cant": "Refuted by a witness.", "anchors": ["jinja-lsp/src/channels/lsp.rs:lsp_task", "jinja-lsp/src/config.rs:walkdir"]}
{"id": "C42", "title": "Every request gets exactly one answer", "statement": "In every execution each request taken from the queue is answered exactly once (with a value or with null), and no request is answered before it is processed.", "quantifier": "all message sequences and schedules", "why_tests_cant": "Schedules.", "anchors": ["jinja-lsp/src/channels/lsp.rs:lsp_task", "jinja-lsp/src/backend.rs:LanguageServer"]}
{"id": "C43", "title": "Processing is sequential and in order", "statement": "In every schedule of client, server task, diagnostics task and timers, the server state is the fold of the message handler over the messages in the order they entered the queue, and messages of one sender are processed in the order sent.", "quantifier": "all schedules", "why_tests_cant": "Schedules.", "anchors": ["jinja-lsp/src/channels/lsp.rs:lsp_task", "jinja-lsp/src/backend.rs:_new"]}
{"id": "C44", "title": "The channels never deadlock", "statement": "From every reachable state of the two bounded channels some task can move as long as messages are pending.", "quantifier": "all schedules", "why_tests_cant": "Refuted by a schedule; proved while the queues stay below capacity.", "anchors": ["jinja-lsp/src/backend.rs:_new", "jinja-lsp/src/channels/lsp.rs:lsp_task", "jinja-lsp/src/channels/diagnostics.rs:diagnostics_task"]}
{"id": "C45", "title": "Debounce", "statement": "After any sequence of edits at most one refresh timer is live, and it belongs to the last edit; a timer that fires causes a refresh of the document edited last.", "quantifier": "all interleavings of edits and timer expiry", "why_tests_cant": "Schedules.", "anchors": ["jinja-lsp/src/lsp_files.rs:did_change"]}
{"id": "C46", "title": "Every edited document is eventually re-linted", "statement": "After edits stop, every document edited since its last lint gets a refresh.", "quantifier": "all interleavings", "why_tests_cant": "Refuted by a two-document schedule; proved for one document.", "anchors": ["jinja-lsp/src/lsp_files.rs:did_change"]}
{"id": "C47", "title": "Code actions follow published diagnostics", "statement": "When all queues are empty, the missing-template ranges used for code actions of a file are those of the last diagnostics published for that file.", "quantifier": "all schedules", "why_tests_cant": "Schedules.", "anchors": ["jinja-lsp/src/channels/diagnostics.rs:diagnostics_task", "jinja-lsp/src/lsp_files.rs:add_code_actions"]}
{"id": "C48", "title": "A crash is permanent", "statement": "After a panic of the server task no later message changes anything and every later request is answered with null.", "quantifier": "all schedules", "why_tests_cant": "Schedules / crash points.", "anchors": ["jinja-lsp/src/channels/lsp.rs:lsp_task", "jinja-lsp/src/backend.rs:LanguageServer"]}
{"id": "C49", "title": "Line offsets are translated exactly", "statement": "Positions returned by the Node binding are the server's positions shifted down by the caller's line offset, and queries are shifted up by the same offset; a query above the offset panics (debug) or misses (release).", "quantifier": "all positions and offsets", "why_tests_cant": "u32 arithmetic at all values.", "anchors": ["jinja-lsp-nodejs/src/lib.rs:get_variables", "jinja-lsp-nodejs/src/lib.rs:hover", "jinja-lsp-nodejs/src/lib.rs:goto_definition"]}
{"id": "C50", "title": "Link hints", "statement": "A use or attribute chain is reported as link exactly when its segments equal the dotted segments of some registered temporary action; it is reported once per such action.", "quantifier": "all actions and documents", "why_tests_cant": "All strings.", "anchors": ["jinja-lsp-nodejs/src/lib.rs:add_one", "jinja-lsp-nodejs/src/lib.rs:ActionObject"]}
{"id": "C51", "title": "Hint registration round-trip", "statement": "Saving hints under a name and removing them leaves every other hint untouched and the name absent; get_variables on a saved hint returns exactly the saved names.", "quantifier": "all hint tables", "why_tests_cant": "All tables.", "anchors": ["jinja-lsp-nodejs/src/lib.rs:save_link_hint", "jinja-lsp-nodejs/src/lib.rs:remove_temp_link_hint", "jinja-lsp-nodejs/src/lib.rs:get_variables"]}
{"id": "C52", "title": "delete_all removes exactly the named documents", "statement": "delete_all(f) removes every document whose URI contains f together with its variables and template tree and touches nothing else.", "quantifier": "all states", "why_tests_cant": "All tables; over-matching refuted.", "anchors": ["jinja-lsp-nodejs/src/lib.rs:delete_all", "jinja-lsp/src/lsp_files.rs:delete_documents_with_id"]}
{"id": "C53", "title": "Python attribute chains", "statement": "The merged identifier for an attribute chain is the dot-join of its segments, starting where the chain starts and ending where its last segment ends; one identifier per chain.", "quantifier": "all capture lists", "why_tests_cant": "All lists.", "anchors": ["jinja-lsp-queries/src/search/python_identifiers.rs:merge", "jinja-lsp-queries/src/search/python_identifiers.rs:python_identifiers"]}
{"id": "C54", "title": "Backend analysis keeps all variables before an error", "statement": "Backend definitions are exactly the key/name captures preceding the first error, with quotes removed from names; template references are exactly the first string following each recognised method name.", "quantifier": "all capture lists", "why_tests_cant": "All lists.", "anchors": ["jinja-lsp-queries/src/search/rust_identifiers.rs:check", "jinja-lsp-queries/src/search/rust_template_completion.rs:check"]}
{"id": "C55", "title": "A variable set inside an if is visible after it", "statement": "In {% if c %}{% set x = 1 %}{% endif %}{{ x }} the use of x is not reported as undefined (if does not open a scope in Jinja).", "quantifier": "all templates", "why_tests_cant": "Refuted by a witness.", "anchors": ["jinja-lsp-queries/src/search/definition.rs:check"]}
{"id": "C56", "title": "Reopening a document starts from a matching tree", "statement": "When didOpen replaces the text of a document that is already known, the result of the parse does not depend on the old contents.", "quantifier": "all states, all parsers that reuse an unedited old tree", "why_tests_cant": "Depends on the history of the document; refuted.", "anchors": ["jinja-lsp/src/lsp_files.rs:did_open", "jinja-lsp/src/lsp_files.rs:add_tree"]}
{"id": "C57", "title": "Attributes are attributed to the chain they are written on", "statement": "An attribute access is recorded as attribute of the chain it is written on, never of an identifier of another expression.", "quantifier": "all expression sequences", "why_tests_cant": "Refuted by a witness: the attribute of a built-in (loop.index) is attached to the previous object of the file.", "anchors": ["jinja-lsp-queries/src/search/objects.rs:build_object", "jinja-lsp-queries/src/search/objects.rs:check"]}
{"id": "C58", "title": "'is' affects its own expression only", "statement": "A name in an expression without 'is' is linted as a variable.", "quantifier": "all expression sequences", "why_tests_cant": "Refuted by a witness: a built-in test name leaves the test pending.", "anchors": ["jinja-lsp-queries/src/search/objects.rs:check", "jinja-lsp-queries/src/search/objects.rs:build_object"]}
{"id": "C59", "title": "Completion replaces the name under the cursor", "statement": "Accepting a completion for a partly typed variable replaces exactly that name.", "quantifier": "all expressions", "why_tests_cant": "What is replaced depends on everything behind the name; the exact range is proved for every template, and the claim is refuted by a witness.", "anchors": ["jinja-lsp-queries/src/search/objects.rs:objects_query", "jinja-lsp-queries/src/search/objects.rs:completion"]}
{"id": "C60", "title": "The prefix of a quoted template name is what was typed", "statement": "With the cursor inside the quotes of a template reference the completion prefix is the part of the name left of the cursor.", "quantifier": "all template names, all cursor columns", "why_tests_cant": "Refuted; the exact off-by-one is proved for every name and column.", "anchors": ["jinja-lsp-queries/src/search/mod.rs:completion_start", "jinja-lsp/src/lsp_files.rs:completion"]}
{"id": "C61", "title": "Completing an attribute uses the attribute", "statement": "With the cursor inside an attribute name the completion prefix is the typed part of the attribute.", "quantifier": "all chains", "why_tests_cant": "Refuted by a witness.", "anchors": ["jinja-lsp-queries/src/search/objects.rs:completion"]}
{"id": "C62", "title": "Tests and filters are offered where they are written", "statement": "After 'is' tests are offered and on a partly typed filter name filters are offered, also inside {{ }}.", "quantifier": "all expressions", "why_tests_cant": "Refuted; after 'is' inside an expression the server provably always offers variables.", "anchors": ["jinja-lsp-queries/src/search/objects.rs:completion", "jinja-lsp-queries/src/search/objects.rs:is_test"]}
{"id": "C63", "title": "Template lookups stay inside the template directory", "statement": "Whether a reference is reported as missing depends only on files below the template directory.", "quantifier": "all names and directories", "why_tests_cant": "Refuted: a name with .. leaves the directory; proved for names without such a segment.", "anchors": ["jinja-lsp-queries/src/lsp_helper.rs:path_items", "jinja-lsp-queries/src/lsp_helper.rs:search_errors"]}
{"id": "C64", "title": "Opening or saving a template gives exactly its diagnostics", "statement": "Opening (or saving) a template without syntax errors sends diagnostics for exactly that file: one per use that no definition of the file covers, of the right kind, followed by its missing template references; the file's definitions are replaced by the ones written in it and those of other files are left alone. With branches, loop filters or inline conditionals no covered use is reported.", "quantifier": "all templates of the modelled grammar, all server states", "why_tests_cant": "Whole pipeline from text to diagnostics over all inputs.", "anchors": ["jinja-lsp/src/lsp_files.rs:did_open", "jinja-lsp/src/lsp_files.rs:did_save", "jinja-lsp/src/lsp_files.rs:add_variables", "jinja-lsp/src/lsp_files.rs:read_tree", "jinja-lsp-queries/src/lsp_helper.rs:search_errors"]}
{"id": "C65", "title": "Names of the language are never reported", "statement": "A name every Jinja template may use without defining it (range, dict, none, self, caller, true, loop, ...) is not reported as undefined.", "quantifier": "all templates", "why_tests_cant": "Refuted for range and others; proved for the eight names the server knows.", "anchors": ["jinja-lsp-queries/src/search/objects.rs:build_object", "jinja-lsp-queries/src/search/objects.rs:VALID_IDENTIFIERS"]}
{"id": "C66", "title": "Goto on a template reference opens the referenced file", "statement": "With the cursor inside a quoted template name of extends, include, import or from (also the n-th of a list) whose file exists below the template directory, goto returns exactly that file, at its start.", "quantifier": "all statements, all cursor positions", "why_tests_cant": "The reference under the cursor is chosen among all references of the file.", "anchors": ["jinja-lsp/src/lsp_files.rs:goto_definition", "jinja-lsp-queries/src/search/templates.rs:templates_query"]}
{"id": "C67", "title": "Accepting a completed name inserts it", "statement": "Accepting a variable completion in Visual Studio Code leaves the full name in the document.", "quantifier": "all prefixes", "why_tests_cant": "Refuted by a witness; exactly what is written is proved for every item (C34).", "anchors": ["jinja-lsp/src/lsp_files.rs:read_variables"]}
{"id": "C68", "title": "Goto on an attribute", "statement": "Goto on an attribute of a chain behaves the same whatever follows the chain.", "quantifier": "all expressions", "why_tests_cant": "Refuted by a witness.", "anchors": ["jinja-lsp/src/lsp_files.rs:goto_definition", "jinja-lsp-queries/src/search/objects.rs:objects_query"]}
{"id": "C69", "title": "Hover shows the kind of the innermost definition", "statement": "Hovering any segment of a chain shows the kind of the latest visible non-block definition of its head; if there is none, 'Backend variable' exactly if another file defines the name or a name below it; otherwise nothing. Hovering a definition shows its own kind.", "quantifier": "all templates, all positions, all indexes", "why_tests_cant": "Choice among all definitions; the last sentence is refuted by a witness.", "anchors": ["jinja-lsp/src/lsp_files.rs:hover", "jinja-lsp/src/lsp_files.rs:data_type", "jinja-lsp/src/channels/lsp.rs:Hover"]}
{"id": "C70", "title": "Hover on filters and tests", "statement": "Hovering the name of a filter or test shows its documentation exactly if the name is a documented filter or test.", "quantifier": "all expressions, all positions", "why_tests_cant": "All expressions.", "anchors": ["jinja-lsp/src/lsp_files.rs:hover", "jinja-lsp/src/channels/lsp.rs:Hover"]}
{"id": "C71", "title": "The create action creates the missing file", "statement": "The file a create action makes is the file whose absence was reported.", "quantifier": "all names and directories", "why_tests_cant": "Refuted: the URI has one slash too many for an absolute directory; the exact URI is proved.", "anchors": ["jinja-lsp/src/lsp_files.rs:process_code_actions"]}
{"id": "C72", "title": "'Defined in other file' means another file", "statement": "A use is reported as defined in another file only if another indexed file defines the name.", "quantifier": "all indexes", "why_tests_cant": "Refuted by a witness (a block of the same file); proved for names the file does not declare.", "anchors": ["jinja-lsp-queries/src/lsp_helper.rs:search_errors"]}
{"id": "C73", "title": "Hover, goto and linting agree on names of other files", "statement": "A name for which goto and hover find a definition in another file is not reported as undefined.", "quantifier": "all indexes", "why_tests_cant": "Refuted by a witness.", "anchors": ["jinja-lsp-queries/src/lsp_helper.rs:search_errors", "jinja-lsp/src/lsp_files.rs:goto_definition", "jinja-lsp/src/lsp_files.rs:data_type"]}
{"id": "C74", "title": "Re-indexing forgets the past", "statement": "What a (re)initialisation produces (documents, trees, variables, diagnostics) depends only on the configuration and the disk, not on any earlier message.", "quantifier": "all pairs of histories", "why_tests_cant": "Two-run property.", "anchors": ["jinja-lsp/src/config.rs:walkdir", "jinja-lsp/src/channels/lsp.rs:lsp_task"]}
{"id": "C75", "title": "An opened file and its indexed copy are one entry", "statement": "When an editor opens a file that was indexed, the server has one entry for it.", "quantifier": "all paths", "why_tests_cant": "Refuted for every path with a reserved character (e.g. a space); proved for all others.", "anchors": ["jinja-lsp/src/lsp_files.rs:read_file", "jinja-lsp/src/lsp_files.rs:did_open"]}
{"id": "C76", "title": "The server comes to rest by itself", "statement": "From every state, without further input from the client, every run of the tasks and timers ends.", "quantifier": "all states, all schedules", "why_tests_cant": "Termination of all schedules.", "anchors": ["jinja-lsp/src/channels/lsp.rs:lsp_task", "jinja-lsp/src/channels/diagnostics.rs:diagnostics_task", "jinja-lsp/src/lsp_files.rs:did_change"]}
{"id": "C77", "title": "Diagnostics are published in the order computed", "statement": "In every schedule the published diagnostics are a prefix of those computed, in the order computed, each exactly once; at rest all of them are published.", "quantifier": "all schedules", "why_tests_cant": "Schedules.", "anchors": ["jinja-lsp/src/channels/diagnostics.rs:diagnostics_task", "jinja-lsp/src/channels/lsp.rs:lsp_task"]}
{"id": "C78", "title": "Registered hints are offered with their description", "statement": "Completing an identifier through the Node binding offers every hint registered under the temporary name, with its description.", "quantifier": "all hint tables and documents", "why_tests_cant": "All tables; false of the code (the descriptions are looked up under another key).", "anchors": ["jinja-lsp-nodejs/src/lib.rs:complete", "jinja-lsp-nodejs/src/lib.rs:save_link_hint"]}
{"id": "C79", "title": "Goto through the binding", "statement": "When the server finds a definition in the same document, the binding's goto_definition returns its place, moved by the line offset.", "quantifier": "all documents and positions", "why_tests_cant": "All inputs; false of the code (the caller's file name is parsed as a URL and unwrapped).", "anchors": ["jinja-lsp-nodejs/src/lib.rs:goto_definition"]}
{"id": "C80", "title": "Deleting one file keeps the others", "statement": "delete_all(f) keeps the documents, variables and trees of files whose name is not f.", "quantifier": "all states", "why_tests_cant": "All names; false of the code (substring match).", "anchors": ["jinja-lsp-nodejs/src/lib.rs:delete_all", "jinja-lsp/src/lsp_files.rs:delete_documents_with_id"]}
{"id": "C81", "title": "A document added after delete_all is new", "statement": "A document added after its predecessor was deleted is parsed as in a new binding.", "quantifier": "all states and documents", "why_tests_cant": "Needs the parser's incremental contract; false of the code for Python.", "anchors": ["jinja-lsp-nodejs/src/lib.rs:delete_all", "jinja-lsp-nodejs/src/lib.rs:add_one", "jinja-lsp/src/lsp_files.rs:delete_documents_with_id"]}
{"id": "C82", "title": "Completing a partly typed name through the binding", "statement": "When part of a name has been typed, the binding offers the registered hints that contain it.", "quantifier": "all histories of calls", "why_tests_cant": "All histories; false of the code (variables are looked up under the file name).", "anchors": ["jinja-lsp-nodejs/src/lib.rs:complete", "jinja-lsp/src/lsp_files.rs:get_variable"]}
{"id": "C83", "title": "A reported Python name is what is written there", "statement": "The name of a merged Python identifier is the text of the source between its two ends.", "quantifier": "all sources", "why_tests_cant": "All sources; false of the code when a subscript or call interrupts the chain.", "anchors": ["jinja-lsp-queries/src/search/python_identifiers.rs:merge", "jinja-lsp-queries/src/search/python_identifiers.rs:python_identifiers"]}
{"id": "C84", "title": "A backend template reference names its literal", "statement": "The name of a template reference in a backend file is the content of the string literal it points to.", "quantifier": "all literals", "why_tests_cant": "All strings; false of the code for literals containing quotes or with a prefix.", "anchors": ["jinja-lsp-queries/src/search/rust_template_completion.rs:check"]}
{"id": "C85", "title": "The server survives its whole session", "statement": "Whatever legal messages the editor sends, in whatever order and however the server's tasks are scheduled, the server task never dies (no indexing, unwrapping or arithmetic failure anywhere in parsing, indexing, linting, completion, hover, goto or code actions).", "quantifier": "all sessions, schedules, project trees and parser behaviours allowed by tree-sitter's contract", "why_tests_cant": "A crash needs a particular history across several handlers; there are unboundedly many sessions and schedules.", "anchors": ["jinja-lsp/src/channels/lsp.rs:lsp_task", "jinja-lsp/src/lsp_files.rs:add_tree", "jinja-lsp/src/lsp_files.rs:input_edit", "jinja-lsp/src/lsp_files.rs:completion"]}
{"id": "C86", "title": "Open documents are known with the editor's text", "statement": "While the user has a template or backend file open, the server's text of it is the text in the editor, for any number of documents edited in any interleaving.", "quantifier": "all editor sessions and schedules", "why_tests_cant": "All sessions of a client that follows the announced capabilities; false of the code (open_close is not announced, so an obedient editor never sends didOpen), and proved for editors that send didOpen anyway.", "anchors": ["jinja-lsp/src/channels/lsp.rs:Initialize", "jinja-lsp/src/backend.rs:did_open", "jinja-lsp/src/lsp_files.rs:did_open", "jinja-lsp/src/lsp_files.rs:did_change"]}
{"id": "C87", "title": "Closing a document discards unsaved changes", "statement": "After a document is closed the server works with its text on disk, not with changes the user did not save.", "quantifier": "all editor sessions", "why_tests_cant": "All sessions; false of the code (did_close does nothing).", "anchors": ["jinja-lsp/src/backend.rs:did_close"]}
{"id": "C88", "title": "Commands do what their actions promise", "statement": "Every command of an offered code action is announced and has an effect; in particular each reset makes the server index the workspace again exactly once.", "quantifier": "all states and schedules", "why_tests_cant": "Counts messages over all schedules; one offered command does nothing.", "anchors": ["jinja-lsp/src/channels/lsp.rs:ExecuteCommand", "jinja-lsp/src/lsp_files.rs:process_code_actions"]}
{"id": "C89", "title": "A copy of the state behaves like the original", "statement": "A clone of LspFiles gives the same answers as the original to every message.", "quantifier": "all states and messages", "why_tests_cant": "All states; false of the code when the backend language is Python.", "anchors": ["jinja-lsp/src/lsp_files.rs:Clone"]}
{"id": "C90", "title": "basic counts the uses of variables", "statement": "basic(content) returns the number of uses of variables, filters and tests in the template.", "quantifier": "all templates", "why_tests_cant": "All templates; fixed examples check a few counts.", "anchors": ["jinja-lsp-nodejs/src/lib.rs:basic", "jinja-lsp-queries/src/search/objects.rs:objects_query"]}
{"id": "C91", "title": "The diagnostics on the screen are current", "statement": "When the server is at rest, the diagnostics last published for a template are those of the text in the editor, against the names the server knows.", "quantifier": "all sessions and schedules", "why_tests_cant": "Combines editing, timers, linting and publication; false of the code after another document changed.", "anchors": ["jinja-lsp/src/channels/lsp.rs:lsp_task", "jinja-lsp/src/channels/diagnostics.rs:diagnostics_task", "jinja-lsp/src/lsp_files.rs:did_save"]}
{"id": "C92", "title": "Every name bound by a with list is known in its block", "statement": "Inside a with block every name bound in its header is known: linting reports no use of it as undefined.", "quantifier": "all templates, however the values are written", "why_tests_cant": "All header lists and nestings; false of the code after an inline conditional in a value.", "anchors": ["jinja-lsp-queries/src/search/definition.rs:check", "jinja-lsp-queries/src/search/definition.rs:definition_query", "jinja-lsp-queries/src/search/objects.rs:objects_query"]}
{"id": "C93", "title": "Offers fit the place of the cursor", "statement": "Filters are offered only with the cursor on a pipe, variables only between the brackets of an expression, tests only behind is, template names only on a quoted reference, snippets only on an incomplete statement.", "quantifier": "all templates, all cursor positions, whatever the parser yields", "why_tests_cant": "All positions; false of the code at the beginning of a file and on the brackets of an expression.", "anchors": ["jinja-lsp-queries/src/search/objects.rs:completion", "jinja-lsp-queries/src/search/objects.rs:in_expr", "jinja-lsp/src/lsp_files.rs:completion"]}
{"id": "C94", "title": "Answers do not depend on the order of the definitions", "statement": "Goto, hover, diagnostics, symbols and the set of offered names depend only on which definitions are stored for which file, not on the order in which they were found (lists of answers may be permuted).", "quantifier": "all states, all reorderings", "why_tests_cant": "Two-run property over all permutations.", "anchors": ["jinja-lsp/src/lsp_files.rs:goto_definition", "jinja-lsp/src/lsp_files.rs:data_type", "jinja-lsp-queries/src/lsp_helper.rs:search_errors", "jinja-lsp/src/lsp_files.rs:read_variables"]}
{"id": "C95", "title": "Goto with the cursor on nothing finds nothing", "statement": "When the cursor is on no use of a variable and on no template reference, goto returns no location.", "quantifier": "all templates, all cursor positions", "why_tests_cant": "All positions; false of the code at the beginning of a template that starts with extends.", "anchors": ["jinja-lsp/src/lsp_files.rs:goto_definition", "jinja-lsp-queries/src/search/templates.rs:in_template"]}
{"id": "C96", "title": "Opening a template without an index", "statement": "When the index could not be built (unsupported backend language, unreadable directory), an opened template is still linted: exactly the uses its own definitions leave undefined are reported, no other file taking part, and its references are looked up relative to the working directory, not in the configured template directory.", "quantifier": "all configurations and templates", "why_tests_cant": "All configurations, directories and templates.", "anchors": ["jinja-lsp/src/channels/lsp.rs:Initialized", "jinja-lsp/src/lsp_files.rs:did_open", "jinja-lsp-queries/src/lsp_helper.rs:search_errors"]}
{"id": "C97", "title": "Completion and hover describe a name alike", "statement": "An offered variable is described as the kind of the definition hover shows for that name at that place.", "quantifier": "all templates and positions", "why_tests_cant": "Choice among all definitions of a name; false of the code when a name is defined twice.", "anchors": ["jinja-lsp/src/lsp_files.rs:read_variables", "jinja-lsp/src/lsp_files.rs:data_type"]}
{"id": "C98", "title": "Accepting a snippet writes the statement", "statement": "Accepting an offered snippet inserts the statement it names at the cursor and changes nothing else.", "quantifier": "all texts, cursor positions and editors", "why_tests_cant": "All texts and positions; false of the code (the character behind the cursor is overwritten and placeholders are inserted literally; in Visual Studio Code the label is inserted).", "anchors": ["jinja-lsp-queries/src/search/snippets_completion.rs:snippets", "jinja-lsp/src/channels/lsp.rs:Completion"]}
{"id": "C99", "title": "The edits of one completion item do not collide", "statement": "The additional edits of an offered item neither overlap nor touch its main edit, so that accepting it has a defined result.", "quantifier": "all states, positions and items", "why_tests_cant": "All items; false of the code in Visual Studio Code, proved for other editors.", "anchors": ["jinja-lsp/src/lsp_files.rs:read_variables", "jinja-lsp/src/lsp_files.rs:read_templates", "jinja-lsp/src/channels/lsp.rs:Completion"]}
{"id": "C100", "title": "Accepting a template name writes a reference that is found", "statement": "Accepting an offered template name turns the literal at the cursor into a quoted name which linting finds and which goto opens as the file that was offered.", "quantifier": "all texts, directories and indexes", "why_tests_cant": "All directories and texts; proved for indexed files and ASCII text in front of the literal, false for opened files with escaped URIs and behind other characters.", "anchors": ["jinja-lsp/src/lsp_files.rs:read_templates", "jinja-lsp/src/lsp_files.rs:completion", "jinja-lsp-queries/src/lsp_helper.rs:search_errors"]}
{"id": "C101", "title": "Built-in filters and tests are explained", "statement": "Every filter and test that is built into Jinja or has a documentation file in the repository is offered once and explained by hover.", "quantifier": "all names, all positions", "why_tests_cant": "Quantifies over all positions where a name can be written; false of the code for 22 built-in names and four documented ones.", "anchors": ["jinja-lsp/src/filter/mod.rs", "jinja-lsp/src/template_tests/mod.rs", "jinja-lsp/src/channels/lsp.rs:Hover"]}
{"id": "C102", "title": "Snippets are offered in every incomplete statement", "statement": "With the cursor in an incomplete statement, completion offers the snippets.", "quantifier": "all templates and cursor positions, whatever the parser yields", "why_tests_cant": "All templates; false of the code behind another syntax error, where the exact condition is proved.", "anchors": ["jinja-lsp-queries/src/search/snippets_completion.rs:snippets_query", "jinja-lsp-queries/src/search/snippets_completion.rs:to_complete", "jinja-lsp/src/lsp_files.rs:completion"]}
{"id": "C103", "title": "Diagnostics follow from the syntax tree", "statement": "Opening or saving a template reports exactly the undefined names, the names defined elsewhere and the missing templates which its syntax tree shows; numbers, which the grammar parses as identifiers, are never reported.", "quantifier": "all syntax trees of templates without errors, all states and directories", "why_tests_cant": "Quantifies over all trees; tests run the queries on a dozen sources.", "anchors": ["jinja-lsp-queries/src/search/queries.rs", "jinja-lsp-queries/src/search/definition.rs:definition_query", "jinja-lsp-queries/src/search/objects.rs:objects_query", "jinja-lsp-queries/src/search/templates.rs:templates_query", "jinja-lsp-queries/src/lsp_helper.rs:search_errors"]}
{"id": "C104", "title": "A loop variable is known until the loop's own end tag", "statement": "A use of a loop's variable between the loop's for tag and its endfor is not reported as undefined.", "quantifier": "all templates", "why_tests_cant": "All nestings of statements, including those the server does not track; false of the code: any end tag closes the innermost tracked block.", "anchors": ["jinja-lsp-queries/src/search/queries.rs:DEFINITIONS", "jinja-lsp-queries/src/search/definition.rs"]}
{"id": "C105", "title": "Includes that may be missing are not reported", "statement": "A template included with 'ignore missing' is not reported as not found.", "quantifier": "all templates and directories", "why_tests_cant": "All statements; false of the code, the exact condition for a report is proved.", "anchors": ["jinja-lsp-queries/src/search/queries.rs:JINJA_IMPORTS", "jinja-lsp-queries/src/lsp_helper.rs:search_errors"]}
{"id": "C106", "title": "with context does not change what is known", "statement": "Adding 'with context' to an include changes no diagnostics of the template.", "quantifier": "all templates, both ways to parse the word", "why_tests_cant": "Compares diagnostics of two texts; false of the code: the word opens a block.", "anchors": ["jinja-lsp-queries/src/search/queries.rs:DEFINITIONS", "jinja-lsp-queries/src/search/definition.rs"]}
{"id": "C107", "title": "Names handed to templates by Rust code", "statement": "After a Rust file is opened, the index holds exactly the names it hands to templates.", "quantifier": "all syntax trees of Rust files without errors", "why_tests_cant": "All trees; completeness proved, exactness false of the code (every macro counts), what is remembered is characterised exactly.", "anchors": ["jinja-lsp-queries/src/search/queries.rs:RUST_DEFINITIONS", "jinja-lsp-queries/src/search/rust_identifiers.rs", "jinja-lsp/src/lsp_files.rs:did_open"]}
{"id": "C108", "title": "Names handed to templates by Python code", "statement": "After a Python file is opened, every keyword argument of a rendering call in it is known.", "quantifier": "all syntax trees of Python files without errors", "why_tests_cant": "All trees; false of the code for render called on an expression; what is remembered is characterised exactly.", "anchors": ["jinja-lsp-queries/src/search/queries.rs:PYTHON_DEFINITIONS", "jinja-lsp-queries/src/search/rust_identifiers.rs", "jinja-lsp/src/lsp_files.rs:did_open"]}
{"id": "C109", "title": "Templates named in backend code are checked", "statement": "A template that backend code renders and that does not exist is reported when the file is opened.", "quantifier": "all syntax trees of backend files without errors, all directories", "why_tests_cant": "All trees and directories; false of the code for render_template; what is checked is characterised exactly.", "anchors": ["jinja-lsp-queries/src/search/queries.rs:PYTHON_TEMPLATES", "jinja-lsp-queries/src/search/rust_template_completion.rs", "jinja-lsp-queries/src/lsp_helper.rs:search_errors"]}
{"id": "C110", "title": "Hints in Python code are linked where they are used", "statement": "Every use of a hinted name in Python code added through the binding is linked, over what is written of it, once per hint of that name; nothing else is linked.", "quantifier": "all syntax trees of Python code without errors, all hints and histories of calls", "why_tests_cant": "All trees and hints; false of the code for names without dots and for calls or subscripts inside of a chain; exact for code whose attributes are all parts of dotted names.", "anchors": ["jinja-lsp-queries/src/search/queries.rs:PYTHON_IDENTIFIERS", "jinja-lsp-queries/src/search/python_identifiers.rs:python_identifiers", "jinja-lsp-queries/src/search/python_identifiers.rs:merge", "jinja-lsp-nodejs/src/lib.rs:add_one"]}
{"id": "C111", "title": "The server works with the settings it is given", "statement": "If the settings of the client, or a configuration file, name a templates directory, the server indexes the templates below it.", "quantifier": "all JSON settings and TOML documents, all directory contents, all states", "why_tests_cant": "All values of any shape; false of the code as soon as another setting is left out or has another type. Exactly which settings are understood, and that these are used, is proved.", "anchors": ["jinja-lsp/src/config.rs:JinjaConfig", "jinja-lsp/src/config.rs:search_config", "jinja-lsp/src/channels/lsp.rs:lsp_task"]}
{"id": "C112", "title": "Changed settings are used, unusable ones change nothing", "statement": "After a settings notification the server works with the new settings; if it does not understand them nothing changes.", "quantifier": "all JSON settings, all states and directory contents", "why_tests_cant": "All states and values; false of the code: settings that are not understood still make it index the workspace again, which loses unsaved edits.", "anchors": ["jinja-lsp/src/channels/lsp.rs:lsp_task", "jinja-lsp/src/config.rs:walkdir"]}
{"id": "C113", "title": "Every template type of the documentation is served", "statement": "A document of a type for which the README attaches the server gets diagnostics; documents of unknown types get nothing.", "quantifier": "all document names, all sessions and schedules", "why_tests_cant": "All sessions; the first half is false of the code for .jinja2.", "anchors": ["README.md", "jinja-lsp/src/lsp_files.rs:did_open", "jinja-lsp/src/config.rs:file_ext"]}
{"id": "C114", "title": "Goto, hover and completion answer what the template says", "statement": "After a template is opened or saved: goto on a name leads to its latest definition visible there, or else to every file that provides the name; hover tells what that definition is; completion between the words of an expression offers exactly the names visible at the cursor. Visible means within the extent the analysis counts, which is Jinja's in templates without else branches.", "quantifier": "all syntax trees of templates without errors and without inline conditionals in end tags, all cursors on a name, all indexes of other files", "why_tests_cant": "Composes parsing results, queries, indexing and three requests, for all trees and cursors.", "anchors": ["jinja-lsp-queries/src/search/queries.rs:OBJECTS", "jinja-lsp/src/lsp_files.rs:goto_definition", "jinja-lsp/src/lsp_files.rs:hover", "jinja-lsp/src/lsp_files.rs:completion"]}
{"id": "C115", "title": "Diagnostics agree with goto and hover", "statement": "In a template just opened or saved, a name that is not reported leads, by goto, to a definition in the template, and hover tells its kind (unless the name is itself the definition). A reported name leads to no definition in the template other than a block of that name, and hover tells at most that backend code provides it.", "quantifier": "all syntax trees of templates without errors and without inline conditionals in end tags, all names and cursors on them", "why_tests_cant": "Relates three features that use three different visibility rules, for all trees and cursors.", "anchors": ["jinja-lsp-queries/src/lsp_helper.rs:search_errors", "jinja-lsp/src/lsp_files.rs:goto_definition", "jinja-lsp/src/lsp_files.rs:data_type"]}
{"id": "C116", "title": "Answers are about the text in the editor", "statement": "Throughout every session, goto, hover, completion and the outline of a template answer for the text the editor shows: the name under the cursor is the one in that text, and its definitions are those written in that text.", "quantifier": "all sessions and schedules, all templates without errors and without inline conditionals in end tags, all cursors on a name", "why_tests_cant": "All executions of the server; false of the code between an edit and the next refresh. Proved for every execution: names are read from the editor's text, definitions from the text at the last opening or saving; the two are one after the refresh.", "anchors": ["jinja-lsp/src/lsp_files.rs:did_change", "jinja-lsp/src/lsp_files.rs:read_trees", "jinja-lsp/src/channels/lsp.rs:lsp_task", "jinja-lsp/src/channels/diagnostics.rs"]}
{"id": "C117", "title": "Goto on a template reference agrees with the diagnostics", "statement": "For every include, extends, import or from reference of a template without syntax errors, whose name has no empty segment, with the cursor between its quotes: right after the template was opened or saved, a reference that is reported as not found leads nowhere, and a reference that stands for a file is not reported and goto opens that file at its beginning. In every session goto on a reference of the text in the editor answers according to the files at that moment. Completion there offers exactly the known templates whose URIs contain what has been typed, each once.", "quantifier": "all templates without errors and their syntax trees, all references, all cursor positions between the quotes, all file systems, all sessions and schedules", "why_tests_cant": "Diagnostics and goto compute the path in different functions, from different queries and different cursor tests; their agreement on all references is not a matter of a few examples.", "anchors": ["jinja-lsp/src/lsp_files.rs", "jinja-lsp-queries/src/search/templates.rs", "jinja-lsp/src/channels/diagnostics.rs", "jinja-lsp/src/channels/lsp.rs"]}
{"id": "C118", "title": "Hover explains exactly the known filters and tests", "statement": "In every session, with the cursor on the name of a filter (or of a test) of the text in the editor, hover answers with the documentation of the built-in filter (test) of that name, and with nothing if there is none; a filter is never explained as a test or the reverse, although several names are both.", "quantifier": "all templates without errors and their syntax trees, all filters and tests in them, all sessions and schedules", "why_tests_cant": "Whether a word is a filter or a test follows from pieces found by a query anywhere before the cursor; tests try single expressions.", "anchors": ["jinja-lsp/src/channels/lsp.rs", "jinja-lsp-queries/src/search/objects.rs"]}
{"id": "C119", "title": "Completions come up while typing", "statement": "In an editor that asks as the protocol says (after word characters and the announced trigger characters), completions come up wherever there is something to offer: typing a quote in front of a template name offers the templates, a space in an expression the variables, a space behind a pipe the filters, a space behind is the tests, brackets, percent and minus signs in an incomplete statement the snippets, and typing a pipe the filters; no such request is turned down.", "quantifier": "all characters, all sessions and schedules, all templates, cursor positions", "why_tests_cant": "All characters and all sessions; false of the code for the pipe (and the single quote), which are not trigger characters.", "anchors": ["jinja-lsp/src/channels/lsp.rs:completion_provider", "jinja-lsp/src/lsp_files.rs:completion"]}
{"id": "C120", "title": "Settings in Visual Studio Code", "statement": "With the extension, the settings the user has made under jinja-lsp, and the declared defaults of the others, are what the server works with; where the user has set nothing, a configuration file of the project (pyproject.toml, Cargo.toml, jinja-lsp.toml) is used, as in other editors.", "quantifier": "all user settings, all projects, all server states", "why_tests_cant": "All settings and disks; the second half is false: the extension always sends its defaults, so the files are never looked at.", "anchors": ["editors/code/client/src/extension.ts:activate", "editors/code/package.json:configuration", "jinja-lsp/src/channels/lsp.rs:Initialize", "jinja-lsp/src/config.rs:search_config"]}
{"id": "C121", "title": "The screen shows the mistakes written in the editor", "statement": "Whenever the server has come to rest and a template has been read since its last edit (which is always so when only this document is edited), the diagnostics last published for it are, in order and without any other: one for every use in the editor's text whose name has no definition visible there, as undefined or as defined elsewhere according to the names the server knew when it last read the template, and one for every reference to a template that was not on the disk then.", "quantifier": "all sessions and schedules, all templates without errors and without inline conditionals in end tags, all file systems", "why_tests_cant": "The published text depends on the order of edits, timers, readings and publications of several tasks; no test enumerates the schedules or the templates.", "anchors": ["jinja-lsp/src/channels/lsp.rs:lsp_task", "jinja-lsp/src/channels/diagnostics.rs", "jinja-lsp/src/lsp_files.rs:read_tree", "jinja-lsp/src/lsp_files.rs:did_save"]}
{"id": "C122", "title": "Quick fixes are offered where the squiggles are", "statement": "Whenever the server has come to rest and a template has been read since its last edit: asked for code actions with the cursor on a reference to a template that was missing when it was last read, the server answers with the creation of a file of that name below the template directory; with the cursor elsewhere it never proposes to create a file; in white space of an expression it proposes its two commands, and in white space outside of expressions nothing.", "quantifier": "all sessions and schedules, all templates without errors, all cursor positions, all file systems", "why_tests_cant": "The references travel from the server task to the diagnostics task and back in messages that may be queued behind others; whether the right ones are there is a question about all schedules.", "anchors": ["jinja-lsp/src/lsp_files.rs:code_action", "jinja-lsp/src/lsp_files.rs:process_code_actions", "jinja-lsp/src/lsp_files.rs:add_code_actions", "jinja-lsp/src/channels/diagnostics.rs", "jinja-lsp/src/channels/lsp.rs"]}
{"id": "C123", "title": "Diagnostics depend neither on the layout nor on the choice of names", "statement": "Take a template and lay it out differently (other line breaks and indentation, the same words in the same order) and give its variables other names, different ones for different ones. The diagnostics published for it are the same ones at the places the words have moved to, and go-to-definition on a use leads to the place its definition has moved to.", "quantifier": "all pairs of templates made of the same statements without errors, all order-keeping maps of positions, all injective renamings, all sessions and schedules", "why_tests_cant": "Invariance is a statement about pairs of inputs and about all layouts and names; a test compares one pair.", "anchors": ["jinja-lsp/src/channels/diagnostics.rs", "jinja-lsp/src/lsp_files.rs:read_tree", "jinja-lsp/src/lsp_files.rs:goto_definition", "jinja-lsp-queries/src/search/definition.rs", "jinja-lsp-queries/src/search/objects.rs"]}
{"id": "C124", "title": "Template names in Rust and Python code can be followed and completed", "statement": "In a Rust or Python file, go-to-definition on the string handed to render_jinja or get_template opens the template of that name in the templates directory, and answers nothing if there is none; completion inside that string offers the known templates whose URI contains what has been typed, each once, replacing the whole string. Anywhere else in the code both answer nothing.", "quantifier": "all code without syntax errors, all cursors, all sessions, edits and schedules, both languages", "why_tests_cant": "The answer depends on every call in the file and on the edits made since it was opened; tests ask at one place of one file.", "anchors": ["jinja-lsp/src/lsp_files.rs:goto_definition", "jinja-lsp/src/lsp_files.rs:completion", "jinja-lsp-queries/src/search/rust_template_completion.rs", "jinja-lsp-queries/src/search/python_identifiers.rs"]}
{"id": "C125", "title": "The screen shows which templates loaded by Rust or Python code are missing", "statement": "In a session at rest, the diagnostics on the screen for a Rust or Python file are exactly one kind of report, template not found, for exactly those strings handed to render_jinja or get_template whose file was not in the templates directory when the code was last read; a code action with the cursor on such a string proposes to create the missing file below the templates directory, and elsewhere in the code nothing is proposed.", "quantifier": "all code without syntax errors, all sessions, edits, schedules and file systems, both languages", "why_tests_cant": "What is on the screen depends on the whole history of the session and on the file system at the time of the last reading; tests check one file in a fresh server.", "anchors": ["jinja-lsp/src/channels/diagnostics.rs", "jinja-lsp/src/channels/lsp.rs", "jinja-lsp/src/lsp_files.rs:code_action", "jinja-lsp-queries/src/search/rust_template_completion.rs", "jinja-lsp-queries/src/search/python_identifiers.rs"]}
{"id": "C126", "title": "Names handed to templates by code are known in every template", "statement": "If Rust or Python code that the server has read hands a name to templates (an identifier in a macro, jinja.add_global and the like; jinja_env.globals and keyword arguments of render), then in every template which does not define the name itself: hover tells that it is a backend variable, go-to-definition leads to the place in the code, completion in an expression offers it, and the only report about a use of it is the hint that it is defined somewhere else.", "quantifier": "all templates and code without syntax errors, all sessions, edits and schedules, both languages", "why_tests_cant": "Connects two files in different languages over a whole session; tests exercise one file at a time.", "anchors": ["jinja-lsp/src/lsp_files.rs:goto_definition", "jinja-lsp/src/lsp_files.rs:hover", "jinja-lsp/src/lsp_files.rs:completion", "jinja-lsp/src/lsp_files.rs:add_variables", "jinja-lsp-queries/src/search/rust_identifiers.rs", "jinja-lsp-queries/src/search/python_identifiers.rs", "jinja-lsp/src/channels/diagnostics.rs"]}
{"id": "C127", "title": "What is shown and answered depends on the text, not on its past", "statement": "Two sessions have come to rest with the same text of a template in the editor: in one it was opened as it is, in the other typed, broken, repaired, undone and saved in whatever way. Then the same diagnostics are on the screen, and completion, hover, go-to-definition and document symbols give the same answers up to their order, provided that the servers agree about the other documents and find the same templates on the disk.", "quantifier": "all pairs of sessions, edits and schedules, all texts including those with syntax errors, all trees the parser may make of them, all requests and cursor positions", "why_tests_cant": "A relation between any two histories of a document; tests replay a few. It is false of texts with a syntax error: such a template is checked if it was once read without error, and not if it was opened broken.", "anchors": ["jinja-lsp/src/lsp_files.rs:did_open", "jinja-lsp/src/lsp_files.rs:did_save", "jinja-lsp/src/lsp_files.rs:add_variables", "jinja-lsp/src/lsp_files.rs:delete_variables", "jinja-lsp-queries/src/lsp_helper.rs:search_errors"]}
{"id": "C128", "title": "Completion while a name, a filter or a test is written", "statement": "In every session, at every request: with the cursor in the letters of a name inside {{ }}, the answer offers exactly the local names that begin with what is typed in front of the cursor and are visible there according to the last reading of the template, each once, and besides them only the variables of the backend; an offered name is to replace the whole name under the cursor and nothing else, unless attributes follow (VS Code: C67). On the pipe of a filter the answer is exactly the list of filters, behind the 'is' of a statement exactly the list of tests.", "quantifier": "all sessions and schedules, all templates without syntax errors and their trees, all texts between reading and request, all cursor positions, prefixes and triggers", "why_tests_cant": "Quantifies over sessions, trees and cursor positions; tests complete at a few points of small templates.", "anchors": ["jinja-lsp/src/lsp_files.rs:completion", "jinja-lsp/src/channels/lsp.rs:Completion", "jinja-lsp/src/lsp_files.rs:read_variables", "jinja-lsp-queries/src/search/objects.rs:completion"]}
{"id": "C129", "title": "Asking leaves no trace", "statement": "Completion, hover, go to definition, quick fixes and the outline only answer: take any session and strike out any of these requests, and the same session without them can happen - the other messages sent and processed in the same order, the same final state, the same timers, the same diagnostics published, and the same answer to every remaining request, the remaining questions included.", "quantifier": "all sessions and schedules, all choices of questions, all disks, builds and syntax trees", "why_tests_cant": "Quantifies over all sessions, interleavings and sets of questions; a test compares a few pairs of sessions.", "anchors": ["jinja-lsp/src/channels/lsp.rs:230-340", "jinja-lsp/src/lsp_files.rs:521-583", "jinja-lsp/src/backend.rs:66-140"]}
{"id": "C130", "title": "Indexing shows the mistakes of the whole workspace", "statement": "Whenever the workspace was indexed - at the start, after a change of the settings, or because the user reset the variables - and nothing happened to a file since, the screen shows exactly the mistakes written in that file: every name no file defines, every name only other files define (as a hint, wherever those files come in the listing of the directories), every template named that is not on the disk, in templates and in code, and nothing for files that are gone.", "quantifier": "all sessions and schedules, all disks and settings, all workspaces without syntax errors and their trees", "why_tests_cant": "Quantifies over all workspaces, directory orders and sessions; tests index one fixed directory.", "anchors": ["jinja-lsp/src/lsp_files.rs:read_trees", "jinja-lsp/src/channels/lsp.rs:Initialized", "jinja-lsp-queries/src/lsp_helper.rs:search_errors", "jinja-lsp/src/config.rs:walkdir"]}
{"id": "C131", "title": "From a template to the rest of the workspace", "statement": "After the workspace was indexed and a template opened, whatever is then typed into the template: goto on a name that the template does not define leads to exactly the places where other files of the workspace define it or hand it to templates; hover on it says that it is known exactly if there is such a place; completion offers every name that code on the disk hands to templates, though none of that code was opened.", "quantifier": "all sessions and schedules, all workspaces without syntax errors, all templates, edits and cursor positions on names", "why_tests_cant": "Quantifies over workspaces, sessions, trees and cursor positions; tests ask at a few positions of one fixed directory.", "anchors": ["jinja-lsp/src/lsp_files.rs:goto_definition", "jinja-lsp/src/lsp_files.rs:get_variable", "jinja-lsp/src/lsp_files.rs:data_type", "jinja-lsp/src/lsp_files.rs:read_variables", "jinja-lsp/src/config.rs:walkdir"]}
{"id": "C132", "title": "Edits are checked against the whole workspace", "statement": "After the workspace was indexed, a template is opened and edited in any way. As soon as the server has come to rest, the screen shows exactly the mistakes of the text in the editor: a name used where the template's own definition of it is visible is not reported; one that the template defines, but not visibly there, is undefined; one that the template does not define (or only as a block) is reported as defined elsewhere if some file of the workspace writes it (or it is such a block) and as undefined if none does; and every template named that was not on the disk is reported.", "quantifier": "all sessions and schedules in which no other file was opened since the indexing and undefined names are not hidden, all workspaces without syntax errors, all texts and edits of the template", "why_tests_cant": "Quantifies over workspaces, sessions and edits; tests check one text against hand-made variables.", "anchors": ["jinja-lsp-queries/src/lsp_helper.rs:search_errors", "jinja-lsp/src/lsp_files.rs:did_change", "jinja-lsp/src/lsp_files.rs:read_tree", "jinja-lsp/src/config.rs:walkdir"]}
{"id": "C133", "title": "The newest texts of all files count", "statement": "After the workspace was indexed, any files are opened, edited and saved in any order. Once the server is at rest, the screen shows for a template exactly the mistakes of its text as last read, checked against what all files of the workspace said at that moment: a file opened or saved since the indexing counts with the text the editor showed when it was last opened or saved, any other file with its text on the disk. A name that was removed in the editor is therefore no longer known, and a new one is.", "quantifier": "all sessions and schedules after an indexing, all workspaces and editor texts without syntax errors, undefined names not hidden", "why_tests_cant": "Quantifies over sessions with any number of edited files; tests check one text against hand-made variables.", "anchors": ["jinja-lsp-queries/src/lsp_helper.rs:search_errors", "jinja-lsp/src/lsp_files.rs:did_open", "jinja-lsp/src/lsp_files.rs:did_save", "jinja-lsp/src/lsp_files.rs:delete_variables", "jinja-lsp/src/config.rs:walkdir"]}
{"id": "C134", "title": "Asking about names of files that were changed", "statement": "After the workspace was indexed and any files were opened, edited and saved: goto on a name that the template does not define leads to exactly the places where other files write it, hover says whether any does, and completion offers every name that code hands to templates; each file counts with the text it had when it was last opened or saved since the indexing, or else with its text on the disk.", "quantifier": "all sessions and schedules after an indexing, all workspaces and editor texts without syntax errors, all cursor positions on such a name", "why_tests_cant": "Quantifies over sessions with any number of edited files; tests ask about one or two fixed files.", "anchors": ["jinja-lsp/src/lsp_files.rs:goto_definition", "jinja-lsp/src/lsp_files.rs:hover", "jinja-lsp/src/lsp_files.rs:read_variables", "jinja-lsp/src/lsp_files.rs:did_open", "jinja-lsp/src/lsp_files.rs:did_save"]}
{"id": "C135", "title": "With hide_undefined only missing templates are shown", "statement": "After the workspace was indexed with hide_undefined, the screen shows for a template that was just read exactly its references to templates that were not on the disk at that moment: no undefined name is reported, whatever the template uses and whatever other files say, and no missing template is left out. If only this template is edited, it suffices to wait until the server is at rest.", "quantifier": "all sessions and schedules after an indexing with hide_undefined, all template texts without syntax errors, all other files", "why_tests_cant": "Quantifies over sessions, template texts and other files; tests never index with hide_undefined and then look at what is published.", "anchors": ["jinja-lsp/src/config.rs:walkdir", "jinja-lsp-queries/src/lsp_helper.rs:search_errors", "jinja-lsp/src/lsp_files.rs:did_open", "jinja-lsp/src/lsp_files.rs:did_save"]}
{"id": "C136", "title": "Code is checked with the settings of the last indexing", "statement": "After the workspace was indexed with some settings, the screen shows for a Rust or Python file that was just read exactly the strings that load a template missing below the template directory of those settings, found by the query for the language of those settings; the fix proposed on such a string creates the template below that directory, and elsewhere nothing is proposed. This holds whatever was opened, edited and saved in between; if only this file is edited, it suffices to wait until the server is at rest.", "quantifier": "all sessions and schedules after an indexing, all settings with a known language and readable directories, all code without syntax errors", "why_tests_cant": "Quantifies over settings, sessions and code; tests never index with given settings and then look at what is published for code.", "anchors": ["jinja-lsp/src/config.rs:walkdir", "jinja-lsp/src/channels/lsp.rs:lsp_task", "jinja-lsp-queries/src/lsp_helper.rs:search_errors", "jinja-lsp/src/lsp_files.rs:code_action"]}
{"id": "C137", "title": "Quick fixes follow the settings, with hide_undefined or without", "statement": "After the workspace was indexed with some settings and a template was read: on a reference to a template that was not on the disk, the fix proposed creates the file below the template directory of those settings; in the white space of an expression the two commands are offered, behind it nothing, and wherever no missing reference is touched no file is proposed. hide_undefined makes no difference to any of this.", "quantifier": "all sessions and schedules after an indexing, all settings with a known language and readable directories, all template texts without syntax errors, all cursor positions", "why_tests_cant": "Quantifies over settings, sessions and texts; tests ask for fixes in one hand-made state without hide_undefined.", "anchors": ["jinja-lsp/src/lsp_files.rs:code_action", "jinja-lsp/src/channels/diagnostics.rs:diagnostics_task", "jinja-lsp/src/config.rs:walkdir", "jinja-lsp-queries/src/lsp_helper.rs:search_errors"]}
{"id": "C138", "title": "References lead below the template directory of the last indexing", "statement": "After the workspace was indexed with some settings, goto on a reference in a template to a file that exists below the template directory of those settings leads to that file. Goto on a string with which code loads a template does the same; if there is no such file, or if the cursor is on no such string, goto in code leads nowhere. Whatever was opened, edited and saved in between makes no difference except through the text in the editor.", "quantifier": "all sessions and schedules after an indexing, all settings with a known language and readable directories, all texts without syntax errors, all cursor positions", "why_tests_cant": "Quantifies over settings, sessions and texts; tests ask in one hand-made state.", "anchors": ["jinja-lsp/src/lsp_files.rs:goto_definition", "jinja-lsp/src/config.rs:walkdir", "jinja-lsp/src/channels/lsp.rs:lsp_task"]}
{"id": "C139", "title": "The templates that are offered", "statement": "After the workspace was indexed with some settings, completion inside a reference to a template, or inside a string with which code loads a template, offers exactly the templates that were on the disk below those directories at the indexing or were opened since and whose URI contains what was typed, each once and labelled by its path below the template directory; elsewhere in code nothing is offered. Edits and saves change nothing about this.", "quantifier": "all sessions and schedules after an indexing, all settings with a known language and readable directories, all disks, all texts without syntax errors, all cursor positions", "why_tests_cant": "Quantifies over disks, settings and sessions; tests complete in one fixed directory.", "anchors": ["jinja-lsp/src/lsp_files.rs:read_templates", "jinja-lsp/src/config.rs:walkdir", "jinja-lsp/src/lsp_files.rs:did_open", "jinja-lsp/src/channels/lsp.rs:lsp_task"]}
