# Formal model of jinja-lsp in Coq 8.16.1

The subject is `uros-5/jinja-lsp` at the pinned commit, read as text. `properties.jsonl` lists what a
user relies on, `MANIFEST.json` says which theorems establish (or refute) what, `seeded/LOG.jsonl`
records the wrong programs the theorems were tried against.

## 1. Approach

The model is a set of total Gallina functions, one per Rust function, over lists, `N`, strings (read
as UTF-8 byte sequences) and association lists (hash maps). Each definition cites the lines it models.

* A Rust panic is the explicit outcome `Panic` of the result type `res`. Unsigned subtraction and
  addition take the build profile: `Debug` panics, `Release` wraps.
* Everything outside the repository is an explicit argument, never an axiom:
  * tree-sitter: record `ts` (`t_parse`, `t_edit`, `t_captures`, `t_root_end`), any implementation;
  * the file system: record `fs` (`f_canon`, `f_read`, `f_walk`, `f_toml`), one per processed message,
    so it may change arbitrarily between messages;
  * `Url::parse`: a function `string -> option string`.
* No law about these oracles is assumed unless it is a visible hypothesis of a theorem (section 4).
* Hash-map iteration order is the order of the association list. C27 proves which results do not
  depend on it, by comparing states whose maps are permutations of each other.
* Concurrency is a transition system (`MChannels`): client handlers, server task, diagnostics task,
  timers and two bounded channels; an execution is any list of actions.

Specifications live in `Spec*` files and do not use the functions they are about. Theorems about
properties live in `Prop*` files: each is one `exact`, followed by `Print Assumptions` and by Examples
meeting its hypotheses. Properties that are false of the code have a `…_refuted` theorem (an explicit
witness) and, beside it, the part that does hold, proved for all inputs.

## 2. Files (logical name `Verif`)

| file | content |
|---|---|
| Base, RString, Utf8 | results, machine integers, points, maps; `str`/`Path` operations; UTF-8 |
| Rope | ropey text, `to_input_edit.rs`, `FileContent`/`FileWriter`, edit application of `did_change` |
| Types | identifiers, kinds, derived order, diagnostics (`search/mod.rs`, `tree_builder.rs`) |
| Captures | nodes, captures, `utf8_text`, the tree-sitter oracle |
| MDefinition | `search/definition.rs` |
| MObjects | `search/objects.rs`, `completion_start` |
| MTemplates | `search/{templates, rust_identifiers, rust_template_completion, python_identifiers, snippets_completion}.rs` |
| MSearchErrors | `lsp_helper.rs`, configuration record, file-system oracle |
| MLspFiles | `lsp_files.rs`, `config.rs`, `parsers.rs`, `Queries::update_backend` |
| MLspTask | `channels/lsp.rs`, filter/test/snippet tables |
| MChannels | `channels/diagnostics.rs`, the loop of `channels/lsp.rs`, `backend.rs`, channels, timers |
| MBackend | `backend.rs`: which handler sends which message; announced capabilities |
| MNode | `jinja-lsp-nodejs/src/lib.rs` |
| SpecText, SpecText2, PText, PText2, PText3, PUtf8, PropText | C01-C07: texts and edits |
| SpecFiles, PFiles, PropFiles | C08, C09, C56: the document store |
| SpecScope, SpecScope2, ExScope, PScope, PScope2, PScope3, PropScope | C10-C16, C55, C92: names and their extents |
| SpecObjects, SpecObjects2, PObjects, PObjects2, PObjects3, PObjects4, PropObjects | C17-C21, C57-C62: uses, cursor |
| SpecLint, PLint, PLint2, PLint3, SpecOrder, POrder, PropLint | C22-C30, C63-C65: diagnostics |
| SpecNav, PNav, PNav2, PNav3, PNav4, PNav5, PropNav | C31-C37, C66-C73: goto, hover, completion, symbols, actions |
| SpecConfig, PConfig, PropConfig, PropConfig2 | C38-C41, C74, C75: classification, configuration, indexing |
| SpecChannels, PChannels, PChannels2-5, PropChannels | C42-C48, C76, C77: channels and timers |
| SpecNode, PNode, PNode2, PropNode | C49-C52, C78-C82: Node binding |
| SpecBackend, PBackend, PropBackend | C53, C54, C83, C84: analysis of backend files |
| SpecServer, PServer, PropServer | C08, C85: invariants of whole sessions |
| SpecClient, PClient, PClient2, PropClient | C86-C91: the server as an editor sees it |
| SpecPlace, PPlace, PPlace2, POrder2, PropPlace | C93-C97: places of offers, order of definitions, no index |
| SpecAccept, PAccept, PropAccept | C98-C102: accepting completion items, documented names, where snippets are offered |
| MQueries | `search/queries.rs`: the queries as data, and what a query finds in a syntax tree |
| SpecQueries, PQueries, PQueries2-4, PQueries6 | what the tree of a template shows (`depicts`), and that the queries find exactly that |
| SpecQueries2, PQueries5, PQueries7, PropQueries | C103-C109: from syntax trees to what the user sees, templates and backend files |
| SpecQueries4, PQueries9, PQueries10, PropQueries2 | C114, C115: goto, hover, completion and their agreement with the diagnostics, from the syntax tree of a template |
| SpecQueries5, PQueries11, PropQueries3 | C116: which text the answers are taken from, for all executions |
| SpecQueries6, PQueries12, PropQueries4 | C117, C118: template references, filters and tests under the cursor, from syntax trees and in sessions |
| MExtension, SpecExtension, PExtension, PropExtension | C120: the settings the VS Code extension sends |
| SpecTyping, PTyping, PropTyping | C119: when an editor asks while the user types (LSP 3.17), and what it is offered |
| SpecScreen, PScreen, PropScreen | C121, C122: the diagnostics on the screen of a session at rest, from syntax trees, and the quick fixes |
| SpecLayout, PLayout, PropLayout | C123: diagnostics and goto of a template laid out differently or with its names replaced |
| SpecCode, PCode, PCode2, PropCode | C124: goto and completion on the strings that load templates in Rust and Python code |
| PCode3, PropCode2 | C125: the reports on the screen for Rust and Python code, and the quick fixes there |
| SpecHistory, PHistory, PropHistory | C127: two sessions with the same text of a template and different pasts |
| SpecOffer, POffer, PropOffer | C128: completion in the letters of a name, on a pipe and behind `is`, in every session |
| SpecAsking, PAsking, PropAsking | C129: a session without some of its questions |
| SpecIndex, PIndex, PropIndex | C130: the screen after the workspace was indexed |
| PIndex2, PropIndex2 (with SpecIndex) | C131: goto, hover and completion for names written in files that were never opened |
| PIndex3, PropIndex3 (with SpecIndex) | C132: the screen of a template edited after the workspace was indexed |
| SpecIndex2, PIndex4, PropIndex4 | C133, C134: any files opened, edited and saved after the workspace was indexed |
| PIndex5, PropIndex5 (with SpecIndex2) | C135: the screen when undefined names are hidden |
| PIndex6, PropIndex6 (with SpecIndex2) | C136: code is checked with the settings of the last indexing |
| PIndex7, PropIndex7 (with SpecIndex2) | C137: quick fixes with the settings of the last indexing |
| PIndex8, PropIndex8 (with SpecIndex2) | C138: goto on references with the settings of the last indexing |
| SpecIndex3, PIndex9, PropIndex9 | C139: the templates that are offered after an indexing |
| PCode4, PropCode3 | C126: hover, goto, completion and hints in templates for names that code hands to them |
| SpecQueries3, PQueries8, PropLinks | C110: hints in Python code, from its syntax tree |
| MSettings | derived deserialisation of the configuration (`config.rs:18-32`) from JSON and TOML values |
| SpecSettings, PSettings, PropSettings | C111-C113: settings as given by clients and files; documents of other types |
| ExRepo | the repository's own tests of the queries, replayed in the model (tests, not theorems) |

## 3. How each group is proved

* C01-C07. Ropey's text is a list of code points with the documented byte/char/line indexing. LSP
  positions are specified separately (lines split at LF, CR, CRLF; UTF-16 columns). C02 and C04 are
  false for Unicode texts; the theorems say exactly for which edits text and byte offsets come out right.
* C08, C09, C56. Invariant of the store over all histories of notifications.
* C10-C16, C55, C92. Templates are an inductive type of nested statements; `captures_of` gives the capture
  stream, `introduced` the names and extents of the Jinja language. Induction over the template with an
  invariant about the scope stack. SpecScope2 describes the extents actually recorded, for templates of
  every shape, by counting openings and end tags (`tallied`); C64, C91, C96, C103, C114 and C115 use these
  extents, so that they hold of templates with branches too, and say when they are Jinja's.
* C17-C21, C57-C62. Expressions are sequences of pieces (chains, filters, tests, operators); induction
  over the pieces with an invariant about the "last ident / last pipe" state. Cursor theorems cut the
  sequence at the cursor. SpecObjects2 describes any sequence of words, also badly grouped ones, and what
  is recorded for it (C57, C58), and whether the server reaches another name behind the cursor (C61, C68).
* C22-C30, C63-C65. `verdict` says when a use is fine, undefined or defined elsewhere; linting is proved
  to report exactly that, and through `did_open`/`did_save`.
* C31-C37, C66-C73. Declarative descriptions of answers (latest visible declaration, and so on).
* C38-C41, C74, C75. String-level specification of extensions, precedence list, expected index.
* C42-C48, C76, C77. Invariants over all executions: conservation of requests and replies, order,
  bounded queues, timers, exact list of stuck states.
* C49-C54, C78-C84. u32 arithmetic with wrapping, folds over captures.
* C85. Invariant of all executions: every stored text has a tree that fits it, hence no slice is out of
  bounds; every arithmetic step is in range.
* C86-C91. An editor is a list of user actions; what it sends follows from the announced capabilities as
  in LSP 3.17. Induction over histories, counting of messages over executions.
* C111-C113. The reading of values is shown equivalent to a relation over the entries of a map; composed with
  the theorems about indexing. Documents of unknown types: invariant of all sessions.
* C114, C115. Where the nodes of a tree lie (`well_placed`: children in order and inside their parent, names and
  opening brackets without parts and not empty, 32-bit places) gives the order of all names and the extents of
  definitions; with it the three visibility rules (diagnostics, goto, hover) are compared. That parsers build such
  trees is an assumption of these theorems, visible in their statements.
* C116. Replaying the messages a session took: the tree and text of a document are those of the editor (C86), its
  definitions those at the last opening or saving. Assumes (`conveys`) that the tree of the two texts concerned does
  not depend on the old tree given to the parser.
* C117, C118. With the cursor between the quotes of a reference no word of an expression is under it (`between`), so
  goto and completion fall through to the references; the path goto looks up equals the one the diagnostics look up
  when no segment of the name is empty.
* C121, C122. The trace of a session at rest splits at the last reading of the template. What is published later is
  about other documents. The references travel in code-action messages: the messages put on the channel when the
  reading was taken are a prefix of those for the diagnostics handed over before it, so the message about this
  reading is processed after it, and no later one mentions the document.
* C123. Two readings are related word by word (`tpl_like`, `uses_like`, `refs_like`) by an order-keeping map of
  positions and an injective map of names. The counting of C103 commutes with both, so the definitions are related;
  the verdict on a use only compares positions and names, so the verdicts are equal. `dc_until = 0:0`, which the linter
  takes for no end at all, does not occur in a tree whose words are not empty (`conveyed_until`).
* C124. `loading` says which strings load a template (a call of `render_jinja` or `get_template`, directly or as a
  method, and the first string among its arguments). The loop over the matches keeps the last template that starts
  before the cursor, so `templates_at` shows that the strings of all other calls come before it or behind the cursor
  (`first_in_line`). This hypothesis also makes the result independent of the moment at which tree-sitter reports a
  match of a pattern that ends in a repeated step, the one place where the order of the model's matches could differ.
  The language of the queries and of the parser is that of the configuration in every state a session reaches
  (`replay_spoken`), and the tree of a backend file is that of the editor's text (`replay_code`).
* C125. `unloaded F` says which loaded templates were missing on the disk `F`. A step that reads the code stores its
  references (`backend_saved`) and hands the reports to the diagnostics task (`refresh_code`); as in C121 nothing the
  server does later touches them until the next reading.
* C126. `names_known` follows the names of a code file through the session: they are those of its last reading.
  `supplies` says with C107/C108 which names these are; the answers then follow from C117/C119 (hover, goto,
  completion) and C121 (hint), where the names of other files are parameters.
* C127. What a reading stores of a template is a function of its tree (`taken_from`), except that a template with
  a syntax error that was never read without one stays unknown: hence `analysed`. The handlers of requests read only
  a part of the state (`part`); the parts of two such sessions are the same up to the order of the hash maps, so
  the lemmas of C27 apply. `keyed`: no document is stored twice.
* C128. As C116, with the completion lemmas of C20/C34/C59 in place of those for gaps. That no word behind a name
  begins before its end follows from the tree (`words_after`); only a word that begins exactly at the cursor has to
  be excluded (`none_at`).
* C129. A simulation: the run with the questions is followed, action by action, by the run without them; the
  server without them is idle while a question is answered. Fewer messages are queued, so no send blocks. The answer
  given to a chosen request says whether it started the timer of a missing template, so the hypothesis is on answers.
* C130. All files are read before the first is checked, so the names of other files are those of the whole
  workspace (`written`, over the files on the disk and their trees); C40 says what is stored, C121 what
  is on the screen. Code is read but not checked: only trees of templates are gone through.
* C131. What is stored of the other files is what was stored at the indexing (`only`, `others_written`), and that is
  what their trees say (`written_at`); the rest is C116 and C126 with these names.
* C132. C121 leaves open which names the server knows; after an indexing they are those of `at_hand`
  (`names_at_hand`). Settings and flags are only changed by indexing (`modes`).
* C133, C134. `stands` says which text of a file counts; `vars_stand` shows that the variables stored for
  every file are those written in it. Files unread since the indexing keep theirs (`replay_vars`), files
  read since have those of their last reading (`template_known`, `names_known`).
* C135. `ls_ignore` and the configuration are set at the indexing and by nothing else (`indexed_settings`); with
  it set a reading hands over exactly `missing_reports`, whatever variables are stored (`refresh_hidden`).
* C136. C125 with the settings of `indexed_settings` (`settings_hold`).
* C137. What is remembered of a reading are its missing references, hidden names or not (`reading_any`); the rest
  is the proof of C122.
* C138. C117 and C124 with the settings of `indexed_settings` (`settings_then`).
* C139. A template tree is added by an indexing and by did_open only, and never removed by anything else
  (`step_known`, for any oracle); so the keys of the trees are the templates of `known_template` (`all_known`).
* C93-C97. Whatever the queries yield, the state collected from them only holds places of captures
  (`sourced`); the derived order of `Identifier` is a total order, so maxima do not depend on the list's
  order.
* C98-C101. SpecAccept says what an editor does with an accepted item (LSP 3.17: which edit, which range,
  no colliding edits, columns behind the end of a line) on the text of the document. The lists of Jinja's
  names are copied from the Jinja 3.1 documentation, the lists of documented names from the file names in
  the repository.

* C103-C110. The queries are evaluated on syntax trees (`ts_with parse edit`, parsing is any function to
  trees). `depicts` reads a template, its expressions and its references off a tree without mentioning
  queries; the streams of the earlier groups are proved to be what the queries find (`parsed`). For Rust
  and Python the names and template references are described by shapes of subtrees, and opening a file is
  proved to remember and report exactly these.

## 4. Trusted base

1. **Coq's kernel** (8.16.1), its VM for `vm_compute` in examples and witnesses.
2. **Axioms: none.** `Print Assumptions` says "Closed under the global context" for every theorem named
   in MANIFEST.json. The library context loaded with `lia` contains seven primitives of
   `Coq.ssr.ssrunder` (`Under_rel` and friends, sealed by a module type of the standard library); no
   theorem depends on them.
3. **The model is a faithful reading of the code.** Nothing checks this mechanically; the citations make
   it reviewable. Known simplifications are in section 5.
4. **Models of library behaviour** used as definitions:
   * ropey 1.6.1: `line_to_byte`, `len_lines`, `remove`, `insert`, `write_to`, with all line breaks ropey
     knows by default; `remove`/`insert` panic out of bounds;
   * `str`/`Path`: `split`, `replace`, `contains`, `starts_with`, `extension`, `PathBuf::push`, `parent`;
   * `Node::utf8_text`: slices by byte range (panics out of range), validates UTF-8;
   * query evaluation (`matches` in MQueries, used by C103-C110, C114-C118 only): patterns match children in order,
     greedy repetition, predicates tested afterwards, order of reports as the repository's tests imply.
     Not relied upon: the order in which the patterns about `ERROR` nodes are reported;
   * serde's derive, `serde_json::from_value` and `toml`: which values a struct accepts (MSettings, C111 and
     C112 only): unknown keys ignored, missing `Option` is `None`, structs also as arrays;
   * VS Code (MExtension, C120 only): `getConfiguration` merges declared defaults with the user's values; without a
     `configurationSection` changed settings are not announced;
   * tokio: bounded mpsc (send waits when full), oneshot (dropping the sender answers with null),
     `JoinHandle::abort`, a panic ends the task and drops its receiver.
5. **Hypotheses about the outside, each visible in the theorems that use it:**
   * `parse_total`: the parser returns a tree (tree-sitter fails only without a language, on cancellation
     or timeout);
   * `captures_of`, `cap_pieces`, `cap_stmt`, record `parsed`: the capture streams tree-sitter yields for
     a template without syntax errors. They follow the queries in `search/queries.rs` and the order in
     which a query cursor reports matches. The grammar is not in the repository, so this is read off the
     queries and the repository's own tests, which `ExRepo.v` replays in the model. They also settle the
     order of the two captures of a dot (pipe, then dot); theorems hold for either order, witnesses use
     that one. Theorems over arbitrary streams do not need any of this;
   * `parser_contract`: what tree-sitter documents about incremental parsing, at byte level only
     (a fresh parse fits its text; a correctly edited tree may be reused; nodes of a fitting tree lie
     inside the text). Nothing is promised for wrong old trees;
   * `disk_ok`, `rooted`: files hold Unicode text, resolving a path keeps the kind of file and gives an
     absolute path;
   * `urls_ok`, `linkable`, and in C47 that parsing returns the URL that was parsed;
   * `distinct_nodes`: node ids (addresses) are distinct and not zero.

## 5. What is modelled and what is not

Modelled: every function of `jinja-lsp-queries/src` (except tests), of `lsp_files.rs`, `config.rs`,
`channels/*.rs`, the handlers of `backend.rs`, and of `jinja-lsp-nodejs/src/lib.rs`; of the VS Code extension
(`editors/code`) the settings it sends.

Not modelled, or simplified:

* tree-sitter's parsing, grammars, parsing of JSON and TOML texts, LSP deserialisation, HTTP framing:
  oracle results or typed messages (the step from a parsed value to the configuration is modelled, C111). Query evaluation is an oracle for C01-C102 and modelled for C103-C110, C114-C128, C130-C139 (C127, C129 and C130_code_unchecked hold for any oracle),
  whose results are conditional on the trees the parser yields (the grammars are not in the repository).
* Evaluating the predicates of a query (`#match?`, `#eq?`) reads the text of nodes and, like `utf8_text`,
  would panic for a tree that does not fit its text. The oracle `t_captures` never panics, so for such trees
  (C56, C85) the code may crash earlier than the model. Theorems that claim the absence of crashes are about
  trees that fit.
* The reply to `initialize` is a token (`RInit`); MBackend has the fields of the capability record that
  decide what a client may send, without their nesting.
* Documentation texts of filters and tests: names and order only. Snippets: labels, details, inserted texts.
* Wall-clock time: a timer may fire at any moment after it was set (a sleep of 200 ms or 1.4 s is "later").
* Log messages are effects without content that matters; sending them never blocks or fails.
* `backend.rs`: a handler that waits for room in the channel is an action that is not enabled; which of
  several waiting handlers goes first is arbitrary (tokio is fair, so this is an over-approximation).
* A client that cancels a request (drops the receiver) is not modelled.
* `usize` is 64 bits wide; additions of `usize` are not checked for overflow (texts are far smaller).
* Symbolic links are not represented apart from what `f_canon` returns.
* `Display`, `Debug`, `Serialize` implementations, except the diagnostic messages.

## 6. Findings (properties that are false of the code)

| | finding |
|---|---|
| C02, C04, C05 | UTF-16 columns are used as byte/char offsets: wrong edits, crashes, wrong edit descriptions |
| C07 | a change without range is ignored |
| C12, C13, C15, C55 | with if/else a loop variable outlives its loop; a block `set` ends the scope of the enclosing loop; right-hand names are recorded; a `set` in an `if` ends with the `if` |
| C14 | second loop targets are never recorded |
| C26, C63 | goto and lint resolve absolute names differently; `..` escapes the directory |
| C29 | a file with a syntax error reports every name after it |
| C30 | imports define nothing |
| C35 | template completion depends on the directory's name occurring once in the URI |
| C37, C71 | actions missing at some cursor positions; created URI is not the missing file |
| C41 | reset replaces unsaved text by the file on disk |
| C44 | two deadlocks when the server's queue is full |
| C45, C46 | one debounce timer for all documents loses refreshes; re-indexing loses the handle |
| C47 | after re-indexing, code actions and published diagnostics disagree |
| C53, C83, C84 | error nodes become segments; names lose quotes |
| C56, C85 | reopening a document reuses its old tree unedited: stale tree, crash |
| C57-C62 | attributes of built-ins go to the wrong name, `is` affects later expressions, wrong prefixes and ranges for completion, tests and partly typed filters not offered |
| C65 | globals such as `range` are reported as undefined |
| C67-C69, C72, C73 | several navigation answers disagree with linting |
| C75 | paths with reserved characters get two entries |
| C78-C82 | Node binding: descriptions lost, goto panics, deletion by substring, stale Python tree, no hints for partly typed names |
| C86, C87 | `open_close` is not announced, so an obedient editor never opens a document; closing is ignored |
| C88, C89 | the offered command `warn` does nothing; a clone forgets that the backend is Python |
| C92 | names bound in a `with` list after an inline conditional are not recorded |
| C91 | diagnostics are not refreshed when another document changes |
| C93, C95 | at 0:0 of every template filters are offered; variables are offered in front of `{{`; goto at the start of a file beginning with `extends` opens the template directory |
| C96 | without an index, references are looked up in the working directory |
| C97 | completion describes a name by its first visible definition, hover by its last |
| C98-C100 | snippets overwrite a character and insert placeholders literally; Visual Studio Code inserts the label; its additional edits collide with the main edit; a template opened under an escaped URI is offered under a name that is then reported |
| C101 | 17 filters and 5 tests of Jinja and four documented filters are unknown to hover and completion |
| C104 | `endcall` ends the innermost loop or conditional: its variables are then reported |
| C105 | templates included with `ignore missing` are reported |
| C106 | `with context` is taken for an opened `with` block: names stay known to the end of the file |
| C107-C109 | identifiers of every Rust macro are taken for names handed to templates; names handed to `get_template(..).render(..)` are not; `render_template` names no template |
| C110 | in Python code a hinted name without dots is never linked; `a.b().c` is linked to the hint `a.b.c` |
| C111, C112 | settings that leave out a field are dropped as a whole; settings that are not understood still re-index, which loses unsaved edits |
| C113 | `.jinja2` files, for which the README attaches the server, get no service |
| C116 | between an edit and the next refresh goto leads to where a definition was before the edit |
| C119 | after a pipe or a single quote editors do not ask for completions: they are not trigger characters |
| C120 | in Visual Studio Code configuration files are never looked at: the extension always sends its defaults |
| C102 | behind an incomplete statement no snippets are offered in a second one |

## 7. Testing the theorems

Two kinds of wrong programs are tried in copies outside this repository: hand-written realistic bugs
(logged in `seeded/LOG.jsonl` with the theorems that fail), and mechanically generated mutants of every
model definition (operator, constant, branch and argument changes). Survivors are either shown to be
equivalent or lead to tightened theorems, which the log records.

`ExRepo.v` goes the other way: it feeds the model with the sources of the repository's own tests
(`search/test_queries.rs`, except the cases with syntax errors) and checks that the model gives the
results those tests expect of the code.
