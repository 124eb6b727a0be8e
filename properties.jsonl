{"id": "C01", "title": "Graph edges are symmetric and closed", "statement": "After any sequence of public graph operations starting from the empty graph, every listed parent/child is a node of the graph, and b occurs among the children of a exactly as many times as a occurs among the parents of b.", "quantifier": "every finite sequence of add_file / remove_file / set_children calls with arbitrary arguments, including calls that raise", "why_tests_cant": "needs induction over unbounded operation histories", "anchors": [{"file": "vanillaplusjs/build/graph.py", "symbols": ["FileDependencyGraph.add_file", "FileDependencyGraph.remove_file", "FileDependencyGraph.set_children"]}]}
{"id": "C02", "title": "Failed graph operations leave the graph untouched", "statement": "Whenever add_file, remove_file or set_children raises, the graph afterwards is exactly the graph before the call, and the call raises exactly in the documented situations.", "quantifier": "every reachable graph and every argument", "why_tests_cant": "atomicity must hold at every raise site for every graph", "anchors": [{"file": "vanillaplusjs/build/graph.py", "symbols": ["FileDependencyGraph.add_file", "FileDependencyGraph.remove_file", "FileDependencyGraph.set_children"]}]}
{"id": "C03", "title": "Cycle-preventing operations keep the graph acyclic", "statement": "If only add_file, remove_file and set_children with prevent_cycles=True are used, the dependency relation never contains a cycle, and set_children rejects an update exactly when the updated graph would have a cycle through the file being updated.", "quantifier": "every operation history and every argument list", "why_tests_cant": "cycles can have any length, so no finite suite covers them", "anchors": [{"file": "vanillaplusjs/build/graph.py", "symbols": ["FileDependencyGraph.set_children", "FileDependencyGraph.check_nested_relationship"]}]}
{"id": "C04", "title": "Nested relationship query decides reachability", "statement": "check_nested_relationship(a,b) always terminates, also on cyclic graphs, and answers child / parent / cyclic / unrelated exactly according to whether b reaches a and a reaches b along edges of any length; it raises exactly when a = b or one of them is not in the graph.", "quantifier": "every closed graph (cyclic or not), every pair of paths", "why_tests_cant": "reachability over graphs of unbounded size", "anchors": [{"file": "vanillaplusjs/build/graph.py", "symbols": ["FileDependencyGraph.check_nested_relationship"]}]}
{"id": "C05", "title": "Direct relationship query matches the edge sets", "statement": "check_direct_relationship, get_parents and get_children report exactly the edges established by the operation history (an edge a->b is present iff the last add/set on a listed b and neither was removed since).", "quantifier": "every operation history", "why_tests_cant": "history property", "anchors": [{"file": "vanillaplusjs/build/graph.py", "symbols": ["FileDependencyGraph.check_direct_relationship", "FileDependencyGraph.get_parents", "FileDependencyGraph.get_children"]}]}
{"id": "C06", "title": "Stored graphs load back equal", "statement": "Storing any graph as JSON and loading the text back gives a graph equal to the original (same nodes, metadata, ordered parents and children), including cyclic graphs and arbitrary unicode paths.", "quantifier": "every closed graph, every path string", "why_tests_cant": "unbounded graph shapes and escape combinations", "anchors": [{"file": "vanillaplusjs/build/graph.py", "symbols": ["FileDependencyGraph.store", "FileDependencyGraph.load"]}]}
{"id": "C07", "title": "Graph equality is structural equality", "statement": "Graph == terminates on cyclic graphs and is True exactly when both graphs have the same paths and, for each path, the same metadata and the same ordered parent and child lists; in particular it is an equivalence.", "quantifier": "every pair of closed graphs", "why_tests_cant": "the memoised recursion over cycles has unboundedly many shapes", "anchors": [{"file": "vanillaplusjs/build/graph.py", "symbols": ["FileDependencyGraphNode.__eq__", "FileDependencyGraph.__eq__"]}]}
{"id": "C08", "title": "Cold build classifies every file exactly once", "statement": "A cold build partitions the files: changed = in the old graph and on disk with a different signature, added = on disk and not in the old graph, deleted = in the old graph and not on disk; the three sets are disjoint and unchanged files are in none.", "quantifier": "every old graph and every directory listing", "why_tests_cant": "all pairs of graphs and file systems", "anchors": [{"file": "vanillaplusjs/build/cold_incremental_rebuild.py", "symbols": ["cold_incremental_rebuild"]}]}
{"id": "C09", "title": "Everything downstream of a change is rebuilt", "statement": "The set of files rebuilt is exactly the set of non-deleted files that are scanned, or reach a scanned or deleted file through old dependency or placeholder edges of any length; the computation terminates on any graph.", "quantifier": "all graphs, all change sets", "why_tests_cant": "transitive closure over unbounded graphs", "anchors": [{"file": "vanillaplusjs/build/hot_incremental_rebuild.py", "symbols": ["hot_incremental_rebuild"]}]}
{"id": "C10", "title": "No file is built before its dependencies", "statement": "In every schedule of the worker pool, when a file's build starts, every dependency of it that is part of this rebuild has already finished, and every file to rebuild is built exactly once.", "quantifier": "every schedule (order in which pending builds finish), every dependency graph", "why_tests_cant": "nondeterministic interleavings", "anchors": [{"file": "vanillaplusjs/build/hot_incremental_rebuild.py", "symbols": ["hot_incremental_rebuild", "get_file_depends_on"]}]}
{"id": "C11", "title": "No two concurrent builds produce the same dirty output", "statement": "At any point of any schedule, two simultaneously pending builds never both expect to create the same dirtied output or artifact.", "quantifier": "every schedule", "why_tests_cant": "race condition", "anchors": [{"file": "vanillaplusjs/build/hot_incremental_rebuild.py", "symbols": ["hot_incremental_rebuild", "get_file_creates"]}]}
{"id": "C12", "title": "The scheduler never hangs and reports cycles correctly", "statement": "Every schedule terminates; if the builders produce what was predicted it ends with CyclicDependencyException exactly when the dependency relation restricted to the files to rebuild has a cycle, and otherwise builds everything. (The unconditional claim is refuted: an output that was predicted but not produced blocks its other producer forever and is reported as a cycle.)", "quantifier": "every schedule and dependency relation", "why_tests_cant": "liveness over all schedules", "anchors": [{"file": "vanillaplusjs/build/hot_incremental_rebuild.py", "symbols": ["hot_incremental_rebuild"]}]}
{"id": "C13", "title": "Incremental build equals a clean build", "statement": "If before the rebuild every recorded output is what its builder would produce now, then after a successful incremental rebuild of the changed/added/deleted files the same holds for the new sources: re-running any builder would change nothing, and the result equals that of a build from scratch.", "quantifier": "every old consistent state, change set, schedule and builder that reads only its declared inputs", "why_tests_cant": "quantifies over project histories and schedules", "anchors": [{"file": "vanillaplusjs/build/hot_incremental_rebuild.py", "symbols": ["hot_incremental_rebuild"]}, {"file": "vanillaplusjs/build/cold_incremental_rebuild.py", "symbols": ["cold_incremental_rebuild"]}]}
{"id": "C14", "title": "A successful build never loses outputs of files that were not rebuilt", "statement": "After a successful rebuild every output recorded in the output graph exists on disk. (Refuted in general: an output shared by two inputs is deleted when one of them is changed so as not to produce it; proved when every producer of a dirtied output is itself rebuilt.)", "quantifier": "every output graph and change set", "why_tests_cant": "sharing patterns are unbounded", "anchors": [{"file": "vanillaplusjs/build/hot_incremental_rebuild.py", "symbols": ["hot_incremental_rebuild"]}]}
{"id": "C15", "title": "Stale outputs are removed", "statement": "After a successful rebuild no output file that was recorded for a rebuilt or deleted input survives unless some rebuilt file produced or reused it, and outputs of untouched files are not modified.", "quantifier": "every state and change set", "why_tests_cant": "needs all shapes of output graph", "anchors": [{"file": "vanillaplusjs/build/hot_incremental_rebuild.py", "symbols": ["hot_incremental_rebuild"]}]}
{"id": "C16", "title": "Crash points of the build state writes", "statement": "After a crash at any point between the writes of the mode file, outputs and three graph files, the next build still regenerates everything that is out of date. (Refuted: constants mode is recorded before the constants are rebuilt; dependency graph stored without the output graph.)", "quantifier": "every crash point", "why_tests_cant": "crash points cannot be enumerated by unit tests", "anchors": [{"file": "vanillaplusjs/build/hot_incremental_rebuild.py", "symbols": ["hot_incremental_rebuild"]}]}
{"id": "C17", "title": "External file integrity", "statement": "An external file at its destination is only ever replaced by content that matches the configured integrity; a failed download or digest mismatch leaves the previous content in place, at every crash point the destination holds the old content, nothing, or verified content.", "quantifier": "every file content, server response, crash point", "why_tests_cant": "adversarial server and crash points", "anchors": [{"file": "vanillaplusjs/build/cold_incremental_rebuild.py", "symbols": ["handle_external_file", "ensure_integrity"]}]}
{"id": "C18", "title": "External file bookkeeping converges", "statement": "After a successful check, every configured external file has the configured integrity and a second check with an unchanged configuration neither fails nor downloads. (Refuted: removing an external file from the configuration deletes it but keeps it in the state file, so the next build raises FileNotFoundError.)", "quantifier": "every history of configurations", "why_tests_cant": "history property", "anchors": [{"file": "vanillaplusjs/build/cold_incremental_rebuild.py", "symbols": ["check_external_files", "is_external_file_skippable"]}]}
{"id": "C19", "title": "Peekable reader is a faithful view of the text", "statement": "For any sequence of read(n)/peek(n) calls on the peekable reader, reads return consecutive pieces of the underlying text, peeks do not consume, and concatenating the pieces gives a prefix of the text.", "quantifier": "every text, every sequence of read/peek sizes", "why_tests_cant": "unbounded call histories", "anchors": [{"file": "vanillaplusjs/build/ioutil.py", "symbols": ["PeekableTextIO.read", "PeekableTextIO.peek"]}]}
{"id": "C20", "title": "Preprocessing reader equals preprocess-then-read", "statement": "On text without carriage returns, the preprocessing reader behaves exactly like a plain reader over the text with form feeds and surrogates replaced. (With raw CRLF the peek is refuted: it reports end of input on a CRLF.)", "quantifier": "every text, every sequence of calls", "why_tests_cant": "unbounded call histories", "anchors": [{"file": "vanillaplusjs/build/ioutil.py", "symbols": ["PreprocessedTextIO.read", "PreprocessedTextIO.peek"]}]}
{"id": "C21", "title": "CSS tokenizer terminates", "statement": "The CSS tokenizer always reaches the end of any stylesheet: every iteration consumes at least one character, so it either yields an eof token last or raises a Python exception.", "quantifier": "every input text", "why_tests_cant": "all texts", "anchors": [{"file": "vanillaplusjs/build/css/tokenizer.py", "symbols": ["tokenize"]}]}
{"id": "C22", "title": "CSS tokenizer round trip on well-formed tokens", "statement": "Serializing a list of well-formed, separable tokens and tokenizing the text gives the same tokens back.", "quantifier": "every list of well-formed tokens", "why_tests_cant": "unbounded token lists", "anchors": [{"file": "vanillaplusjs/build/css/tokenizer.py", "symbols": ["tokenize"]}, {"file": "vanillaplusjs/build/css/serializer.py", "symbols": ["serialize"]}]}
{"id": "C23", "title": "CSS string values survive processing", "statement": "A string token whose value is printable ASCII is read back with the same value after serialization. (Refuted outside ASCII and for newline: the escape has no terminator.)", "quantifier": "every string value", "why_tests_cant": "all strings", "anchors": [{"file": "vanillaplusjs/build/css/serializer.py", "symbols": ["serialize_string", "serialize_string_auto_quote"]}]}
{"id": "C24", "title": "Token pipeline without manipulators is the identity", "statement": "A builder whose manipulators never mark outputs exactly its input tokens in order; a builder never drops, duplicates or reorders tokens other than those inside a mark, for every manipulator.", "quantifier": "every token stream, every manipulator behaviour", "why_tests_cant": "quantifies over manipulators", "anchors": [{"file": "vanillaplusjs/build/css/builder.py", "symbols": ["CSSBuilder.handle_token"]}, {"file": "vanillaplusjs/build/js/builder.py", "symbols": ["JSBuilder.handle_token"]}, {"file": "vanillaplusjs/build/html/builder.py", "symbols": ["HTMLBuilder.handle_token"]}]}
{"id": "C25", "title": "Versioned URLs are stable", "statement": "Version stamping of css urls terminates, touches only root-relative urls without a query, keeps the original url as a prefix and is idempotent.", "quantifier": "every token stream", "why_tests_cant": "all streams", "anchors": [{"file": "vanillaplusjs/build/css/manips/version_urls.py", "symbols": ["VersionURLsManipulator"]}]}
{"id": "C26", "title": "CSS imports are replaced by the fully resolved block", "statement": "Resolving an import yields a block without any remaining import comments, equal to the recursive expansion of the imported rule, independently of the order in which ready rules are resolved; set_rule keeps its bookkeeping consistent.", "quantifier": "every set of rules with acyclic references, every resolution order", "why_tests_cant": "recursive expansion, iteration order of a set", "anchors": [{"file": "vanillaplusjs/build/css/manips/nest.py", "symbols": ["ReferencableRules.set_rule", "NestManipulator._resolve"]}]}
{"id": "C27", "title": "JS tokenizer terminates and is lossless on ordinary code", "statement": "Tokenizing any JS text terminates without an exception, and its tokens are the pieces of the text prescribed by the lexical rules; for text without strings, backslashes, comments and unusual line terminators, concatenating the serialized tokens gives the text back; for text whose words have no escapes and whose strings are printable ASCII, tokenizing the output gives the same tokens up to comment text. (Refuted for non-ASCII strings, template literals with two slashes, hexadecimal escapes and line continuations.)", "quantifier": "every text", "why_tests_cant": "all texts", "anchors": [{"file": "vanillaplusjs/build/js/tokenizer.py", "symbols": ["tokenize"]}, {"file": "vanillaplusjs/build/js/serializer.py", "symbols": ["serialize"]}]}
{"id": "C28", "title": "JS comments cannot break out", "statement": "However a comment's text looks, its serialization contains no premature end-of-comment, so no comment text ever becomes code.", "quantifier": "every comment text", "why_tests_cant": "all strings", "anchors": [{"file": "vanillaplusjs/build/js/serializer.py", "symbols": ["serialize"]}]}
{"id": "C29", "title": "Type hint lines are removed and nothing else", "statement": "Lines carrying an @@type-hint comment are turned into a comment with the same text and all other tokens are passed through unchanged; processing terminates.", "quantifier": "every token stream", "why_tests_cant": "all streams", "anchors": [{"file": "vanillaplusjs/build/js/manips/type_hints.py", "symbols": ["TypeHintsManipulator"]}]}
{"id": "C30", "title": "Import rewriting terminates and touches only import statements", "statement": "The import manipulator terminates on every script; it appends the version query only to the string of an import statement whose path is local (starts with /, ./ or ../) and has no query or fragment, making the path rooted; an import it does not understand gets a comment; every other token is unchanged, and the files reported as dependencies are exactly those imported.", "quantifier": "every token stream", "why_tests_cant": "all streams", "anchors": [{"file": "vanillaplusjs/build/js/manips/hash_imports.py", "symbols": ["HashImportsManipulator"]}]}
{"id": "C31", "title": "Identifier tables lookup equals set membership", "statement": "is_id_start / is_id_continue return True exactly for the code points in the tables' exact set or ranges (the binary search is exact).", "quantifier": "every code point, every sorted table", "why_tests_cant": "all code points", "anchors": [{"file": "vanillaplusjs/build/js/unicode_derived.py", "symbols": ["is_match"]}]}
{"id": "C32", "title": "Colour hex round trip", "statement": "Every colour prints as a 7 character hex string that parses back to the same colour, and parsing accepts exactly the documented forms.", "quantifier": "every colour / every string", "why_tests_cant": "16M colours and all strings", "anchors": [{"file": "vanillaplusjs/build/css/manips/icons/color.py", "symbols": ["Color"]}]}
{"id": "C33", "title": "Output paths never collide", "statement": "Two different source files map to different output paths under out/www, and no copied file maps outside out/www. (Refuted for copied files: src/publicX/y and src/public//y style prefixes share targets.)", "quantifier": "every pair of relative paths", "why_tests_cant": "all strings", "anchors": [{"file": "vanillaplusjs/build/handlers/copy.py", "symbols": ["get_target_path"]}, {"file": "vanillaplusjs/build/handlers/hash.py", "symbols": ["get_target_path"]}]}
{"id": "C34", "title": "Scan and build agree", "statement": "For the copy/hash handlers, whatever a build produces or reuses is exactly what the scan predicted, for every file and every pre-existing output.", "quantifier": "every path and file system state", "why_tests_cant": "all states", "anchors": [{"file": "vanillaplusjs/build/handlers/copy_and_hash.py", "symbols": ["scan_file", "build_file"]}]}
{"id": "C35", "title": "JS constants precedence", "statement": "The generated constants file binds exactly the keys of shared and the current mode, with the mode's value winning, independent of iteration order; env:// values are substituted.", "quantifier": "every constants configuration", "why_tests_cant": "all dictionaries", "anchors": [{"file": "vanillaplusjs/build/handlers/js_constants.py", "symbols": ["build_file"]}, {"file": "vanillaplusjs/build/build_context.py", "symbols": ["load_js_constants", "shallow_replace_envvars"]}]}
{"id": "C36", "title": "Cover-fit rectangle lies inside the source image", "statement": "For all image sizes below 2^50 and all crop percentages in [0,1], the computed rectangle lies within the source (after pre-crops), one side equals the full available side and the other matches the requested proportions to within a pixel, the cropped part is shared between the two sides as asked, and an image that is large enough is never enlarged. (With pre-crops the rectangle may be empty: refuted.)", "quantifier": "all sizes, percentages and pre-crops", "why_tests_cant": "floating-point rounding for all sizes", "anchors": [{"file": "vanillaplusjs/build/html/manips/images/cover_fit.py", "symbols": ["cover_fit"]}]}
{"id": "C37", "title": "Exported sizes", "statement": "The list of exported sizes starts with exactly the requested size, is nondecreasing, never exceeds the source, keeps the proportions up to a pixel, contains every allowed resolution 1 + i*step when the steps are exact decimals, and the enumeration ends when the step is at least 10^-27 times the maximum resolution. (Termination for every positive step accepted by the settings loader is refuted; sizes can repeat; a step written as a float may lose a pixel or a size.)", "quantifier": "all sizes and settings", "why_tests_cant": "all numbers", "anchors": [{"file": "vanillaplusjs/build/html/manips/images/resolutions.py", "symbols": ["yield_resolutions", "yield_sizes"]}, {"file": "vanillaplusjs/build/html/manips/images/settings.py", "symbols": ["load_image_settings"]}]}
{"id": "C38", "title": "The chosen export is optimal", "statement": "Whatever the order in which the exports finish or are listed, for each size and format the file kept (in artifacts and in out) is the encoding of an export that applies to the size and is no worse (size per preference, with the minimum unit size) than any other that applies, for positive preferences; the trial files are gone, no other file changes, and the files reported and recorded are exactly those kept. (Negative preferences and repeated sizes are refuted.)", "quantifier": "all formats, exports, sizes, preferences, encoders, completion orders and files", "why_tests_cant": "all orders", "anchors": [{"file": "vanillaplusjs/build/html/manips/images/settings.py", "symbols": ["compare", "compare_in_format"]}, {"file": "vanillaplusjs/build/html/manips/images/exporter.py", "symbols": ["export_command"]}]}
{"id": "C39", "title": "Settings hash ignores dictionary order", "statement": "The image settings hash is a 64-bit value that depends only on the settings, not on the order in which formats, exports or arguments are listed; changing any single number in the settings changes it. (That different settings always hash differently is refuted.)", "quantifier": "all settings and orders", "why_tests_cant": "all dictionaries", "anchors": [{"file": "vanillaplusjs/build/html/manips/images/metadata.py", "symbols": ["hash_image_settings", "stable_hash", "hash_str"]}]}
{"id": "C40", "title": "Target reservation gives unique ids", "statement": "In every interleaving of any number of processes, two reservations for the same image never get the same id and ids never repeat. (That two concurrent scans of the same target share an id is refuted.)", "quantifier": "every interleaving, any number of processes", "why_tests_cant": "race", "anchors": [{"file": "vanillaplusjs/build/html/manips/images/metadata.py", "symbols": ["reserve_target", "get_or_reserve_target"]}]}
{"id": "C41", "title": "Template expansion keeps the stack balanced", "statement": "Expanding templates pushes and pops frames in a balanced way: after the template's tokens the variables in scope are exactly those before; a template sees exactly the variables passed to it.", "quantifier": "every template nesting", "why_tests_cant": "unbounded nesting", "anchors": [{"file": "vanillaplusjs/build/html/manips/template.py", "symbols": ["TemplateManipulator"]}]}
{"id": "C42", "title": "Canonical links become absolute once", "statement": "Canonical links without an absolute href get https://host + path, absolute ones are unchanged, and processing terminates (the replacement is never replaced again) unless the page contains none; other attributes are preserved.", "quantifier": "every tag and attribute set", "why_tests_cant": "all attribute maps", "anchors": [{"file": "vanillaplusjs/build/html/manips/link_rel_canonical.py", "symbols": ["LinkRelCanonicalManipulator"]}]}
{"id": "C43", "title": "HTML link hashing is stable", "statement": "Stylesheet/preload/script references that are root-relative without query get the version suffix exactly once, other attributes are preserved. (Preservation is refuted for an href attribute on a script tag.)", "quantifier": "every tag", "why_tests_cant": "all attribute maps", "anchors": [{"file": "vanillaplusjs/build/html/manips/link_hash.py", "symbols": ["LinkHash"]}]}
{"id": "C44", "title": "Watcher never misses or misclassifies a change", "statement": "For every file and every consistent sequence of create/modify/delete/move events since the last build, the next rebuild is told exactly whether the file is added, changed or deleted with respect to the last build. (Refuted when a move overwrites an existing file.)", "quantifier": "every event sequence", "why_tests_cant": "unbounded event histories", "anchors": [{"file": "vanillaplusjs/runners/dev.py", "symbols": ["DevEventHandler"]}]}
{"id": "C45", "title": "A failed watch rebuild is retried", "statement": "After a failed rebuild every pending change is still pending (unless reverted), and no rebuild is attempted until a new event arrives.", "quantifier": "every event sequence and failure pattern", "why_tests_cant": "unbounded histories", "anchors": [{"file": "vanillaplusjs/runners/dev.py", "symbols": ["DevEventHandler.rebuild_if_appropriate"]}]}
{"id": "C46", "title": "Clean removes exactly generated files", "statement": "clean removes out/, artifacts/ and, only if requested, exactly the files recorded as generated placeholders; no other source file is removed.", "quantifier": "every file system and placeholder graph", "why_tests_cant": "all states", "anchors": [{"file": "vanillaplusjs/runners/clean.py", "symbols": ["clean"]}]}
{"id": "C47", "title": "Handler dispatch is total and deterministic", "statement": "Every source file is handled by exactly one handler, chosen the same way for scanning and building.", "quantifier": "every path", "why_tests_cant": "all strings", "anchors": [{"file": "vanillaplusjs/build/scan_file.py", "symbols": ["scan_file"]}, {"file": "vanillaplusjs/build/build_file.py", "symbols": ["build_file"]}]}
{"id": "C48", "title": "Icon tokenizer and command parser terminate", "statement": "Parsing any icon command comment terminates and yields either no command or one whose fields are those written.", "quantifier": "every comment text", "why_tests_cant": "all strings", "anchors": [{"file": "vanillaplusjs/build/css/manips/icons/tokenizer.py", "symbols": ["tokenize"]}, {"file": "vanillaplusjs/build/css/manips/icons/parser.py", "symbols": ["parse_icon_command"]}]}
{"id": "C49", "title": "Placeholders never overwrite user files", "statement": "A placeholder is written only where no file exists, and the placeholder graph relates each placeholder to the file that generated it.", "quantifier": "every file system and scan result", "why_tests_cant": "all states", "anchors": [{"file": "vanillaplusjs/build/hot_incremental_rebuild.py", "symbols": ["hot_incremental_rebuild"]}]}
{"id": "C50", "title": "Outlined data images are deduplicated and numbered", "statement": "Within one stylesheet equal data URIs get the same output file and different ones different files, whatever the order.", "quantifier": "every token stream", "why_tests_cant": "all streams", "anchors": [{"file": "vanillaplusjs/build/css/manips/outline_image_data.py", "symbols": ["OutlineImageDataManipulator"]}]}
{"id": "C51", "title": "Inline scripts and styles are fully outlined", "statement": "Every inline script or style becomes a reference to a numbered generated file containing exactly its text, tokens outside are unchanged. (Refuted: a style tag with attributes raises.)", "quantifier": "every token stream", "why_tests_cant": "all streams", "anchors": [{"file": "vanillaplusjs/build/html/manips/outline.py", "symbols": ["OutlineManipulator"]}]}
{"id": "C52", "title": "What a rebuild records matches what it did", "statement": "After a successful rebuild the stored graphs are again well formed and acyclic; the recorded inputs are exactly the old inputs plus the affected files minus the deleted ones, with the new signature of changed and added files; a rebuilt file records exactly the outputs and the dependencies its build reported (generated files replaced by a producer); a file that was not affected keeps its edges; every new placeholder is recorded under its generator and no old relation between surviving files is lost.", "quantifier": "every old graph state, change set, builder and schedule", "why_tests_cant": "graphs, change sets and schedules are unbounded", "anchors": [{"file": "vanillaplusjs/build/hot_incremental_rebuild.py", "symbols": ["hot_incremental_rebuild"]}]}
{"id": "C53", "title": "A repeated build does nothing", "statement": "After a successful build, a second build in the same mode with no edits in between finds nothing to do: it changes neither the folder nor any recorded graph, and this is the only possible outcome.", "quantifier": "every project, edit set, builder, scanner and schedule of the first build", "why_tests_cant": "all project states and schedules", "anchors": [{"file": "vanillaplusjs/build/cold_incremental_rebuild.py", "symbols": ["cold_incremental_rebuild"]}, {"file": "vanillaplusjs/build/hot_incremental_rebuild.py", "symbols": ["hot_incremental_rebuild"]}]}
{"id": "C54", "title": "Any history of edits and builds in both modes stays correct", "statement": "After any sequence of source edits and completed builds, each in development or production mode, the outputs are those a build of the current sources in the last mode produces and the recorded inputs are exactly the existing source files; switching the mode rebuilds the constants file, and staying in a mode does not rescan an unchanged constants file.", "quantifier": "every history of edits and builds", "why_tests_cant": "unbounded histories", "anchors": [{"file": "vanillaplusjs/build/cold_incremental_rebuild.py", "symbols": ["cold_incremental_rebuild"]}, {"file": "vanillaplusjs/build/hot_incremental_rebuild.py", "symbols": ["hot_incremental_rebuild"]}]}
{"id": "C55", "title": "CSS tokens partition the stylesheet", "statement": "When the CSS tokenizer succeeds, its tokens correspond, in order and without gaps or overlaps, to non-empty pieces of the text, each piece being a spelling of its token under the lexical grammar; a piece without escapes that is not a number, string or url is serialized as it was written.", "quantifier": "every stylesheet", "why_tests_cant": "all texts", "anchors": [{"file": "vanillaplusjs/build/css/tokenizer.py", "symbols": ["tokenize"]}, {"file": "vanillaplusjs/build/css/serializer.py", "symbols": ["serialize"]}]}
{"id": "C56", "title": "The target of an import does not depend on its spelling", "statement": "An import by a relative path that stays below src/public is rewritten to the rooted url of the file it leads to and reports that file as a dependency, exactly as the rooted spelling would, from any script, project folder and working directory.", "quantifier": "every script location, project folder, working directory and relative path", "why_tests_cant": "paths have unbounded depth and spellings", "anchors": [{"file": "vanillaplusjs/build/js/manips/hash_imports.py", "symbols": ["HashImportsManipulator._handle_import"]}]}
{"id": "C57", "title": "Icon commands give the css and the images they ask for", "statement": "In a stylesheet, each icon command is replaced by one rule for every requested size and colour and by the rules of its buttons, and everything else is kept. For each requested colour whose image does not exist, the drawing with its colour replaced is written, with its hash; no other file changes. The build reports as produced exactly the files it created, and reports nothing that the scan did not predict.", "quantifier": "every stylesheet, icon configuration, command and state of the file system", "why_tests_cant": "unbounded combinations of commands, colours, sizes and existing files", "anchors": [{"file": "vanillaplusjs/build/css/manips/icons/manip.py", "symbols": ["IconManipulator", "IconManipulator.start_mark", "IconManipulator.continue_mark"]}]}
{"id": "C58", "title": "Every image named in the css of an icon exists", "statement": "Every url in the css that an icon command generates leads to a file that exists when the build of the stylesheet has finished, together with its hash file.", "quantifier": "every stylesheet, icon configuration, command and state of the file system", "why_tests_cant": "unbounded combinations of commands, colours, buttons and existing files", "anchors": [{"file": "vanillaplusjs/build/css/manips/icons/manip.py", "symbols": ["IconManipulator.continue_mark"]}]}
{"id": "C60", "title": "Scanning a page announces the image files that building it makes", "statement": "For an image command, the dependencies found when scanning the page are the children reported when building it, and every file that the first export produces was announced by the scan. When every configured format has an acceptable export for every size, all that was announced is produced. The files reported exist after the build, with the same contents in artifacts and in out.", "quantifier": "every image command, image settings, sizes, state of the file system and order in which the encoders finish", "why_tests_cant": "unbounded combinations of sizes, formats, encoder results and existing files", "anchors": [{"file": "vanillaplusjs/build/html/manips/images/manip.py", "symbols": ["ImagesManipulator"]}, {"file": "vanillaplusjs/build/html/manips/images/exporter.py", "symbols": ["export_command"]}]}
{"id": "C61", "title": "The picture element offers exactly the exported images", "statement": "The picture element that replaces an image command shows the exported image of the requested size and format, and to a browser its srcset attributes list exactly the exported images of each format, with their widths; a format has a source element exactly when it has images. Without an image of the default format at the requested size the build fails rather than emitting a broken element.", "quantifier": "every image command, image settings and export result", "why_tests_cant": "the srcset text must be read back by the browser's algorithm for every possible list of images", "anchors": [{"file": "vanillaplusjs/build/html/manips/images/manip.py", "symbols": ["ImagesManipulator"]}]}
{"id": "C62", "title": "An image is exported once", "statement": "Building a page again with the metadata and artifacts of an earlier export encodes nothing: the same images are reported, those missing from the output folder are put back from the artifacts, and nothing else changes. If none is missing nothing is reported as produced.", "quantifier": "every earlier export and every later state of the output folder", "why_tests_cant": "unbounded combinations of deleted outputs and earlier exports", "anchors": [{"file": "vanillaplusjs/build/html/manips/images/exporter.py", "symbols": ["export_command"]}, {"file": "vanillaplusjs/build/html/manips/images/metadata.py", "symbols": ["find_existing_image_metadata"]}]}
{"id": "C59", "title": "Image commands mean what they say", "statement": "A comment [IMAGE: path width height cover {arguments}] is read as exactly that image, size, crop arguments and loading mode, and any other text is refused with ValueError. A path is followed from the folder of the page, and one that starts with / from src/public. A comment is a command exactly when it is on one line and the image is public and at least as large as asked; other tokens are left alone. Building a page replaces exactly the commands by their picture elements and reports what the exports report; scanning changes nothing in the page and finds the same images; neither touches a source file. (The documented lazy flag, optional parts and example are refuted.)", "quantifier": "every page, command text, path, project folder and file system", "why_tests_cant": "the command language, the paths and the pages are unbounded", "anchors": [{"file": "vanillaplusjs/build/html/manips/images/command.py", "symbols": ["parse_command", "validate_command", "ImageCommand.source_path_relative_to_root"]}, {"file": "vanillaplusjs/build/html/manips/images/manip.py", "symbols": ["ImagesManipulator"]}]}
{"id": "C63", "title": "images.json becomes a module that tells the truth about images", "statement": "An images.json file is used exactly when it is a json object all entries of which name an image with a size it has room for; otherwise it has no effect (bad json stops the build). Building exports every entry in order and writes a module that is 'export default', a json text and a semicolon, whose keys are exactly the names of the file and whose values give the size, crop settings and exported files of each image; the order of the entries makes no difference, every url is that of a file in the output folder, and the report names the module, its hash and everything the exports report, each once. Scanning and building find the same images and neither touches a source file. (Refuted: that crop arguments are checked, that sizes are numbers, that an existing placeholder or hash is respected or refreshed.)", "quantifier": "every file, image, file system and setting", "why_tests_cant": "the json texts, names and images are unbounded, and the module must parse for all of them", "anchors": [{"file": "vanillaplusjs/build/handlers/image_glue.py", "symbols": ["scan_file", "build_file", "sanity_check_images_json"]}]}
{"id": "C64", "title": "What is recorded about an image is found again", "statement": "metadata.json and placeholder.json, as written, are read back to the same record, for every export and every crop a page can ask for. From an image that was never scanned, through any sequence of scans and builds in any order, with folders listed in any order, and with anything else that leaves the records and the image alone in between: scanning never fails to give a number, a crop and size keeps its number, different ones get different numbers, a build after a scan uses the number announced and produces only what was announced, and a later build finds the record of the first instead of exporting again. (Refuted: that an interrupted write is recovered from: a placeholder cut short anywhere stops every later scan for a new size.)", "quantifier": "every image, setting, crop, file system, history and listing order", "why_tests_cant": "histories are unbounded, the listing order is the file system's, and the records are arbitrary json", "anchors": [{"file": "vanillaplusjs/build/html/manips/images/metadata.py", "symbols": ["store_metadata", "load_metadata", "get_target", "reserve_target", "get_or_reserve_target"]}, {"file": "vanillaplusjs/build/html/manips/images/exporter.py", "symbols": ["export_command"]}]}
{"id": "C65", "title": "Icons use the colours, sizes and buttons that the site declares", "statement": "Whatever rules come before and after it, the first :root rule of the main style sheet gives the colours and sizes for icons: of each --col-x the last declaration that is a colour counts, each --icon-size-x is a size, once, in order of appearance; without the sheet or the rule there are none. Reading it ends and fails only as its tokens do. Button colours in vanillaplusjs.json replace the usual ones, and those of the default button are the default for named buttons. (Refuted: that every colour of a :root rule is known: a value of several tokens or a missing last semicolon ends the reading; further :root rules and selector lists are ignored; without a default button naming any button fails.)", "quantifier": "every style sheet, configuration and file system", "why_tests_cant": "sheets are unbounded: any rules, nesting, comments and declarations around the rule", "anchors": [{"file": "vanillaplusjs/build/css/manips/icons/settings.py", "symbols": ["load_icon_settings"]}]}
{"id": "C66", "title": "A new site builds, and the build uses what the configuration says", "statement": "init changes no existing file, adds only vanillaplusjs.json and a first page, and does nothing the second time. Without a configuration before, build then accepts the new one and uses its settings, whatever files exist (unless the main style sheet cannot be tokenized); the new image settings have an export for every size in every format, a default format among them and a hash. Any configuration written in the documented form is read as exactly the image settings, external files and constants it says; a default format that is not among the formats or a step that is not positive is refused; nothing else is accepted. build stops with a message exactly if the configuration is missing, not an object or of another version, or there are no sources. (Refuted: that running init again, as the message advises, helps with an outdated configuration: it is left as it is.)", "quantifier": "every file system, host, configuration and environment", "why_tests_cant": "configurations and file systems are unbounded", "anchors": [{"file": "vanillaplusjs/runners/init.py", "symbols": ["init"]}, {"file": "vanillaplusjs/runners/build.py", "symbols": ["build"]}, {"file": "vanillaplusjs/build/build_context.py", "symbols": ["load_external_files", "load_js_constants"]}, {"file": "vanillaplusjs/build/html/manips/images/settings.py", "symbols": ["load_image_settings"]}]}
{"id": "C67", "title": "The served folder is what a clean build of the current sources would give", "statement": "For a project of scripts, a constants file, pages without inline scripts, inline stylesheets and images, stylesheets without icons and data images, and files that are copied: after any number of edits, each followed by a completed rebuild, out/www holds for every source below src/public its served form and a hash file with the hash of exactly what is served, and nothing else. Copied files are served as they are; scripts are served with every project import rewritten to the root path of the imported file with the hash of the version of it that is served now. The folder depends on the sources only, so an incremental build equals a clean one. This holds although handlers never rewrite a file that exists and read generated hash files they do not report. (Refuted: if a build is killed and a source edited before the next build, the old output is kept and served.)", "quantifier": "every project of such files, every sequence of edits and completed rebuilds, every schedule of the builds", "why_tests_cant": "histories, projects and schedules are unbounded; a stale hash shows only for particular orders of builds", "anchors": [{"file": "vanillaplusjs/build/hot_incremental_rebuild.py", "symbols": ["hot_incremental_rebuild"]}, {"file": "vanillaplusjs/build/handlers/js.py", "symbols": ["scan_file", "build_file"]}, {"file": "vanillaplusjs/build/handlers/copy.py", "symbols": ["build_file"]}, {"file": "vanillaplusjs/build/handlers/hash.py", "symbols": ["build_file"]}, {"file": "vanillaplusjs/build/handlers/js_constants.py", "symbols": ["build_file"]}]}
{"id": "C68", "title": "After vanillajsplus build the served folder is a clean build of the sources in the mode asked for", "statement": "For a project of scripts, a constants file, pages without inline scripts, inline stylesheets and images, stylesheets without icons and data images, and files that are copied, whose files change signature when their contents change: after every completed 'vanillajsplus build' or 'build --dev', whatever was built or edited before and in whichever modes, the out/www folder is exactly what a clean build of the current sources in the mode of this build gives. The constants served are those of this mode, every script importing them carries the new version, files deleted from the sources are no longer served, every hash file is the hash of what is served, nothing outside the out folder is changed, and building again in the same mode does nothing.", "quantifier": "every project of such files, every sequence of edits and completed builds in either mode, every schedule of the builds, every signature function that detects changes", "why_tests_cant": "histories, projects and schedules are unbounded; whether a mode switch reaches every importing script depends on graphs kept from earlier builds", "anchors": [{"file": "vanillaplusjs/build/cold_incremental_rebuild.py", "symbols": ["cold_incremental_rebuild"]}, {"file": "vanillaplusjs/build/hot_incremental_rebuild.py", "symbols": ["hot_incremental_rebuild"]}, {"file": "vanillaplusjs/build/handlers/js_constants.py", "symbols": ["scan_file", "build_file"]}, {"file": "vanillaplusjs/build/handlers/js.py", "symbols": ["scan_file", "build_file"]}]}
{"id": "C69", "title": "Stylesheets served after a build use the rules and files served now", "statement": "In the projects of C68, after every completed build each stylesheet is served with every import comment replaced by the block of the rule asked for, taken from the stylesheet that is served now for the file named (or from the stylesheet itself), and with every root-relative url without a query extended by the hash of exactly the file served now; its hash file is the hash of the result. So an edit of a picture reaches every stylesheet that uses it, and every stylesheet that imports a rule using it, in one build.", "quantifier": "every project of such files, every sequence of edits and completed builds in either mode, every schedule of the builds, every tokenizer of numbers", "why_tests_cant": "chains of imports and histories of builds are unbounded; a stale hash shows only for particular orders of builds", "anchors": [{"file": "vanillaplusjs/build/handlers/css.py", "symbols": ["scan_file", "build_file"]}, {"file": "vanillaplusjs/build/css/manips/nest.py", "symbols": ["NestManipulator"]}, {"file": "vanillaplusjs/build/css/manips/version_urls.py", "symbols": ["VersionURLsManipulator"]}, {"file": "vanillaplusjs/build/hot_incremental_rebuild.py", "symbols": ["hot_incremental_rebuild"]}]}
{"id": "C70", "title": "Pages served after a build use the templates and files that are there now", "statement": "In the projects of C68, after every completed build each page below src/public is served with every template call replaced by the current contents of the partial, every retrieved variable by its value, every canonical hint by the full address on the host, and every link to a file of the site extended by the hash of exactly the file served now; everything else is unchanged, and its hash file is the hash of the result. So an edit of a partial or of a stylesheet reaches every page that uses it, directly or through other partials, in one build. The partials themselves are not served.", "quantifier": "every project of such files, every sequence of edits and completed builds in either mode, every schedule of the builds, every html parser and serializer", "why_tests_cant": "nesting of templates and histories of builds are unbounded; a stale page shows only for particular edits and orders of builds", "anchors": [{"file": "vanillaplusjs/build/handlers/html.py", "symbols": ["scan_file", "build_file"]}, {"file": "vanillaplusjs/build/html/manips/template.py", "symbols": ["TemplateManipulator"]}, {"file": "vanillaplusjs/build/html/manips/link_hash.py", "symbols": ["LinkHash"]}, {"file": "vanillaplusjs/build/html/manips/link_rel_canonical.py", "symbols": ["LinkRelCanonicalManipulator"]}, {"file": "vanillaplusjs/build/hot_incremental_rebuild.py", "symbols": ["hot_incremental_rebuild"]}]}
{"id": "C71", "title": "Whether a build completes does not depend on the order of the files", "statement": "In the projects of C68 to C70: if a project can be built at all and the scans (for files that are new or edited) and the recorded dependencies (for the other files to build) contained everything the builds reported, then the build command gets to building files for every listing of the sources and then neither fails while it builds files nor while it stores the graphs, whatever the order in which the sources are listed, the files are scheduled and the workers end; at every moment each file that was written has the contents it has after the other run, the command can always go on until all files are built, and the folder, the mode file, the known sources and the recorded dependencies and outputs of each are then the same. The condition holds whenever all files to build are new or edited, the scripts have no type hints and the stylesheets no imports; in particular for every such first build. It also holds for rebuilds in which other files are built again because of a file they depend on, as long as the templates these include were not edited.", "quantifier": "every project of such files, every sequence of edits and completed builds before it, every listing order, every schedule and every moment of it", "why_tests_cant": "the orders of listing, scheduling and completion of the workers grow exponentially and most never show up in tests", "anchors": [{"file": "vanillaplusjs/build/hot_incremental_rebuild.py", "symbols": ["hot_incremental_rebuild", "scan_files"]}, {"file": "vanillaplusjs/build/cold_incremental_rebuild.py", "symbols": ["cold_incremental_rebuild"]}, {"file": "vanillaplusjs/build/build_file.py", "symbols": ["build_file"]}, {"file": "vanillaplusjs/build/scan_file.py", "symbols": ["scan_file"]}]}
{"id": "C72", "title": "The development server starts from any out folder and spares the sources", "statement": "Starting the development server builds the project in development mode; if that raises an exception the out folder is removed and the build is tried once more. Provided the output graph, if it can be read, records only files below out: however both builds go, every file outside the out folder is as before. When the server is started, the first build completed or the site is exactly that of any project just built in development mode from these sources. If the sources can be built at all, scripts have no type hints and stylesheets no imports, then the server is started in every case, whatever out holds; in particular when a build was killed while it stored one of the graphs (the file is a proper prefix), and then the site is that of a first build. A vanillaplusjs.json that exists but is wrong (no JSON, a missing key, wrong settings) always costs the out folder and never starts the server; a missing one changes nothing. False: that the site served is always that of the sources (a damaged output stays when no source was edited), and that the sources are kept whatever the output graph says (one that names a source makes the build delete it).", "quantifier": "every folder: all sources, contents of out, stored graphs (readable, cut off or damaged) and settings; every listing order, schedule and point of failure of both builds", "why_tests_cant": "the state a killed or failed build leaves can be anything; tests start from folders made by completed builds", "anchors": [{"file": "vanillaplusjs/runners/dev.py", "symbols": ["dev"]}, {"file": "vanillaplusjs/runners/build.py", "symbols": ["build"]}, {"file": "vanillaplusjs/build/hot_incremental_rebuild.py", "symbols": ["hot_incremental_rebuild"]}, {"file": "vanillaplusjs/build/graph.py", "symbols": ["FileDependencyGraph.load", "FileDependencyGraph.store"]}]}
{"id": "C73", "title": "A project stays correct through any sequence of builds, server starts and edits", "statement": "A project starts without out folder. From then on, in any order and any number of times: files outside the out folder and vanillaplusjs.json are edited, the build command completes (either mode), the development server is started (including the case where its first build fails and the out folder is removed). Every command starts from what is on disk: the graphs are stored as JSON and loaded again. Then: the stored graphs can always be loaded. A command, completed or failed, changes no file outside the out folder. The site a command leaves depends only on the sources and its mode, and is that of a first build of these sources without out folder. Repeating a build in the same mode has nothing to do: it cannot raise an exception and leaves every file and graph as it is. Restarting the development server after it was started, or after a development build, starts it with the same folder and never removes out. If the sources can be built from scratch, scripts have no type hints and stylesheets no imports, every start of the server ends with the site of a first build.", "quantifier": "every finite sequence of edits, builds and server starts; every listing order and schedule of each build; all sources whose names are as the operating system gives them", "why_tests_cant": "the sequences are unbounded and each build starts from the texts the last one stored; tests run one or two builds in one process", "anchors": [{"file": "vanillaplusjs/runners/build.py", "symbols": ["build"]}, {"file": "vanillaplusjs/runners/dev.py", "symbols": ["dev"]}, {"file": "vanillaplusjs/build/cold_incremental_rebuild.py", "symbols": ["cold_incremental_rebuild"]}, {"file": "vanillaplusjs/build/hot_incremental_rebuild.py", "symbols": ["hot_incremental_rebuild"]}, {"file": "vanillaplusjs/build/graph.py", "symbols": ["FileDependencyGraph.load", "FileDependencyGraph.store"]}]}
{"id": "C74", "title": "The development server serves the current site after every completed rebuild", "statement": "The development server is started in the folder of a project (any history of C73). Then, in any order and any number of times, sources are modified, created, deleted or moved, each edit followed by its event, and the server checks whether to rebuild; a rebuild completes, or fails before it builds any file. Then: each completed rebuild makes the site of a first development build of the sources at that time, and the site stays that one as long as the sources are as they were; it is also the site a build command or a new start of the server makes of the same sources. Until the next completed rebuild visitors get exactly the files of the last one. An edited source is noticed by the first check after the debounce time, unless the last rebuild failed and nothing happened since; without an edit nothing is rebuilt. Unless vanillaplusjs.json is damaged the server never stops with an exception: the graphs load again and every file handed over exists. No rebuild, not even one that fails while it builds, changes a file outside the out folder. If nothing happened since the last completed rebuild, a development build or a restart has nothing to do. A build command in either mode that completes at any moment of the session makes the site of a first build.", "quantifier": "every finite session of edits, checks, completed and failed rebuilds after every project history; all times; every iteration order of the sets, and every schedule of each rebuild", "why_tests_cant": "sessions are unbounded, the batches depend on all events since the last completed rebuild, and the rebuilds on the stored graphs; tests of the event handler use mocks and one event", "anchors": [{"file": "vanillaplusjs/runners/dev.py", "symbols": ["dev", "DevEventHandler", "DevEventHandler.rebuild_if_appropriate"]}, {"file": "vanillaplusjs/build/hot_incremental_rebuild.py", "symbols": ["hot_incremental_rebuild"]}]}
{"id": "C75", "title": "A rebuild of the development server that fails while it builds does no lasting harm", "statement": "In the sessions of C74 rebuilds may also fail while they build files: outputs were removed already, some files were built and others not. If no source in the batch of such a rebuild was added since the last completed one, then the next rebuild that completes makes the site of a first development build of the sources at that time, and the site stays that one while nothing happens; it is also the site a build command or a start of the server makes of the same sources. Until then only files of the site that were made, directly or through other files, from sources touched or deleted since the last completed rebuild may differ from what that one left. No edit is forgotten, the server does not stop with an exception, no file outside the out folder is changed, and if nothing happened since the last completed rebuild a development build or a restart has nothing to do. A build command in either mode that completes at any moment makes the site of a first build if the sources that events told of are different from those of the last completed rebuild. (With an added source in the batch the claim is false: C74.)", "quantifier": "every finite session of edits, checks, completed rebuilds and rebuilds that fail at any point, after every project history; every schedule of each rebuild, complete or not", "why_tests_cant": "where a build stops depends on the schedule, and what it left shows only in a later rebuild that reuses existing files", "anchors": [{"file": "vanillaplusjs/runners/dev.py", "symbols": ["DevEventHandler.rebuild_if_appropriate"]}, {"file": "vanillaplusjs/build/hot_incremental_rebuild.py", "symbols": ["hot_incremental_rebuild"]}]}
{"id": "C76", "title": "A rebuild leaves no empty folder behind and removes no folder that holds something", "statement": "A rebuild that removes outputs deletes, around the removed outputs and dirty artifacts, exactly the folders in which nothing is left after the builds, deepest first, whichever order it takes folders of equal depth in; folders with files, folders elsewhere and all other files stay. If every folder held a file before, then afterwards the folders are exactly those that hold a file. After any history of builds and edits that left the site alone, the rebuild does not fail while it removes folders. If a folder around a removed output is missing, however, and is not made again by a build, the rebuild fails with FileNotFoundError after it built everything and before it stores the graphs; a rebuild that is killed between removing the folders and storing the graphs therefore makes every later build fail until the out folder is deleted.", "quantifier": "every file tree with consistent folders, every set of removed outputs and artifacts, every list of files written, every order of the folders sorted by length", "why_tests_cant": "the order of folders of equal length depends on the iteration order of a set, and which folders become empty depends on all paths at once", "anchors": [{"file": "vanillaplusjs/build/hot_incremental_rebuild.py", "symbols": ["hot_incremental_rebuild"]}, {"file": "vanillaplusjs/build/ioutil.py", "symbols": ["makedirs_safely"]}]}
{"id": "C77", "title": "Builds that run at the same time can make the same folders", "statement": "While files are built in parallel, each build makes the folder of its output, with all folders around it, and writes the output. However the system calls of the builds are interleaved, and whichever of them are refused for lack of permission, nothing that existed is lost, and nothing is made except the outputs and the folders around them. A build fails only if mkdir was refused to it five times (and then with PermissionError), provided it is never refused the question whether a folder it could not make exists; refusals to other builds do not affect it. A build that completes has written its output in existing folders, all builds end within a number of system calls bounded by the lengths of their paths, and if all complete the files and folders are those that building one file after the other leaves. A file where a folder belongs is never replaced, and builds into that folder do not complete. (That at least five refusals are needed to make a build fail is false: one is enough if it hits that question.) The outputs of the files below src/public never get in each other's way, unless a source lies in a folder that has the name of another source with .hash appended: then never are all outputs built.", "quantifier": "every file tree, every number of builds, every interleaving of their system calls and every pattern of refusals", "why_tests_cant": "the interleaving of the workers' system calls and transient permission errors cannot be chosen in a test", "anchors": [{"file": "vanillaplusjs/build/ioutil.py", "symbols": ["makedirs_safely"]}]}
{"id": "C78", "title": "A source with the same signature has the same contents", "statement": "Builds notice edits by the signature of a source: time, size and inode. Between two looks at a file, files may be saved in place, created, removed, renamed over others and given second names, and inode numbers may be used again, in any order. If no writing happens in the same moment of the clock as the first look, then the same signature at the second look means the same contents. If moreover nothing is renamed, what a build read at any time between the two looks was these contents, although it looked before it read. The conditions are needed: the claim is false for symbolic links (an edit of the file they point to is not noticed), for edits of the same size in the moment of the look, if times of files are set back, on systems without inodes, and, for what was read between, if files are renamed.", "quantifier": "every history of the file system before the first look, every sequence of changes after it, every path", "why_tests_cant": "tests save a file once or twice; reused inodes, renames and the coarse clock matter only in particular sequences", "anchors": [{"file": "vanillaplusjs/build/file_signature.py", "symbols": ["get_file_signature", "FileSignature"]}, {"file": "vanillaplusjs/build/cold_incremental_rebuild.py", "symbols": ["cold_incremental_rebuild"]}]}
{"id": "C79", "title": "Interrupting the web server ends it and restores the working directory", "statement": "`run` and `dev --watch` serve out/www from other threads and end when interrupted. However the threads take turns, and whenever interrupts come: when the command is on its way out, the working directory is the one it was called in; without the configuration or the built site nothing is served; while `run` serves, and while `dev --watch` is in its main loop, the working directory is out/www; after `run` no thread serves; a command that returns normally has told its server to stop; without interrupts, failing rebuilds and a dying observer neither command ends by itself, and with a free port the site is served after at most nine rounds in which each thread takes a turn; an interrupt is noted, and then, if the port is free, the command ends after at most fourteen rounds in which each thread takes a turn. If the port is taken, this is false: the command never ends and ignores interrupts. And `dev --watch` can serve the folder it was called in for a moment, if a rebuild raises or the observer dies.", "quantifier": "every interleaving of the main thread, the server thread, uvicorn, interrupts, failing rebuilds and a dying observer; every order inside the rounds", "why_tests_cant": "tests see one interleaving and do not interrupt; that something never ends is not observable in a test", "anchors": [{"file": "vanillaplusjs/runners/run.py", "symbols": ["run_server"]}, {"file": "vanillaplusjs/runners/dev.py", "symbols": ["dev"]}, {"file": "vanillaplusjs/http_server.py", "symbols": ["host_static_files", "host_static_files_with_event"]}]}
