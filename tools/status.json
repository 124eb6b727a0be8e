{
"C01": [
"proved",
""
],
"C02": [
"proved",
"exact failure conditions of all three mutators"
],
"C03": [
"proved",
""
],
"C04": [
"proved",
"for every well-formed graph, cyclic or not"
],
"C05": [
"proved",
"refinement to a deterministic abstract graph of edge lists"
],
"C06": [
"proved",
"float printing/reading are parameters assumed to be inverse; refuted for a path containing a surrogate pair, which no file system path yields"
],
"C07": [
"proved",
"python's recursion limit is not modelled"
],
"C08": [
"proved",
"also: the classes are disjoint and exhaustive"
],
"C09": [
"proved",
""
],
"C10": [
"proved",
"reading inputs and writing outputs of one build is one atomic step of the model"
],
"C11": [
"proved",
"for artifacts and for outputs with at most two producers, provided builders report only dirtied outputs that were predicted; refuted for three producers of one output"
],
"C12": [
"proved",
"cycle exactness under the prediction hypotheses stated in the theorem; refuted without no_shortfall"
],
"C13": [
"proved",
"for builders that read only what they report, are idempotent and deterministic, and builds that honour their scans (honest_rebuild); the hypotheses are spelled out and met by an executed example"
],
"C14": [
"proved",
"the unconditional statement is refuted by a machine-checked witness (C14_outputs_exist_refuted); proved when dirtied outputs shared with unaffected files are reported again"
],
"C15": [
"proved",
""
],
"C16": [
"partial",
"as stated it is false: three refutations. C16_recovered_partial: after any number of interrupted rebuilds the first completed one is up to date, provided the crash was inside the scheduling loop and the touched files are still found changed; missing: crashes between the state writes, where it is refuted"
],
"C17": [
"proved",
"hash functions are a parameter; directories and torn writes of the state file are not modelled"
],
"C18": [
"partial",
"the claim as stated is refuted (C18_second_check_refuted); proved: everything is verified after a successful check, and the second check does nothing unless a file was removed from the configuration and nothing else had to be handled; in that case it is proved to fail always"
],
"C19": [
"proved",
"the reader refines a cursor into the text for every call history; peek(-1) refuted"
],
"C20": [
"proved",
"exact on every text without CRLF; CRLF and read(0) refuted"
],
"C21": [
"proved",
"Terminates on every text; raises only TypeError or ValueError, and nothing on texts satisfying a simple condition."
],
"C22": [
"proved",
"For every separable token list; the escape and infinity cases where the round trip fails are proved too."
],
"C23": [
"proved",
"Printable ASCII strings; newline and non-ASCII are refuted."
],
"C24": [
"proved",
"For arbitrary manipulators; tokens of a mark left open at the end are lost (proved)."
],
"C25": [
"proved",
"For the version manipulator in the pipeline; protocol-relative urls and fragments are misread (proved)."
],
"C26": [
"proved",
"The import comments of a stylesheet are modelled token by token, with the bookkeeping of rules (set_rule) and the order of resolution as an arbitrary choice. Proved for every stylesheet and every order: the result is the recursive expansion, no import is left, the result does not depend on the order, and it succeeds whenever each rule can be expanded from what was seen. Cycles and missing rules are never built. Rules whose blocks hold braces are outside the notion of stylesheet (refuted separately), as are the other refutations in PropsNest.v."
],
"C27": [
"proved",
"The tokens are exactly those of the lexical rules; the round trip holds for tame texts, and is refuted for non-ASCII strings, template literals with two slashes, hexadecimal escapes and line continuations."
],
"C28": [
"proved",
""
],
"C29": [
"proved",
"Exact line-by-line behaviour for scripts without import keywords (termination is C30_terminates, for all scripts). The unconditional English claim is false: the line after an empty line is not examined (C29_empty_line_refuted)."
],
"C30": [
"proved",
"Termination and scanning for every script; exact edits for scripts without hint comments. The scanned dependencies can differ from the built children when hints are present (C30_children_refuted)."
],
"C31": [
"proved",
"For the actual tables; the tables differ from the language (proved)."
],
"C32": [
"proved",
"round trip and forms; from_hex accepts signs and blanks, two keywords have wrong values and seven are missing (findings)"
],
"C33": [
"proved",
"For files below src/public: outputs collide only between a file and one named like its hash file (C33_hash_refuted). The code also treats src/publicX as public (C33_prefix_refuted)."
],
"C34": [
"proved",
"Copy/hash and constants handlers, for every file system state. Symlinks are modelled as copies."
],
"C35": [
"proved",
"Bindings exact for all dictionaries; string literals exact for ASCII text; non-ASCII text is corrupted (C35_accent_refuted)."
],
"C36": [
"proved",
"all sizes below 2^50; empty and outside rectangles for unchecked arguments refuted"
],
"C37": [
"proved",
"with the exact enumeration for decimal steps; termination for every positive step and float steps refuted"
],
"C38": [
"proved",
"kept export optimal for every completion order, trial files removed, nothing else changed, exact reports; negative preferences, repeated sizes and left-over links refuted"
],
"C39": [
"proved",
"order independence, 64-bit range, every single number matters; collisions refuted"
],
"C40": [
"proved",
"Any interleaving of any number of callers, each a sequence of accesses to the file system, each possibly killed: C40_unique, C40_new, C40_targets, C40_found; for one process C40_again, C40_other. Found and proved: two concurrent callers may get two ids for one target; a kill while counter.txt is written stops all reservations; an edited image makes looking fail with TypeError; images differing in extension share folders."
],
"C41": [
"proved",
"Templates are calls, for pages and templates without hand-written push and pop. Refuted: a hand-written pop in a template changes the page's variables; a relative template path; a template including itself never ends. ImagesManipulator is left out."
],
"C42": [
"proved",
"Token by token for pages of hints, references and other tokens; no hint without host is left in any built page. Refuted: urls without leading slash; missing host when building."
],
"C43": [
"proved",
"Token by token; a second pass changes nothing. Refuted: href on a script tag; protocol-relative urls."
],
"C44": [
"proved",
"Every history of events and rebuilds in which no move overwrites a file (C44_overwrite_refuted) and no event falls into a failing rebuild (C45_during_refuted)."
],
"C45": [
"proved",
"Every history; events that fall into a failing rebuild are mishandled (C45_during_refuted, C45_during_waits_refuted)."
],
"C46": [
"proved",
"clean removes exactly out/, artifacts/ and, on request, recorded placeholders; missing placeholder makes it fail (finding)"
],
"C47": [
"proved",
"Every path; which files belong to which handler is specified separately."
],
"C48": [
"proved",
"Tokenizer, parser and command.py modelled in full. Every text gives a command or ValueError/TypeError; a command written as the grammar says, with any spacing and comments, gives exactly its fields; and over tokens the command found is the one the grammar gives (iff)."
],
"C49": [
"proved",
"the folder is modelled without directories; a generator whose deleted placeholder was recorded makes the build fail (C49_regeneration_fails)"
],
"C50": [
"proved",
"For all token streams, file systems and stylesheets: the output is the input with each image after url( replaced by the url of its numbered file; equal data have equal urls and different data different urls; contents of new files, reports, scan, exact agreement of scan and build, success. Refuted: base64 and other parameters become part of the file; images with the same data but different types share a file; an existing file is kept whatever it holds; a working directory other than the project makes the build fail or overwrite. A stream that ends in url( is excluded (see C24_open_mark_refuted)."
],
"C51": [
"proved",
"The whole page, event by event, scan and build, both directions. Refuted: style tag with attributes; source files with the name of an outlined script; data scripts."
],
"C52": [
"proved",
""
],
"C53": [
"proved",
""
],
"C54": [
"proved",
"builders must report honestly which outputs they share (hypothesis honest_builds) and file signatures must detect edits"
],
"C55": [
"proved",
""
],
"C56": [
"proved",
"All relative spellings, working directories and project folders; protocol-relative urls are mistaken for project files (C56_external_refuted)."
],
"C57": [
"proved",
"Icon manipulator run over the token list of a stylesheet, with the file system. Refuted in addition: existing images go stale, the build reports neither the drawing nor the hash of an existing image, a named button with an unknown colour fails the build."
],
"C58": [
"partial",
"Holds if the colours of the buttons are among the colours asked for (C58_urls); false otherwise (C58_button_refuted)."
],
"C59": [
"proved",
"text of commands, paths, comments, pages; int() of non-ASCII digits, PIL and the id lookup are parameters"
],
"C60": [
"proved",
"for the first export into a folder; the encoders and image reader are oracles"
],
"C61": [
"proved",
"the image's path without its extension must have no blanks, and no commas at its end; C61_blank_refuted shows that blanks break the srcset"
],
"C62": [
"proved",
"reading the stored metadata gives it back is a hypothesis (its json is modelled only as a pair of functions)"
],
"C63": [
"proved",
"Exports and scans of single images are those of C59-C62. Metadata must be expressible in json (no lone pairs of surrogates, keys once); images exported before must still have their artifacts for C63_present."
],
"C64": [
"proved",
"crop numbers compared as text; folders without files do not exist in the model"
],
"C65": [
"proved",
"false in general of the colours of a :root rule (C65_cut, C65_every_refuted)"
],
"C66": [
"proved",
"init, load_config and the three loaders; C66_migrate_refuted records that init does not update an old configuration"
],
"C67": [
"proved",
"pages without inline scripts, inline stylesheets and images, stylesheets without icons and data images, no images.json; source names as listed by a walk, none ending in .hash; statements on imports for scripts without type hints"
],
"C68": [
"proved",
"projects as in C67; source names as in source_name (ProjectSpec.v); signatures must detect changes; failed or killed builds excluded (C67_killed_refuted)"
],
"C69": [
"proved",
"stylesheets without icons and data images, in whole builds; imports must name readable stylesheets"
],
"C70": [
"proved",
"pages without inline scripts, inline stylesheets and images, in whole builds; html parser and serializer are parameters"
],
"C71": [
"proved",
"the listing of the sources, the building of the files and the writing of the graphs, for the order of listing, of building and of storing; without the condition it is false (C70_order_refuted)"
],
"C72": [
"proved",
"handlers as in C67; the output graph, if readable, must record outputs below out (C72_damaged_refuted); C72_serves for scripts without type hints and stylesheets without imports; folders are not modelled"
],
"C73": [
"proved",
"handlers as in C67; C73_serves for scripts without type hints and stylesheets without imports; edits inside the out folder and killed builds are excluded from the histories (see C72, C67_killed_refuted)"
],
"C74": [
"proved",
"Sessions in which a rebuild fails while files are built are outside the claim; C74_stale_refuted shows why."
],
"C75": [
"proved",
"batches with an added source are excluded (C74_stale_refuted); the build command needs that touched sources differ"
],
"C76": [
"proved",
"the claim that a build killed before the graphs are stored does no harm is refuted (C76_killed_refuted)"
],
"C77": [
"proved",
"that a build fails only after five refusals is refuted (C77_retries_refuted); C77_succeeds has the condition under which it holds"
],
"C78": [
"proved",
"the claim without its conditions is refuted (C78_*_refuted)"
],
"C79": [
"proved",
"all interleavings of the threads, interrupts, failing rebuilds; uvicorn abstracted to starting, serving and ending; the unconditional claims about interrupts and dev --watch are refuted"
]
}