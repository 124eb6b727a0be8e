# Formal model of vanillaplusjs: design

The code in /repo (python) is modelled in Rocq (Coq 8.16.1) under
`rocq/theories`. Nothing of the project is executed: the model is transcribed
by hand from the source text, function by function.

## Conventions

* A python `str` is `list N` (code points). A python `dict` is an
  insertion-ordered association list. A python `set` whose iteration order
  matters is modelled by a list given by an adversary (theorems quantify over
  every order).
* Python exceptions are values: an operation on mutable state returns
  `(outcome, state)` so that "an exception leaves the state unchanged" is a
  theorem and not built into the model.
* Loops without a syntactic bound carry fuel; running out of fuel is a separate
  error value, and theorems show that it cannot be returned.
* Things outside the repo (json, hashlib, PIL, file system primitives, worker
  pool) appear either as Section variables (the theorem then quantifies over
  all of them) or as a small explicit model. They are listed under "Trusted
  base".
* Model files contain definitions only. Proofs are in `*Proofs.v`. The theorems
  named in MANIFEST.json are in `Props*.v`, each closed by `exact`, followed by
  `Print Assumptions`, with an `Example` showing that the hypotheses can be met.
* When the English claim is false of the code as written we prove the negation
  (`..._refuted`) with the concrete witness, and prove the strongest
  restricted version that does hold.

## Plan per property

| id | what is modelled | how it is proved |
|----|------------------|------------------|
| C01 | graph.py mutators as functions on a dictionary of nodes | invariant by induction over op lists (count symmetry, closedness) |
| C02 | same, outcome * state | case analysis; exact characterisation of the failing arguments |
| C03 | set_children with the nested check | path reasoning; acyclicity invariant over op lists |
| C04 | BFS with explicit queue/visited and fuel | sound/complete w.r.t. inductive reachability, fuel bound by unvisited nodes |
| C05 | op lists and an abstract edge-set spec | refinement |
| C06 | store to JSON text (json string escaping) and load | round trip by induction over nodes; JSON parser modelled |
| C07 | `__eq__` with memo table | memo invariant, iff structural equality |
| C08 | classification loop of the cold build | set characterisation |
| C09 | dirty-closure stack loop | reachability characterisation, termination measure |
| C10-C12 | scheduler as nondeterministic transition system | invariants over all runs; progress measure |
| C13 | scheduler + oracle builders + file system | consistency invariant over all schedules; uniqueness of consistent states |
| C14-C15 | same | consequences plus refutation witness |
| C16 | write log of a hot rebuild, crash = prefix | refutation witnesses, plus what does hold |
| C17-C18 | handle_external_file as list of fs writes; bookkeeping | invariant for every prefix; witness |
| C19-C20 | PeekableTextIO / PreprocessedTextIO state machines | refinement to a cursor into the text |
| C21-C23 | CSS tokenizer on the remaining text; serializer | measure; round trip by induction |
| C24 | mark/replace builder over an arbitrary manipulator | invariant over the token list |
| C25, C26, C50 | css manipulators | builder theorem instances |
| C27-C30 | JS tokenizer, serializer, yield manipulators as state machines | induction |
| C31 | binary search over the ranges | loop invariant; sortedness of the shipped tables by computation |
| C32, C48 | icon tokenizer/parser/colour | round trips |
| C33, C34, C47 | handler paths | string lemmas |
| C35 | constants merging | dict lemmas |
| C36-C40 | images/*.py; floats as rounded reals / exact integers where exact | real and integer arithmetic, LTS for reservations |
| C41-C43, C51 | html manipulators on token lists | induction |
| C44-C45 | watcher sets and event handlers | invariant relating sets to (file at last build, file now) |
| C46 | clean runner | fs characterisation |
| C49 | placeholder loop of the scan phase | fs characterisation |
| C52 | construction of the three new graphs | refinement to edge functions |
| C53 | classification, mode file and hot rebuild as one relation | the state after a build classifies as unchanged |
| C54 | the same, plus an inductive relation of histories | invariant over histories |
| C55 | tokenizer and serializer against an inductive lexical grammar | each branch consumes a spelling of its token; induction over the text |
| C56 | import rewriting over normalised paths | string lemmas on path components |
| C57, C58 | the icon manipulator run by the builder over a token list, with a file system | one command by induction over its colours; the sheet by induction over tokens |
| C59 | parser of image commands, path resolution, validation, the manipulator run by the builder over a page | grammar of commands as an inductive relation; path lemmas; the builder theorem instantiated; export shown to leave source files alone |
| C60, C61, C62 | scanning, exporting, re-exporting an image command over a file system; the picture element as tokens | path lemmas, invariants of the export loop; srcset read back by a browser's parser |
| C63 | the check, scan and build of images.json over a file system, the exports as in C59-C62; json written with sorted keys and read back | check = inductive `acceptable`, induction over the entries, json round trip, permutation lemma for the sorting |
| C64 | the json of both records and its reading; the search through the folders of an image and the reservation, on a file system with listing order as a parameter; histories of scans, builds and anything else | json printer/parser round trip (indent=2); an invariant of the folders (each record is one that was written, numbers at most the counter, each crop and size at most once) kept by every step; induction over the folders and the history |
| C65 | `load_icon_settings`: the buttons from the json, the search for the first `:root {` and its declarations on the tokens of the sheet | a grammar of sheets (balanced blocks, what is not the rule, declarations with spaces and comments); induction over its derivations, with enough fuel proved |
| C66 | `init`, the first part of `build` (reading and checking the configuration) and the three loaders it calls | relations between json and settings, field by field, in the specification; the loaders are proved to compute them; the file that init writes is printed, read back (C19) and loaded |
| C67 | the whole build of a project of scripts, constants, pages, stylesheets and copied files: Hot.v with the handlers of Project.v, over histories of edits and rebuilds | a general theorem about builders that reuse existing files (induction over the log of builds: nothing stale is found, what is looked at was finished before), instantiated with the handlers; uniqueness of correct folders by well-founded induction over the acyclic graph |
| C68 | the build command as a whole: Cold.v (listing, signatures, constants mode file, scan phase) and Hot.v with the handlers of Project.v, over histories of edits and builds in both modes | the invariant of C67 for the folder the last build left, with the recorded signatures and the mode file; the general theorem of C67 extended to a change of what is wanted for files that are scanned or deleted |
| C69 | the css handler in whole builds (Project.v): the imports and the url versions over the file system of a project, with a guard that stops at icons and data images | what the handler reads is what it reports or was built from what it reports (ProjectCss, ProjectEdit), so the theorem of C67 applies; imports and versions composed by induction over the rewriting of the tokens (ProjectSheet) |
| C70 | the html handler in whole builds (Project.v, Page.v): canonical hints, links and templates over the file system of a project, with a guard that stops at inline scripts and stylesheets and at images | the run depends only on the hash files of the links and the templates (ProjectPage), so the theorem of C67 applies; the manipulators of Page.v are simulated by those of Html.v (ProjectPageSim), whose meaning is C51 and C41; all five manipulators agree with them (C70_whole) |
| C71 | a build command that completed beside any other state a build command of the same project can be in (`building`, ProjectOrderSpec.v), with its own listing and order | induction over the steps of the second run: a file is built when everything it is to wait for is built (C33), what it looks at belongs to files it waits for because its dependencies were known beforehand, so it finds what the first run left and writes the same; then the failures of the scheduler are excluded one by one by the theorems of C33 and C34. That the graphs can be stored is a totality proof for new_graphs (HotGraphsTotal.v): the recorded dependencies are those of the first run, whose graph has no cycle, and the outputs exist and are no sources; what a file that was left alone reports depends on the sources it looks at only, and was recorded at the last build (ProjectOrderKids.v, ProjectOrderAgain.v); that the command can start follows as whether a scan's generated dependency is found does not depend on the order of the scans (ProjectOrderStart.v). The agreement of scans and builds is a simulation of the two pumps of each handler (ProjectOrderScan.v, ProjectOrderSheet.v) |
| C72 | the folder with its stored graph texts, the build command with all its failures (`completes`, `raises`, DevStart.v), and the first stage of dev.py on top of them (`dev_start`) | writes and removals are tracked through every point of failure, including the files the executor still builds on shutdown; that a second build cannot fail follows from C71 applied to an emptied folder, once builds are shown to be extensional in the files (ProjectSame.v); a graph that is cut off cannot be parsed (JsonTorn.v) |
| C73 | histories of the stored folder (`folder`, FolderSpec.v): edits, completed builds and server starts, each reading the texts the last one stored | invariant: the texts load (C06) to a project of C68, whose graphs have only names the operating system can give; that names stay so needs the keys of the new graphs; the theorems of C68 to C72 are then carried over, since they hold for equal graphs |
| C74 | one rebuild of the server from the batch of C44 to what it leaves on disk (Watch.v), and sessions of edits, checks and rebuilds on the stored folder (`watching`, WatchSpec.v) | invariant: the graphs load to a project whose recorded signatures are those of the last completed rebuild, and by C44 the batch is exactly the difference to the sources now; such a rebuild does what a cold build does (WatchMain.v), so the invariant of C68 is restored. Failed rebuilds leave the graphs, and if nothing was built also the files. Rebuilds that fail while they build are outside of the sessions: C74_stale_refuted shows that they break the claim when a file was added (see C75) |
| C75 | the sessions of C74 with rebuilds that fail while they build (`session`, SessionSpec.v): the scheduling loop stops at any point, and builds that were submitted still finish | the invariant of C74 with a set of outputs that may be damaged: those of files affected by a touched or deleted source. A failing run without added files only removes and writes such outputs (induction over the steps; a file built again has the output names recorded for it). The next batch contains all these sources again, so the next rebuild removes the damaged outputs before it builds: the history theorems of C67 and C68 allow outputs to differ that the rebuild makes anew (`edits`, ProjectSpec.v) |
| C76 | a tree of files and folders, the folders around removed files, what the builds write, and the loop over the folders, longest name first (Prune.v) | induction over the sorted list: when a folder is reached all longer ones are done, so it is kept iff a file or an untouched folder lies below it; the invariant of C68 shows that the outputs, and so their folders, exist |
| C77 | any number of workers, each in makedirs_safely and the os.makedirs it calls, then writing its output; one system call per step, any interleaving, any call refused (Makedirs.v) | invariant of each worker that other workers' steps preserve (folders only grow; the pending calls form a chain up from the folder of the output), and a measure that each step of a worker lowers |
| C78 | get_file_signature on a disk of names, inodes and a clock, and the changes users make to it (Signature.v) | invariant: inodes whose time is not later than the look are as they were at the look; without renames, a path that shows such an inode showed it all the time |
| C79 | main thread, server thread and uvicorn of run_server and dev --watch as a transition system with interrupts (Serve.v) | invariant of the reachable states; a rank that falls in every round for the end; the stuck state is closed under all steps |

The list grows: properties added later are appended to properties.jsonl and to
this table.

## Trusted base

1. Coq 8.16.1's kernel (including its virtual machine: several examples and
   refutations end with `vm_compute; reflexivity`).
2. `Print Assumptions` stands beneath every theorem of every `Props*.v`. For
   each of them it prints "Closed under the global context". No axiom is used,
   not even one of the standard library; mathcomp's ssreflect plugin is not
   loaded by the model, but `coqchk -o` lists the seven constants of
   `Coq.ssr.ssrunder` if the standard library's ssr files are loaded. The last
   section lists the theorems.
3. The transcription: that the Gallina functions do what the Python does. It
   was done by hand from the text of /repo; each definition cites the lines.
4. What is assumed about Python and the operating system, listed per part in
   the table below. Things that appear as parameters of a section are
   *not* trusted: the theorems hold for all of them.

### Parameters (the theorems quantify over them)

| parameter | stands for | restricted to |
|---|---|---|
| `float_repr`, `float_parse` | printing and reading a float in json | reading what was printed gives it back (C06, where used) |
| `float_of`, `float_str` | `float(text)` and `str(float)` in the css tokenizer | nothing, except in the round trip C22, where it is stated |
| `high_digit`, `int_high` | `isdigit` and `int` on non-ASCII digits | nothing |
| `sha`, `hash` | hashlib | nothing; injectivity is a hypothesis where it is needed |
| `stat` | file signature | `honest` signatures where stated (C13, C53, C54) |
| `scan`, `build` | the handlers, as seen by the scheduler | `honest_*`, stated in HotSpec.v / HotResultSpec.v |
| `order`, `pick`, schedules | iteration order of sets, completion order of workers | nothing |
| `encode`, `dims` | PIL | nothing |
| `store`, `load` | json of the metadata of an export; given in ImgMeta.v for C64 | `load (store m) = m` (C62 only; proved of ImgMeta.v: C64_record) |
| `scandir` | order of os.scandir (C64) | a permutation |
| `num` | the number that a json text of one stands for (C63) | none |
| `in_cwd` | os.path.exists relative to the working directory (C63) | none |
| `reserve`, `find_target` | get_or_reserve_target, get_target (ImgTarget.v) on the file system | they leave files below src alone (C59_agree only; proved of ImgMeta.v: C64_sources) |
| `fragment`, `show` | html5lib's parser and serializer | nothing |
| `js_scan`, `css_scan`, `js_build`, `css_build` | the handlers called by the html outliner | nothing |
| `decode` | UTF-8 decoding with replacement | nothing |
| `lower_high`, `plain` | `str.lower` and NFKC digits outside ASCII | nothing |
| `cwd`, `folder` | working directory, project folder | normalised absolute paths (C56) |
| `bad`, `bool_int` | what pytypeutils.check raises, and whether it takes a boolean for an int (C66) | nothing |
| `decimal` | `Decimal(v)` and its `str` (C66) | `Decimal("0.5")` is 5e-1 and prints as 0.5 (C66_init_builds) |
| `float_text`, `repr`, `env` | `str` of a float, `str` of other constants, os.environ (C66) | nothing |

## What is modelled

| /repo/vanillaplusjs | model | not modelled |
|---|---|---|
| build/graph.py | Graph.v, GraphJson.v | recursion limit of `__eq__`; the file handle of store/load |
| json (library) | Json.v | `NaN`, `Infinity`; custom encoders |
| build/cold_incremental_rebuild.py 66-112 | Cold.v | logging |
| build/cold_incremental_rebuild.py 115-294 | External.v | torn writes of the state file, directories |
| build/hot_incremental_rebuild.py 90-164 | Cold.v | worker pool: scans are functions of the files |
| build/hot_incremental_rebuild.py 166-467 | Hot.v | one build (reads and writes) is one step; pruning of empty folders (253-258, 456-466) is in Prune.v |
| build/hot_incremental_rebuild.py 253-267, 456-466 | Prune.v | contents of the files; symbolic links, permissions, folders and files of the same name; other processes writing to out at the same time; that all of 166-467 runs in one working directory |
| build/hot_incremental_rebuild.py 468-642 | HotGraphs.v, Cold.v | torn writes of one graph file |
| build/ioutil.py | IoUtil.v | seek/tell; makedirs_safely is in Makedirs.v |
| build/ioutil.py 193-228, os.makedirs | Makedirs.v | the waiting between attempts; paths with empty parts or `.`; a file above the folder is noticed by mkdir, not by os.stat; opening the output is not refused; errors such as a full disk |
| build/file_signature.py, os.lstat | Signature.v | the rounding of st_mtime (the clock of the model is as coarse as the times it gives); clocks that are set back; writing in several system calls; folders and links to folders; the other claims take the signature as the parameter `stat`, with `stat_detects` where needed, for which C78 gives the conditions |
| build/css/tokenizer.py, token.py, serializer.py | Css.v | CRLF (cannot occur: universal newlines) |
| build/*/builder.py, */manipulator.py | Builder.v | |
| build/css/manips/version_urls.py | CssVersion.v | |
| build/css/manips/nest.py | Nest.v | closing of files |
| build/css/manips/outline_image_data.py | OutlineData.v | |
| build/css/manips/icons/{color,token,tokenizer,parser,command,manip}.py | IconColor.v, IconParse.v, IconManip.v | the warning in manip.py 93-99 |
| build/css/manips/icons/settings.py | IconColor.v (tables), IconSettings.v (`load_icon_settings`) | colours in vanillaplusjs.json that are not texts |
| build/js/{tokenizer,token,serializer,unicode_derived,derived_core_properties}.py | Js.v, JsTables.v | |
| build/js/yield_manipulator.py, build/js/manips/*.py | JsYield.v, JsManip.v | |
| build/handlers/{copy,hash,copy_and_hash,js_constants}.py, scan_file.py, build_file.py | Handlers.v | symlinks are copies |
| build/handlers/{css,js,html}.py | the pipelines in CssVersion.v, JsManip.v, Html.v | opening of files |
| build/html/token.py, html/manips/{link_rel_canonical,link_hash,link_rel_stylesheet_hash,outline,template}.py | Html.v | attribute namespaces |
| build/html/tokenizer.py, serializer | | html5lib |
| build/html/manips/images/{cover_fit,resolutions}.py | ImgSize.v | NaN, infinities, exponent limits |
| build/html/manips/images/settings.py, metadata.py (hash) | ImgSettings.v | |
| build/html/manips/images/{exporter,scanner,manip}.py | ImgExport.v, ImgPage.v | PIL; the process pool is an arbitrary completion order |
| build/html/manips/images/command.py, metadata.py 54-105 | ImgCommand.v | directories named like an image |
| build/html/manips/images/metadata.py 220-380 | ImgTarget.v | granularity below one file access |
| build/html/manips/images/metadata.py 54-380, json.dump(indent=2) | ImgMeta.v, JsonPretty.v | empty folders do not exist; crop numbers are compared as written (1 and 1.0 differ); file locks (ImgTarget.v has them) |
| build/handlers/image_glue.py | Glue.v | warnings; a folder in place of an image; json numbers NaN and Infinity |
| runners/dev.py 75-103, runners/build.py 68-187, failures of cold and hot rebuilds | DevStart.v | folders; an out folder that is a link; edits inside out and builds that are killed (C72 covers these for one start, C73 excludes them); exceptions while outputs are unlinked or graphs written; scans that write placeholders and then fail |
| runners/dev.py 193-317 | Watch.v, Dev.v | edits during a rebuild and between an edit and its event (C44 and C45 have these for the handler alone); directories; symlinks; absolute paths of the events; edits of the out folder; scans that write placeholders; edits between the first build and the start of the observer; the web server (C20 ff.) |
| runners/dev.py 162-362 | Dev.v | watchdog; the http server |
| runners/clean.py | Clean.v | |
| runners/init.py, runners/build.py 99-128, build_context.py 196-253, images/settings.py 124-200 | Config.v | empty folders; a folder named like a file; symlink detection; addresses of external files that are not text |
| scan_file.py, build_file.py, handlers js, js_constants, css, html, copy, hash, copy_and_hash (for whole builds) | Project.v, Page.v | pages with inline scripts, inline stylesheets or images, stylesheets with icons or data images, and images.json in whole builds; `external_files`; delay_files; the threads of copy.py; symlinks instead of copies |
| runners/run.py, runners/dev.py (the part after the first build), http_server.py | Serve.v | what uvicorn and starlette answer to requests; MIME types; a second interrupt during `finally`; failures when the observer is started; the steps between two looks at shared fields are one step |
| main.py, argument parsing of the runners | | all of it |

## Findings

Statements one would expect and that are false of the code. Each is proved
unless marked "read" (seen in the text, outside the model).

Graph and rebuilds
* A path with a surrogate pair changes when the graph is stored and loaded (C06).
* Three files that produce one output can be built at the same time (C11).
* A predicted output that is never produced blocks its other producer, reported as a cycle (C12).
* An output shared with an unaffected file is lost (C14).
* The mode file is written before the build, and the three graphs one after the other: a crash between leaves a state that is taken for complete (C16).
* With nothing to download, the state of external files is not saved after files were removed; the next check raises (C18).
* Deleting a placeholder and changing its generator makes the next build fail, always (C49).
* Read: an integrity without exactly one "-" raises; a generator with two placeholders raises KeyError (543); an artifact both produced and reused raises KeyError.

Readers and tokenizers
* `peek(-1)` returns too little (C19); `read(0)` raises; CRLF yields None (C20).
* A css text ending in `#`, `@` or a number raises TypeError (C21). Escapes in identifiers, `1e999`, newlines and non-ASCII text do not survive (C22, C23). Tokens of a mark that is open at the end are lost (C24).
* JS: non-ASCII strings are corrupted; `//` in a template literal is a comment; `\x41` is misread (C27). Identifiers may start with digits but not with `_` or `$` (C31).
* A type hint is overlooked after an empty line (C29). Scanning does not hide hinted imports (C30).

Stylesheets
* `//cdn/x` and `#a` are taken for files of the project (C25, C56).
* Imports (C26): a rule further down that imports from elsewhere is not found; two rules for one selector stop the build; so does `@charset`; a selector containing "from" is left in place; a nested block is spliced wrongly; a block without final semicolon spoils the next declaration; the count of missing references is not what its comment says.
* Icons: signs and blanks in hex colours; `gray` is 127, `sandybrown` is salmon, seven names are missing (C32); images go stale and the drawing is not reported (C57); a button with a colour that is not asked for has no image (C58).
* Data images: wrong base64 and types, stale files, a folder that is not the stylesheet's own (C50).

Pages
* A hand-written pop in a template changes the variables of the page; relative and recursive templates fail (C41). Canonical urls without slash are glued to the host (C42). `href` on a script is lost; protocol-relative urls raise (C43). A style element with attributes raises TypeError, a user's script may be overwritten, data scripts are outlined as code (C51).

Handlers
* A file named like the hash file of another collides with it; `src/publicX` counts as public (C33). Non-ASCII constants are corrupted (C35).
* Read: lists and null as constants are printed as Python.
* C63: image_glue.py checks `crop_settings`, but uses `crop_arguments`: arguments no image can be cropped by are accepted, unknown ones stop the build with TypeError (C63_crop_refuted); a crop setting that is a string raises TypeError in the check (C63_total_refuted); `true` is a size (C63_bool_refuted); one bad entry and no module is made, with only a warning (C63_silent_refuted); whether a placeholder exists is asked relative to the working directory, so that from elsewhere an existing one is overwritten (C63_placeholder_refuted); an existing hash of the module is kept although the module is rewritten (C63_hash_refuted). Read: an image named `__proto__` sets the prototype of the exported object (the semantics of JavaScript are not modelled).
* C64: a process killed while it writes placeholder.json or metadata.json leaves a file that json refuses (C64_torn), and then no page with a new size of that image can be scanned (C64_torn_stops). An edited image is refused in the same way until its artifacts are removed (C64_edited_stops). After image settings that were scanned with are changed back, two folders match, and the listing order decides (C64_settings_refuted).
* C65: in the `:root` rule a property whose value is more than one token or function (`--font: Arial, sans-serif`) silently ends the reading of colours and sizes, and so does a last declaration without semicolon, which is lost (C65_cut). A second `:root` rule and `:root, :host {` are not read (C65_every_refuted). With `default_button: null`, any entry of `button_by_identifier` stops the build with AttributeError, even one that names all three colours (C65_null_refuted). A null colour makes the other colours of the default button be ignored (C65_buttons).
* C66: for a configuration of another version the build says to run init again; init never touches an existing vanillaplusjs.json, so this does not help (C66_migrate_refuted). `maximum_resolution` is not checked: with 0 there are no resolutions at all, and pages with images then fail (C61_missing).
* C67: a killed build leaves outputs that no graph mentions; after an edit the next build keeps them, whatever their contents (C67_killed_refuted). Real handlers do not meet the hypotheses of C13: copy, hash and constants reuse an existing target without looking at it, and js reads `X.hash` but reports `X`; C67 is the theorem about them. Read: `import "/./b.js"` reports a file that does not exist as a dependency; type hints can make the scan overlook an import, and then the order of builds decides whether the build fails.
* C72: a typo in vanillaplusjs.json makes `dev` delete the out folder and then fail (C72_wrong_settings). A damaged file of the site stays as long as no source is edited (C72_stale_refuted). An output graph that names a source makes the next build delete that source (C72_damaged_refuted). Read: the SystemExit branch of the except clause is never taken.
* C74: a rebuild that fails while it builds leaves the outputs it wrote, but no graph has them; if a file was added and is replaced before the next rebuild completes, its old copy is served from then on (C74_stale_refuted). Read: dev.py:217-260 are outside the try statement, so a syntax error in vanillaplusjs.json at the time of any rebuild ends the server (`crashes`); a source edited between the first build and the start of the observer is not noticed until it is edited again.
* C75: after a rebuild that failed while it built, the page is missing from the site until the next completed rebuild (C75_session_site). Read: if the server is stopped then and the source restored with the signature it had (same time and contents), a build finds nothing to do and the page stays missing; hence the premise of C75_build.
* C76: a removed output that is missing is tolerated (264-267), but if its folder is missing too, and no build makes it again, `os.scandir` (461) raises FileNotFoundError, after everything was built and before the graphs are stored, so each later build repeats it until the out folder is deleted (C76_missing). A build killed after the folders were removed and before the graphs are stored leaves that state (C76_killed_refuted). Read: an absolute recorded path would make the loop 256-258 endless, as the dirname of `/` is `/`; and in `dev --watch` the working directory of the server is out/www, which is itself removed when the site becomes empty.
* C77: makedirs_safely retries only PermissionError. If another build makes the folder first, and the `isdir` with which os.makedirs then asks for it is refused (it reports False), FileExistsError is raised at once, so one refusal makes the build fail (C77_retries_refuted). A source a.css beside a folder a.css.hash with a source in it can never be built completely: the hash file of the first is where the output folder of the second belongs (C77_clash).
* C78: signatures are taken with `os.lstat`, so an edit of a file that a source links to is never noticed by `build` (C78_link_refuted). An edit that keeps the size, in the same moment of the clock as the look, is not noticed either (C78_moment_refuted), nor one with the old time restored (C78_time_refuted).
* C79: if uvicorn cannot start (the port is in use), `while not server.started` in http_server.py never ends. The command serves nothing, does not end, and ignores Ctrl-C, because the handler only sets an event nobody waits for (C79_hangs, C79_interrupt_refuted). In `dev --watch`, if a rebuild raises or the observer dies, the working directory is changed back while uvicorn still serves `.`, which is then the folder where the command was called (C79_watch_refuted, C79_observer_refuted).
* C69: read: an import `from //x` or an url `//x` looks up the absolute path `/x` of the machine; an import from `/a.css.hash` reads the hash file as a stylesheet; the theorem needs the default stylesheet to be below src/public.
* C70: read: an html link `//x` looks up the absolute path of the machine. A page whose partial was edited is built again but not scanned again: it is scheduled by its old dependencies. When the partial now links to a file that is edited too, the build stops or completes depending on the order of the workers (C70_order_refuted); a completed build is right in any case.

Images
* Empty crops and crops outside the image for unchecked arguments (C36); a small step repeats sizes forever or yields a size twice (C37); negative preferences keep the worst export, repeated sizes fail (C38); hashes collide (C39); two callers may reserve two folders for one target, a killed one can stop all others, an edited image raises TypeError, images that differ in their extension share a folder (C40); blanks break the srcset (C61). The word `lazy` after crop arguments, or a blank there, makes an image eager; the optional parts of a command cannot be left out one by one; the documented example raises TypeError; braces inside the arguments are refused; negative sizes are accepted; an image in `src/publicity` passes for a public one and then `src/public/ty/...` is exported; a command with a line break, a misspelt path or too small an image silently stays a comment (C59).

Runners
* A file moved onto another is reported as new (C44); events during a failing rebuild are mishandled (C45). A missing placeholder makes `clean` fail for good (C46).

<!-- theorems -->
## Print Assumptions

For each of the following theorems it prints "Closed under the global context".

| property | status | theorems |
|---|---|---|
| C01 | proved | C01_graph_symmetric_and_closed |
| C02 | proved | C02_failed_operation_leaves_graph, C02_only_value_errors, C02_add_raises_iff, C02_remove_raises_iff, C02_set_raises_iff |
| C03 | proved | C03_acyclic, C03_set_rejects_iff_cycle, C03_set_accepted_takes_effect |
| C04 | proved | C04_nested_relationship |
| C05 | proved | C05_direct_relationship, C05_history_refines_edge_lists, C05_specification_is_deterministic |
| C06 | proved | C06_load_store, C06_surrogate_pair_refuted |
| C07 | proved | C07_equality_is_structural |
| C08 | proved | C08_classification, C08_exactly_once |
| C09 | proved | C09_exactly_the_affected_files, C09_rebuilt_files |
| C10 | proved | C10_dependencies_first, C10_everything_built_once |
| C11 | proved | C11_no_concurrent_producers, C11_no_concurrent_producers_refuted |
| C12 | proved | C12_terminates, C12_never_stuck, C12_success_means_no_circle, C12_failure_means_circle, C12_failure_means_circle_refuted |
| C13 | proved | C13_rebuild_keeps_up_to_date, C13_incremental_equals_clean |
| C14 | proved | C14_outputs_exist, C14_outputs_exist_refuted |
| C15 | proved | C15_no_stale_outputs, C15_others_untouched, C15_contents |
| C16 | partial | C16_recovered_partial, C16_mode_refuted, C16_stores_refuted, C16_placeholder_refuted |
| C17 | proved | C17_every_moment, C17_at_the_end, C17_integrity_sound, C17_integrity_complete, C17_configuration |
| C18 | partial | C18_all_verified, C18_removed, C18_second_check_partial, C18_second_check_fails, C18_second_check_refuted, C18_empty_configuration |
| C19 | proved | C19_reader, C19_peek_all_refuted |
| C20 | proved | C20_reader, C20_read_all, C20_crlf_refuted, C20_read_zero_refuted |
| C21 | proved | C21_terminates, C21_tidy_accepted, C21_end_refuted |
| C22 | proved | C22_round_trip, C22_escape_refuted, C22_inf_refuted |
| C23 | proved | C23_strings, C23_newline_refuted, C23_unicode_refuted |
| C24 | proved | C24_stream, C24_identity, C24_observers, C24_open_mark_refuted |
| C25 | proved | C25_build, C25_missing_hash_fails, C25_scan, C25_idempotent, C25_other_urls_refuted |
| C26 | proved | C26_comment, C26_imports, C26_unique, C26_resolved, C26_order, C26_cycle, C26_scan, C26_start, C26_available, C26_unresolved, C26_count_refuted, C26_forward_refuted, C26_twice_refuted, C26_charset_refuted, C26_from_refuted, C26_braces_refuted, C26_semicolon_refuted, C26_blanks_refuted |
| C27 | proved | C27_terminates, C27_pieces, C27_same_code, C27_verbatim, C27_unicode_refuted, C27_template_refuted, C27_escape_refuted |
| C28 | proved | C28_closed |
| C29 | proved | C29_lines, C29_empty_line_refuted |
| C30 | proved | C30_terminates, C30_edits, C30_scan, C30_children_refuted |
| C31 | proved | C31_search, C31_id_start, C31_id_continue, C31_language_refuted |
| C32 | proved | C32_round, C32_form, C32_long, C32_short, C32_refused, C32_digits_refuted, C32_style_sheet, C32_style_sheet_hex, C32_style_sheet_not_hex, C32_names, C32_names_refuted |
| C33 | proved | C33_distinct, C33_inside, C33_hash_refuted, C33_prefix_refuted |
| C34 | proved | C34_copy, C34_contents, C34_fails, C34_constants |
| C35 | proved | C35_bindings, C35_load, C35_literal, C35_plain_values, C35_one_value, C35_accent_refuted |
| C36 | proved | C36_inside, C36_no_enlarging, C36_nothing_left, C36_empty_refuted, C36_outside_refuted |
| C37 | proved | C37_distinct, C37_sizes, C37_ends, C37_exact, C37_stall_refuted, C37_float_refuted, C37_repeat_refuted |
| C38 | proved | C38_best, C38_files, C38_recorded, C38_order, C38_negative_refuted, C38_repeat_refuted, C38_left_refuted |
| C39 | proved | C39_order, C39_range, C39_changed, C39_collision_refuted |
| C40 | proved | C40_unique, C40_new, C40_targets, C40_found, C40_again, C40_other, C40_twice_refuted, C40_killed_refuted, C40_edited_refuted, C40_extension_refuted |
| C41 | proved | C41_build, C41_build_succeeds, C41_scan, C41_pop_refuted, C41_relative_refuted, C41_self_refuted |
| C42 | proved | C42_tokens, C42_once, C42_host, C42_relative_refuted, C42_none_refuted |
| C43 | proved | C43_tokens, C43_reported, C43_once, C43_href_refuted, C43_protocol_refuted |
| C44 | proved | C44_classified, C44_during_success, C44_overwrite_refuted |
| C45 | proved | C45_kept, C45_retried, C45_during_refuted, C45_during_waits_refuted |
| C46 | proved | C46_clean, C46_succeeds, C46_no_project, C46_missing_refuted, C46_confirmation, C46_confirmed, C46_no_question |
| C47 | proved | C47_dispatch |
| C48 | proved | C48_total, C48_as_written, C48_tokens |
| C49 | proved | C49_files_kept, C49_regeneration_fails |
| C50 | proved | C50_sheet, C50_files, C50_reported, C50_scan, C50_agree, C50_succeeds, C50_content, C50_base64_refuted, C50_type_refuted, C50_stale_refuted, C50_folder_refuted |
| C51 | proved | C51_build, C51_build_succeeds, C51_scan, C51_scan_succeeds, C51_style_refuted, C51_lost_refuted, C51_data_refuted |
| C52 | proved | C52_stored_graphs_stay_valid, C52_stored_inputs, C52_stored_edges, C52_stored_placeholders, C52_deleted_outputs_forgotten |
| C53 | proved | C53_second_build_does_nothing |
| C54 | proved | C54_mode_switch, C54_history_up_to_date |
| C55 | proved | C55_pieces, C55_verbatim |
| C56 | proved | C56_same_target, C56_hash_file, C56_external_refuted |
| C57 | proved | C57_comment, C57_directive, C57_request, C57_nothing, C57_buttons, C57_resolves, C57_sheet, C57_images, C57_reported, C57_scan, C57_predicted, C57_succeeds, C57_stale_refuted, C57_exact_refuted, C57_named_button_refuted |
| C58 | partial | C58_urls, C58_button_refuted |
| C60 | proved | C60_announced, C60_exact, C60_succeeds, C60_present |
| C61 | proved | C61_picture, C61_missing, C61_blank_refuted |
| C62 | proved | C62_again, C62_idle |
| C59 | proved | C59_parse, C59_total, C59_crop, C59_crop_total, C59_source, C59_command, C59_ignored, C59_fails, C59_export, C59_announce, C59_build, C59_built, C59_scan, C59_scanned, C59_agree, C59_lazy_refuted, C59_optional_refuted, C59_example_refuted, C59_brace_refuted, C59_positive_refuted, C59_public_refuted, C59_silent_refuted |
| C63 | proved | C63_used, C63_refused, C63_placeholder, C63_unreadable, C63_build, C63_built, C63_module, C63_order, C63_scan, C63_scanned, C63_present, C63_agree, C63_crop_refuted, C63_total_refuted, C63_bool_refuted, C63_silent_refuted, C63_placeholder_refuted, C63_hash_refuted |
| C64 | proved | C64_record, C64_placeholder, C64_recordable, C64_command, C64_again, C64_scan, C64_stable, C64_distinct, C64_once, C64_announced, C64_sources, C64_torn, C64_torn_stops, C64_edited_stops, C64_settings_refuted |
| C65 | proved | C65_root, C65_hex, C65_nothing, C65_total, C65_cut, C65_every_refuted, C65_buttons, C65_buttons_unnamed, C65_buttons_usual, C65_null_refuted |
| C66 | proved | C66_init_keeps, C66_init_builds, C66_new_settings, C66_settings, C66_settings_sound, C66_external, C66_constants, C66_loads, C66_exits, C66_migrate_refuted |
| C67 | proved | C67_general, C67_project, C67_clean, C67_copied, C67_constants, C67_hashes, C67_scripts, C67_served, C67_nothing_else, C67_killed_refuted, C67_handlers |
| C68 | proved | C68_correct, C68_clean, C68_copied, C68_constants, C68_hashes, C68_scripts, C68_served, C68_nothing_else, C68_sources, C68_twice |
| C69 | proved | C69_sheets, C69_imported, C69_urls, C69_whole |
| C70 | proved | C70_pages, C70_templates, C70_whole, C70_order_refuted |
| C71 | proved | C71_order, C71_same, C71_completes, C71_late, C71_ends, C71_starts, C71_scanned, C71_again, C71_first |
| C72 | proved | C72_wrong_settings, C72_quits, C72_kept, C72_recovered, C72_serves, C72_again, C72_torn, C72_torn_kept, C72_stale_refuted, C72_damaged_refuted |
| C73 | proved | C73_read, C73_clean, C73_kept, C73_fresh, C73_twice, C73_restart, C73_serves |
| C74 | proved | C74_current, C74_same, C74_rebuilt, C74_until, C74_noticed, C74_idle, C74_runs, C74_kept, C74_restart, C74_build, C74_stale_refuted |
| C75 | proved | C75_current, C75_same, C75_rebuilt, C75_until, C75_noticed, C75_runs, C75_kept, C75_restart, C75_build |
| C76 | proved | C76_folders, C76_tidy, C76_order, C76_missing, C76_project, C76_killed_refuted |
| C77 | proved | C77_harmless, C77_succeeds, C77_written, C77_ends, C77_sequential, C77_blocked, C77_retries_refuted, C77_site, C77_clash |
| C78 | proved | C78_noticed, C78_read_later, C78_link, C78_link_refuted, C78_moment_refuted, C78_time_refuted, C78_inodes_refuted, C78_swap_refuted |
| C79 | proved | C79_cwd, C79_refuses, C79_folder, C79_clean, C79_stops, C79_noted, C79_told, C79_stays, C79_serves, C79_hangs, C79_interrupt_refuted, C79_watch_refuted, C79_observer_refuted |
<!-- end theorems -->
