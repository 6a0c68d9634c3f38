# Formal model of markbates/pkger in Rocq (Coq 8.16.1)

The model is in `rocq/theories/`, the list of claims in `MANIFEST.json`, the
properties in `properties.jsonl`, the record of mutation tests in
`seeded/LOG.jsonl`. Build: `cd rocq && coq_makefile -f _CoqProject -o Makefile && make -j4`.

## Reading guide

* A file `X.v` models code; its definitions cite the lines of /repo they model.
  `XSpec.v`, or the first part of a `Props*.v` file, holds the specification
  vocabulary; the theorems named in MANIFEST.json are in `Props*.v`, each
  followed by an `Example ..._ex` that meets its hypotheses with concrete data.
* `..._partial`: proved under conditions the English property does not have
  (or for part of it); the comment above it states the full property and what
  is missing. `..._refuted`: the property is false of the code; the theorem
  exhibits a witness. Theorems without suffix state the whole of what their
  comment says.
* A property whose status is `partial` in the manifest together with a
  `_refuted` theorem is one the code does not have; the `_partial` theorem says
  under which conditions it holds.

## Trusted base

1. The Coq kernel (8.16.1), including its `vm_compute` machine.
2. No axioms. `rocq/theories/Assumptions.v` runs `Print Assumptions` on every
   theorem named in the manifest; each answers "Closed under the global
   context". (The libraries loaded contain the seven constants of
   `Coq.ssr.ssrunder.Under_rel`, which are sealed by a module signature in the
   standard library; no theorem depends on them.)
3. std++ (coq-stdpp), a library checked by the kernel, for lists, finite maps
   and sorting.
4. That the definitions describe the Go code. Nothing here was run: the
   model was written by reading /repo, and the parts of /repo's behaviour that
   come from outside /repo were written from knowledge of those libraries:

| Outside /repo | Where | How it enters |
|---|---|---|
| `here.Info.Parse` of gobuffalo/here v0.6.0 | Here.v | Every model takes the resolver as a parameter. `here_parse` is a concrete one **recalled from memory**, since the dependency is not available here. Results that need it name it in their statement; results about an arbitrary `parse` do not depend on it. |
| `here.Dir`, `here.Package`, `here.Current` | parameters `hdir`, `hpkg`, `hp` | Arbitrary functions (they run `go list`). |
| `path`, `path/filepath` (Clean, Join, Base, Dir, Split, Walk) | GoPath.v, Disk.v | Written from the documented algorithm, Unix only; C141 compares it with the documented rules. Windows is not modelled. |
| `os` (Stat, Open, Create, MkdirAll, Remove, RemoveAll, Readdir) | Disk.v, DiskOps.v, Errors.v (IsNotExist) | A tree without special files; nobody else changes it. A path is cleaned before it is looked up, which is exact for clean paths (C141_names, C141_nowhere_refuted); /repo hands os the results of Join. Symbolic links only where C132 and C133 are about them (Links.v); elsewhere the tree has none. |
| `encoding/json`, `unicode/utf8`, `encoding/base64`, `encoding/hex`, RFC 3339 in `time` | JsonStr.v, JsonText.v, Indent.v, Base64.v, Embed.v, GoTimeFmt.v, GoNum.v; RawJson.v, Decode.v (json.Unmarshal) | Modelled to the byte for the values /repo writes; the scanner accepts exactly the texts of RFC 8259 (JsonSpec.v, RawJson.v); the decoder into structs with the simplifications listed in Decode.v; a Sys value is kept as its JSON (C144). |
| `compress/gzip` | Embed.v | Two functions, assumed only to satisfy `gunzip (gz x) = Ok x`, stated as a premise of the theorems. |
| `strconv.Unquote`, `strconv.ParseBool`, `flag` | GoQuote.v, Cli.v | Modelled from the standard library's algorithm; C71 and C142 compare Unquote with the literals of the Go specification. |
| `go/parser`, `go/ast` | Source.v, Project.v | A syntax tree is an input; the function from file texts to syntax trees is a parameter (`gosrc`). go/parser.ParseDir's choice of files (regular, name ending in .go) is modelled. |
| `sync.RWMutex`, `sync.Once`, `sync.Map` | Apply.v, Maps.v, Conc.v | Atomic steps under sequential consistency; a sync.Map Range in Conc.v takes a list of keys and looks them up one by one. Races on plain fields have undefined behaviour in Go; the refutations that use them (C44, C105) show one interleaving. |
| `net/http` (FileServer, http.Dir), `mime`, `url`, `html` escaping | Http.v, Precond.v, CondHeaders.v | fs.go of Go 1.13 recalled from memory: serveFile, serveContent, dirList, parseRange, toHTTPError, checkIfModifiedSince. GET and HEAD only; the headers If-Match, If-None-Match, If-Range and If-Unmodified-Since are in Precond.v only (C136, C137), given read: tags as text, dates as seconds, and no Etag of the response; the date of If-Modified-Since is given as seconds; how the texts are read is in CondHeaders.v (C139): time.Parse for the three layouts of http.ParseTime, without the zone names of RFC 850 dates (a parameter) and with fractions of a second dropped, scanETag, the loops over tags, with and without the "continue" after a comma that older versions of Go lack; media types by extension and by content are arbitrary functions; one request at a time except in Requests.v (C135), where each request is a goroutine; writing to the client never fails. |
| int64, int | Mem.v | File offsets wrap as int64 where the code adds them (Seek); lengths are assumed to fit. |

## What is modelled

| /repo | Model | Not modelled |
|---|---|---|
| pkging/mem/mem.go, file.go, add.go | Mem.v, Pack.v, Conc.v, PropsSerial.v, Share.v and ShareRead.v (several goroutines), Both.v and Handles.v (programs, beside stdos), Links.v (Add with symbolic links) | String methods; errors are kinds, not texts |
| pkging/mem/embed.go, pkging/embed/*.go | Marshal.v, Decode.v, Embed.v, NilInfo.v (files without info) | see headers of Marshal.v and Decode.v |
| pkging/file_info.go, mod_time.go | GoTypes.v, GoTimeFmt.v, Cmds.v (String) | - |
| pkging/wrap.go, pkger.go, apply.go | Wrap.v, Layers.v, Apply.v, Http.v and LayersHttp.v (Dir) | String of a wrapped pkger |
| pkging/stdos/*.go | Std.v, DiskOps.v, Both.v, Handles.v | of os.File: Read, Seek, Write, Close, Readdir only, for a file still at its path |
| pkging/pkgutil/stuff.go, dump.go | Pack.v, Dump.v, Links.v | - |
| internal/maps/*.go | Mem.v (sequential), Maps.v (concurrent), MapsJson.v (MarshalJSON, UnmarshalJSON: not called by /repo) | String |
| parser/{decl,open,walk,include,stat,http,create,mkdir,file}.go | Decls.v, Cmds.v (MarshalJSON), Quote.v (String of Include and Stat) | String of the others (the JSON of MarshalJSON, errors dropped); positions are opaque values |
| parser/source.go | Source.v | source positions |
| parser/parser.go | ParserDirs.v, Project.v, Decls.v, ParserApi.v, Links.v | - |
| cmd/pkger/main.go, cmds/*.go | Cli.v (options, dispatch), Package.v (crashes and failing writes), Cmds.v (what each command prints and does to the disk), PropsAgain.v (`killed`: what is on disk when a packing run is killed) | Usage texts, standard error, failing standard output, what `go mod tidy` changes; http.ListenAndServe only as the error it returns |
| examples/{open,stat,walk}/{pkger,std}/main.go, examples/dynamic/pkger/main.go | Examples.v (run, and the sources as syntax trees); InStep.v says when a packed walk has the order of the disk | how modes and times are written and text/tabwriter are arbitrary functions; the location of a time.Time; what examples/http serves is C146; what examples/dynamic prints of Stat is C144, its calls (as they are made if none fails) are C145 |
| pkging/pkgtest, other examples, *_test.go | RepoTests.v replays tests | test support, not part of the product |

Simplifications are stated in the header of each file. The main ones: a nil
`info` pointer never occurs in files made through the API; `nil` and empty
slices are one value; time.Now is an input; values returned beside a non-nil
error are dropped (except where a property is about them); paths are Unix.

## What the model found

The refuted properties, i.e. behaviour of the code that contradicts its
documentation or what a user would expect (details in the comments of the
`_refuted` theorems). Those marked (r) depend on the recalled resolver, i.e.
are only as certain as the recollection of gobuffalo/here.

* Reading: an empty packed file cannot be read, Read fails with an error that
  is not io.EOF (C02, C39, C54); a closed file can still be read (C07);
  Readdir(n) never continues or ends (C22); Stat's info changes later (C10).
* In-memory tree operations work on text prefixes: RemoveAll, Walk, SkipDir
  and Readdir on `/a` also affect `/ab` (C13, C18, C19, C21); RemoveAll crosses
  packages (C13); Remove takes non-empty directories (C12); Create and MkdirAll
  overwrite what is there (C14, C16); MkdirAll may not terminate when the
  package directory is `/` (C17, r).
* Directories carry no directory bit in Mode (C46). A failing Create has already
  replaced the root (C123); os.IsNotExist does not recognise the errors of Stat,
  Remove and Create for what is missing (C124).
* Served directories: backslashes, colons and package names in a request leave
  the directory, in memory (C23, r) and on disk, where any file of the machine
  can be reached (C91, r); the directory hides a child of its own name (C55,
  C94). pkger.Dir leaves a file open per request (C97); missing files may be
  answered with 200 or 500 (C98, r); pages leave out children (C94, C95).
* Stacks of layers: a name in only some layers cannot be removed (C61), is
  visited twice when in two (C62); a directory served through a stack shows
  only the newest layer that has it (C127).
* Open files: a handle goes on reading the old bytes after the file is
  rewritten; bytes appear only on Close; writing to a file opened for reading
  appears to work; a file may be closed twice and read afterwards - all unlike
  on disk (C128).
* Marshalling: names that are not UTF-8 change (C65), `null` panics (C66),
  a payload with a file without info loads and panics in Open (C101),
  a time spelled with an escape makes a payload unreadable (C120),
  times outside RFC 3339 cannot be packed (C32).
* Scanning: calls that cannot be resolved are dropped without an error (C36);
  some legal constants crash or hang the scanner (C37); folders that merely
  start like an ignored one are ignored (C38); calls under a renamed import are
  missed, method calls on a variable called pkger are taken (C111); DeclsMap
  after Decls mixes two scans (C109).
* Packing: .tmp files inside packed directories are packed (C40); files below
  run-time directories are packed though not listed (C41); a failing run
  destroys the previous output and may leave part of a file (C42, C73), and may
  report success (C43); two runs on the same module may write different bytes
  (C80, r); with `-include /` the program contains a truncated copy of its own
  generated file, which `list` does not show (C90, r); a pkged.go generated with
  another -o stays and is packed by later runs that reach it (C147, r); after a
  failed write the file may still compile, with part of the payload (C148).
* Requests: a page listing a directory that is being changed can show a state the
  directory was never in, or be an error (C135, r); a resumed download can be half
  of each of two versions of the same second (C137, r).
* Symbolic links: a link to a directory inside or as what is packed makes packing
  fail; a link to a file may show the link's size and mode with the file's bytes
  (C132). A linked directory of Go files is not scanned, and a module whose
  directory is a link is packed empty without an error; an editor's lock file
  ending in .go makes the scan fail (C133).
* Command line: `list` deletes the generated file (C72); options before a
  subcommand are dropped (C74); `serve` takes its own option for the path
  (C88); bad options end the program without tidying (C75); `list` prints a
  line for no file if a name contains a newline (C87, r).
* On disk: MkdirAll ignores the package of a qualified path (C48); a directory
  opened from a dependency serves the current module's files (C49); the info of
  an open file goes stale (C77).
* Concurrency: two first uses of a fresh map may lose an entry (C44); two
  Removes of a file both succeed (C103); Walk fails if an entry is removed
  meanwhile (C104); Open during Close gives the old size with the new content
  (C105); Create during RemoveAll leaves a file without its directory (C107).

## How the theorems were tested

The repository's own unit tests: RepoTests.v replays the tests of pkger_test.go,
parser/parser_test.go, pkging/mem, pkging/stdos, pkging/pkgutil and the suite of
pkging/pkgtest on the model, with the module of pkging/pkgtest/testdata/ref (14
directories, 20 files, 11 declarations, 25 packed files), and computes what they
assert. Test_Encoding and Test_ModTime are instances of C28 and C32.

Mutation testing: realistic bugs were put into the model in a scratch copy and
everything rebuilt; proofs that fail are admitted one by one and the theorems
depending on them collected, so that one run shows everything a bug breaks.
This over-counts: a proof may break because its script is brittle although the
statement is still true. Evidence that a claim really is false in the mutant
are the failing `_ex` examples and refutations (computed cases), and the
argument recorded for each entry in `seeded/LOG.jsonl`. Where a mutation broke
the English claim and the theorems survived, they were tightened; the log says
which. Entries with a field "first_failing_proof" come from small mechanical edits (an operator,
a constant, a branch): "failed" lists the theorems depending on the first proof
that fails, and "claim" the titles of the properties they belong to.

## Plan and outcome per property

One line each: how it was approached, then the outcome (the same text as in MANIFEST.json).

* **C01 Create/Write/Close/Open/Read round trip (embedded pkger)** - Heap model of mem.Pkger/mem.File (Mem.v). Theorem over any state, any list of writes; reading via a read-all loop with any positive buffer sizes. Induction on the write list / remaining bytes. *proved*.
* **C02 Read signals end of file with (0, io.EOF)** - Same model. Non-empty: proved. Empty: the code returns an ordinary error, so `_refuted` plus `_partial`. *partial*: Holds for non-empty files. Refuted for empty files: Read fails with another error, never io.EOF.
* **C03 Read/Seek behave as a cursor over fixed bytes** - Refinement of File.Read/Seek to a cursor (content, position : Z) for every op list; int64 wrap modelled. Empty content differs (refuted), hence partial. *partial*: Proved for non-empty content. For empty content every Read fails and every Seek answers (0,nil): C03_empty is exact, C03_empty_refuted the witness.
* **C04 An opened file is a snapshot** - Frame theorem: op steps not using handle h keep h's object and its info cell; induction over op lists with heap well-formedness invariant. *proved*: Content (via C03_C04) and info of an opened handle.
* **C05 Writes become visible only at Close** - Abstract committed-content map; every op except Close of the stored object leaves it unchanged. *proved*.
* **C06 Handles returned by Open are read-only** - Invariant: object returned by Open is not reachable from the name table; induction over ops. *proved*.
* **C07 Close renders a file unusable for I/O** - Refuted: Close only drops reader/writer; `_refuted` + exact behaviour `_partial`. *partial*: Refuted: Read after Close delivers the content again.
* **C08 Reported Size equals the content length** - Invariant by induction over op lists. *proved*.
* **C09 Open and Stat agree** - Direct theorem over all states satisfying the heap invariant. *proved*.
* **C10 FileInfo values are stable snapshots** - Stat returns a pointer shared with the stored file: `_refuted`; Walk/Readdir/opened-handle infos proved stable. *partial*: Stat hands out the stored file's own info; Close through a handle changes it. Proved for infos of opened handles.
* **C11 Remove removes exactly the named entry** - Direct + frame theorem. *proved*.
* **C12 Remove refuses a non-empty directory** - `_refuted` witness; `_partial` says what Remove does. *partial*: Refuted: Remove of a non-empty directory succeeds.
* **C13 RemoveAll removes the path and its descendants, and nothing else** - Half proved (descendants gone, nil), half refuted (string-prefix siblings, other packages); exact characterisation proved. *partial*: Descendants go, nil is returned, exact removed set proved; siblings sharing the text and other packages are removed too (refuted).
* **C14 Create makes an empty regular file and leaves other entries alone** - Proved parts; clobbering a directory refuted. *partial*: Exact success condition, resulting entry and frame proved. Refuted: it replaces a directory and creates below a regular file.
* **C15 MkdirAll creates every missing ancestor** - Induction on path components for the current package; refuted for other packages. *partial*: The target itself, for every resolver; all ancestors below the root for plain names of the current package. Refuted: the root is not created, and ancestors of another package's path are created in the current package.
* **C16 MkdirAll does not clobber** - Refuted (re-creates and overwrites); frame part proved. *partial*: Other entries unaffected (proved). Refuted: existing files and directories are overwritten.
* **C17 MkdirAll terminates** - Termination with the recalled resolver: fuel bound theorem. *partial*: Termination with an explicit bound for the recalled resolver unless the package directory is '/'; there MkdirAll('/') and every Create diverge (refuted).
* **C18 Walk visits exactly the subtree, once each, in lexical order** - Walk over sorted keys; sortedness, once-each, completeness proved; 'nothing else' and filepath.Walk order refuted; proved under a separation condition. *partial*: Exact visited list proved; equals the subtree under a separation condition (none for the root); filepath.Walk order exactly when no name sorts between a directory's and those of what is in it. Otherwise refuted.
* **C19 SkipDir prunes exactly the skipped directory** - Exact characterisation for stateless callbacks: pruned set = string-prefix set; sibling pruning refuted. *partial*: Exact pruned set proved; equals the directory's descendants under separation; refuted in general.
* **C20 Walk stops at the first callback error** - Induction over the visited list, arbitrary stateful callback. *proved*.
* **C21 Readdir lists exactly the immediate children** - Exact characterisation, refuted witness, and equality with the children under separation. *partial*: Proved on well-formed trees; refuted in general (text-prefix siblings listed, files dropped).
* **C22 Readdir(n) paging** - At-most-n proved; continuation/EOF refuted. *partial*: At most n, the first n. No continuation, never io.EOF (refuted).
* **C23 A served directory cannot be escaped** - Containment from path.Clean algebra for resolvers that return dot-dot free names; refuted for the recalled resolver with backslashes. *partial*: Containment for requests resolving to clean names of the directory's package; refuted for backslashes, colons, other packages. On-disk pkger: C91.
* **C24 Layered reads resolve to the most recently applied layer that succeeds** - Generic layers over an arbitrary world; induction over the list of Apply calls. *proved*: For any layers (any behaviour on any world) and any history of Apply calls. Values returned together with an error are not modelled.
* **C25 Layered mutations and walks run through all layers until the first error** - As C24. *proved*: For any layers and any history of Apply calls.
* **C26 Concurrent Apply loses no layer** - Interleaving state machine with an RWMutex; invariant over schedules. *proved*: Interleaving model of Apply/impl and the RWMutex with sequentially consistent atomic steps (the lock orders all accesses to current).
* **C27 Apply with an error installs nothing; disk is used only while no layer is applied** - As C26, sequential part. *proved*: Sequential histories (Wrap.v) and goroutines (Apply.v).
* **C28 Decode inverts Encode** - Hex modelled concretely, gzip as a Section variable with its round-trip law as explicit premise. *proved*: compress/gzip is a pair of functions assumed only to satisfy gunzip (gz x) = Ok x; hex is modelled byte by byte.
* **C29 The generated source carries the payload intact** - Alphabet lemma on hex + raw-string literal reader. *proved*: The package name printed in the header is assumed free of back quotes (Go identifiers are).
* **C30 Marshal/Unmarshal preserves every file** - JSON value model of embed.Data; round trip at the level of API answers. *partial*: JSON text, base64, RFC 3339 and the struct layer are modelled to the byte. Proved for states whose strings are UTF-8, times representable and whose stored paths resolve back from their printed form; refuted for a path stored unclean. C30_canonical and C30_refuted depend on the recalled resolver.
* **C31 Marshalling is deterministic** - Permutation-invariance of the encoder. *partial*: Proved when stored paths print differently; refuted by a reachable state storing the root under two names that print alike (recalled resolver).
* **C32 ModTime JSON round trip** - Concrete RFC3339Nano formatter/parser, proleptic Gregorian calendar; round trip for representable times, refuted outside. *partial*: Holds for years 0-9999 and offsets of whole minutes below 100 h; refuted outside by concrete times. package time is modelled from the Go standard library.
* **C33 Files() lists each file once, sorted by path** - Model of Decls.Files over a disk tree; sortedness/NoDup by construction lemmas. *proved*: For any disk, resolver, here.Dir and map iteration order.
* **C34 Files() is complete and leaves out virtual paths** - As C33, induction over trees; exact exclusion rule. *partial*: Exact listing and exact failure condition when every declaration lies in one readable module, run-time declarations come first, and no absolute path doubles as a name inside a module; the claim as worded follows when names are spelled without package and no packed declaration is below a run-time one. Refuted otherwise: package-qualified run-time names, declarations below a run-time directory, module in the root directory.
* **C35 The set of packed files does not depend on the order declarations were discovered** - As C33: set of Abs invariant under permutation of the non-virtual declarations. *partial*: Under the conditions of C34; refuted when a module contains its own path (an absolute path is taken for a name).
* **C36 Every resolvable pkger call in the source is found, and unresolvable ones are reported** - AST model; completeness proved; error reporting refuted (errors are overwritten by nil). *partial*: If every call resolves, one declaration per call in source order (any tree, resolver, lookup); otherwise the exact set found. Refuted: unresolvable calls and calls without argument are dropped without error, and calls nested inside them are lost.
* **C37 Scanning never crashes** - Refuted: nil Obj, missing const value, self-referential const; proved for files whose identifiers resolve. *partial*: Ends normally when evaluating each argument does. Refuted: panics for constants of another file and implicitly repeated constants; unbounded recursion for cyclic constants.
* **C38 Only the ignored folders are ignored** - Directory-tree model; exact rule proved; refuted for names with an ignored prefix and for the root. *partial*: Exact set of parsed directories proved; the claim holds when the root's name is not ignored and no name merely starts like an ignored one. Refuted: 'vendors' is skipped, a module in a directory 'vendored' is not scanned. What is found in a directory: C78.
* **C39 Packing is faithful end to end** - Composition of the models. *partial*: Proved (bytes, size, mode, directory flag, time) for listed files of one module packed from its root package, for any map and directory order and any resolver meeting the record packing; recalled resolver shown to meet it. Refuted: empty files cannot be read back; packing from a sub-package stores files under absolute names; a file below a copy of the module's own path overwrites another.
* **C40 Temporary files are never packed** - Refuted for files inside an included directory; partial for directly listed files. *partial*: Proved when every listed entry is a regular file; refuted: a .tmp file inside a packed directory is packed with the directory.
* **C41 Only listed files are packed** - Refuted (Add of a directory is recursive); exact embedded set proved. *partial*: Exact embedded set proved under the conditions of C39; refuted: a listed .tmp file is not packed; files below a run-time directory are packed though not listed.
* **C42 A failed pack leaves no broken output** - Crash/failure state machine of Package; refuted, exact states characterised. *partial*: Fault-free or panicking runs end with no file, the old one, or a complete one. Refuted: every proper prefix of the file is visible to a crash; a Stuff error leaves the header behind.
* **C43 Package reports failure** - Refuted (write error and panic are swallowed); partial. *partial*: Errors before and inside Stuff are reported exactly. Refuted: every failing write is dropped, a panic returns nil with no file.
* **C44 Concurrent first use of a fresh pkger loses nothing** - Interleaving model of maps.Files.Data; refuted for uninitialised, proved once initialised. *partial*: Interleaving model of the two steps of the maps' init and use under sequential consistency. Refuted: an operation that read the map before the initialiser replaced it is lost. Proved: no crash, nothing stored after settling is lost, a single thread is right.
* **C45 Stale handles are harmless** - Same invariant as C06. *proved*.
* **C46 Directories report a directory mode** - Direct; Mode part refuted. *partial*: IsDir, mode = perm, base name proved; Mode().IsDir() refuted.
* **C47 Package-qualified and plain paths address the same entry** - Recalled resolver; canonical path round trip. *partial*: Proved for plain names not starting with the text of the package directory (recalled resolver); refuted for those.
* **C48 On-disk pkger: MkdirAll makes the directory that Stat finds** - stdos over an abstract os; qualified MkdirAll refuted. *partial*: Create, Open, Stat, Remove, RemoveAll address one file, for every resolver and package lookup (full). MkdirAll joins the unparsed path: proved for plain names, refuted for package-qualified and absolute ones.
* **C49 On-disk pkger: opened directories keep their package** - Refuted; partial for the current package. *partial*: Refuted for directories of a dependency: the current module's file is served. Proved when the joined name resolves to the directory's package, e.g. in the current module.
* **C50 On-disk pkger: Info is cached consistently** - State machine over call histories with an arbitrary resolver oracle. *proved*.
* **C51 On-disk Walk names paths relative to the package** - filepath.Walk tree model. *partial*: Equal to filepath.Walk with renamed callback, exact names proved, for module directories other than / and names without backslash; refuted otherwise.
* **C52 CLI dispatch** - Route modelled after flag parsing (flag package trusted). *proved*: Exact dispatch for every argument list, 'first argument' meaning the first after the options; options ending the process are characterised. Go's flag package is modelled from the standard library.
* **C53 Dump reports every entry** - Corollary of Walk. *partial*: Exact map of paths proved for reachable in-memory pkgers and for disk trees (no backslash names, module not in /); the text written reads back as that map. Refuted: an entry stored under the empty name is left out.
* **C54 Embedded pkger answers like the disk it was packed from** - Composition: Stat/Open proved, Walk order partial. *partial*: Stat, Open, Read agree for packed files (non-empty files, non-zero buffers); Walk delivers the same calls, in the same order exactly when no name sorts between a directory's and those of what is in it. Refuted for empty files, zero-length reads and Walk order.
* **C55 A served directory never hides its own sub-directory of the same name** - With C23: same model of File.Open. *partial*: Proved unless the request resolves to the directory's own path; refuted there.
* **C56 Walk of a missing root is reported** - Refuted on the Walk model. *partial*: C56_missing_root: Walk of such a root never calls the callback and returns nil, in every state. C56_missing_root_refuted: hence the claim fails, with a callback that would fail on every call.
* **C57 SkipDir on a file skips the rest of its directory** - Refuted on the Walk model. *partial*: C57_skip_file_refuted: the file beside the skipped one is still visited.
* **C58 A pkger accepts files of its own package** - From the success conditions of Create. *partial*: Proved when ImportPath = Module.Path; refuted otherwise.
* **C59 A created file reports the last element of its path** - From the model of Create and path.Base. *partial*: Proved for plain names; refuted for names with backslashes.
* **C60 A name with a colon is not mistaken for another file** - Refuted with the recalled resolver. *partial*: Refuted (recalled resolver): text after the colon is dropped.
* **C61 Remove through a stack removes what the stack shows** - The in-memory pkger as a layer (Layers.v). *partial*: Succeeds exactly if every layer stores the name. Refuted as stated: a name only in some layers cannot be removed, and the error may come after a layer was changed.
* **C62 Walk through a stack visits each name once** - As C61. *partial*: Visits each layer's listing, last applied first; refuted: names in two layers are visited twice.
* **C63 Open after Create through a stack opens the created file** - As C61. *partial*: Holds if the last applied layer could create the file; refuted otherwise.
* **C64 The global lock cannot deadlock** - Measure on the state machine of C26. *proved*.
* **C65 Names survive embedding byte for byte** - UTF-8 and JSON string model. *partial*: A string survives exactly when it is UTF-8 (pinned against RFC 3629 by C65_utf8, the JSON reader against RFC 8259 by C65_json); refuted by two non-UTF-8 names that become one.
* **C66 UnmarshalEmbed does not panic** - Model of UnmarshalJSON with nil pointers as a panic; files without info in NilInfo.v. *partial*: The text null, and nothing else, makes it panic (C66_only_null); files without info are modelled as nil pointers (NilInfo.v).
* **C67 Re-marshalling is stable** - From C30. *proved*: Same conditions as C30.
* **C68 The generated program starts with the packed files** - Composition of C28-C30. *proved*: Same conditions as C30; gzip is any pair of functions with gunzip (gz x) = Ok x.
* **C69 A packed file is attributed to its own module** - Walk with the running here.Info as state. *partial*: When each declaration's tree is one module; refuted for nested modules (stale here.Info after leaving a sub-directory).
* **C70 An include on the command line names the file that pkger.Include names** - NewInclude against the source scanner. *partial*: Proved in the module's root package; refuted elsewhere (recalled resolver) when the module root is not a package.
* **C71 String literals are read as Go reads them** - strconv.Unquote against a separate grammar of Go literals. *proved*: C71_every quantifies over the grammar of the Go specification (\u escapes of surrogates, which the compiler rejects, are outside it). strconv.Unquote is modelled from the Go standard library.
* **C73 A failing run keeps the previous output** - As C42. *partial*: Refuted: the old output is removed before parsing, for every failure. Proved: success replaces it.
* **C72 Listing is read-only** - Model of listCmd.Exec. *partial*: Refuted for every use of list: the generated file is gone afterwards. Everything beside it is left alone.
* **C74 Options take effect wherever the flag package accepts them** - Model of package flag. *partial*: Reading of options proved exact (C74_flags); refuted: options before a subcommand are dropped.
* **C75 Exit status and clean-up** - Model of main and clean. *partial*: Status 0 characterised for every command line; refuted: bad options exit without tidying.
* **C76 On-disk changes touch only their target** - Frame theorems on the tree. *proved*.
* **C77 Stat of an open on-disk file is up to date** - Model of stdos.File.Stat. *partial*: Refuted: the info is taken at Create and kept. Proved that it never changes and that the pkger's Stat is right.
* **C78 Every pkger call in the module's sources is found** - Model ParseDir and put it into the walk; describe the walk by the directories visited; compose with C36. Refutation: a nested call in main.go. *partial*: For modules in which every call names a path (unresolvable calls: see C36); refuted without that: a call nested in one that cannot be resolved is lost. go/parser is a parameter.
* **C79 A file named in a source is served by the built program** - Compose C78, C34, C39. *partial*: Composition of C78, C34, C39. For modules whose calls all name a path (refuted without that) and whose packed declarations lie in the module's own directory; gzip assumed invertible; empty files cannot be read (C39).
* **C80 Packing is reproducible** - The listed absolute paths form the same sorted list for any orders; Stuff uses nothing else; C31 for the JSON. *partial*: Proved for modules whose packed declarations lie in the module's own directory under the module's name. Refuted in general: opening a directory in one file and, qualified by its package, a file of it in another.
* **C81 No declaration is invented** - Soundness of each scanning step, by induction on syntax tree and file tree. *proved*: Premise on sources: an identifier is not a quoted string.
* **C82 A source that cannot be parsed stops packing** - Inversion of a successful walk. *proved*.
* **C83 info prints what is known about each package** - Invariant of the info cache; JSON text reads back (Indent.v). *proved*: For names that are UTF-8.
* **C84 path prints what each argument stands for** - The loop's map characterised; indented JSON reads back. *proved*: For names that are UTF-8.
* **C85 parse prints all declarations of each package** - As C84, with readers for declarations. *proved*: For names that are UTF-8; source positions are opaque values.
* **C86 stat prints the details of files and directories** - The loop in turn; FileInfo.String reads back. *proved*: For details that JSON can hold (C32).
* **C87 list prints the files to be packed** - exec_list against split_args and files; lines of the text. *partial*: -json: proved for UTF-8 names; without files the member Files is null, not an array (C87_array). Lines: for paths without newlines; refuted for a file name with a newline.
* **C88 Subcommands honour the options they declare** - serve's Exec never calls Parse. *partial*: Refuted: serve declares -exclude but never parses its arguments. list, path and parse honour theirs (C84, C85, C87).
* **C89 Packing touches only its output** - Each file operation changes only its target (upd_beside); contents of the output step by step. *proved*.
* **C90 The generated file is not packed into itself** - Stuff runs when the output holds the header; C41 for the positive part. *partial*: Refuted when a declaration covers the output; holds when no listed file is at or above it.
* **C91 Serving from disk stays inside the served directory** - Witnesses with the recalled resolver; C49 for the positive part. *partial*: Refuted (recalled resolver) for backslashes, and for requests starting with the module's directory; holds for plain requests.
* **C92 GET of an embedded file returns the file** - serve_answer: the server with any lawful file system equals a pure function of what the file system shows; mem_server_lawful. *partial*: Holds for names that resolve below the served directory and files that state their length. Refuted for a file added with a wrong size.
* **C93 Range requests return exactly the bytes asked for** - parse_range_text reads back every written list of ranges; then as C92. *partial*: Holds for non-empty files under the hypotheses of C92. Refuted for the last bytes of an empty file (a flaw of net/http 1.13).
* **C94 The page of an embedded directory lists exactly its children** - readdir_children, sorting to one canonical page; then as C92. *partial*: Holds for well formed subtrees (as C21). Refuted for siblings whose names share a prefix, and for a sub-directory named like the served directory.
* **C95 The packed program serves what http.Dir serves** - same_opening of the two sites from entry_same/entry_only, then answer_same. *partial*: Holds for packed directories without sibling-prefix clashes and requests that resolve in the package; on disk for paths that do not go through a regular file. Refuted for a sibling-prefix clash; C98 and C49 for the other cases.
* **C96 If-Modified-Since is honoured** - As C92. *partial*: Under the hypotheses of C92, comparing whole seconds. Refuted as stated: a modification within the same second, and files dated at the Unix epoch or the zero time, which are never answered with 304.
* **C97 Serving leaves no file open** - Count descriptors through serve (serve_count). *partial*: Holds for an opened directory and for http.Dir. Refuted for pkger.Dir: at least one file is left open per request.
* **C98 What does not exist is answered with 404** - As C92. *partial*: Holds for names that resolve. Refuted for unreadable names (500), for names with a colon (200), and on disk for names through a regular file (500).
* **C99 Requests are independent of each other** - serve_all_same: two runs from states with the same files and infos give the same answers, whatever the handles. *proved*: Any open directory handle without a writer; no limit on the stated sizes.
* **C100 pkger.Dir serves like the opened directory** - Both servers refine the same site up to handles (serve_all_same); std_dir_site equals std_site. *proved*: In memory for every well-formed pkger; on disk for every tree.
* **C101 No embedded payload can crash the program later** - NilInfo.v: files with an optional info. Refuted; partial for payloads that give all infos. *partial*: Refuted: a file without info loads and Open panics. Holds for every payload that gives all files an info, which includes everything MarshalJSON writes. C101_same: with no info missing, Open, Stat and Walk of this model are those of Mem.v, errors included.
* **C102 Goroutines making different files do not disturb each other** - Conc.v: programs of atomic steps. Rely/guarantee with ownership of unshared objects (ConcProofs.v). *proved*: Statement limited to different files; steps are the accesses to shared maps and fields (see header of Conc.v).
* **C103 Of several Removes of a file exactly one succeeds** - Rely/guarantee with `entries only disappear`; refuted for the answers. *partial*: What is removed is exact; but two Removes of one file may both return nil (C103_once_refuted).
* **C104 Walk during other calls** - As C102: keys stay, so every Load succeeds. Refuted against Remove by a schedule. *partial*: Proved while others make, read and walk. With a Remove at the same time Walk fails with ErrNotExist (refuted).
* **C105 Open during Close gives a consistent file** - A schedule. *partial*: Refuted: old size with new content. For files nobody writes see C106.
* **C106 Readers are undisturbed** - As C102: a reader's handle is its own, the stored file is stable. *proved*: C106_content says what they get for files with content.
* **C107 No file without its directory** - A schedule. *partial*: Refuted.
* **C108 Decls always looks at the disk** - State machine of a Parser; parse_run is parse_all with the declarations found up to an error. *proved*.
* **C109 DeclsMap keeps the result of the first parse** - Induction over the calls. *partial*: Proved as long as Decls is not called; Decls replaces the declarations but not the stored error (refuted).
* **C110 A file parsed alone is the file found in its directory** - Read both functions off the tree. *proved*: go/parser is a parameter; parser.Mode is ignored by the code.
* **C111 Pkger calls are those of package pkger** - all_calls as the sub-terms that are pkger calls; compare with a specification using the imports. *partial*: For files that import pkger under its own name and declare nothing of that name; refuted for a renamed import and for a variable called pkger.
* **C112 A program does the same in memory and on disk** - Simulation: a plain tree as specification, mem_shows and disk_shows preserved by each calm action; induction over the program. *partial*: For calm programs: no file made inside a file or over a directory, no directory inside a file, no removal of a non-empty directory, no RemoveAll below a file or where another name begins with the same text, no read of an empty file or into an empty buffer. Each of these is refuted (C112_refuted). C112_fresh_partial starts with nothing, C112_packed_partial with what was packed.
* **C113 After a program both pkgers walk the same tree** - From mem_shows and disk_shows: both listings have the entries of the tree; sortedness gives the order. *partial*: For existing names whose text no other name begins with; the same order exactly when no name sorts between a directory's and those of what is in it. C113_packed_partial compares a packed program with the directory it was packed from. Refuted otherwise.
* **C114 The links of the page of a directory lead to its children** - Read the page with a separate reader (entities undone, percent escapes undone); escape then read is the identity byte by byte; then C92 for the child's URL. *partial*: How a browser reads a page (entities, percent escapes, relative references) is specified apart from the server's escaping functions. C114_links is unconditional; following the links has the hypotheses of C92 and C94.
* **C115 The Last-Modified date sent is the file's date, and sending it back gets 304** - day_number is days_of_date plus one; civil inverts it (civil_spec); the pieces of the text have fixed widths, so it can be read back; then C96. *partial*: The calendar and the date format are specified apart from the model's. Date and uniqueness hold for every second of the years 0 to 9999; refuted for later years. The 304 answer has the hypotheses of C92 and C96 (not the Unix epoch). C115_left_out: for which instants no date is sent.
* **C116 The JSON of an Infos map reads back as that map** - From the JSON round trip of Marshal.v; the panic by induction over the calls. *partial*: Round trip for maps whose strings are UTF-8; order independence and Keys unconditional. Refuted: MarshalJSON panics on a map without data, exactly after calls that stored nothing (C116_panics), e.g. one read from {}.
* **C117 The JSON of a Files map reads back as that map** - The values are of an interface type with methods, which encoding/json refuses; one such member makes the whole text fail. *partial*: Refuted: C117_never shows that the JSON of any map holding a file (paths in UTF-8) is refused, whatever the receiver; and a null entry makes Keys depend on Range order.
* **C118 Goroutines making the same file at once leave one of the contents, whole** - A new object per Create, owned by its goroutine; every file entry stored since the start belongs to some goroutine, and each goroutine stores one object only. A rely-guarantee argument like that of C102 with no path reserved for anyone. *proved*: C118_whole for the end of every interleaving, C118_rest for the other files at every moment. Names resolving to the root directory, which Create itself makes, are excluded.
* **C119 An Include or Stat declaration shows the call that makes it** - strconv.Quote modelled rune by rune; its output is shown to be a literal of the grammar used for C71, then C71_every gives the reading back. *proved*: strconv.Quote is modelled from the Go 1.13 standard library; which code points above 127 are printable is arbitrary. C119_again starts from the syntax tree: go/parser is not modelled.
* **C120 Any spelling of a payload's JSON loads the same** - Decode.v: encoding/json's decoder on texts that keep their spelling (RawJson.v, pinned to the grammar); every decoder gives the same on trees related by alike. *partial*: Proved for texts that spell mod_time alike and keep sys as it is. Refuted otherwise: ModTime parses the spelling of its string, so a time written with an escape makes the payload unreadable.
* **C121 null for a field of a payload is like leaving the field out** - The same decoders on trees with a null added. *proved*: By C121_null for any place; C121_zero for files whose info gives no details.
* **C122 A file's data is standard base64 in the payload** - b64_groups against an inductive relation. *proved*: Both directions, against a relation defined from RFC 4648.
* **C123 A name that cannot be parsed is reported by every call and changes nothing** - Per call, from the definitions: the parser comes first everywhere but in the embedded Create. Refutation by the root's mode and time. *partial*: Proved for all calls of both pkgers; that nothing changes is refuted for the embedded Create, which makes the package's root first.
* **C124 What does not exist is reported as os.ErrNotExist** - os.IsNotExist is modelled in Errors.v; 'nothing is there' is stated on the tree (absent): some directory on the way has no such entry. Refutation by one state without the file. *partial*: Proved for the on-disk pkger (absolute paths; errno from the disk) and for the embedded Open. Refuted for the embedded Stat, Remove and Create: their errors are made with fmt.Errorf.
* **C125 An open directory lists the same in memory and on disk** - Disk: the entries of the directory node. Memory: readdir_children (C21) with the tree conditions derived from what both stores show. Refutations by the two clashes of C21. *partial*: Proved when no name merely begins with the text of the directory's, nor a child's with that of a sub-directory; also after any calm program from nothing (C125_fresh_partial) or from what was packed (C125_packed_partial). Refuted otherwise.
* **C126 On-disk Readdir(n) pages through the directory** - Induction over the counts; the specification cuts a list into pieces. *proved*: os.File.Readdir from its documentation; nobody changes the directory meanwhile. The embedded pkger does not page (C22).
* **C127 Serving a directory through a stack of layers** - A simulation between two file systems under the server of Http.v; the stack around one layer is such a simulation. *partial*: Proved: every sequence of requests is answered exactly as the last applied layer that has d would answer it alone, and no other layer changes; so the files of that layer are served with their bytes. A directory that no layer has gives 404. Refuted for a file that only an older layer has: Open finds it, the server answers 404.
* **C128 Programs that keep files open do the same in memory and on disk** - Simulation as in C112; handles are related to a plain position or buffer, on disk through a second tree in which files being written already show their bytes. *partial*: For calm programs: calm in the sense of C112; an open file is changed only through its handle and not looked at while being written; empty files are not opened for reading; files opened for reading are only read, created ones only written; nothing is done with a closed file; positions the file system can hold. Each of these is refuted (C128_refuted). os.File.Read and Seek are modelled for files still at their path. C128_fresh_partial starts with nothing, C128_packed_partial with what was packed.
* **C129 Calls that do not overlap, or have nothing to do with each other** - Calls as programs of steps (Conc.v, PropsSerial.v); a frame condition for each atomic step, kept under interleaving. *proved*: Every call of the API is a program of atomic steps. C129_call: run without interference each is the call of the sequential model. C129_turns: whatever goroutines can do taking turns, one whole call at a time, is one of the interleavings of their steps. C129_apart: in every interleaving of any calls, whatever none of them could change stays. Sequential consistency is assumed (see Conc.v); the goroutines of C129_apart begin without handles.
* **C130 Which keys and values the fields of a payload take** - PropsFields.v: grammar of integers from JsonSpec.v; spellings of a name as an inductive relation. *proved*: C130_keys: the keys taken for a field are the spellings of its name. C130_values: for each of name, size, mode and is_dir the values that load and what they load as, given alone; several members of one field are decoded one after the other in the model. C130_array: data given as an array. The modification time is read as its spelling (C28, C120), sys is any value.
* **C131 Modification times in a payload are RFC 3339 dates of the Gregorian calendar** - PropsTime.v: grammar of the text, calendar from PropsDate.v. *proved*: C131_read: exactly which texts load and as what. C131_written: what is written. Both against day numbers of the calendar as C115 counts them. time.Parse as in Go 1.13; later versions refuse single-digit hours and odd zones.
* **C132 A symbolic link is packed as the file it leads to** - PropsLinks.v: simulation between the disk with links (Links.v) and its copy (Disk.v). *partial*: C132_partial: list, errors, contents equal; details equal unless left behind. C132_same_partial: in one module with all packed links listed, indistinguishable. C132_needs: what success implies. C132_none: no links, nothing changes. C132_refuted: a link's own size and mode are packed. C132_directory_refuted: a readable directory reached by a link is refused. Link following as on Linux, from memory.
* **C133 Scanning a module with symbolic links** - PropsLinks.v: as C132. *partial*: C133_partial: links to regular files. C133_refuted, C133_directory_refuted: linked module directory, linked package directory. C133_lock: a dangling .go entry in the module's directory always fails the scan.
* **C134 A goroutine that only reads sees what it would see alone, whatever is changed elsewhere** - PropsShare.v: Share.v (goroutines as question trees over numbered handles, frame), ShareRead.v (simulation by handle-free values). *proved*: C134_alone: answers equal to those of the goroutine run alone (Mem.v). C134_kept: what all of them together leave. Reads of names in D are excluded by [avoids], stated along the run alone.
* **C135 Requests served at the same time** - PropsRequests.v: Requests.v re-expresses Http.serve as questions (serve_run), then C134. *partial*: C135_requests, C135_dirs: only requests. C135_undisturbed: with other goroutines, names it opens given by [touches]. C135_below: the same for a served directory and ordinary names. C135_torn_refuted: the page of a directory being changed. Requests may carry conditions (C136); the single request is Precond.v and Http.v (C92-C99, C136).
* **C136 Conditional requests** - PropsPrecond.v: Precond.v models checkPreconditions in front of Http.serve; serve_k_reduce expresses the answer by a request without conditions; then C92-C98 and same_sites. *partial*: C136_conditions_partial: a stored file below the served directory (hypotheses of C92). C136_index_partial: a directory with an index.html. C136_pages_partial: redirects and the page of a directory without index.html are sent whatever the conditions, except If-Modified-Since (C94, C96). C136_none: without conditions nothing changes. C136_missing_partial: missing names. C136_same_partial: packed pkger and http.Dir (hypotheses of C95). How the texts of the headers are read is C139. Missing: paths outside the class of C92.
* **C137 A resumed download is one version of the file** - PropsPrecond.v: from C136, C92 and C93. *partial*: C137_resume_partial: with the hypothesis about versions of one second. C137_mixed_refuted: the mixed file.
* **C138 A packed program serving many clients** - PropsServed.v: C95's same_sites for the single request, C135 for requests at the same time, C136's serve_k_same for conditions; project_found and C34 for the sources. *partial*: C138_served_partial: from a list of declarations (hypotheses of C95_same). C138_sources_partial: from the source files. Missing: modules where a name in a directory continues a sibling directory's (C95 refutes the claim there), .tmp files, unreadable files, request paths that do not resolve in the package.
* **C139 The text of conditional headers** - CondHeaders.v models time.Parse for the three layouts, scanETag and the loops over tags; PropsHeaders.v gives the grammars and proves both directions, then composes with C136. *partial*: C139_imf, C139_rfc850, C139_asctime: what each layout accepts, exactly. C139_date, C139_obsolete, C139_dates: the three forms of RFC 7231. C139_tags, C139_star, C139_if_range, C139_if_range_tag: the other headers. C139_headers_partial: the answers (hypotheses of C92; missing: paths outside that class). C139_same_partial: packed pkger and http.Dir, any text (hypotheses of C95). C139_lenient_refuted: texts no RFC allows are dates too. C139_two_digits_refuted: two-digit years are not read as RFC 7231 says. C139_old_none, C139_old_none_refuted: If-None-Match as older versions of Go read it: a comma at the end panics. Missing: the zone of an RFC 850 date is a parameter (theorems assume GMT is GMT); fractions of a second are dropped.
* **C140 The text of a Range header** - PropsRangeText.v gives the grammar of the elements and proves both directions for parseRange of net/http, then composes with the model of ServeContent. *partial*: C140_element: an element, exactly. C140_header: the list. C140_any_partial: the answer to any text (hypotheses of C92; the bytes are stated for lists in which every range has a byte). C140_zero_refuted: a range of none, or of a negative number of bytes, is answered with 206 and a Content-Range that names bytes behind the file. C140_unit_refuted: another unit is not ignored as RFC 7233 says. Missing: numbers are unbounded after reading, so the overflow of size + 2^63 for the last -2^63 bytes is not modelled; blanks of several bytes (U+00A0 and others), which strings.TrimSpace drops, are not blanks in the model; headers are those the handler sets (the server itself drops a negative Content-Length).
* **C141 Joined and cleaned paths lead where their elements lead** - PropsPaths.v gives the documented rewriting rules and an element-by-element walk of the tree, and proves the model's functions equal to them; these functions are standard library code on which every other property rests. *partial*: C141_clean: the rules of path.Clean's documentation, applied in any order to the end, have one result, and Clean prints it. C141_idempotent. C141_leads, C141_join: where cleaned and joined paths lead. C141_names: a path of names only leads where the model of the disk (Disk.find) looks. C141_split, C141_dir, C141_base. C141_nowhere_refuted: a path that leads nowhere may lead somewhere once cleaned, so Disk.find, which cleans, is exact for clean paths only; the code hands joined, hence clean, paths to os (ParseFile and ParseDir of the parser those of their caller).
* **C142 Nothing but a string literal is read as one** - PropsUnquote.v inverts the model of Unquote against the grammar of Quote.v, escape by escape. *partial*: C142_exact: for UTF-8 text with no escape of a surrogate and not between apostrophes, strconv.Unquote succeeds exactly on literals, with their value. C142_only: the converse with the three exceptions as cases. C142_one: a literal has one value. C142_surrogate_refuted, C142_apostrophe_refuted, C142_bytes_refuted: Unquote also reads "\ud800", the rune literal 'a' and a lone byte 255; go/parser lets only the rune literal through, so pkger.Open('a'), which the compiler refuses, is packed as "a".
* **C143 The example programs do the same with pkger as with os, packed or not** - Examples.v has the programs as code and as the sources that the packer reads; PropsExamples.v composes C75 (the calls are found), C34, C54. *partial*: C143_open_partial: not-empty files. C143_stat_partial: any file or directory. C143_walk_partial: the same lines; in the same order if the tree is in step (C18), for names without backslash and if nothing else in the module has a name beginning with public. C143_empty_refuted, C143_order_refuted, C143_prefix_refuted: without these conditions the packed program ends with "unable to read", prints the lines in another order, prints lines for other files. C143_missing: without the file, package os and pkger from source return the same error.
* **C144 Packed files keep the Sys value of their info** - Decode.v reads an interface{} as encoding/json does; PropsSys.v follows the change of Sys through parser, Add, MarshalJSON and UnmarshalJSON. *partial*: C144_text_refuted: Sys is a *syscall.Stat_t on Linux and comes back as a map, whose members JSON lists by key, so examples/dynamic prints another text when packed. C144_files_partial: Sys has the same members and values, in order of their names (missing: the same order); all else is as on disk. C144_exact: nothing changes exactly if the members are in order already. C144_same, C144_packing: the packed program is the one packed from the same files with such Sys values, so the theorems about packed programs that ask for them (C39, C54 and others) apply to it. C144_map: an object read into an interface{} has its names in order, each with the value given last.
* **C145 examples/dynamic does the same packed and not packed** - Examples.v has the source and the calls; PropsDynamic.v combines what is asked for by main.go (C143), what the packed pkger shows for the names used, and C128's simulation. *partial*: C145_same_partial: both runs are told the size of go.mod, then success, then BIZ!!, if there is nothing called foo in the module but what the program itself made there before (missing: the text fmt.Println makes of the FileInfo, which differs, C144_text_refuted; modules with a foo of their own). C145_again: run from source, it can be run any number of times. C145_refuted: with a file called foo the run from source fails at MkdirAll and the packed program succeeds.
* **C146 examples/http serves the same files packed, not packed and without pkger** - PropsExHttp.v: main.go asks for /public (C143's lemma), so the directory is packed whole; pkger.Dir finds what the opened directory finds (as in C100); requests at the same time are C135_dirs. *partial*: C146_http_partial: packed from main.go, any number of clients (missing: names beginning with that of a directory beside them, C146_refuted; unreadable files; requests whose path resolves to another package or to /public again, C49 and C95). C146_served_partial: the same for any packed directory and pkger.Dir. C146_dev_partial: from source, requests one after the other.
* **C147 Earlier runs of pkger into the same output leave no trace** - PropsAgain.v: removing the output after any change made at that path gives the tree that removing it before gives; each step of each run changes the tree only there. *partial*: C147_again: packing; C147_twice: idempotence; C147_list: list; C147_killed, C147_list_killed: with packing runs killed anywhere; C147_else: no other file changes. Within the run itself go list (here.Current, here.Dir, here.Package) and go/parser give the answers they give without the earlier runs (go list may fail on a cut off pkged.go; then pkger.Current fails and nothing is removed, which is not covered). Without the condition on -o it fails, C147_refuted: img/pkged.go, generated with -o img, is packed by the next run of a program that walks /img.
* **C148 No program is built from half a payload** - PropsAgain.v: every state of the output is a prefix of the whole file; a text whose first raw literal is closed keeps it when more text follows. *partial*: C148_whole: any point (writes store their bytes in order; the package's name has no back quote). That a file with an open literal does not compile is Go's specification, not modelled. With failing writes the claim is false, C148_short_refuted: the errors of writes are dropped, so after part of the payload the rest of the file is written, and pkger ends with status 0.
