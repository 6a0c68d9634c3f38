# Formal model of markbates/pkger in Rocq (Coq 8.16.1)

The model is in `rocq/theories/`, the list of claims in `MANIFEST.json`, the
properties in `properties.jsonl`, the record of mutation tests in
`seeded/LOG.jsonl`. Build: `cd rocq && coq_makefile -f _CoqProject -o Makefile && make -j4`.

## Reading guide

* A file `X.v` models code; its definitions cite the lines of /repo they model.
  `XSpec.v`, or the first part of a `Props*.v` file, holds the specification
  vocabulary; the theorems named in MANIFEST.json are in `Props*.v`, each
  followed by an `Example ..._ex` that meets its hypotheses with concrete data.
* `..._partial`: proved under conditions the English property does not have
  (or for part of it); the comment above it states the full property and what
  is missing. `..._refuted`: the property is false of the code; the theorem
  exhibits a witness. Theorems without suffix state the whole of what their
  comment says.
* A property whose status is `partial` in the manifest together with a
  `_refuted` theorem is one the code does not have; the `_partial` theorem says
  under which conditions it holds.

## Trusted base

1. The Coq kernel (8.16.1), including its `vm_compute` machine.
2. No axioms. `rocq/theories/Assumptions.v` runs `Print Assumptions` on every
   theorem named in the manifest; each answers "Closed under the global
   context". (The libraries loaded contain the seven constants of
   `Coq.ssr.ssrunder.Under_rel`, which are sealed by a module signature in the
   standard library; no theorem depends on them.)
3. std++ (coq-stdpp), a library checked by the kernel, for lists, finite maps
   and sorting.
4. That the definitions describe the Go code. Nothing here was run: the
   model was written by reading /repo, and the parts of /repo's behaviour that
   come from outside /repo were written from knowledge of those libraries:

| Outside /repo | Where | How it enters |
|---|---|---|
| `here.Info.Parse` of gobuffalo/here v0.6.0 | Here.v | Every model takes the resolver as a parameter. `here_parse` is a concrete one **recalled from memory**, since the dependency is not available here. Results that need it name it in their statement; results about an arbitrary `parse` do not depend on it. |
| `here.Dir`, `here.Package`, `here.Current` | parameters `hdir`, `hpkg`, `hp` | Arbitrary functions (they run `go list`). |
| `path`, `path/filepath` (Clean, Join, Base, Dir, Split, Walk) | GoPath.v, Disk.v | Written from the documented algorithm, Unix only; C141 compares it with the documented rules. Windows is not modelled. |
| `os` (Stat, Open, Create, MkdirAll, Remove, RemoveAll, Readdir) | Disk.v, DiskOps.v, Errors.v (IsNotExist) | A tree without special files; nobody else changes it. A path is cleaned before it is looked up, which is exact for clean paths (C141_names, C141_nowhere_refuted); /repo hands os the results of Join. Symbolic links only where C132 and C133 are about them (Links.v); elsewhere the tree has none. |
| `encoding/json`, `unicode/utf8`, `encoding/base64`, `encoding/hex`, RFC 3339 in `time` | JsonStr.v, JsonText.v, Indent.v, Base64.v, Embed.v, GoTimeFmt.v, GoNum.v; RawJson.v, Decode.v (json.Unmarshal) | Modelled to the byte for the values /repo writes; the scanner accepts exactly the texts of RFC 8259 (JsonSpec.v, RawJson.v); the decoder into structs with the simplifications listed in Decode.v; a Sys value is kept as its JSON (C144). |
| `compress/gzip` | Embed.v | Two functions, assumed only to satisfy `gunzip (gz x) = Ok x`, stated as a premise of the theorems. |
| `strconv.Unquote`, `strconv.ParseBool`, `flag` | GoQuote.v, Cli.v | Modelled from the standard library's algorithm; C71 and C142 compare Unquote with the literals of the Go specification. |
| `go/parser`, `go/ast` | Source.v, Project.v | A syntax tree is an input; the function from file texts to syntax trees is a parameter (`gosrc`). go/parser.ParseDir's choice of files (regular, name ending in .go) is modelled. |
| `sync.RWMutex`, `sync.Once`, `sync.Map` | Apply.v, Maps.v, Conc.v | Atomic steps under sequential consistency; a sync.Map Range in Conc.v takes a list of keys and looks them up one by one. Races on plain fields have undefined behaviour in Go; the refutations that use them (C44, C105) show one interleaving. |
| `net/http` (FileServer, http.Dir), `mime`, `url`, `html` escaping | Http.v, Precond.v, CondHeaders.v | fs.go of Go 1.13 recalled from memory: serveFile, serveContent, dirList, parseRange, toHTTPError, checkIfModifiedSince. GET and HEAD only; the headers If-Match, If-None-Match, If-Range and If-Unmodified-Since are in Precond.v only (C136, C137), given read: tags as text, dates as seconds, and no Etag of the response; the date of If-Modified-Since is given as seconds; how the texts are read is in CondHeaders.v (C139): time.Parse for the three layouts of http.ParseTime, without the zone names of RFC 850 dates (a parameter) and with fractions of a second dropped, scanETag, the loops over tags, with and without the "continue" after a comma that older versions of Go lack; media types by extension and by content are arbitrary functions; one request at a time except in Requests.v (C135), where each request is a goroutine; writing to the client never fails. |
| int64, int | Mem.v | File offsets wrap as int64 where the code adds them (Seek); lengths are assumed to fit. |

## What is modelled

| /repo | Model | Not modelled |
|---|---|---|
| pkging/mem/mem.go, file.go, add.go | Mem.v, Pack.v, Conc.v, PropsSerial.v, Share.v and ShareRead.v (several goroutines), Both.v and Handles.v (programs, beside stdos), Links.v (Add with symbolic links) | String methods; errors are kinds, not texts |
| pkging/mem/embed.go, pkging/embed/*.go | Marshal.v, Decode.v, Embed.v, NilInfo.v (files without info) | see headers of Marshal.v and Decode.v |
| pkging/file_info.go, mod_time.go | GoTypes.v, GoTimeFmt.v, Cmds.v (String) | - |
| pkging/wrap.go, pkger.go, apply.go | Wrap.v, Layers.v, Apply.v, Http.v and LayersHttp.v (Dir) | String of a wrapped pkger |
| pkging/stdos/*.go | Std.v, DiskOps.v, Both.v, Handles.v | of os.File: Read, Seek, Write, Close, Readdir only, for a file still at its path |
| pkging/pkgutil/stuff.go, dump.go | Pack.v, Dump.v, Links.v | - |
| internal/maps/*.go | Mem.v (sequential), Maps.v (concurrent), MapsJson.v (MarshalJSON, UnmarshalJSON: not called by /repo) | String |
| parser/{decl,open,walk,include,stat,http,create,mkdir,file}.go | Decls.v, Cmds.v (MarshalJSON), Quote.v (String of Include and Stat) | String of the others (the JSON of MarshalJSON, errors dropped); positions are opaque values |
| parser/source.go | Source.v | source positions |
| parser/parser.go | ParserDirs.v, Project.v, Decls.v, ParserApi.v, Links.v | - |
| cmd/pkger/main.go, cmds/*.go | Cli.v (options, dispatch), Package.v (crashes and failing writes), Cmds.v (what each command prints and does to the disk), PropsAgain.v (`killed`: what is on disk when a packing run is killed) | Usage texts, standard error, failing standard output, what `go mod tidy` changes; http.ListenAndServe only as the error it returns |
| examples/{open,stat,walk}/{pkger,std}/main.go, examples/dynamic/pkger/main.go | Examples.v (run, and the sources as syntax trees); InStep.v says when a packed walk has the order of the disk | how modes and times are written and text/tabwriter are arbitrary functions; the location of a time.Time; what examples/http serves is C146; what examples/dynamic prints of Stat is C144, its calls (as they are made if none fails) are C145 |
| pkging/pkgtest, other examples, *_test.go | RepoTests.v replays tests | test support, not part of the product |

Simplifications are stated in the header of each file. The main ones: a nil
`info` pointer never occurs in files made through the API; `nil` and empty
slices are one value; time.Now is an input; values returned beside a non-nil
error are dropped (except where a property is about them); paths are Unix.

## What the model found

The refuted properties, i.e. behaviour of the code that contradicts its
documentation or what a user would expect (details in the comments of the
`_refuted` theorems). Those marked (r) depend on the recalled resolver, i.e.
are only as certain as the recollection of gobuffalo/here.

* Reading: an empty packed file cannot be read, Read fails with an error that
  is not io.EOF (C02, C39, C54); a closed file can still be read (C07);
  Readdir(n) never continues or ends (C22); Stat's info changes later (C10).
* In-memory tree operations work on text prefixes: RemoveAll, Walk, SkipDir
  and Readdir on `/a` also affect `/ab` (C13, C18, C19, C21); RemoveAll crosses
  packages (C13); Remove takes non-empty directories (C12); Create and MkdirAll
  overwrite what is there (C14, C16); MkdirAll may not terminate when the
  package directory is `/` (C17, r).
* Directories carry no directory bit in Mode (C46). A failing Create has already
  replaced the root (C123); os.IsNotExist does not recognise the errors of Stat,
  Remove and Create for what is missing (C124).
* Served directories: backslashes, colons and package names in a request leave
  the directory, in memory (C23, r) and on disk, where any file of the machine
  can be reached (C91, r); the directory hides a child of its own name (C55,
  C94). pkger.Dir leaves a file open per request (C97); missing files may be
  answered with 200 or 500 (C98, r); pages leave out children (C94, C95).
* Stacks of layers: a name in only some layers cannot be removed (C61), is
  visited twice when in two (C62); a directory served through a stack shows
  only the newest layer that has it (C127).
* Open files: a handle goes on reading the old bytes after the file is
  rewritten; bytes appear only on Close; writing to a file opened for reading
  appears to work; a file may be closed twice and read afterwards - all unlike
  on disk (C128).
* Marshalling: names that are not UTF-8 change (C65), `null` panics (C66),
  a payload with a file without info loads and panics in Open (C101),
  a time spelled with an escape makes a payload unreadable (C120),
  times outside RFC 3339 cannot be packed (C32).
* Scanning: calls that cannot be resolved are dropped without an error (C36);
  some legal constants crash or hang the scanner (C37); folders that merely
  start like an ignored one are ignored (C38); calls under a renamed import are
  missed, method calls on a variable called pkger are taken (C111); DeclsMap
  after Decls mixes two scans (C109).
* Packing: .tmp files inside packed directories are packed (C40); files below
  run-time directories are packed though not listed (C41); a failing run
  destroys the previous output and may leave part of a file (C42, C73), and may
  report success (C43); two runs on the same module may write different bytes
  (C80, r); with `-include /` the program contains a truncated copy of its own
  generated file, which `list` does not show (C90, r); a pkged.go generated with
  another -o stays and is packed by later runs that reach it (C147, r); after a
  failed write the file may still compile, with part of the payload (C148).
* Requests: a page listing a directory that is being changed can show a state the
  directory was never in, or be an error (C135, r); a resumed download can be half
  of each of two versions of the same second (C137, r).
* Symbolic links: a link to a directory inside or as what is packed makes packing
  fail; a link to a file may show the link's size and mode with the file's bytes
  (C132). A linked directory of Go files is not scanned, and a module whose
  directory is a link is packed empty without an error; an editor's lock file
  ending in .go makes the scan fail (C133).
* Command line: `list` deletes the generated file (C72); options before a
  subcommand are dropped (C74); `serve` takes its own option for the path
  (C88); bad options end the program without tidying (C75); `list` prints a
  line for no file if a name contains a newline (C87, r).
* On disk: MkdirAll ignores the package of a qualified path (C48); a directory
  opened from a dependency serves the current module's files (C49); the info of
  an open file goes stale (C77).
* Concurrency: two first uses of a fresh map may lose an entry (C44); two
  Removes of a file both succeed (C103); Walk fails if an entry is removed
  meanwhile (C104); Open during Close gives the old size with the new content
  (C105); Create during RemoveAll leaves a file without its directory (C107).

## How the theorems were tested

The repository's own unit tests: RepoTests.v replays the tests of pkger_test.go,
parser/parser_test.go, pkging/mem, pkging/stdos, pkging/pkgutil and the suite of
pkging/pkgtest on the model, with the module of pkging/pkgtest/testdata/ref (14
directories, 20 files, 11 declarations, 25 packed files), and computes what they
assert. Test_Encoding and Test_ModTime are instances of C28 and C32.

Mutation testing: realistic bugs were put into the model in a scratch copy and
everything rebuilt; proofs that fail are admitted one by one and the theorems
depending on them collected, so that one run shows everything a bug breaks.
This over-counts: a proof may break because its script is brittle although the
statement is still true. Evidence that a claim really is false in the mutant
are the failing `_ex` examples and refutations (computed cases), and the
argument recorded for each entry in `seeded/LOG.jsonl`. Where a mutation broke
the English claim and the theorems survived, they were tightened; the log says
which. Entries with a field "first_failing_proof" come from small mechanical edits (an operator,
a constant, a branch): "failed" lists the theorems depending on the first proof
that fails, and "claim" the titles of the properties they belong to.

