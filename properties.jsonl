{"id": "C01", "title": "Create/Write/Close/Open/Read round trip (embedded pkger)", "statement": "On an in-memory pkger, if Create(name) succeeds, then after any sequence of Write calls on the returned file followed by Close, Open(name) succeeds and reading it from the start yields exactly the concatenation of the written byte slices.", "quantifier": "every pkger state reachable by the API, every resolvable name, every finite sequence of byte slices, every read buffer size", "why_tests_cant": "unit tests write one literal; the claim is over all write sequences, prior histories and buffer sizes", "anchors": ["pkging/mem/mem.go:Create,Open", "pkging/mem/file.go:Write,Close,Read"]}
{"id": "C02", "title": "Read signals end of file with (0, io.EOF)", "statement": "On a file obtained from Open, once all bytes have been delivered every further Read returns 0 bytes and io.EOF, including for a file with no bytes at all.", "quantifier": "every stored content (including the empty one) and every sequence of reads", "why_tests_cant": "a test samples particular contents; the boundary (empty content) and every read pattern must be covered", "anchors": ["pkging/mem/file.go:Read"]}
{"id": "C03", "title": "Read/Seek behave as a cursor over fixed bytes", "statement": "For a file returned by Open, any interleaving of Read and Seek calls returns exactly what a cursor over the immutable content would: Read returns the bytes at the cursor and advances it, Seek(off, 0|1|2) moves it and returns the new position, rejects negative positions and unknown whence values without moving it.", "quantifier": "every content, every sequence of Read and Seek calls with any int64 offsets and whence values", "why_tests_cant": "call sequences and offsets are unbounded", "anchors": ["pkging/mem/file.go:Read,Seek"]}
{"id": "C04", "title": "An opened file is a snapshot", "statement": "The bytes and the size/name/mode reported by a file returned by Open never change as a result of later operations on the pkger or on any other handle (Create of the same name, Write/Close, Remove, RemoveAll, MkdirAll ...).", "quantifier": "every reachable state and every later operation sequence that does not use that handle", "why_tests_cant": "needs all interleavings of operations through aliasing pointers and slices", "anchors": ["pkging/mem/mem.go:Open", "pkging/mem/file.go:Close"]}
{"id": "C05", "title": "Writes become visible only at Close", "statement": "Until Close is called on the handle returned by Create, Open(name) keeps returning the content that was committed before the writes; Close publishes all of them at once.", "quantifier": "every history of operations and every set of pending writes", "why_tests_cant": "visibility has to be excluded at every intermediate point of every history", "anchors": ["pkging/mem/file.go:Write,Close", "pkging/mem/mem.go:Open"]}
{"id": "C06", "title": "Handles returned by Open are read-only", "statement": "Write and Close on a handle returned by Open never change what Open, Stat, Walk or another handle reports.", "quantifier": "every reachable state and every sequence of Write/Close on an opened handle", "why_tests_cant": "absence of an effect through aliases cannot be sampled", "anchors": ["pkging/mem/mem.go:Open", "pkging/mem/file.go:Write,Close"]}
{"id": "C07", "title": "Close renders a file unusable for I/O", "statement": "After Close, Read, Write and Seek on the same handle do not succeed.", "quantifier": "every file handle and every later I/O call", "why_tests_cant": "all I/O histories after Close", "anchors": ["pkging/file.go:File.Close", "pkging/mem/file.go:Close,Read,Write,Seek"]}
{"id": "C08", "title": "Reported Size equals the content length", "statement": "In every reachable state of an in-memory pkger built by its API, Stat(name).Size() of a stored entry equals the number of bytes Open(name) delivers.", "quantifier": "every history of operations, every stored name", "why_tests_cant": "an invariant over all histories, including interleaved handles", "anchors": ["pkging/mem/file.go:Close", "pkging/mem/mem.go:Create,MkdirAll,Stat,Open", "pkging/mem/add.go:Add"]}
{"id": "C09", "title": "Open and Stat agree", "statement": "Open(name) succeeds exactly when Stat(name) does, and the file's own Stat equals the pkger's Stat at that moment.", "quantifier": "every reachable state and every name", "why_tests_cant": "all states and names", "anchors": ["pkging/mem/mem.go:Open,Stat", "pkging/mem/file.go:Stat"]}
{"id": "C10", "title": "FileInfo values are stable snapshots", "statement": "The Size, Mode, ModTime and Name read from a FileInfo obtained from Stat (or passed to a Walk callback) do not change because of later operations.", "quantifier": "every history after the FileInfo was obtained", "why_tests_cant": "aliasing over all later histories", "anchors": ["pkging/mem/mem.go:Stat,Walk", "pkging/mem/file.go:Stat,Close", "pkging/file_info.go:NewFileInfo"]}
{"id": "C11", "title": "Remove removes exactly the named entry", "statement": "Remove(name) succeeds iff the name is stored; afterwards Open/Stat(name) fail and every other name answers exactly as before; on failure nothing changes.", "quantifier": "every reachable state and every name", "why_tests_cant": "frame condition over all other names and states", "anchors": ["pkging/mem/mem.go:Remove"]}
{"id": "C12", "title": "Remove refuses a non-empty directory", "statement": "Remove(name) fails and changes nothing when name is a directory that still has entries below it.", "quantifier": "every reachable state and every directory", "why_tests_cant": "all directory contents", "anchors": ["pkging/mem/mem.go:Remove", "pkging/pkger.go:Pkger.Remove"]}
{"id": "C13", "title": "RemoveAll removes the path and its descendants, and nothing else", "statement": "After RemoveAll(path) the entry and everything below it are gone, every other entry is untouched, and the call returns nil whether or not the path existed.", "quantifier": "every reachable state and every path", "why_tests_cant": "frame condition over all other entries", "anchors": ["pkging/mem/mem.go:RemoveAll", "pkging/pkger.go:Pkger.RemoveAll"]}
{"id": "C14", "title": "Create makes an empty regular file and leaves other entries alone", "statement": "Create(name) fails if the parent directory is missing or the package is unknown; otherwise name becomes an empty regular file with mode 0644 and no entry other than name and the root directory is affected. It does not replace a directory and does not create below a regular file.", "quantifier": "every reachable state and every name", "why_tests_cant": "all states, frame condition", "anchors": ["pkging/mem/mem.go:Create"]}
{"id": "C15", "title": "MkdirAll creates every missing ancestor", "statement": "After MkdirAll(p) returns nil, p and each of its ancestors in the same package can be opened and is a directory.", "quantifier": "every path depth, every package, every reachable state", "why_tests_cant": "depth is unbounded", "anchors": ["pkging/mem/mem.go:MkdirAll"]}
{"id": "C16", "title": "MkdirAll does not clobber", "statement": "If p is already a directory MkdirAll(p) changes nothing and returns nil; if p or an ancestor is a regular file it returns an error and the file keeps its content; no other entry is affected.", "quantifier": "every reachable state and path", "why_tests_cant": "all states, frame condition", "anchors": ["pkging/mem/mem.go:MkdirAll", "pkging/pkger.go:Pkger.MkdirAll"]}
{"id": "C17", "title": "MkdirAll terminates", "statement": "MkdirAll returns after finitely many recursive calls for every argument string.", "quantifier": "every byte string, every current package", "why_tests_cant": "termination for all inputs", "anchors": ["pkging/mem/mem.go:MkdirAll"]}
{"id": "C18", "title": "Walk visits exactly the subtree, once each, in lexical order", "statement": "Walk(root, f) with a callback that returns nil calls f exactly once for root and for each entry below it, in the order filepath.Walk would use, and for nothing else.", "quantifier": "every reachable state and every root", "why_tests_cant": "all sets of stored names", "anchors": ["pkging/mem/mem.go:Walk", "internal/maps/files.go:Keys"]}
{"id": "C19", "title": "SkipDir prunes exactly the skipped directory", "statement": "When the callback returns filepath.SkipDir for a directory, precisely the entries below that directory are not visited; everything else still is, and Walk returns nil.", "quantifier": "every reachable state, root and every callback deciding which entries to skip", "why_tests_cant": "all callbacks and all sets of names", "anchors": ["pkging/mem/mem.go:Walk"]}
{"id": "C20", "title": "Walk stops at the first callback error", "statement": "If the callback returns an error other than SkipDir, Walk calls it no further and returns that error; if it never does, Walk returns nil.", "quantifier": "every state and every callback, including callbacks that keep state", "why_tests_cant": "all callbacks", "anchors": ["pkging/mem/mem.go:Walk"]}
{"id": "C21", "title": "Readdir lists exactly the immediate children", "statement": "Readdir(-1) on an opened directory returns exactly one FileInfo per direct child of that directory and none for anything else.", "quantifier": "every reachable state and directory", "why_tests_cant": "all sets of stored names", "anchors": ["pkging/mem/file.go:Readdir"]}
{"id": "C22", "title": "Readdir(n) paging", "statement": "Readdir(n) with n > 0 returns at most n entries, repeated calls continue where the previous one stopped, and at the end it returns an empty slice with io.EOF.", "quantifier": "every n, every directory, every sequence of calls", "why_tests_cant": "all n and call sequences", "anchors": ["pkging/mem/file.go:Readdir", "pkging/file.go:File.Readdir"]}
{"id": "C23", "title": "A served directory cannot be escaped", "statement": "File.Open(name) on an opened directory (the http.FileSystem used by pkger.Dir) only ever returns entries inside that directory, whatever the requested name.", "quantifier": "every directory and every request string, including '..' and backslashes", "why_tests_cant": "adversarial inputs are unbounded", "anchors": ["pkging/mem/file.go:Open", "pkging/stdos/file.go:Open", "pkger.go:Dir.Open"]}
{"id": "C24", "title": "Layered reads resolve to the most recently applied layer that succeeds", "statement": "With layers applied in some order, Open/Stat/Info/Parse/Current/Create return the result of the most recently applied layer that does not fail; older layers are not consulted after a success; if all fail the error of the oldest layer is returned.", "quantifier": "every number of layers and every behaviour of each layer", "why_tests_cant": "unbounded stacks, arbitrary layer behaviour", "anchors": ["pkging/wrap.go:withPkger.Open,Stat,Info,Parse,Current,Create", "apply.go:Apply"]}
{"id": "C25", "title": "Layered mutations and walks run through all layers until the first error", "statement": "MkdirAll, Walk, Remove and RemoveAll on a stack run on each layer from the most recent to the oldest, stop at the first error and return it, and return nil iff every layer succeeds.", "quantifier": "every number of layers and every behaviour of each layer", "why_tests_cant": "unbounded stacks, arbitrary layer behaviour", "anchors": ["pkging/wrap.go:withPkger.MkdirAll,Walk,Remove,RemoveAll"]}
{"id": "C26", "title": "Concurrent Apply loses no layer", "statement": "Under any interleaving of concurrent Apply calls and API calls, every successful Apply's layer is present exactly once in the final stack, and every API call uses a stack that was current at some moment during that call.", "quantifier": "every number of goroutines and every schedule", "why_tests_cant": "schedules cannot be enumerated by tests", "anchors": ["apply.go:Apply", "pkger.go:impl"]}
{"id": "C27", "title": "Apply with an error installs nothing; disk is used only while no layer is applied", "statement": "Apply(pkg, err) with err != nil panics without changing the current implementation; API calls go to the on-disk implementation exactly while no Apply has succeeded.", "quantifier": "every sequence of Apply calls, successful or not", "why_tests_cant": "all histories", "anchors": ["apply.go:Apply", "pkger.go:impl,disk"]}
{"id": "C28", "title": "Decode inverts Encode", "statement": "embed.Decode(embed.Encode(b)) returns b without error for every byte slice b; Decode fails on input of odd length or containing a non-hexadecimal character.", "quantifier": "every byte slice", "why_tests_cant": "all inputs", "anchors": ["pkging/embed/embed.go:Encode,Decode"]}
{"id": "C29", "title": "The generated source carries the payload intact", "statement": "The payload embedded between the back-quotes of pkged.go contains only characters that a Go raw string literal preserves, so the bytes handed to UnmarshalEmbed at run time are exactly those Stuff produced.", "quantifier": "every embedded content", "why_tests_cant": "all contents", "anchors": ["cmd/pkger/cmds/pack.go:Package", "pkging/pkgutil/stuff.go:Stuff", "pkging/embed/embed.go:Encode"]}
{"id": "C30", "title": "Marshal/Unmarshal preserves every file", "statement": "A pkger re-hydrated with UnmarshalJSON from MarshalJSON answers Current, Info, Open (bytes), Stat (name, size, mode, modification time, directory flag), Walk and Readdir like the original for every stored name.", "quantifier": "every reachable pkger state whose names and times are representable", "why_tests_cant": "all states", "anchors": ["pkging/mem/embed.go:MarshalJSON,UnmarshalJSON"]}
{"id": "C31", "title": "Marshalling is deterministic", "statement": "MarshalJSON's output depends only on the stored entries, not on the iteration order of the underlying concurrent map.", "quantifier": "every state and every iteration order", "why_tests_cant": "iteration orders are chosen by the runtime", "anchors": ["pkging/mem/embed.go:MarshalJSON", "internal/maps/files.go:Range"]}
{"id": "C32", "title": "ModTime JSON round trip", "statement": "Marshalling a ModTime and unmarshalling it again yields the same instant to the nanosecond and the same zone offset.", "quantifier": "every instant and zone offset", "why_tests_cant": "all times, including year and zone boundaries", "anchors": ["pkging/mod_time.go:MarshalJSON,UnmarshalJSON"]}
{"id": "C33", "title": "Files() lists each file once, sorted by path", "statement": "The list of files computed for a set of declarations contains no two entries with the same absolute path and is sorted by package path; every entry comes from some declaration.", "quantifier": "every list of declarations and every disk content", "why_tests_cant": "all declaration lists", "anchors": ["parser/decl.go:Decls.Files"]}
{"id": "C34", "title": "Files() is complete and leaves out virtual paths", "statement": "For each Open/Stat/Include/Dir/Walk declaration of an existing path, every file and directory at or below that path is listed, except those at or below a path created at run time by a MkdirAll/Create declaration; a declaration of a missing path makes Files() fail.", "quantifier": "every list of declarations and every disk tree", "why_tests_cant": "all trees and declaration sets", "anchors": ["parser/decl.go:Decls.Files", "parser/open.go:OpenDecl.Files", "parser/walk.go:WalkDecl.Files"]}
{"id": "C35", "title": "The set of packed files does not depend on the order declarations were discovered", "statement": "Permuting source files, directories or declarations changes neither the set of files listed nor whether listing fails.", "quantifier": "every permutation of declarations", "why_tests_cant": "Go map iteration order is random; all orders matter", "anchors": ["parser/parser.go:Decls,ParseDir", "parser/decl.go:Decls.Files"]}
{"id": "C36", "title": "Every resolvable pkger call in the source is found, and unresolvable ones are reported", "statement": "Scanning a source file yields one declaration per pkger.{MkdirAll,Create,Include,Stat,Open,Dir,Walk} call, in source order, with the value of its string-literal or constant argument; a call without argument or with an argument that is not a constant string makes the scan return an error.", "quantifier": "every syntax tree", "why_tests_cant": "all programs", "anchors": ["parser/source.go:ParsedSource.parse,Parse,value"]}
{"id": "C37", "title": "Scanning never crashes", "statement": "Scanning any parseable Go file returns normally (with or without an error); it neither panics nor loops.", "quantifier": "every syntax tree and identifier resolution", "why_tests_cant": "all programs", "anchors": ["parser/source.go:valueIdent,valueNode"]}
{"id": "C38", "title": "Only the ignored folders are ignored", "statement": "The scan visits every directory of the module except those named vendor, node_modules or testdata, or starting with '.' or '_', and their descendants; the module root itself is always visited.", "quantifier": "every directory tree and module location", "why_tests_cant": "all trees and names", "anchors": ["parser/parser.go:parse,defaultIgnoredFolders"]}
{"id": "C39", "title": "Packing is faithful end to end", "statement": "For every regular file that a declaration reaches, the packed binary (Files, Add, MarshalJSON, Encode, Decode, UnmarshalEmbed) opens the file's path and reads exactly the bytes, and reports exactly the size, mode, directory flag and modification time, that were on disk when packing.", "quantifier": "every disk tree and every list of declarations", "why_tests_cant": "all trees and declaration sets", "anchors": ["pkging/pkgutil/stuff.go:Stuff", "pkging/mem/add.go:Add", "pkging/mem/embed.go:UnmarshalEmbed"]}
{"id": "C40", "title": "Temporary files are never packed", "statement": "No file whose name ends in .tmp is embedded by Stuff.", "quantifier": "every disk tree and declaration list", "why_tests_cant": "all trees", "anchors": ["pkging/pkgutil/stuff.go:Stuff", "pkging/mem/add.go:Add"]}
{"id": "C41", "title": "Only listed files are packed", "statement": "The embedded pkger contains exactly the files that `pkger list` shows for the same declarations; in particular run-time (virtual) paths are not embedded.", "quantifier": "every disk tree and declaration list", "why_tests_cant": "all trees", "anchors": ["pkging/pkgutil/stuff.go:Stuff", "pkging/mem/add.go:Add", "cmd/pkger/cmds/list.go:Exec"]}
{"id": "C42", "title": "A failed pack leaves no broken output", "statement": "If Package fails or the process dies at any point, the output path holds either no file or a complete, valid one.", "quantifier": "every failure and crash point", "why_tests_cant": "crash points", "anchors": ["cmd/pkger/cmds/pack.go:Package"]}
{"id": "C43", "title": "Package reports failure", "statement": "If the output could not be written completely, or packing panicked, Package returns a non-nil error.", "quantifier": "every write failure and panic", "why_tests_cant": "fault injection at every write", "anchors": ["cmd/pkger/cmds/pack.go:Package", "pkging/pkgutil/stuff.go:Stuff"]}
{"id": "C44", "title": "Concurrent first use of a fresh pkger loses nothing", "statement": "When several goroutines store entries into the same pkger concurrently, every entry stored is found afterwards, whether or not the pkger had been used before.", "quantifier": "every number of goroutines and schedule", "why_tests_cant": "schedules", "anchors": ["internal/maps/files.go:Data,Store", "internal/maps/infos.go:Data"]}
{"id": "C45", "title": "Stale handles are harmless", "statement": "After Remove/RemoveAll of a name, or a second Create of it, operations on the old handle never change what the name answers.", "quantifier": "every history", "why_tests_cant": "all histories", "anchors": ["pkging/mem/mem.go:Create,Remove", "pkging/mem/file.go:Close"]}
{"id": "C46", "title": "Directories report a directory mode", "statement": "For every directory created through MkdirAll, Stat reports IsDir() true, Mode().IsDir() true and the base name of the path.", "quantifier": "every path and permission value", "why_tests_cant": "all inputs", "anchors": ["pkging/mem/mem.go:MkdirAll", "pkging/file_info.go:FileInfo"]}
{"id": "C47", "title": "Package-qualified and plain paths address the same entry", "statement": "For the current package cur, the strings '/name', 'cur:/name' and ':/name' (and unclean spellings of them) resolve to the same entry, and the Name() of an opened file resolves back to that file.", "quantifier": "every name", "why_tests_cant": "all strings", "anchors": ["pkger.go:Parse", "pkging/mem/mem.go:Parse", "pkging/mem/file.go:Name"]}
{"id": "C48", "title": "On-disk pkger: MkdirAll makes the directory that Stat finds", "statement": "On the on-disk pkger, after MkdirAll(p) returns nil, Stat(p) and Open(p) succeed and report a directory, for plain and package-qualified p; Create/Open/Stat/Remove/RemoveAll address the same on-disk file for the same p.", "quantifier": "every path string and module location", "why_tests_cant": "all strings", "anchors": ["pkging/stdos/stdos.go:MkdirAll,Stat,Open,Create,Remove,RemoveAll"]}
{"id": "C49", "title": "On-disk pkger: opened directories keep their package", "statement": "File.Open(name) on a directory opened from package q serves files of package q.", "quantifier": "every package and directory", "why_tests_cant": "all packages", "anchors": ["pkging/stdos/file.go:Open"]}
{"id": "C50", "title": "On-disk pkger: Info is cached consistently", "statement": "Info(p) always answers the first successful resolution of p made by this pkger (or the seeded value for the current package) and resolves p at most once successfully; failures are not cached.", "quantifier": "every sequence of Info calls and every behaviour of the resolver over time", "why_tests_cant": "all call histories", "anchors": ["pkging/stdos/stdos.go:Info,New"]}
{"id": "C51", "title": "On-disk Walk names paths relative to the package", "statement": "Walk(p, f) on the on-disk pkger visits the same entries in the same order as filepath.Walk on the corresponding directory and names each one pkg:/path-below-the-package-directory.", "quantifier": "every disk tree and root", "why_tests_cant": "all trees", "anchors": ["pkging/stdos/stdos.go:Walk"]}
{"id": "C52", "title": "CLI dispatch", "statement": "`pkger` without arguments packs; with a known subcommand name as first argument exactly that subcommand runs with the remaining arguments (or its usage is printed if -h is among them); otherwise an error naming the arguments is returned and nothing is run.", "quantifier": "every argument list", "why_tests_cant": "all argument lists", "anchors": ["cmd/pkger/cmds/pack.go:Route,New"]}
{"id": "C53", "title": "Dump reports every entry", "statement": "Dump of a pkger writes exactly one path entry per stored entry of the current package with its FileInfo.", "quantifier": "every reachable state", "why_tests_cant": "all states", "anchors": ["pkging/pkgutil/dump.go:Dump"]}
{"id": "C54", "title": "Embedded pkger answers like the disk it was packed from", "statement": "For the packed files, Stat, Open+Read and Walk on the embedded pkger give the same answers as the on-disk pkger on the same paths.", "quantifier": "every disk tree, declaration list and path", "why_tests_cant": "all trees", "anchors": ["pkging/mem/mem.go", "pkging/stdos/stdos.go"]}
{"id": "C55", "title": "A served directory never hides its own sub-directory of the same name", "statement": "File.Open(name) on an opened directory d answers the entry name inside d; in particular when name equals d's own path it answers d/name, not d itself.", "quantifier": "all directories, all requested names", "why_tests_cant": "depends on every pair of directory path and requested name", "anchors": ["pkging/mem/file.go:Open", "pkging/stdos/file.go:Open"]}
{"id": "C56", "title": "Walk of a missing root is reported", "statement": "Walk(root, f) where nothing is stored at or below root reports the failure to the callback or returns an error, as filepath.Walk does.", "quantifier": "all pkger states, all roots, all callbacks", "why_tests_cant": "must hold for every state and every absent root", "anchors": ["pkging/mem/mem.go:Walk"]}
{"id": "C57", "title": "SkipDir on a file skips the rest of its directory", "statement": "When the callback returns filepath.SkipDir for a file, the remaining files of the containing directory are skipped (the filepath.WalkFunc contract).", "quantifier": "all trees, all callbacks", "why_tests_cant": "ranges over all trees and skip positions", "anchors": ["pkging/mem/mem.go:Walk"]}
{"id": "C58", "title": "A pkger accepts files of its own package", "statement": "On a fresh in-memory pkger for the package described by info, Create('/name') succeeds for every plain file name.", "quantifier": "all package descriptions, all names", "why_tests_cant": "the tests only use descriptions whose ImportPath equals the module path", "anchors": ["pkging/mem/mem.go:New", "pkging/mem/mem.go:Create"]}
{"id": "C59", "title": "A created file reports the last element of its path", "statement": "After Create(name) succeeds, Stat of the entry reports as Name() the last element of the path it is stored under.", "quantifier": "all names", "why_tests_cant": "ranges over all spellings of a path", "anchors": ["pkging/mem/mem.go:Create"]}
{"id": "C60", "title": "A name with a colon is not mistaken for another file", "statement": "Creating a file whose name contains a colon never replaces the content of a file with a different name.", "quantifier": "all names, all states", "why_tests_cant": "ranges over all names", "anchors": ["pkging/mem/mem.go:Create", "pkging/mem/mem.go:Parse"]}
{"id": "C61", "title": "Remove through a stack removes what the stack shows", "statement": "Remove(name) through a stack of in-memory layers succeeds whenever Stat(name) through the stack succeeds, and returns an error only if nothing was removed.", "quantifier": "all stacks of in-memory layers, all names", "why_tests_cant": "unbounded number of layers and contents", "anchors": ["pkging/wrap.go:withPkger.Remove", "pkging/mem/mem.go:Remove"]}
{"id": "C62", "title": "Walk through a stack visits each name once", "statement": "Walk(root, f) on a stack of in-memory layers calls f for the entries of every layer, and not twice for the same name.", "quantifier": "all stacks of in-memory layers, all roots", "why_tests_cant": "unbounded number of layers and contents", "anchors": ["pkging/wrap.go:withPkger.Walk", "pkging/mem/mem.go:Walk"]}
{"id": "C63", "title": "Open after Create through a stack opens the created file", "statement": "After Create(name) through a stack succeeds, Open(name) through the stack opens the file just created.", "quantifier": "all stacks of in-memory layers, all names", "why_tests_cant": "unbounded number of layers and contents", "anchors": ["pkging/wrap.go:withPkger.Create,Open"]}
{"id": "C64", "title": "The global lock cannot deadlock", "statement": "Whatever goroutines call Apply and the API functions, as long as some goroutine is not finished one can proceed, and every schedule ends.", "quantifier": "every number of goroutines and every schedule", "why_tests_cant": "schedules cannot be enumerated by tests", "anchors": ["apply.go:Apply", "pkger.go:impl,gil"]}
{"id": "C65", "title": "Names survive embedding byte for byte", "statement": "A file stored under any name is found under that name, with its content, in the pkger re-hydrated from MarshalJSON, whatever bytes the name contains; two files stored under different names stay two files.", "quantifier": "every file name", "why_tests_cant": "all byte strings as names", "anchors": ["pkging/mem/embed.go:MarshalJSON,UnmarshalJSON"]}
{"id": "C66", "title": "UnmarshalEmbed does not panic", "statement": "UnmarshalEmbed returns a pkger or an error for every input and never panics.", "quantifier": "every byte slice", "why_tests_cant": "all inputs", "anchors": ["pkging/mem/embed.go:UnmarshalJSON,UnmarshalEmbed"]}
{"id": "C67", "title": "Re-marshalling is stable", "statement": "Marshalling a pkger that was re-hydrated from marshalled JSON yields the same bytes, whatever the map iteration orders.", "quantifier": "every reachable pkger whose contents JSON can hold, every iteration order", "why_tests_cant": "all states and iteration orders", "anchors": ["pkging/mem/embed.go:MarshalJSON,UnmarshalJSON"]}
{"id": "C68", "title": "The generated program starts with the packed files", "statement": "The string literal of the generated pkged.go, handed to UnmarshalEmbed at start-up, yields a pkger that answers like the one Stuff marshalled.", "quantifier": "every pkger whose contents JSON can hold", "why_tests_cant": "all contents", "anchors": ["cmd/pkger/cmds/pack.go:Package", "pkging/pkgutil/stuff.go:Stuff", "pkging/embed/embed.go:Encode,Decode", "pkging/mem/embed.go:MarshalJSON,UnmarshalJSON,UnmarshalEmbed"]}
{"id": "C69", "title": "A packed file is attributed to its own module", "statement": "Every file listed by Files() carries the module that contains the file, and its path is the file's name relative to that module.", "quantifier": "every disk tree, module layout and list of declarations", "why_tests_cant": "Tests have one module; the wrong attribution appears only for files visited after a nested module.", "anchors": ["parser/walk.go:WalkDecl.Files"]}
{"id": "C70", "title": "An include on the command line names the file that pkger.Include names", "statement": "pkger -include p and a call pkger.Include(p) in a source file of the same directory declare the same file, or both fail.", "quantifier": "every directory, path and behaviour of the package lookup", "why_tests_cant": "Tests run in the root package of the module, where the two comparisons agree.", "anchors": ["parser/include.go:NewInclude", "parser/source.go:parse"]}
{"id": "C71", "title": "String literals are read as Go reads them", "statement": "Every string literal of the Go grammar (raw, or interpreted with any mix of plain characters, octal, hexadecimal, \\u, \\U and one-letter escapes) yields exactly the string it denotes as the declaration's value; and every byte string can be written.", "quantifier": "every string literal, every byte string", "why_tests_cant": "Tests use a few plain ASCII paths.", "anchors": ["parser/source.go:value"]}
{"id": "C73", "title": "A failing run keeps the previous output", "statement": "If pkger fails while looking for declarations, the file generated by the previous run is left as it was; if it succeeds, the file is replaced by the new one.", "quantifier": "every previous content, failure and result", "why_tests_cant": "Tests never run pkger twice with a failure in between.", "anchors": ["cmd/pkger/cmds/pack.go:Exec"]}
{"id": "C72", "title": "Listing is read-only", "statement": "pkger list looks for exactly the includes given to it and changes nothing: the generated file is still there afterwards.", "quantifier": "every argument list and generated file", "why_tests_cant": "Tests do not run the command on a package that has generated output.", "anchors": ["cmd/pkger/cmds/list.go:Exec"]}
{"id": "C74", "title": "Options take effect wherever the flag package accepts them", "statement": "Every option accepted before the first plain argument (in any of Go's spellings) takes effect, for the root command and for subcommands alike.", "quantifier": "every argument list", "why_tests_cant": "Tests do not run the command line.", "anchors": ["cmd/pkger/cmds/pack.go:Route", "cmd/pkger/cmds/list.go:Exec"]}
{"id": "C75", "title": "Exit status and clean-up", "statement": "The program exits with status 0 exactly if the command succeeded, and runs go mod tidy exactly once before it exits.", "quantifier": "every way a run can end", "why_tests_cant": "Tests do not run main.", "anchors": ["cmd/pkger/main.go:main"]}
{"id": "C76", "title": "On-disk changes touch only their target", "statement": "A successful Create, Remove or RemoveAll of the on-disk pkger leaves every file and directory that is neither above nor below its target as it was; MkdirAll never changes an existing file; a failing operation changes nothing on disk.", "quantifier": "every disk tree, resolver, package lookup and path", "why_tests_cant": "all trees and all other paths", "anchors": ["pkging/stdos/stdos.go:Create,Remove,RemoveAll,MkdirAll"]}
{"id": "C77", "title": "Stat of an open on-disk file is up to date", "statement": "After writing through a File returned by Create of the on-disk pkger, File.Stat reports the size written, as the pkger's Stat does.", "quantifier": "every path and every content", "why_tests_cant": "all contents", "anchors": ["pkging/stdos/file.go:Stat", "pkging/stdos/stdos.go:Create"]}
{"id": "C78", "title": "Every pkger call in the module's sources is found", "statement": "Scanning a module yields exactly the declarations of the includes given on the command line and of the pkger calls in the .go files of all its directories that are not ignored.", "quantifier": "every module tree whose directories resolve and whose sources parse, every set of files, calls and includes, every map iteration order", "why_tests_cant": "all trees and orders; the repository's tests scan one example", "anchors": ["parser/parser.go:parse", "parser/parser.go:ParseDir", "parser/source.go:parse"]}
{"id": "C79", "title": "A file named in a source is served by the built program", "statement": "If a pkger call other than Create and MkdirAll in some source file of the module names a path, every regular file at or below it can be opened in the packed program and has the contents and details it has on disk.", "quantifier": "every module, every call, every file (not ending in .tmp, not created by the program itself)", "why_tests_cant": "composition of scanner, file list, packer, JSON and gzip for all inputs", "anchors": ["cmd/pkger/cmds/pack.go:Run", "parser/parser.go:Parse", "pkging/pkgutil/stuff.go:Stuff", "pkging/mem/embed.go:UnmarshalEmbed"]}
{"id": "C80", "title": "Packing is reproducible", "statement": "Packing the same unchanged module twice writes the same bytes.", "quantifier": "every module, any two runs (Go iterates maps in random order)", "why_tests_cant": "map iteration order is random; differences show up in some runs only", "anchors": ["parser/parser.go:ParseDir", "parser/decl.go:Files", "pkging/mem/mem.go:MarshalJSON", "pkging/pkgutil/stuff.go:Stuff"]}
{"id": "C81", "title": "No declaration is invented", "statement": "Every declaration the scanner reports is that of an include or of a pkger call in a .go file of a directory that is not ignored, whatever else the module contains.", "quantifier": "every module on which the scan succeeds", "why_tests_cant": "all inputs", "anchors": ["parser/parser.go:parse", "parser/source.go:parse"]}
{"id": "C82", "title": "A source that cannot be parsed stops packing", "statement": "If a .go file of a scanned directory cannot be read or parsed, the scan fails; if the scan succeeds, every such file was parsed and all that was found in it is in the result.", "quantifier": "every module, every file", "why_tests_cant": "all inputs", "anchors": ["parser/parser.go:ParseDir", "parser/parser.go:parse"]}
{"id": "C83", "title": "info prints what is known about each package", "statement": "pkger info a... prints one JSON document per argument, in order, from which the information about that package can be read back; it stops at the first argument nothing is known about and reports that error.", "quantifier": "every list of arguments, every go list answer", "why_tests_cant": "all inputs; the printed text must be valid for any names", "anchors": ["cmd/pkger/cmds/info.go:Exec", "pkging/stdos/stdos.go:Info"]}
{"id": "C84", "title": "path prints what each argument stands for", "statement": "pkger path a... prints one JSON document mapping every argument, and nothing else, to the path it stands for; if one of them stands for none, or there is no argument, it prints nothing and fails.", "quantifier": "every list of arguments", "why_tests_cant": "all inputs", "anchors": ["cmd/pkger/cmds/path.go:Exec"]}
{"id": "C85", "title": "parse prints all declarations of each package", "statement": "pkger parse p... prints one JSON document mapping every argument, and nothing else, to the declarations found in that package, in order and with their positions; if one package cannot be scanned it prints nothing and fails.", "quantifier": "every module, every list of arguments", "why_tests_cant": "all inputs", "anchors": ["cmd/pkger/cmds/parse.go:Exec", "parser/open.go:MarshalJSON"]}
{"id": "C86", "title": "stat prints the details of files and directories", "statement": "pkger stat a... prints, for each argument in order, the details of the file there or of every entry of the directory there as JSON documents that can be read back; it stops at the first argument that cannot be opened.", "quantifier": "every file system, every list of arguments", "why_tests_cant": "all inputs; any directory order", "anchors": ["cmd/pkger/cmds/stat.go:Exec", "pkging/file_info.go:String"]}
{"id": "C87", "title": "list prints the files to be packed", "statement": "pkger list prints the import path and then one line per file that would be packed; with -json, one document from which exactly these files can be read back; if the module cannot be scanned it prints no files and fails.", "quantifier": "every module, every option", "why_tests_cant": "all inputs, any file names", "anchors": ["cmd/pkger/cmds/list.go:Exec"]}
{"id": "C88", "title": "Subcommands honour the options they declare", "statement": "An option declared by a subcommand and given in one of the spellings of the flag package takes effect and is not taken for an argument.", "quantifier": "every subcommand, every spelling", "why_tests_cant": "all command lines", "anchors": ["cmd/pkger/cmds/serve.go:Exec,Flags", "cmd/pkger/cmds/list.go:Exec"]}
{"id": "C89", "title": "Packing touches only its output", "statement": "The packing command, successful or not, leaves every file and directory beside its output as it was; if it succeeds the output is the complete generated file for the declarations found; it does succeed if the module can be scanned and packed and the output directory exists.", "quantifier": "every file system, every module, every option", "why_tests_cant": "all trees; absence of side effects", "anchors": ["cmd/pkger/cmds/pack.go:Exec,Package"]}
{"id": "C90", "title": "The generated file is not packed into itself", "statement": "The packed program never contains the file being generated.", "quantifier": "every module, every include", "why_tests_cant": "depends on the moment at which the tree is read", "anchors": ["cmd/pkger/cmds/pack.go:Package", "pkging/pkgutil/stuff.go:Stuff"]}
{"id": "C91", "title": "Serving from disk stays inside the served directory", "statement": "With the on-disk pkger (pkger serve, or a program run without its generated file), every file opened through a served directory lies in that directory, whatever the request.", "quantifier": "every request path, every directory", "why_tests_cant": "all request strings", "anchors": ["pkging/stdos/file.go:Open", "cmd/pkger/cmds/serve.go:Exec"]}
{"id": "C92", "title": "GET of an embedded file returns the file", "statement": "http.FileServer on an opened embedded directory answers GET of a file with status 200, the bytes of the file and nothing else, its length, media type and modification time; HEAD with the same headers and no body.", "quantifier": "every stored tree, served directory, request path, buffer size", "why_tests_cant": "all contents and all paths at once", "anchors": ["pkging/mem/file.go:Open", "pkging/mem/file.go:Read", "pkging/mem/file.go:Seek", "pkging/mem/file.go:Readdir", "pkger.go:Dir.Open"]}
{"id": "C93", "title": "Range requests return exactly the bytes asked for", "statement": "A Range request for an embedded file is answered with exactly the bytes asked for: one range with status 206 and a Content-Range naming them, several as a multipart body of all of them in the order asked, ranges beyond the end with 416, ranges longer than the file altogether with the whole file.", "quantifier": "every file, every list of ranges", "why_tests_cant": "all combinations of ranges", "anchors": ["pkging/mem/file.go:Open", "pkging/mem/file.go:Read", "pkging/mem/file.go:Seek"]}
{"id": "C94", "title": "The page of an embedded directory lists exactly its children", "statement": "GET of an embedded directory without index.html returns a page with one link per direct child, sorted by name and escaped; with index.html that file; URLs without the slash a directory needs (or with one a file does not have) are redirected.", "quantifier": "every stored tree, every directory", "why_tests_cant": "all trees", "anchors": ["pkging/mem/file.go:Readdir", "pkging/mem/file.go:Open", "pkging/mem/walk.go:Walk"]}
{"id": "C95", "title": "The packed program serves what http.Dir serves", "statement": "http.FileServer on a directory of the packed pkger, or of the on-disk pkger, gives the same responses to every sequence of requests as http.FileServer on http.Dir of the directory on disk.", "quantifier": "every module, every packed directory, every sequence of requests", "why_tests_cant": "the test compares four paths of one directory", "anchors": ["pkging/pkgtest/http.go:HTTPTest", "pkging/pkgutil/stuff.go:Stuff", "pkging/mem/file.go:Open", "pkging/stdos/file.go:Open"]}
{"id": "C96", "title": "If-Modified-Since is honoured", "statement": "A request with If-Modified-Since is answered with 304 and no body if the file was not modified after that date, otherwise as if the header were absent.", "quantifier": "every file, every date", "why_tests_cant": "all dates", "anchors": ["pkging/file_info.go:ModTime", "pkging/mem/file.go:Stat"]}
{"id": "C97", "title": "Serving leaves no file open", "statement": "After any sequence of requests no file opened for them is still open.", "quantifier": "every sequence of requests", "why_tests_cant": "needs the count after arbitrarily many requests", "anchors": ["pkger.go:Dir.Open", "pkging/stdos/file.go:Close"]}
{"id": "C98", "title": "What does not exist is answered with 404", "statement": "A request for something that is not in the served directory is answered with status 404.", "quantifier": "every request path", "why_tests_cant": "all request strings", "anchors": ["pkging/mem/mem.go:Open", "pkging/mem/file.go:Open", "pkging/stdos/stdos.go:Open"]}
{"id": "C99", "title": "Requests are independent of each other", "statement": "A request gets the answer it would have got first, whatever requests came before it, and serving changes no stored file.", "quantifier": "every sequence of requests", "why_tests_cant": "all histories", "anchors": ["pkging/mem/file.go:Open", "pkging/mem/file.go:Read", "pkging/mem/file.go:Seek", "pkging/mem/file.go:Close"]}
{"id": "C100", "title": "pkger.Dir serves like the opened directory", "statement": "http.FileServer(pkger.Dir(d)) gives the same responses as http.FileServer on the directory d opened once, in memory and on disk.", "quantifier": "every pkger, every directory, every sequence of requests", "why_tests_cant": "all histories and paths", "anchors": ["pkger.go:Dir.Open", "pkging/mem/file.go:Open"]}
{"id": "C101", "title": "No embedded payload can crash the program later", "statement": "A pkger loaded from an embedded payload never panics when its files are opened, walked or asked for their info, whatever the payload.", "quantifier": "every payload UnmarshalEmbed accepts, every name", "why_tests_cant": "all payload texts", "anchors": ["pkging/mem/embed.go:UnmarshalJSON", "pkging/mem/mem.go:Open,Stat,Walk"]}
{"id": "C102", "title": "Goroutines making different files do not disturb each other", "statement": "If several goroutines create different files and directories, and each could do so alone, then all calls succeed in every interleaving, every file ends up with what its goroutine wrote, every directory exists, and nothing else changes.", "quantifier": "every number of goroutines, every list of jobs, every interleaving", "why_tests_cant": "interleavings are unbounded and not repeatable", "anchors": ["pkging/mem/mem.go:Create,MkdirAll", "pkging/mem/file.go:Write,Close"]}
{"id": "C103", "title": "Of several Removes of a file exactly one succeeds", "statement": "If goroutines remove files and directories at the same time, what they removed is gone and nothing else, and of several Remove calls for one file exactly one returns nil, as if they had come one after the other.", "quantifier": "every number of goroutines, every interleaving", "why_tests_cant": "interleavings", "anchors": ["pkging/mem/mem.go:Remove,RemoveAll"]}
{"id": "C104", "title": "Walk during other calls", "statement": "A Walk that runs while other goroutines change the tree reports no error of its own, visits in order every entry that is there all the time and none that never is.", "quantifier": "every interleaving", "why_tests_cant": "interleavings", "anchors": ["pkging/mem/mem.go:Walk", "internal/maps/files.go:Keys"]}
{"id": "C105", "title": "Open during Close gives a consistent file", "statement": "A file opened while its writer closes it has either the old content and size or the new ones.", "quantifier": "every interleaving", "why_tests_cant": "interleavings", "anchors": ["pkging/mem/mem.go:Open", "pkging/mem/file.go:Close"]}
{"id": "C106", "title": "Readers are undisturbed", "statement": "A goroutine that opens, stats, reads, seeks and closes a file that nobody is making gets exactly what it would get alone, whatever other goroutines read, walk or make.", "quantifier": "every number of goroutines, every sequence of Reads and Seeks, every interleaving", "why_tests_cant": "interleavings", "anchors": ["pkging/mem/mem.go:Open", "pkging/mem/file.go:Read,Seek,Close"]}
{"id": "C107", "title": "No file without its directory", "statement": "A Create and a RemoveAll of its directory at the same time leave either both the directory and the file or neither.", "quantifier": "every interleaving", "why_tests_cant": "interleavings", "anchors": ["pkging/mem/mem.go:Create,RemoveAll"]}
{"id": "C108", "title": "Decls always looks at the disk", "statement": "Parser.Decls returns what parser.Parse with the same arguments returns at that moment, whatever methods of the Parser were called before.", "quantifier": "every sequence of calls, every change of the disk between them", "why_tests_cant": "all histories", "anchors": ["parser/parser.go:Decls", "parser/parser.go:parse"]}
{"id": "C109", "title": "DeclsMap keeps the result of the first parse", "statement": "Parse and DeclsMap return the error and the declarations of the first parse each time they are called.", "quantifier": "every sequence of calls of Parse, DeclsMap and Decls", "why_tests_cant": "all histories", "anchors": ["parser/parser.go:DeclsMap", "parser/parser.go:Parse"]}
{"id": "C110", "title": "A file parsed alone is the file found in its directory", "statement": "ParseFile of a .go file gives the source ParseDir of its directory gives for it, and refuses what is not a file.", "quantifier": "every tree, every name", "why_tests_cant": "all trees", "anchors": ["parser/parser.go:ParseFile", "parser/parser.go:ParseSource", "parser/parser.go:ParseDir"]}
{"id": "C111", "title": "Pkger calls are those of package pkger", "statement": "The calls the scanner takes for declarations are exactly the calls of functions of package github.com/markbates/pkger.", "quantifier": "every syntax tree, every set of imports", "why_tests_cant": "all programs", "anchors": ["parser/source.go:parse"]}
{"id": "C112", "title": "A program does the same in memory and on disk", "statement": "A program of whole-file actions (write, MkdirAll, Remove, RemoveAll, read, Stat) on the current module gets the same answers from the in-memory pkger and from the on-disk one, those a plain tree of files predicts, and leaves both showing the same tree.", "quantifier": "every program, every starting tree, every split of the writes and reads", "why_tests_cant": "all programs and trees; the suite runs each operation once per implementation", "anchors": ["pkging/mem/mem.go:Create", "pkging/mem/mem.go:MkdirAll", "pkging/mem/mem.go:Remove", "pkging/mem/mem.go:RemoveAll", "pkging/stdos/stdos.go:Create", "pkging/stdos/stdos.go:MkdirAll", "pkging/stdos/stdos.go:Remove", "pkging/stdos/stdos.go:RemoveAll"]}
{"id": "C113", "title": "After a program both pkgers walk the same tree", "statement": "After such a program, Walk of an existing name calls its function once for each name at or below it, with the same printed path, name, IsDir and size, in memory and on disk.", "quantifier": "every program, every starting tree, every name walked", "why_tests_cant": "all programs and trees", "anchors": ["pkging/mem/mem.go:Walk", "pkging/stdos/stdos.go:Walk"]}
{"id": "C114", "title": "The links of the page of a directory lead to its children", "statement": "The page http.FileServer sends for an embedded directory without index.html, read as a browser reads it, has exactly one link per child, in order; the link's text displays the child's name, its reference is a relative one that resolves to that name, and following the link of a file is answered with the file's contents.", "quantifier": "every tree, every directory, every child name including ones with quotes, angle brackets, percent signs and question marks", "why_tests_cant": "all names; the suite requests no directory page", "anchors": ["pkging/mem/file.go:Readdir", "pkging/mem/file.go:Open", "pkging/mem/mem.go:Open"]}
{"id": "C115", "title": "The Last-Modified date sent is the file's date, and sending it back gets 304", "statement": "The Last-Modified header http.FileServer sends for an embedded file is the RFC 7231 date (weekday, day, month, year and time in GMT) of the file's modification time to the second, no other second has that text, and a client that repeats the request with If-Modified-Since set to it is answered 304 with no body.", "quantifier": "every modification time in the years 0 to 9999, every file and tree", "why_tests_cant": "all times, leap years and centuries included", "anchors": ["pkging/mem/file.go:Stat", "pkging/file_info.go:ModTime"]}
{"id": "C116", "title": "The JSON of an Infos map reads back as that map", "statement": "For every state a maps.Infos can be in, MarshalJSON returns a text that does not depend on map order and that UnmarshalJSON reads, without error, back into the same entries (replacing those of the same key in the receiver); Keys lists each key once in order.", "quantifier": "every sequence of calls, every map, every Range order, every receiver", "why_tests_cant": "all histories and maps; the suite marshals no Infos map", "anchors": ["internal/maps/infos.go:MarshalJSON", "internal/maps/infos.go:UnmarshalJSON", "internal/maps/infos.go:Keys"]}
{"id": "C117", "title": "The JSON of a Files map reads back as that map", "statement": "The text MarshalJSON of a maps.Files returns is read by UnmarshalJSON back into the same entries, and Keys afterwards lists every key.", "quantifier": "every map, every Range and loop order, every receiver", "why_tests_cant": "all maps; the suite unmarshals no Files map", "anchors": ["internal/maps/files.go:MarshalJSON", "internal/maps/files.go:UnmarshalJSON", "internal/maps/files.go:Keys"]}
{"id": "C118", "title": "Goroutines making the same file at once leave one of the contents, whole", "statement": "If several goroutines create, write and close files, some of them under the same name, and each could do so alone, then in every interleaving all calls succeed, each file ends up with exactly the content, size and time of one goroutine that gave its name, and files of other names do not change.", "quantifier": "every number of goroutines, every choice of names and contents, every interleaving", "why_tests_cant": "interleavings are unbounded and not repeatable; the suite creates no file from two goroutines", "anchors": ["pkging/mem/mem.go:Create", "pkging/mem/file.go:Write,Close"]}
{"id": "C119", "title": "An Include or Stat declaration shows the call that makes it", "statement": "The String method of an Include or Stat declaration returns the text of a pkger call whose only argument is a Go string literal denoting exactly the declaration's value, for any bytes in the value; scanning a source file with that call gives the declaration back.", "quantifier": "every value (any bytes), every set of printable code points above 127", "why_tests_cant": "values are unbounded; the suite never calls String", "anchors": ["parser/include.go:String", "parser/stat.go:String"]}
{"id": "C120", "title": "Any spelling of a payload's JSON loads the same", "statement": "Two JSON texts that differ only in white space, in how keys and strings are spelled (escapes), in the order of members, in the letter case of field names, or in members of other names, load into the same pkger or fail alike; only the text of a JSON object (RFC 8259) loads at all, and MarshalJSON always writes one.", "quantifier": "every pair of such texts, every resolver, every iteration order", "why_tests_cant": "the spellings of a text are unbounded; the suite only loads what MarshalJSON wrote", "anchors": ["pkging/mem/embed.go:UnmarshalJSON", "pkging/embed/embed.go:Data", "pkging/embed/file.go:File", "pkging/file_info.go:FileInfo", "pkging/mod_time.go:UnmarshalJSON"]}
{"id": "C121", "title": "null for a field of a payload is like leaving the field out", "statement": "Adding a member with the value null for a field that a struct in the payload does not give (at any depth, outside sys) changes nothing about what loads; what is left out of a file's info is zero, the time being the first instant of year 1.", "quantifier": "every payload text, every place in it, every field", "why_tests_cant": "the payloads are unbounded; the suite loads no payload with null or missing fields", "anchors": ["pkging/mem/embed.go:UnmarshalJSON", "pkging/embed/file.go:File", "pkging/file_info.go:Details", "pkging/mod_time.go:UnmarshalJSON"]}
{"id": "C122", "title": "A file's data is standard base64 in the payload", "statement": "The data member of a file, given as a string, loads exactly if its value is base64 with the standard alphabet and padding (RFC 4648; line breaks ignored, unused bits of the last letter not checked), and then as the bytes it denotes; MarshalJSON writes the data so.", "quantifier": "every string, every content", "why_tests_cant": "contents and strings are unbounded; the suite never loads data it did not write", "anchors": ["pkging/embed/file.go:File", "pkging/mem/embed.go:UnmarshalJSON"]}
{"id": "C123", "title": "A name that cannot be parsed is reported by every call and changes nothing", "statement": "Each call of the embedded and of the on-disk pkger that takes a name (Create, MkdirAll, Open, Stat, Walk, Remove, RemoveAll, and Open on an opened directory) fails with the parser's error if the name cannot be parsed (the embedded Open wraps it in a PathError with the name), and changes neither the pkger nor the disk.", "quantifier": "every resolver, every pkger state, every disk, every such name, every walk callback", "why_tests_cant": "names and states are unbounded; the suite gives no unparsable name to most of the calls", "anchors": ["pkging/mem/mem.go", "pkging/stdos/stdos.go", "pkging/mem/file.go:Open"]}
{"id": "C124", "title": "What does not exist is reported as os.ErrNotExist", "statement": "os.IsNotExist recognises the error of Open, Stat, Remove, Walk and Create exactly if nothing is at the path that the name stands for (for Create: at its directory), for the embedded and the on-disk pkger; MkdirAll and RemoveAll never fail so.", "quantifier": "every reachable state, every disk, every name", "why_tests_cant": "states are unbounded; the suite checks at most that some error is returned", "anchors": ["pkging/mem/mem.go:Open", "pkging/mem/mem.go:Stat", "pkging/mem/mem.go:Remove", "pkging/mem/mem.go:Create", "pkging/stdos/stdos.go"]}
{"id": "C125", "title": "An open directory lists the same in memory and on disk", "statement": "If both pkgers show the same tree, opening a directory and calling Readdir(0) lists the same children with both: each direct child once with its name, kind and size, and nothing else.", "quantifier": "every tree and directory; every program of file operations that produced it", "why_tests_cant": "trees are unbounded; the suite compares listings of one fixed tree", "anchors": ["pkging/mem/file.go:Readdir", "pkging/stdos/file.go:Readdir", "pkging/mem/mem.go:Open", "pkging/stdos/stdos.go:Open"]}
{"id": "C126", "title": "On-disk Readdir(n) pages through the directory", "statement": "Successive calls of Readdir with positive counts on a directory opened on disk return consecutive pieces of what Readdir(0) returns, each as long as asked until the end, together exactly the listing, and then an empty slice with io.EOF at every further call.", "quantifier": "every disk, every opened directory, every sequence of positive counts", "why_tests_cant": "directories and sequences are unbounded; the suite only calls Readdir(-1)", "anchors": ["pkging/stdos/file.go:Readdir"]}
{"id": "C127", "title": "Serving a directory through a stack of layers", "statement": "http.FileServer(pkger.Dir(d)) on a stack of layers serves every file below d that Open opens through the stack.", "quantifier": "all stacks of in-memory layers, all directories, all sequences of requests", "why_tests_cant": "layers, trees and request sequences are unbounded; the suite serves from one pkger", "anchors": ["pkger.go:Dir.Open", "pkging/wrap.go:withPkger.Open", "pkging/mem/file.go:Open"]}
{"id": "C128", "title": "Programs that keep files open do the same in memory and on disk", "statement": "A program of whole-file actions and of Open, Create, Read, Seek, Write and Close on the files it has opened gets the same answers, byte counts, positions and ends of file from the in-memory pkger as from the disk, and leaves the same tree.", "quantifier": "all programs, with any number of open files, all trees, all offsets", "why_tests_cant": "programs, interleavings of handles and offsets are unbounded; the suite opens one file at a time", "anchors": ["pkging/mem/file.go:Read", "pkging/mem/file.go:Seek", "pkging/mem/file.go:Write", "pkging/mem/file.go:Close", "pkging/mem/mem.go:Open", "pkging/mem/mem.go:Create", "pkging/stdos/stdos.go:Open", "pkging/stdos/stdos.go:Create"]}
{"id": "C129", "title": "Calls that do not overlap, or have nothing to do with each other", "statement": "Goroutines that make their calls one after the other get what a single-threaded program gets from the in-memory pkger, whichever calls they make. If their calls do overlap, the names that none of the calls could change keep their Files and content, a File that was there and that no goroutine has a handle on is not changed, and no name is ever left without a File.", "quantifier": "all pkgers, all goroutines making any calls chosen by the answers so far, all interleavings", "why_tests_cant": "A test sees a few schedules of a few programs; these hold for every schedule and every program.", "anchors": ["pkging/mem/mem.go:56-252", "pkging/mem/file.go:33-203", "internal/maps/files.go:110-120"]}
{"id": "C130", "title": "Which keys and values the fields of a payload take", "statement": "A member of a payload's object counts for a field exactly if its key is the field's name up to letter case (U+017F and U+212A counting as s and k). A file's size is taken from an integer literal that fits int64, its mode from a natural number below 2^32, is_dir from true or false, its name from a string, null leaving each as it was; any other value fails. Data may also be given as an array of numbers up to 255, null counting as 0.", "quantifier": "all keys, all JSON values", "why_tests_cant": "The accepted numbers and spellings are infinite in number; tests only decode what MarshalJSON wrote.", "anchors": ["pkging/embed/file.go:8-14", "pkging/file_info.go:9-20", "pkging/embed/embed.go:51-55"]}
{"id": "C131", "title": "Modification times in a payload are RFC 3339 dates of the Gregorian calendar", "statement": "A file's modification time in a payload loads exactly if it is a date and time of RFC 3339 - of a day the calendar has, the hour with one or two digits, a fraction below 10^9 as a number, hours and minutes of the zone possibly with a sign of their own - and then as the instant and zone it names. MarshalJSON writes times of the years 0 to 9999 in zones of whole minutes as RFC 3339 says, with the shortest fraction.", "quantifier": "all texts, all times", "why_tests_cant": "The calendar has special cases (leap years, centuries) and the parser accepts more than it writes; tests look at a few dates.", "anchors": ["pkging/mod_time.go:8-24"]}
{"id": "C132", "title": "A symbolic link is packed as the file it leads to", "statement": "On a disk whose links all lead to regular files, listing and packing give what they give on the same disk with a copy of the file in place of each link: the same list, the same error or a packed program that serves the same bytes under the same names. The details are the copy's too, except for a link inside a packed directory that is not listed itself after the directory (because its name ends in .tmp, or is made at run time, or sorts before it in another module): such a link shows the size, mode and time of the link's own entry. Packing succeeds only if every link listed, or below what is listed, leads to a readable regular file, so a link to a directory cannot be packed at all.", "quantifier": "all disks with links (chains, relative and absolute targets, links out of the module), all declarations, resolvers and map orders", "why_tests_cant": "Whether Stat or Lstat is meant differs from call to call; a test with one link sees one combination, and most tests have none.", "anchors": ["parser/open.go:50-78", "parser/walk.go:53-96", "parser/decl.go:26-60", "pkging/mem/add.go:17-101", "pkging/pkgutil/stuff.go:25-46"]}
{"id": "C133", "title": "Scanning a module with symbolic links", "statement": "A module in which every link leads to a regular file is scanned as the module with copies in place of the links. A link to a directory is not: a linked directory of Go files is not scanned, and of a module whose directory is itself a link nothing is scanned, without an error. An entry ending in .go that leads nowhere, such as an editor's lock file, makes the whole scan fail.", "quantifier": "all modules, disks with links, parsers, resolvers and map orders", "why_tests_cant": "os.Stat follows the link and filepath.Walk does not; the difference shows only when the module directory itself is a link, which no test sets up.", "anchors": ["parser/parser.go:91-135", "parser/parser.go:175-234"]}
{"id": "C134", "title": "A goroutine that only reads sees what it would see alone, whatever is changed elsewhere", "statement": "Goroutines use one in-memory pkger at the same time. Some create, write, make directories and remove, but only names in a set D, and begin without handles; others only open, stat, read, seek, list and close, and may share Files of directories opened before. A goroutine of the second kind that never asks about a name in D gets, for every interleaving of the steps between lock operations and every order in which the names are enumerated, exactly the answers it would get alone. Together they leave every name outside D, and every File that was there, as it was.", "quantifier": "all states satisfying the invariant whose stored names are not empty, all sets D, all lists of goroutines, all interleavings, all orders of sync.Map.Range that contain every stored name", "why_tests_cant": "The race detector and stress tests sample interleavings; what a reader may rely on while others write elsewhere needs all of them.", "anchors": ["pkging/mem/mem.go:24-33", "pkging/mem/mem.go:118-275", "pkging/mem/file.go:44-230"]}
{"id": "C135", "title": "Requests served at the same time", "statement": "net/http runs a goroutine for each request. Requests to http.FileServer on Files of directories, or on pkger.Dir, are answered, for every interleaving and every enumeration order, exactly as if each were the only one, and change nothing. This holds too while other goroutines change names elsewhere: a request for a name below the served directory is not disturbed by changes to names that do not begin with that name. It is false when they change what is being listed: the page can list neither the file just created nor the one then removed, which is so at no moment, and the request can fail with status 500.", "quantifier": "all states satisfying the invariant whose stored names are not empty, all lists of requests (paths, ranges, HEAD, all conditional headers), media type functions, copy buffer sizes, other goroutines, interleavings, enumeration orders", "why_tests_cant": "Tests send one request after the other, or a few at a time and never control the interleaving with other writers.", "anchors": ["pkging/mem/mem.go:118-275", "pkging/mem/file.go:44-230", "pkger.go:35-41"]}
{"id": "C136", "title": "Conditional requests", "statement": "A conditional request for an embedded file is answered as RFC 7232 and RFC 7233 say for a file without an entity tag: status 412 if If-Match names tags, or, without If-Match, if the file is newer than If-Unmodified-Since; status 304 for If-None-Match: *; otherwise like the request without these headers, where If-None-Match takes the place of If-Modified-Since and Range counts only if If-Range is absent or gives the file's date. For a missing name the conditions do not count. The packed pkger answers every conditional request like http.Dir of the directory it was packed from.", "quantifier": "every stored tree, served directory, request path, combination of the five conditional headers (tags given read, dates as seconds), media type functions, buffer size; every project in the class of C95", "why_tests_cant": "Combinations of five headers with every file time; tests ask for one or two.", "anchors": ["pkging/mem/file.go:Open", "pkging/mem/file.go:Stat", "pkging/mem/mem.go:Open", "pkger.go:Dir.Open"]}
{"id": "C137", "title": "A resumed download is one version of the file", "statement": "A client that has the first n bytes of some version of an embedded file and asks for the rest with If-Range and that version's date ends up with the file as it is now: the rest is sent only if the file still is that version, otherwise the whole file. False: dates are compared by the second, so after two versions within one second, as two builds of a generator can make, the client can hold half of each. Proved if versions with the same second are the same.", "quantifier": "every stored tree, served directory, path, older contents and time, number n of bytes", "why_tests_cant": "A test has one old and one new version; the claim ranges over all pairs and shows where it fails.", "anchors": ["pkging/mem/file.go:Open", "pkging/mem/file.go:Seek", "pkging/mem/file.go:Read"]}
{"id": "C138", "title": "A packed program serving many clients", "statement": "A module whose sources name a directory, packed with the pkger command, serves that directory with http.FileServer to any number of clients at the same time: whatever the interleaving and the enumeration orders, each request, conditional or not, gets exactly the answer http.FileServer(http.Dir(d)) on the directory of the source tree gives to it alone, and the embedded files stay as they are.", "quantifier": "every module, directory tree, directory named by a call in the sources, list of requests and conditions, clock, enumeration order, interleaving, media type functions, buffer size", "why_tests_cant": "Tests ask a packed program a few requests one after the other; interleavings, trees and headers are unbounded.", "anchors": ["parser/parser.go:Parse", "cmd/pkger/cmds/pack.go:Package", "pkging/pkgutil/stuff.go:Stuff", "pkging/mem/mem.go:UnmarshalJSON", "pkging/mem/mem.go:Open", "pkging/mem/file.go:Open", "pkging/mem/file.go:Read"]}
{"id": "C139", "title": "The text of conditional headers", "statement": "A date in any of the three forms of RFC 7231 and the entity tags or \"*\" of RFC 7232 in a conditional header are read as what they mean, so a client that sends back the Last-Modified it got, or any other date or tags, is answered as these RFCs say; for headers of any text whatever, a packed pkger answers as http.Dir does on the directory it was packed from. Exactly which texts each of the three layouts of http.ParseTime accepts, and as which second, is given by a grammar.", "quantifier": "every text of If-Match, If-None-Match, If-Unmodified-Since, If-Modified-Since, If-Range; every file, tree, request, media type functions, buffer size", "why_tests_cant": "Header texts are unbounded; the repository tests none of them.", "anchors": ["pkging/mem/file.go:Open", "pkging/mem/file.go:Stat", "pkging/mem/file.go:Seek", "pkging/mem/mem.go:Open"]}
{"id": "C140", "title": "The text of a Range header", "statement": "Every text of a Range header has one outcome. Without text, and for a list of empty elements only, the whole file is sent; with another unit than bytes, or with an element that is not a range, the answer is 416; with ranges that all begin behind the file, 416 with its size; otherwise exactly the bytes asked for, in the order asked, or the whole file when they are more than the file. Which texts are elements, and which bytes each asks for, is given by a grammar, blanks and signs included.", "quantifier": "every text of the header, every content, every packed tree, GET and HEAD", "why_tests_cant": "Header texts are unbounded; the repository tests none of them.", "anchors": ["pkging/mem/file.go:Open", "pkging/mem/file.go:Seek", "pkging/mem/file.go:Read", "pkging/mem/mem.go:Open"]}
{"id": "C141", "title": "Joined and cleaned paths lead where their elements lead", "statement": "Wherever the code joins a directory and a name (filepath.Join, path.Join), the joined path leads to the file that is reached by following first the directory and then the name, element by element, whenever that can be followed; cleaning does not change where a path leads. The result of cleaning is the one the documented rules give, in whatever order they are applied; Split, Dir and Base cut the path at the last slash.", "quantifier": "every path, every tree without symbolic links", "why_tests_cant": "Paths and trees are unbounded; a test has a handful of spellings.", "anchors": ["pkging/stdos/stdos.go:Open", "pkging/stdos/stdos.go:Stat", "pkging/mem/file.go:Open", "pkging/mem/mem.go:MkdirAll", "pkging/mem/mem.go:Create", "parser/source.go:parse"]}
{"id": "C142", "title": "Nothing but a string literal is read as one", "statement": "The text of an argument in a source file is taken as a path exactly when it is a string literal of the Go specification, and the path is the value that the specification gives it; texts that are not literals (unknown escapes, octal escapes over 255, code points that do not exist, numbers, open quotes) are refused.", "quantifier": "every text", "why_tests_cant": "The texts of literals are unbounded; C71 says only that literals are accepted, a test cannot show that nothing else is.", "anchors": ["parser/source.go:value", "parser/source.go:valueNode"]}
{"id": "C143", "title": "The example programs do the same with pkger as with os, packed or not", "statement": "The programs in examples/open, examples/stat and examples/walk print the same text and end the same way in three forms: written with package os, written with pkger and not packed, and written with pkger and packed by `pkger` from their own sources.", "quantifier": "every project whose main.go is the example, every content of its public directory, every size of the buffer of io.Copy, every way of writing modes and times", "why_tests_cant": "The programs in examples are run by nobody's tests; a run compares one directory, and the order of a walk and the content of a file depend on what is in it.", "anchors": ["examples/open/pkger/main.go:run", "examples/stat/pkger/main.go:run", "examples/walk/pkger/main.go:run"]}
{"id": "C144", "title": "Packed files keep the Sys value of their info", "statement": "FileInfo.Sys of a file of a packed program is written in JSON like that of the file on disk, and FileInfo.String prints the same text.", "quantifier": "every file system, with any Sys value for each file whose JSON has numbers up to 2^53, every list of declarations", "why_tests_cant": "The Sys value depends on the machine that packs; tests of /repo leave it nil or do not look at it.", "anchors": ["pkging/file_info.go:NewFileInfo", "pkging/file_info.go:String", "pkging/mem/embed.go:UnmarshalJSON", "pkging/mem/add.go:Add"]}
{"id": "C145", "title": "examples/dynamic does the same packed and not packed", "statement": "The program examples/dynamic (Stat /go.mod, MkdirAll /foo/bar/baz, Create, Write and Close biz.txt in it, Open, io.Copy and Close) packed from its own sources gets the answers it gets when run from source.", "quantifier": "every module of which main.go is that program, every file system, buffer size of at least 5 bytes, clock and map order", "why_tests_cant": "The example is run by hand or in a container; no test of /repo packs it and compares the two runs.", "anchors": ["examples/dynamic/pkger/main.go:run", "pkger.go:Create", "pkger.go:MkdirAll", "pkging/mem/mem.go:Create", "pkging/stdos/stdos.go:Create", "parser/parser.go:Decls"]}
{"id": "C146", "title": "examples/http serves the same files packed, not packed and without pkger", "statement": "The program examples/http/pkger (http.FileServer(pkger.Dir(\"/public\"))), packed from its own source, answers each of any number of requests made at the same time exactly as examples/http/std (http.FileServer(http.Dir(\"./public\"))) answers it alone from the module's directory; so does the program run from source. The embedded files stay as they are.", "quantifier": "every module of which main.go is that program, every number of clients, requests, conditions, interleavings, clocks, map orders and buffer sizes", "why_tests_cant": "The tests of /repo ask one test server for one directory page; none packs the example, and none has two clients at the same time.", "anchors": ["examples/http/pkger/main.go:run", "examples/http/std/main.go:run", "pkger.go:Dir.Open", "pkging/mem/file.go:Open", "parser/parser.go:Decls"]}
{"id": "C147", "title": "Earlier runs of pkger into the same output leave no trace", "statement": "Whatever pkger commands were run before in the package, successful or not, if they were packing runs whose -o leads to the same directory, `list` (if that is the package's directory), or commands that only look: running pkger now leaves the same files, exit status and standard output as if none of them had been run. Likewise for `pkger list`. So running pkger twice is the same as running it once. The same holds if some of the earlier packing runs were killed at any point, as long as go list still answers.", "quantifier": "every well-formed file tree, command line, number and order of earlier runs, each with its own clock, map orders, go list and go/parser; every point at which a run is killed", "why_tests_cant": "The tests of /repo never run the command twice in one directory; one that does sees one sequence of command lines on one tree.", "anchors": ["cmd/pkger/cmds/pack.go:Exec", "cmd/pkger/cmds/pack.go:Package", "cmd/pkger/cmds/list.go:Exec", "cmd/pkger/main.go:main"]}
{"id": "C148", "title": "No program is built from half a payload", "statement": "Wherever a packing run is killed: if the raw string literal of the pkged.go it leaves is closed, then the file is the one from before the run, or its literal is that of the file the whole run would have left, which succeeds. So a program compiled from what a killed run leaves has all the packed data, or the compiler refuses the file.", "quantifier": "every well-formed file tree, package directory, -o, -include, clock and map order; every point at which the run is killed, in the middle of a write too", "why_tests_cant": "The tests of /repo never interrupt a run; a test can interrupt at a few points, not at every byte.", "anchors": ["cmd/pkger/cmds/pack.go:Package", "cmd/pkger/cmds/pack.go:Exec", "pkging/pkgutil/stuff.go:Stuff"]}
