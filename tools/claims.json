{
 "C02": {
  "note": "Holds for non-empty files. Refuted for empty files: Read fails with another error, never io.EOF."
 },
 "C03": {
  "status": "partial",
  "note": "Proved for non-empty content. For empty content every Read fails and every Seek answers (0,nil): C03_empty is exact, C03_empty_refuted the witness."
 },
 "C04": {
  "note": "Content (via C03_C04) and info of an opened handle."
 },
 "C07": {
  "note": "Refuted: Read after Close delivers the content again."
 },
 "C10": {
  "note": "Stat hands out the stored file's own info; Close through a handle changes it. Proved for infos of opened handles."
 },
 "C12": {
  "note": "Refuted: Remove of a non-empty directory succeeds."
 },
 "C13": {
  "note": "Descendants go, nil is returned, exact removed set proved; siblings sharing the text and other packages are removed too (refuted)."
 },
 "C18": {
  "note": "Exact visited list proved; equals the subtree under a separation condition (none for the root); filepath.Walk order exactly when no name sorts between a directory's and those of what is in it. Otherwise refuted."
 },
 "C19": {
  "note": "Exact pruned set proved; equals the directory's descendants under separation; refuted in general."
 },
 "C21": {
  "note": "Proved on well-formed trees; refuted in general (text-prefix siblings listed, files dropped)."
 },
 "C22": {
  "note": "At most n, the first n. No continuation, never io.EOF (refuted)."
 },
 "C14": {
  "note": "Exact success condition, resulting entry and frame proved. Refuted: it replaces a directory and creates below a regular file."
 },
 "C15": {
  "note": "The target itself, for every resolver; all ancestors below the root for plain names of the current package. Refuted: the root is not created, and ancestors of another package's path are created in the current package."
 },
 "C16": {
  "note": "Other entries unaffected (proved). Refuted: existing files and directories are overwritten."
 },
 "C17": {
  "note": "Termination with an explicit bound for the recalled resolver unless the package directory is '/'; there MkdirAll('/') and every Create diverge (refuted)."
 },
 "C23": {
  "note": "Containment for requests resolving to clean names of the directory's package; refuted for backslashes, colons, other packages. On-disk pkger: C91.",
  "extra": [
   "C91_backslash_refuted",
   "C91_package_refuted",
   "C91_inside_partial"
  ]
 },
 "C46": {
  "note": "IsDir, mode = perm, base name proved; Mode().IsDir() refuted."
 },
 "C47": {
  "note": "Proved for plain names not starting with the text of the package directory (recalled resolver); refuted for those."
 },
 "C55": {
  "note": "Proved unless the request resolves to the directory's own path; refuted there."
 },
 "C58": {
  "note": "Proved when ImportPath = Module.Path; refuted otherwise."
 },
 "C59": {
  "note": "Proved for plain names; refuted for names with backslashes."
 },
 "C60": {
  "note": "Refuted (recalled resolver): text after the colon is dropped."
 },
 "C24": {
  "note": "For any layers (any behaviour on any world) and any history of Apply calls. Values returned together with an error are not modelled."
 },
 "C25": {
  "note": "For any layers and any history of Apply calls."
 },
 "C26": {
  "note": "Interleaving model of Apply/impl and the RWMutex with sequentially consistent atomic steps (the lock orders all accesses to current)."
 },
 "C27": {
  "note": "Sequential histories (Wrap.v) and goroutines (Apply.v)."
 },
 "C61": {
  "note": "Succeeds exactly if every layer stores the name. Refuted as stated: a name only in some layers cannot be removed, and the error may come after a layer was changed."
 },
 "C62": {
  "note": "Visits each layer's listing, last applied first; refuted: names in two layers are visited twice."
 },
 "C63": {
  "note": "Holds if the last applied layer could create the file; refuted otherwise."
 },
 "C28": {
  "note": "compress/gzip is a pair of functions assumed only to satisfy gunzip (gz x) = Ok x; hex is modelled byte by byte."
 },
 "C29": {
  "note": "The package name printed in the header is assumed free of back quotes (Go identifiers are)."
 },
 "C32": {
  "status": "partial",
  "note": "Holds for years 0-9999 and offsets of whole minutes below 100 h; refuted outside by concrete times. package time is modelled from the Go standard library."
 },
 "C30": {
  "status": "partial",
  "note": "JSON text, base64, RFC 3339 and the struct layer are modelled to the byte. Proved for states whose strings are UTF-8, times representable and whose stored paths resolve back from their printed form; refuted for a path stored unclean. C30_canonical and C30_refuted depend on the recalled resolver."
 },
 "C31": {
  "status": "partial",
  "note": "Proved when stored paths print differently; refuted by a reachable state storing the root under two names that print alike (recalled resolver)."
 },
 "C65": {
  "status": "partial",
  "note": "A string survives exactly when it is UTF-8 (pinned against RFC 3629 by C65_utf8, the JSON reader against RFC 8259 by C65_json); refuted by two non-UTF-8 names that become one."
 },
 "C66": {
  "status": "partial",
  "note": "The text null, and nothing else, makes it panic (C66_only_null); files without info are modelled as nil pointers (NilInfo.v)."
 },
 "C67": {
  "note": "Same conditions as C30."
 },
 "C68": {
  "note": "Same conditions as C30; gzip is any pair of functions with gunzip (gz x) = Ok x."
 },
 "C33": {
  "note": "For any disk, resolver, here.Dir and map iteration order."
 },
 "C34": {
  "status": "partial",
  "note": "Exact listing and exact failure condition when every declaration lies in one readable module, run-time declarations come first, and no absolute path doubles as a name inside a module; the claim as worded follows when names are spelled without package and no packed declaration is below a run-time one. Refuted otherwise: package-qualified run-time names, declarations below a run-time directory, module in the root directory."
 },
 "C35": {
  "status": "partial",
  "note": "Under the conditions of C34; refuted when a module contains its own path (an absolute path is taken for a name)."
 },
 "C69": {
  "status": "partial",
  "note": "When each declaration's tree is one module; refuted for nested modules (stale here.Info after leaving a sub-directory)."
 },
 "C36": {
  "status": "partial",
  "note": "If every call resolves, one declaration per call in source order (any tree, resolver, lookup); otherwise the exact set found. Refuted: unresolvable calls and calls without argument are dropped without error, and calls nested inside them are lost."
 },
 "C37": {
  "status": "partial",
  "note": "Ends normally when evaluating each argument does. Refuted: panics for constants of another file and implicitly repeated constants; unbounded recursion for cyclic constants."
 },
 "C38": {
  "status": "partial",
  "note": "Exact set of parsed directories proved; the claim holds when the root's name is not ignored and no name merely starts like an ignored one. Refuted: 'vendors' is skipped, a module in a directory 'vendored' is not scanned. What is found in a directory: C78."
 },
 "C70": {
  "status": "partial",
  "note": "Proved in the module's root package; refuted elsewhere (recalled resolver) when the module root is not a package."
 },
 "C71": {
  "note": "C71_every quantifies over the grammar of the Go specification (\\u escapes of surrogates, which the compiler rejects, are outside it). strconv.Unquote is modelled from the Go standard library."
 },
 "C39": {
  "status": "partial",
  "note": "Proved (bytes, size, mode, directory flag, time) for listed files of one module packed from its root package, for any map and directory order and any resolver meeting the record packing; recalled resolver shown to meet it. Refuted: empty files cannot be read back; packing from a sub-package stores files under absolute names; a file below a copy of the module's own path overwrites another."
 },
 "C40": {
  "status": "partial",
  "note": "Proved when every listed entry is a regular file; refuted: a .tmp file inside a packed directory is packed with the directory."
 },
 "C41": {
  "status": "partial",
  "note": "Exact embedded set proved under the conditions of C39; refuted: a listed .tmp file is not packed; files below a run-time directory are packed though not listed."
 },
 "C42": {
  "status": "partial",
  "note": "Fault-free or panicking runs end with no file, the old one, or a complete one. Refuted: every proper prefix of the file is visible to a crash; a Stuff error leaves the header behind."
 },
 "C43": {
  "status": "partial",
  "note": "Errors before and inside Stuff are reported exactly. Refuted: every failing write is dropped, a panic returns nil with no file."
 },
 "C73": {
  "status": "partial",
  "note": "Refuted: the old output is removed before parsing, for every failure. Proved: success replaces it."
 },
 "C52": {
  "status": "proved",
  "note": "Exact dispatch for every argument list, 'first argument' meaning the first after the options; options ending the process are characterised. Go's flag package is modelled from the standard library."
 },
 "C72": {
  "status": "partial",
  "note": "Refuted for every use of list: the generated file is gone afterwards. Everything beside it is left alone."
 },
 "C74": {
  "status": "partial",
  "note": "Reading of options proved exact (C74_flags); refuted: options before a subcommand are dropped."
 },
 "C75": {
  "status": "partial",
  "note": "Status 0 characterised for every command line; refuted: bad options exit without tidying."
 },
 "C44": {
  "note": "Interleaving model of the two steps of the maps' init and use under sequential consistency. Refuted: an operation that read the map before the initialiser replaced it is lost. Proved: no crash, nothing stored after settling is lost, a single thread is right."
 },
 "C48": {
  "note": "Create, Open, Stat, Remove, RemoveAll address one file, for every resolver and package lookup (full). MkdirAll joins the unparsed path: proved for plain names, refuted for package-qualified and absolute ones."
 },
 "C49": {
  "note": "Refuted for directories of a dependency: the current module's file is served. Proved when the joined name resolves to the directory's package, e.g. in the current module."
 },
 "C51": {
  "note": "Equal to filepath.Walk with renamed callback, exact names proved, for module directories other than / and names without backslash; refuted otherwise."
 },
 "C77": {
  "note": "Refuted: the info is taken at Create and kept. Proved that it never changes and that the pkger's Stat is right."
 },
 "C53": {
  "note": "Exact map of paths proved for reachable in-memory pkgers and for disk trees (no backslash names, module not in /); the text written reads back as that map. Refuted: an entry stored under the empty name is left out."
 },
 "C54": {
  "note": "Stat, Open, Read agree for packed files (non-empty files, non-zero buffers); Walk delivers the same calls, in the same order exactly when no name sorts between a directory's and those of what is in it. Refuted for empty files, zero-length reads and Walk order."
 },
 "C78": {
  "note": "For modules in which every call names a path (unresolvable calls: see C36); refuted without that: a call nested in one that cannot be resolved is lost. go/parser is a parameter."
 },
 "C79": {
  "note": "Composition of C78, C34, C39. For modules whose calls all name a path (refuted without that) and whose packed declarations lie in the module's own directory; gzip assumed invertible; empty files cannot be read (C39)."
 },
 "C80": {
  "note": "Proved for modules whose packed declarations lie in the module's own directory under the module's name. Refuted in general: opening a directory in one file and, qualified by its package, a file of it in another."
 },
 "C81": {
  "note": "Premise on sources: an identifier is not a quoted string."
 },
 "C82": {
  "note": ""
 },
 "C83": {
  "note": "For names that are UTF-8."
 },
 "C84": {
  "note": "For names that are UTF-8."
 },
 "C85": {
  "note": "For names that are UTF-8; source positions are opaque values."
 },
 "C86": {
  "note": "For details that JSON can hold (C32)."
 },
 "C87": {
  "note": "-json: proved for UTF-8 names; without files the member Files is null, not an array (C87_array). Lines: for paths without newlines; refuted for a file name with a newline."
 },
 "C88": {
  "note": "Refuted: serve declares -exclude but never parses its arguments. list, path and parse honour theirs (C84, C85, C87).",
  "extra": [
   "C84_paths",
   "C85_parse",
   "C87_json"
  ]
 },
 "C89": {
  "note": ""
 },
 "C90": {
  "note": "Refuted when a declaration covers the output; holds when no listed file is at or above it."
 },
 "C91": {
  "note": "Refuted (recalled resolver) for backslashes, and for requests starting with the module's directory; holds for plain requests."
 },
 "C92": {
  "note": "Holds for names that resolve below the served directory and files that state their length. Refuted for a file added with a wrong size."
 },
 "C93": {
  "note": "Holds for non-empty files under the hypotheses of C92. Refuted for the last bytes of an empty file (a flaw of net/http 1.13)."
 },
 "C94": {
  "note": "Holds for well formed subtrees (as C21). Refuted for siblings whose names share a prefix, and for a sub-directory named like the served directory."
 },
 "C95": {
  "note": "Holds for packed directories without sibling-prefix clashes and requests that resolve in the package; on disk for paths that do not go through a regular file. Refuted for a sibling-prefix clash; C98 and C49 for the other cases."
 },
 "C96": {
  "note": "Under the hypotheses of C92, comparing whole seconds. Refuted as stated: a modification within the same second, and files dated at the Unix epoch or the zero time, which are never answered with 304."
 },
 "C97": {
  "note": "Holds for an opened directory and for http.Dir. Refuted for pkger.Dir: at least one file is left open per request."
 },
 "C98": {
  "note": "Holds for names that resolve. Refuted for unreadable names (500), for names with a colon (200), and on disk for names through a regular file (500)."
 },
 "C99": {
  "note": "Any open directory handle without a writer; no limit on the stated sizes."
 },
 "C100": {
  "note": "In memory for every well-formed pkger; on disk for every tree."
 },
 "C101": {
  "status": "partial",
  "note": "Refuted: a file without info loads and Open panics. Holds for every payload that gives all files an info, which includes everything MarshalJSON writes. C101_same: with no info missing, Open, Stat and Walk of this model are those of Mem.v, errors included."
 },
 "C102": {
  "note": "Statement limited to different files; steps are the accesses to shared maps and fields (see header of Conc.v)."
 },
 "C103": {
  "status": "partial",
  "note": "What is removed is exact; but two Removes of one file may both return nil (C103_once_refuted)."
 },
 "C104": {
  "status": "partial",
  "note": "Proved while others make, read and walk. With a Remove at the same time Walk fails with ErrNotExist (refuted)."
 },
 "C105": {
  "status": "partial",
  "note": "Refuted: old size with new content. For files nobody writes see C106."
 },
 "C106": {
  "note": "C106_content says what they get for files with content."
 },
 "C107": {
  "status": "partial",
  "note": "Refuted."
 },
 "C108": {
  "note": ""
 },
 "C109": {
  "note": "Proved as long as Decls is not called; Decls replaces the declarations but not the stored error (refuted)."
 },
 "C110": {
  "note": "go/parser is a parameter; parser.Mode is ignored by the code."
 },
 "C111": {
  "note": "For files that import pkger under its own name and declare nothing of that name; refuted for a renamed import and for a variable called pkger."
 },
 "C112": {
  "note": "For calm programs: no file made inside a file or over a directory, no directory inside a file, no removal of a non-empty directory, no RemoveAll below a file or where another name begins with the same text, no read of an empty file or into an empty buffer. Each of these is refuted (C112_refuted). C112_fresh_partial starts with nothing, C112_packed_partial with what was packed."
 },
 "C113": {
  "note": "For existing names whose text no other name begins with; the same order exactly when no name sorts between a directory's and those of what is in it. C113_packed_partial compares a packed program with the directory it was packed from. Refuted otherwise."
 },
 "C114": {
  "note": "How a browser reads a page (entities, percent escapes, relative references) is specified apart from the server's escaping functions. C114_links is unconditional; following the links has the hypotheses of C92 and C94."
 },
 "C115": {
  "note": "The calendar and the date format are specified apart from the model's. Date and uniqueness hold for every second of the years 0 to 9999; refuted for later years. The 304 answer has the hypotheses of C92 and C96 (not the Unix epoch). C115_left_out: for which instants no date is sent."
 },
 "C116": {
  "note": "Round trip for maps whose strings are UTF-8; order independence and Keys unconditional. Refuted: MarshalJSON panics on a map without data, exactly after calls that stored nothing (C116_panics), e.g. one read from {}."
 },
 "C117": {
  "note": "Refuted: C117_never shows that the JSON of any map holding a file (paths in UTF-8) is refused, whatever the receiver; and a null entry makes Keys depend on Range order."
 },
 "C118": {
  "note": "C118_whole for the end of every interleaving, C118_rest for the other files at every moment. Names resolving to the root directory, which Create itself makes, are excluded."
 },
 "C119": {
  "note": "strconv.Quote is modelled from the Go 1.13 standard library; which code points above 127 are printable is arbitrary. C119_again starts from the syntax tree: go/parser is not modelled."
 },
 "C120": {
  "status": "partial",
  "note": "Proved for texts that spell mod_time alike and keep sys as it is. Refuted otherwise: ModTime parses the spelling of its string, so a time written with an escape makes the payload unreadable."
 },
 "C121": {
  "note": "By C121_null for any place; C121_zero for files whose info gives no details."
 },
 "C122": {
  "note": "Both directions, against a relation defined from RFC 4648."
 },
 "C123": {
  "note": "Proved for all calls of both pkgers; that nothing changes is refuted for the embedded Create, which makes the package's root first."
 },
 "C124": {
  "note": "Proved for the on-disk pkger (absolute paths; errno from the disk) and for the embedded Open. Refuted for the embedded Stat, Remove and Create: their errors are made with fmt.Errorf."
 },
 "C125": {
  "note": "Proved when no name merely begins with the text of the directory's, nor a child's with that of a sub-directory; also after any calm program from nothing (C125_fresh_partial) or from what was packed (C125_packed_partial). Refuted otherwise."
 },
 "C126": {
  "note": "os.File.Readdir from its documentation; nobody changes the directory meanwhile. The embedded pkger does not page (C22)."
 },
 "C127": {
  "note": "Proved: every sequence of requests is answered exactly as the last applied layer that has d would answer it alone, and no other layer changes; so the files of that layer are served with their bytes. A directory that no layer has gives 404. Refuted for a file that only an older layer has: Open finds it, the server answers 404."
 },
 "C128": {
  "note": "For calm programs: calm in the sense of C112; an open file is changed only through its handle and not looked at while being written; empty files are not opened for reading; files opened for reading are only read, created ones only written; nothing is done with a closed file; positions the file system can hold. Each of these is refuted (C128_refuted). os.File.Read and Seek are modelled for files still at their path. C128_fresh_partial starts with nothing, C128_packed_partial with what was packed."
 },
 "C129": {
  "note": "Every call of the API is a program of atomic steps. C129_call: run without interference each is the call of the sequential model. C129_turns: whatever goroutines can do taking turns, one whole call at a time, is one of the interleavings of their steps. C129_apart: in every interleaving of any calls, whatever none of them could change stays. Sequential consistency is assumed (see Conc.v); the goroutines of C129_apart begin without handles."
 },
 "C130": {
  "note": "C130_keys: the keys taken for a field are the spellings of its name. C130_values: for each of name, size, mode and is_dir the values that load and what they load as, given alone; several members of one field are decoded one after the other in the model. C130_array: data given as an array. The modification time is read as its spelling (C28, C120), sys is any value."
 },
 "C131": {
  "note": "C131_read: exactly which texts load and as what. C131_written: what is written. Both against day numbers of the calendar as C115 counts them. time.Parse as in Go 1.13; later versions refuse single-digit hours and odd zones."
 },
 "C132": {
  "note": "C132_partial: list, errors, contents equal; details equal unless left behind. C132_same_partial: in one module with all packed links listed, indistinguishable. C132_needs: what success implies. C132_none: no links, nothing changes. C132_refuted: a link's own size and mode are packed. C132_directory_refuted: a readable directory reached by a link is refused. Link following as on Linux, from memory."
 },
 "C133": {
  "note": "C133_partial: links to regular files. C133_refuted, C133_directory_refuted: linked module directory, linked package directory. C133_lock: a dangling .go entry in the module's directory always fails the scan."
 },
 "C134": {
  "note": "C134_alone: answers equal to those of the goroutine run alone (Mem.v). C134_kept: what all of them together leave. Reads of names in D are excluded by [avoids], stated along the run alone."
 },
 "C135": {
  "note": "C135_requests, C135_dirs: only requests. C135_undisturbed: with other goroutines, names it opens given by [touches]. C135_below: the same for a served directory and ordinary names. C135_torn_refuted: the page of a directory being changed. Requests may carry conditions (C136); the single request is Precond.v and Http.v (C92-C99, C136)."
 },
 "C136": {
  "note": "C136_conditions_partial: a stored file below the served directory (hypotheses of C92). C136_index_partial: a directory with an index.html. C136_pages_partial: redirects and the page of a directory without index.html are sent whatever the conditions, except If-Modified-Since (C94, C96). C136_none: without conditions nothing changes. C136_missing_partial: missing names. C136_same_partial: packed pkger and http.Dir (hypotheses of C95). How the texts of the headers are read is C139. Missing: paths outside the class of C92."
 },
 "C137": {
  "note": "C137_resume_partial: with the hypothesis about versions of one second. C137_mixed_refuted: the mixed file."
 },
 "C138": {
  "note": "C138_served_partial: from a list of declarations (hypotheses of C95_same). C138_sources_partial: from the source files. Missing: modules where a name in a directory continues a sibling directory's (C95 refutes the claim there), .tmp files, unreadable files, request paths that do not resolve in the package."
 },
 "C56": {
  "note": "C56_missing_root: Walk of such a root never calls the callback and returns nil, in every state. C56_missing_root_refuted: hence the claim fails, with a callback that would fail on every call."
 },
 "C57": {
  "note": "C57_skip_file_refuted: the file beside the skipped one is still visited."
 },
 "C139": {
  "note": "C139_imf, C139_rfc850, C139_asctime: what each layout accepts, exactly. C139_date, C139_obsolete, C139_dates: the three forms of RFC 7231. C139_tags, C139_star, C139_if_range, C139_if_range_tag: the other headers. C139_headers_partial: the answers (hypotheses of C92; missing: paths outside that class). C139_same_partial: packed pkger and http.Dir, any text (hypotheses of C95). C139_lenient_refuted: texts no RFC allows are dates too. C139_two_digits_refuted: two-digit years are not read as RFC 7231 says. C139_old_none, C139_old_none_refuted: If-None-Match as older versions of Go read it: a comma at the end panics. Missing: the zone of an RFC 850 date is a parameter (theorems assume GMT is GMT); fractions of a second are dropped."
 },
 "C140": {
  "note": "C140_element: an element, exactly. C140_header: the list. C140_any_partial: the answer to any text (hypotheses of C92; the bytes are stated for lists in which every range has a byte). C140_zero_refuted: a range of none, or of a negative number of bytes, is answered with 206 and a Content-Range that names bytes behind the file. C140_unit_refuted: another unit is not ignored as RFC 7233 says. Missing: numbers are unbounded after reading, so the overflow of size + 2^63 for the last -2^63 bytes is not modelled; blanks of several bytes (U+00A0 and others), which strings.TrimSpace drops, are not blanks in the model; headers are those the handler sets (the server itself drops a negative Content-Length)."
 },
 "C141": {
  "note": "C141_clean: the rules of path.Clean's documentation, applied in any order to the end, have one result, and Clean prints it. C141_idempotent. C141_leads, C141_join: where cleaned and joined paths lead. C141_names: a path of names only leads where the model of the disk (Disk.find) looks. C141_split, C141_dir, C141_base. C141_nowhere_refuted: a path that leads nowhere may lead somewhere once cleaned, so Disk.find, which cleans, is exact for clean paths only; the code hands joined, hence clean, paths to os (ParseFile and ParseDir of the parser those of their caller)."
 },
 "C142": {
  "note": "C142_exact: for UTF-8 text with no escape of a surrogate and not between apostrophes, strconv.Unquote succeeds exactly on literals, with their value. C142_only: the converse with the three exceptions as cases. C142_one: a literal has one value. C142_surrogate_refuted, C142_apostrophe_refuted, C142_bytes_refuted: Unquote also reads \"\\ud800\", the rune literal 'a' and a lone byte 255; go/parser lets only the rune literal through, so pkger.Open('a'), which the compiler refuses, is packed as \"a\"."
 },
 "C143": {
  "note": "C143_open_partial: not-empty files. C143_stat_partial: any file or directory. C143_walk_partial: the same lines; in the same order if the tree is in step (C18), for names without backslash and if nothing else in the module has a name beginning with public. C143_empty_refuted, C143_order_refuted, C143_prefix_refuted: without these conditions the packed program ends with \"unable to read\", prints the lines in another order, prints lines for other files. C143_missing: without the file, package os and pkger from source return the same error."
 },
 "C144": {
  "note": "C144_text_refuted: Sys is a *syscall.Stat_t on Linux and comes back as a map, whose members JSON lists by key, so examples/dynamic prints another text when packed. C144_files_partial: Sys has the same members and values, in order of their names (missing: the same order); all else is as on disk. C144_exact: nothing changes exactly if the members are in order already. C144_same, C144_packing: the packed program is the one packed from the same files with such Sys values, so the theorems about packed programs that ask for them (C39, C54 and others) apply to it. C144_map: an object read into an interface{} has its names in order, each with the value given last."
 },
 "C145": {
  "note": "C145_same_partial: both runs are told the size of go.mod, then success, then BIZ!!, if there is nothing called foo in the module but what the program itself made there before (missing: the text fmt.Println makes of the FileInfo, which differs, C144_text_refuted; modules with a foo of their own). C145_again: run from source, it can be run any number of times. C145_refuted: with a file called foo the run from source fails at MkdirAll and the packed program succeeds."
 },
 "C146": {
  "note": "C146_http_partial: packed from main.go, any number of clients (missing: names beginning with that of a directory beside them, C146_refuted; unreadable files; requests whose path resolves to another package or to /public again, C49 and C95). C146_served_partial: the same for any packed directory and pkger.Dir. C146_dev_partial: from source, requests one after the other."
 },
 "C147": {
  "note": "C147_again: packing; C147_twice: idempotence; C147_list: list; C147_killed, C147_list_killed: with packing runs killed anywhere; C147_else: no other file changes. Within the run itself go list (here.Current, here.Dir, here.Package) and go/parser give the answers they give without the earlier runs (go list may fail on a cut off pkged.go; then pkger.Current fails and nothing is removed, which is not covered). Without the condition on -o it fails, C147_refuted: img/pkged.go, generated with -o img, is packed by the next run of a program that walks /img."
 },
 "C148": {
  "note": "C148_whole: any point (writes store their bytes in order; the package's name has no back quote). That a file with an open literal does not compile is Go's specification, not modelled. With failing writes the claim is false, C148_short_refuted: the errors of writes are dropped, so after part of the payload the rest of the file is written, and pkger ends with status 0."
 }
}