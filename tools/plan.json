{
 "C01": "Heap model of mem.Pkger/mem.File (Mem.v). Theorem over any state, any list of writes; reading via a read-all loop with any positive buffer sizes. Induction on the write list / remaining bytes.",
 "C02": "Same model. Non-empty: proved. Empty: the code returns an ordinary error, so `_refuted` plus `_partial`.",
 "C03": "Refinement of File.Read/Seek to a cursor (content, position : Z) for every op list; int64 wrap modelled. Empty content differs (refuted), hence partial.",
 "C04": "Frame theorem: op steps not using handle h keep h's object and its info cell; induction over op lists with heap well-formedness invariant.",
 "C05": "Abstract committed-content map; every op except Close of the stored object leaves it unchanged.",
 "C06": "Invariant: object returned by Open is not reachable from the name table; induction over ops.",
 "C07": "Refuted: Close only drops reader/writer; `_refuted` + exact behaviour `_partial`.",
 "C08": "Invariant by induction over op lists.",
 "C09": "Direct theorem over all states satisfying the heap invariant.",
 "C10": "Stat returns a pointer shared with the stored file: `_refuted`; Walk/Readdir/opened-handle infos proved stable.",
 "C11": "Direct + frame theorem.",
 "C12": "`_refuted` witness; `_partial` says what Remove does.",
 "C13": "Half proved (descendants gone, nil), half refuted (string-prefix siblings, other packages); exact characterisation proved.",
 "C14": "Proved parts; clobbering a directory refuted.",
 "C15": "Induction on path components for the current package; refuted for other packages.",
 "C16": "Refuted (re-creates and overwrites); frame part proved.",
 "C17": "Termination with the recalled resolver: fuel bound theorem.",
 "C18": "Walk over sorted keys; sortedness, once-each, completeness proved; 'nothing else' and filepath.Walk order refuted; proved under a separation condition.",
 "C19": "Exact characterisation for stateless callbacks: pruned set = string-prefix set; sibling pruning refuted.",
 "C20": "Induction over the visited list, arbitrary stateful callback.",
 "C21": "Exact characterisation, refuted witness, and equality with the children under separation.",
 "C22": "At-most-n proved; continuation/EOF refuted.",
 "C23": "Containment from path.Clean algebra for resolvers that return dot-dot free names; refuted for the recalled resolver with backslashes.",
 "C24": "Generic layers over an arbitrary world; induction over the list of Apply calls.",
 "C25": "As C24.",
 "C26": "Interleaving state machine with an RWMutex; invariant over schedules.",
 "C27": "As C26, sequential part.",
 "C28": "Hex modelled concretely, gzip as a Section variable with its round-trip law as explicit premise.",
 "C29": "Alphabet lemma on hex + raw-string literal reader.",
 "C30": "JSON value model of embed.Data; round trip at the level of API answers.",
 "C31": "Permutation-invariance of the encoder.",
 "C32": "Concrete RFC3339Nano formatter/parser, proleptic Gregorian calendar; round trip for representable times, refuted outside.",
 "C33": "Model of Decls.Files over a disk tree; sortedness/NoDup by construction lemmas.",
 "C34": "As C33, induction over trees; exact exclusion rule.",
 "C35": "As C33: set of Abs invariant under permutation of the non-virtual declarations.",
 "C36": "AST model; completeness proved; error reporting refuted (errors are overwritten by nil).",
 "C37": "Refuted: nil Obj, missing const value, self-referential const; proved for files whose identifiers resolve.",
 "C38": "Directory-tree model; exact rule proved; refuted for names with an ignored prefix and for the root.",
 "C39": "Composition of the models.",
 "C40": "Refuted for files inside an included directory; partial for directly listed files.",
 "C41": "Refuted (Add of a directory is recursive); exact embedded set proved.",
 "C42": "Crash/failure state machine of Package; refuted, exact states characterised.",
 "C43": "Refuted (write error and panic are swallowed); partial.",
 "C44": "Interleaving model of maps.Files.Data; refuted for uninitialised, proved once initialised.",
 "C45": "Same invariant as C06.",
 "C46": "Direct; Mode part refuted.",
 "C47": "Recalled resolver; canonical path round trip.",
 "C48": "stdos over an abstract os; qualified MkdirAll refuted.",
 "C49": "Refuted; partial for the current package.",
 "C50": "State machine over call histories with an arbitrary resolver oracle.",
 "C51": "filepath.Walk tree model.",
 "C52": "Route modelled after flag parsing (flag package trusted).",
 "C53": "Corollary of Walk.",
 "C54": "Composition: Stat/Open proved, Walk order partial.",
 "C55": "With C23: same model of File.Open.",
 "C56": "Refuted on the Walk model.",
 "C57": "Refuted on the Walk model.",
 "C58": "From the success conditions of Create.",
 "C59": "From the model of Create and path.Base.",
 "C60": "Refuted with the recalled resolver.",
 "C61": "The in-memory pkger as a layer (Layers.v).",
 "C62": "As C61.",
 "C63": "As C61.",
 "C64": "Measure on the state machine of C26.",
 "C65": "UTF-8 and JSON string model.",
 "C66": "Model of UnmarshalJSON with nil pointers as a panic; files without info in NilInfo.v.",
 "C67": "From C30.",
 "C68": "Composition of C28-C30.",
 "C69": "Walk with the running here.Info as state.",
 "C70": "NewInclude against the source scanner.",
 "C71": "strconv.Unquote against a separate grammar of Go literals.",
 "C72": "Model of listCmd.Exec.",
 "C73": "As C42.",
 "C74": "Model of package flag.",
 "C75": "Model of main and clean.",
 "C76": "Frame theorems on the tree.",
 "C77": "Model of stdos.File.Stat.",
 "C78": "Model ParseDir and put it into the walk; describe the walk by the directories visited; compose with C36. Refutation: a nested call in main.go.",
 "C79": "Compose C78, C34, C39.",
 "C80": "The listed absolute paths form the same sorted list for any orders; Stuff uses nothing else; C31 for the JSON.",
 "C81": "Soundness of each scanning step, by induction on syntax tree and file tree.",
 "C82": "Inversion of a successful walk.",
 "C83": "Invariant of the info cache; JSON text reads back (Indent.v).",
 "C84": "The loop's map characterised; indented JSON reads back.",
 "C85": "As C84, with readers for declarations.",
 "C86": "The loop in turn; FileInfo.String reads back.",
 "C87": "exec_list against split_args and files; lines of the text.",
 "C88": "serve's Exec never calls Parse.",
 "C89": "Each file operation changes only its target (upd_beside); contents of the output step by step.",
 "C90": "Stuff runs when the output holds the header; C41 for the positive part.",
 "C91": "Witnesses with the recalled resolver; C49 for the positive part.",
 "C92": "serve_answer: the server with any lawful file system equals a pure function of what the file system shows; mem_server_lawful.",
 "C93": "parse_range_text reads back every written list of ranges; then as C92.",
 "C94": "readdir_children, sorting to one canonical page; then as C92.",
 "C95": "same_opening of the two sites from entry_same/entry_only, then answer_same.",
 "C96": "As C92.",
 "C97": "Count descriptors through serve (serve_count).",
 "C98": "As C92.",
 "C99": "serve_all_same: two runs from states with the same files and infos give the same answers, whatever the handles.",
 "C100": "Both servers refine the same site up to handles (serve_all_same); std_dir_site equals std_site.",
 "C101": "NilInfo.v: files with an optional info. Refuted; partial for payloads that give all infos.",
 "C102": "Conc.v: programs of atomic steps. Rely/guarantee with ownership of unshared objects (ConcProofs.v).",
 "C103": "Rely/guarantee with `entries only disappear`; refuted for the answers.",
 "C104": "As C102: keys stay, so every Load succeeds. Refuted against Remove by a schedule.",
 "C105": "A schedule.",
 "C106": "As C102: a reader's handle is its own, the stored file is stable.",
 "C107": "A schedule.",
 "C108": "State machine of a Parser; parse_run is parse_all with the declarations found up to an error.",
 "C109": "Induction over the calls.",
 "C110": "Read both functions off the tree.",
 "C111": "all_calls as the sub-terms that are pkger calls; compare with a specification using the imports.",
 "C112": "Simulation: a plain tree as specification, mem_shows and disk_shows preserved by each calm action; induction over the program.",
 "C113": "From mem_shows and disk_shows: both listings have the entries of the tree; sortedness gives the order.",
 "C114": "Read the page with a separate reader (entities undone, percent escapes undone); escape then read is the identity byte by byte; then C92 for the child's URL.",
 "C115": "day_number is days_of_date plus one; civil inverts it (civil_spec); the pieces of the text have fixed widths, so it can be read back; then C96.",
 "C116": "From the JSON round trip of Marshal.v; the panic by induction over the calls.",
 "C117": "The values are of an interface type with methods, which encoding/json refuses; one such member makes the whole text fail.",
 "C118": "A new object per Create, owned by its goroutine; every file entry stored since the start belongs to some goroutine, and each goroutine stores one object only. A rely-guarantee argument like that of C102 with no path reserved for anyone.",
 "C119": "strconv.Quote modelled rune by rune; its output is shown to be a literal of the grammar used for C71, then C71_every gives the reading back.",
 "C120": "Decode.v: encoding/json's decoder on texts that keep their spelling (RawJson.v, pinned to the grammar); every decoder gives the same on trees related by alike.",
 "C121": "The same decoders on trees with a null added.",
 "C122": "b64_groups against an inductive relation.",
 "C123": "Per call, from the definitions: the parser comes first everywhere but in the embedded Create. Refutation by the root's mode and time.",
 "C124": "os.IsNotExist is modelled in Errors.v; 'nothing is there' is stated on the tree (absent): some directory on the way has no such entry. Refutation by one state without the file.",
 "C125": "Disk: the entries of the directory node. Memory: readdir_children (C21) with the tree conditions derived from what both stores show. Refutations by the two clashes of C21.",
 "C126": "Induction over the counts; the specification cuts a list into pieces.",
 "C127": "A simulation between two file systems under the server of Http.v; the stack around one layer is such a simulation.",
 "C128": "Simulation as in C112; handles are related to a plain position or buffer, on disk through a second tree in which files being written already show their bytes.",
 "C129": "Calls as programs of steps (Conc.v, PropsSerial.v); a frame condition for each atomic step, kept under interleaving.",
 "C130": "PropsFields.v: grammar of integers from JsonSpec.v; spellings of a name as an inductive relation.",
 "C131": "PropsTime.v: grammar of the text, calendar from PropsDate.v.",
 "C132": "PropsLinks.v: simulation between the disk with links (Links.v) and its copy (Disk.v).",
 "C133": "PropsLinks.v: as C132.",
 "C134": "PropsShare.v: Share.v (goroutines as question trees over numbered handles, frame), ShareRead.v (simulation by handle-free values).",
 "C135": "PropsRequests.v: Requests.v re-expresses Http.serve as questions (serve_run), then C134.",
 "C136": "PropsPrecond.v: Precond.v models checkPreconditions in front of Http.serve; serve_k_reduce expresses the answer by a request without conditions; then C92-C98 and same_sites.",
 "C137": "PropsPrecond.v: from C136, C92 and C93.",
 "C138": "PropsServed.v: C95's same_sites for the single request, C135 for requests at the same time, C136's serve_k_same for conditions; project_found and C34 for the sources.",
 "C139": "CondHeaders.v models time.Parse for the three layouts, scanETag and the loops over tags; PropsHeaders.v gives the grammars and proves both directions, then composes with C136.",
 "C140": "PropsRangeText.v gives the grammar of the elements and proves both directions for parseRange of net/http, then composes with the model of ServeContent.",
 "C141": "PropsPaths.v gives the documented rewriting rules and an element-by-element walk of the tree, and proves the model's functions equal to them; these functions are standard library code on which every other property rests.",
 "C142": "PropsUnquote.v inverts the model of Unquote against the grammar of Quote.v, escape by escape.",
 "C143": "Examples.v has the programs as code and as the sources that the packer reads; PropsExamples.v composes C75 (the calls are found), C34, C54.",
 "C144": "Decode.v reads an interface{} as encoding/json does; PropsSys.v follows the change of Sys through parser, Add, MarshalJSON and UnmarshalJSON.",
 "C145": "Examples.v has the source and the calls; PropsDynamic.v combines what is asked for by main.go (C143), what the packed pkger shows for the names used, and C128's simulation.",
 "C146": "PropsExHttp.v: main.go asks for /public (C143's lemma), so the directory is packed whole; pkger.Dir finds what the opened directory finds (as in C100); requests at the same time are C135_dirs.",
 "C147": "PropsAgain.v: removing the output after any change made at that path gives the tree that removing it before gives; each step of each run changes the tree only there.",
 "C148": "PropsAgain.v: every state of the output is a prefix of the whole file; a text whose first raw literal is closed keeps it when more text follows."
}