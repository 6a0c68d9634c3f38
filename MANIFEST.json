{
 "claims": [
  {
   "property": "C01",
   "status": "proved",
   "theorems": [
    "C01_roundtrip",
    "C01_read_all"
   ],
   "note": ""
  },
  {
   "property": "C02",
   "status": "partial",
   "theorems": [
    "C02_eof_partial",
    "C02_eof_empty_refuted"
   ],
   "note": "Holds for non-empty files. Refuted for empty files: Read fails with another error, never io.EOF."
  },
  {
   "property": "C03",
   "status": "partial",
   "theorems": [
    "C03_C04_cursor_snapshot",
    "C03_empty",
    "C03_empty_refuted"
   ],
   "note": "Proved for non-empty content. For empty content every Read fails and every Seek answers (0,nil): C03_empty is exact, C03_empty_refuted the witness."
  },
  {
   "property": "C04",
   "status": "proved",
   "theorems": [
    "C03_C04_cursor_snapshot",
    "C04_info_snapshot"
   ],
   "note": "Content (via C03_C04) and info of an opened handle."
  },
  {
   "property": "C05",
   "status": "proved",
   "theorems": [
    "C05_invisible_before_close",
    "C05_only_close_publishes"
   ],
   "note": ""
  },
  {
   "property": "C06",
   "status": "proved",
   "theorems": [
    "C06_open_read_only"
   ],
   "note": ""
  },
  {
   "property": "C07",
   "status": "partial",
   "theorems": [
    "C07_refuted"
   ],
   "note": "Refuted: Read after Close delivers the content again."
  },
  {
   "property": "C08",
   "status": "proved",
   "theorems": [
    "C08_size"
   ],
   "note": ""
  },
  {
   "property": "C09",
   "status": "proved",
   "theorems": [
    "C09_open_stat"
   ],
   "note": ""
  },
  {
   "property": "C10",
   "status": "partial",
   "theorems": [
    "C10_stat_stable_partial",
    "C10_stat_refuted"
   ],
   "note": "Stat hands out the stored file's own info; Close through a handle changes it. Proved for infos of opened handles."
  },
  {
   "property": "C11",
   "status": "proved",
   "theorems": [
    "C11_remove"
   ],
   "note": ""
  },
  {
   "property": "C12",
   "status": "partial",
   "theorems": [
    "C12_refuted"
   ],
   "note": "Refuted: Remove of a non-empty directory succeeds."
  },
  {
   "property": "C13",
   "status": "partial",
   "theorems": [
    "C13_remove_all_partial",
    "C13_refuted"
   ],
   "note": "Descendants go, nil is returned, exact removed set proved; siblings sharing the text and other packages are removed too (refuted)."
  },
  {
   "property": "C14",
   "status": "partial",
   "theorems": [
    "C14_success_partial",
    "C14_exact",
    "C14_failure",
    "C14_replaces_directory_refuted",
    "C14_below_file_refuted"
   ],
   "note": "Exact success condition, resulting entry and frame proved. Refuted: it replaces a directory and creates below a regular file."
  },
  {
   "property": "C15",
   "status": "partial",
   "theorems": [
    "C15_target",
    "C15_C46_ancestors_partial",
    "C15_root_refuted",
    "C15_package_refuted"
   ],
   "note": "The target itself, for every resolver; all ancestors below the root for plain names of the current package. Refuted: the root is not created, and ancestors of another package's path are created in the current package."
  },
  {
   "property": "C16",
   "status": "partial",
   "theorems": [
    "C16_others_partial",
    "C16_targets",
    "C16_clobbers_file_refuted",
    "C16_existing_dir_refuted"
   ],
   "note": "Other entries unaffected (proved). Refuted: existing files and directories are overwritten."
  },
  {
   "property": "C17",
   "status": "partial",
   "theorems": [
    "C17_terminates_partial",
    "C17_diverges_refuted"
   ],
   "note": "Termination with an explicit bound for the recalled resolver unless the package directory is '/'; there MkdirAll('/') and every Create diverge (refuted)."
  },
  {
   "property": "C18",
   "status": "partial",
   "theorems": [
    "C18_walk_partial",
    "C18_listing",
    "C18_subtree_partial",
    "C18_root",
    "C18_order_partial",
    "C18_prefix_refuted",
    "C18_order_refuted"
   ],
   "note": "Exact visited list proved; equals the subtree under a separation condition (none for the root); filepath.Walk order exactly when no name sorts between a directory's and those of what is in it. Otherwise refuted."
  },
  {
   "property": "C19",
   "status": "partial",
   "theorems": [
    "C19_skip_partial",
    "C19_tree_partial",
    "C19_refuted"
   ],
   "note": "Exact pruned set proved; equals the directory's descendants under separation; refuted in general."
  },
  {
   "property": "C20",
   "status": "proved",
   "theorems": [
    "C20_first_error",
    "C20_nil"
   ],
   "note": ""
  },
  {
   "property": "C21",
   "status": "partial",
   "theorems": [
    "C21_children_partial",
    "C21_children_unique",
    "C21_refuted"
   ],
   "note": "Proved on well-formed trees; refuted in general (text-prefix siblings listed, files dropped)."
  },
  {
   "property": "C22",
   "status": "partial",
   "theorems": [
    "C22_at_most_partial",
    "C22_never_eof",
    "C22_refuted"
   ],
   "note": "At most n, the first n. No continuation, never io.EOF (refuted)."
  },
  {
   "property": "C23",
   "status": "partial",
   "theorems": [
    "C23_C55_contained_partial",
    "C23_C55_http_partial",
    "C23_backslash_refuted",
    "C23_colon_refuted",
    "C23_package_refuted",
    "C23_mkdir_package_refuted",
    "C91_backslash_refuted",
    "C91_package_refuted",
    "C91_inside_partial"
   ],
   "note": "Containment for requests resolving to clean names of the directory's package; refuted for backslashes, colons, other packages. On-disk pkger: C91."
  },
  {
   "property": "C24",
   "status": "proved",
   "theorems": [
    "C24_most_recent",
    "C24_first_success"
   ],
   "note": "For any layers (any behaviour on any world) and any history of Apply calls. Values returned together with an error are not modelled."
  },
  {
   "property": "C25",
   "status": "proved",
   "theorems": [
    "C25_in_order",
    "C25_nil_iff"
   ],
   "note": "For any layers and any history of Apply calls."
  },
  {
   "property": "C26",
   "status": "proved",
   "theorems": [
    "C26_no_layer_lost",
    "C26_each_applied",
    "C26_grows",
    "C26_current_during_call"
   ],
   "note": "Interleaving model of Apply/impl and the RWMutex with sequentially consistent atomic steps (the lock orders all accesses to current)."
  },
  {
   "property": "C27",
   "status": "proved",
   "theorems": [
    "C27_error_installs_nothing",
    "C27_disk",
    "C27_no_disk",
    "C27_disk_during_call",
    "C27_panics"
   ],
   "note": "Sequential histories (Wrap.v) and goroutines (Apply.v)."
  },
  {
   "property": "C28",
   "status": "proved",
   "theorems": [
    "C28_round_trip",
    "C28_decode_fails",
    "C28_decode_hex"
   ],
   "note": "compress/gzip is a pair of functions assumed only to satisfy gunzip (gz x) = Ok x; hex is modelled byte by byte."
  },
  {
   "property": "C29",
   "status": "proved",
   "theorems": [
    "C29_payload_intact",
    "C29_payload_characters"
   ],
   "note": "The package name printed in the header is assumed free of back quotes (Go identifiers are)."
  },
  {
   "property": "C30",
   "status": "partial",
   "theorems": [
    "C30_answers_partial",
    "C30_canonical",
    "C30_refuted"
   ],
   "note": "JSON text, base64, RFC 3339 and the struct layer are modelled to the byte. Proved for states whose strings are UTF-8, times representable and whose stored paths resolve back from their printed form; refuted for a path stored unclean. C30_canonical and C30_refuted depend on the recalled resolver."
  },
  {
   "property": "C31",
   "status": "partial",
   "theorems": [
    "C31_deterministic_partial",
    "C31_any_order_partial",
    "C31_refuted"
   ],
   "note": "Proved when stored paths print differently; refuted by a reachable state storing the root under two names that print alike (recalled resolver)."
  },
  {
   "property": "C32",
   "status": "partial",
   "theorems": [
    "C32_round_trip_partial",
    "C32_late_year_refuted",
    "C32_zone_seconds_refuted"
   ],
   "note": "Holds for years 0-9999 and offsets of whole minutes below 100 h; refuted outside by concrete times. package time is modelled from the Go standard library."
  },
  {
   "property": "C33",
   "status": "proved",
   "theorems": [
    "C33_listed_once_sorted_existing"
   ],
   "note": "For any disk, resolver, here.Dir and map iteration order."
  },
  {
   "property": "C34",
   "status": "partial",
   "theorems": [
    "C34_complete_partial",
    "C34_complete_spelled_partial",
    "C34_qualified_refuted",
    "C34_below_refuted",
    "C34_root_module_refuted"
   ],
   "note": "Exact listing and exact failure condition when every declaration lies in one readable module, run-time declarations come first, and no absolute path doubles as a name inside a module; the claim as worded follows when names are spelled without package and no packed declaration is below a run-time one. Refuted otherwise: package-qualified run-time names, declarations below a run-time directory, module in the root directory."
  },
  {
   "property": "C35",
   "status": "partial",
   "theorems": [
    "C35_order_irrelevant_partial",
    "C35_order_matters_refuted",
    "C35_discovery_order_partial"
   ],
   "note": "Under the conditions of C34; refuted when a module contains its own path (an absolute path is taken for a name)."
  },
  {
   "property": "C36",
   "status": "partial",
   "theorems": [
    "C36_found",
    "C36_found_partial",
    "C36_errors_lost_refuted",
    "C36_no_argument_refuted",
    "C36_nested_lost_refuted"
   ],
   "note": "If every call resolves, one declaration per call in source order (any tree, resolver, lookup); otherwise the exact set found. Refuted: unresolvable calls and calls without argument are dropped without error, and calls nested inside them are lost."
  },
  {
   "property": "C37",
   "status": "partial",
   "theorems": [
    "C37_no_crash_partial",
    "C37_other_file_refuted",
    "C37_repeated_const_refuted",
    "C37_cycle_refuted"
   ],
   "note": "Ends normally when evaluating each argument does. Refuted: panics for constants of another file and implicitly repeated constants; unbounded recursion for cyclic constants."
  },
  {
   "property": "C38",
   "status": "partial",
   "theorems": [
    "C38_ignored",
    "C38_visits_exact_partial",
    "C38_visits_partial",
    "C38_prefix_refuted",
    "C38_root_refuted"
   ],
   "note": "Exact set of parsed directories proved; the claim holds when the root's name is not ignored and no name merely starts like an ignored one. Refuted: 'vendors' is skipped, a module in a directory 'vendored' is not scanned. What is found in a directory: C78."
  },
  {
   "property": "C39",
   "status": "partial",
   "theorems": [
    "C39_faithful_partial",
    "C39_succeeds_partial",
    "C39_declared_partial",
    "C39_empty_file_refuted",
    "C39_sub_package_refuted",
    "C39_overwritten_refuted"
   ],
   "note": "Proved (bytes, size, mode, directory flag, time) for listed files of one module packed from its root package, for any map and directory order and any resolver meeting the record packing; recalled resolver shown to meet it. Refuted: empty files cannot be read back; packing from a sub-package stores files under absolute names; a file below a copy of the module's own path overwrites another."
  },
  {
   "property": "C40",
   "status": "partial",
   "theorems": [
    "C40_no_tmp_partial",
    "C40_refuted"
   ],
   "note": "Proved when every listed entry is a regular file; refuted: a .tmp file inside a packed directory is packed with the directory."
  },
  {
   "property": "C41",
   "status": "partial",
   "theorems": [
    "C41_contents_partial",
    "C41_exact_partial",
    "C41_declared_partial",
    "C41_listed_not_packed_refuted",
    "C41_packed_not_listed_refuted"
   ],
   "note": "Exact embedded set proved under the conditions of C39; refuted: a listed .tmp file is not packed; files below a run-time directory are packed though not listed."
  },
  {
   "property": "C42",
   "status": "partial",
   "theorems": [
    "C42_final_partial",
    "C42_crash_refuted",
    "C42_every_prefix",
    "C42_stuff_error",
    "C42_stuff_error_refuted"
   ],
   "note": "Fault-free or panicking runs end with no file, the old one, or a complete one. Refuted: every proper prefix of the file is visible to a crash; a Stuff error leaves the header behind."
  },
  {
   "property": "C43",
   "status": "partial",
   "theorems": [
    "C43_reported_partial",
    "C43_write",
    "C43_write_refuted",
    "C43_panic",
    "C43_panic_refuted"
   ],
   "note": "Errors before and inside Stuff are reported exactly. Refuted: every failing write is dropped, a panic returns nil with no file."
  },
  {
   "property": "C44",
   "status": "partial",
   "theorems": [
    "C44_used_partial",
    "C44_nothing_lost_partial",
    "C44_no_crash",
    "C44_first_alone_partial",
    "C44_refuted"
   ],
   "note": "Interleaving model of the two steps of the maps' init and use under sequential consistency. Refuted: an operation that read the map before the initialiser replaced it is lost. Proved: no crash, nothing stored after settling is lost, a single thread is right."
  },
  {
   "property": "C45",
   "status": "proved",
   "theorems": [
    "C45_stale_handle"
   ],
   "note": ""
  },
  {
   "property": "C46",
   "status": "partial",
   "theorems": [
    "C15_C46_ancestors_partial",
    "C46_dir_partial",
    "C46_mode_refuted"
   ],
   "note": "IsDir, mode = perm, base name proved; Mode().IsDir() refuted."
  },
  {
   "property": "C47",
   "status": "partial",
   "theorems": [
    "C47_spellings_partial",
    "C47_name_partial",
    "C47_dir_prefix_refuted"
   ],
   "note": "Proved for plain names not starting with the text of the package directory (recalled resolver); refuted for those."
  },
  {
   "property": "C48",
   "status": "partial",
   "theorems": [
    "C48_create",
    "C48_open_stat",
    "C48_remove",
    "C48_remove_all",
    "C48_mkdir_partial",
    "C48_mkdir_plain_partial",
    "C48_mkdir_refuted"
   ],
   "note": "Create, Open, Stat, Remove, RemoveAll address one file, for every resolver and package lookup (full). MkdirAll joins the unparsed path: proved for plain names, refuted for package-qualified and absolute ones."
  },
  {
   "property": "C49",
   "status": "partial",
   "theorems": [
    "C49_partial",
    "C49_current_partial",
    "C49_refuted"
   ],
   "note": "Refuted for directories of a dependency: the current module's file is served. Proved when the joined name resolves to the directory's package, e.g. in the current module."
  },
  {
   "property": "C50",
   "status": "proved",
   "theorems": [
    "C50_answers",
    "C50_once",
    "C50_stable"
   ],
   "note": ""
  },
  {
   "property": "C51",
   "status": "partial",
   "theorems": [
    "C51_walk_partial",
    "C51_walk_here_partial",
    "C51_names_partial",
    "C51_refuted"
   ],
   "note": "Equal to filepath.Walk with renamed callback, exact names proved, for module directories other than / and names without backslash; refuted otherwise."
  },
  {
   "property": "C52",
   "status": "proved",
   "theorems": [
    "C52_dispatch",
    "C52_bad_options",
    "C52_no_arguments",
    "C52_subcommand",
    "C52_unknown"
   ],
   "note": "Exact dispatch for every argument list, 'first argument' meaning the first after the options; options ending the process are characterised. Go's flag package is modelled from the standard library."
  },
  {
   "property": "C53",
   "status": "partial",
   "theorems": [
    "C53_mem_partial",
    "C53_refuted",
    "C53_std_partial",
    "C53_text"
   ],
   "note": "Exact map of paths proved for reachable in-memory pkgers and for disk trees (no backslash names, module not in /); the text written reads back as that map. Refuted: an entry stored under the empty name is left out."
  },
  {
   "property": "C54",
   "status": "partial",
   "theorems": [
    "C54_files_partial",
    "C54_walk_partial",
    "C54_empty_refuted",
    "C54_zero_read_refuted",
    "C54_order_refuted"
   ],
   "note": "Stat, Open, Read agree for packed files (non-empty files, non-zero buffers); Walk delivers the same calls, in the same order exactly when no name sorts between a directory's and those of what is in it. Refuted for empty files, zero-length reads and Walk order."
  },
  {
   "property": "C55",
   "status": "partial",
   "theorems": [
    "C23_C55_contained_partial",
    "C23_C55_http_partial",
    "C55_own_path_refuted"
   ],
   "note": "Proved unless the request resolves to the directory's own path; refuted there."
  },
  {
   "property": "C56",
   "status": "partial",
   "theorems": [
    "C56_missing_root",
    "C56_missing_root_refuted"
   ],
   "note": "C56_missing_root: Walk of such a root never calls the callback and returns nil, in every state. C56_missing_root_refuted: hence the claim fails, with a callback that would fail on every call."
  },
  {
   "property": "C57",
   "status": "partial",
   "theorems": [
    "C57_skip_file_refuted"
   ],
   "note": "C57_skip_file_refuted: the file beside the skipped one is still visited."
  },
  {
   "property": "C58",
   "status": "partial",
   "theorems": [
    "C58_own_package_partial",
    "C58_own_package_refuted"
   ],
   "note": "Proved when ImportPath = Module.Path; refuted otherwise."
  },
  {
   "property": "C59",
   "status": "partial",
   "theorems": [
    "C59_created_name_partial",
    "C59_created_name_refuted"
   ],
   "note": "Proved for plain names; refuted for names with backslashes."
  },
  {
   "property": "C60",
   "status": "partial",
   "theorems": [
    "C60_colon_refuted"
   ],
   "note": "Refuted (recalled resolver): text after the colon is dropped."
  },
  {
   "property": "C61",
   "status": "partial",
   "theorems": [
    "C61_all_layers_partial",
    "C61_lower_only_refuted",
    "C61_error_after_removal_refuted"
   ],
   "note": "Succeeds exactly if every layer stores the name. Refuted as stated: a name only in some layers cannot be removed, and the error may come after a layer was changed."
  },
  {
   "property": "C62",
   "status": "partial",
   "theorems": [
    "C62_layer_by_layer_partial",
    "C62_twice_refuted"
   ],
   "note": "Visits each layer's listing, last applied first; refuted: names in two layers are visited twice."
  },
  {
   "property": "C63",
   "status": "partial",
   "theorems": [
    "C63_top_partial",
    "C63_older_file_refuted"
   ],
   "note": "Holds if the last applied layer could create the file; refuted otherwise."
  },
  {
   "property": "C64",
   "status": "proved",
   "theorems": [
    "C64_no_deadlock",
    "C64_terminates"
   ],
   "note": ""
  },
  {
   "property": "C65",
   "status": "partial",
   "theorems": [
    "C65_utf8",
    "C65_json",
    "C65_text_survives",
    "C65_bytes_lost_refuted"
   ],
   "note": "A string survives exactly when it is UTF-8 (pinned against RFC 3629 by C65_utf8, the JSON reader against RFC 8259 by C65_json); refuted by two non-UTF-8 names that become one."
  },
  {
   "property": "C66",
   "status": "partial",
   "theorems": [
    "C66_null",
    "C66_null_refuted",
    "C66_no_other_panic_partial",
    "C66_total",
    "C66_only_null"
   ],
   "note": "The text null, and nothing else, makes it panic (C66_only_null); files without info are modelled as nil pointers (NilInfo.v)."
  },
  {
   "property": "C67",
   "status": "proved",
   "theorems": [
    "C67_remarshal"
   ],
   "note": "Same conditions as C30."
  },
  {
   "property": "C68",
   "status": "proved",
   "theorems": [
    "C68_end_to_end"
   ],
   "note": "Same conditions as C30; gzip is any pair of functions with gunzip (gz x) = Ok x."
  },
  {
   "property": "C69",
   "status": "partial",
   "theorems": [
    "C69_own_module_partial",
    "C69_own_module_refuted"
   ],
   "note": "When each declaration's tree is one module; refuted for nested modules (stale here.Info after leaving a sub-directory)."
  },
  {
   "property": "C70",
   "status": "partial",
   "theorems": [
    "C70_include_like_source_partial",
    "C70_include_like_source_refuted"
   ],
   "note": "Proved in the module's root package; refuted elsewhere (recalled resolver) when the module root is not a package."
  },
  {
   "property": "C71",
   "status": "proved",
   "theorems": [
    "C71_every",
    "C71_literal_value"
   ],
   "note": "C71_every quantifies over the grammar of the Go specification (\\u escapes of surrogates, which the compiler rejects, are outside it). strconv.Unquote is modelled from the Go standard library."
  },
  {
   "property": "C73",
   "status": "partial",
   "theorems": [
    "C73_previous_output",
    "C73_previous_output_refuted",
    "C73_replaced_partial"
   ],
   "note": "Refuted: the old output is removed before parsing, for every failure. Proved: success replaces it."
  },
  {
   "property": "C72",
   "status": "partial",
   "theorems": [
    "C72_includes",
    "C72_removed",
    "C72_else",
    "C72_removed_refuted"
   ],
   "note": "Refuted for every use of list: the generated file is gone afterwards. Everything beside it is left alone."
  },
  {
   "property": "C74",
   "status": "partial",
   "theorems": [
    "C74_flags",
    "C74_dropped",
    "C74_dropped_refuted"
   ],
   "note": "Reading of options proved exact (C74_flags); refuted: options before a subcommand are dropped."
  },
  {
   "property": "C75",
   "status": "partial",
   "theorems": [
    "C75_status_partial",
    "C75_tidied_partial",
    "C75_exit_refuted",
    "C75_status",
    "C75_tidied",
    "C75_status_2"
   ],
   "note": "Status 0 characterised for every command line; refuted: bad options exit without tidying."
  },
  {
   "property": "C76",
   "status": "proved",
   "theorems": [
    "C76_create",
    "C76_remove",
    "C76_remove_all",
    "C76_mkdir",
    "C76_failure"
   ],
   "note": ""
  },
  {
   "property": "C77",
   "status": "partial",
   "theorems": [
    "C77_frozen",
    "C77_fresh",
    "C77_refuted"
   ],
   "note": "Refuted: the info is taken at Create and kept. Proved that it never changes and that the pkger's Stat is right."
  },
  {
   "property": "C78",
   "status": "partial",
   "theorems": [
    "C78_found_partial",
    "C78_refuted"
   ],
   "note": "For modules in which every call names a path (unresolvable calls: see C36); refuted without that: a call nested in one that cannot be resolved is lost. go/parser is a parameter."
  },
  {
   "property": "C79",
   "status": "partial",
   "theorems": [
    "C79_calls_served_partial",
    "C79_refuted"
   ],
   "note": "Composition of C78, C34, C39. For modules whose calls all name a path (refuted without that) and whose packed declarations lie in the module's own directory; gzip assumed invertible; empty files cannot be read (C39)."
  },
  {
   "property": "C80",
   "status": "partial",
   "theorems": [
    "C80_reproducible_partial",
    "C80_order_refuted"
   ],
   "note": "Proved for modules whose packed declarations lie in the module's own directory under the module's name. Refuted in general: opening a directory in one file and, qualified by its package, a file of it in another."
  },
  {
   "property": "C81",
   "status": "proved",
   "theorems": [
    "C81_only_declared"
   ],
   "note": "Premise on sources: an identifier is not a quoted string."
  },
  {
   "property": "C82",
   "status": "proved",
   "theorems": [
    "C82_unreadable_source",
    "C82_nothing_lost"
   ],
   "note": ""
  },
  {
   "property": "C83",
   "status": "proved",
   "theorems": [
    "C83_info",
    "C83_complete"
   ],
   "note": "For names that are UTF-8."
  },
  {
   "property": "C84",
   "status": "proved",
   "theorems": [
    "C84_paths",
    "C84_all_or_nothing"
   ],
   "note": "For names that are UTF-8."
  },
  {
   "property": "C85",
   "status": "proved",
   "theorems": [
    "C85_parse",
    "C85_all_or_nothing"
   ],
   "note": "For names that are UTF-8; source positions are opaque values."
  },
  {
   "property": "C86",
   "status": "proved",
   "theorems": [
    "C86_stat",
    "C86_string"
   ],
   "note": "For details that JSON can hold (C32)."
  },
  {
   "property": "C87",
   "status": "partial",
   "theorems": [
    "C87_text_partial",
    "C87_json",
    "C87_array",
    "C87_failure",
    "C87_text_refuted"
   ],
   "note": "-json: proved for UTF-8 names; without files the member Files is null, not an array (C87_array). Lines: for paths without newlines; refuted for a file name with a newline."
  },
  {
   "property": "C88",
   "status": "partial",
   "theorems": [
    "C88_serve_ignores",
    "C88_serve_refuted",
    "C84_paths",
    "C85_parse",
    "C87_json"
   ],
   "note": "Refuted: serve declares -exclude but never parses its arguments. list, path and parse honour theirs (C84, C85, C87)."
  },
  {
   "property": "C89",
   "status": "proved",
   "theorems": [
    "C89_place",
    "C89_only_output",
    "C89_output",
    "C89_succeeds"
   ],
   "note": ""
  },
  {
   "property": "C90",
   "status": "partial",
   "theorems": [
    "C90_packs_itself_refuted",
    "C90_not_packed_partial"
   ],
   "note": "Refuted when a declaration covers the output; holds when no listed file is at or above it."
  },
  {
   "property": "C91",
   "status": "partial",
   "theorems": [
    "C91_backslash_refuted",
    "C91_package_refuted",
    "C91_inside_partial"
   ],
   "note": "Refuted (recalled resolver) for backslashes, and for requests starting with the module's directory; holds for plain requests."
  },
  {
   "property": "C92",
   "status": "partial",
   "theorems": [
    "C92_get_partial",
    "C92_size_refuted"
   ],
   "note": "Holds for names that resolve below the served directory and files that state their length. Refuted for a file added with a wrong size."
  },
  {
   "property": "C93",
   "status": "partial",
   "theorems": [
    "C93_range_partial",
    "C93_empty_refuted"
   ],
   "note": "Holds for non-empty files under the hypotheses of C92. Refuted for the last bytes of an empty file (a flaw of net/http 1.13)."
  },
  {
   "property": "C94",
   "status": "partial",
   "theorems": [
    "C94_list_partial",
    "C94_index_partial",
    "C94_redirect_partial",
    "C94_own_path_refuted",
    "C94_prefix_refuted"
   ],
   "note": "Holds for well formed subtrees (as C21). Refuted for siblings whose names share a prefix, and for a sub-directory named like the served directory."
  },
  {
   "property": "C95",
   "status": "partial",
   "theorems": [
    "C95_same_partial",
    "C95_disk_partial",
    "C95_clash_refuted"
   ],
   "note": "Holds for packed directories without sibling-prefix clashes and requests that resolve in the package; on disk for paths that do not go through a regular file. Refuted for a sibling-prefix clash; C98 and C49 for the other cases."
  },
  {
   "property": "C96",
   "status": "partial",
   "theorems": [
    "C96_since_partial",
    "C96_fraction_refuted",
    "C96_epoch_refuted"
   ],
   "note": "Under the hypotheses of C92, comparing whole seconds. Refuted as stated: a modification within the same second, and files dated at the Unix epoch or the zero time, which are never answered with 304."
  },
  {
   "property": "C97",
   "status": "partial",
   "theorems": [
    "C97_closed_partial",
    "C97_reference",
    "C97_leaks",
    "C97_refuted"
   ],
   "note": "Holds for an opened directory and for http.Dir. Refuted for pkger.Dir: at least one file is left open per request."
  },
  {
   "property": "C98",
   "status": "partial",
   "theorems": [
    "C98_missing_partial",
    "C98_unreadable_refuted",
    "C98_colon_refuted",
    "C98_not_a_dir_refuted"
   ],
   "note": "Holds for names that resolve. Refuted for unreadable names (500), for names with a colon (200), and on disk for names through a regular file (500)."
  },
  {
   "property": "C99",
   "status": "proved",
   "theorems": [
    "C99_independent"
   ],
   "note": "Any open directory handle without a writer; no limit on the stated sizes."
  },
  {
   "property": "C100",
   "status": "proved",
   "theorems": [
    "C100_mem",
    "C100_disk"
   ],
   "note": "In memory for every well-formed pkger; on disk for every tree."
  },
  {
   "property": "C101",
   "status": "partial",
   "theorems": [
    "C101_no_crash_partial",
    "C101_own_payload",
    "C101_stat",
    "C101_walk",
    "C101_same",
    "C101_open_refuted"
   ],
   "note": "Refuted: a file without info loads and Open panics. Holds for every payload that gives all files an info, which includes everything MarshalJSON writes. C101_same: with no info missing, Open, Stat and Walk of this model are those of Mem.v, errors included."
  },
  {
   "property": "C102",
   "status": "proved",
   "theorems": [
    "C102_makers",
    "C102_rest"
   ],
   "note": "Statement limited to different files; steps are the accesses to shared maps and fields (see header of Conc.v)."
  },
  {
   "property": "C103",
   "status": "partial",
   "theorems": [
    "C103_once_refuted",
    "C103_removed_partial",
    "C103_rest",
    "C103_all"
   ],
   "note": "What is removed is exact; but two Removes of one file may both return nil (C103_once_refuted)."
  },
  {
   "property": "C104",
   "status": "partial",
   "theorems": [
    "C104_walk_partial",
    "C104_removed_refuted"
   ],
   "note": "Proved while others make, read and walk. With a Remove at the same time Walk fails with ErrNotExist (refuted)."
  },
  {
   "property": "C105",
   "status": "partial",
   "theorems": [
    "C105_refuted"
   ],
   "note": "Refuted: old size with new content. For files nobody writes see C106."
  },
  {
   "property": "C106",
   "status": "proved",
   "theorems": [
    "C106_readers",
    "C106_content"
   ],
   "note": "C106_content says what they get for files with content."
  },
  {
   "property": "C107",
   "status": "partial",
   "theorems": [
    "C107_refuted"
   ],
   "note": "Refuted."
  },
  {
   "property": "C108",
   "status": "proved",
   "theorems": [
    "C108_afresh"
   ],
   "note": ""
  },
  {
   "property": "C109",
   "status": "partial",
   "theorems": [
    "C109_once_partial",
    "C109_agree",
    "C109_refuted",
    "C109_error_refuted"
   ],
   "note": "Proved as long as Decls is not called; Decls replaces the declarations but not the stored error (refuted)."
  },
  {
   "property": "C110",
   "status": "proved",
   "theorems": [
    "C110_same",
    "C110_refuses"
   ],
   "note": "go/parser is a parameter; parser.Mode is ignored by the code."
  },
  {
   "property": "C111",
   "status": "partial",
   "theorems": [
    "C111_pkger_calls_partial",
    "C111_renamed_refuted",
    "C111_shadowed_refuted"
   ],
   "note": "For files that import pkger under its own name and declare nothing of that name; refuted for a renamed import and for a variable called pkger."
  },
  {
   "property": "C112",
   "status": "partial",
   "theorems": [
    "C112_partial",
    "C112_fresh_partial",
    "C112_packed_partial",
    "C112_refuted"
   ],
   "note": "For calm programs: no file made inside a file or over a directory, no directory inside a file, no removal of a non-empty directory, no RemoveAll below a file or where another name begins with the same text, no read of an empty file or into an empty buffer. Each of these is refuted (C112_refuted). C112_fresh_partial starts with nothing, C112_packed_partial with what was packed."
  },
  {
   "property": "C113",
   "status": "partial",
   "theorems": [
    "C113_partial",
    "C113_fresh_partial",
    "C113_packed_partial",
    "C113_refuted"
   ],
   "note": "For existing names whose text no other name begins with; the same order exactly when no name sorts between a directory's and those of what is in it. C113_packed_partial compares a packed program with the directory it was packed from. Refuted otherwise."
  },
  {
   "property": "C114",
   "status": "partial",
   "theorems": [
    "C114_links",
    "C114_follow_partial"
   ],
   "note": "How a browser reads a page (entities, percent escapes, relative references) is specified apart from the server's escaping functions. C114_links is unconditional; following the links has the hypotheses of C92 and C94."
  },
  {
   "property": "C115",
   "status": "partial",
   "theorems": [
    "C115_date",
    "C115_unique",
    "C115_revalidate_partial",
    "C115_far_refuted",
    "C115_left_out"
   ],
   "note": "The calendar and the date format are specified apart from the model's. Date and uniqueness hold for every second of the years 0 to 9999; refuted for later years. The 304 answer has the hypotheses of C92 and C96 (not the Unix epoch). C115_left_out: for which instants no date is sent."
  },
  {
   "property": "C116",
   "status": "partial",
   "theorems": [
    "C116_round_partial",
    "C116_order",
    "C116_keys",
    "C116_panics",
    "C116_refuted"
   ],
   "note": "Round trip for maps whose strings are UTF-8; order independence and Keys unconditional. Refuted: MarshalJSON panics on a map without data, exactly after calls that stored nothing (C116_panics), e.g. one read from {}."
  },
  {
   "property": "C117",
   "status": "partial",
   "theorems": [
    "C117_never",
    "C117_null_refuted"
   ],
   "note": "Refuted: C117_never shows that the JSON of any map holding a file (paths in UTF-8) is refused, whatever the receiver; and a null entry makes Keys depend on Range order."
  },
  {
   "property": "C118",
   "status": "proved",
   "theorems": [
    "C118_whole",
    "C118_rest"
   ],
   "note": "C118_whole for the end of every interleaving, C118_rest for the other files at every moment. Names resolving to the root directory, which Create itself makes, are excluded."
  },
  {
   "property": "C119",
   "status": "proved",
   "theorems": [
    "C119_text",
    "C119_again"
   ],
   "note": "strconv.Quote is modelled from the Go 1.13 standard library; which code points above 127 are printable is arbitrary. C119_again starts from the syntax tree: go/parser is not modelled."
  },
  {
   "property": "C120",
   "status": "partial",
   "theorems": [
    "C120_only",
    "C120_written",
    "C120_same_partial",
    "C120_time_refuted"
   ],
   "note": "Proved for texts that spell mod_time alike and keep sys as it is. Refuted otherwise: ModTime parses the spelling of its string, so a time written with an escape makes the payload unreadable."
  },
  {
   "property": "C121",
   "status": "proved",
   "theorems": [
    "C121_null",
    "C121_zero"
   ],
   "note": "By C121_null for any place; C121_zero for files whose info gives no details."
  },
  {
   "property": "C122",
   "status": "proved",
   "theorems": [
    "C122_base64",
    "C122_written"
   ],
   "note": "Both directions, against a relation defined from RFC 4648."
  },
  {
   "property": "C123",
   "status": "partial",
   "theorems": [
    "C123_mem",
    "C123_handle",
    "C123_disk",
    "C123_create_refuted"
   ],
   "note": "Proved for all calls of both pkgers; that nothing changes is refuted for the embedded Create, which makes the package's root first."
  },
  {
   "property": "C124",
   "status": "partial",
   "theorems": [
    "C124_open",
    "C124_refuted",
    "C124_disk",
    "C124_walk"
   ],
   "note": "Proved for the on-disk pkger (absolute paths; errno from the disk) and for the embedded Open. Refuted for the embedded Stat, Remove and Create: their errors are made with fmt.Errorf."
  },
  {
   "property": "C125",
   "status": "partial",
   "theorems": [
    "C125_partial",
    "C125_fresh_partial",
    "C125_packed_partial",
    "C125_refuted"
   ],
   "note": "Proved when no name merely begins with the text of the directory's, nor a child's with that of a sub-directory; also after any calm program from nothing (C125_fresh_partial) or from what was packed (C125_packed_partial). Refuted otherwise."
  },
  {
   "property": "C126",
   "status": "proved",
   "theorems": [
    "C126_pages",
    "C126_all"
   ],
   "note": "os.File.Readdir from its documentation; nobody changes the directory meanwhile. The embedded pkger does not page (C22)."
  },
  {
   "property": "C127",
   "status": "partial",
   "theorems": [
    "C127_partial",
    "C127_get_partial",
    "C127_nowhere",
    "C127_refuted"
   ],
   "note": "Proved: every sequence of requests is answered exactly as the last applied layer that has d would answer it alone, and no other layer changes; so the files of that layer are served with their bytes. A directory that no layer has gives 404. Refuted for a file that only an older layer has: Open finds it, the server answers 404."
  },
  {
   "property": "C128",
   "status": "partial",
   "theorems": [
    "C128_partial",
    "C128_fresh_partial",
    "C128_packed_partial",
    "C128_refuted"
   ],
   "note": "For calm programs: calm in the sense of C112; an open file is changed only through its handle and not looked at while being written; empty files are not opened for reading; files opened for reading are only read, created ones only written; nothing is done with a closed file; positions the file system can hold. Each of these is refuted (C128_refuted). os.File.Read and Seek are modelled for files still at their path. C128_fresh_partial starts with nothing, C128_packed_partial with what was packed."
  },
  {
   "property": "C129",
   "status": "proved",
   "theorems": [
    "C129_call",
    "C129_turns",
    "C129_apart"
   ],
   "note": "Every call of the API is a program of atomic steps. C129_call: run without interference each is the call of the sequential model. C129_turns: whatever goroutines can do taking turns, one whole call at a time, is one of the interleavings of their steps. C129_apart: in every interleaving of any calls, whatever none of them could change stays. Sequential consistency is assumed (see Conc.v); the goroutines of C129_apart begin without handles."
  },
  {
   "property": "C130",
   "status": "proved",
   "theorems": [
    "C130_keys",
    "C130_array",
    "C130_values"
   ],
   "note": "C130_keys: the keys taken for a field are the spellings of its name. C130_values: for each of name, size, mode and is_dir the values that load and what they load as, given alone; several members of one field are decoded one after the other in the model. C130_array: data given as an array. The modification time is read as its spelling (C28, C120), sys is any value."
  },
  {
   "property": "C131",
   "status": "proved",
   "theorems": [
    "C131_read",
    "C131_written"
   ],
   "note": "C131_read: exactly which texts load and as what. C131_written: what is written. Both against day numbers of the calendar as C115 counts them. time.Parse as in Go 1.13; later versions refuse single-digit hours and odd zones."
  },
  {
   "property": "C132",
   "status": "partial",
   "theorems": [
    "C132_partial",
    "C132_same_partial",
    "C132_needs",
    "C132_none",
    "C132_refuted",
    "C132_directory_refuted"
   ],
   "note": "C132_partial: list, errors, contents equal; details equal unless left behind. C132_same_partial: in one module with all packed links listed, indistinguishable. C132_needs: what success implies. C132_none: no links, nothing changes. C132_refuted: a link's own size and mode are packed. C132_directory_refuted: a readable directory reached by a link is refused. Link following as on Linux, from memory."
  },
  {
   "property": "C133",
   "status": "partial",
   "theorems": [
    "C133_partial",
    "C133_lock",
    "C133_refuted",
    "C133_directory_refuted"
   ],
   "note": "C133_partial: links to regular files. C133_refuted, C133_directory_refuted: linked module directory, linked package directory. C133_lock: a dangling .go entry in the module's directory always fails the scan."
  },
  {
   "property": "C134",
   "status": "proved",
   "theorems": [
    "C134_alone",
    "C134_kept"
   ],
   "note": "C134_alone: answers equal to those of the goroutine run alone (Mem.v). C134_kept: what all of them together leave. Reads of names in D are excluded by [avoids], stated along the run alone."
  },
  {
   "property": "C135",
   "status": "partial",
   "theorems": [
    "C135_undisturbed",
    "C135_below",
    "C135_requests",
    "C135_dirs",
    "C135_torn_refuted"
   ],
   "note": "C135_requests, C135_dirs: only requests. C135_undisturbed: with other goroutines, names it opens given by [touches]. C135_below: the same for a served directory and ordinary names. C135_torn_refuted: the page of a directory being changed. Requests may carry conditions (C136); the single request is Precond.v and Http.v (C92-C99, C136)."
  },
  {
   "property": "C136",
   "status": "partial",
   "theorems": [
    "C136_conditions_partial",
    "C136_index_partial",
    "C136_pages_partial",
    "C136_none",
    "C136_missing_partial",
    "C136_same_partial"
   ],
   "note": "C136_conditions_partial: a stored file below the served directory (hypotheses of C92). C136_index_partial: a directory with an index.html. C136_pages_partial: redirects and the page of a directory without index.html are sent whatever the conditions, except If-Modified-Since (C94, C96). C136_none: without conditions nothing changes. C136_missing_partial: missing names. C136_same_partial: packed pkger and http.Dir (hypotheses of C95). How the texts of the headers are read is C139. Missing: paths outside the class of C92."
  },
  {
   "property": "C137",
   "status": "partial",
   "theorems": [
    "C137_resume_partial",
    "C137_mixed_refuted"
   ],
   "note": "C137_resume_partial: with the hypothesis about versions of one second. C137_mixed_refuted: the mixed file."
  },
  {
   "property": "C138",
   "status": "partial",
   "theorems": [
    "C138_served_partial",
    "C138_sources_partial"
   ],
   "note": "C138_served_partial: from a list of declarations (hypotheses of C95_same). C138_sources_partial: from the source files. Missing: modules where a name in a directory continues a sibling directory's (C95 refutes the claim there), .tmp files, unreadable files, request paths that do not resolve in the package."
  },
  {
   "property": "C139",
   "status": "partial",
   "theorems": [
    "C139_date",
    "C139_imf",
    "C139_rfc850",
    "C139_asctime",
    "C139_obsolete",
    "C139_dates",
    "C139_two_digits_refuted",
    "C139_tags",
    "C139_star",
    "C139_old_none",
    "C139_old_none_refuted",
    "C139_if_range",
    "C139_if_range_tag",
    "C139_headers_partial",
    "C139_same_partial",
    "C139_lenient_refuted"
   ],
   "note": "C139_imf, C139_rfc850, C139_asctime: what each layout accepts, exactly. C139_date, C139_obsolete, C139_dates: the three forms of RFC 7231. C139_tags, C139_star, C139_if_range, C139_if_range_tag: the other headers. C139_headers_partial: the answers (hypotheses of C92; missing: paths outside that class). C139_same_partial: packed pkger and http.Dir, any text (hypotheses of C95). C139_lenient_refuted: texts no RFC allows are dates too. C139_two_digits_refuted: two-digit years are not read as RFC 7231 says. C139_old_none, C139_old_none_refuted: If-None-Match as older versions of Go read it: a comma at the end panics. Missing: the zone of an RFC 850 date is a parameter (theorems assume GMT is GMT); fractions of a second are dropped."
  },
  {
   "property": "C140",
   "status": "partial",
   "theorems": [
    "C140_element",
    "C140_header",
    "C140_any_partial",
    "C140_unit_refuted",
    "C140_zero_refuted"
   ],
   "note": "C140_element: an element, exactly. C140_header: the list. C140_any_partial: the answer to any text (hypotheses of C92; the bytes are stated for lists in which every range has a byte). C140_zero_refuted: a range of none, or of a negative number of bytes, is answered with 206 and a Content-Range that names bytes behind the file. C140_unit_refuted: another unit is not ignored as RFC 7233 says. Missing: numbers are unbounded after reading, so the overflow of size + 2^63 for the last -2^63 bytes is not modelled; blanks of several bytes (U+00A0 and others), which strings.TrimSpace drops, are not blanks in the model; headers are those the handler sets (the server itself drops a negative Content-Length)."
  },
  {
   "property": "C141",
   "status": "partial",
   "theorems": [
    "C141_clean",
    "C141_idempotent",
    "C141_leads",
    "C141_join",
    "C141_names",
    "C141_split",
    "C141_dir",
    "C141_base",
    "C141_nowhere_refuted"
   ],
   "note": "C141_clean: the rules of path.Clean's documentation, applied in any order to the end, have one result, and Clean prints it. C141_idempotent. C141_leads, C141_join: where cleaned and joined paths lead. C141_names: a path of names only leads where the model of the disk (Disk.find) looks. C141_split, C141_dir, C141_base. C141_nowhere_refuted: a path that leads nowhere may lead somewhere once cleaned, so Disk.find, which cleans, is exact for clean paths only; the code hands joined, hence clean, paths to os (ParseFile and ParseDir of the parser those of their caller)."
  },
  {
   "property": "C142",
   "status": "partial",
   "theorems": [
    "C142_only",
    "C142_exact",
    "C142_one",
    "C142_surrogate_refuted",
    "C142_apostrophe_refuted",
    "C142_bytes_refuted"
   ],
   "note": "C142_exact: for UTF-8 text with no escape of a surrogate and not between apostrophes, strconv.Unquote succeeds exactly on literals, with their value. C142_only: the converse with the three exceptions as cases. C142_one: a literal has one value. C142_surrogate_refuted, C142_apostrophe_refuted, C142_bytes_refuted: Unquote also reads \"\\ud800\", the rune literal 'a' and a lone byte 255; go/parser lets only the rune literal through, so pkger.Open('a'), which the compiler refuses, is packed as \"a\"."
  },
  {
   "property": "C143",
   "status": "partial",
   "theorems": [
    "C143_open_partial",
    "C143_stat_partial",
    "C143_walk_partial",
    "C143_missing",
    "C143_empty_refuted",
    "C143_order_refuted",
    "C143_prefix_refuted"
   ],
   "note": "C143_open_partial: not-empty files. C143_stat_partial: any file or directory. C143_walk_partial: the same lines; in the same order if the tree is in step (C18), for names without backslash and if nothing else in the module has a name beginning with public. C143_empty_refuted, C143_order_refuted, C143_prefix_refuted: without these conditions the packed program ends with \"unable to read\", prints the lines in another order, prints lines for other files. C143_missing: without the file, package os and pkger from source return the same error."
  },
  {
   "property": "C144",
   "status": "partial",
   "theorems": [
    "C144_same",
    "C144_packing",
    "C144_files_partial",
    "C144_exact",
    "C144_map",
    "C144_text_refuted"
   ],
   "note": "C144_text_refuted: Sys is a *syscall.Stat_t on Linux and comes back as a map, whose members JSON lists by key, so examples/dynamic prints another text when packed. C144_files_partial: Sys has the same members and values, in order of their names (missing: the same order); all else is as on disk. C144_exact: nothing changes exactly if the members are in order already. C144_same, C144_packing: the packed program is the one packed from the same files with such Sys values, so the theorems about packed programs that ask for them (C39, C54 and others) apply to it. C144_map: an object read into an interface{} has its names in order, each with the value given last."
  },
  {
   "property": "C145",
   "status": "partial",
   "theorems": [
    "C145_again",
    "C145_same_partial",
    "C145_refuted"
   ],
   "note": "C145_same_partial: both runs are told the size of go.mod, then success, then BIZ!!, if there is nothing called foo in the module but what the program itself made there before (missing: the text fmt.Println makes of the FileInfo, which differs, C144_text_refuted; modules with a foo of their own). C145_again: run from source, it can be run any number of times. C145_refuted: with a file called foo the run from source fails at MkdirAll and the packed program succeeds."
  },
  {
   "property": "C146",
   "status": "partial",
   "theorems": [
    "C146_served_partial",
    "C146_http_partial",
    "C146_dev_partial",
    "C146_refuted"
   ],
   "note": "C146_http_partial: packed from main.go, any number of clients (missing: names beginning with that of a directory beside them, C146_refuted; unreadable files; requests whose path resolves to another package or to /public again, C49 and C95). C146_served_partial: the same for any packed directory and pkger.Dir. C146_dev_partial: from source, requests one after the other."
  },
  {
   "property": "C147",
   "status": "partial",
   "theorems": [
    "C147_again",
    "C147_twice",
    "C147_list",
    "C147_killed",
    "C147_list_killed",
    "C147_else",
    "C147_refuted"
   ],
   "note": "C147_again: packing; C147_twice: idempotence; C147_list: list; C147_killed, C147_list_killed: with packing runs killed anywhere; C147_else: no other file changes. Within the run itself go list (here.Current, here.Dir, here.Package) and go/parser give the answers they give without the earlier runs (go list may fail on a cut off pkged.go; then pkger.Current fails and nothing is removed, which is not covered). Without the condition on -o it fails, C147_refuted: img/pkged.go, generated with -o img, is packed by the next run of a program that walks /img."
  },
  {
   "property": "C148",
   "status": "partial",
   "theorems": [
    "C148_whole",
    "C148_short_refuted"
   ],
   "note": "C148_whole: any point (writes store their bytes in order; the package's name has no back quote). That a file with an open literal does not compile is Go's specification, not modelled. With failing writes the claim is false, C148_short_refuted: the errors of writes are dropped, so after part of the payload the rest of the file is written, and pkger ends with status 0."
  }
 ]
}