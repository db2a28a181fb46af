{
 "claims": [
  {
   "property": "C01",
   "status": "proved",
   "theorems": [
    "C01_programs",
    "C01_values",
    "C01_isolation"
   ],
   "note": "Refinement of the heap model to a map from variables to lists, for every program. Calls breaking a precondition end the claim (spec_step = None)."
  },
  {
   "property": "C02",
   "status": "proved",
   "theorems": [
    "C02_rcount",
    "C02_buffers",
    "C02_no_leak"
   ],
   "note": ""
  },
  {
   "property": "C03",
   "status": "proved",
   "theorems": [
    "C03_safe"
   ],
   "note": ""
  },
  {
   "property": "C04",
   "status": "proved",
   "theorems": [
    "C04_index_errors"
   ],
   "note": ""
  },
  {
   "property": "C05",
   "status": "proved",
   "theorems": [
    "C05_failure",
    "C05_no_failure",
    "C05_strong_guarantee_refuted"
   ],
   "note": "Proved with the weak guarantee; the strong guarantee is refuted by a witness."
  },
  {
   "property": "C06",
   "status": "proved",
   "theorems": [
    "C06_insert_n",
    "C06_insert_all",
    "C06_append",
    "C06_append_item",
    "C06_insert_item",
    "C06_insert_range",
    "C06_insert_cstr",
    "C06_insert_front_replaces",
    "C06_insert_refuted",
    "C06_self_insert_class_refuted",
    "C06_own_element_refuted",
    "C06_insert_cstr_bound_refuted"
   ],
   "note": "Proved outside the stated exceptions; each exception is described by a theorem or refuted by a witness."
  },
  {
   "property": "C07",
   "status": "proved",
   "theorems": [
    "C07_replace_n",
    "C07_replace_item",
    "C07_replace_cstr",
    "C07_replace_at_end_refuted"
   ],
   "note": ""
  },
  {
   "property": "C08",
   "status": "proved",
   "theorems": [
    "C08_slice",
    "C08_substring",
    "C08_negative_length_refuted",
    "C13_buffers_untouched"
   ],
   "note": ""
  },
  {
   "property": "C09",
   "status": "proved",
   "theorems": [
    "C09_shrink",
    "C09_grow",
    "C01_isolation"
   ],
   "note": ""
  },
  {
   "property": "C10",
   "status": "proved",
   "theorems": [
    "C10_hash",
    "C10_equal",
    "C10_stale_hash_refuted"
   ],
   "note": ""
  },
  {
   "property": "C11",
   "status": "proved",
   "theorems": [
    "C11_find",
    "C11_rfind",
    "C11_absolute_index_refuted"
   ],
   "note": ""
  },
  {
   "property": "C12",
   "status": "proved",
   "theorems": [
    "C12_reserve",
    "C12_room",
    "C12_shared_reserve_refuted",
    "C12_small_reserve_refuted"
   ],
   "note": ""
  },
  {
   "property": "C13",
   "status": "proved",
   "theorems": [
    "C13_move_ctor",
    "C13_move_assign",
    "C13_self_move",
    "C13_swap",
    "C13_buffer_handed_over",
    "C13_buffers_untouched",
    "C01_isolation"
   ],
   "note": ""
  },
  {
   "property": "C14",
   "status": "proved",
   "theorems": [
    "C14_append",
    "C14_factor",
    "C14_append_double"
   ],
   "note": "Allocations are logarithmic and moved and released elements linear in the final length, for an abstract factor of at least 1.5 (no axioms) and for the double computation of the code up to 2^51 elements (Flocq, so the stdlib axioms of the reals: sig_not_dec, sig_forall_dec, functional_extensionality_dep, classic). Moves are counted by append_moves, a cost function read off the code beside the model."
  },
  {
   "property": "C15",
   "status": "proved",
   "theorems": [
    "C15_shift",
    "C15_pop",
    "C15_pop_back",
    "C15_push_front",
    "C15_string_drop",
    "C15_array_drop",
    "C15_negative_drop_refuted",
    "C01_isolation"
   ],
   "note": ""
  },
  {
   "property": "C16",
   "status": "proved",
   "theorems": [
    "C16_write",
    "C16_begin_write",
    "C16_front_refuted",
    "C16_kept_iterator_refuted",
    "C01_isolation"
   ],
   "note": ""
  },
  {
   "property": "C17",
   "status": "proved",
   "theorems": [
    "C17_c_str",
    "C17_no_room_refuted"
   ],
   "note": ""
  },
  {
   "property": "C18",
   "status": "proved",
   "theorems": [
    "C18_compare",
    "C18_operators",
    "C18_order_laws",
    "C18_equality",
    "C18_length_difference_refuted"
   ],
   "note": "On string contents; the address test is the parameter same. Lengths differing by 2^31 or more are refuted."
  },
  {
   "property": "C19",
   "status": "proved",
   "theorems": [
    "C19_limit",
    "C19_cstring",
    "C19_cstring_limit",
    "C19_operators",
    "C19_embedded_nul_refuted"
   ],
   "note": "The NUL condition is exact; without it a witness reads out of bounds."
  },
  {
   "property": "C20",
   "status": "proved",
   "theorems": [
    "C20_split",
    "C20_split_limit",
    "C20_pieces_unique",
    "C20_upto_unique",
    "C20_pieces_free",
    "C20_words",
    "C20_count",
    "C20_limit_one",
    "C20_limit_zero",
    "C20_spurious_piece_refuted",
    "C20_empty_delimiter_refuted"
   ],
   "note": "On string contents, lengths below 2^31. Sharing of the pieces follows from C08/C13 for substring."
  },
  {
   "property": "C21",
   "status": "proved",
   "theorems": [
    "C21_split_join",
    "C21_join_split",
    "C21_join_split_char",
    "C21_overlap_refuted",
    "C21_trailing_refuted"
   ],
   "note": "Under the stated conditions; both failure modes are refuted by witnesses."
  },
  {
   "property": "C22",
   "status": "proved",
   "theorems": [
    "C22_join",
    "C22_join_empty_refuted"
   ],
   "note": "The one failing case throws bad_alloc (theorem)."
  },
  {
   "property": "C23",
   "status": "proved",
   "theorems": [
    "C23_sub",
    "C23_unique",
    "C23_subst",
    "C23_empty_search_refuted",
    "C23_limit_zero_refuted"
   ],
   "note": "Lengths below 2^31. Limit 0 is unlimited and the empty search string diverges (theorems)."
  },
  {
   "property": "C24",
   "status": "proved",
   "theorems": [
    "C24_trim",
    "C24_trim_idle",
    "C24_chomp",
    "C13_buffers_untouched",
    "C01_isolation"
   ],
   "note": ""
  },
  {
   "property": "C25",
   "status": "proved",
   "theorems": [
    "C25_newsplit",
    "C25_newsplit_last",
    "C25_tokens",
    "C25_tokens_leading",
    "C25_tokens_split"
   ],
   "note": ""
  },
  {
   "property": "C26",
   "status": "proved",
   "theorems": [
    "C26_find",
    "C26_find_from",
    "C26_find_from_throws",
    "C26_rfind",
    "C26_ifind",
    "C26_rifind",
    "C26_fallback",
    "C26_rifind_lpos_refuted",
    "C26_position_refuted",
    "C26_fallback_refuted",
    "C26_empty_needle"
   ],
   "note": "memmem and memcmp are taken as specified by the C library."
  },
  {
   "property": "C27",
   "status": "proved",
   "theorems": [
    "C27_times",
    "C27_times_negative",
    "C27_printf",
    "C27_printf_long_refuted"
   ],
   "note": "vsnprintf is taken as specified; wrong results from 4096 bytes on are proved."
  },
  {
   "property": "C28",
   "status": "proved",
   "theorems": [
    "C28_cleanse",
    "C28_bytes",
    "C28_destroy_last",
    "C28_blind",
    "C28_destroy_shared",
    "C28_same_destructor",
    "C28_quiet_program",
    "C28_assign_refuted",
    "C28_move_assign_refuted",
    "C28_growth_refuted",
    "C28_null_refuted"
   ],
   "note": "The bytes and the counter that cleanse leaves, exactly. Non-interference of cleanse and of ~String for the last owner, no erasure while shared, and a program-level theorem for all calls that never release a buffer by assignment or growth; those release the contents as they are (refuted witnesses). A String with a buffer of size 0 passes a null pointer to memchr (refuted). The compiler is assumed to keep the stores."
  },
  {
   "property": "C29",
   "status": "proved",
   "theorems": [
    "C29_word",
    "C29_no_word",
    "C29_not_good",
    "C29_line",
    "C29_last_line",
    "C29_word_no_memory",
    "C29_line_no_memory",
    "C29_all_words",
    "C29_last_word_skipped",
    "C29_all_lines",
    "C29_loop_refuted",
    "C29_high_bytes_refuted",
    "C29_noskipws_refuted"
   ],
   "note": "std::istream is a model of the standard library (one character extraction, sentry, putback); the String is its contents. Loops that drop the last word, bytes above 127 and noskipws are shown by witnesses."
  },
  {
   "property": "C30",
   "status": "proved",
   "theorems": [
    "C30_equal",
    "C30_different",
    "C30_equals",
    "C30_equals_limit",
    "C30_shortcut",
    "C30_nan_refuted"
   ],
   "note": "Heap model underneath, shared buffers at any offsets included. Elements must equal themselves; the NaN case is refuted by a witness and C30_shortcut bounds it."
  },
  {
   "property": "C31",
   "status": "proved",
   "theorems": [
    "C31_finite_map",
    "C31_hash_irrelevant",
    "C31_bad_hash_refuted",
    "C31_insert_throws_refuted"
   ],
   "note": "unordered_map is a model of the standard library: buckets, any hash respecting equality, any rehash policy. operator=(initializer_list) cannot be instantiated and is not modelled; moved-from keys are not followed."
  },
  {
   "property": "C32",
   "status": "proved",
   "theorems": [
    "C32_roundtrip",
    "C32_injective"
   ],
   "note": "Lengths below 2^62; malloc succeeds."
  },
  {
   "property": "C33",
   "status": "proved",
   "theorems": [
    "C33_rfc4648",
    "C33_default_alphabet",
    "C33_length",
    "C33_characters"
   ],
   "note": "Bounds are part of the outcome: a write outside the buffer would be Undef."
  },
  {
   "property": "C34",
   "status": "proved",
   "theorems": [
    "C34_safe",
    "C34_exactly",
    "C34_unpadded_refuted",
    "C34_high_charset"
   ],
   "note": "Exact description of the inputs read in bounds; witness for the others. Shifts of negative table entries are taken as arithmetic shifts."
  },
  {
   "property": "C35",
   "status": "proved",
   "theorems": [
    "C35_strlcpy"
   ],
   "note": ""
  },
  {
   "property": "C36",
   "status": "proved",
   "theorems": [
    "C36_strlcat",
    "C36_unterminated",
    "C36_over_read",
    "C36_bounds_refuted"
   ],
   "note": "Result and effect proved; the loop also reads dst[siz] when dst is unterminated (theorem and witness)."
  },
  {
   "property": "C37",
   "status": "proved",
   "theorems": [
    "C37_strdup",
    "C37_strldup",
    "C37_calloc",
    "C37_realloc",
    "C37_redup_first",
    "C37_redup_again",
    "C37_redup_clear",
    "C37_redup_alias"
   ],
   "note": "For every allocator; exit(5) on failure is the outcome Term. The aliasing case is proved undefined."
  },
  {
   "property": "C38",
   "status": "proved",
   "theorems": [
    "C38_sequences",
    "C38_step",
    "C38_new",
    "C38_no_throw",
    "C38_seek_end_refuted",
    "C38_read_behind_refuted"
   ],
   "note": "Heap model of String underneath. Data below 2 GB, cursor within the data for reads; SEEK_END and reads behind the end are refuted by witnesses."
  },
  {
   "property": "C39",
   "status": "proved",
   "theorems": [
    "C39_lines",
    "C39_lines_are",
    "C39_partition",
    "C39_piece",
    "C39_max_refuted"
   ],
   "note": "Data below 2 GB. The loop calling getline/read is part of the model."
  },
  {
   "property": "C40",
   "status": "proved",
   "theorems": [
    "C40_write",
    "C40_load",
    "C40_load_name",
    "C40_write_name",
    "C40_roundtrip",
    "C40_empty_refuted",
    "C40_loading_refuted"
   ],
   "note": "Branch with mmap; a file is its bytes, system calls fail as an oracle says. Empty files are refuted by a witness."
  },
  {
   "property": "C41",
   "status": "proved",
   "theorems": [
    "C41_stop",
    "C41_one_file",
    "C41_committed",
    "C41_durable_refuted",
    "C41_reopen_refuted"
   ],
   "note": "Every system call may fail, the machine may stop before every call, unsynced contents may be lost and every directory entry may come back as it was at any time. One object after another, no other process. Durability of a returned commit and reopening under memory shortage are refuted by witnesses."
  },
  {
   "property": "C42",
   "status": "proved",
   "theorems": [
    "C42_commit_failed",
    "C42_commit_done",
    "C42_abort",
    "C42_destroy",
    "C42_left_behind",
    "C42_same_directory",
    "C42_descriptor_refuted",
    "C42_reopen_refuted",
    "C42_nul_refuted",
    "C42_long_name_refuted",
    "C42_stale_refuted"
   ],
   "note": "Same model. Names without NUL and below 4086 bytes for the directory claim; descriptor loss, reopening, NUL, long names and the stale temporary name are shown by witnesses."
  },
  {
   "property": "C43",
   "status": "proved",
   "theorems": [
    "C43_shown",
    "C43_round_trip",
    "C43_unsigned_high",
    "C43_u64",
    "C43_from_script",
    "C43_all_refuted",
    "C43_u64_refuted"
   ],
   "note": "Holds for signed types, the lower half of the unsigned types up to 32 bits, doubles, booleans, texts shorter than INT_MAX and lists of them. The upper unsigned half comes back as 0 and uint64 always reads as 0; both are stated as theorems and as refutations of the full round trip. The Tcl library enters as a record of functions assumed to give back what was stored (tcl_ok, with an instance)."
  },
  {
   "property": "C44",
   "status": "proved",
   "theorems": [
    "C44_called",
    "C44_refused",
    "C44_default_minimum",
    "C44_minimum"
   ],
   "note": "The argument check, the index pack, the defaulting of missing arguments and the handling of exceptions are modelled; the function itself is arbitrary. The error text is represented by its three parts."
  },
  {
   "property": "C45",
   "status": "proved",
   "theorems": [
    "C45_refines",
    "C45_last",
    "C45_same_name_refuted",
    "C45_delete_other_refuted",
    "C45_destroy_other_refuted",
    "C45_spelling_refuted",
    "C45_rename_refuted",
    "C45_nul_refuted",
    "C45_recreate_refuted",
    "C45_self_delete_refuted",
    "C45_self_destroy_refuted",
    "C45_proc_refuted"
   ],
   "note": "Refinement over all programs with nested calls. Tcl itself is a table of command names per interpreter. Witnesses show where the claim one would wish for fails."
  },
  {
   "property": "C46",
   "status": "proved",
   "theorems": [
    "C46_accepts",
    "C46_refuses",
    "C46_nul_refuted"
   ],
   "note": "Accepts exactly names ending in .tcl. The file Tcl opens is the name up to its first NUL, so the witness shows a file without that suffix being evaluated."
  },
  {
   "property": "C47",
   "status": "proved",
   "theorems": [
    "C47_safe",
    "C47_finishes",
    "C47_erased_refuted"
   ],
   "note": "Sequentially consistent interleaving of steps at the granularity of one counter or buffer access; C47_safe, C47_finishes for all schedules; C47_erased_refuted: two concurrent destructors can both see refs = 2, so the buffer is freed uncleansed."
  },
  {
   "property": "C48",
   "status": "proved",
   "theorems": [
    "C48_serial",
    "C48_freed_refuted",
    "C48_torn_refuted",
    "C48_race_refuted",
    "C48_leak_refuted",
    "C48_clear_leak_refuted",
    "C48_cstr_freed_refuted",
    "C48_cstr_torn_refuted",
    "C48_cstr_race_refuted"
   ],
   "note": "Serial schedules proved safe for all programs (C48_serial); the interleavings that free early, tear, race and leak are witnesses ending in _refuted."
  },
  {
   "property": "C49",
   "status": "proved",
   "theorems": [
    "C49_refines",
    "C49_relink_refuted",
    "C49_relink_freed_refuted",
    "C49_short_refuted",
    "C49_destroy_refuted",
    "C49_shared_hook_refuted",
    "C49_stale_hook_refuted",
    "C49_qualified_refuted",
    "C49_types_refuted"
   ],
   "note": "Refinement of VarSpec for tidy programs; refuted witnesses for relinking, short texts, shared, lost and stale hooks, qualified names, Array and uint64 objects."
  },
  {
   "property": "C50",
   "status": "proved",
   "theorems": [
    "C50_call",
    "C50_inject_refuted",
    "C50_literal_refuted",
    "C50_nul_refuted",
    "C50_long_refuted"
   ],
   "note": "Positive theorem for literal parameters; refuted witnesses for quotes, substitution characters, NUL and length."
  },
  {
   "property": "C51",
   "status": "proved",
   "theorems": [
    "C51_result",
    "C51_error",
    "C51_loops_refuted",
    "C51_length_refuted"
   ],
   "note": "Positive theorems for scripts below 2^31 bytes; refuted witnesses for endless recursion and truncated length."
  },
  {
   "property": "C52",
   "status": "proved",
   "theorems": [
    "C52_safe",
    "C52_window",
    "C52_returned",
    "C52_given",
    "C52_all_destroyed",
    "C52_nothing_lost",
    "C52_no_exceptions",
    "C52_fill_ctor",
    "C52_fill_resize",
    "C52_fill_refuted",
    "C52_resize_refuted",
    "C52_retained_refuted"
   ],
   "note": "Full claim in C52_safe, C52_window, C52_returned, C52_given and C52_all_destroyed; the signatures (n, value) and exceptions with types without move operations lose elements, as the counts and witnesses say. Inserting an array into itself is not covered by C52_given (C06 refutes it for class types)."
  },
  {
   "property": "C53",
   "status": "proved",
   "theorems": [
    "C53_safe",
    "C53_strong",
    "C53_insert_refuted",
    "C53_cow_refuted",
    "C53_append_refuted",
    "C53_leak_refuted",
    "C53_fill_interrupted",
    "C53_fill_refuted",
    "C53_fill_ctor_refuted"
   ],
   "note": "Basic guarantee for all calls in C53_safe, strong guarantee for the calls listed in C53_strong; each limit has a witness. The interrupted resize(n, value), which these exclude, is C53_fill_interrupted."
  },
  {
   "property": "C54",
   "status": "proved",
   "theorems": [
    "C54_sub",
    "C54_subst",
    "C54_times",
    "C54_plus",
    "C54_join",
    "C54_ifind",
    "C54_rifind",
    "C54_enough_memory"
   ],
   "note": "Full claim, one theorem per function; C54_enough_memory turns them into plain equations where memory suffices."
  },
  {
   "property": "C55",
   "status": "proved",
   "theorems": [
    "C55_split",
    "C55_split_limit",
    "C55_newsplit"
   ],
   "note": "Full claim for strings below 2^31 bytes and a non-empty delimiter."
  },
  {
   "property": "C56",
   "status": "proved",
   "theorems": [
    "C56_split",
    "C56_newsplit"
   ],
   "note": "Full claim."
  },
  {
   "property": "C57",
   "status": "proved",
   "theorems": [
    "C57_assign",
    "C57_assign_slice",
    "C57_put_get",
    "C57_get_put",
    "C57_negative",
    "C57_resize_refuted",
    "C57_atomic_refuted"
   ],
   "note": "Positive theorems for starts inside the string; refuted witnesses for negative starts, changing length and failing atomicity."
  },
  {
   "property": "C58",
   "status": "proved",
   "theorems": [
    "C58_points",
    "C58_pointers_stay",
    "C58_reserved",
    "C58_c_str_refuted",
    "C58_append_refuted"
   ],
   "note": "Pointers stay valid through every program that does not disturb the array; reserve() then append; refuted for c_str() and for append without reserve."
  },
  {
   "property": "C59",
   "status": "proved",
   "theorems": [
    "C59_load",
    "C59_write",
    "C59_load_name",
    "C59_write_name",
    "C59_roundtrip",
    "C59_same",
    "C59_read_error_refuted",
    "C59_leak_refuted",
    "C59_stale_refuted"
   ],
   "note": "False parts are C59_read_error_refuted, C59_leak_refuted and C59_stale_refuted. A descriptor opened for appending is not modelled."
  },
  {
   "property": "C60",
   "status": "proved",
   "theorems": [
    "C60_array_postfix",
    "C60_prefix",
    "C60_string_postfix",
    "C60_shl",
    "C60_shr",
    "C60_stack",
    "C60_plus",
    "C60_rvalue_postfix",
    "C60_temporaries",
    "C60_empty_refuted",
    "C60_steal_refuted",
    "C60_lost_refuted"
   ],
   "note": "Operators of Array and String that are made of other members, over the heap model; three claims one might expect are refuted with witnesses."
  },
  {
   "property": "C61",
   "status": "proved",
   "theorems": [
    "C61_assign",
    "C61_insert",
    "C61_contains",
    "C61_remove",
    "C61_get",
    "C61_clear",
    "C61_destroy",
    "C61_copy",
    "C61_user",
    "C61_value",
    "C61_elsewhere",
    "C61_history",
    "C61_lost_key_refuted"
   ],
   "note": "HashTable<String,String> with its Strings on the heap model; any hash collisions, sharing, rvalue flags, growth policy and failing allocation; one refuted part (an rvalue key is lost when the bucket array cannot grow). The nodes and bucket array themselves are not heap blocks; the order of nodes within a bucket and when libstdc++ rehashes are parameters or unspecified."
  },
  {
   "property": "C62",
   "status": "proved",
   "theorems": [
    "C62_word",
    "C62_line",
    "C62_last_line",
    "C62_no_word",
    "C62_not_good",
    "C62_all_words",
    "C62_last_word_skipped",
    "C62_all_lines"
   ],
   "note": "Streams are those of C29 (skipws set, bytes usable with isspace); memory failure is existential: the point of failure is whatever the allocator makes it."
  },
  {
   "property": "C63",
   "status": "proved",
   "theorems": [
    "C63_put",
    "C63_width",
    "C63_setw_refuted",
    "C63_device_full",
    "C63_not_good",
    "C63_prefix",
    "C63_rvalue",
    "C63_rvalue_refuted",
    "C63_rvalue_shared",
    "C63_words_back",
    "C63_lines_back"
   ],
   "note": "The insertion of one char into std::ostream follows the standard (libstdc++); the String side runs on the heap model."
  },
  {
   "property": "C64",
   "status": "proved",
   "theorems": [
    "C64_dup",
    "C64_copy",
    "C64_copy_overruns",
    "C64_copy_ends_refuted",
    "C64_std",
    "C64_std_assign",
    "C64_cstr",
    "C64_dup_back",
    "C64_no_nul",
    "C64_cstr_refuted",
    "C64_le",
    "C64_lt",
    "C64_le_refuted"
   ],
   "note": "Memory at pointers that belong to no String is a list. Witnesses: copy writes no NUL; c_str() and dup() lose what follows a NUL; <= with a C string terminates when memory is lacking."
  },
  {
   "property": "C65",
   "status": "proved",
   "theorems": [
    "C65_model",
    "C65_step",
    "C65_few",
    "C65_programs",
    "C65_shared_refuted",
    "C65_freed_refuted"
   ],
   "note": "CntModel restates each function reaching the counter over an arbitrary counter; the instance with an unbounded one is RcaExec.exec definitionally, the instance with an int wraps. Refuted beyond 2^31 sharers: a write is seen through copies; a destruction frees a used buffer."
  },
  {
   "property": "C66",
   "status": "proved",
   "theorems": [
    "C66_encode",
    "C66_roundtrip",
    "C66_decode",
    "C66_slice_refuted",
    "C66_malloc",
    "C66_leak_refuted"
   ],
   "note": "The byte loops are those of B64Model (C32-C34); here the argument is a heap String. Refuted: decoding unpadded text depends on what follows the slice; bad_alloc loses the malloced block. C66_malloc: null from malloc is written through."
  },
  {
   "property": "C67",
   "status": "proved",
   "theorems": [
    "C67_assign",
    "C67_reuse",
    "C67_list",
    "C67_history",
    "C67_nothing_left",
    "C67_lost_refuted"
   ],
   "note": "libstdc++ is modelled for node reuse on assignment and for insertion from a list. Self-move-assignment is left to the library and not modelled. Refuted: an assignment that throws keeps the target."
  },
  {
   "property": "C68",
   "status": "proved",
   "theorems": [
    "C68_return",
    "C68_trace_get",
    "C68_trace_get_long",
    "C68_trace_set",
    "C68_argument",
    "C68_result",
    "C68_history",
    "C68_nothing_left",
    "C68_null_refuted"
   ],
   "note": "Tcl objects with identity, counts and shared, nested lists; every count is exact over all sequences of commands, traces and scripts, so nothing leaks or is used after it is freed. C68_null_refuted is the false half: a String of INT_MAX chars as a return value."
  },
  {
   "property": "C69",
   "status": "proved",
   "theorems": [
    "C69_step",
    "C69_shows",
    "C69_safe",
    "C69_others",
    "C69_nothing_left",
    "C69_resize_refuted",
    "C69_own_item_refuted"
   ],
   "note": "Two levels of sharing: slots of arrays and buffers of Strings, with allocation failure at both. The two _refuted theorems are the false parts: growing with resize() exposes moved-from elements, and an inserted item from the same array."
  },
  {
   "property": "C70",
   "status": "proved",
   "theorems": [
    "C70_elsewhere",
    "C70_overwrite",
    "C70_room",
    "C70_insert",
    "C70_write",
    "C70_write_refuted",
    "C70_nul_refuted",
    "C70_append_refuted"
   ],
   "note": "Exact for every reachable state; the False parts are witnessed."
  },
  {
   "property": "C71",
   "status": "proved",
   "theorems": [
    "C71_split",
    "C71_split_limit",
    "C71_split_one",
    "C71_join",
    "C71_equal",
    "C71_split_join"
   ],
   "note": "On the two-level heap of C69; == for texts of bytes."
  },
  {
   "property": "C72",
   "status": "proved",
   "theorems": [
    "C72_stop",
    "C72_killed",
    "C72_result",
    "C72_saved",
    "C72_left_behind",
    "C72_reload",
    "C72_roundtrip",
    "C72_unchecked_refuted",
    "C72_by_name_refuted"
   ],
   "note": "Theorems for both builds; witnesses for callers who ignore writeFile or write by name. Not durable before the directory is synced (C41_durable_refuted)."
  },
  {
   "property": "C73",
   "status": "proved",
   "theorems": [
    "C73_history",
    "C73_step",
    "C73_apart",
    "C73_reserve_refuted"
   ],
   "note": "Stream::reserve() on a shared buffer is refuted with a witness (C73_reserve_refuted); calls are unspecified where StreamSpec says so (texts of 2 GB or more, reading behind the end), and for seek the capacity decides."
  },
  {
   "property": "C74",
   "status": "proved",
   "theorems": [
    "C74_history",
    "C74_step",
    "C74_apart",
    "C74_no_leak"
   ],
   "note": "Programs over several HashTable<String, String> and Strings, exceptions caught, memory refused anywhere. c_str and iteration over tables are not among the calls."
  },
  {
   "property": "C75",
   "status": "proved",
   "theorems": [
    "C75_history",
    "C75_step",
    "C75_apart",
    "C75_no_leak"
   ],
   "note": "One call in any memory, programs from nothing, what a call does not mention, and memory at the end. Decoding is specified for encodings (C66 says what other input gives); texts below 2^31 characters where the code counts in int; join needs a total below 2^64 (C57)."
  },
  {
   "property": "C76",
   "status": "proved",
   "theorems": [
    "C76_call_same",
    "C76_states_same",
    "C76_program_same",
    "C76_program_prefix",
    "C76_empty_stops"
   ],
   "note": "Both builds of every class; the assertions of split are covered by C56, those of shift() and pop() on rvalues and of operator<< on rvalues by C60 and C63."
  },
  {
   "property": "C77",
   "status": "proved",
   "theorems": [
    "C77_reads",
    "C77_writes",
    "C77_moves",
    "C77_traverse",
    "C77_transform",
    "C77_copy",
    "C77_self_refuted"
   ],
   "note": "Algorithms are arbitrary terminating trees of element reads, writes and moves; those that move must put a value back everywhere. C77_self_refuted shows why a const range of the written array itself is excluded."
  },
  {
   "property": "C78",
   "status": "proved",
   "theorems": [
    "C78_history",
    "C78_step",
    "C78_apart",
    "C78_roundtrip",
    "C78_names_refuted",
    "C78_leak_refuted"
   ],
   "note": "Refinement of programs with Streams, Strings and files to texts, cursors and a map of files, with the frame rule and the save/load round trip. C78_names_refuted and C78_leak_refuted are limits of the claim: names are cut at NUL, and a load ended by bad_alloc leaves descriptors open."
  },
  {
   "property": "C79",
   "status": "proved",
   "theorems": [
    "C79_history",
    "C79_step",
    "C79_apart",
    "C79_no_leak",
    "C79_keep",
    "C79_fetch"
   ],
   "note": "Refinement of programs over the whole library (C75 and C78 over one heap) to texts, maps, lists, cursors and files; C79_keep and C79_fetch compose base64, Streams and files."
  },
  {
   "property": "C80",
   "status": "proved",
   "theorems": [
    "C80_history",
    "C80_step",
    "C80_apart",
    "C80_reads",
    "C80_back",
    "C80_no_leak"
   ],
   "note": "Refinement of programs with text input and output over the whole library of C79, the next call depending on what was seen; C80_back composes operator<< and getline."
  },
  {
   "property": "C81",
   "status": "proved",
   "theorems": [
    "C81_queue",
    "C81_queue_full",
    "C81_queue_roomy",
    "C81_stack"
   ],
   "note": "Exact cost of a queue and a stack in an Array; C81_queue_full is the bad case (every push_back moves all elements), C81_queue_roomy the good one."
  },
  {
   "property": "C82",
   "status": "proved",
   "theorems": [
    "C82_build",
    "C82_build_double",
    "C82_returns",
    "C82_first"
   ],
   "note": "Cost of appending pieces of any sizes (C14 is one element at a time); C82_returns: the calls return; C82_first: the one case that shares instead of copying."
  }
 ]
}