{
 "claims": [
  {
   "property": "C01",
   "status": "proved",
   "theorems": [
    "C01_strlen",
    "C01_strlen_null",
    "C01_strnlen"
   ],
   "note": "full property; strings shorter than INT_MAX"
  },
  {
   "property": "C02",
   "status": "proved",
   "theorems": [
    "C02_strcpy",
    "C02_stpcpy"
   ],
   "note": "full property"
  },
  {
   "property": "C03",
   "status": "proved",
   "theorems": [
    "C03_strcat",
    "C03_strncat"
   ],
   "note": "full property"
  },
  {
   "property": "C04",
   "status": "proved",
   "theorems": [
    "C04_strlcpy"
   ],
   "note": "full property"
  },
  {
   "property": "C05",
   "status": "partial",
   "theorems": [
    "C05_strncpy_partial",
    "C05_stpncpy_partial",
    "C05_refuted"
   ],
   "note": "result and frame proved when src is readable one byte further; the property as stated is false (C05_refuted): strncpy and stpncpy read src[n] before testing the bound"
  },
  {
   "property": "C06",
   "status": "proved",
   "theorems": [
    "C06_strcmp",
    "C06_strncmp",
    "C06_total_order"
   ],
   "note": "full property for strings up to INT_MAX bytes and n <= INT_MAX"
  },
  {
   "property": "C07",
   "status": "partial",
   "theorems": [
    "C07_strcasecmp_partial",
    "C07_strncasecmp_partial",
    "C07_folding_refuted",
    "C07_antisym_refuted",
    "C07_strncasecmp_refuted"
   ],
   "note": "false as stated (bit-5 folding identifies [ and {; not antisymmetric for unequal lengths; strncasecmp fails when n truncates); proved for letters, digits and most punctuation"
  },
  {
   "property": "C08",
   "status": "partial",
   "theorems": [
    "C08_strchr_partial",
    "C08_strchrnul_partial",
    "C08_strrchr_partial",
    "C08_refuted"
   ],
   "note": "false for c>=128 (plain char is signed) and for strrchr(s,0); proved for the other characters"
  },
  {
   "property": "C09",
   "status": "partial",
   "theorems": [
    "C09_strstr_partial",
    "C09_refuted"
   ],
   "note": "false for an empty big (reads behind its terminator); proved for every non-empty big"
  },
  {
   "property": "C10",
   "status": "proved",
   "theorems": [
    "C10_strcspn",
    "C10_strcspn_optimized"
   ],
   "note": "full property, both builds, strings up to INT_MAX bytes"
  },
  {
   "property": "C11",
   "status": "partial",
   "theorems": [
    "C11_strspn_partial",
    "C11_refuted"
   ],
   "note": "false as stated: after the first accepted byte the first accept character is skipped; upper bound and a sufficient condition proved"
  },
  {
   "property": "C12",
   "status": "partial",
   "theorems": [
    "C12_strpbrk_partial",
    "C12_refuted"
   ],
   "note": "false as stated: the pointer is passed where the character is meant, every non-empty s is returned unchanged"
  },
  {
   "property": "C13",
   "status": "proved",
   "theorems": [
    "C13_strtok"
   ],
   "note": "full property over the whole call sequence"
  },
  {
   "property": "C14",
   "status": "proved",
   "theorems": [
    "C14_memcpy",
    "C14_memcpy_optimized",
    "C14_memset"
   ],
   "note": "full property, both builds, n <= INT_MAX"
  },
  {
   "property": "C15",
   "status": "partial",
   "theorems": [
    "C15_memmove_partial",
    "C15_refuted"
   ],
   "note": "false when dest starts inside src (forward copy only); proved in every other placement"
  },
  {
   "property": "C16",
   "status": "proved",
   "theorems": [
    "C16_memcmp"
   ],
   "note": "full property"
  },
  {
   "property": "C17",
   "status": "partial",
   "theorems": [
    "C17_memcmp_order_partial",
    "C17_refuted"
   ],
   "note": "false for bytes >= 128 (signed char comparison) and n = 0 (returns -1); proved for bytes below 128, n >= 1"
  },
  {
   "property": "C18",
   "status": "proved",
   "theorems": [
    "C18_memchr"
   ],
   "note": "full property"
  },
  {
   "property": "C19",
   "status": "partial",
   "theorems": [
    "C19_strdup_partial",
    "C19_strndup_partial",
    "C19_refuted"
   ],
   "note": "false as stated (strdup requests strlen bytes, truncating strndup overruns by one); proved when the block has the missing byte / when n >= strlen(s)"
  },
  {
   "property": "C20",
   "status": "proved",
   "theorems": [
    "C20_heap_safe",
    "C20_malloc_size"
   ],
   "note": "full property for buffer sizes that are a multiple of 4 and below 2^30"
  },
  {
   "property": "C21",
   "status": "proved",
   "theorems": [
    "C21_all_freed",
    "C21_same_answers"
   ],
   "note": "full property, same conditions as C20"
  },
  {
   "property": "C22",
   "status": "proved",
   "theorems": [
    "C22_malloc_fails"
   ],
   "note": "full property, same conditions as C20"
  },
  {
   "property": "C23",
   "status": "partial",
   "theorems": [
    "C23_realloc_partial",
    "C23_prefix_refuted",
    "C23_others_refuted",
    "C23_failure_refuted",
    "C23_null_refuted"
   ],
   "note": "false as stated: growing keeps only about half of the bytes, shrinking to between a quarter and a half overwrites other live blocks, failure frees p or writes through NULL; proved for growing, shrinking to at least half or at most a quarter, first 8 bytes and half of the block"
  },
  {
   "property": "C24",
   "status": "partial",
   "theorems": [
    "C24_calloc_partial",
    "C24_refuted"
   ],
   "note": "false for nmemb > 1: only the first size bytes are zeroed; that much is proved for both builds"
  },
  {
   "property": "C25",
   "status": "proved",
   "theorems": [
    "C25_atoi",
    "C25_atoi_strict"
   ],
   "note": "full property with wrapping arithmetic; with undefined overflow for spellings up to 13 characters other than INT_MIN"
  },
  {
   "property": "C26",
   "status": "partial",
   "theorems": [
    "C26_atol_partial",
    "C26_blank_refuted",
    "C26_plus_refuted"
   ],
   "note": "false for leading blanks and '+' (not skipped); proved for optional '-', digits, any following text"
  },
  {
   "property": "C27",
   "status": "proved",
   "theorems": [
    "C27_uitodec",
    "C27_itodec"
   ],
   "note": "full property (INT_MIN with wrapping negation)"
  },
  {
   "property": "C28",
   "status": "partial",
   "theorems": [
    "C28_ultodec_partial",
    "C28_ltodec_partial",
    "C28_ultodec_padded",
    "C28_zero_refuted"
   ],
   "note": "false for 0 (prints nothing); proved for every other value, and with width 1..20 for 0 too"
  },
  {
   "property": "C29",
   "status": "proved",
   "theorems": [
    "C29_int",
    "C29_long"
   ],
   "note": "full property, 0 included (INT_MIN, LONG_MIN with wrapping negation)"
  },
  {
   "property": "C30",
   "status": "proved",
   "theorems": [
    "C30_itohex",
    "C30_reads_back"
   ],
   "note": "full property"
  },
  {
   "property": "C31",
   "status": "partial",
   "theorems": [
    "C31_strtol_partial",
    "C31_base0_partial",
    "C31_saturates_partial",
    "C31_digit_refuted",
    "C31_overflow_refuted"
   ],
   "note": "false as stated: the digit of value base is accepted and an overflow that wraps to a non-negative value goes unnoticed; proved otherwise, base 0 included; saturation proved when the first excess is below 2^64"
  },
  {
   "property": "C32",
   "status": "partial",
   "theorems": [
    "C32_itobin_partial",
    "C32_itobin_zero_refuted",
    "C32_itobin_groups_refuted",
    "C32_itooct_partial",
    "C32_itooct_refuted",
    "C32_itooct_min_refuted"
   ],
   "note": "false as stated (grouping counts skipped zeros, itobin(0) prints a blank, itooct writes an uninitialised byte and loops on INT_MIN); the digits are proved right"
  },
  {
   "property": "C33",
   "status": "partial",
   "theorems": [
    "C33_ipoweriui",
    "C33_ipoweri",
    "C33_strict_partial",
    "C33_strict_refuted"
   ],
   "note": "full property with wrapping int products; with undefined overflow whenever x^n is an int, and refuted otherwise (2^31 is undefined)"
  },
  {
   "property": "C34",
   "status": "proved",
   "theorems": [
    "C34_djb2",
    "C34_sdbm",
    "C34_djb2_concat",
    "C34_sdbm_concat"
   ],
   "note": "full property"
  },
  {
   "property": "C35",
   "status": "proved",
   "theorems": [
    "C35_partition",
    "C35_bsd_cksum"
   ],
   "note": "full property for bsd_cksumblock; djb_cksum has no block interface"
  },
  {
   "property": "C36",
   "status": "partial",
   "theorems": [
    "C36_reproducible_partial",
    "C36_unsigned_range_partial",
    "C36_range_refuted"
   ],
   "note": "the range is false (values up to 2^32-1); reproducibility and the unsigned range are proved"
  },
  {
   "property": "C37",
   "status": "proved",
   "theorems": [
    "C37_htonl",
    "C37_htons",
    "C37_htonl_involution",
    "C37_htons_involution"
   ],
   "note": "full property"
  },
  {
   "property": "C38",
   "status": "proved",
   "theorems": [
    "C38_inet_ntoa"
   ],
   "note": "full property"
  },
  {
   "property": "C39",
   "status": "partial",
   "theorems": [
    "C39_round_trip",
    "C39_parse",
    "C39_parse_short",
    "C39_any_string_partial",
    "C39_malformed_refuted"
   ],
   "note": "inversion proved, also for every four-number and shorter spelling; rejection of malformed strings is false (1 is always returned)"
  },
  {
   "property": "C40",
   "status": "partial",
   "theorems": [
    "C40_ether_ntoa_partial",
    "C40_order_refuted"
   ],
   "note": "false: the two hex digits of each byte are exchanged; the exact output is proved"
  },
  {
   "property": "C41",
   "status": "partial",
   "theorems": [
    "C41_permutes",
    "C41_sorts",
    "C41_wide_refuted"
   ],
   "note": "proved for widths up to INT_MAX and arrays below 2^62 bytes; false for wider elements (swap takes the width as int)"
  },
  {
   "property": "C42",
   "status": "proved",
   "theorems": [
    "C42_bsearch",
    "C42_iff",
    "C42_sorted"
   ],
   "note": "full property"
  },
  {
   "property": "C43",
   "status": "partial",
   "theorems": [
    "C43_getenv_partial",
    "C43_getenv_refuted"
   ],
   "note": "proved for all names without '='; false for an argument that equals a whole entry (both strings are read past their ends)"
  },
  {
   "property": "C44",
   "status": "partial",
   "theorems": [
    "C44_history_partial",
    "C44_putenv_invalid",
    "C44_putenv_refuted",
    "C44_unsetenv_refuted",
    "C44_setenv_refuted"
   ],
   "note": "every history of putenv/setenv/unsetenv refines a map when no name is a proper prefix of another and malloc returns one byte more than setenv asks for; false otherwise, for each of the three functions"
  },
  {
   "property": "C45",
   "status": "partial",
   "theorems": [
    "C45_slots_partial",
    "C45_slots_refuted",
    "C45_full_table_refuted"
   ],
   "note": "proved for histories that close a stream only when nothing is open above it or its upper neighbour is open, and at most twelve fopen for freedom from out-of-bounds accesses; refuted for other close orders and for the full table"
  },
  {
   "property": "C46",
   "status": "partial",
   "theorems": [
    "C46_fgets_partial",
    "C46_fgets_refuted",
    "C46_concat",
    "C46_fgetsp"
   ],
   "note": "fgetsp proved; fgets/fgetsn proved exactly, but they store up to size bytes plus NUL: refuted for every size; concatenation proved; input with NUL bytes is outside"
  },
  {
   "property": "C47",
   "status": "partial",
   "theorems": [
    "C47_ungetc_partial",
    "C47_high_partial",
    "C47_ungetc_refuted"
   ],
   "note": "proved for characters 1..127; refuted for 0 and for 128..255"
  },
  {
   "property": "C48",
   "status": "partial",
   "theorems": [
    "C48_bounds_partial",
    "C48_width_refuted",
    "C48_group_refuted",
    "C48_binary_refuted",
    "C48_double_refuted",
    "C48_range_refuted",
    "C48_bracket_refuted",
    "C48_lone_percent_refuted"
   ],
   "note": "proved for conversions % u d x X s c o b f with modifiers, except %s with a width, %'d without l, %o of INT_MIN, %b of numbers above 32767, %f of numbers out of the range of int, %b and %f with more than one digit of width, and (; refuted for %5s, %'d, %b of -1, %30f, %o and %f out of range, sixteen digits behind %( and a format ending in %"
  },
  {
   "property": "C49",
   "status": "partial",
   "theorems": [
    "C49_output_partial",
    "C49_exact_partial",
    "C49_zero_refuted",
    "C49_fits_refuted"
   ],
   "note": "proved for every size from 1 on and %u of values other than 0: the output appears exactly when the size leaves the reserve each conversion asks for (13 bytes in front of %d and %u, 8 in front of %x and %X) and the output fits, else the process is stopped with nothing written behind the place of the output; always when size is at least 14 more than the output; refuted for %u of 0 and for results that just fit"
  },
  {
   "property": "C50",
   "status": "partial",
   "theorems": [
    "C50_glob_partial",
    "C50_glob_refuted"
   ],
   "note": "proved for all glob patterns not ending in **; refuted for a**"
  },
  {
   "property": "C51",
   "status": "partial",
   "theorems": [
    "C51_token_s",
    "C51_token_i_partial",
    "C51_token_i_refuted",
    "C51_lookup_partial",
    "C51_null_refuted",
    "C51_first_refuted",
    "C51_end_refuted"
   ],
   "note": "token_s proved for all fields; token_i for numbers up to INT_MAX (refuted beyond); lookup histories proved for databases with unique names and uids, without endpwent, and without getpwnam between opening and the first entry found; refuted for each of these"
  },
  {
   "property": "C52",
   "status": "partial",
   "theorems": [
    "C52_total",
    "C52_dirname",
    "C52_dirname_null",
    "C52_basename_partial",
    "C52_basename_single_refuted",
    "C52_basename_trailing_refuted"
   ],
   "note": "dirname proved for all paths; basename proved unless the path is one component with trailing slashes or has more than two trailing slashes, and refuted for every such path"
  },
  {
   "property": "C53",
   "status": "partial",
   "theorems": [
    "C53_order_partial",
    "C53_capacity",
    "C53_order_refuted"
   ],
   "note": "order proved while a slot is free, capacity and rejection in full; false for a full table (the scan at exit reads behind the array)"
  },
  {
   "property": "C54",
   "status": "partial",
   "theorems": [
    "C54_sigset_partial",
    "C54_sigset_refuted",
    "C54_range"
   ],
   "note": "proved for signals 1..30; false for 31..64, which are refused (_NSIG is 32 and the test is off by one)"
  },
  {
   "property": "C55",
   "status": "proved",
   "theorems": [
    "C55_fdset",
    "C55_fdset_outside",
    "C55_fdzero"
   ],
   "note": "full property"
  },
  {
   "property": "C56",
   "status": "partial",
   "theorems": [
    "C56_classes",
    "C56_cntrl",
    "C56_case_letters_partial",
    "C56_tolower_refuted",
    "C56_toupper_refuted",
    "C56_ispunct_refuted"
   ],
   "note": "all classes but ispunct proved, for every int; ispunct, and tolower/toupper outside the letters, are false"
  },
  {
   "property": "C57",
   "status": "proved",
   "theorems": [
    "C57_div",
    "C57_ldiv",
    "C57_abs",
    "C57_labs"
   ],
   "note": "full property"
  },
  {
   "property": "C58",
   "status": "proved",
   "theorems": [
    "C58_align"
   ],
   "note": "full property, every alignment 2^k"
  },
  {
   "property": "C59",
   "status": "proved",
   "theorems": [
    "C59_usleep",
    "C59_sleep"
   ],
   "note": "full property, and sleep"
  },
  {
   "property": "C60",
   "status": "partial",
   "theorems": [
    "C60_where_partial",
    "C60_empty_entry_refuted",
    "C60_empty_path_refuted"
   ],
   "note": "proved for PATH values without empty entries; refuted for an empty entry and an empty PATH"
  },
  {
   "property": "C61",
   "status": "proved",
   "theorems": [
    "C61_sequence"
   ],
   "note": "command lines shorter than INT_MAX arguments and bytes, options alphanumeric"
  },
  {
   "property": "C62",
   "status": "partial",
   "theorems": [
    "C62_regions_partial",
    "C62_size_refuted"
   ],
   "note": "sorted, disjoint and not adjacent for all accepted headers without 64 bit overflow; the exact cover when no 2^32 bytes in a row are needed (always for files below 4 GiB); refuted for a 4 GiB segment"
  },
  {
   "property": "C63",
   "status": "partial",
   "theorems": [
    "C63_displacements",
    "C63_shrinkelf_partial",
    "C63_shrinkelf_small",
    "C63_damage_refuted"
   ],
   "note": "displacements for all sorted region lists; the whole program (headers read to output file) for every complete ELF64 executable without a needed run of 2^32 bytes; refuted beyond (silent loss of e_phoff)"
  },
  {
   "property": "C64",
   "status": "partial",
   "theorems": [
    "C64_scandir_partial",
    "C64_errors",
    "C64_alphasort",
    "C64_limit_refuted"
   ],
   "note": "directories of less than 128 MiB of entries, with room in the data segment; refuted when the break cannot be moved (write behind the segment)"
  },
  {
   "property": "C65",
   "status": "partial",
   "theorems": [
    "C65_wrapper_partial",
    "C65_wrapper_refuted",
    "C65_open_partial",
    "C65_open_refuted"
   ],
   "note": "proved for results that are errors or fit into an int; false above (the result is truncated to int); open returns -errno instead of -1"
  },
  {
   "property": "C66",
   "status": "partial",
   "theorems": [
    "C66_wait",
    "C66_event_stop",
    "C66_stopped_strict_partial",
    "C66_stopped_strict_refuted"
   ],
   "note": "full property with wrapping arithmetic; WIFSTOPPED overflows (undefined) for exit codes >= 128"
  },
  {
   "property": "C67",
   "status": "partial",
   "theorems": [
    "C67_no_overflow_partial",
    "C67_exact_partial",
    "C67_refuted"
   ],
   "note": "false as stated: freeing a block between two freed ones adds two negative ints; C67_exact_partial says exactly which histories overflow"
  },
  {
   "property": "C68",
   "status": "partial",
   "theorems": [
    "C68_partial",
    "C68_refuted",
    "C68_atoi_refuted"
   ],
   "note": "false for INT_MIN, LONG_MIN and atoi of 14 or more characters; proved otherwise"
  },
  {
   "property": "C69",
   "status": "partial",
   "theorems": [
    "C69_width_partial",
    "C69_zero_refuted",
    "C69_ten_refuted"
   ],
   "note": "false for 0 (no digit) and width 10 (first fill character is a blank); proved for positive values and widths 0..9"
  },
  {
   "property": "C70",
   "status": "partial",
   "theorems": [
    "C70_ascii_partial",
    "C70_high_refuted"
   ],
   "note": "false for bytes >= 128 (added as negative chars); proved for bytes below 128"
  },
  {
   "property": "C71",
   "status": "proved",
   "theorems": [
    "C71_gethostname",
    "C71_nothing"
   ],
   "note": "full property"
  },
  {
   "property": "C72",
   "status": "proved",
   "theorems": [
    "C72_errno_str"
   ],
   "note": "full property"
  },
  {
   "property": "C73",
   "status": "partial",
   "theorems": [
    "C73_align_p_refuted",
    "C73_align_p_partial"
   ],
   "note": "false: shift and base are both 8; right for 8 of 256 addresses (exactly those, C73_align_p_partial)"
  },
  {
   "property": "C74",
   "status": "proved",
   "theorems": [
    "C74_fgetud"
   ],
   "note": ""
  },
  {
   "property": "C75",
   "status": "partial",
   "theorems": [
    "C75_fread_partial",
    "C75_ferror_refuted"
   ],
   "note": "proved for fread, feof and clearerr; ferror refuted; read(2) delivers everything available up to size"
  },
  {
   "property": "C76",
   "status": "partial",
   "theorems": [
    "C76_flags_partial",
    "C76_long_refuted",
    "C76_append_refuted"
   ],
   "note": "proved for all modes of at most six characters except those that append; refuted for a and a+ and for a + behind the sixth character"
  },
  {
   "property": "C77",
   "status": "partial",
   "theorems": [
    "C77_match_partial",
    "C77_safe",
    "C77_take_refuted",
    "C77_plus_refuted",
    "C77_end_refuted",
    "C77_class_refuted",
    "C77_not_class_refuted",
    "C77_word_refuted"
   ],
   "note": "pattern language proved for patterns and texts without the cases refuted (single character at the end for + and %, *$ and empty text, classes with ], negated classes, \\w beyond 160); safety (C77_safe) proved for arbitrary byte strings as pattern"
  },
  {
   "property": "C78",
   "status": "partial",
   "theorems": [
    "C78_capture_partial",
    "C78_class_refuted"
   ],
   "note": "proved for the patterns of C77; refuted for classes: %[a] of x] reports x"
  },
  {
   "property": "C79",
   "status": "partial",
   "theorems": [
    "C79_lookup_partial",
    "C79_members_refuted",
    "C79_page_refuted",
    "C79_first_refuted",
    "C79_many_refuted"
   ],
   "note": "proved for unique names and gids, fewer than 64 members per group and a file whose pointer table fits into its last page; a group without members gets one empty member name (refuted); refuted for files ending near a page end, for a group of 64 members (which hides all groups behind it) and for two groups with the same gid"
  },
  {
   "property": "C80",
   "status": "partial",
   "theorems": [
    "C80_usergroups_partial",
    "C80_exact_refuted"
   ],
   "note": "proved for the databases of C79, fewer than max groups; refuted for exactly max"
  },
  {
   "property": "C81",
   "status": "partial",
   "theorems": [
    "C81_grouplist_partial",
    "C81_small_refuted"
   ],
   "note": "proved for the databases of C79 and one spare entry; refuted for arrays that just fit and (out-of-bounds write) for smaller ones"
  },
  {
   "property": "C82",
   "status": "partial",
   "theorems": [
    "C82_error_partial",
    "C82_progress_refuted",
    "C82_missing_refuted",
    "C82_chars_refuted"
   ],
   "note": "the report of the first error is proved; refuted after an error (the same error is returned forever) and for ':' or a non-alphanumeric character as option"
  },
  {
   "property": "C83",
   "status": "partial",
   "theorems": [
    "C83_stream_partial",
    "C83_tell_refuted"
   ],
   "note": "proved for streams whose tell field was zero at the beginning, or that are rewound first, or without telldir; refuted otherwise (telldir directly after opendir)"
  },
  {
   "property": "C84",
   "status": "partial",
   "theorems": [
    "C84_segment_partial",
    "C84_realloc_in_place",
    "C84_limit_refuted"
   ],
   "note": "blocks below 256 MiB; realloc of the last block only (another block is moved into mini_buf or the brk segment by code that is not modelled here); refuted when the break cannot be moved"
  },
  {
   "property": "C85",
   "status": "partial",
   "theorems": [
    "C85_uitodec",
    "C85_itodec",
    "C85_ultodec_partial",
    "C85_ltodec_partial",
    "C85_ultodec_refuted"
   ],
   "note": "uitodec and itodec for all values; ultodec and ltodec print one limiter too many in front of numbers with 3, 6, 9, ... digits (refuted), and nothing for 0"
  },
  {
   "property": "C86",
   "status": "partial",
   "theorems": [
    "C86_width_partial",
    "C86_negative_refuted",
    "C86_hex_blank_refuted"
   ],
   "note": "widths up to 9 (ints), 8 (hex), 20 (%0Nlu); blanks for positive ints only; 28 spare bytes; refuted: a negative number with a width comes out too long with the sign in front of the blanks, and %Nx fills with zeros"
  },
  {
   "property": "C87",
   "status": "proved",
   "theorems": [
    "C87_qsort"
   ],
   "note": "LESS is a strict weak order without side effects"
  },
  {
   "property": "C88",
   "status": "proved",
   "theorems": [
    "C88_mergesort"
   ],
   "note": "n <= 2^61; malloc of temp succeeds"
  },
  {
   "property": "C89",
   "status": "proved",
   "theorems": [
    "C89_heapmake",
    "C89_heapsort"
   ],
   "note": "n <= 2^62"
  },
  {
   "property": "C90",
   "status": "proved",
   "theorems": [
    "C90_ksmall"
   ],
   "note": ""
  },
  {
   "property": "C91",
   "status": "proved",
   "theorems": [
    "C91_combsort"
   ],
   "note": "the division of doubles is any function within the bounds of KsortSpec.shrinks"
  },
  {
   "property": "C92",
   "status": "proved",
   "theorems": [
    "C92_introsort"
   ],
   "note": "malloc of the stack succeeds; as C91"
  },
  {
   "property": "C93",
   "status": "proved",
   "theorems": [
    "C93_shuffle",
    "C93_every_order",
    "C93_one_draw"
   ],
   "note": "(int)(drand48()*i) is an arbitrary number below i"
  },
  {
   "property": "C94",
   "status": "proved",
   "theorems": [
    "C94_histories"
   ],
   "note": "requests below 2^30+4089 bytes for kcalloc/krealloc (C98 has what happens beyond), room for the break"
  },
  {
   "property": "C95",
   "status": "proved",
   "theorems": [
    "C95_free_twice"
   ],
   "note": ""
  },
  {
   "property": "C96",
   "status": "proved",
   "theorems": [
    "C96_reuse"
   ],
   "note": ""
  },
  {
   "property": "C97",
   "status": "proved",
   "theorems": [
    "C97_realloc_same"
   ],
   "note": ""
  },
  {
   "property": "C98",
   "status": "partial",
   "theorems": [
    "C98_too_large_partial",
    "C98_limit_refuted",
    "C98_realloc_fails_refuted",
    "C98_calloc_null_refuted",
    "C98_calloc_product_refuted",
    "C98_realloc_wide_refuted",
    "C98_usable_refuted"
   ],
   "note": "only that kmalloc of more than the largest block returns NULL; refuted: limit of the break, krealloc that fails, kcalloc that gets NULL, cut products, kmalloc_usable_size"
  },
  {
   "property": "C99",
   "status": "proved",
   "theorems": [
    "C99_compaction"
   ],
   "note": ""
  },
  {
   "property": "C100",
   "status": "proved",
   "theorems": [
    "C100_sequence"
   ],
   "note": "alphanumeric option characters, 7 bit; messages to stderr and re_opterr not modelled"
  },
  {
   "property": "C101",
   "status": "partial",
   "theorems": [
    "C101_operands_partial",
    "C101_operands_refuted"
   ],
   "note": "proved for lines without operands in front of \"--\"; refuted for the others: \"op -- x\" becomes \"-- x op\""
  },
  {
   "property": "C102",
   "status": "partial",
   "theorems": [
    "C102_error_partial",
    "C102_progress_refuted",
    "C102_report_refuted",
    "C102_null_refuted"
   ],
   "note": "the first error is reported as stated, for unknown characters below 128 other than a colon, missing arguments of short options only with a leading colon; refuted: regetopt does not go on behind an error; ':' for a missing argument without leading colon; surplus arguments accepted; -: accepted; NULL as table read"
  },
  {
   "property": "C103",
   "status": "partial",
   "theorems": [
    "C103_abbreviation_partial",
    "C103_abbreviation_refuted"
   ],
   "note": "proved for tables in which no name stands behind two longer names beginning with it, long options without required argument; refuted for other tables"
  },
  {
   "property": "C104",
   "status": "partial",
   "theorems": [
    "C104_restart_partial",
    "C104_restart_refuted"
   ],
   "note": "proved if the first line has no operands in front of \"--\" and the second as many words; refuted otherwise: the count of words is never reset"
  },
  {
   "property": "C105",
   "status": "proved",
   "theorems": [
    "C105_strings"
   ],
   "note": "the 0 that ends the arguments is an int in the macros; taken as a null pointer"
  },
  {
   "property": "C106",
   "status": "partial",
   "theorems": [
    "C106_puts_partial",
    "C106_order_refuted"
   ],
   "note": "string, newline and result are proved for both orders of evaluation of the +; the order of string and newline only if the left operand is evaluated first; refuted for the other one, which C permits"
  },
  {
   "property": "C107",
   "status": "partial",
   "theorems": [
    "C107_writes_partial",
    "C107_nul_refuted"
   ],
   "note": "the constant and a 0 byte; refuted: sizeof counts the 0"
  },
  {
   "property": "C108",
   "status": "partial",
   "theorems": [
    "C108_fprintfs_partial",
    "C108_formats",
    "C108_percent_refuted"
   ],
   "note": "all formats but those that end with a single % (C108_formats); refuted for these: the 0 is skipped and the memory behind is written"
  },
  {
   "property": "C109",
   "status": "partial",
   "theorems": [
    "C109_snprintfs_partial",
    "C109_overrun_refuted",
    "C109_percent_refuted"
   ],
   "note": "all formats, in buffers of size+1 bytes, the text without the other % sequences; refuted: a byte behind the buffer is written if the text does not fit (also size 0), other % sequences vanish; the length returned is that of the cut text"
  },
  {
   "property": "C110",
   "status": "partial",
   "theorems": [
    "C110_fwrite_partial",
    "C110_complete",
    "C110_size0_refuted"
   ],
   "note": "sizes above 0; refuted: size 0 returns n"
  },
  {
   "property": "C111",
   "status": "partial",
   "theorems": [
    "C111_positions_partial",
    "C111_positions_refuted"
   ],
   "note": "targets 1..INT_MAX (fsetpos from 0); refuted: the position is returned instead of 0, rewind keeps the flags, offsets are cut to 32 bits, ftell fails from 2^31 on"
  },
  {
   "property": "C112",
   "status": "partial",
   "theorems": [
    "C112_strerror",
    "C112_perror_partial",
    "C112_format_refuted"
   ],
   "note": "strerror proved; perror without colon and newline, which it does not write (refuted)"
  },
  {
   "property": "C113",
   "status": "partial",
   "theorems": [
    "C113_result_partial",
    "C113_fputc_partial",
    "C113_errors_refuted"
   ],
   "note": "print and fputs; refuted: dprints and fprintfs add -1 to their sums, fputc ignores the result"
  },
  {
   "property": "C114",
   "status": "partial",
   "theorems": [
    "C114_match_partial",
    "C114_class_refuted",
    "C114_negated_refuted",
    "C114_plus_refuted",
    "C114_take_refuted",
    "C114_word_refuted",
    "C114_stars_refuted"
   ],
   "note": "patterns and texts of MextSpec.xsupported; refuted for \"[a]\" and \"]\", negated classes (the answer is 1 at once), \"+\" and \"a\", \"*l=%#\" and \"l=3\", \"\\\\w\" and 200, \"a**\" and \"a\""
  },
  {
   "property": "C115",
   "status": "partial",
   "theorems": [
    "C115_report_partial",
    "C115_number_refuted"
   ],
   "note": "as C114; refuted for a % without number behind a & with one: the number stays"
  },
  {
   "property": "C116",
   "status": "partial",
   "theorems": [
    "C116_counted_partial",
    "C116_number_refuted",
    "C116_end_refuted",
    "C116_negated_refuted"
   ],
   "note": "counts 1..9 of characters and classes, followed by an item that matches a character and is not negated; refuted: {12x} wants 13 x, {3a} does not match aaa, a ! behind the } is a character"
  },
  {
   "property": "C117",
   "status": "partial",
   "theorems": [
    "C117_safe_partial",
    "C117_counted_refuted"
   ],
   "note": "patterns without {; refuted: {5?} reads behind the end of the text"
  },
  {
   "property": "C118",
   "status": "partial",
   "theorems": [
    "C118_callback_partial",
    "C118_count_refuted",
    "C118_match_refuted"
   ],
   "note": "RE_NOMATCH and RE_MATCHEND, characters in front of the &; refuted: other numbers advance by one more, so that the documented example x&x fails and RE_MATCH for the last character reads behind the text"
  },
  {
   "property": "C119",
   "status": "partial",
   "theorems": [
    "C119_execl_partial",
    "C119_no_arguments_refuted"
   ],
   "note": "at least one argument; refuted for execl(path, NULL), which reads arguments that were not passed"
  },
  {
   "property": "C120",
   "status": "partial",
   "theorems": [
    "C120_execvpe_partial",
    "C120_inner_slash_refuted",
    "C120_dot_refuted",
    "C120_long_refuted"
   ],
   "note": "names without slash that do not begin with '.', and names with a slash that begin with '.' or '/', PATH as in C60; refuted: an inner slash is looked up in PATH, .x is not, names that do not fit PATH_MAX overrun the buffer. access(R_OK|X_OK) is an arbitrary function"
  },
  {
   "property": "C121",
   "status": "partial",
   "theorems": [
    "C121_system_partial",
    "C121_killed_refuted",
    "C121_interrupted_refuted",
    "C121_vfork_refuted"
   ],
   "note": "uninterrupted waits and shells that exit; refuted: killed shell (never returns), interrupted waitpid and failing vfork (uninitialised status)"
  },
  {
   "property": "C122",
   "status": "partial",
   "theorems": [
    "C122_vexec_partial",
    "C122_failed_exec",
    "C122_errno_refuted",
    "C122_killed_refuted",
    "C122_vfork_refuted"
   ],
   "note": "children that exit, also after interruptions and stops; refuted: killed child (0), errno is always 1 after a failed execve, failing vfork (uninitialised status)"
  },
  {
   "property": "C123",
   "status": "partial",
   "theorems": [
    "C123_exec_partial",
    "C123_message_partial",
    "C123_zero_byte_refuted",
    "C123_large_refuted",
    "C123_die_partial",
    "C123_die_zero_refuted",
    "C123_die_errno_partial"
   ],
   "note": "numbers up to 199, for the message 100..199; refuted: a 0 byte in the message below 100, no digits above 199, die(0,msg) exits with 0. dief and dies differ in the output function only and are not modelled"
  },
  {
   "property": "C124",
   "status": "partial",
   "theorems": [
    "C124_sigaction_partial",
    "C124_query_refuted",
    "C124_signal"
   ],
   "note": "signal completely, sigaction for act != NULL; refuted: act == NULL is dereferenced. rt_sigaction of the kernel is part of the model"
  },
  {
   "property": "C125",
   "status": "partial",
   "theorems": [
    "C125_abort_partial",
    "C125_blocked_refuted"
   ],
   "note": "SIGABRT not blocked; refuted: blocked, it is exit(125). Delivery of signals is part of the model"
  },
  {
   "property": "C126",
   "status": "partial",
   "theorems": [
    "C126_strtoimax_partial",
    "C126_base0_partial",
    "C126_saturates_partial",
    "C126_digit_refuted",
    "C126_overflow_refuted"
   ],
   "note": "as C31, for int"
  },
  {
   "property": "C127",
   "status": "partial",
   "theorems": [
    "C127_width_partial",
    "C127_unset",
    "C127_garbage_refuted"
   ],
   "note": "decimal numbers; refuted: \"-1\" gives -29 and \"\" gives 0"
  },
  {
   "property": "C128",
   "status": "partial",
   "theorems": [
    "C128_map_partial",
    "C128_rounding_refuted",
    "C128_failure_refuted",
    "C128_wrapper_refuted",
    "C128_mprotect_refuted"
   ],
   "note": "lengths that are no multiple of the page size; refuted: multiples get a page too many, without memory the result is 4095 or 4096-errno, and the mprotect wrapper reads the page it has just protected (the theorem assumes that the compiler removes this dead load). Page tables are sets of page numbers; the kernel's choice of the address is arbitrary"
  },
  {
   "property": "C129",
   "status": "proved",
   "theorems": [
    "C129_unmap",
    "C129_only"
   ],
   "note": "as C128 for the address space"
  },
  {
   "property": "C130",
   "status": "partial",
   "theorems": [
    "C130_parse_partial",
    "C130_first_argument_partial",
    "C130_getopt",
    "C130_setopt",
    "C130_option_b_refuted",
    "C130_unknown_accepted_refuted",
    "C130_capital_refuted",
    "C130_first_argument_refuted"
   ],
   "note": "sets of options without b, arguments with small letters, options in front of the regular arguments; refuted: the loop variable of the macro is called b and hides the option b, capital letters shift by a negative count, and \"prog file -a\" reports 3 as first regular argument"
  },
  {
   "property": "C131",
   "status": "partial",
   "theorems": [
    "C131_total",
    "C131_names",
    "C131_distinct",
    "C131_small_version_partial",
    "C131_small_version_refuted"
   ],
   "note": "the two text versions agree except for number 0 (refuted: the first character is missing). The tables are copied by a script from the headers"
  },
  {
   "property": "C132",
   "status": "partial",
   "theorems": [
    "C132_restore",
    "C132_restore_later",
    "C132_fields_partial",
    "C132_fields_refuted",
    "C132_set_refuted"
   ],
   "note": "saving and restoring; of the fields only the lower half of c_iflag; refuted: the fields hold other settings (TCGETA and TCSETA work on struct termio with 16 bit flags). The kernel's TCGETA and TCSETA are part of the model (drivers/tty/tty_ioctl.c), output delays and the baud rate bits are not interpreted"
  },
  {
   "property": "C133",
   "status": "partial",
   "theorems": [
    "C133_makeraw",
    "C133_sequence_refuted",
    "C133_sequence_partial"
   ],
   "note": "cfmakeraw itself in full; the sequence only for the input flags; refuted: for every terminal the sequence leaves local and output flags as they are and changes the line discipline (see C132)"
  },
  {
   "property": "C134",
   "status": "proved",
   "theorems": [
    "C134_isatty",
    "C134_pgrp"
   ],
   "note": "the ioctls are functions of a table of terminals; a failing ioctl returns any negative error"
  },
  {
   "property": "C135",
   "status": "partial",
   "theorems": [
    "C135_ptsname_r_partial",
    "C135_error",
    "C135_ptsname",
    "C135_overflow_refuted",
    "C135_null_refuted"
   ],
   "note": "ptsname in full; ptsname_r if the buffer holds the whole name; refuted: ptsname_r with a shorter len writes behind the buffer before it returns ERANGE, and with a null pointer it writes to address 0"
  },
  {
   "property": "C136",
   "status": "partial",
   "theorems": [
    "C136_fprintf_partial",
    "C136_dprintf_partial",
    "C136_dprintf_error_refuted"
   ],
   "note": "formats of C49; refuted: dprintf returns the length of the text also if the write fails"
  },
  {
   "property": "C137",
   "status": "partial",
   "theorems": [
    "C137_sprintf_partial",
    "C137_long_refuted"
   ],
   "note": "texts shorter than the compile time mini_buf; refuted: sprintf is limited to mini_buf bytes and a longer text crashes"
  },
  {
   "property": "C138",
   "status": "partial",
   "theorems": [
    "C138_vsprintf_partial",
    "C138_va_list_refuted"
   ],
   "note": "arguments passed directly instead of by a va_list; refuted: vsprintf and vfprintf are macros which hand the va_list on as the first argument, so that the pointer itself is formatted"
  },
  {
   "property": "C139",
   "status": "partial",
   "theorems": [
    "C139_getgroups_partial",
    "C139_unknown",
    "C139_process_refuted",
    "C139_count_refuted"
   ],
   "note": "the groups of the databases for the user id of the process; refuted: the kernel is never asked for the groups of the process, and getgroups(0, ...) returns -1"
  },
  {
   "property": "C140",
   "status": "partial",
   "theorems": [
    "C140_initgroups_partial",
    "C140_refused",
    "C140_unprivileged",
    "C140_group_refuted"
   ],
   "note": "the groups of the database; refuted: the argument group is ignored, and the group id of the process changes"
  },
  {
   "property": "C141",
   "status": "partial",
   "theorems": [
    "C141_fdopen_partial",
    "C141_fdopen_result_partial",
    "C141_freopen_partial",
    "C141_null_refuted",
    "C141_failed_refuted"
   ],
   "note": "fdopen in histories of C45 (see there for the order in which streams are closed) and freopen with a name; refuted: freopen(NULL, mode, f) makes f standard input, and after a failing freopen the stream holds an error number, so that fclose closes another descriptor"
  },
  {
   "property": "C142",
   "status": "proved",
   "theorems": [
    "C142_directories"
   ],
   "note": "malloc and open are any functions which return an unused address or descriptor, or fail"
  },
  {
   "property": "C143",
   "status": "partial",
   "theorems": [
    "C143_strip_partial",
    "C143_long_refuted",
    "C143_zero_refuted"
   ],
   "note": "texts whose lines have at most 1023 bytes with the newline; refuted: every text with a longer line makes fgets store behind the buffer (the warning for long lines is never reached before), and a 0 byte at the start of a line ends the output"
  },
  {
   "property": "C144",
   "status": "partial",
   "theorems": [
    "C144_arithmetic_partial",
    "C144_compare",
    "C144_set",
    "C144_overflow_refuted"
   ],
   "note": "in full if signed overflow wraps; with ISO C rules the seconds alone must stay in range; refuted otherwise: a representable result can overflow before the carry"
  },
  {
   "property": "C145",
   "status": "partial",
   "theorems": [
    "C145_fraction",
    "C145_dtodec_partial",
    "C145_carry_refuted",
    "C145_bounds",
    "C145_cut_refuted",
    "C145_zeros_refuted"
   ],
   "note": "numbers from -0.999999999 to -0.1 with IEEE arithmetic by Coq's SpecFloat; the billionths are exact up to the rounding for all numbers; bounds for all numbers. Refuted: the double in front of -1 gives -0.1000000000; for every other number the 0 byte behind the integer part cuts off the fraction, 0 is printed with a minus sign, and zeros in front of the fraction are blanks"
  },
  {
   "property": "C146",
   "status": "partial",
   "theorems": [
    "C146_push",
    "C146_iterate",
    "C146_nomem_refuted",
    "C146_first_refuted"
   ],
   "note": "in full but for newarray without memory (refuted: the failing mmap is not noticed) and first() of an empty array (refuted: not 0). The struct is a record beside the memory"
  },
  {
   "property": "C147",
   "status": "partial",
   "theorems": [
    "C147_newlist_partial",
    "C147_append_refuted"
   ],
   "note": "a new list is empty; refuted: every _append sets the list pointer to the number len + 16 and crashes there"
  },
  {
   "property": "C148",
   "status": "partial",
   "theorems": [
    "C148_sysinfo_partial",
    "C148_missing_refuted",
    "C148_wide_refuted"
   ],
   "note": "32 bit layout with the entry present; refuted: without it the scan does not stop at AT_NULL, and with 64 bit entries of 16 bytes it takes values for types"
  },
  {
   "property": "C149",
   "status": "partial",
   "theorems": [
    "C149_arguments_partial",
    "C149_usual",
    "C149_narrowed_refuted",
    "C149_unlisted_refuted",
    "C149_short_refuted",
    "C149_mremap_refuted",
    "C149_mmap_usual",
    "C149_mmap_refuted"
   ],
   "note": "all wrappers but 58; with a compiler that keeps register variables all but four, for arguments 0..INT_MAX; refuted: lseek, ftruncate, read, write, mprotect cut an argument to 32 bits, syscall5_ret and syscall6_ret leave r10 (and r9) out of the operands, clone, sys_add_key, sys_io_getevents lack the last argument, mremap calls select, mmap maps descriptor 0 for -1. Not modelled: the meaning of the arguments (only position and width), 32 bit and OSX variants, epoll.h (does not compile)"
  },
  {
   "property": "C150",
   "status": "partial",
   "theorems": [
    "C150_network_partial",
    "C150_host_partial",
    "C150_order_refuted"
   ],
   "note": "proved for __BYTE_ORDER = 1234; refuted as it stands: no header defines __BYTE_ORDER, so the big endian branch is compiled and htobe32 changes nothing while htole32 swaps"
  },
  {
   "property": "C151",
   "status": "partial",
   "theorems": [
    "C151_setjmp",
    "C151_value_partial",
    "C151_value_refuted"
   ],
   "note": "proved for the registers and memory; the value: refuted for val = 0 when the upper half of rsi is not clear (longjmp tests all 64 bits). Not modelled: floating point control words"
  },
  {
   "property": "C152",
   "status": "partial",
   "theorems": [
    "C152_start",
    "C152_alignment_refuted"
   ],
   "note": "vectors and exit proved (variant without mini_globals); refuted: the stack is misaligned by 8 in main"
  },
  {
   "property": "C153",
   "status": "partial",
   "theorems": [
    "C153_lines_partial",
    "C153_before_refuted"
   ],
   "note": "proved for every text within the limits of the arrays if the byte in front of filebuf can be read; refuted without: for an empty first line buf[-1] is read. A line is shown up to a zero byte. Not modelled: the sprintf into the unused array sout (line 138), reading the file"
  },
  {
   "property": "C154",
   "status": "partial",
   "theorems": [
    "C154_comments_partial",
    "C154_trailing_refuted",
    "C154_code_refuted",
    "C154_utf8_refuted",
    "C154_string_refuted"
   ],
   "note": "proved for ASCII text whose comments (of both kinds, also over many lines) stand on lines of their own and whose other lines have no '/' and no '\"'; refuted: a comment behind code stays, code behind a comment at the start of a line is lost, bytes above 127 at a line end are lost, the string \"\\\\\\\\\" is taken as not closed"
  },
  {
   "property": "C155",
   "status": "partial",
   "theorems": [
    "C155_match_partial",
    "C155_behind_end_refuted",
    "C155_star_end_refuted",
    "C155_bracket_refuted",
    "C155_count_end_refuted",
    "C155_plus_end_refuted",
    "C155_not_class_refuted",
    "C155_word_refuted"
   ],
   "note": "proved for the patterns of [supported] and [start_ok] without a '&' callback; refuted: what stands behind # at the end of the text is ignored, *# does not match at the end of the text, (a), {3a} and + do not match at the end of the text, ![a]b matches every character but a at once, \\w does not match bytes above 159"
  },
  {
   "property": "C156",
   "status": "partial",
   "theorems": [
    "C156_report_partial",
    "C156_number_refuted",
    "C156_no_match_refuted"
   ],
   "note": "as C155, and no unnumbered % behind a numbered &; refuted: that % gets the number of the &; %# reports a match although the function returns no match"
  },
  {
   "property": "C157",
   "status": "partial",
   "theorems": [
    "C157_safe_partial",
    "C157_message_refuted",
    "C157_endless_refuted",
    "C157_callback_refuted"
   ],
   "note": "patterns without {, callbacks that stay inside the text; silent for patterns without ( } # $ that do not end in a wildcard; refuted: * writes a message, {*} does not end in 2^31 rounds, & with a callback that returns RE_MATCH reads behind the end. The messages are counted, their contents are not modelled"
  },
  {
   "property": "C158",
   "status": "proved",
   "theorems": [
    "C158_tests",
    "C158_dt",
    "C158_mkfifo",
    "C158_permissions"
   ],
   "note": ""
  },
  {
   "property": "C159",
   "status": "partial",
   "theorems": [
    "C159_encode",
    "C159_distinct",
    "C159_literals",
    "C159_size_refuted"
   ],
   "note": "proved for sizes below 16384; refuted: a larger size is not refused, it changes the direction"
  },
  {
   "property": "C160",
   "status": "partial",
   "theorems": [
    "C160_error_partial",
    "C160_err_partial",
    "C160_errno_refuted"
   ],
   "note": "proved if every write takes all bytes and leaves errno alone, for the formats of C136; refuted: err reads errno after it has written the text, so that it reports the error of that write if there was one. Not modelled: the verbose texts of strerror (see C131)"
  },
  {
   "property": "C161",
   "status": "proved",
   "theorems": [
    "C161_flags",
    "C161_creat"
   ],
   "note": ""
  },
  {
   "property": "C162",
   "status": "proved",
   "theorems": [
    "C162_read",
    "C162_size",
    "C162_write",
    "C162_control"
   ],
   "note": "scalars, arrays, unions, packed structures and bit fields, laid out as the System V ABI says; arrays are read as one number. The tables of the kernel are written down in AbiSpec. c_cc of struct termios is longer than in the kernel, its first 19 bytes are the kernel's"
  },
  {
   "property": "C163",
   "status": "proved",
   "theorems": [
    "C163_names",
    "C163_only"
   ],
   "note": "the aliases SIGIOT, SIGPOLL, SIGUNUSED are left out; sys_signame[32] is UNUSED"
  },
  {
   "property": "C164",
   "status": "partial",
   "theorems": [
    "C164_elf64_partial",
    "C164_elf32_partial",
    "C164_dynamic",
    "C164_other",
    "C164_small_refuted",
    "C164_disk_refuted",
    "C164_short_refuted",
    "C164_read32_refuted"
   ],
   "note": "proved if no kernel call fails, for names of at most 1014 bytes, segments that lie inside the file and reach beyond the ELF header, program headers below 2^31; refuted: a segment that ends within the header makes it copy the whole file and exit with 2; a full disk leaves an incomplete copy with status 0; for 32 bit files a segment that is not complete in the file gives a short copy with status 0, and a failing read of a program header goes unnoticed (uninitialised memory is used)"
  },
  {
   "property": "C165",
   "status": "partial",
   "theorems": [
    "C165_group_partial",
    "C165_passwd_partial",
    "C165_leak_refuted",
    "C165_twice_refuted",
    "C165_fd_refuted"
   ],
   "note": "proved for files of at most 2048 bytes (one page for two times the size) and a first call of the end functions; refuted: endpwent unmaps the size of the file, userdb_open maps two times that; a second endgrent unmaps from address 0 on; descriptor 0 is taken for an error and stays open"
  },
  {
   "property": "C166",
   "status": "partial",
   "theorems": [
    "C166_sets_partial",
    "C166_unchanged",
    "C166_nested_partial",
    "C166_fill_refuted"
   ],
   "note": "proved for sets that are built with sigemptyset, sigaddset and sigdelset from the signals 1..30 (see C54); the kernel's rt_sigprocmask is modelled from its manual page; refuted for sigfillset: its set has 1..31 only, 32..64 stay unblocked"
  },
  {
   "property": "C167",
   "status": "partial",
   "theorems": [
    "C167_history_partial",
    "C167_getbrk",
    "C167_refused_refuted"
   ],
   "note": "proved for breaks that can be given, and for all sequences that getbrk tells the break of the kernel; refuted: the kernel answers a refusal with the old break, brk returns 0 and sbrk the old break as if they had succeeded. The kernel's rounding to pages is not modelled"
  },
  {
   "property": "C168",
   "status": "proved",
   "theorems": [
    "C168_wait_all",
    "C168_waitpid",
    "C168_nohang",
    "C168_no_child"
   ],
   "note": "the kernel's wait4 is modelled from its manual page without stopped children and rusage"
  },
  {
   "property": "C169",
   "status": "partial",
   "theorems": [
    "C169_killpg_partial",
    "C169_raise",
    "C169_one_refuted",
    "C169_negative_refuted"
   ],
   "note": "proved for groups above 1 and for 0; refuted: killpg(1) goes to all processes, killpg(-n) to the process n. Permissions are not modelled"
  },
  {
   "property": "C170",
   "status": "proved",
   "theorems": [
    "C170_structures",
    "C170_symbols",
    "C170_relocations",
    "C170_moves",
    "C170_parts",
    "C170_visibility"
   ],
   "note": "versions of the structures for the two classes that have the same text (Verdef, Verdaux, Verneed, Vernaux, Nhdr) are one definition; Move, Lib, Syminfo and the MIPS structures are not modelled. The macros take arguments of the types of the fields"
  },
  {
   "property": "C171",
   "status": "proved",
   "theorems": [
    "C171_structures"
   ],
   "note": "the layout algorithm and the reading of memory of C162"
  },
  {
   "property": "C172",
   "status": "partial",
   "theorems": [
    "C172_strip_partial",
    "C172_kept",
    "C172_else_refuted",
    "C172_condition_refuted",
    "C172_unclosed_refuted"
   ],
   "note": "the output is characterised for every input (it ends exactly if every block is closed); refuted: the #else part of a disabled block is removed too, conditions that only begin with 0 (0x40, 0||1) count as #if 0, and a missing #endif makes the script run for ever"
  },
  {
   "property": "C173",
   "status": "proved",
   "theorems": [
    "C173_ifdefs"
   ],
   "note": "sources are trees of lines; numbers are printed in decimal by Perl (not modelled)"
  },
  {
   "property": "C174",
   "status": "proved",
   "theorems": [
    "C174_mpush",
    "C174_mpushrev"
   ],
   "note": "on the machine of C152 (words of 8 bytes, aligned)"
  },
  {
   "property": "C175",
   "status": "partial",
   "theorems": [
    "C175_section_partial",
    "C175_sections_partial",
    "C175_again",
    "C175_unchanged",
    "C175_end_refuted",
    "C175_second_refuted",
    "C175_status_refuted"
   ],
   "note": "proved for any number of sections (the first gets the input, the others are emptied), praefixes without characters that are special in a regular expression; refuted: a missing end mark deletes the rest of the file with status 0 ($1 keeps the name of the start mark), a second section is emptied, a wrong end mark gives status 0"
  },
  {
   "property": "C176",
   "status": "partial",
   "theorems": [
    "C176_combine_partial",
    "C176_place_partial",
    "C176_lost_refuted",
    "C176_twice_refuted",
    "C176_name_refuted"
   ],
   "note": "proved: it ends, every name that is reached is read once and its text is there once, in its order, in the place of the first #include; files with the names of the list in line 49 may be left out; refuted: files like exit.h or b.h included by a header are lost, a file with two names is there twice, quotes in a comment change the name"
  },
  {
   "property": "C177",
   "status": "partial",
   "theorems": [
    "C177_grantpt_partial",
    "C177_error",
    "C177_pair",
    "C177_mode_refuted"
   ],
   "note": "the kernel's side (pts, ptmx, chmod, fstat) is part of the model; proved: the owner can read and write, the group can write, the lock, other terminals and descriptors; refuted: nobody else - grantpt adds the rights of /dev/ptmx (0666) to those of the slave"
  },
  {
   "property": "C178",
   "status": "partial",
   "theorems": [
    "C178_tos",
    "C178_points",
    "C178_options",
    "C178_length",
    "C178_ethermin",
    "C178_flags",
    "C178_local",
    "C178_class_refuted",
    "C178_class_partial"
   ],
   "note": "refuted: RT_ADDRCLASS shifts by 23 instead of 27, so that four bits of other flags are in its result; the rest is proved"
  },
  {
   "property": "C179",
   "status": "proved",
   "theorems": [
    "C179_limits"
   ],
   "note": "the conversion to a type of n bits is the remainder as gcc defines it; the least and fast types are other names of these and not modelled"
  },
  {
   "property": "C180",
   "status": "partial",
   "theorems": [
    "C180_only",
    "C180_all_partial",
    "C180_all_refuted"
   ],
   "note": "proved for every set without opendir, closedir, getgrouplist, getgroups and group_print; refuted for each of these five. The table is copied from minilib.h by a script; the switches that minilib_global.h, dirent.h and other headers define later are not modelled"
  },
  {
   "property": "C181",
   "status": "partial",
   "theorems": [
    "C181_two_partial",
    "C181_forward",
    "C181_order_refuted"
   ],
   "note": "proved: what is needed through at most two dependencies, for every order; everything, for orders in which no block stands behind one it needs; refuted: a chain of three in reverse order. The parsing of the tags is not modelled"
  },
  {
   "property": "C182",
   "status": "partial",
   "theorems": [
    "C182_patterns",
    "C182_placed_partial",
    "C182_bloating_partial",
    "C182_bloating_refuted",
    "C182_lost_refuted"
   ],
   "note": "ld's selection and placement of sections is part of the model; proved for the standard sections and all scripts (bloating without .data); refuted: .data with bloating, sections named .rel* with all scripts, all other names (.init_array) with onlytext. KEEP, sorting and --gc-sections are not modelled"
  },
  {
   "property": "C183",
   "status": "partial",
   "theorems": [
    "C183_constant_partial",
    "C183_page_refuted",
    "C183_scripts_refuted",
    "C183_variables_refuted",
    "C183_stack_partial",
    "C183_stack_refuted"
   ],
   "note": "the kernel's mapping of segments by pages is part of the model; proved: code and constants with default and default_execstack in pages without variables, the stack with default, text_and_bss and onlytext; refuted: constants in the page the variables begin in, constants with text_and_bss, code with exec, variables with every script, the stack with the other scripts"
  },
  {
   "property": "C184",
   "status": "partial",
   "theorems": [
    "C184_lines_partial",
    "C184_size_refuted",
    "C184_nul_refuted",
    "C184_blocks",
    "C184_chars_partial",
    "C184_chars_refuted"
   ],
   "note": "proved: fread/fwrite for every file and size (C184_blocks); fgets/fputs for texts without NUL bytes and a buffer of size+1 bytes; fgetc/fputc for texts without NUL bytes if the program stops at 0; refuted: fgets/fputs with a buffer of size bytes, files with NUL bytes, fgetc until EOF, which never ends"
  },
  {
   "property": "C185",
   "status": "proved",
   "theorems": [
    "C185_sort",
    "C185_search",
    "C185_dictionary"
   ],
   "note": "strings of at most INT_MAX bytes and arrays of less than LONG_MAX/16 elements; the comparison is the user's one line function, which reads the strings in the memory before the call (qsort changes only the array)"
  },
  {
   "property": "C186",
   "status": "partial",
   "theorems": [
    "C186_list_partial",
    "C186_size_refuted"
   ],
   "note": "proved for buffers with 14 bytes more than the longest text, for all lists; where signed overflow is undefined INT_MIN is left out; refuted: a buffer that is just long enough stops the process (C49)"
  },
  {
   "property": "C187",
   "status": "partial",
   "theorems": [
    "C187_number_partial",
    "C187_prefix_refuted"
   ],
   "note": "proved if malloc returns one byte more than setenv asks for and no name is the beginning of another, for buffers as in C49; refuted: a name that begins another one replaces that variable"
  },
  {
   "property": "C188",
   "status": "partial",
   "theorems": [
    "C188_numbers",
    "C188_end_refuted",
    "C188_separators_refuted",
    "C188_zero_refuted"
   ],
   "note": "the numbers and what is left behind them, for any separators (C188_numbers); refuted: the end of the file can't be told from a number 0, two separators in a row give a number 0, and what fprintf writes for %u of 0 is read as two numbers"
  },
  {
   "property": "C189",
   "status": "partial",
   "theorems": [
    "C189_compile",
    "C189_selected",
    "C189_needed_partial",
    "C189_known",
    "C189_own_refuted",
    "C189_define_refuted"
   ],
   "note": "exactly the switches asked for, by induction over the configuration; everything needed is selected except for the five switches of C180; refuted: longjmp defines the switch of setjmp only, and DEFINE makes a string constant of its argument"
  },
  {
   "property": "C190",
   "status": "partial",
   "theorems": [
    "C190_optimize",
    "C190_debug_partial",
    "C190_strip_refuted",
    "C190_shrink_refuted"
   ],
   "note": "the optimization in all cases; DEBUG with -Og -g and no shrinkelf unless asked for; refuted: the default -s is added after DEBUG has cleared STRIPFLAG, so the symbols are always stripped, and SHRINKELF behind DEBUG takes effect"
  },
  {
   "property": "C191",
   "status": "partial",
   "theorems": [
    "C191_both_partial",
    "C191_move_partial",
    "C191_shrink_partial",
    "C191_overrun_refuted",
    "C191_crash_refuted"
   ],
   "note": "proved for realloc of the last block of the segment, for other blocks that shrink by 3 bytes or more, and for those that grow to two times their size (plus 16) with as many bytes behind them in the segment and room in the buffer; refuted: a block that grows by less overwrites live blocks of the buffer (the loop takes a size in bytes for one in ints and copies two times too much), without room the copy goes to address 0, and near the break it reads behind it"
  }
 ]
}