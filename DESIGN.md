# Formal model of minilib in Coq 8.16.1

## 1. Approach

`/repo` (michael105/minilib) is read as text. Every function that is modelled is
transcribed to a total, computable Gallina function that follows the C statement
by statement. Each definition carries a comment with the file and lines it models
and says where it simplifies.

* **Outcomes.** `res A := Ok a | Fault | NoFuel` (`Base.v`). `Fault` is undefined
  behaviour: an access to an inaccessible byte, a signed overflow, a shift out of
  range. `NoFuel` means that the loop budget of the model ran out. Theorems assert
  `Ok`, so they exclude both.
* **Memory.** `mem := Z -> option Z`: `None` is an inaccessible byte, `Some b` a
  byte 0..255. A theorem that holds for every `mem` holds in particular for the
  memory in which nothing but the stated regions is accessible, hence it shows the
  absence of over-reads and over-writes. Frames are stated pointwise.
* **Machine.** x86-64 Linux, gcc: `char` signed, `int` 32 bit, `long` and pointers
  64 bit, `size_t` is `long` (`include/globaldefs.h:22`). Little endian.
* **Loops** are structural recursion or recursion on fuel. Where fuel is used, the
  theorem quantifies over all fuel above a stated bound.
* **Environment** (kernel, directory contents, clock, callbacks) are ordinary
  function arguments of the model.
* **Layout.** `*Model.v` transcription, `*Spec.v` small independent specification,
  `*Proofs.v` lemmas, `*Props.v` theorems only, each closed by `exact` and followed
  by `Print Assumptions`.
* Where the code violates a property there is a theorem `..._refuted` with a
  concrete witness, and a theorem `..._partial` under the weakest guard found.

## 2. Properties

Per property: how it is modelled and proved, and where it stands. "partial" means
that the full statement is false of the code or not completely proved; the note
says what is missing.

| id | property | model and proof | status | note |
|---|---|---|---|---|
| C01 | strlen/strnlen measure a string exactly and read nothing after it | memory model; loop invariants on the scan | proved | full property; strings shorter than INT_MAX |
| C02 | strcpy/stpcpy copy exactly the string and its terminator | memory model; induction on the source string; frame stated pointwise | proved | full property |
| C03 | strcat/strncat append | as C02 | proved | full property |
| C04 | strlcpy never writes outside dest[0..n-1] and always terminates | as C02 | proved | full property |
| C05 | strncpy/stpncpy fill exactly n bytes | as C02; the one byte over-read of strncpy is a refutation | partial | result and frame proved when src is readable one byte further; the property as stated is false (C05_refuted): strncpy and stpncpy read src[n] before testing the bound |
| C06 | strcmp/strncmp implement the lexicographic order on unsigned bytes | induction on the common prefix; laws from the list order | proved | full property for strings up to INT_MAX bytes and n <= INT_MAX |
| C07 | strcasecmp/strncasecmp compare ignoring ASCII case | refuted in general (bit 5 folding, unequal lengths); positive part under a letters-only guard | partial | false as stated (bit-5 folding identifies [ and {; not antisymmetric for unequal lengths; strncasecmp fails when n truncates); proved for letters, digits and most punctuation |
| C08 | strchr/strchrnul/strrchr find the first/last occurrence | induction; c>=128 and strrchr(s,0) refuted | partial | false for c>=128 (plain char is signed) and for strrchr(s,0); proved for the other characters |
| C09 | strstr finds the first occurrence of a substring | induction with inner match loop; empty haystack refuted | partial | false for an empty big (reads behind its terminator); proved for every non-empty big |
| C10 | strcspn returns the length of the initial segment free of reject characters | induction, both variants | proved | full property, both builds, strings up to INT_MAX bytes |
| C11 | strspn returns the length of the initial segment of accepted characters | refuted | partial | false as stated: after the first accepted byte the first accept character is skipped; upper bound and a sufficient condition proved |
| C12 | strpbrk finds the first byte belonging to a set | refuted | partial | false as stated: the pointer is passed where the character is meant, every non-empty s is returned unchanged |
| C13 | strtok_r yields exactly the maximal delimiter-free fields, in order | refinement to a list splitting function over the whole call sequence | proved | full property over the whole call sequence |
| C14 | memcpy/memset write exactly n bytes | loop invariants, both variants | proved | full property, both builds, n <= INT_MAX |
| C15 | memmove is correct for overlapping regions | refuted for overlap with dest above src; otherwise proved | partial | false when dest starts inside src (forward copy only); proved in every other placement |
| C16 | memcmp returns 0 exactly on equal regions | induction | proved | full property |
| C17 | memcmp orders by unsigned bytes | refuted; proved for bytes below 128 | partial | false for bytes >= 128 (signed char comparison) and n = 0 (returns -1); proved for bytes below 128, n >= 1 |
| C18 | memchr finds the first occurrence within n bytes | induction | proved | full property |
| C19 | strdup/strndup return a faithful copy in their own block | malloc as an oracle returning a block of exactly the requested size; refuted | partial | false as stated (strdup requests strlen bytes, truncating strndup overruns by one); proved when the block has the missing byte / when n >= strlen(s) |
| C20 | malloc/free: live blocks are disjoint, inside the buffer, and keep their contents | word level allocator model, block-list invariant, induction over histories | proved | full property for buffer sizes that are a multiple of 4 and below 2^30 |
| C21 | freeing everything gives the whole buffer back | same invariant | proved | full property, same conditions as C20 |
| C22 | malloc fails exactly when the space is short, and then changes nothing | same model | proved | full property, same conditions as C20 |
| C23 | realloc preserves the common prefix | same model; refuted, partial | partial | false as stated: growing keeps only about half of the bytes, shrinking to between a quarter and a half overwrites other live blocks, failure frees p or writes through NULL; proved for growing, shrinking to at least half or at most a quarter, first 8 bytes and half of the block |
| C24 | calloc returns zeroed memory | refuted, partial | partial | false for nmemb > 1: only the first size bytes are zeroed; that much is proved for both builds |
| C25 | atoi reads every decimal int | digit loop from the right; split into leading zeros, tenth digit, last nine; value of digit lists as spec | proved | full property with wrapping arithmetic; with undefined overflow for spellings up to 13 characters other than INT_MIN |
| C26 | atol reads every decimal long | loop invariant modulo 2^64; refuted by literals | partial | false for leading blanks and '+' (not skipped); proved for optional '-', digits, any following text |
| C27 | itodec/uitodec print the canonical decimal numeral | unrolled digit loop = emission of a digit list; canonical numeral spec | proved | full property (INT_MIN with wrapping negation) |
| C28 | ultodec/ltodec print the canonical decimal numeral | digit loop by induction on the position; 0 refuted | partial | false for 0 (prints nothing); proved for every other value, and with width 1..20 for 0 too |
| C29 | decimal printing and reading are inverse | composition of the writing and the reading theorems | proved | full property, 0 included (INT_MIN, LONG_MIN with wrapping negation) |
| C30 | hex output is the hexadecimal numeral and reads back | nibble extraction by bit reasoning, emission of a digit list, composition with strtol | proved | full property |
| C31 | strtol converts in the requested base and stops at the first non-digit | loop by induction over the digits, front part (blanks, sign, prefix) separately; refuted by witnesses | partial | false as stated: the digit of value base is accepted and an overflow that wraps to a non-negative value goes unnoticed; proved otherwise, base 0 included; saturation proved when the first excess is below 2^64 |
| C32 | binary and octal output | bit loop by induction with blanks filtered out; octal digit loop by induction with the array contents before as a parameter | partial | false as stated (grouping counts skipped zeros, itobin(0) prints a blank, itooct writes an uninitialised byte and loops on INT_MIN); the digits are proved right |
| C33 | integer power by squaring | recursion on binary exponents; s32 is a ring morphism; a ghost counter counts multiplications | partial | full property with wrapping int products; with undefined overflow whenever x^n is an int, and refuted otherwise (2^31 is undefined) |
| C34 | string hashes are the textbook folds and compose | loops over memory, induction on the string, equal to a fold | proved | full property |
| C35 | block checksums do not depend on how the data is cut into blocks | fold composition over a list of blocks, 16-bit invariant | proved | full property for bsd_cksumblock; djb_cksum has no block interface |
| C36 | rand stays within 0..RAND_MAX and is reproducible from the seed | state as an int with arithmetic right shift; witness seed 4227866623 | partial | the range is false (values up to 2^32-1); reproducibility and the unsigned range are proved |
| C37 | htonl/htons reverse the byte order and are involutions | byte lists; xor algebra | proved | full property |
| C38 | inet_ntoa prints dotted decimal inside its static buffer | writes followed byte by byte; the text of one byte checked for all 256 values | proved | full property |
| C39 | inet_aton inverts inet_ntoa | component-wise parser; composition with C38 | partial | inversion proved, also for every four-number and shorter spelling; rejection of malformed strings is false (1 is always returned) |
| C40 | ether_ntoa prints the six bytes in hex | loop invariant on the buffer; witness 12:00:.. | partial | false: the two hex digits of each byte are exchanged; the exact output is proved |
| C41 | qsort sorts | memory model with the comparison as function of element bytes; every pass permutes, the last pass (gap 1) is insertion sort | partial | proved for widths up to INT_MAX and arrays below 2^62 bytes; false for wider elements (swap takes the width as int) |
| C42 | bsearch finds a key iff it is present | interval invariant | proved | full property |
| C43 | getenv returns the value of the first matching variable | environ as an array of slots, entries in byte memory; comparison loop by induction on the name | partial | proved for all names without '='; false for an argument that equals a whole entry (both strings are read past their ends) |
| C44 | putenv/setenv/unsetenv behave like updates of a name-value map | refinement: list of variables as abstract state, invariant over histories, memory only extended by fresh blocks | partial | every history of putenv/setenv/unsetenv refines a map when no name is a proper prefix of another and malloc returns one byte more than setenv asks for; false otherwise, for each of the three functions |
| C45 | open streams keep distinct slots | inductive histories, invariant: a positive word in the table belongs to an open stream, and open streams lie below pstream | partial | proved for histories that close a stream only when nothing is open above it or its upper neighbour is open, and at most twelve fopen for freedom from out-of-bounds accesses; refuted for other close orders and for the full table |
| C46 | fgets/fgetsn/fgetsp never write past the given size | stream content as a list (pushed back character, then input), loop induction on the fuel | partial | fgetsp proved; fgets/fgetsn proved exactly, but they store up to size bytes plus NUL: refuted for every size; concatenation proved; input with NUL bytes is outside |
| C47 | ungetc pushes back exactly the character | bit lemmas for the top byte of the FILE word | partial | proved for characters 1..127; refuted for 0 and for 128..255 |
| C48 | snprintf never writes outside its buffer | the format as a list of items; bounds of each number conversion, induction on modifiers and items | partial | proved for conversions % u d x X s c o b f with modifiers, except %s with a width, %'d without l, %o of INT_MIN, %b of numbers above 32767, %f of numbers out of the range of int, %b and %f with more than one digit of width, and (; refuted for %5s, %'d, %b of -1, %30f, %o and %f out of range, sixteen digits behind %( and a format ending in % |
| C49 | snprintf formats literals, %s, %c, %d, %u, %x, %X as specified | inductive relation format/arguments/output; uniqueness of numerals, induction on the items | partial | proved for every size from 1 on and %u of values other than 0: the output appears exactly when the size leaves the reserve each conversion asks for (13 bytes in front of %d and %u, 8 in front of %x and %X) and the output fits, else the process is stopped with nothing written behind the place of the output; always when size is at least 14 more than the output; refuted for %u of 0 and for results that just fit |
| C50 | match decides glob patterns | induction on the fuel against an inductive matching relation; greedy/nongreedy choice is immaterial | partial | proved for all glob patterns not ending in **; refuted for a** |
| C51 | passwd/group lines are parsed into their fields | byte-wise invariant: mapped file equals the original up to separators replaced by NUL; induction on the history | partial | token_s proved for all fields; token_i for numbers up to INT_MAX (refuted beyond); lookup histories proved for databases with unique names and uids, without endpwent, and without getpwnam between opening and the first entry found; refuted for each of these |
| C52 | dirname/basename split a path | a unique splitting of every path into directory, slashes, last component, slashes; loop lemmas for each piece | partial | dirname proved for all paths; basename proved unless the path is one component with trailing slashes or has more than two trailing slashes, and refuted for every such path |
| C53 | atexit handlers run in reverse order, each exactly once | table of words with uninitialised slots, general capacity; state invariant over the list of registered functions | partial | order proved while a slot is free, capacity and rejection in full; false for a full table (the scan at exit reads behind the array) |
| C54 | signal sets are sets | bit lemmas; induction over operation histories against a mathematical set | partial | proved for signals 1..30; false for 31..64, which are refused (_NSIG is 32 and the test is off by one) |
| C55 | fd_set macros are sets | array of words, bit lemmas, induction over histories | proved | full property |
| C56 | character classification agrees with ASCII | unsigned arithmetic by lia; /32 by case split at 128 and a checked table below | partial | all classes but ispunct proved, for every int; ispunct, and tolower/toupper outside the letters, are false |
| C57 | div/ldiv satisfy the division identity | truncated division facts, range checks on every intermediate | proved | full property |
| C58 | ALIGN macros round up | Euclidean division by 2^k, 64-bit wrap | proved | full property, every alignment 2^k |
| C59 | usleep sleeps the exact number of microseconds | division identities; nanosleep is an argument | proved | full property, and sleep |
| C60 | where returns the first PATH entry that is executable | induction on the list of directories | partial | proved for PATH values without empty entries; refuted for an empty entry and an empty PATH |
| C61 | getopt parses a command line as POSIX specifies | refinement of the whole call sequence to a recursive parser of argument lists; induction on the arguments and on the characters of a cluster | proved | command lines shorter than INT_MAX arguments and bytes, options alphanumeric |
| C62 | shrinkelf regions cover every segment and are disjoint | invariant of the insertion loop: separation and coverage; every size that is stored is the length of a covered run | partial | sorted, disjoint and not adjacent for all accepted headers without 64 bit overflow; the exact cover when no 2^32 bytes in a row are needed (always for files below 4 GiB); refuted for a 4 GiB segment |
| C63 | shrinkelf relocates consistently | the blocks written are those of the input with the headers spliced in; the output is described byte by byte; every segment lies in one region | partial | displacements for all sorted region lists; the whole program (headers read to output file) for every complete ELF64 executable without a needed run of 2^32 bytes; refuted beyond (silent loss of e_phoff) |
| C64 | scandir returns exactly the entries accepted by the filter | invariant: the accepted entries lie compacted at the beginning of the buffer, the rest of the batch behind; qsort from C41 | partial | directories of less than 128 MiB of entries, with room in the data segment; refuted when the break cannot be moved (write behind the segment) |
| C65 | syscall wrappers translate kernel errors | int truncation explicit | partial | proved for results that are errors or fit into an int; false above (the result is truncated to int); open returns -errno instead of -1 |
| C66 | wait status macros decode what the kernel encodes | all statuses enumerated (codes modulo 256, signals 1..64) by computation, lifted to the quantifier | partial | full property with wrapping arithmetic; WIFSTOPPED overflows (undefined) for exit codes >= 128 |
| C67 | free performs no undefined signed arithmetic | invariant of the block list; the gaps of the live blocks are matched with the free neighbours in the block list (AllocProofs3) | partial | false as stated: freeing a block between two freed ones adds two negative ints; C67_exact_partial says exactly which histories overflow |
| C68 | number conversions perform no undefined signed arithmetic | models with overflow = fault; refuted, partial | partial | false for INT_MIN, LONG_MIN and atoi of 14 or more characters; proved otherwise |
| C69 | a width right-aligns the number and never truncates it | emission of a digit list with a pad character | partial | false for 0 (no digit) and width 10 (first fill character is a blank); proved for positive values and widths 0..9 |
| C70 | the checksums are the published ones | fold over signed chars against fold over bytes | partial | false for bytes >= 128 (added as negative chars); proved for bytes below 128 |
| C71 | gethostname stays inside the buffer and terminates | loop invariant on the buffer | proved | full property |
| C72 | errno_str prints the error number | division by 10 | proved | full property |
| C73 | ALIGN_P rounds up to the size of a pointer | witness | partial | false: shift and base are both 8; right for 8 of 256 addresses (exactly those, C73_align_p_partial) |
| C74 | fgetud/fgetul read an unsigned decimal number | induction on the digits, arithmetic modulo 2^n | proved |  |
| C75 | fread delivers whole items and feof/ferror tell why it stopped | induction on the item count | partial | proved for fread, feof and clearerr; ferror refuted; read(2) delivers everything available up to size |
| C76 | fopen modes open with the POSIX flags | the loop over the mode is idempotent | partial | proved for all modes of at most six characters except those that append; refuted for a and a+ and for a + behind the sixth character |
| C77 | match follows its documented pattern language | the loop computes a functional matcher on item lists, which is equivalent to an inductive relation | partial | pattern language proved for patterns and texts without the cases refuted (single character at the end for + and %, *$ and empty text, classes with ], negated classes, \w beyond 160); safety (C77_safe) proved for arbitrary byte strings as pattern |
| C78 | match reports what % matched | minimality of the first successful split | partial | proved for the patterns of C77; refuted for classes: %[a] of x] reports x |
| C79 | group lookups find the group and its members | invariant: the lines before the furthest position have all separators replaced and their member list saved in the table; induction on the history | partial | proved for unique names and gids, fewer than 64 members per group and a file whose pointer table fits into its last page; a group without members gets one empty member name (refuted); refuted for files ending near a page end, for a group of 64 members (which hides all groups behind it) and for two groups with the same gid |
| C80 | getusergroups lists the groups of a user | induction on the remaining groups on top of the C79 invariant | partial | proved for the databases of C79, fewer than max groups; refuted for exactly max |
| C81 | getgrouplist adds the given group once | from C80 | partial | proved for the databases of C79 and one spare entry; refuted for arrays that just fit and (out-of-bounds write) for smaller ones |
| C82 | getopt reports bad options and goes on | as C61; the error states are fixed points | partial | the report of the first error is proved; refuted after an error (the same error is returned forever) and for ':' or a non-alphanumeric character as option |
| C83 | A directory stream is a position in the list of entries | invariant: the unread part of the buffer is the list of entries between the stream position and the kernel position; induction on the history | partial | proved for streams whose tell field was zero at the beginning, or that are rewound first, or without telldir; refuted otherwise (telldir directly after opendir) |
| C84 | The data segment allocator keeps blocks apart and contents intact | invariant on the layout of the segment (headers, sizes, break); induction on the history | partial | blocks below 256 MiB; realloc of the last block only (another block is moved into mini_buf or the brk segment by code that is not modelled here); refuted when the break cannot be moved |
| C85 | Decimal output groups the digits in threes | induction on the number of digits left; the grouped text is a function of the numeral | partial | uitodec and itodec for all values; ultodec and ltodec print one limiter too many in front of numbers with 3, 6, 9, ... digits (refuted), and nothing for 0 |
| C86 | snprintf pads numbers to the width and prints longs | exact value of the width, uniqueness of padded numerals, induction on the items | partial | widths up to 9 (ints), 8 (hex), 20 (%0Nlu); blanks for positive ints only; 28 spare bytes; refuted: a negative number with a width comes out too long with the sign in front of the blanks, and %Nx fills with zeros |
| C87 | QSORT sorts in place | arrays as functions, rearrangements as bijections of indices; invariant: pending segments are disjoint and everything else is in order; segment at depth d has at most n/2^d elements | proved | LESS is a strict weak order without side effects |
| C88 | ks_mergesort is a stable sort | invariant per pass: each block of 2^s elements is a stable sorted permutation of the original block; merge of lists | proved | n <= 2^61; malloc of temp succeeds |
| C89 | ks_heapmake and ks_heapsort | invariant of sifting down with a hole; maximum of a heap is its root | proved | n <= 2^62 |
| C90 | ks_ksmall selects the k-th smallest element | invariant: elements outside of the pending segment are ordered relative to the k-th; counting argument against any sorted rearrangement | proved |  |
| C91 | ks_combsort ends and sorts | measure: sum of index times rank grows with every swap; the insertion sort at the end sorts | proved | the division of doubles is any function within the bounds of KsortSpec.shrinks |
| C92 | ks_introsort sorts within its stack | weights of pending segments decrease; depth of the stack bounded by halving; the insertion sort at the end sorts | proved | malloc of the stack succeeds; as C91 |
| C93 | ks_shuffle can produce every order, each by one sequence of draws | induction on the number of elements, from the last position | proved | (int)(drand48()*i) is an arbitrary number below i |
| C94 | kmalloc: blocks are disjoint, aligned and keep their bytes | invariant: the memory between start and break is a disjoint union of blocks, in use or in one of 30 free chains; induction on the history | proved | requests below 2^30+4089 bytes for kcalloc/krealloc (C98 has what happens beyond), room for the break |
| C95 | kfree twice is harmless | a freed header never has the mark of a block in use, by the invariant of C94 | proved |  |
| C96 | kmalloc reuses freed blocks | the freed block is the head of its chain | proved |  |
| C97 | krealloc in place | arithmetic of size classes | proved |  |
| C98 | kmalloc: requests that cannot be satisfied fail cleanly | witnesses by computation | partial | only that kmalloc of more than the largest block returns NULL; refuted: limit of the break, krealloc that fails, kcalloc that gets NULL, cut products, kmalloc_usable_size |
| C99 | krealloc of a freed block finds its bytes | the block is the head of its chain, so krealloc finds its size; overlapping copies are impossible by the invariant | proved |  |
| C100 | regetopt reports exactly the options of a command line | invariant: argv is the words done, the words left and the operands moved; induction on the words left, inside a cluster on its characters | proved | alphanumeric option characters, 7 bit; messages to stderr and re_opterr not modelled |
| C101 | regetopt moves the operands behind the options | from the invariant of C100 at the last call | partial | proved for lines without operands in front of "--"; refuted for the others: "op -- x" becomes "-- x op" |
| C102 | regetopt reports errors and goes on | as C100; witnesses by computation, endless repetition by induction on the number of calls | partial | the first error is reported as stated, for unknown characters below 128 other than a colon, missing arguments of short options only with a leading colon; refuted: regetopt does not go on behind an error; ':' for a missing argument without leading colon; surplus arguments accepted; -: accepted; NULL as table read |
| C103 | regetopt resolves abbreviated long options | the loop is a left fold that equals the search for the exact name or the only candidate | partial | proved for tables in which no name stands behind two longer names beginning with it, long options without required argument; refuted for other tables |
| C104 | regetopt parses a second command line after re_optind = 1 | C100 from a state with the count already set | partial | proved if the first line has no operands in front of "--" and the second as many words; refuted otherwise: the count of words is never reset |
| C105 | prints and its relatives write their strings in order | induction on the list of strings; write(2) is an arbitrary function that takes all bytes | proved | the 0 that ends the arguments is an int in the macros; taken as a null pointer |
| C106 | puts writes the string and then a newline | composition; witness for the other order | partial | string, newline and result are proved for both orders of evaluation of the +; the order of string and newline only if the left operand is evaluated first; refuted for the other one, which C permits |
| C107 | writes writes the constant | composition; witness | partial | the constant and a 0 byte; refuted: sizeof counts the 0 |
| C108 | fprintfs replaces %s and %c | formats as lists of items; induction with the pending text; every format is such a list or one with % at its end | partial | all formats but those that end with a single % (C108_formats); refuted for these: the 0 is skipped and the memory behind is written |
| C109 | snprintfs stays within its buffer | induction on the items with the remaining room | partial | all formats, in buffers of size+1 bytes, the text without the other % sequences; refuted: a byte behind the buffer is written if the text does not fit (also size 0), other % sequences vanish; the length returned is that of the cut text |
| C110 | fwrite counts complete items | induction on the items left, write(2) may take any number of bytes or fail | partial | sizes above 0; refuted: size 0 returns n |
| C111 | fseek, fsetpos, ftell and rewind | lseek of the kernel on an offset of 64 bits behind int arguments and results | partial | targets 1..INT_MAX (fsetpos from 0); refuted: the position is returned instead of 0, rewind keeps the flags, offsets are cut to 32 bits, ftell fails from 2^31 on |
| C112 | strerror and perror | the buffer is overwritten completely first; digits by arithmetic | partial | strerror proved; perror without colon and newline, which it does not write (refuted) |
| C113 | errors of write are reported by the output functions | unfolding to one call of write; witnesses | partial | print and fputs; refuted: dprints and fprintfs add -1 to their sums, fputc ignores the result |
| C114 | match_ext decides the documented patterns | the loop is equal to a function on lists of items (induction on the pattern), which agrees with that of match on the meaning of the pattern, for which C77 gives the inductive relation matches | partial | patterns and texts of MextSpec.xsupported; refuted for "[a]" and "]", negated classes (the answer is 1 at once), "+" and "a", "*l=%#" and "l=3", "\\w" and 200, "a**" and "a" |
| C115 | match_ext reports the % matches in reverse order | induction on the items; the calls of the nested searches are those of the rest of the pattern | partial | as C114; refuted for a % without number behind a & with one: the number stays |
| C116 | {nX} of match_ext matches n times X | C114 for both patterns, which have the same meaning | partial | counts 1..9 of characters and classes, followed by an item that matches a character and is not negated; refuted: {12x} wants 13 x, {3a} does not match aaa, a ! behind the } is a character |
| C117 | match_ext reads only its two strings | strong induction on the fuel with the invariant that both pointers are inside of their strings | partial | patterns without {; refuted: {5?} reads behind the end of the text |
| C118 | the callback of & decides | induction on the characters in front | partial | RE_NOMATCH and RE_MATCHEND, characters in front of the &; refuted: other numbers advance by one more, so that the documented example x&x fails and RE_MATCH for the last character reads behind the text |
| C119 | execl passes its arguments | induction on the arguments for both passes | partial | at least one argument; refuted for execl(path, NULL), which reads arguments that were not passed |
| C120 | execvp executes the file that POSIX says | C60 and the string read back from the buffer | partial | names without slash that do not begin with '.', and names with a slash that begin with '.' or '/', PATH as in C60; refuted: an inner slash is looked up in PATH, .x is not, names that do not fit PATH_MAX overrun the buffer. access(R_OK/X_OK) is an arbitrary function |
| C121 | system returns the exit status of the shell | induction on the reports of waitpid; C66 for the macros | partial | uninterrupted waits and shells that exit; refuted: killed shell (never returns), interrupted waitpid and failing vfork (uninitialised status) |
| C122 | vexec returns the exit status of the program | induction on the reports of waitpid; C66 for the macros | partial | children that exit, also after interruptions and stops; refuted: killed child (0), errno is always 1 after a failed execve, failing vfork (uninitialised status) |
| C123 | exit_errno and die report the error number | C72 for the digits | partial | numbers up to 199, for the message 100..199; refuted: a 0 byte in the message below 100, no digits above 199, die(0,msg) exits with 0. dief and dies differ in the output function only and are not modelled |
| C124 | sigaction and signal change one signal | case analysis on the signal numbers | partial | signal completely, sigaction for act != NULL; refuted: act == NULL is dereferenced. rt_sigaction of the kernel is part of the model |
| C125 | abort ends the process with SIGABRT | case analysis with arbitrary handler effects; C124 | partial | SIGABRT not blocked; refuted: blocked, it is exit(125). Delivery of signals is part of the model |
| C126 | strtoimax parses what it documents | induction on the digits | partial | as C31, for int |
| C127 | term_width returns the value of COLUMNS | induction on the digits | partial | decimal numbers; refuted: "-1" gives -29 and "" gives 0 |
| C128 | map_protected surrounds the buffer with inaccessible pages | arithmetic on page numbers | partial | lengths that are no multiple of the page size; refuted: multiples get a page too many, without memory the result is 4095 or 4096-errno, and the mprotect wrapper reads the page it has just protected (the theorem assumes that the compiler removes this dead load). Page tables are sets of page numbers; the kernel's choice of the address is arbitrary |
| C129 | unmap_protected undoes map_protected | arithmetic on page numbers | proved | as C128 for the address space |
| C130 | PARSEOPTS_short sets the flags of the options on the command line | induction on arguments and letters; sums of distinct powers of two | partial | sets of options without b, arguments with small letters, options in front of the regular arguments; refuted: the loop variable of the macro is called b and hides the option b, capital letters shift by a negative count, and "prog file -a" reports 3 as first regular argument |
| C131 | The error texts exist for every number, and the two versions agree | finite domain (134 numbers) by computation, lifted by forallb_forall; the rest by range | partial | the two text versions agree except for number 0 (refuted: the first character is missing). The tables are copied by a script from the headers |
| C132 | tcgetattr and tcsetattr exchange the terminal settings | byte-wise get/put lemmas | partial | saving and restoring; of the fields only the lower half of c_iflag; refuted: the fields hold other settings (TCGETA and TCSETA work on struct termio with 16 bit flags). The kernel's TCGETA and TCSETA are part of the model (drivers/tty/tty_ioctl.c), output delays and the baud rate bits are not interpreted |
| C133 | cfmakeraw selects raw mode | bit-wise, finite masks by computation | partial | cfmakeraw itself in full; the sequence only for the input flags; refuted: for every terminal the sequence leaves local and output flags as they are and changes the line discipline (see C132) |
| C134 | isatty recognises terminals, the process group can be read back | case analysis | proved | the ioctls are functions of a table of terminals; a failing ioctl returns any negative error |
| C135 | ptsname returns the name of the pseudo terminal | C49's induction with exact room, numerals of at most 10 digits | partial | ptsname in full; ptsname_r if the buffer holds the whole name; refuted: ptsname_r with a shorter len writes behind the buffer before it returns ERANGE, and with a null pointer it writes to address 0 |
| C136 | printf, fprintf and dprintf write the formatted text | C49's theorem and the write lemma | partial | formats of C49; refuted: dprintf returns the length of the text also if the write fails |
| C137 | sprintf writes the whole text | C49's theorem for the bounded buffer | partial | texts shorter than the compile time mini_buf; refuted: sprintf is limited to mini_buf bytes and a longer text crashes |
| C138 | vsprintf and vfprintf take the arguments of a va_list | C49's theorem; the refutation for all buffers and kernels | partial | arguments passed directly instead of by a va_list; refuted: vsprintf and vfprintf are macros which hand the va_list on as the first argument, so that the pointer itself is formatted |
| C139 | getgroups returns the groups of the process | the database lemmas of C71-C75 | partial | the groups of the databases for the user id of the process; refuted: the kernel is never asked for the groups of the process, and getgroups(0, ...) returns -1 |
| C140 | initgroups sets the groups of a user | the database lemmas of C71-C75 | partial | the groups of the database; refuted: the argument group is ignored, and the group id of the process changes |
| C141 | fdopen and freopen bind a stream to a descriptor | invariant of C45 | partial | fdopen in histories of C45 (see there for the order in which streams are closed) and freopen with a name; refuted: freopen(NULL, mode, f) makes f standard input, and after a failing freopen the stream holds an error number, so that fclose closes another descriptor |
| C142 | opendir and closedir leak nothing | invariant over histories: handles are distinct, allocated and open | proved | malloc and open are any functions which return an unused address or descriptor, or fail |
| C143 | stripblanks and stripblanklines | the fgets lemmas of C46, induction on the lines | partial | texts whose lines have at most 1023 bytes with the newline; refuted: every text with a longer line makes fgets store behind the buffer (the warning for long lines is never reached before), and a 0 byte at the start of a line ends the output |
| C144 | timespec arithmetic | linear arithmetic on the two fields, case analysis on aliasing | partial | in full if signed overflow wraps; with ISO C rules the seconds alone must stay in range; refuted otherwise: a representable result can overflow before the carry |
| C145 | dtodec prints a double | error bounds in rational numbers for addition and multiplication of SpecFloat; the uitodec and itodec lemmas of C07, C08 | partial | numbers from -0.999999999 to -0.1 with IEEE arithmetic by Coq's SpecFloat; the billionths are exact up to the rounding for all numbers; bounds for all numbers. Refuted: the double in front of -1 gives -0.1000000000; for every other number the 0 byte behind the integer part cuts off the fraction, 0 is printed with a minus sign, and zeros in front of the fraction are blanks |
| C146 | arrays keep their elements in order | invariant over histories; induction on the elements | partial | in full but for newarray without memory (refuted: the failing mmap is not noticed) and first() of an empty array (refuted: not 0). The struct is a record beside the memory |
| C147 | linked lists keep their elements | direct | partial | a new list is empty; refuted: every _append sets the list pointer to the number len + 16 and crashes there |
| C148 | the start code finds the system call entry | induction on environment and vector | partial | 32 bit layout with the entry present; refuted: without it the scan does not stop at AT_NULL, and with 64 bit entries of 16 bytes it takes values for types |
| C149 | system call wrappers hand every argument to the kernel | a checked table of 409 wrappers against a table of the Linux calls; a lemma for each kind of check | partial | all wrappers but 58; with a compiler that keeps register variables all but four, for arguments 0..INT_MAX; refuted: lseek, ftruncate, read, write, mprotect cut an argument to 32 bits, syscall5_ret and syscall6_ret leave r10 (and r9) out of the operands, clone, sys_add_key, sys_io_getevents lack the last argument, mremap calls select, mmap maps descriptor 0 for -1. Not modelled: the meaning of the arguments (only position and width), 32 bit and OSX variants, epoll.h (does not compile) |
| C150 | byte order macros of endian.h | bytes as digits to base 256, bitwise or of apart fields is addition | partial | proved for __BYTE_ORDER = 1234; refuted as it stands: no header defines __BYTE_ORDER, so the big endian branch is compiled and htobe32 changes nothing while htole32 swaps |
| C151 | longjmp returns to the last setjmp with the given value | symbolic run of an interpreter for the instructions used | partial | proved for the registers and memory; the value: refuted for val = 0 when the upper half of rsi is not clear (longjmp tests all 64 bits). Not modelled: floating point control words |
| C152 | the program start calls main with the vectors of the kernel | symbolic run of an interpreter for the instructions used | partial | vectors and exit proved (variant without mini_globals); refuted: the stack is misaligned by 8 in main |
| C153 | removeccomments keeps the lines of its input | an invariant for one line (every position stays inside the line), induction over the lines, and over lines[] for the output | partial | proved for every text within the limits of the arrays if the byte in front of filebuf can be read; refuted without: for an empty first line buf[-1] is read. A line is shown up to a zero byte. Not modelled: the sprintf into the unused array sout (line 138), reading the file |
| C154 | removeccomments removes comments and nothing else | for every kind of line the exact result of the loop body; induction over the lines with the state inside or outside a comment | partial | proved for ASCII text whose comments (of both kinds, also over many lines) stand on lines of their own and whose other lines have no '/' and no '"'; refuted: a comment behind code stays, code behind a comment at the start of a line is lost, bytes above 127 at a line end are lost, the string "\\\\" is taken as not closed |
| C155 | match_ext2 decides the documented patterns | the code equals a run on lists (induction on the pattern, inner induction on the text for the wildcards); the run decides the inductive meaning | partial | proved for the patterns of [supported] and [start_ok] without a '&' callback; refuted: what stands behind # at the end of the text is ignored, *# does not match at the end of the text, (a), {3a} and + do not match at the end of the text, ![a]b matches every character but a at once, \w does not match bytes above 159 |
| C156 | match_ext2 reports what the '%' matched | the run on lists takes the leftmost position at which the rest matches; induction on the pattern, split at each % | partial | as C155, and no unnumbered % behind a numbered &; refuted: that % gets the number of the &; %# reports a match although the function returns no match |
| C157 | match_ext2 is safe, ends and is silent | induction on the fuel with the invariant that both pointers are inside of their strings | partial | patterns without {, callbacks that stay inside the text; silent for patterns without ( } # $ that do not end in a wildcard; refuted: * writes a message, {*} does not end in 2^31 rounds, & with a callback that returns RE_MATCH reads behind the end. The messages are counted, their contents are not modelled |
| C158 | the file mode macros recognise the kind of a file | the masks as arithmetic on 4096 * type + permissions | proved |  |
| C159 | ioctl numbers carry direction, type, number and size | or of disjoint bit fields is their sum; division and remainder | partial | proved for sizes below 16384; refuted: a larger size is not refused, it changes the direction |
| C160 | error, err, errx and warn report and end | on top of C136 (fprintf), C112 (strerror) and C105 (dprints) | partial | proved if every write takes all bytes and leaves errno alone, for the formats of C136; refuted: err reads errno after it has written the text, so that it reports the error of that write if there was one. Not modelled: the verbose texts of strerror (see C131) |
| C161 | open flags can be combined freely | bit by bit, induction on the list of the constants | proved |  |
| C162 | structures have the layout of the kernel and of the network headers | a lemma on reading and writing bit ranges of memory, induction on the bytes; the offsets are computed by the layout algorithm and compared with the tables | proved | scalars, arrays, unions, packed structures and bit fields, laid out as the System V ABI says; arrays are read as one number. The tables of the kernel are written down in AbiSpec. c_cc of struct termios is longer than in the kernel, its first 19 bytes are the kernel's |
| C163 | sys_signame names the signals | comparison of the three tables | proved | the aliases SIGIOT, SIGPOLL, SIGUNUSED are left out; sys_signame[32] is UNUSED |
| C164 | elftrunc cuts a static program behind its last loadable segment | one induction over the program headers computes the end of the last segment, one over the blocks the copy; the two classes share the proofs through a table of field positions | partial | proved if no kernel call fails, for names of at most 1014 bytes, segments that lie inside the file and reach beyond the ELF header, program headers below 2^31; refuted: a segment that ends within the header makes it copy the whole file and exit with 2; a full disk leaves an incomplete copy with status 0; for 32 bit files a segment that is not complete in the file gives a short copy with status 0, and a failing read of a program header goes unnoticed (uninitialised memory is used) |
| C165 | endpwent and endgrent give everything back | the state of the kernel is the set of mapped pages and of open descriptors; case distinction on the state of the library | partial | proved for files of at most 2048 bytes (one page for two times the size) and a first call of the end functions; refuted: endpwent unmaps the size of the file, userdb_open maps two times that; a second endgrent unmaps from address 0 on; descriptor 0 is taken for an error and stays open |
| C166 | sigprocmask blocks, unblocks and restores | bit by bit, with the invariant that the word is the set on 1..64; induction on the operations and on the nesting | partial | proved for sets that are built with sigemptyset, sigaddset and sigdelset from the signals 1..30 (see C54); the kernel's rt_sigprocmask is modelled from its manual page; refuted for sigfillset: its set has 1..31 only, 32..64 stay unblocked |
| C167 | brk, sbrk, setbrk and getbrk move the end of the data segment | an invariant (the remembered break is 0 or the kernel's, memory is accessible exactly up to it), induction on the calls; the contents by a specification for one address | partial | proved for breaks that can be given, and for all sequences that getbrk tells the break of the kernel; refuted: the kernel answers a refusal with the old break, brk returns 0 and sbrk the old break as if they had succeeded. The kernel's rounding to pages is not modelled |
| C168 | wait and waitpid collect every child once | induction on the ends to come, then on the number of children; the list of (number, group, end) is the invariant view | proved | the kernel's wait4 is modelled from its manual page without stopped children and rusage |
| C169 | killpg and raise signal exactly the processes meant | membership in the filtered process table | partial | proved for groups above 1 and for 0; refuted: killpg(1) goes to all processes, killpg(-n) to the process n. Permissions are not modelled |
| C170 | ELF structures and macros follow the ELF specification | comparison of the computed layout with the tables, the lemmas of C162 on bit ranges; shifts as multiplication and remainder | proved | versions of the structures for the two classes that have the same text (Verdef, Verdaux, Verneed, Vernaux, Nhdr) are one definition; Move, Lib, Syminfo and the MIPS structures are not modelled. The macros take arguments of the types of the fields |
| C171 | structures of signals, resources, names and events have the layout of the kernel | as C170 | proved | the layout algorithm and the reading of memory of C162 |
| C172 | stripundefs.pl removes the disabled blocks and nothing else | induction on the derivation of the nesting in one direction, on the length of the input in the other | partial | the output is characterised for every input (it ends exactly if every block is closed); refuted: the #else part of a disabled block is removed too, conditions that only begin with 0 (0x40, 0//1) count as #if 0, and a missing #endif makes the script run for ever |
| C173 | ifdefs.pl shows every conditional line with its number and depth | structural induction on the tree with the rest of the lines as parameter | proved | sources are trees of lines; numbers are printed in decimal by Perl (not modelled) |
| C174 | mpush and mpop save registers | induction on the list for pushing and for popping; mpop is popping the reversed list | proved | on the machine of C152 (words of 8 bytes, aligned) |
| C175 | template.pl replaces the text between the marks | induction over the lines outside and inside of the section; the first place of a mark by induction on the line | partial | proved for any number of sections (the first gets the input, the others are emptied), praefixes without characters that are special in a regular expression; refuted: a missing end mark deletes the rest of the file with status 0 ($1 keeps the name of the start mark), a second section is emptied, a wrong end mark gives status 0 |
| C176 | combinesources.pl puts every included file in the output once | an invariant of the calls (names added, their texts, what they include), induction on the fuel with the number of names not yet included as measure | partial | proved: it ends, every name that is reached is read once and its text is there once, in its order, in the place of the first #include; files with the names of the list in line 49 may be left out; refuted: files like exit.h or b.h included by a header are lost, a file with two names is there twice, quotes in a comment change the name |
| C177 | Pseudo terminals can be granted and unlocked | case distinction on the kernel state, the name of the slave by C135, the rights bit by bit | partial | the kernel's side (pts, ptmx, chmod, fstat) is part of the model; proved: the owner can read and write, the group can write, the lock, other terminals and descriptors; refuted: nobody else - grantpt adds the rights of /dev/ptmx (0666) to those of the slave |
| C178 | Macros for IP octets, ethernet lengths and route flags | all octets by computation (forallb over 0..255), lengths by linear arithmetic, flags bit by bit | partial | refuted: RT_ADDRCLASS shifts by 23 instead of 27, so that four bits of other flags are in its result; the rest is proved |
| C179 | The limits of the integer types | linear arithmetic with remainders for each of the four widths | proved | the conversion to a type of n bits is the remainder as gcc defines it; the least and fast types are other names of these and not modelled |
| C180 | Selecting a function selects everything it needs | what is selected from a set is the union of what is selected from its elements (induction on the blocks); the elements by computation over the table | partial | proved for every set without opendir, closedir, getgrouplist, getgroups and group_print; refuted for each of these five. The table is copied from minilib.h by a script; the switches that minilib_global.h, dirent.h and other headers define later are not modelled |
| C181 | The generated header selects all dependencies | each pass adds one step; for forward orders induction on the rest of the blocks | partial | proved: what is needed through at most two dependencies, for every order; everything, for orders in which no block stands behind one it needs; refuted: a chain of three in reverse order. The parsing of the tags is not modelled |
| C182 | The linker scripts keep every section | induction on the statements (partition is a permutation), on the sections in an output section (addresses) and on the output sections; names by their first characters | partial | ld's selection and placement of sections is part of the model; proved for the standard sections and all scripts (bloating without .data); refuted: .data with bloating, sections named .rel* with all scripts, all other names (.init_array) with onlytext. KEEP, sorting and --gc-sections are not modelled |
| C183 | Code and constants can't be written, data can't be executed | the segment of a section by C182's lemma; the last segment that touches the page decides | partial | the kernel's mapping of segments by pages is part of the model; proved: code and constants with default and default_execstack in pages without variables, the stack with default, text_and_bss and onlytext; refuted: constants in the page the variables begin in, constants with text_and_bss, code with exec, variables with every script, the stack with the other scripts |
| C184 | A file copied through streams is unchanged | the three programs are loops over the modelled functions; induction on their turns, each turn by the theorems of C46, C47, C105, C110 and C113 | partial | proved: fread/fwrite for every file and size (C184_blocks); fgets/fputs for texts without NUL bytes and a buffer of size+1 bytes; fgetc/fputc for texts without NUL bytes if the program stops at 0; refuted: fgets/fputs with a buffer of size bytes, files with NUL bytes, fgetc until EOF, which never ends |
| C185 | A sorted array of strings can be searched | C41 and C42 with the order of C06; the strings follow their pointers through the permutation | proved | strings of at most INT_MAX bytes and arrays of less than LONG_MAX/16 elements; the comparison is the user's one line function, which reads the strings in the memory before the call (qsort changes only the array) |
| C186 | A list of numbers written as text is read back | the format and the text by induction on the list (C49); the fields between the commas are unique (C13), each is read by C25 | partial | proved for buffers with 14 bytes more than the longest text, for all lists; where signed overflow is undefined INT_MIN is left out; refuted: a buffer that is just long enough stops the process (C49) |
| C187 | A number set in the environment is read back | composition of C49_output_partial, C44_history_partial and atoi_ok | partial | proved if malloc returns one byte more than setenv asks for and no name is the beginning of another, for buffers as in C49; refuted: a name that begins another one replaces that variable |
| C188 | A file of numbers can be read number by number | induction on the numbers over the lemma of C74; the relation numbers spells the file | partial | the numbers and what is left behind them, for any separators (C188_numbers); refuted: the end of the file can't be told from a number 0, two separators in a row give a number 0, and what fprintf writes for %u of 0 is read as two numbers |
| C189 | The configuration file selects exactly the functions it names | relation between texts and lists of names (spelled), uniqueness of the splitting; case analysis of the commands; identifiers compared by their end; finite check of the table of names | partial | exactly the switches asked for, by induction over the configuration; everything needed is selected except for the five switches of C180; refuted: longjmp defines the switch of setjmp only, and DEFINE makes a string constant of its argument |
| C190 | The build settings of the configuration file take effect as documented | invariants of the settings by induction on the commands | partial | the optimization in all cases; DEBUG with -Og -g and no shrinkelf unless asked for; refuted: the default -s is added after DEBUG has cleared STRIPFLAG, so the symbols are always stripped, and SHRINKELF behind DEBUG takes effect |
| C191 | malloc and malloc_brk can be used in one program | the header word tells the blocks apart (invariants of C20 and C84); induction on the program; the copy loop | partial | proved for realloc of the last block of the segment, for other blocks that shrink by 3 bytes or more, and for those that grow to two times their size (plus 16) with as many bytes behind them in the segment and room in the buffer; refuted: a block that grows by less overwrites live blocks of the buffer (the loop takes a size in bytes for one in ints and copies two times too much), without room the copy goes to address 0, and near the break it reads behind it |

## 3. Findings

Defects of the code established by the `_refuted` theorems, and limits of the models.

**src/string**

* C05 strncpy/stpncpy read src[n] before testing the bound.
* C07 strcasecmp folds bit 5 of every byte ('[' equals '{'), is not antisymmetric for strings of unequal length; strncasecmp returns nonzero when n cuts equal strings.
* C08 strchr/strrchr never find c >= 128 given as an int 128..255; strrchr(s,0) returns NULL.
* C09 strstr with an empty haystack reads behind its terminator.
* C11 strspn skips the first accept character after the first match.
* C12 strpbrk passes the accept pointer as a character: non-empty strings are returned unchanged.
* C19 strdup requests strlen(s) bytes but writes strlen(s)+1; a truncating strndup also overruns by one.

**src/memory**

* C15 memmove copies forward only: wrong when dest starts inside src.
* C17 memcmp compares signed chars and returns -1 for n = 0.
* C23 realloc mixes words and bytes: growing a 12 byte block loses bytes; shrinking 396 to 104 bytes overwrites a neighbour; a failing realloc frees p, or writes through the NULL that malloc returned.
* C24 calloc(nmemb,size) zeroes only size bytes.
* C67 free overflows int when both neighbours are free (harmless with wrapping arithmetic: C20 is proved under that reading).
* C20-C22 need mini_buf to be a multiple of 4 and n >= 1; malloc(0) gives a block without payload whose footer would overlap its header.

**src/conversions, strtol**

* C26 atol accepts neither blanks nor '+'.
* C28 ultodec/ltodec print the empty string for 0.
* C31 strtol accepts the digit of value base ("18" in base 8 is 16); 18446744073709551616 converts to 0 without ERANGE.
* C32 itobin(0) prints " "; groups are counted from the skipped leading zeros (768 with groups 8 gives "1 10000000 0"); itooct writes one uninitialised byte before the digits, INT_MIN overruns its buffer.
* C68 INT_MIN/LONG_MIN are negated as signed values; atoi computes an unused power of ten that overflows from the 14th character on.
* C69 uitodec(0) in a width prints no digit; width 10 ignores pad for the first column.

**src/math, src/file/cksum.c**

* C33 ipoweriui overflows int (undefined) as soon as a power exceeds 2^31-1; ipoweri with a negative exponent raises x to 2^32-|n| and can divide by zero.
* C36 rand uses an arithmetic right shift on a signed state: the xorshift is not a bijection, some states collapse to 0 (seed 4227866623: first value 2^32-1, then the sequence of seed 1).
* C70 bsd_cksum and djb_cksum add bytes as signed char.

**src/network**

* C39 inet_aton returns 1 for every string, reduces components modulo 256 and accepts any separator.
* C40 ether_ntoa prints the low nibble first.
* gethostname with a negative length writes up to 65 bytes (comparison as unsigned long).

**src/sort**

* C41 swap truncates the element width to int: elements of 2^32 bytes are never exchanged.

**src/process, src/intern/startup.c, macros, include**

* C53 exit reads atexitp[ATEXIT_MAX] when the table is full and would call whatever follows the array.
* C54 sigaddset/sigdelset/sigismember refuse signals 31..64 and shift by 2^32-1 for signal 0; sigismember returns the mask instead of 1.
* C56 ispunct is true for all letters and digits; tolower('@') is '`', toupper('0') is 0x10.
* C65 results >= 2^31 are truncated (lseek, mmap, brk); open returns -errno.
* C66 WIFSTOPPED lacks the U suffix: int overflow for statuses >= 0x8000.
* C73 ALIGN_P shifts by 8 and adds 8.

**src/system**

* C43 getenv("A=1") with an entry A=1 reads behind both strings.
* C44 putenv("A=2") and setenv("A",..) overwrite the first variable whose name starts with A; unsetenv("AB") removes A; setenv writes one byte behind the block it allocates.

**src/streams, include/mini_fstream.h**

* C45 close order 6,4,3 of streams 3..6 makes fopen hand out the open slot 5 again; with 13 open streams fopen and fclose read stream[16].
* C46 fgets and fgetsn write buf[size] for any line of at least size bytes.
* C47 ungetc(0) is lost, ungetc(200) comes back as -56 (and is a signed overflow).
* C75 ferror is 1 after end of file; C76 fopen("a") does not create the file.

**src/output**

* C48 vsnprintf overruns the buffer for a padded %s (no test in the padding loop), for %'d of numbers with 14 characters, for %b and for %f with a width above 12 (dtodec reports more bytes than it writes); sixteen digits behind %( overrun an array on the stack; a format ending in % is read behind its NUL.
* C49 %u of 0 prints a blank; snprintf(buf,4,"%d",5) raises SIGSEGV though the result fits.

**src/directories, src/exec/where.c**

* C52 basename("a/") is "/", basename("/a///") is "a/".
* C60 where with PATH=":/b" looks for ":/b/file" and never in /b; with PATH="" it reads behind the string.

**src/match/match.c**

* C50 "a**" does not match "a".
* C77 + and % need two characters at the end of a text: "l=%#" does not match "l=3"; "*$" does not match the empty text; "[a]" matches "]"; "![a]bc" matches "x"; \w fails for characters from 160 on.

**src/userdb**

* C51 getpwnam of an unknown name twice is strcmp(name,NULL); getpwuid(0) after getpwnam("toor") returns toor; after endpwent stale pointers into the unmapped file are returned; uid 4294967294 overflows.
* C79 an empty member list becomes the list {""}; the pointer table is written behind the mapped file: SIGBUS or overwriting of other memory when it does not fit into the last page.
* C80 getusergroups returns -1 when the groups exactly fill the list; C81 getgrouplist then writes groups[-1].

**contrib/getopt/getopt.h**

* C82 after an unknown option or a missing argument getopt does not advance: a loop until -1 does not end; with optstring "ab:c" the argument "-a:" yields the option ':'.

**tools/shrinkelf.c**

* C62/C63 region sizes are 32 bit: a 4 GiB segment vanishes from the region list (the program then stops with an internal error), and two large overlapping segments make it write a file without program header offset.

**src/directories, src/memory/malloc_brk.c**

* C64/C84 the brk system call returns the old break on failure, which sbrk and brk take for success: malloc_brk and scandir write behind the segment.
* C83 opendirp does not initialise dir->tell: telldir before the first readdir returns what malloc left there.

**src/conversions/ultodec.c**

* C85 ultodec(100, buf, 0, ',') stores ",100": the limiter is also printed in front of a number whose digit count is a multiple of three.

**src/output/vsnprintf.c**

* C86 "%5d" of -42 prints "-   42" (six characters); "%4x" of 10 prints "000a".

**contrib/ksort.h**

* ks_heapsort alone does not sort: the caller has to call ks_heapmake first (C89_case).
* ks_mergesort computes pointers beyond the end of the array (a + i + step) without using them; this is not modelled as undefined behaviour.
* ks_sample (marked NOT TESTED in the source) is not modelled.

**contrib/kmalloc/kmalloc.c**

* C98 kmalloc does not notice that the break could not be moved (brk returns the old break), and writes behind the segment.
* C98 krealloc frees the block first: when it then returns NULL the block is lost.
* C98 kcalloc clears memory at NULL when kmalloc fails; the product of its arguments is cut to an int: kcalloc(65536, 65536) gets a block of no bytes.
* C98 krealloc(p, 2^32+1) gets a block for 1 byte and overwrites the blocks behind it.
* C98 kmalloc_usable_size returns the index of the bucket, not a size.

**contrib/regetopt/regetopt.c**

* C101 operands in front of "--" end up behind those after it.
* C102 after '?' or ':' the same word is parsed again by the next call: a program that goes on after errors loops forever.
* C102 a missing argument gives ':' even if the option string does not begin with a colon; --flag=value is accepted for options without argument; -: is accepted if the option string has a colon; longopts == NULL is read when a long option is met.
* C103 an exact name is ambiguous if two longer names stand in front of it.
* C104 option_argc is set once and never again.
* re_optarg keeps its old value for options without argument; the message for an unrecognized long option is written even with re_opterr == 0 (not modelled).

**output functions**

* C106 puts(msg) is print(msg) + printl(): C leaves open which is called first.
* C107 writes, ewrites and fwrites also write the 0 at the end of the constant.
* C108 fprintfs with a % at the end of the format reads and writes beyond it.
* C109 snprintfs stores a 0 at buf[size] when the text does not fit, even with size 0; % sequences other than %s and %c vanish.
* C110 fwrite with size 0 returns nmemb.
* C111 fseek and fsetpos return the position; fseek to 0 and rewind keep the end-of-file flag; offsets above 2^31-1 are cut.
* C112 perror writes no colon and no newline.
* C113 dprints and fprintfs add the -1 of a failed write to their sums; fputc returns c if write fails.

**match_ext**

* C114 the faults of match (see C77), and *l=%# does not match l=3.
* C115 n_match is not reset: a % without number behind &1 is reported with number 1.
* C116 the count is computed as 11*count+digit; {nX} at the end of a pattern never matches; } followed by ! does not negate.
* C117 {5?} reads beyond the end of a text with less than five characters.
* C118 the text pointer advances by the result of the callback plus one; RE_MATCH on the last character reads beyond the text.

**processes and protected memory**

* C119 execl(path, NULL) reads arguments that were not passed.
* C120 execvp("bin/x") searches PATH, execvp(".x") does not; the PATH_MAX buffer can be overrun.
* C121 system never returns when the shell is killed by a signal, and uses an uninitialised status if waitpid is interrupted or vfork fails.
* C122 vexec returns 0 if the program was killed; after a failed execve errno is 1 (EPERM) whatever the error was.
* C123 exit_errno writes a 0 byte for numbers below 100; die(0,msg) exits with 0.
* C124 sigaction(sig, NULL, &old) dereferences the null pointer.
* C125 abort with SIGABRT blocked ends with exit(125).
* C126 as C31: the digit with the value of the base is accepted, and 4294967296 gives 0.
* C127 COLUMNS is not checked for digits.
* C128 map_protected: a length that is a multiple of 4096 gets an unprotected page behind; a failing mmap gives 4095 instead of -1, as the comparison p<=0 is unsigned.
* C128 mprotect returns the word at its address instead of 0, which is a load from the page just made inaccessible.

**option macros, error texts, terminals**

* C130 PARSEOPTS_short: int b in the macro hides the option b; with (a+b) the option -a is unrecognized. Capital letters shift by a negative count (-A is -a on x86).
* C130 getoptm.h: the index returned for "prog file -a" is behind -a.
* C131 verbose_errstr2(0) returns "nternal error (errno=0)".
* C132 tcgetattr and tcsetattr use TCGETA/TCSETA, which work on the old struct termio, with a struct termios: c_iflag holds input and output flags, c_oflag control and local flags.
* C133 so tcgetattr, cfmakeraw, tcsetattr never turns off echo or canonical mode, and sets bits 4 and 5 of the line discipline.
* C135 ptsname_r writes the whole name before it compares with len, and accepts buf == NULL only after writing to it.
* include/mremap.h calls __NR_select instead of mremap (not modelled).

**formatted output, groups, handles**

* C136 dprintf returns the length of the text even if the write failed.
* C137 sprintf calls snprintf with the constant mini_buf; a text which does not fit ends in a crash instead of an error.
* C138 vsprintf and vfprintf treat the va_list as first argument.
* C139 getgroups reads /etc/group instead of asking the kernel; getgroups(0, ...) is -1.
* C140 initgroups ignores its group argument and calls setgid.
* C141 freopen with a null name binds the stream to descriptor 0; a failing freopen stores the negative error number as descriptor.

**filters**

* C143 stripblanks and stripblanklines: a line of 1024 bytes or more overruns the array by one byte, as fgets stores size characters and the 0.

**timespec, dtodec, array, list, start code**

* C144 timespecadd and timespecsub can overflow although the result is representable.
* C145 dtodec: numbers just above -1 come out as -0.1000000000; the point is stored behind the 0 byte of the integer part, so that the string is the integer part only; 0.0 gives "-0." and blanks; zeros at the start of the fraction come out as blanks.
* C146 newarray, C147 newlist: (a <= 0) on a pointer does not find a failing mmap.
* C147 _append: l->last->next = (node*)(len+16) is a number instead of an address.
* C148 __start_c never ends without an AT_SYSINFO entry, and its entries have the 32 bit layout.

**system call wrappers**

* C149 mremap makes the system call select.
* C149 lseek and ftruncate take a 32 bit offset, read and write a 32 bit length: 2^32 becomes 0.
* C149 syscall5_ret and syscall6_ret: the fourth (and sixth) argument is in a register variable which is no operand of the asm statement; GCC does not promise that it is in its register.
* C149 sys_add_key, sys_io_getevents and clone have one parameter less than the kernel, which takes what is in the register.
* C149 mmap replaces a negative descriptor by 0.

**endian.h and assembler code**

* C150 endian.h tests __BYTE_ORDER, which nothing defines: on x86 htobe16/32/64 are the identity and htole16/32/64 swap.
* C151 longjmp(env, 0): the test for 0 takes the upper half of rsi into account, which the caller need not clear; setjmp can then return 0 twice.
* C152 _start pops argc and calls main without aligning the stack: rsp + 8 is never a multiple of 16 in main.

**removeccomments**

* C154 removeccomments leaves comments behind code (a // b, a /* b */ c).
* C154 removeccomments drops the code behind a comment that begins a line: /* c */ int x;
* C154 removeccomments: chars are signed, so that letters of UTF-8 at the end of a line count as blanks and are removed.
* C154 removeccomments takes the string "\\" (one escaped backslash) as not closed; a /* in the next string then removes code.
* C153 removeccomments reads filebuf[-1] if the first line is empty; a file of exactly 10^6 bytes is written behind the array.

**match_ext2**

* C155 match_ext2: "(a)", "{3a}" and "+" at the end of the pattern never match at the end of the text; "*#" neither, although its code has a case for it.
* C155 match_ext2: "![a]b" returns a match for "x": a negated class ends the matching.
* C155 match_ext2: at the end of the text a '#' matches whatever stands behind it in the pattern.
* C156 match_ext2: for "%#" p_match is called although the result is no match.
* C157 match_ext2 writes debugging messages to standard output.
* C157 match_ext2: "{*}" loops until the counter overflows.

**kernel interface**

* C159 _IOC does not check the size: a type of 16384 bytes changes the direction bits.
* C160 err() evaluates errno after fprintf has written: if this write fails, the report names its error and not that of the program.

**elftrunc and userdb**

* C164 elftrunc (old/tools): a full disk gives an incomplete copy and exit status 0.
* C164 elftrunc: trunc32 keeps the result of read in an unsigned variable, so that a failing read is not noticed.
* C164 elftrunc: a program whose segments end within the ELF header is copied completely and the status is 2.
* C165 endpwent unmaps half of what userdb_open has mapped; a passwd file above 2048 bytes leaks pages with every round.
* C165 endgrent clears the address of the mapping but not its size: a second call unmaps from address 0 on.
* C165 userdb_open takes descriptor 0 for an error and leaves it open.

**sigprocmask**

* C166 sigfillset gives a set of the signals 1..31: SIG_SETMASK with it leaves the real time signals unblocked.

**brk, killpg**

* C167 brk and sbrk test for a negative result; the kernel returns the old break if it refuses, so that they report success.
* C169 killpg(1, sig) is kill(-1, sig): all processes; killpg of a negative number signals a single process.

**scripts**

* C172 stripundefs.pl drops the #else branch of #if 0, takes #if 0x40 for #if 0 and never ends if an #endif is missing.
* C175 template.pm deletes everything behind a start mark without end mark; template.pl exits with 0 although the file was left unchanged because of a wrong end mark.
* C176 combinesources.pl: names are compared with the list in line 49 the wrong way round (the listed name has to match the file name as a pattern), so that b.h or t.h included by a header are lost; the recursion counter is not decremented when a file was already included.

**pty, network.h**

* C177 grantpt uses the mode of /dev/ptmx (fstat of the master) as the base of the new mode: with the usual 0666 everybody may read and write the slave, which the kernel had created with 0620.
* C178 RT_ADDRCLASS(flags) shifts by 23 although the class is in the bits 27 to 31.

**switches**

* C180 selecting only mini_opendir (or mini_closedir) leaves mini_sys_brk undefined, mini_getgroups and mini_getgrouplist leave mini_userdb undefined, mini_group_print leaves mini_globals undefined: the dependency blocks are written twice, longer chains in the wrong order need more passes.

**ldscripts**

* C182 ld.script.bloating has no place for .data; ld.script.onlytext discards every section it does not name, e.g. .init_array, without a message.
* C183 all scripts make the segments of the variables executable; ld.script.default puts the variables directly behind the constants, so that the last page of the constants can be written; ld.script.onlytext_tiny and bloating leave out PT_GNU_STACK, the stack is then executable.

**userdb, 64 members**

* C79 a group with 64 members ends every search: getgrgid and getgrnam find neither it nor any group behind it in the file.

**copying files**

* C184 fgetc returns 0 and not EOF (-1) at the end of a file: while((c=fgetc(in))!=EOF) never ends and appends NUL bytes for ever; feof does not report the end either.

**scripts/genconfig.sh, minimake**

* C189 DEFINE var arg, documented as #define var arg, puts the argument in quotation marks.
* C190 DEBUG clears STRIPFLAG, and the defaults set afterwards make it -s again: a program compiled with DEBUG has no debug symbols.

**src/memory**

* C191 realloc of a malloc_brk block that is not the last one copies 2 * oldsize bytes (src/memory/malloc.c:304), as oldsize is in bytes there and in ints for malloc: it overwrites other blocks, or writes to address 0 when malloc fails.

## 4. Trusted base

* The Coq 8.16.1 kernel (with its virtual machine, used by `vm_compute`).
* The transcription of the C code. Each definition in `*Model.v` cites the lines it
  follows. Compiler and hardware are taken as x86-64 Linux with gcc; undefined
  behaviour is `Fault` unless a comment says that it is taken to wrap.
* No axioms are declared and none is used: `Print Assumptions` stands after every
  theorem of the `*Props*.v` files and answers "Closed under the global context"
  for each of the theorems listed below.
* `Base.v` imports ZArith, List, Lia, Bool, ZifyBool and ZifyNat of the standard library;
  some files also Permutation, Sorted, Znumtheory, String, Ascii and Floats.SpecFloat (the definitions only, no primitive floats); nothing else. Loading Lia loads ssreflect files which contain module-type
  parameters (`Under_rel`); no theorem depends on them.

Theorems, all closed under the global context:

* `AbiProps.v`: C158_tests, C158_dt, C158_mkfifo, C158_permissions, C159_encode, C159_distinct, C159_literals, C159_size_refuted, C161_flags, C161_creat, C162_read, C162_size, C162_write, C162_control, C163_names, C163_only
* `AllocProps.v`: C20_heap_safe, C20_malloc_size, C21_all_freed, C21_same_answers, C22_malloc_fails, C23_realloc_partial, C23_prefix_refuted, C23_others_refuted, C23_failure_refuted, C23_null_refuted, C67_no_overflow_partial, C67_exact_partial, C67_refuted
* `ArrProps.v`: C146_push, C146_iterate, C146_nomem_refuted, C146_first_refuted, C147_newlist_partial, C147_append_refuted, C148_sysinfo_partial, C148_missing_refuted, C148_wide_refuted
* `AsmProps.v`: C151_setjmp, C151_value_partial, C151_value_refuted, C152_start, C152_alignment_refuted
* `BlankProps.v`: C143_strip_partial, C143_long_refuted, C143_zero_refuted
* `BrkProps.v`: C167_history_partial, C167_getbrk, C167_refused_refuted
* `CallProps.v`: C149_arguments_partial, C149_usual, C149_narrowed_refuted, C149_unlisted_refuted, C149_short_refuted, C149_mremap_refuted, C149_mmap_usual, C149_mmap_refuted
* `CombProps.v`: C176_combine_partial, C176_place_partial, C176_lost_refuted, C176_twice_refuted, C176_name_refuted
* `ConvProps.v`: C25_atoi, C25_atoi_strict, C26_atol_partial, C26_blank_refuted, C26_plus_refuted, C27_uitodec, C27_itodec, C28_ultodec_partial, C28_ltodec_partial, C28_ultodec_padded, C28_zero_refuted, C29_int, C29_long, C30_itohex, C30_reads_back, C31_strtol_partial, C31_base0_partial, C31_saturates_partial, C31_digit_refuted, C31_overflow_refuted, C32_itobin_partial, C32_itobin_zero_refuted, C32_itobin_groups_refuted, C32_itooct_partial, C32_itooct_refuted, C32_itooct_min_refuted, C68_partial, C68_refuted, C68_atoi_refuted, C69_width_partial, C69_zero_refuted, C69_ten_refuted
* `ConvProps2.v`: C85_uitodec, C85_itodec, C85_ultodec_partial, C85_ltodec_partial, C85_ultodec_refuted
* `CopyProps.v`: C184_lines_partial, C184_size_refuted, C184_nul_refuted, C184_blocks, C184_chars_partial, C184_chars_refuted
* `CsvProps.v`: C186_list_partial, C186_size_refuted
* `DepProps.v`: C180_only, C180_all_partial, C180_all_refuted, C181_two_partial, C181_forward, C181_order_refuted
* `DictProps.v`: C185_sort, C185_search, C185_dictionary
* `DirProps.v`: C64_scandir_partial, C64_errors, C64_alphasort, C64_limit_refuted, C83_stream_partial, C83_tell_refuted, C84_segment_partial, C84_realloc_in_place, C84_limit_refuted
* `DtoProps.v`: C145_fraction, C145_dtodec_partial, C145_carry_refuted, C145_bounds, C145_cut_refuted, C145_zeros_refuted
* `ElfmProps.v`: C170_structures, C170_symbols, C170_relocations, C170_moves, C170_parts, C170_visibility, C171_structures
* `ElftProps.v`: C164_elf64_partial, C164_elf32_partial, C164_dynamic, C164_other, C164_small_refuted, C164_disk_refuted, C164_short_refuted, C164_read32_refuted
* `EndProps.v`: C150_network_partial, C150_host_partial, C150_order_refuted
* `EnvProps.v`: C43_getenv_partial, C43_getenv_refuted, C44_history_partial, C44_putenv_invalid, C44_putenv_refuted, C44_unsetenv_refuted, C44_setenv_refuted
* `EnvnProps.v`: C187_number_partial, C187_prefix_refuted
* `ErrmProps.v`: C160_error_partial, C160_err_partial, C160_errno_refuted
* `ErrstrProps.v`: C131_total, C131_names, C131_distinct, C131_small_version_partial, C131_small_version_refuted
* `FmtProps.v`: C136_fprintf_partial, C136_dprintf_partial, C136_dprintf_error_refuted, C137_sprintf_partial, C137_long_refuted, C138_vsprintf_partial, C138_va_list_refuted
* `GconfProps.v`: C189_compile, C189_selected, C189_needed_partial, C189_known, C189_own_refuted, C189_define_refuted, C190_optimize, C190_debug_partial, C190_strip_refuted, C190_shrink_refuted
* `GetoptProps.v`: C61_sequence, C82_error_partial, C82_progress_refuted, C82_missing_refuted, C82_chars_refuted
* `GrpProps.v`: C139_getgroups_partial, C139_unknown, C139_process_refuted, C139_count_refuted, C140_initgroups_partial, C140_refused, C140_unprivileged, C140_group_refuted
* `HandProps.v`: C141_fdopen_partial, C141_fdopen_result_partial, C141_freopen_partial, C141_null_refuted, C141_failed_refuted, C142_directories
* `ImaxProps.v`: C126_strtoimax_partial, C126_base0_partial, C126_saturates_partial, C126_digit_refuted, C126_overflow_refuted, C127_width_partial, C127_unset, C127_garbage_refuted
* `IpoProps.v`: C178_tos, C178_points, C178_options, C178_length, C178_ethermin, C178_flags, C178_local, C178_class_refuted, C178_class_partial, C179_limits
* `KmallocProps.v`: C94_histories, C95_free_twice, C96_reuse, C97_realloc_same, C98_too_large_partial, C98_limit_refuted, C98_realloc_fails_refuted, C98_calloc_null_refuted, C98_calloc_product_refuted, C98_realloc_wide_refuted, C98_usable_refuted, C99_compaction
* `KsortProps.v`: C87_qsort, C88_mergesort, C89_heapmake, C89_heapsort, C90_ksmall, C91_combsort, C92_introsort, C93_shuffle, C93_every_order, C93_one_draw
* `LdProps.v`: C182_patterns, C182_placed_partial, C182_bloating_partial, C182_bloating_refuted, C182_lost_refuted, C183_constant_partial, C183_page_refuted, C183_scripts_refuted, C183_variables_refuted, C183_stack_partial, C183_stack_refuted
* `MaskProps.v`: C166_sets_partial, C166_unchanged, C166_nested_partial, C166_fill_refuted
* `MatchProps.v`: C50_glob_partial, C50_glob_refuted, C77_match_partial, C77_safe, C77_take_refuted, C77_plus_refuted, C77_end_refuted, C77_class_refuted, C77_not_class_refuted, C77_word_refuted, C78_capture_partial, C78_class_refuted
* `MathProps.v`: C33_ipoweriui, C33_ipoweri, C33_strict_partial, C33_strict_refuted, C34_djb2, C34_sdbm, C34_djb2_concat, C34_sdbm_concat, C35_partition, C35_bsd_cksum, C36_reproducible_partial, C36_unsigned_range_partial, C36_range_refuted, C70_ascii_partial, C70_high_refuted
* `MemProps.v`: C14_memcpy, C14_memcpy_optimized, C14_memset, C15_memmove_partial, C15_refuted, C16_memcmp, C17_memcmp_order_partial, C17_refuted, C18_memchr, C24_calloc_partial, C24_refuted
* `MextProps.v`: C114_match_partial, C114_class_refuted, C114_negated_refuted, C114_plus_refuted, C114_take_refuted, C114_word_refuted, C114_stars_refuted, C115_report_partial, C115_number_refuted, C116_counted_partial, C116_number_refuted, C116_end_refuted, C116_negated_refuted, C117_safe_partial, C117_counted_refuted, C118_callback_partial, C118_count_refuted, C118_match_refuted
* `MixProps.v`: C191_both_partial, C191_move_partial, C191_shrink_partial, C191_overrun_refuted, C191_crash_refuted
* `MtwoProps.v`: C155_match_partial, C155_behind_end_refuted, C155_star_end_refuted, C155_bracket_refuted, C155_count_end_refuted, C155_plus_end_refuted, C155_not_class_refuted, C155_word_refuted, C156_report_partial, C156_number_refuted, C156_no_match_refuted, C157_safe_partial, C157_message_refuted, C157_endless_refuted, C157_callback_refuted
* `NetProps.v`: C37_htonl, C37_htons, C37_htonl_involution, C37_htons_involution, C38_inet_ntoa, C39_round_trip, C39_parse, C39_parse_short, C39_any_string_partial, C39_malformed_refuted, C40_ether_ntoa_partial, C40_order_refuted, C71_gethostname, C71_nothing
* `NumfProps.v`: C188_numbers, C188_end_refuted, C188_separators_refuted, C188_zero_refuted
* `OptmProps.v`: C130_parse_partial, C130_first_argument_partial, C130_getopt, C130_setopt, C130_option_b_refuted, C130_unknown_accepted_refuted, C130_capital_refuted, C130_first_argument_refuted
* `OutProps.v`: C105_strings, C106_puts_partial, C106_order_refuted, C107_writes_partial, C107_nul_refuted, C108_fprintfs_partial, C108_formats, C108_percent_refuted, C109_snprintfs_partial, C109_overrun_refuted, C109_percent_refuted, C110_fwrite_partial, C110_complete, C110_size0_refuted, C111_positions_partial, C111_positions_refuted, C112_strerror, C112_perror_partial, C112_format_refuted, C113_result_partial, C113_fputc_partial, C113_errors_refuted
* `PageProps.v`: C128_map_partial, C128_rounding_refuted, C128_failure_refuted, C128_wrapper_refuted, C128_mprotect_refuted, C129_unmap, C129_only
* `PathProps.v`: C52_total, C52_dirname, C52_dirname_null, C52_basename_partial, C52_basename_single_refuted, C52_basename_trailing_refuted, C60_where_partial, C60_empty_entry_refuted, C60_empty_path_refuted
* `PrintProps.v`: C48_bounds_partial, C48_width_refuted, C48_group_refuted, C48_binary_refuted, C48_double_refuted, C48_range_refuted, C48_bracket_refuted, C48_lone_percent_refuted, C49_output_partial, C49_exact_partial, C49_zero_refuted, C49_fits_refuted, C86_width_partial, C86_negative_refuted, C86_hex_blank_refuted
* `ProcProps.v`: C119_execl_partial, C119_no_arguments_refuted, C120_execvpe_partial, C120_inner_slash_refuted, C120_dot_refuted, C120_long_refuted, C121_system_partial, C121_killed_refuted, C121_interrupted_refuted, C121_vfork_refuted, C122_vexec_partial, C122_failed_exec, C122_errno_refuted, C122_killed_refuted, C122_vfork_refuted, C123_exec_partial, C123_message_partial, C123_zero_byte_refuted, C123_large_refuted, C123_die_partial, C123_die_zero_refuted, C123_die_errno_partial, C124_sigaction_partial, C124_query_refuted, C124_signal, C125_abort_partial, C125_blocked_refuted
* `PtyProps.v`: C177_grantpt_partial, C177_error, C177_pair, C177_mode_refuted
* `PushProps.v`: C174_mpush, C174_mpushrev
* `RegetProps.v`: C100_sequence, C101_operands_partial, C102_error_partial, C103_abbreviation_partial, C104_restart_partial, C101_operands_refuted, C102_progress_refuted, C102_report_refuted, C102_null_refuted, C103_abbreviation_refuted, C104_restart_refuted
* `RmcProps.v`: C153_lines_partial, C153_before_refuted, C154_comments_partial, C154_trailing_refuted, C154_code_refuted, C154_utf8_refuted, C154_string_refuted
* `ShrinkProps.v`: C62_regions_partial, C62_size_refuted, C63_displacements, C63_shrinkelf_partial, C63_shrinkelf_small, C63_damage_refuted
* `SortProps.v`: C41_permutes, C41_sorts, C41_wide_refuted, C42_bsearch, C42_iff, C42_sorted
* `StrProps.v`: C01_strlen, C01_strlen_null, C01_strnlen, C02_strcpy, C02_stpcpy, C03_strcat, C03_strncat, C04_strlcpy, C05_strncpy_partial, C05_stpncpy_partial, C05_refuted, C06_strcmp, C06_strncmp, C06_total_order, C07_strcasecmp_partial, C07_strncasecmp_partial, C07_folding_refuted, C07_antisym_refuted, C07_strncasecmp_refuted, C08_strchr_partial, C08_strchrnul_partial, C08_strrchr_partial, C08_refuted, C09_strstr_partial, C09_refuted, C10_strcspn, C10_strcspn_optimized, C11_strspn_partial, C11_refuted, C12_strpbrk_partial, C12_refuted, C13_strtok, C19_strdup_partial, C19_strndup_partial, C19_refuted
* `StreamProps.v`: C45_slots_partial, C45_slots_refuted, C45_full_table_refuted, C46_fgets_partial, C46_fgets_refuted, C46_concat, C46_fgetsp, C47_ungetc_partial, C47_high_partial, C47_ungetc_refuted, C74_fgetud, C75_fread_partial, C75_ferror_refuted, C76_flags_partial, C76_long_refuted, C76_append_refuted
* `StripProps.v`: C172_strip_partial, C172_kept, C172_else_refuted, C172_condition_refuted, C172_unclosed_refuted, C173_ifdefs
* `SysProps.v`: C53_order_partial, C53_capacity, C53_order_refuted, C54_sigset_partial, C54_sigset_refuted, C54_range, C55_fdset, C55_fdset_outside, C55_fdzero, C56_classes, C56_cntrl, C56_case_letters_partial, C56_tolower_refuted, C56_toupper_refuted, C56_ispunct_refuted, C57_div, C57_ldiv, C57_abs, C57_labs, C58_align, C73_align_p_refuted, C73_align_p_partial, C59_usleep, C59_sleep, C65_wrapper_partial, C65_wrapper_refuted, C65_open_partial, C65_open_refuted, C66_wait, C66_event_stop, C66_stopped_strict_partial, C66_stopped_strict_refuted, C72_errno_str
* `TermProps.v`: C132_restore, C132_restore_later, C132_fields_partial, C132_fields_refuted, C132_set_refuted, C133_makeraw, C133_sequence_refuted, C133_sequence_partial, C134_isatty, C134_pgrp, C135_ptsname_r_partial, C135_error, C135_ptsname, C135_overflow_refuted, C135_null_refuted
* `TmplProps.v`: C175_section_partial, C175_sections_partial, C175_again, C175_unchanged, C175_end_refuted, C175_second_refuted, C175_status_refuted
* `TspecProps.v`: C144_arithmetic_partial, C144_compare, C144_set, C144_overflow_refuted
* `UdbProps.v`: C165_group_partial, C165_passwd_partial, C165_leak_refuted, C165_twice_refuted, C165_fd_refuted
* `UserProps.v`: C51_token_s, C51_token_i_partial, C51_token_i_refuted, C51_lookup_partial, C51_null_refuted, C51_first_refuted, C51_end_refuted, C79_lookup_partial, C79_members_refuted, C79_page_refuted, C79_first_refuted, C79_many_refuted, C80_usergroups_partial, C80_exact_refuted, C81_grouplist_partial, C81_small_refuted
* `WaitProps.v`: C168_wait_all, C168_waitpid, C168_nohang, C168_no_child, C169_killpg_partial, C169_raise, C169_one_refuted, C169_negative_refuted

### Modelled

* `AbiModel.v`: headers/common, headers/common/bits/alltypes.h, headers/common/bits/ioctl.h, headers/common/bits/signal.h, headers/common/bits/stat.h, headers/common/dirent.h, headers/common/sys/socket.h, headers/common/time.h, include/dirent.h, include/epoll.h, include/filemodes.h, include/globaldefs.h, include/mkfifo.h, include/network.h, include/poll.h, include/termio.h, src/file/creat.c, src/process/signames.h
* `AllocModel.v`: src/intern/startup.c, src/memory/malloc.c
* `ArrModel.v`: macros/array.c, macros/linkedlist.c, src/intern/start_c.c
* `AsmModel.v`: asm/jmp-x64.S, asm/jmp-x64.c, asm/start-linux-x64.c
* `BlankModel.v`: include/ctype.h, tools/stripblanklines.c, tools/stripblanks.c
* `BrkModel.v`: include/globaldefs.h, src/intern/minilib_global.c, src/memory, src/memory/brk.c, src/memory/getbrk.c, src/memory/sbrk.c, src/memory/setbrk.c, src/memory/sys_brk.c
* `CallModel.v`: headers/common/bits/alltypes.h, headers/linux_x64/sys/syscall.h, include/globaldefs.h, include/mremap.h, include/select.h, include/syscall.h, include/syscall_stubs.h, src/file/open.c, src/memory/mmap.c, src/memory/sys_brk.c, src/system/ioctl.c
* `CombModel.v`: headers/common, headers/linux_x64, minilib.h, scripts/combinesources.pl
* `ConvModel.v`: include/ctype.h, src/conversions, src/conversions/atoi.c, src/conversions/atol.c, src/conversions/itobin.c, src/conversions/itodec.c, src/conversions/itohex.c, src/conversions/itooct.c, src/conversions/ltodec.c, src/conversions/ultodec.c, src/string/strtol.c
* `DepModel.v`: minilib.h, scripts/genheaders.pl
* `DirModel.v`: include/dirent.h, src/directories, src/directories/alphasort.c, src/directories/opendirp.c, src/directories/readdir.c, src/directories/rewinddir.c, src/directories/scandir.c, src/directories/seekdir.c, src/directories/telldir.c, src/memory, src/memory/brk.c, src/memory/freebrk.c, src/memory/malloc.c, src/memory/malloc_brk.c, src/memory/sbrk.c, src/memory/sys_brk.c, src/string/strcmp.c
* `DtoModel.v`: src/conversions/dtodec.c
* `ElfmModel.v`: headers/common/bits/alltypes.h, headers/common/elf.h, headers/linux_x64, headers/linux_x64/bits/inotify.h, headers/linux_x64/resource.h, headers/linux_x64/seccomp.h, headers/linux_x64/sys, headers/linux_x64/sys/signal.h, headers/linux_x64/sys/times.h, headers/linux_x64/sys/utsname.h
* `ElftModel.v`: headers/common/elf.h, include/syscall_stubs.h, tools/elftrunc.c
* `EndModel.v`: headers/common/endian.h
* `EnvModel.v`: include/ret_errno.h, src/system, src/system/getenv.c, src/system/putenv.c, src/system/setenv.c, src/system/unsetenv.c
* `ErrmModel.v`: include/prints.h, src/process/error.h
* `ErrstrModel.v`: include/errstr.h, include/errstr2.h, include/errstrshort.h
* `FmtModel.v`: include/mini_fstream.h, src/output, src/output/dprintf.c, src/output/fprintf.c, src/output/snprintf.c, src/output/sprintf.c, src/output/vsprintf.c
* `GconfModel.v`: minilib.c, minimake, scripts/genconfig.sh, scripts/genheaders.pl
* `GetoptModel.v`: contrib/getopt/getopt.h, src/string/strcmp.c
* `GrpModel.v`: include/config.h, src/userdb/getgroups.c, src/userdb/initgroups.c
* `HandModel.v`: src/directories, src/directories/closedir.c, src/directories/dirfd.c, src/directories/opendir.c, src/directories/opendirp.c, src/streams, src/streams/_fopen.c, src/streams/fdopen.c, src/streams/freopen.c
* `ImaxModel.v`: src/string/strtoimax.c, src/termios/term_width.c
* `IpoModel.v`: headers/common/stdint.h, include/network.h
* `KmallocModel.v`: contrib/kmalloc/kmalloc.c, headers/linux_x64/bits/limits.h, src/memory/memset.c
* `KsortModel.v`: contrib/ksort.h, contrib/qsort.h, include/globaldefs.h
* `LdModel.v`: ldscripts/ld.script, ldscripts/ld.script.bloating, ldscripts/ld.script.default, ldscripts/ld.script.default_execstack, ldscripts/ld.script.exec, ldscripts/ld.script.onlytext, ldscripts/ld.script.onlytext_tiny, ldscripts/ld.script.text_and_bss, ldscripts/ld.script.textandbss
* `MaskModel.v`: headers/linux_x64/sys/signal.h, include/globaldefs.h, src/process/sigaction.c
* `MatchModel.v`: include/globaldefs.h, src/match/match.c
* `MathModel.v`: include/minilib_global.h, src/file/cksum.c, src/math, src/math/hashes.c, src/math/powers.c, src/math/rand.c, src/math/sdbm_hash.c, src/math/srand.c
* `MemModel.v`: src/memory/calloc.c, src/memory/mem, src/memory/memchr.c, src/memory/memcmp.c, src/memory/memcpy.c, src/memory/memmove.c, src/memory/memset.c
* `MextModel.v`: src/match/match_ext.c
* `MixModel.v`: src/memory/malloc.c, src/memory/malloc_brk.c
* `MtwoModel.v`: include/globaldefs.h, src/match/match_ext2.c
* `NetModel.v`: src/network, src/network/ether_ntoa.c, src/network/gethostname.c, src/network/htonl.c, src/network/htons.c, src/network/inet_aton.c, src/network/inet_ntoa.c
* `OptmModel.v`: macros/getoptm.h
* `OutModel.v`: include/fputc.h, include/fputs.h, include/mini_fstream.h, include/prints.h, include/syscall.h, include/syscall_stubs.h, src/output, src/output/dprints.c, src/output/fprintfs.c, src/output/perror.c, src/output/snprintfs.c, src/string/strerror.c
* `PageModel.v`: headers/linux_x64/bits/limits.h, include/syscall.h, include/syscall_stubs.h, src/memory, src/memory/map_protected.c, src/memory/mmap.c, src/memory/unmap_protected.c
* `PathModel.v`: src/directories, src/directories/basename.c, src/directories/dirname.c, src/exec/where.c, src/string/strlen.c
* `PrintModel.v`: src/output/vsnprintf.c, src/string/strlen.c
* `ProcModel.v`: headers/linux_x64/sys/signal.h, include/seterrno.h, include/syscall.h, src/exec, src/exec/execl.c, src/exec/execvp.c, src/exec/system.c, src/exec/vexec.c, src/exec/vexec_q.c, src/process, src/process/abort.c, src/process/die.c, src/process/errno_str.c, src/process/exit_errno.c, src/process/sigaction.c, src/process/signal.c
* `PtyModel.v`: headers/common/bits/stat.h, src/termios/pty.c
* `PushModel.v`: asm/macros/mpush_pop.asm
* `RegetModel.v`: contrib/regetopt/getopt_long.c, contrib/regetopt/include/regetopt.h, contrib/regetopt/regetopt.c
* `RmcModel.v`: tools/removeccomments.c
* `ShrinkModel.v`: include/dirent.h, src/directories/readdir.c, src/memory/malloc_brk.c, tools/shrinkelf.c
* `SortModel.v`: src/directories/scandir.c, src/sort, src/sort/bsearch.c, src/sort/qsort.c, src/sort/swap.c
* `StrModel.v`: include/ctype.h, src/string, src/string/stpcpy.c, src/string/stplcpy.c, src/string/stpncpy.c, src/string/strcasecmp.c, src/string/strcat.c, src/string/strchr.c, src/string/strchrnul.c, src/string/strcmp.c, src/string/strcpy.c, src/string/strcspn.c, src/string/strdup.c, src/string/strlcpy.c, src/string/strlen.c, src/string/strncat.c, src/string/strncpy.c, src/string/strndup.c, src/string/strnlen.c, src/string/strpbrk.c, src/string/strrchr.c, src/string/strspn.c, src/string/strstr.c, src/string/strtok.c, src/string/strtok_r.c
* `StreamModel.v`: include/ctype.h, include/filemodes.h, include/mini_fstream.h, include/minilib_global.h, src/file/open.c, src/intern/startup.c, src/streams, src/streams/_fopen.c, src/streams/fgetc.c, src/streams/fgets.c, src/streams/fgetsn.c, src/streams/fgetsp.c, src/streams/fgetud.c, src/streams/fgetul.c, src/streams/ungetc.c
* `StripModel.v`: scripts/combinesources.pl, scripts/ifdefs.pl, scripts/stripundefs.pl
* `SysModel.v`: headers/common/bits/signal.h, headers/linux_x64/sys/signal.h, include/ctype.h, include/globaldefs.h, include/math.h, include/minilib_global.h, include/syscall.h, macros/alignment.h, src/file, src/file/open.c, src/intern/startup.c, src/process, src/process/atexit.c, src/process/errno_str.c, src/process/sigaction.c, src/process/sleep.c
* `TermModel.v`: headers/common/bits/ioctl.h, headers/common/termios.h, include/termio.h, src/output/sprintf.c, src/termios/cfmakeraw.c, src/termios/isatty.c, src/termios/pty.c, src/termios/tcgetattr.c, src/termios/tcgetpgrp.c, src/termios/tcsetattr.c, src/termios/tcsetpgrp.c
* `TmplModel.v`: scripts/template.pl, scripts/template.pm
* `TspecModel.v`: include/bsd_timespec.h
* `UdbModel.v`: include/pwent.h, src/userdb, src/userdb/endgrent.c, src/userdb/endpwent.c, src/userdb/getpwent.c, src/userdb/userdb_open.c
* `UserModel.v`: include/globaldefs.h, include/minilib_global.h, include/pwent.h, src/userdb, src/userdb/endpwent.c, src/userdb/getgrent.c, src/userdb/getgrgid.c, src/userdb/getgrnam.c, src/userdb/getgrouplist.c, src/userdb/getpwent.c, src/userdb/getpwnam.c, src/userdb/getpwuid.c, src/userdb/getusergroups.c, src/userdb/setgrent.c, src/userdb/setpwent.c, src/userdb/userdb.c, src/userdb/userdb_open.c
* `WaitModel.v`: include/globaldefs.h, include/syscall_stubs.h, src/process/killpg.c, src/process/sigaction.c, src/process/wait.c

### Not modelled

* what a system call does inside the kernel beyond the short models named in the table (open files, positions, pages, the break, processes, signals, terminals)
* 32 bit, OSX and clang variants; code under switches that are off by default; analyzemalloc; the test programs
* functions that are empty or do not compile: setbuf, setvbuf, strcoll, memfrob, clearerror, epoll.h, clone_t, fexecve, fexecveat; the debugging macros
* text mode, SDL, VT and X code; the Perl scripts that generate headers and the reference (genheaders.pl apart from its output, cref.pm, index.pm); the parts of minimake that parse its options and call the compiler, apart from the settings of C190
* files of musl in src that are not part of the build
* real time, concurrency, signals arriving during a call, and reentrancy
