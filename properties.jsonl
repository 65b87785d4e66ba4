{"id": "C01", "title": "strlen/strnlen measure a string exactly and read nothing after it", "statement": "For a NUL-terminated string at p, strlen(p) returns the number of bytes before the NUL, reads no byte after the NUL, and strlen(NULL) is 0. strnlen(p,max) returns min(length,max) for max>=1 and reads at most max bytes.", "quantifier": "all strings shorter than INT_MAX, any memory contents and any placement of the regions, including placements where every byte outside the stated regions is inaccessible", "why_tests_cant": "A test samples a few strings and normally has readable bytes after them, so it does not see an over-read.", "anchors": ["src/string/strlen.c:strlen", "src/string/strnlen.c:strnlen"]}
{"id": "C02", "title": "strcpy/stpcpy copy exactly the string and its terminator", "statement": "When dest has room for strlen(src)+1 bytes and does not overlap src, afterwards dest holds the same string, every other byte of memory is unchanged, strcpy returns dest and stpcpy returns the address of the copied terminator.", "quantifier": "all source strings, any memory contents and any placement of the regions, including placements where every byte outside the stated regions is inaccessible", "why_tests_cant": "Tests check a handful of strings and do not check that the rest of memory is untouched.", "anchors": ["src/string/strcpy.c:strcpy", "src/string/stpcpy.c:stpcpy"]}
{"id": "C03", "title": "strcat/strncat append", "statement": "When dest holds a string and has room for the concatenation plus terminator, disjoint from src, afterwards dest holds old(dest) followed by src (strncat: followed by the first min(n,strlen(src)) bytes of src), NUL terminated; nothing else changes and dest is returned.", "quantifier": "all pairs of strings, all n, any memory contents and any placement of the regions, including placements where every byte outside the stated regions is inaccessible", "why_tests_cant": "The appended length, the limit and the frame vary without bound.", "anchors": ["src/string/strcat.c:strcat", "src/string/strncat.c:strncat"]}
{"id": "C04", "title": "strlcpy never writes outside dest[0..n-1] and always terminates", "statement": "For n>=1, strlcpy(dest,src,n) leaves in dest the first min(n-1,strlen(src)) bytes of src followed by NUL, writes no byte outside dest[0..n-1], and returns dest.", "quantifier": "all strings, all n>=1, any memory contents and any placement of the regions, including placements where every byte outside the stated regions is inaccessible", "why_tests_cant": "Off-by-one at the limit only shows for particular combinations of n and length.", "anchors": ["src/string/strlcpy.c:strlcpy"]}
{"id": "C05", "title": "strncpy/stpncpy fill exactly n bytes", "statement": "strncpy(dest,src,n) and stpncpy(dest,src,n) store into dest[0..n-1] the first n bytes of src padded with zeros, touch nothing else, read no byte of src beyond src[n-1] or its terminator; strncpy returns dest and stpncpy returns the address of the first padding byte, or dest+n.", "quantifier": "all strings, all n>=0, any memory contents and any placement of the regions, including placements where every byte outside the stated regions is inaccessible", "why_tests_cant": "An over-read of one byte is invisible unless the byte is inaccessible; tests do not arrange that.", "anchors": ["src/string/strncpy.c:strncpy", "src/string/stpncpy.c:stpncpy"]}
{"id": "C06", "title": "strcmp/strncmp implement the lexicographic order on unsigned bytes", "statement": "strcmp(a,b) is negative, zero or positive exactly as a is lexicographically less than, equal to or greater than b as sequences of unsigned bytes; strncmp(a,b,n) does the same for the first n bytes (n>=0). Consequently strcmp is a total order: antisymmetric, transitive, and 0 only on equal strings.", "quantifier": "all pairs (triples) of strings, all n>=0", "why_tests_cant": "Order laws quantify over pairs and triples of unbounded strings.", "anchors": ["src/string/strcmp.c:strcmp", "src/string/strcmp.c:strncmp", "src/string/strcmp.c:_strcmp"]}
{"id": "C07", "title": "strcasecmp/strncasecmp compare ignoring ASCII case", "statement": "strcasecmp(a,b) is 0 exactly when a and b are equal after mapping A-Z to a-z, and its sign is antisymmetric; strncasecmp(a,b,n) does so for the first n bytes.", "quantifier": "all pairs of strings, all n>=1", "why_tests_cant": "Needs every pair of bytes in every position and every length.", "anchors": ["src/string/strcasecmp.c:strcasecmp", "src/string/strcasecmp.c:strncasecmp", "include/ctype.h:tolower"]}
{"id": "C08", "title": "strchr/strchrnul/strrchr find the first/last occurrence", "statement": "For a character value c in 0..255, strchr(s,c) returns the address of the first byte of s equal to c, 0 if there is none (the terminator counts, so c=0 gives its address); strchrnul returns the terminator instead of 0; strrchr returns the last occurrence under the same convention.", "quantifier": "all strings, all c in 0..255", "why_tests_cant": "Absence of an earlier/later occurrence is a universal statement over positions.", "anchors": ["src/string/strchr.c:strchr", "src/string/strchrnul.c:strchrnul", "src/string/strrchr.c:strrchr"]}
{"id": "C09", "title": "strstr finds the first occurrence of a substring", "statement": "strstr(big,little) returns the address of the leftmost position where little occurs in big, big itself for an empty little, and 0 if little does not occur; it reads only the two strings.", "quantifier": "all pairs of strings, any memory contents and any placement of the regions, including placements where every byte outside the stated regions is inaccessible", "why_tests_cant": "Backtracking after partial matches only goes wrong for specially overlapping strings.", "anchors": ["src/string/strstr.c:strstr"]}
{"id": "C10", "title": "strcspn returns the length of the initial segment free of reject characters", "statement": "strcspn(s,r) is the length of the longest prefix of s containing no byte of r, in the plain and in the OPTIMIZE (bitmask prefilter) build alike.", "quantifier": "all pairs of strings, both build variants", "why_tests_cant": "The prefilter must be proved never to skip a rejecting byte, for all byte sets.", "anchors": ["src/string/strcspn.c:strcspn"]}
{"id": "C11", "title": "strspn returns the length of the initial segment of accepted characters", "statement": "strspn(s,a) is the length of the longest prefix of s consisting only of bytes of a, and reads only the two strings.", "quantifier": "all pairs of strings, any memory contents and any placement of the regions, including placements where every byte outside the stated regions is inaccessible", "why_tests_cant": "Unbounded strings; failing inputs are repeated characters.", "anchors": ["src/string/strspn.c:strspn"]}
{"id": "C12", "title": "strpbrk finds the first byte belonging to a set", "statement": "strpbrk(s,set) returns the address of the first byte of s that is in set, 0 if none.", "quantifier": "all pairs of strings", "why_tests_cant": "Absence of an earlier member is universal.", "anchors": ["src/string/strpbrk.c:strpbrk"]}
{"id": "C13", "title": "strtok_r yields exactly the maximal delimiter-free fields, in order", "statement": "Calling strtok_r with the string and then with NULL until it returns NULL yields, in order, exactly the maximal non-empty runs of non-delimiter bytes of the original string, each NUL terminated in place; writes happen only inside the string and only turn delimiters into NUL; further calls keep returning NULL.", "quantifier": "all strings, all delimiter sets, the whole sequence of calls, any memory contents and any placement of the regions, including placements where every byte outside the stated regions is inaccessible", "why_tests_cant": "It is a statement about an unbounded sequence of calls sharing hidden state.", "anchors": ["src/string/strtok_r.c:strtok_r", "src/string/strtok.c:strtok"]}
{"id": "C14", "title": "memcpy/memset write exactly n bytes", "statement": "For non-overlapping regions memcpy(d,s,n) makes d[0..n-1] equal to s[0..n-1], changes nothing else and returns d, in the plain and in the mini_OPTIMIZE (word-wise) build; memset(s,c,n) sets exactly s[0..n-1] to (char)c.", "quantifier": "all n, all contents, both build variants, any memory contents and any placement of the regions, including placements where every byte outside the stated regions is inaccessible", "why_tests_cant": "The word-wise variant must be right for every n and never touch a byte past n.", "anchors": ["src/memory/memcpy.c:memcpy", "src/memory/memset.c:memset"]}
{"id": "C15", "title": "memmove is correct for overlapping regions", "statement": "After memmove(d,s,n), d[0..n-1] holds the original s[0..n-1] whatever the overlap, and nothing else changed.", "quantifier": "all n, all relative placements of d and s", "why_tests_cant": "Every overlap distance and length.", "anchors": ["src/memory/memmove.c:memmove"]}
{"id": "C16", "title": "memcmp returns 0 exactly on equal regions", "statement": "For n>=1, memcmp(a,b,n)==0 iff the two regions hold the same n bytes; it reads no byte outside them, and memcmp(b,a,n) is the negation of memcmp(a,b,n).", "quantifier": "all n>=1, all contents, any memory contents and any placement of the regions, including placements where every byte outside the stated regions is inaccessible", "why_tests_cant": "Unbounded contents.", "anchors": ["src/memory/memcmp.c:memcmp"]}
{"id": "C17", "title": "memcmp orders by unsigned bytes", "statement": "memcmp(a,b,n) has the sign of the first differing bytes compared as unsigned char.", "quantifier": "all n>=0, all contents", "why_tests_cant": "Needs bytes >=128 at the deciding position.", "anchors": ["src/memory/memcmp.c:memcmp"]}
{"id": "C18", "title": "memchr finds the first occurrence within n bytes", "statement": "memchr(s,c,n) for c in 0..255 returns the address of the first of the n bytes equal to c, or 0, reading only those n bytes.", "quantifier": "all n, c, contents, any memory contents and any placement of the regions, including placements where every byte outside the stated regions is inaccessible", "why_tests_cant": "Universal absence and no over-read.", "anchors": ["src/memory/memchr.c:memchr"]}
{"id": "C19", "title": "strdup/strndup return a faithful copy in their own block", "statement": "strdup(s) returns a fresh block that holds s and was requested large enough for s and its terminator; strndup(s,n) a block holding the first min(n,strlen(s)) bytes, terminated; neither writes outside the block it requested.", "quantifier": "all strings, all n>=0", "why_tests_cant": "Heap overflow of one byte depends on length mod 4 and on neighbours.", "anchors": ["src/string/strdup.c:strdup", "src/string/strndup.c:strndup", "src/string/stplcpy.c:stplcpy"]}
{"id": "C20", "title": "malloc/free: live blocks are disjoint, inside the buffer, and keep their contents", "statement": "In every history of malloc(n>=1) and free (each block freed at most once), interleaved with writes by the program inside its own live blocks, every block returned has at least n usable bytes inside the static buffer, is 4-byte aligned, does not overlap any other live block, and its contents are changed only by the program's own writes. (int additions in free are taken to wrap, see C67; the buffer size is a multiple of 4.)", "quantifier": "all buffer sizes, all finite histories of malloc/free/write", "why_tests_cant": "The number of histories is infinite; fragmentation and merging bugs need specific free orders.", "anchors": ["src/memory/malloc.c:malloc", "src/memory/malloc.c:free"]}
{"id": "C21", "title": "freeing everything gives the whole buffer back", "statement": "In every history of malloc(n>=1)/free, once all allocated blocks have been freed, in whatever order, the allocator is again in its initial state: the complete buffer is available.", "quantifier": "all buffer sizes and histories", "why_tests_cant": "A leak appears only for certain free orders.", "anchors": ["src/memory/malloc.c:malloc", "src/memory/malloc.c:free"]}
{"id": "C22", "title": "malloc fails exactly when the space is short, and then changes nothing", "statement": "malloc(n), n>=1, returns 0 exactly when the remaining buffer minus the rounded block is below the 64 byte reserve; a failing call changes neither the allocator state nor any byte.", "quantifier": "all reachable states and n>=1", "why_tests_cant": "Boundary of every reachable state.", "anchors": ["src/memory/malloc.c:malloc"]}
{"id": "C23", "title": "realloc preserves the common prefix", "statement": "After q=realloc(p,n) with q!=0 the first min(old size,n) bytes of q are those of p, and no other live block is altered; on failure p is still valid.", "quantifier": "all reachable states, all sizes", "why_tests_cant": "Sizes and neighbour layout vary.", "anchors": ["src/memory/malloc.c:realloc"]}
{"id": "C24", "title": "calloc returns zeroed memory", "statement": "calloc(nmemb,size) returns a block whose nmemb*size bytes are all zero.", "quantifier": "all nmemb, size>=1 and memory contents", "why_tests_cant": "Fresh buffers are zero anyway, so a test sees zeros by accident.", "anchors": ["src/memory/calloc.c:calloc"]}
{"id": "C25", "title": "atoi reads every decimal int", "statement": "atoi on an optional '-' followed by decimal digits whose value fits an int returns that value.", "quantifier": "all digit strings (any number of leading zeros) in range", "why_tests_cant": "2^32 values times unboundedly many spellings.", "anchors": ["src/conversions/atoi.c:atoi"]}
{"id": "C26", "title": "atol reads every decimal long", "statement": "atol on optional blanks, an optional sign and decimal digits, followed by any non-digit, returns the value when it fits a long.", "quantifier": "all digit strings in range, any trailing text", "why_tests_cant": "2^64 values.", "anchors": ["src/conversions/atol.c:atol"]}
{"id": "C27", "title": "itodec/uitodec print the canonical decimal numeral", "statement": "uitodec(i,buf,0,0,pad) writes the decimal numeral of i without leading zeros, NUL terminated, and returns its length (at most 10); itodec does the same with a leading '-' for negatives, for INT_MIN too.", "quantifier": "all 2^32 values, any buffer contents", "why_tests_cant": "Exhaustive testing of 2^32 values in each variant is not done; the proof is uniform.", "anchors": ["src/conversions/itodec.c:uitodec", "src/conversions/itodec.c:itodec"]}
{"id": "C28", "title": "ultodec/ltodec print the canonical decimal numeral", "statement": "ultodec(i,buf,0,0) writes the decimal numeral of i and returns its length; ltodec does so with a sign, for LONG_MIN too; value 0 prints as \"0\".", "quantifier": "all 2^64 values", "why_tests_cant": "2^64 values.", "anchors": ["src/conversions/ultodec.c:ultodec", "src/conversions/ltodec.c:ltodec"]}
{"id": "C29", "title": "decimal printing and reading are inverse", "statement": "atoi(itodec(i)) = i for every int and atol(ltodec(l)) = l for every nonzero long.", "quantifier": "all 2^32 ints, all 2^64 longs", "why_tests_cant": "Round-trip over the full range.", "anchors": ["src/conversions/itodec.c:itodec", "src/conversions/atoi.c:atoi", "src/conversions/ltodec.c:ltodec", "src/conversions/atol.c:atol"]}
{"id": "C30", "title": "hex output is the hexadecimal numeral and reads back", "statement": "_itohex(n,buf,pad,capitals) writes the hexadecimal numeral of n left-padded with zeros to pad digits (pad 1..8; 0 = no padding), and strtol(...,16) of it is n.", "quantifier": "all 2^32 values, all paddings 0..8, both cases", "why_tests_cant": "2^32 values times paddings.", "anchors": ["src/conversions/itohex.c:_itohex", "src/string/strtol.c:strtol"]}
{"id": "C31", "title": "strtol converts in the requested base and stops at the first non-digit", "statement": "strtol(s,&e,base) for base 2..36 (or 0 = by prefix) skips blanks, takes an optional '-', and converts the longest run of digits valid in that base; e points behind it; overflow saturates to LONG_MIN/LONG_MAX.", "quantifier": "all strings, all bases", "why_tests_cant": "Digits just outside the base only matter for particular base/char pairs; overflow by wrap for particular magnitudes.", "anchors": ["src/string/strtol.c:strtol"]}
{"id": "C32", "title": "binary and octal output", "statement": "_itobin writes the binary numeral of its argument grouped as requested, itooct the octal numeral; the returned length is the number of characters written.", "quantifier": "all 2^32 values", "why_tests_cant": "2^32 values.", "anchors": ["src/conversions/itobin.c:_itobin", "src/conversions/itooct.c:itooct"]}
{"id": "C33", "title": "integer power by squaring", "statement": "ipoweriui(x,n) is x^n modulo 2^32 for every unsigned exponent, ipoweri agrees for n>=0, with O(log n) multiplications.", "quantifier": "all x, n", "why_tests_cant": "2^64 argument pairs.", "anchors": ["src/math/powers.c:ipoweriui", "src/math/powers.c:ipoweri"]}
{"id": "C34", "title": "string hashes are the textbook folds and compose", "statement": "djb2_hash and sdbm_hash of a string equal the textbook fold over its bytes modulo the word size, so hashing a concatenation equals continuing the hash.", "quantifier": "all strings", "why_tests_cant": "Unbounded strings and wrap-around.", "anchors": ["src/math/hashes.c:djb2_hash", "src/math/sdbm_hash.c:sdbm_hash"]}
{"id": "C35", "title": "block checksums do not depend on how the data is cut into blocks", "statement": "Feeding a byte sequence to bsd_cksumblock (djb checksum) in any partition into blocks gives the same result as in one block, and the bsd checksum always stays within 16 bits.", "quantifier": "all byte sequences, all partitions", "why_tests_cant": "All partitions of unbounded data.", "anchors": ["src/file/cksum.c:bsd_cksumblock", "src/file/cksum.c:bsd_cksum", "src/file/cksum.c:djb_cksum"]}
{"id": "C36", "title": "rand stays within 0..RAND_MAX and is reproducible from the seed", "statement": "After srand(s) every rand() value is in 0..2^31-1, and equal seeds give equal sequences.", "quantifier": "all seeds, all sequence positions", "why_tests_cant": "Unbounded sequences from 2^32 seeds.", "anchors": ["src/math/rand.c:rand", "src/math/srand.c:srand"]}
{"id": "C37", "title": "htonl/htons reverse the byte order and are involutions", "statement": "htonl(x) is x with its four bytes reversed, htons(x) with its two bytes reversed; applying either twice gives x.", "quantifier": "all values", "why_tests_cant": "2^32 values.", "anchors": ["src/network/htonl.c:htonl", "src/network/htons.c:htons"]}
{"id": "C38", "title": "inet_ntoa prints dotted decimal inside its static buffer", "statement": "inet_ntoa prints the four address bytes in network order as decimal numerals separated by dots, in at most 15 characters plus NUL.", "quantifier": "all 2^32 addresses", "why_tests_cant": "2^32 addresses.", "anchors": ["src/network/inet_ntoa.c:inet_ntoa"]}
{"id": "C39", "title": "inet_aton inverts inet_ntoa", "statement": "For every address a, inet_aton(inet_ntoa(a)) stores a and returns nonzero; on a string that is not an address inet_aton returns 0.", "quantifier": "all addresses, all strings", "why_tests_cant": "2^32 addresses; all malformed strings.", "anchors": ["src/network/inet_aton.c:inet_aton", "src/network/inet_ntoa.c:inet_ntoa"]}
{"id": "C40", "title": "ether_ntoa prints the six bytes in hex", "statement": "ether_ntoa prints the six bytes as colon separated two digit hex numerals, most significant nibble first.", "quantifier": "all 2^48 addresses", "why_tests_cant": "2^48 addresses.", "anchors": ["src/network/ether_ntoa.c:ether_ntoa"]}
{"id": "C41", "title": "qsort sorts", "statement": "For any comparison function that is a total preorder, qsort leaves the array sorted and a permutation of the input, whatever count and element width; it never accesses outside the array.", "quantifier": "all arrays, lengths, element widths, total preorders", "why_tests_cant": "All lengths and orders; the shell sort gap sequence matters at particular lengths.", "anchors": ["src/sort/qsort.c:qsort", "src/sort/swap.c:swap"]}
{"id": "C42", "title": "bsearch finds a key iff it is present", "statement": "On an array sorted by the comparison, bsearch returns an element equal to the key if one exists, NULL otherwise, accessing only array elements.", "quantifier": "all sorted arrays, keys, lengths", "why_tests_cant": "All lengths and positions.", "anchors": ["src/sort/bsearch.c:bsearch"]}
{"id": "C43", "title": "getenv returns the value of the first matching variable", "statement": "In an environment of NAME=value entries getenv(name) returns the value of the first entry whose name is exactly name, and 0 if there is none.", "quantifier": "all environments, all names", "why_tests_cant": "Prefix-related names in any order.", "anchors": ["src/system/getenv.c:getenv"]}
{"id": "C44", "title": "putenv/setenv/unsetenv behave like updates of a name-value map", "statement": "After setenv(n,v,1) or putenv(\"n=v\") getenv(n) is v and getenv of every other name is unchanged; after unsetenv(n) getenv(n) is 0 and others are unchanged; setenv with overwrite 0 does not change an existing variable. putenv of a string without '=' or with an empty name returns -1 and changes nothing.", "quantifier": "all environments, all names and values, all operation sequences", "why_tests_cant": "Interference between names that are prefixes of one another.", "anchors": ["src/system/putenv.c:putenv", "src/system/setenv.c:setenv", "src/system/unsetenv.c:unsetenv", "src/system/getenv.c:getenv"]}
{"id": "C45", "title": "open streams keep distinct slots", "statement": "In every history of fopen and fclose a stream that is open is never handed out again nor overwritten by another fopen.", "quantifier": "all histories of fopen/fclose", "why_tests_cant": "Needs particular close orders.", "anchors": ["src/streams/fopen.c:_fopen", "include/mini_fstream.h:fclose"]}
{"id": "C46", "title": "fgets/fgetsn/fgetsp never write past the given size", "statement": "fgets(buf,size,f) stores at most size-1 bytes, up to and including the first newline, followed by NUL, whatever the input; equal inputs read by successive calls concatenate to the input.", "quantifier": "all inputs, all sizes>=1, any sequence of calls", "why_tests_cant": "All input/size combinations.", "anchors": ["src/streams/fgets.c:fgets", "src/streams/fgetsn.c:fgetsn", "src/streams/fgetsp.c:fgetsp"]}
{"id": "C47", "title": "ungetc pushes back exactly the character", "statement": "After ungetc(c,f) the next fgetc(f) returns c and the reads after that continue where they were.", "quantifier": "all characters 0..255 and stream states", "why_tests_cant": "All byte values and flag states.", "anchors": ["src/streams/ungetc.c:ungetc", "src/streams/fgetc.c:fgetc"]}
{"id": "C48", "title": "snprintf never writes outside its buffer", "statement": "vsnprintf(buf,size,fmt,...) never writes a byte outside buf[0..size-1], for any format and arguments; if the output does not fit the program is stopped by SIGSEGV before the overrun.", "quantifier": "all formats, arguments, sizes", "why_tests_cant": "All format strings.", "anchors": ["src/output/vsnprintf.c:vsnprintf"]}
{"id": "C49", "title": "snprintf formats literals, %s, %c, %d, %u, %x, %X as specified", "statement": "When the result fits, snprintf of a format made of literal text, %%, %s, %c, %d, %u, %x, %X without modifiers writes the concatenation of the corresponding texts, NUL terminated, and returns its length.", "quantifier": "all such formats and arguments", "why_tests_cant": "All combinations.", "anchors": ["src/output/vsnprintf.c:vsnprintf", "src/output/snprintf.c:snprintf"]}
{"id": "C50", "title": "match decides glob patterns", "statement": "For patterns built from literals, '?' and '*', match(text,pattern,0) returns 1 exactly when the text matches in the usual glob sense.", "quantifier": "all texts and patterns", "why_tests_cant": "Backtracking on repeated stars.", "anchors": ["src/match/match.c:match"]}
{"id": "C51", "title": "passwd/group lines are parsed into their fields", "statement": "token_s/token_i split a passwd or group line at ':' and newline exactly, numeric fields get their decimal value, for any well-formed line; getpwnam/getpwuid return the first matching entry.", "quantifier": "all well-formed databases and keys", "why_tests_cant": "All databases.", "anchors": ["src/userdb/userdb.c:token_s", "src/userdb/userdb.c:token_i", "src/userdb/getpwent.c:getpwent", "src/userdb/getpwnam.c:getpwnam", "src/userdb/getpwuid.c:getpwuid"]}
{"id": "C52", "title": "dirname/basename split a path", "statement": "dirname(path) is the parent directory and basename(path) the last component as POSIX specifies, modifying only bytes of path.", "quantifier": "all paths", "why_tests_cant": "Any number of slashes anywhere.", "anchors": ["src/directories/dirname.c:dirname", "src/directories/basename.c:basename"]}
{"id": "C53", "title": "atexit handlers run in reverse order, each exactly once", "statement": "Functions registered with atexit run at exit in reverse order of registration, each once, and nothing else is called; registrations beyond the capacity are rejected with a nonzero result and leave the table unchanged.", "quantifier": "all registration sequences", "why_tests_cant": "All sequences around the capacity.", "anchors": ["src/process/atexit.c:atexit", "src/intern/startup.c"]}
{"id": "C54", "title": "signal sets are sets", "statement": "sigaddset/sigdelset/sigismember/sigemptyset/sigfillset implement a set of signal numbers 1..64: membership after any sequence of operations is as in a mathematical set.", "quantifier": "all signal numbers 1..64, all operation sequences", "why_tests_cant": "All sequences; bits above 31.", "anchors": ["src/process/sigaction.c:sigaddset", "src/process/sigaction.c:sigdelset", "src/process/sigaction.c:sigismember", "src/process/sigaction.c:sigemptyset", "src/process/sigaction.c:sigfillset"]}
{"id": "C55", "title": "fd_set macros are sets", "statement": "FD_ZERO/FD_SET/FD_CLR/FD_ISSET implement a set of descriptors 0..FD_SETSIZE-1.", "quantifier": "all descriptors, all operation sequences", "why_tests_cant": "All sequences.", "anchors": ["include/globaldefs.h:FD_SET"]}
{"id": "C56", "title": "character classification agrees with ASCII", "statement": "isdigit, isalpha, isalnum, isupper, islower, isspace, isprint, isgraph, iscntrl, ispunct, isxdigit agree with the C locale for 0..127; tolower/toupper map exactly the letters.", "quantifier": "all character values", "why_tests_cant": "Small domain; settled exhaustively by proof.", "anchors": ["include/ctype.h"]}
{"id": "C57", "title": "div/ldiv satisfy the division identity", "statement": "div(n,d) for d!=0 (and no overflow) returns quot*d+rem = n, |rem|<|d|, rem has the sign of n; abs/labs are the absolute value except for the minimum.", "quantifier": "all ints/longs", "why_tests_cant": "2^64 pairs.", "anchors": ["include/math.h:div", "include/math.h:ldiv"]}
{"id": "C58", "title": "ALIGN macros round up", "statement": "ALIGN_2..ALIGN_64(x) is the least multiple of the alignment that is >= x.", "quantifier": "all x", "why_tests_cant": "2^32 values.", "anchors": ["macros/alignment.h"]}
{"id": "C59", "title": "usleep sleeps the exact number of microseconds", "statement": "usleep(us) requests seconds and nanoseconds with s*10^9+ns = us*1000 and 0<=ns<10^9.", "quantifier": "all argument values", "why_tests_cant": "2^32 values.", "anchors": ["src/process/sleep.c:usleep"]}
{"id": "C60", "title": "where returns the first PATH entry that is executable", "statement": "where(file,buf) returns the path of file in the first directory of PATH containing it, 0 if none.", "quantifier": "all PATH values, all file systems (as an oracle)", "why_tests_cant": "All PATH strings.", "anchors": ["src/exec/where.c:where"]}
{"id": "C61", "title": "getopt parses a command line as POSIX specifies", "statement": "Calling getopt repeatedly yields, in order, the options and option arguments of a well-formed command line and stops at \"--\" or the first operand with optind on the first operand.", "quantifier": "all option strings and command lines, whole call sequence", "why_tests_cant": "Unbounded sequence of calls with hidden state.", "anchors": ["contrib/getopt/getopt.h:getopt"]}
{"id": "C62", "title": "shrinkelf regions cover every segment and are disjoint", "statement": "After reading any list of segments, the list of file regions computed by shrinkelf is sorted, its regions are pairwise disjoint and not adjacent, and they contain exactly the bytes of the ELF header, the program header and the segments.", "quantifier": "all segment lists (any offsets, sizes, overlaps, order)", "why_tests_cant": "All overlap patterns.", "anchors": ["tools/shrinkelf.c:compute_regions"]}
{"id": "C63", "title": "shrinkelf relocates consistently", "statement": "Displacements are multiples of the page size, target regions do not overlap and keep order, and each segment's new offset addresses in the output exactly the bytes it addressed in the input.", "quantifier": "all region lists", "why_tests_cant": "All layouts.", "anchors": ["tools/shrinkelf.c:compute_disps", "tools/shrinkelf.c:modify_hdrs", "tools/shrinkelf.c:process_file"]}
{"id": "C64", "title": "scandir returns exactly the entries accepted by the filter", "statement": "scandir stores in order exactly the directory entries for which the selector returns nonzero (all if no selector), sorted if a comparison is given, and returns their number.", "quantifier": "all directories, selectors, comparators", "why_tests_cant": "Unbounded directories.", "anchors": ["src/directories/scandir.c:scandir"]}
{"id": "C65", "title": "syscall wrappers translate kernel errors", "statement": "A wrapper returns the kernel's value when it is not negative; otherwise it sets errno to the negated value and returns -1; errno is untouched on success.", "quantifier": "all kernel results", "why_tests_cant": "All int results.", "anchors": ["include/syscall.h:REAL_define_syscall"]}
{"id": "C66", "title": "wait status macros decode what the kernel encodes", "statement": "For an exit with code c WIFEXITED is true and WEXITSTATUS is c; for death by signal s WIFSIGNALED is true and WTERMSIG is s; for a stop by signal s, with or without a ptrace event number above it, WIFSTOPPED is true and WSTOPSIG is s; the cases are exclusive.", "quantifier": "all exit codes and signals", "why_tests_cant": "All status words.", "anchors": ["include/globaldefs.h:WEXITSTATUS"]}
{"id": "C67", "title": "free performs no undefined signed arithmetic", "statement": "In no history of malloc(n>=1) and free does free overflow a signed int.", "quantifier": "all buffer sizes and histories", "why_tests_cant": "Compilers usually emit wrapping code, so a test sees nothing.", "anchors": ["src/memory/malloc.c:free"]}
{"id": "C68", "title": "number conversions perform no undefined signed arithmetic", "statement": "itodec, ltodec, atoi on values in range never overflow a signed int or long.", "quantifier": "all values, all spellings", "why_tests_cant": "Compilers usually emit wrapping code, so a test sees nothing; only INT_MIN, LONG_MIN and long spellings are affected.", "anchors": ["src/conversions/itodec.c:itodec", "src/conversions/ltodec.c:ltodec", "src/conversions/atoi.c:atoi"]}
{"id": "C69", "title": "a width right-aligns the number and never truncates it", "statement": "uitodec(i,buf,prec,0,pad) writes the decimal numeral of i, preceded by exactly as many pad characters (blanks for pad 0) as are needed to reach prec characters, for every width 0..10.", "quantifier": "all values, all widths 0..10, all pad characters", "why_tests_cant": "2^32 values times widths times pad characters.", "anchors": ["src/conversions/itodec.c:uitodec"]}
{"id": "C70", "title": "the checksums are the published ones", "statement": "bsd_cksum equals the BSD checksum (sum -r) of the bytes, djb_cksum equals the djb2 hash of the bytes modulo 2^32.", "quantifier": "all byte sequences", "why_tests_cant": "A checksum agrees on ASCII test data and differs only on bytes >= 128.", "anchors": ["src/file/cksum.c:bsd_cksum", "src/file/cksum.c:djb_cksum"]}
{"id": "C71", "title": "gethostname stays inside the buffer and terminates", "statement": "gethostname(name,len) writes at most len bytes; for len>0 the result is the host name cut to len-1 bytes, always NUL terminated; if uname fails or len is 0 nothing is written.", "quantifier": "all host names up to 64 bytes, all buffer lengths", "why_tests_cant": "The boundary cases are host names as long as the buffer or one less.", "anchors": ["src/network/gethostname.c:gethostname"]}
{"id": "C72", "title": "errno_str prints the error number", "statement": "errno_str(e) returns a string of decimal digits whose value is |e|, two digits below 100 and three from 100 on.", "quantifier": "all error numbers of absolute value below 200", "why_tests_cant": "The digit split and the choice of the start pointer depend on the value.", "anchors": ["src/process/errno_str.c:errno_str"]}
{"id": "C73", "title": "ALIGN_P rounds up to the size of a pointer", "statement": "ALIGN_P(p) is the least multiple of 8 that is >= p.", "quantifier": "all p", "why_tests_cant": "A pointer below 256 bytes into a page behaves differently from the next one.", "anchors": ["macros/alignment.h:ALIGN_P"]}
{"id": "C74", "title": "fgetud/fgetul read an unsigned decimal number", "statement": "fgetud(f) (fgetul(f)) consumes the decimal digits the stream goes on with and the one character after them, and returns the number the digits denote modulo 2^32 (2^64).", "quantifier": "all stream contents and pushback states", "why_tests_cant": "All digit strings and delimiters.", "anchors": ["src/streams/fgetud.c:fgetud", "src/streams/fgetul.c:fgetul"]}
{"id": "C75", "title": "fread delivers whole items and feof/ferror tell why it stopped", "statement": "fread(p,size,n,f) stores the next min(size*n, rest) bytes of the input at p and nothing else, returns the number of complete items, afterwards feof is 1 exactly if fewer than n items were there, and ferror stays 0 if no read failed.", "quantifier": "all inputs, sizes>=1, counts", "why_tests_cant": "All combinations of input length, item size and count.", "anchors": ["include/mini_fstream.h:fread", "include/mini_fstream.h:feof", "include/mini_fstream.h:ferror", "include/mini_fstream.h:clearerr"]}
{"id": "C76", "title": "fopen modes open with the POSIX flags", "statement": "fopen(name,mode) opens with the flags POSIX gives for mode: r, w, a with or without + (and b) anywhere behind the first letter; other first letters are refused.", "quantifier": "all mode strings", "why_tests_cant": "All mode strings with flags in any order.", "anchors": ["src/streams/_fopen.c:_fopen"]}
{"id": "C77", "title": "match follows its documented pattern language", "statement": "match(text,pattern,0) returns 1 exactly when the text matches the pattern as documented (literals, escaped characters, \\d \\D \\s \\S \\w \\W, [..], !, ?, *, +, %, #, $, @) and 0 otherwise, and reads neither string past its end, whatever the pattern.", "quantifier": "all texts and patterns", "why_tests_cant": "Backtracking over all texts and all patterns; malformed patterns.", "anchors": ["src/match/match.c:match", "src/match/match.c:_match"]}
{"id": "C78", "title": "match reports what % matched", "statement": "When match(text,pattern,&st) returns 1 for a pattern with a '%', st holds position and length of the text matched by the first '%', the shortest for which the rest matches; after a failed match its length is 0.", "quantifier": "all texts and patterns with a %", "why_tests_cant": "Shortest match over all ways of matching the rest of the pattern.", "anchors": ["src/match/match.c:match", "src/match/match.c:_match"]}
{"id": "C79", "title": "group lookups find the group and its members", "statement": "For any sequence of getgrnam, getgrgid, setgrent and getgrent on a well-formed group file, lookups return the first group with that name or gid or null, iteration returns the groups in file order and then null, and each returned struct has the name, password, gid and the null-terminated list of exactly the members of the group.", "quantifier": "all well-formed group files and call sequences", "why_tests_cant": "The file is modified in place and re-parsed through a table of saved pointers; only arbitrary sequences of calls show whether the second pass agrees with the first.", "anchors": ["src/userdb/getgrent.c:getgrent", "src/userdb/getgrnam.c:getgrnam", "src/userdb/getgrgid.c:getgrgid", "src/userdb/setgrent.c:setgrent", "src/userdb/userdb_open.c:userdb_open"]}
{"id": "C80", "title": "getusergroups lists the groups of a user", "statement": "getusergroups(user,max,list) stores the gids of exactly the groups that have user as a member, in file order, and returns their number, if at most max; otherwise it stores no more than max and returns -1. Earlier lookups make no difference.", "quantifier": "all group files, users, sizes, and preceding call histories", "why_tests_cant": "All databases and histories.", "anchors": ["src/userdb/getusergroups.c:getusergroups"]}
{"id": "C81", "title": "getgrouplist adds the given group once", "statement": "getgrouplist(user,group,groups,&n) stores the groups of user and group (once) and returns their number if they fit in n entries, else -1, and never writes outside of groups[0..n).", "quantifier": "all group files, users, groups and n", "why_tests_cant": "All databases and array sizes, including the sizes that just fit or do not.", "anchors": ["src/userdb/getgrouplist.c:getgrouplist"]}
{"id": "C82", "title": "getopt reports bad options and goes on", "statement": "When getopt meets an option that is not in optstring it returns '?' with the character in optopt and continues with the next character; for a missing option argument it returns ':' or '?' depending on a leading colon of optstring, and the following call returns -1.", "quantifier": "all option strings and command lines with errors anywhere, whole call sequence", "why_tests_cant": "Progress of a loop over an unbounded sequence of calls.", "anchors": ["contrib/getopt/getopt.h:getopt"]}
{"id": "C83", "title": "A directory stream is a position in the list of entries", "statement": "Whatever sequence of readdir, rewinddir, telldir and seekdir (to positions obtained from telldir) a program performs, readdir returns the entries of the directory in order from the current position and 0 at the end, rewinddir starts again, and seekdir(telldir()) returns to the same entry - independently of how many entries the kernel delivers at a time.", "quantifier": "all directories, all buffer fillings by getdents, all call sequences", "why_tests_cant": "Unbounded histories combined with every possible placement of buffer boundaries.", "anchors": ["src/directories/readdir.c:readdir", "src/directories/seekdir.c:seekdir", "src/directories/telldir.c:telldir", "src/directories/rewinddir.c:rewinddir", "src/directories/opendirp.c:opendirp"]}
{"id": "C84", "title": "The data segment allocator keeps blocks apart and contents intact", "statement": "Blocks obtained from malloc_brk never overlap, have the requested size and keep the bytes written to them while other blocks are allocated, freed or the last block is resized with realloc; free of the last block and free_brk return the space; memory below the initial break is never touched; when the break cannot be moved 0 is returned.", "quantifier": "all sequences of malloc_brk, realloc, free and writes", "why_tests_cant": "Unbounded interleavings of allocations, resizes, frees and writes.", "anchors": ["src/memory/malloc_brk.c:malloc_brk", "src/memory/malloc.c:realloc", "src/memory/malloc.c:free", "src/memory/freebrk.c:free_brk", "src/memory/sbrk.c:sbrk", "src/memory/brk.c:brk"]}
{"id": "C85", "title": "Decimal output groups the digits in threes", "statement": "With a nonzero limiter, uitodec, itodec, ultodec and ltodec (without padding) store the decimal numeral with the limiter between every group of three digits counted from the right, and nowhere else (after a minus sign for negative numbers), terminated, return the number of characters and write nothing else.", "quantifier": "all unsigned int, int, unsigned long and long values and all limiter characters", "why_tests_cant": "All 2^32 and 2^64 values with every number of digits.", "anchors": ["src/conversions/itodec.c:uitodec", "src/conversions/itodec.c:itodec", "src/conversions/ultodec.c:ultodec", "src/conversions/ltodec.c:ltodec"]}
{"id": "C86", "title": "snprintf pads numbers to the width and prints longs", "statement": "When the result fits, %Nu, %Nd, %Nx, %NX (N a width) print the number right aligned in at least N characters, filled with blanks or, when N starts with 0, with zeros; %lu and %ld print long values; literal text between them is copied, the result is NUL terminated and its length returned.", "quantifier": "all sequences of such conversions, all widths, all arguments", "why_tests_cant": "All values times all widths.", "anchors": ["src/output/vsnprintf.c:vsnprintf", "src/conversions/itodec.c:uitodec", "src/conversions/itohex.c:_itohex", "src/conversions/ltodec.c:ltodec"]}
{"id": "C87", "title": "QSORT sorts in place", "statement": "QSORT(n, LESS, SWAP) of contrib/qsort.h leaves the n elements rearranged in ascending order; it compares and swaps only elements 0..n-1 and never uses more than the 48 (or 32) frames of its stack.", "quantifier": "all element types, all strict weak orders, all arrays of up to 2^52-1 (2^36-1 with a 32 bit count) elements", "why_tests_cant": "Worst cases for the explicit stack, sentinels and equal keys arise from array contents no test suite enumerates.", "anchors": ["contrib/qsort.h:QSORT", "contrib/qsort.h:Q_PARTITION", "contrib/qsort.h:Q_INSERTION_SORT", "contrib/qsort.h:Q_LOOP", "contrib/qsort.h:Q_SUBFILES"]}
{"id": "C88", "title": "ks_mergesort is a stable sort", "statement": "ks_mergesort(n, array, temp) leaves in array the elements in ascending order, elements that compare equal in their original sequence; only array[0..n) and temp[0..n) are accessed.", "quantifier": "all element types, strict weak orders, arrays, lengths and contents of temp", "why_tests_cant": "Stability and the ends of odd sized blocks, for all lengths and contents.", "anchors": ["contrib/ksort.h:ks_mergesort"]}
{"id": "C89", "title": "ks_heapmake and ks_heapsort", "statement": "ks_heapmake rearranges an array into a heap (no element less than its children); ks_heapsort sorts an array that is a heap in place. Only the elements 0..n-1 are accessed.", "quantifier": "all element types, strict weak orders, arrays and lengths", "why_tests_cant": "All heaps of all sizes.", "anchors": ["contrib/ksort.h:ks_heapadjust", "contrib/ksort.h:ks_heapmake", "contrib/ksort.h:ks_heapsort"]}
{"id": "C90", "title": "ks_ksmall selects the k-th smallest element", "statement": "ks_ksmall(n, array, k), 0 <= k < n, returns an element equal in order to the one at index k of the sorted array; it only rearranges array[0..n) and accesses nothing else.", "quantifier": "all element types, strict weak orders, arrays, lengths and k", "why_tests_cant": "All arrays, in particular with many equal elements, and all k.", "anchors": ["contrib/ksort.h:ks_ksmall"]}
{"id": "C91", "title": "ks_combsort ends and sorts", "statement": "ks_combsort(n, array) comes to an end and leaves the elements in ascending order, rearranging nothing but array[0..n).", "quantifier": "all element types, strict weak orders, arrays and lengths, any rounding of the division of the gap", "why_tests_cant": "Termination for all arrays: a loop that runs until a pass makes no swap.", "anchors": ["contrib/ksort.h:ks_combsort", "contrib/ksort.h:__ks_insertsort"]}
{"id": "C92", "title": "ks_introsort sorts within its stack", "statement": "ks_introsort(n, array) leaves the elements in ascending order; it accesses only array[0..n) and never overruns the stack it allocates.", "quantifier": "all element types, strict weak orders, arrays and lengths", "why_tests_cant": "Worst case partitions and stack depths over all arrays.", "anchors": ["contrib/ksort.h:ks_introsort", "contrib/ksort.h:__ks_insertsort", "contrib/ksort.h:ks_combsort"]}
{"id": "C93", "title": "ks_shuffle can produce every order, each by one sequence of draws", "statement": "ks_shuffle(n, array) rearranges array[0..n); each order of the elements results from some sequence of random draws (0 <= j < i for i = n, ..., 2), and from exactly one if the elements differ - so that uniform draws give uniform orders.", "quantifier": "all arrays, lengths, target orders and sequences of draws", "why_tests_cant": "Counting over all n! orders.", "anchors": ["contrib/ksort.h:ks_shuffle"]}
{"id": "C94", "title": "kmalloc: blocks are disjoint, aligned and keep their bytes", "statement": "A program that uses kmalloc, kcalloc, krealloc and kfree of contrib/kmalloc in any order and writes only into its blocks: no call reads or writes memory that does not exist; each block has at least its size and holds what was written (kcalloc: zeros; krealloc: the bytes of the old block); no two blocks overlap, they begin at multiples of 16, memory below the old break is unchanged, and the break moves by at most twice the bytes asked for plus two pages per request.", "quantifier": "all histories of calls and writes, all sizes, all positions of the break with room above it", "why_tests_cant": "Corruption shows up only in particular interleavings of sizes and frees, of which there are infinitely many.", "anchors": ["contrib/kmalloc/kmalloc.c:kmalloc", "contrib/kmalloc/kmalloc.c:morecore", "contrib/kmalloc/kmalloc.c:kcalloc", "contrib/kmalloc/kmalloc.c:krealloc", "contrib/kmalloc/kmalloc.c:kfree"]}
{"id": "C95", "title": "kfree twice is harmless", "statement": "kfree(NULL), and kfree of a pointer that was handed out once and is not in use at the moment (freed before, or moved by krealloc), changes nothing.", "quantifier": "all histories, all such pointers", "why_tests_cant": "All histories before the second kfree.", "anchors": ["contrib/kmalloc/kmalloc.c:kfree"]}
{"id": "C96", "title": "kmalloc reuses freed blocks", "statement": "After kfree(p) the next kmalloc of a size of the same class returns p, and takes no memory from the system.", "quantifier": "all histories, blocks and sizes", "why_tests_cant": "All histories and size classes.", "anchors": ["contrib/kmalloc/kmalloc.c:kmalloc", "contrib/kmalloc/kmalloc.c:kfree"]}
{"id": "C97", "title": "krealloc in place", "statement": "krealloc(p, n) with n in the same size class as the block returns p and changes nothing.", "quantifier": "all histories, blocks and sizes", "why_tests_cant": "All boundaries of size classes in all histories.", "anchors": ["contrib/kmalloc/kmalloc.c:krealloc"]}
{"id": "C98", "title": "kmalloc: requests that cannot be satisfied fail cleanly", "statement": "When there is not enough memory, or a size is too large, kmalloc, kcalloc and krealloc return NULL, and all blocks stay as they are (also the block given to krealloc); kmalloc_usable_size returns at least the size that was asked for.", "quantifier": "all histories, all sizes, any limit of the break", "why_tests_cant": "Exhaustion and overflowing products cannot be enumerated.", "anchors": ["contrib/kmalloc/kmalloc.c:kmalloc", "contrib/kmalloc/kmalloc.c:morecore", "contrib/kmalloc/kmalloc.c:kcalloc", "contrib/kmalloc/kmalloc.c:krealloc", "contrib/kmalloc/kmalloc.c:kmalloc_usable_size"]}
{"id": "C99", "title": "krealloc of a freed block finds its bytes", "statement": "The documented \"storage compaction\": krealloc(p, n) right after kfree(p) returns a block of n bytes with the bytes of the freed one (up to the smaller size); all other blocks keep theirs.", "quantifier": "all histories, blocks and sizes", "why_tests_cant": "The link of the free list lies in the header of the freed block; that no byte gets lost has to hold in all histories.", "anchors": ["contrib/kmalloc/kmalloc.c:krealloc", "contrib/kmalloc/kmalloc.c:findbucket"]}
{"id": "C100", "title": "regetopt reports exactly the options of a command line", "statement": "For any command line without errors, repeated calls of regetopt return its short and long options in order, each with its argument in re_optarg (the rest of the word, the text behind =, or the next word), the value or 1 for long options (storing through flag), the index through longindex, and then -1; operands may stand anywhere between the options; \"--\" ends them.", "quantifier": "all command lines, option strings of alphanumeric options, tables of long options in which no name stands behind two longer names beginning with it", "why_tests_cant": "The state spans calls (position inside a cluster, moved operands, shrinking count); all interleavings of clusters, arguments and operands matter.", "anchors": ["contrib/regetopt/regetopt.c:regetopt", "contrib/regetopt/regetopt.c:regetopt_short", "contrib/regetopt/regetopt.c:regetopt_long", "contrib/regetopt/regetopt.c:reorder_option"]}
{"id": "C101", "title": "regetopt moves the operands behind the options", "statement": "When regetopt returns -1, argv is a rearrangement of the command line: first the words of the options in their order (and \"--\"), then from re_optind on all operands in their original order, then NULL.", "quantifier": "all command lines without errors", "why_tests_cant": "Each operand rotates the rest of argv once; that the order survives needs an invariant over all calls.", "anchors": ["contrib/regetopt/regetopt.c:reorder_option", "contrib/regetopt/regetopt.c:regetopt"]}
{"id": "C102", "title": "regetopt reports errors and goes on", "statement": "An unknown short option returns '?' with the character in re_optopt; a missing argument '?' (or ':' if the option string begins with a colon); unknown and ambiguous long options, and those with a missing or a surplus argument, return '?'; the calls before report the options in front of the error, and the next call goes on behind it.", "quantifier": "all command lines, option strings and tables, also NULL as table", "why_tests_cant": "Errors at every position of clusters and of the line; endless repetition cannot be seen by a finite test.", "anchors": ["contrib/regetopt/regetopt.c:regetopt_short", "contrib/regetopt/regetopt.c:regetopt_long"]}
{"id": "C103", "title": "regetopt resolves abbreviated long options", "statement": "--w selects the long option with the name w; if there is none, the only one whose name begins with w; if none or several begin with w, '?' is returned.", "quantifier": "all tables of long options, in any order, and all words w", "why_tests_cant": "Depends on the order and on all prefix relations within the table.", "anchors": ["contrib/regetopt/regetopt.c:regetopt_long"]}
{"id": "C104", "title": "regetopt parses a second command line after re_optind = 1", "statement": "After -1 the program may set re_optind to 1 and pass another argv: the calls then report the options of that command line and rearrange it as C100 and C101 say.", "quantifier": "all pairs of command lines without errors", "why_tests_cant": "Hidden state (the position in a cluster, the count of words left) survives the first command line.", "anchors": ["contrib/regetopt/regetopt.c:regetopt", "contrib/regetopt/regetopt.c:option_argc", "contrib/regetopt/regetopt.c:optchar_index"]}
{"id": "C105", "title": "prints and its relatives write their strings in order", "statement": "prints(s1, ..., sn), eprints and dprints write the strings one behind the other to stdout, stderr or the descriptor, printsl appends a newline; nothing else is written, and the number of bytes is returned.", "quantifier": "all numbers and lengths of strings, all contents of the files, if each write takes all bytes", "why_tests_cant": "All argument lists; what precedes and follows in the files.", "anchors": ["src/output/dprints.c:dprints", "include/prints.h:prints", "include/prints.h:eprints", "include/prints.h:printsl"]}
{"id": "C106", "title": "puts writes the string and then a newline", "statement": "print(s) writes s; puts(s) and eputs(s) write s and then a newline.", "quantifier": "all strings, and all orders of evaluation C permits", "why_tests_cant": "The order of the operands of + is the choice of the compiler; a test sees one choice.", "anchors": ["include/prints.h:print", "include/prints.h:puts", "include/prints.h:eputs"]}
{"id": "C107", "title": "writes writes the constant", "statement": "writes(str), ewrites(str) and fwrites(fd, str) write exactly the characters of the constant.", "quantifier": "all constants", "why_tests_cant": "All constants; the surplus byte is invisible on a terminal.", "anchors": ["include/prints.h:writes", "include/prints.h:ewrites", "include/prints.h:fwrites"]}
{"id": "C108", "title": "fprintfs replaces %s and %c", "statement": "fprintfs(f, fmt, ...) writes the format with each %s replaced by the string and each %c by the character passed; everything else as it stands; the number of bytes is returned.", "quantifier": "all formats and arguments", "why_tests_cant": "All formats: position of each conversion relative to the text pending.", "anchors": ["src/output/fprintfs.c:fprintfs"]}
{"id": "C109", "title": "snprintfs stays within its buffer", "statement": "snprintfs(buf, size, fmt, ...) stores the format with %s and %c replaced, ended by a 0, and writes at most size bytes; other characters, also other % sequences, as fprintfs writes them; returned is the length.", "quantifier": "all formats, arguments and sizes", "why_tests_cant": "Exhaustive over sizes relative to every cut in the text.", "anchors": ["src/output/snprintfs.c:snprintfs"]}
{"id": "C110", "title": "fwrite counts complete items", "statement": "fwrite(p, size, n, f) returns the number of items written completely; if it is less than n the error flag of f is set and a part of the next item may have been written; otherwise all bytes are written and the flags stay.", "quantifier": "all sizes and counts, all behaviours of write (short writes, errors) at any call", "why_tests_cant": "Short writes and errors at every possible call.", "anchors": ["include/mini_fstream.h:fwrite"]}
{"id": "C111", "title": "fseek, fsetpos, ftell and rewind", "statement": "fseek and fsetpos move to the position, clear the end-of-file flag and return 0; ftell returns the position, rewind goes to the start and clears the flags; a target before the start fails and changes nothing.", "quantifier": "all offsets and positions (also beyond 2^31), all FILE words", "why_tests_cant": "Offsets of 64 bits; combinations of flags.", "anchors": ["include/mini_fstream.h:fseek", "include/mini_fstream.h:fsetpos", "include/mini_fstream.h:ftell", "include/mini_fstream.h:rewind"]}
{"id": "C112", "title": "strerror and perror", "statement": "strerror(n) returns \"Error, errno: \" with the number in three digits, writing only its own buffer of 18 bytes; perror(msg) writes msg, a colon, a blank, that text and a newline to stderr, without msg and colon if msg is NULL or empty.", "quantifier": "all error numbers 0..999, all messages, any earlier content of the buffer", "why_tests_cant": "Leftovers of earlier calls in the static buffer; all numbers.", "anchors": ["src/string/strerror.c:strerror", "src/output/perror.c:perror"]}
{"id": "C113", "title": "errors of write are reported by the output functions", "statement": "If write fails, print, fputs, fputc, dprints and fprintfs return -1 (EOF); print and fputs hand the string to one write and return its result, fputc writes its one byte and nothing else.", "quantifier": "all strings, all behaviours of write", "why_tests_cant": "All behaviours of the kernel at each of the calls.", "anchors": ["include/fputs.h:fputs", "include/fputc.h:fputc", "src/output/dprints.c:dprints", "src/output/fprintfs.c:fprintfs"]}
{"id": "C114", "title": "match_ext decides the documented patterns", "statement": "match_ext(text, pattern, p_match, 0, ...) returns 1 exactly if the text matches the pattern as documented (characters, escapes, predefined classes, !, ?, [..], *, +, %, &, #, $, separating commas, {nX}), otherwise 0.", "quantifier": "all texts and patterns", "why_tests_cant": "The set of patterns and texts is infinite; where stars stop depends on all that follows.", "anchors": ["src/match/match_ext.c:match_ext"]}
{"id": "C115", "title": "match_ext reports the % matches in reverse order", "statement": "If the text matches, p_match is called once for each % with its number (0 if it has none), the position and the length of the part it matches nongreedily, the rightmost % first; st_match is set to the leftmost one. Without match p_match is not called.", "quantifier": "all texts and patterns, any earlier contents of st_match", "why_tests_cant": "Nested searches behind each %; any number of them.", "anchors": ["src/match/match_ext.c:match_ext"]}
{"id": "C116", "title": "{nX} of match_ext matches n times X", "statement": "A pattern with {nX} matches the same texts as the pattern with X written n times.", "quantifier": "all counts, all X, all surroundings, all texts", "why_tests_cant": "Counts relative to what the text has left.", "anchors": ["src/match/match_ext.c:match_ext"]}
{"id": "C117", "title": "match_ext reads only its two strings", "statement": "For any bytes as pattern and any text, and callbacks that take no more characters than there are, match_ext reads no byte outside of the two strings, ends and returns 0 or 1.", "quantifier": "all byte strings as pattern and text, all callbacks that stay inside of the text", "why_tests_cant": "Malformed patterns are unlimited; reading one byte too far is usually not visible.", "anchors": ["src/match/match_ext.c:match_ext"]}
{"id": "C118", "title": "the callback of & decides", "statement": "For & match_ext calls p_match_char with the number and the position: RE_NOMATCH means no match here, RE_MATCHEND ends with a match whatever follows, and another number is the number of characters taken.", "quantifier": "all callbacks, texts and patterns", "why_tests_cant": "All return values at all positions.", "anchors": ["src/match/match_ext.c:match_ext"]}
{"id": "C119", "title": "execl passes its arguments", "statement": "execl(path, arg0, ..., NULL) calls execve with the path, exactly the arguments in front of the first NULL followed by a null pointer, and the environment of the process; arguments behind the NULL are not read.", "quantifier": "any number of arguments", "why_tests_cant": "Any number of arguments; reading one argument too many is not visible.", "anchors": ["src/exec/execl.c:execl"]}
{"id": "C120", "title": "execvp executes the file that POSIX says", "statement": "execvp and execvpe execute a name that contains a slash as it is; any other name is looked up in the directories of PATH and the first executable file is executed with the given argv and environment; if there is none, -1 is returned without a call of execve. Only the local buffer is written.", "quantifier": "all names, all values of PATH, all sets of executable files", "why_tests_cant": "All combinations of names, directories and file permissions.", "anchors": ["src/exec/execvp.c:execvpe", "src/exec/where.c:where"]}
{"id": "C121", "title": "system returns the exit status of the shell", "statement": "system(command) runs /bin/sh -c command with the environment of the process, waits until the shell has ended, whatever else waitpid reports before, and returns its exit status.", "quantifier": "all commands, all sequences of waitpid results, all ways the shell can end", "why_tests_cant": "Interrupted waits, stops and kills at any time.", "anchors": ["src/exec/system.c:system", "src/process/wait.c:waitpid"]}
{"id": "C122", "title": "vexec returns the exit status of the program", "statement": "vexec(path, argv, envp) executes the program, waits until it has ended, whatever else waitpid reports before, and returns its exit status, or an error with errno set if it could not be executed; vexec_q does the same with stdout closed in the child.", "quantifier": "all programs, all sequences of waitpid results, all ways the child can end, all errors", "why_tests_cant": "Interrupted waits, stops, kills and errors at any time.", "anchors": ["src/exec/vexec.c:vexec", "src/exec/vexec_q.c:vexec_q", "include/seterrno.h:seterrno"]}
{"id": "C123", "title": "exit_errno and die report the error number", "statement": "exit_errno(n) executes /bin/errno with the decimal number |n|; if this fails, it writes \"Error, errno: \", the number and a newline to stderr and exits with |n|. die(n,msg) writes msg and a newline to stderr before and always exits with failure; _die takes errno and exits with -1 if it is not set.", "quantifier": "all error numbers, with and without /bin/errno, all messages", "why_tests_cant": "All numbers, and the two ways it can end.", "anchors": ["src/process/exit_errno.c:exit_errno", "src/process/die.c:_die", "src/process/die.c:die"]}
{"id": "C124", "title": "sigaction and signal change one signal", "statement": "sigaction(sig, act, oact) sets handler, mask and flags of sig, stores the previous action and changes no other signal; signal(sig, f) installs f with restarting system calls and returns the previous handler; for signals that cannot be set an error (SIG_ERR) is returned and nothing is changed. sigaction with a null pointer for act only asks for the current action.", "quantifier": "all signal numbers, actions and tables of actions", "why_tests_cant": "All earlier actions of all signals.", "anchors": ["src/process/sigaction.c:sigaction", "src/process/signal.c:signal"]}
{"id": "C125", "title": "abort ends the process with SIGABRT", "statement": "abort ends the process by SIGABRT after calling an installed handler exactly once, also if the handler returns or changes actions, and if the signal is ignored or blocked; the only other way is a handler that does not return.", "quantifier": "all handlers with all their effects, all signal masks and actions", "why_tests_cant": "Handlers are arbitrary code.", "anchors": ["src/process/abort.c:abort"]}
{"id": "C126", "title": "strtoimax parses what it documents", "statement": "strtoimax skips white space, accepts an optional '-', and with base 0 a prefix 0 or 0x; it returns the value of the longest sequence of digits of the base, stores the address behind it in *endp, and returns INT_MAX or INT_MIN with ERANGE if the value does not fit.", "quantifier": "all strings, all bases 0 and 2..36", "why_tests_cant": "All numerals in all bases, values around the limits.", "anchors": ["src/string/strtoimax.c:strtoimax"]}
{"id": "C127", "title": "term_width returns the value of COLUMNS", "statement": "term_width returns the number in the environment variable COLUMNS, and 80 if it is not set or not a number.", "quantifier": "all values of COLUMNS", "why_tests_cant": "All strings.", "anchors": ["src/termios/term_width.c:term_width"]}
{"id": "C128", "title": "map_protected surrounds the buffer with inaccessible pages", "statement": "map_protected(len) returns the address of len bytes, rounded up to whole pages, which can be read and written, with an inaccessible page directly in front and directly behind them; no other page changes. If there is no memory, -1 or the negative errno is returned.", "quantifier": "all lengths, all address spaces, all addresses the kernel may choose", "why_tests_cant": "Lengths around page boundaries, all placements.", "anchors": ["src/memory/map_protected.c:map_protected", "src/memory/mmap.c:mmap", "include/syscall_stubs.h:mprotect"]}
{"id": "C129", "title": "unmap_protected undoes map_protected", "statement": "unmap_protected(p, len) after p = map_protected(len) returns 0 and leaves exactly the mappings that existed before; for no length does it touch a page outside of the buffer and its two protected pages.", "quantifier": "all lengths, all address spaces", "why_tests_cant": "All lengths and placements.", "anchors": ["src/memory/unmap_protected.c:unmap_protected"]}
{"id": "C130", "title": "PARSEOPTS_short sets the flags of the options on the command line", "statement": "After PARSEOPTS_short the flag of a small letter is set exactly if it was set before or the letter appears in an argument that begins with '-'; the code for unrecognized options is executed for exactly the letters outside of the given set; the result points to the first regular argument. GETOPT_short tells whether one of the named flags is set, SETOPT_short sets exactly these.", "quantifier": "all command lines, all sets of options, all start values", "why_tests_cant": "All command lines and sets of letters.", "anchors": ["macros/getoptm.h:PARSEOPTS_short", "macros/getoptm.h:GETOPT_short", "macros/getoptm.h:SETOPT_short"]}
{"id": "C131", "title": "The error texts exist for every number, and the two versions agree", "statement": "For every int the functions return a non-empty text and read no table out of bounds; the short name of a number is the name that stands for it in m_errno.h, and different numbers from 0 to 133 have different names; the version with the compact table returns the same texts as the one with the pointer table.", "quantifier": "all errno values", "why_tests_cant": "All ints; the correspondence of three tables with 134 entries, one of them a single string with an index computed by counting.", "anchors": ["include/errstr.h:verbose_errstr", "include/errstr2.h:verbose_errstr2", "include/errstrshort.h:short_errstr", "include/m_errno.h"]}
{"id": "C132", "title": "tcgetattr and tcsetattr exchange the terminal settings", "statement": "tcgetattr stores the settings of the terminal in the fields of the struct termios, tcsetattr installs the settings of the struct, and tcsetattr of what tcgetattr returned restores the terminal exactly.", "quantifier": "all terminals, all struct contents, all actions TCSANOW, TCSADRAIN, TCSAFLUSH", "why_tests_cant": "Needs terminals in every state; the wrong layout happens to be invertible, so a save and restore test passes.", "anchors": ["src/termios/tcgetattr.c:tcgetattr", "src/termios/tcsetattr.c:tcsetattr", "headers/common/termios.h:struct termios"]}
{"id": "C133", "title": "cfmakeraw selects raw mode", "statement": "cfmakeraw clears exactly the flags for input, output, echo, canonical mode, signals and parity, selects 8 bits, sets VMIN to 1 and VTIME to 0 and leaves everything else; tcgetattr, cfmakeraw, tcsetattr makes the terminal raw.", "quantifier": "all structs, all terminals", "why_tests_cant": "2^32 values of each of four fields; all terminals.", "anchors": ["src/termios/cfmakeraw.c:cfmakeraw"]}
{"id": "C134", "title": "isatty recognises terminals, the process group can be read back", "statement": "isatty returns 1 for a terminal and 0 for everything else; tcgetpgrp returns the foreground process group of a terminal and -1 otherwise; after a successful tcsetpgrp tcgetpgrp returns the group that was set and no other terminal has changed.", "quantifier": "all descriptors, all terminals, all groups", "why_tests_cant": "All kernel states.", "anchors": ["src/termios/isatty.c:isatty", "src/termios/tcgetpgrp.c:tcgetpgrp", "src/termios/tcsetpgrp.c:tcsetpgrp"]}
{"id": "C135", "title": "ptsname returns the name of the pseudo terminal", "statement": "ptsname returns a pointer to the string \"/dev/pts/N\" with the decimal number N the kernel reports, in its static buffer and without writing outside of it, or a null pointer on errors; ptsname_r writes at most len bytes to buf and returns ERANGE if the name does not fit.", "quantifier": "all pseudo terminal numbers, all buffer lengths", "why_tests_cant": "2^31 numbers and all lengths.", "anchors": ["src/termios/pty.c:ptsname_r", "src/termios/pty.c:ptsname"]}
{"id": "C136", "title": "printf, fprintf and dprintf write the formatted text", "statement": "printf, fprintf and dprintf write exactly the text C49 describes for the format and the arguments, with one write to the descriptor of the stream, and return the number of bytes written, or a negative value if the write fails.", "quantifier": "all formats of the grammar of C49, all arguments, all kernels", "why_tests_cant": "All formats and arguments, and every answer of write.", "anchors": ["src/output/fprintf.c:fprintf", "src/output/dprintf.c:dprintf", "include/mini_fstream.h:printf"]}
{"id": "C137", "title": "sprintf writes the whole text", "statement": "sprintf writes the text of the format and the arguments and a terminating 0 to str, whatever its length, returns the length, and writes nothing else.", "quantifier": "all formats and arguments, all lengths of the text", "why_tests_cant": "Texts of any length.", "anchors": ["src/output/sprintf.c:sprintf", "src/output/snprintf.c:snprintf"]}
{"id": "C138", "title": "vsprintf and vfprintf take the arguments of a va_list", "statement": "vsprintf and vfprintf give the same text as sprintf and fprintf with the arguments the va_list holds.", "quantifier": "all formats, all argument lists", "why_tests_cant": "All formats and argument lists.", "anchors": ["src/output/vsprintf.c:vsprintf", "include/mini_fstream.h:vfprintf"]}
{"id": "C139", "title": "getgroups returns the groups of the process", "statement": "getgroups stores the supplementary groups of the calling process, at most maxgroups of them, and returns their number; with maxgroups 0 it stores nothing and returns the number.", "quantifier": "all group and password databases, all process identities, all maxgroups", "why_tests_cant": "All databases and processes.", "anchors": ["src/userdb/getgroups.c:getgroups"]}
{"id": "C140", "title": "initgroups sets the groups of a user", "statement": "initgroups sets the supplementary groups of the process to the groups the user is member of in the group database, and the group given as second argument; it returns 0, or -1 without effect if the process has no privileges or the user is unknown.", "quantifier": "all group and password databases, all users and groups", "why_tests_cant": "All databases.", "anchors": ["src/userdb/initgroups.c:initgroups"]}
{"id": "C141", "title": "fdopen and freopen bind a stream to a descriptor", "statement": "fdopen gives a stream not in use the descriptor fd; freopen closes the descriptor of the stream, opens the file with the flags of the mode, and the same stream then has the new descriptor; other streams do not change. With a null file name freopen changes the mode of the stream only. On errors both return a null pointer.", "quantifier": "all stream tables reached by opening and closing, all descriptors, modes and results of open", "why_tests_cant": "Depends on the history of the stream table.", "anchors": ["src/streams/fdopen.c:fdopen", "src/streams/freopen.c:freopen", "src/streams/_fopen.c:_fopen"]}
{"id": "C142", "title": "opendir and closedir leak nothing", "statement": "In any sequence of opendir and closedir calls: opendir returns a handle exactly if there is memory and the directory could be opened, and otherwise keeps neither memory nor a descriptor; dirfd returns the descriptor of the handle; closedir closes just this descriptor, frees just this memory and returns 0.", "quantifier": "all sequences of opendir and closedir, all results of malloc and open, arbitrary other activity in between", "why_tests_cant": "Unbounded sequences with failures at any place.", "anchors": ["src/directories/opendir.c:opendir", "src/directories/opendirp.c:opendirp", "src/directories/closedir.c:closedir", "src/directories/dirfd.c:dirfd"]}
{"id": "C143", "title": "stripblanks and stripblanklines", "statement": "stripblanks writes the lines of its input without the blanks in front of them, and without blank lines; stripblanklines writes exactly the lines which are not blank, unchanged. Both for every input, and nothing else is written.", "quantifier": "all texts", "why_tests_cant": "All inputs; the length of lines matters.", "anchors": ["tools/stripblanks.c:main", "tools/stripblanklines.c:main"]}
{"id": "C144", "title": "timespec arithmetic", "statement": "timespecadd and timespecsub store the sum and the difference of two times in normal form (0 <= tv_nsec < 10^9) whenever it can be represented, also if the result is stored in one of the operands, and change nothing else; timespeccmp with each of the six comparison operators compares the times; timespecisset tells whether the time is not 0, and timespecclear makes it 0.", "quantifier": "all normal times, all operators, all ways operands and result may be the same object", "why_tests_cant": "2^64 seconds and 10^9 nanoseconds, aliasing.", "anchors": ["include/bsd_timespec.h:timespecadd", "include/bsd_timespec.h:timespecsub", "include/bsd_timespec.h:timespeccmp", "include/bsd_timespec.h:timespecisset", "include/bsd_timespec.h:timespecclear"]}
{"id": "C145", "title": "dtodec prints a double", "statement": "dtodec(d, buf, precision) stores the decimal text of d in buf: a minus sign if d is negative, the integer part, a point and the digits of the fraction, without writing more than 24 bytes, and returns the length up to the given precision.", "quantifier": "all doubles whose integer part is an int", "why_tests_cant": "2^64 doubles.", "anchors": ["src/conversions/dtodec.c:dtodec"]}
{"id": "C146", "title": "arrays keep their elements in order", "statement": "An array made by newarray(n) takes n - 64 elements (newarray(0): 4032); push stores each of them and returns a non-null pointer, and returns 0 without effect if the array is full; getiter, current and next deliver exactly the elements in the order they were pushed, and then 0; newarray returns 0 if there is no memory.", "quantifier": "all sizes, all sequences of pushes, arbitrary other writes of the program", "why_tests_cant": "Unbounded sequences of pushes.", "anchors": ["macros/array.c:newarray", "macros/array.c:push", "macros/array.c:getiter", "macros/array.c:current", "macros/array.c:next", "macros/array.c:first"]}
{"id": "C147", "title": "linked lists keep their elements", "statement": "A list made by newlist is empty; _append copies an element of any length behind the last one, and _first and _next deliver the elements in order.", "quantifier": "all lists, all elements", "why_tests_cant": "Unbounded sequences.", "anchors": ["macros/linkedlist.c:newlist", "macros/linkedlist.c:_append"]}
{"id": "C148", "title": "the start code finds the system call entry", "statement": "__start_c sets __mini_vsys to the value of the entry AT_SYSINFO of the auxiliary vector behind the environment, and leaves it alone if there is no such entry.", "quantifier": "all environments and auxiliary vectors", "why_tests_cant": "Depends on what the kernel passes; a unit test sees one vector.", "anchors": ["src/intern/start_c.c:__start_c"]}
{"id": "C149", "title": "system call wrappers hand every argument to the kernel", "statement": "A wrapper named after a Linux system call makes that call and the kernel gets each argument of the caller unchanged, whatever the compiler does with what the asm statement leaves open: lseek(fd, off, whence) moves to off, ftruncate(fd, len) cuts at len, setsockopt passes all five arguments.", "quantifier": "all wrappers of include/syscall_stubs.h and the hand-made ones, all arguments, all choices of the compiler", "why_tests_cant": "What the registers hold beside the operands changes with compiler version and flags; a test sees one build and small arguments.", "anchors": ["include/syscall.h:REAL_define_syscall", "include/syscall.h:syscall5_ret", "include/syscall.h:syscall6_ret", "include/syscall_stubs.h", "include/select.h:select", "include/mremap.h:mremap", "src/system/ioctl.c:ioctl", "src/memory/mmap.c:mmap", "src/memory/sys_brk.c:sys_brk"]}
{"id": "C150", "title": "byte order macros of endian.h", "statement": "On a little endian machine htobe16/32/64(x) has in memory the bytes of x most significant first, be16toh/be32toh/be64toh invert it, and htole16/32/64 and le16toh/le32toh/le64toh leave the value as it is.", "quantifier": "all values of 16, 32 and 64 bits", "why_tests_cant": "2^64 values, and the choice of the branch depends on a macro from elsewhere.", "anchors": ["headers/common/endian.h:__bswap16", "headers/common/endian.h:__bswap32", "headers/common/endian.h:__bswap64", "headers/common/endian.h:htobe32", "headers/common/endian.h:htole32"]}
{"id": "C151", "title": "longjmp returns to the last setjmp with the given value", "statement": "setjmp(env) returns 0, writes only env and changes no register a function must preserve. longjmp(env, val) afterwards continues behind that call with the stack pointer and the preserved registers as setjmp left them and memory as it is; setjmp seems to return val, or 1 if val is 0.", "quantifier": "all machine states at setjmp and at longjmp with env unchanged in between", "why_tests_cant": "Depends on all registers and on everything that ran in between; tests see what the compiler happens to keep in registers.", "anchors": ["asm/jmp-x64.c:setjmp", "asm/jmp-x64.c:longjmp"]}
{"id": "C152", "title": "the program start calls main with the vectors of the kernel", "statement": "_start calls main(argc, argv, envp) where argv and envp point to the null terminated vectors the kernel put on the stack, with the stack aligned as the ABI demands, and ends the process with the value main returns.", "quantifier": "all argument and environment vectors, all machine states", "why_tests_cant": "Every length of argv; misalignment shows only if main happens to use aligned vector instructions.", "anchors": ["asm/start-linux-x64.c:_start"]}
{"id": "C153", "title": "removeccomments keeps the lines of its input", "statement": "For every input removeccomments writes as many lines as it reads, and every line it writes is a contiguous piece of the input line with the same number: nothing is added, reordered or moved to another line, so that line numbers stay valid.", "quantifier": "all texts of less than 10^6 bytes and up to 500000 lines, with any bytes, comments, strings and line ends", "why_tests_cant": "The state carried from line to line (open comment, open string, continued line) has unboundedly many histories; a shifted line shows only in some of them.", "anchors": ["tools/removeccomments.c:splittolines", "tools/removeccomments.c:printlines"]}
{"id": "C154", "title": "removeccomments removes comments and nothing else", "statement": "The output of removeccomments is the input without its comments: comments are removed, code and strings stay, apart from white space at line ends.", "quantifier": "all texts", "why_tests_cant": "Comments, strings and escapes combine without bound; a test shows a few combinations.", "anchors": ["tools/removeccomments.c:splittolines", "tools/removeccomments.c:match_cms", "tools/removeccomments.c:match_quote", "tools/removeccomments.c:printlines"]}
{"id": "C155", "title": "match_ext2 decides the documented patterns", "statement": "match_ext2(text, re, p_match, p_match_char, st_match) returns a match exactly if the whole text is matched by re as its documentation describes the wildcards, classes, escapes, negations, commas, counted items, brackets and anchors.", "quantifier": "all texts, all patterns", "why_tests_cant": "Patterns nest and combine without bound and the function backtracks; tests cover a few patterns and texts.", "anchors": ["src/match/match_ext2.c:match_ext2", "src/match/match_ext2.c:_match_ext2"]}
{"id": "C156", "title": "match_ext2 reports what the '%' matched", "statement": "On a match p_match is called once for every '%' with its number, the position and the length of the shortest text it can stand for with the rest of the pattern matching; st_match gets the leftmost; without a match nothing is reported.", "quantifier": "all texts, patterns, numbers and callbacks", "why_tests_cant": "The position depends on every later item of the pattern; there is no bound on the number of '%' or on the texts.", "anchors": ["src/match/match_ext2.c:_match_ext2"]}
{"id": "C157", "title": "match_ext2 is safe, ends and is silent", "statement": "For every text and every pattern, also malformed ones, match_ext2 reads only inside the two strings, always returns, and writes nothing to standard output.", "quantifier": "all texts, all byte strings as pattern", "why_tests_cant": "Malformed patterns cannot be enumerated; an endless loop or a read behind the end shows only for particular ones.", "anchors": ["src/match/match_ext2.c:match_ext2", "src/match/match_ext2.c:_match_ext2"]}
{"id": "C158", "title": "the file mode macros recognise the kind of a file", "statement": "For the mode of every file exactly one of S_ISDIR, S_ISCHR, S_ISBLK, S_ISREG, S_ISFIFO, S_ISLNK, S_ISSOCK is true, the one of its kind, whatever its permissions are; IFTODT gives its DT_ constant and DTTOIF the type bits; the permission constants are the twelve bits of the kernel; mkfifo(path, mode) makes a FIFO with these permissions.", "quantifier": "all kinds of files, all permissions", "why_tests_cant": "Types share bits (a socket has those of a directory and of a regular file): a wrong mask shows only for some kinds and permissions.", "anchors": ["headers/common/bits/stat.h:S_ISDIR", "headers/common/dirent.h:IFTODT", "include/mkfifo.h:mkfifo"]}
{"id": "C159", "title": "ioctl numbers carry direction, type, number and size", "statement": "_IO, _IOR, _IOW and _IOWR give numbers in which the kernel finds exactly the direction, the type, the number and the size of the argument; different requests get different numbers; a size that does not fit is refused; the literal request numbers of the header agree with the macros.", "quantifier": "all types and numbers of 0..255, all sizes", "why_tests_cant": "2^32 numbers; an overlap of two fields shows only for particular sizes or types.", "anchors": ["headers/common/bits/ioctl.h:_IOC", "headers/common/bits/ioctl.h:_IOR", "headers/common/bits/ioctl.h:_IOW", "headers/common/bits/ioctl.h:_IOWR"]}
{"id": "C160", "title": "error, err, errx and warn report and end", "statement": "error(status, errnum, fmt, ...) writes the formatted text to stderr, then, if errnum is not 0, a colon and the text of errnum, and ends the process with status if that is not 0. err does so with errno as it is when err is called, and always ends; errx and warn write the text only, errx ends the process.", "quantifier": "all formats and arguments, statuses and error numbers, all behaviours of write", "why_tests_cant": "The texts are unbounded and errno is changed by the very calls that report it; tests rarely let the first write fail.", "anchors": ["src/process/error.h:error", "src/process/error.h:err", "src/process/error.h:errx", "src/process/error.h:warn"]}
{"id": "C161", "title": "open flags can be combined freely", "statement": "However access mode and O_ constants are combined with |, the kernel finds that access mode and exactly the flags that were named; & O_ACCMODE gives the access mode back; creat(path, mode) opens for writing only, creates and truncates, and nothing else.", "quantifier": "all access modes, all combinations of the 17 constants", "why_tests_cant": "2^17 combinations; two constants that share a bit show only if both matter.", "anchors": ["include/filemodes.h:O_CREAT", "include/filemodes.h:O_ACCMODE", "src/file/creat.c:creat"]}
{"id": "C162", "title": "structures have the layout of the kernel and of the network headers", "statement": "p->field of struct stat, timespec, timeval, itimerval, itimerspec, timezone, utimbuf, iovec, dirent, pollfd, epoll_event, winsize, termios, termio, the sockaddr structures, packet_mreq, ifreq, rtentry, in6_rtmsg, iphdr, ip, ip_timestamp, udphdr, ethhdr and ether_header is the number that the kernel or the peer put in the place of that field; an assignment to it changes that place and no other bit; the object is as large as the kernel assumes.", "quantifier": "all fields, all contents of memory, all values", "why_tests_cant": "A field with the wrong offset or width often reads a plausible number, e.g. a zero or the low half.", "anchors": ["headers/common/bits/stat.h:stat", "headers/common/bits/alltypes.h:timespec", "include/dirent.h:dirent", "include/poll.h:pollfd", "include/network.h:iphdr", "include/network.h:ifreq", "include/network.h:sockaddr_in", "include/termio.h:termios"]}
{"id": "C163", "title": "sys_signame names the signals", "statement": "For every signal n of Linux sys_signame[n] is its name without SIG, the constant SIG<name> exists and is n, and there is no other signal constant.", "quantifier": "all signals", "why_tests_cant": "A table that is shifted by one entry from some place on is right for the signals one usually tests.", "anchors": ["src/process/signames.h:sys_signame", "headers/common/bits/signal.h:SIGHUP"]}
{"id": "C164", "title": "elftrunc cuts a static program behind its last loadable segment", "statement": "elftrunc name writes name.trunc (elftrunc name dst: dst): the bytes of the ELF file up to the end of the last segment that is kept in the file, with the section header fields of the ELF header zeroed and nothing else changed, and exits with 0. A dynamically linked program and a file that is no ELF file are refused with a status that is not 0, and no other file is touched. If the copy is not complete, the exit status is not 0.", "quantifier": "all ELF files of both classes with any number of segments, all names, all outcomes of read and write", "why_tests_cant": "The number, order and size of the segments are unbounded and the result depends on every program header.", "anchors": ["old/tools/elftrunc.c:main", "old/tools/elftrunc.c:trunc64", "old/tools/elftrunc.c:trunc32"]}
{"id": "C165", "title": "endpwent and endgrent give everything back", "statement": "After getpwent/getgrent (or another function that opens the data base) and endpwent/endgrent the process has exactly the memory mappings and the file descriptors it had before; a further call of endpwent/endgrent changes nothing.", "quantifier": "all sizes of the files, all addresses and descriptors the kernel can give", "why_tests_cant": "A leak or the unmapping of foreign pages shows only for particular file sizes or descriptors, and not in the results.", "anchors": ["src/userdb/endpwent.c:endpwent", "src/userdb/endgrent.c:endgrent", "src/userdb/userdb_open.c:userdb_open"]}
{"id": "C166", "title": "sigprocmask blocks, unblocks and restores", "statement": "With a set that was built with sigemptyset, sigfillset, sigaddset and sigdelset, sigprocmask makes the blocked signals the old ones and those of the set (SIG_BLOCK), the old ones without the set (SIG_UNBLOCK) or exactly the set (SIG_SETMASK), SIGKILL and SIGSTOP excepted, and stores the old mask. SIG_SETMASK with the stored mask restores it; so critical sections can be nested to any depth. Without a set the mask is only read; an unknown how is refused and nothing changes.", "quantifier": "all sets, all masks, all depths of nesting, all signals 1..64", "why_tests_cant": "2^64 masks and sets, and a wrong bit concerns signals that rarely arrive.", "anchors": ["src/process/sigaction.c:sigprocmask", "src/process/sigaction.c:sigaddset", "src/process/sigaction.c:sigdelset", "src/process/sigaction.c:sigemptyset", "src/process/sigaction.c:sigfillset"]}
{"id": "C167", "title": "brk, sbrk, setbrk and getbrk move the end of the data segment", "statement": "sbrk(n) returns the old break and moves it by n, brk(a) and setbrk(a) move it to a and return 0, getbrk returns it, also after any sequence of these calls. Memory below the break keeps what was written; memory above is gone; memory that is gained again is zero. A break that cannot be given is refused with -1.", "quantifier": "all sequences of calls and writes, all limits", "why_tests_cant": "The library remembers the break, so that every call depends on all calls before it.", "anchors": ["src/memory/brk.c:brk", "src/memory/sbrk.c:sbrk", "src/memory/getbrk.c:getbrk", "src/memory/setbrk.c:setbrk", "src/memory/sys_brk.c:sys_brk"]}
{"id": "C168", "title": "wait and waitpid collect every child once", "statement": "A loop around wait returns every child exactly once with the status of its end, whatever the order in which they end, and then -1 with ECHILD. waitpid(pid) waits for that child and leaves the others to be waited for; with WNOHANG it returns 0 while the child runs and does not wait; for a number that is no child it returns -1 with ECHILD.", "quantifier": "any number of children, all orders of their ends, all statuses", "why_tests_cant": "The order in which processes end cannot be controlled by a test.", "anchors": ["src/process/wait.c:wait", "src/process/wait.c:waitpid"]}
{"id": "C169", "title": "killpg and raise signal exactly the processes meant", "statement": "killpg(g, sig) sends the signal to exactly the processes of the group g (0: the group of the caller) and fails with ESRCH if there is none; a negative g is refused. raise signals the calling process and no other.", "quantifier": "all process tables, all groups", "why_tests_cant": "A signal to a process too many is not visible in the result, and a test cannot have all processes.", "anchors": ["src/process/killpg.c:killpg", "src/process/sigaction.c:raise"]}
{"id": "C170", "title": "ELF structures and macros follow the ELF specification", "statement": "The fields of Elf32_/Elf64_ Ehdr, Shdr, Phdr, Chdr, Sym, Rel, Rela, Dyn, Verdef, Verdaux, Verneed, Vernaux, auxv_t and Nhdr are at the places of the specification: p->field reads the number there, an assignment changes that place and no other bit, sizeof is the size of an entry. ELF_ST_INFO, ELF32_R_INFO, ELF64_R_INFO and ELF_M_INFO pack their arguments so that the macros of the parts give them back, packing the parts of a field gives the field, and ELF_ST_VISIBILITY gives the lowest two bits whatever the others are.", "quantifier": "all structures and fields, all contents of memory, all values that fit", "why_tests_cant": "Most files use small numbers, for which a wrong width or shift does not show.", "anchors": ["headers/common/elf.h:Elf64_Ehdr", "headers/common/elf.h:Elf64_Sym", "headers/common/elf.h:Elf64_Phdr", "headers/common/elf.h:ELF32_ST_INFO", "headers/common/elf.h:ELF32_R_INFO", "headers/common/elf.h:ELF64_R_INFO", "headers/common/elf.h:ELF32_M_INFO"]}
{"id": "C171", "title": "structures of signals, resources, names and events have the layout of the kernel", "statement": "p->field of siginfo_t, struct sigaction, rusage, rlimit, new_utsname, tms, inotify_event, seccomp_data, seccomp_notif and seccomp_notif_resp is the number that the kernel put in the place of that field; an assignment changes that place and no other bit; the size is that of the kernel.", "quantifier": "all fields, all contents of memory, all values", "why_tests_cant": "As for C162: a wrong offset often reads a plausible number.", "anchors": ["headers/linux_x64/sys/signal.h:siginfo", "headers/linux_x64/sys/signal.h:sigaction", "headers/linux_x64/resource.h:rusage", "headers/linux_x64/resource.h:rlimit", "headers/linux_x64/sys/utsname.h:new_utsname", "headers/linux_x64/sys/times.h:tms", "headers/linux_x64/bits/inotify.h:inotify_event", "headers/linux_x64/seccomp.h:seccomp_data"]}
{"id": "C172", "title": "stripundefs.pl removes the disabled blocks and nothing else", "statement": "stripundefs.pl prints its input without the blocks from a line #if 0 up to the #endif that belongs to it, conditionals within the block counted; all other lines are printed unchanged and in their order; whatever a compiler compiles is kept, and the script ends on every input.", "quantifier": "all source texts, every nesting of conditionals", "why_tests_cant": "The nesting is unbounded; tests have a few nested blocks and hardly an #else in a disabled one.", "anchors": ["scripts/stripundefs.pl"]}
{"id": "C173", "title": "ifdefs.pl shows every conditional line with its number and depth", "statement": "ifdefs.pl shows the lines #if, #else and #endif of a source in their order, each with its line number and the depth of the conditional it belongs to, so that the lines of one conditional have the same depth.", "quantifier": "all sources whose conditionals are closed", "why_tests_cant": "The nesting is unbounded.", "anchors": ["scripts/ifdefs.pl"]}
{"id": "C174", "title": "mpush and mpop save registers", "statement": "mpush saves the listed registers on the stack and changes no other register and no other memory; after any code that leaves the stack alone, mpop with the same list gives each of them its value again, the stack pointer too, and touches no other register; mpushrev and mpoprev do the same with the first register at the lowest address.", "quantifier": "all lists of registers without the stack pointer, all contents, all code between", "why_tests_cant": "The lists are of any length; a wrong order of the pops is seen only if the registers differ.", "anchors": ["asm/macros/mpush_pop.asm:mpush", "asm/macros/mpush_pop.asm:mpop", "asm/macros/mpush_pop.asm:mpushrev", "asm/macros/mpush_pop.asm:mpoprev"]}
{"id": "C175", "title": "template.pl replaces the text between the marks", "statement": "template.pl file name puts its input between the lines with name-start: TMPL and name-end: TMPL of the file, in place of what was there or with -insert in front of it; every other byte of the file stays; a second run changes nothing; a file without these marks, or with marks that do not belong together, is left as it is; the exit status tells whether the file was changed.", "quantifier": "all files, inputs and praefixes without special characters", "why_tests_cant": "Where the marks are, what is between them and whether one is missing is arbitrary.", "anchors": ["scripts/template.pm:template", "scripts/template.pl:handler"]}
{"id": "C176", "title": "combinesources.pl puts every included file in the output once", "statement": "combinesources.pl prints the text of the given source with every file that it includes, directly or through others, in the place of the first #include of it, once; it finds the files in the directory itself and in the directories listed, in their order; it ends even if files include each other.", "quantifier": "all sets of files, all ways in which they include each other", "why_tests_cant": "Circles and repeated inclusion have no bound; the state of the recursion counter depends on everything before.", "anchors": ["scripts/combinesources.pl:slurpfile"]}
{"id": "C177", "title": "Pseudo terminals can be granted and unlocked", "statement": "posix_openpt gives a master whose slave cannot be opened by its name before unlockpt and can afterwards; grantpt lets the owner of the slave read and write and its group write, and nobody else; neither of them touches another terminal, and a descriptor that is no master gives an error and changes nothing.", "quantifier": "all numbers of terminals, all states of the other terminals, all rights of /dev/ptmx", "why_tests_cant": "The rights depend on those of another file and on the state that the kernel keeps.", "anchors": ["src/termios/pty.c:posix_openpt", "src/termios/pty.c:unlockpt", "src/termios/pty.c:grantpt"]}
{"id": "C178", "title": "Macros for IP octets, ethernet lengths and route flags", "statement": "IPTOS_DSCP and IPTOS_ECN split the type of service octet into code point and congestion bits without loss, IPTOS_CLASS, IPTOS_PREC and IPTOS_TOS return their fields, the code point constants are those of the standards; IPOPT_COPIED, IPOPT_CLASS and IPOPT_NUMBER split the option type without loss and the option constants are those of the standard; ETHER_IS_VALID_LEN accepts the lengths of frames with 46 to 1500 bytes of data and no other; RT_LOCALADDR tells the local address class; RT_ADDRCLASS returns the address class of the flags.", "quantifier": "all octets, all lengths, all 32 bit flags", "why_tests_cant": "A mask with a wrong bit is seen only for some octets.", "anchors": ["include/network.h:IPTOS_DSCP", "include/network.h:IPTOS_ECN", "include/network.h:IPTOS_TOS", "include/network.h:IPOPT_CLASS", "include/network.h:ETHER_IS_VALID_LEN", "include/network.h:RT_ADDRCLASS", "include/network.h:RT_LOCALADDR"]}
{"id": "C179", "title": "The limits of the integer types", "statement": "A value is kept by the signed type of 8, 16, 32 or 64 bits exactly if it lies between INTn_MIN and INTn_MAX, and by the unsigned type exactly if it lies between 0 and UINTn_MAX.", "quantifier": "all integers", "why_tests_cant": "There are 2^64 values of the widest type.", "anchors": ["headers/common/stdint.h:INT8_MIN", "headers/common/stdint.h:INT64_MAX", "headers/common/stdint.h:UINT64_MAX"]}
{"id": "C180", "title": "Selecting a function selects everything it needs", "statement": "After the preprocessor has read minilib.h with any set of switches mini_x from the configuration, these switches and everything they depend on, directly or through others, are defined, and no other switch is.", "quantifier": "all sets of switches", "why_tests_cant": "There are more than 600 switches; the order of the blocks in the file decides how far one pass reaches.", "anchors": ["minilib.h:mini_freopen", "minilib.h:mini_strchr", "scripts/genheaders.pl:printdepend"]}
{"id": "C181", "title": "The generated header selects all dependencies", "statement": "For every table of //+depends tags and every order in which Perl lists it, the header that genheaders.pl writes selects everything the selected switches need and nothing else.", "quantifier": "all tables of dependencies, all orders, all sets of switches", "why_tests_cant": "The order of a Perl hash is different in every run.", "anchors": ["scripts/genheaders.pl:printdepend"]}
{"id": "C182", "title": "The linker scripts keep every section", "statement": "Linked with any of the linker scripts, every section a C compiler makes - .text, .rodata, .data and .bss, with or without a name behind a dot, and COMMON - is in the program exactly once, at a multiple of its alignment, behind the headers and in front of _end, overlapping no other section, in a segment with the rights it needs; no section gets lost.", "quantifier": "all lists of input sections with any names, sizes and alignments, all scripts", "why_tests_cant": "Which pattern takes a section and where it is put depends on the names, sizes and order of all others.", "anchors": ["ldscripts/ld.script.default:SECTIONS", "ldscripts/ld.script.onlytext:SECTIONS", "ldscripts/ld.script.text_and_bss:SECTIONS", "ldscripts/ld.script.bloating:SECTIONS"]}
{"id": "C183", "title": "Code and constants can't be written, data can't be executed", "statement": "In a program linked with any of the linker scripts, the pages of code and constants can't be written, the pages of variables and the stack can't be executed.", "quantifier": "all lists of input sections, all addresses in them, all scripts", "why_tests_cant": "The rights of a page depend on all segments that share it, and so on the sizes of all sections.", "anchors": ["ldscripts/ld.script.default:PHDRS", "ldscripts/ld.script.exec:PHDRS", "ldscripts/ld.script.onlytext:PHDRS", "ldscripts/ld.script.text_and_bss:PHDRS"]}
{"id": "C184", "title": "A file copied through streams is unchanged", "statement": "A program that reads a file with one of the read functions until it reports the end and writes what it read with the matching write function (fgets/fputs, fread/fwrite, fgetc/fputc) produces exactly the bytes of the file and then ends, with every buffer size; it changes no memory but its buffer.", "quantifier": "for all file contents, buffer sizes, buffers, memories and output files", "why_tests_cant": "The loop is correct only if partial lines, the last block and the end of the file fit together for every length of the file relative to the buffer; tests copy a few files.", "anchors": ["src/streams/fgetc.c:fgetc", "include/mini_fstream.h:fread", "src/streams/fgets.c:fgets", "include/fputs.h:fputs", "include/fputc.h:fputc", "include/globaldefs.h:EOF"]}
{"id": "C185", "title": "A sorted array of strings can be searched", "statement": "If a program sorts an array of pointers to strings with qsort and a comparison that calls strcmp, the array then holds the same pointers, their strings are unchanged and in ascending order of their bytes, and bsearch with strcmp finds a given string exactly if it was in the array; the element found points to that string.", "quantifier": "for all arrays, all strings (equal ones too), all keys and all memories in which the strings are not in the array", "why_tests_cant": "Correctness of the pair depends on the order of strcmp being total on all strings and on qsort and bsearch agreeing about it; tests use a few words.", "anchors": ["src/sort/qsort.c:qsort", "src/sort/bsearch.c:bsearch", "src/string/strcmp.c:strcmp"]}
{"id": "C186", "title": "A list of numbers written as text is read back", "statement": "If a program writes ints with snprintf and the format %d,%d,...,%d, cuts the text at the commas with strtok_r and converts the pieces with atoi, it gets the same ints in the same order, if the buffer is as long as the longest possible text.", "quantifier": "for all lists of ints of any length, all memories and buffers of sufficient size", "why_tests_cant": "It needs that what one function writes is what the others accept for all of the 2^32 ints and in every position of a list of any length.", "anchors": ["src/output/vsnprintf.c:vsnprintf", "src/string/strtok_r.c:strtok_r", "src/conversions/atoi.c:atoi"]}
{"id": "C187", "title": "A number set in the environment is read back", "statement": "After snprintf(buf, size, \"%d\", v) and setenv(name, buf, 1) the call atoi(getenv(name)) gives v, and every other variable has the value it had before.", "quantifier": "all ints v, all names, all environments and buffers", "why_tests_cant": "Whether the text and the name survive depends on the other variables, their names and order, and on where malloc puts the block; tests see a few environments.", "anchors": ["src/system/setenv.c:setenv", "src/system/getenv.c:getenv", "src/conversions/atoi.c:atoi", "src/output/vsnprintf.c:vsnprintf"]}
{"id": "C188", "title": "A file of numbers can be read number by number", "statement": "A file that holds n unsigned decimal numbers, each followed by one character that is no digit, is read by n calls of fgetud (fgetul): they return the numbers in order, reduced modulo 2^32 (2^64), and leave the stream behind the last separator; the end of the file can be told from a number.", "quantifier": "all lists of numbers of any length, all spellings with leading zeros, all separators, whatever follows, a character pushed back before", "why_tests_cant": "the number of files and separators is unlimited; the end of the file shows only in combination with a number 0 in the file", "anchors": ["src/streams/fgetud.c: fgetud", "src/streams/fgetul.c: fgetul", "src/streams/fgetc.c: fgetc"]}
{"id": "C189", "title": "The configuration file selects exactly the functions it names", "statement": "The header generated from minilib.conf defines the switch mini_f of a library function f exactly when a line of the configuration asks for f: mini_f, compile or COMPILE with f in its list (separated by commas or blanks), define; every function named has its own switch, everything that the functions need is selected by minilib.h, and DEFINE var arg defines var as arg.", "quantifier": "all configuration files (any sequence of commands with any arguments), all of the 698 generated functions", "why_tests_cant": "configurations are arbitrary; a test of some names doesn't show that no other switch is defined, nor that all dependencies are selected", "anchors": ["scripts/genconfig.sh: compile, COMPILE, mini_define, define, DEFINE, mini_*", "minimake: dumpconfig", "minilib.h"]}
{"id": "C190", "title": "The build settings of the configuration file take effect as documented", "statement": "OPTFLAG in the environment counts before the first OPTFLAG of the configuration, and -Os is the default; DEBUG overwrites OPTFLAG, STRIPFLAG and SHRINKELF: the program is compiled with -Og -g, is not stripped and not shrunk.", "quantifier": "all configuration files, all settings in the environment", "why_tests_cant": "the outcome depends on the order of any number of commands and on the environment", "anchors": ["scripts/genconfig.sh: OPTFLAG, STRIPFLAG, DEBUG, FULLDEBUG, SHRINKELF, shrinkelf", "minimake: defaultvalues, checkconfig, exec_gcc"]}
{"id": "C191", "title": "malloc and malloc_brk can be used in one program", "statement": "In a build with malloc_brk, free and realloc find out from the block whether malloc or malloc_brk returned it: every program that mixes calls for both finds the buffer as if it had made only the calls of malloc and the data segment as if it had made only the calls of malloc_brk, and all blocks keep what was written to them. realloc of a block of malloc_brk that is not the last one moves its contents into a new block, frees the old one and changes no other block.", "quantifier": "all histories of malloc, malloc_brk, free, realloc and writes within blocks, all places and sizes of the two areas", "why_tests_cant": "the histories are unbounded, and an overrun shows only if a live block happens to be behind", "anchors": ["src/memory/malloc.c: malloc, free, realloc", "src/memory/malloc_brk.c: malloc_brk"]}
