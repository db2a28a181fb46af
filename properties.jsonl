{"id": "C01", "title": "Copy-on-write value isolation", "statement": "Strings and arrays behave as independent values: after any sequence of constructions, copies, moves, assignments, slices, inserts, replaces, resizes, element writes and destructions, every live object holds exactly the sequence that the same operations would have produced on unshared immutable lists, although copies and slices share one buffer. An operation on one object never changes the value of another.", "quantifier": "every finite sequence of operations, on any number of objects, with any contents, any sharing pattern, and any growth rounding", "why_tests_cant": "the number of aliasing patterns (which objects share a buffer, at which offsets, at which spare capacity) grows without bound with the history", "anchors": ["src/ReferenceCountedArray.h: ReferenceCountedArray, COW, AboutToModify, insert, replace, slice, operator=", "src/String.h: String"]}
{"id": "C02", "title": "Reference counts are exact; nothing leaks or is freed twice", "statement": "At every point of every history rcount() of an object equals the number of live objects that share its buffer, a buffer is released exactly when its last object lets go of it, and once every object is destroyed no buffer remains allocated.", "quantifier": "every finite sequence of operations including those that end in an exception", "why_tests_cant": "leaks and double frees depend on the whole history of copies, moves, self assignments and exceptions", "anchors": ["src/ReferenceCountedArray.h: incRef, decRef, CheckDeallocRef, doDetach, rcount, ~ReferenceCountedArray"]}
{"id": "C03", "title": "Memory safety of the container core", "statement": "No sequence of API calls that respects the stated preconditions (element access below length(), no use of a moved-from object except assigning, clearing, swapping or destroying it) ever reads or writes outside an allocated buffer, through a null or released buffer, or underflows a length.", "quantifier": "every finite sequence of operations respecting the preconditions", "why_tests_cant": "an out-of-bounds access by one element is usually invisible to a unit test and depends on offset, length and capacity together", "anchors": ["src/ReferenceCountedArray.h: ArrayRef::reserve, COW, insert, replace, resize, slice", "src/String.h: reserve, c_str"]}
{"id": "C04", "title": "Index errors are reported and harmless", "statement": "insert, replace, find(\u2026, pos) and at() throw std::out_of_range exactly when the position lies outside the container (pos > length() for insert/replace/find, pos >= length() for at), and when they throw no object anywhere has changed.", "quantifier": "every container state, every position in the full 64-bit range, every argument", "why_tests_cant": "the guard is written as validateIndex(pos - 1) with unsigned wrap-around; correctness at every 64-bit position cannot be sampled", "anchors": ["src/ReferenceCountedArray.h: validateIndex, insert, replace, find, at", "src/String.cpp: String::insert, String::replace"]}
{"id": "C05", "title": "Allocation failure keeps every other object intact", "statement": "When any allocation inside an operation fails, the operation throws, all other objects keep their values, reference counts stay exact, nothing leaks, and the target object holds either its old value or is empty; it can be empty only if it shared its buffer when the operation began. (The strong guarantee does not hold: a failed copy-on-write loses the target's value.)", "quantifier": "every container state, every operation, every schedule of allocation failures", "why_tests_cant": "tests do not inject failures at every allocation of every operation in every sharing state", "anchors": ["src/ReferenceCountedArray.h: COW, reserve, AboutToModify, constructors"]}
{"id": "C06", "title": "insert and append splice exactly", "statement": "insert(pos, ys, n) with pos <= length() makes the contents xs[0,pos) ++ ys[0,min(n,|ys|)) ++ xs[pos,end), also when ys is the same object or shares its buffer (for character strings; for arrays of class type when pos is 0 or the end); append is insert at the end; the argument is unchanged unless it was passed as an rvalue and stolen.", "quantifier": "all contents, positions, counts, capacities, sharing and aliasing patterns", "why_tests_cant": "the overlapping shifts and the take-over fast path depend on relative lengths, spare capacity and aliasing", "anchors": ["src/ReferenceCountedArray.h: insert, append, push_back", "src/String.cpp: String::insert"]}
{"id": "C07", "title": "replace overwrites exactly", "statement": "replace(pos, ys, n) with pos <= length() and k = min(n,|ys|) > 0 makes the contents xs[0,pos) ++ ys[0,k) ++ xs[pos+k,end): the length is max(length, pos+k) and no other element changes. At pos 0 a longer argument used in full replaces the whole value, which is the same thing.", "quantifier": "all contents, positions, counts, capacities and sharing patterns", "why_tests_cant": "depends on relative lengths and on whether the buffer is shared or must grow", "anchors": ["src/ReferenceCountedArray.h: replace", "src/String.cpp: String::replace"]}
{"id": "C08", "title": "Slices and substrings select exactly the documented range", "statement": "substring(start,len) and slice(start,len) return the contiguous subrange given by: start counted from the end when negative and clamped to the container; len -1 or too long means to the end; other negative len counts back from the end. The result shares the buffer, never exceeds it, and the original is unchanged. This holds whenever the requested negative end is not before the start, the length is below 2^31 and start+len does not overflow; outside those bounds the code produces a slice longer than the buffer.", "quantifier": "all contents and all 64-bit start/len values", "why_tests_cant": "the result depends on signed/unsigned conversions of 64-bit arguments; only a few corner values are ever tested", "anchors": ["src/ReferenceCountedArray.h: slice, Slice", "src/String.h: substring, operator()", "src/Array.h: subarray, operator()"]}
{"id": "C09", "title": "resize semantics", "statement": "resize(n) truncates to the first n elements when n < length(); resize(n, v) otherwise keeps all elements and appends n - length() copies of v; resize never affects another object sharing the buffer. resize(n) without a value keeps all elements and the appended elements are unspecified.", "quantifier": "all contents, new lengths and sharing patterns", "why_tests_cant": "depends on capacity, sharing and element kind together", "anchors": ["src/ReferenceCountedArray.h: resize"]}
{"id": "C10", "title": "Hash is a function of the contents and the cached hash never goes stale", "statement": "After any history of operations, hash() returns the DJB hash of the current contents (below 2^31), so two objects with equal contents always have equal hashes no matter how they were produced, and calling hash() earlier never changes a later result.", "quantifier": "every history of operations interleaved with hash() calls", "why_tests_cant": "a stale cache shows only for the particular mutation that forgets to reset it, after a hash() call", "anchors": ["src/ReferenceCountedArray.h: hash, my_hash, setLength, addLength, subLength, AboutToModify", "src/String.h: std::hash<String>"]}
{"id": "C11", "title": "find and rfind report the first and last occurrence", "statement": "find(item) returns the least index holding item or npos if absent; rfind(item) the greatest; find(item,pos) returns the distance from pos to the first occurrence at or after pos (not the absolute index its documentation promises).", "quantifier": "all contents, items and positions", "why_tests_cant": "an all-indices claim; loop bounds rely on unsigned wrap-around at 0", "anchors": ["src/ReferenceCountedArray.h: find, rfind, _find"]}
{"id": "C12", "title": "reserve only changes capacity", "statement": "reserve(n) on an unshared object with n >= length() leaves every value unchanged and afterwards capacity() - offset >= n. On a shared object, or on a String whose buffer is exactly full with n < length(), it may corrupt contents; witnesses are given.", "quantifier": "all states, all n", "why_tests_cant": "corruption appears only for particular combinations of sharing, offset and capacity", "anchors": ["src/ReferenceCountedArray.h: ArrayRef::reserve, reserve", "src/String.h: String::reserve"]}
{"id": "C13", "title": "Moves and swaps transfer values", "statement": "After move construction or move assignment the destination holds the source's old value, no element is copied, the source may be destroyed or assigned again, self-move leaves the object unchanged; swap exchanges the two values; no other object changes.", "quantifier": "all states, all pairs of objects including aliases", "why_tests_cant": "the moved-from state keeps stale length fields, so safety depends on what follows in the history", "anchors": ["src/ReferenceCountedArray.h: ReferenceCountedArray(ReferenceCountedArray&&), operator=(ReferenceCountedArray&&), swap"]}
{"id": "C14", "title": "Appending one element at a time is amortized linear", "statement": "Appending n elements one by one to a container of length m, shared or not, performs a number of allocations that is logarithmic in m + n, and moves and releases at most a constant times m + n elements in total.", "quantifier": "all n", "why_tests_cant": "a bound for all n on cost; tests observe only final contents", "anchors": ["src/ReferenceCountedArray.h: ArrayRef::reserve, _rca_cow_scaling_factor, append"]}
{"id": "C15", "title": "Deque operations", "statement": "On a non-empty Array push_front/shift and push_back/pop act as a double-ended queue: shift returns and removes the first element, pop the last; ++/--/+= n/-= n drop min(n,length) elements at the respective end of Strings and Arrays; objects sharing the buffer keep their values.", "quantifier": "all contents, all sharing patterns, all non-negative n", "why_tests_cant": "shift and pop move the element out of a buffer unless it is shared, so the result depends on sharing history", "anchors": ["src/Array.h: push_front, shift, pop, operator++, operator--, operator+=, operator-=", "src/String.h: operator+=, operator-=, operator++, operator--", "src/ReferenceCountedArray.h: pop_back"]}
{"id": "C16", "title": "Element writes are isolated", "statement": "s[i] = v, s.write(i,v), s.at-style access and writes through a freshly obtained begin()/mdata()/mget() change element i of s only and no other object. Writes through non-const front(), back() or read(), or through an iterator kept across a copy, do change other objects; witnesses are given.", "quantifier": "all states, indices, values and sharing patterns", "why_tests_cant": "needs every sharing pattern; the violating paths compile and pass simple tests", "anchors": ["src/ReferenceCountedArray.h: write, Cref, begin, mdata, front, back, read"]}
{"id": "C17", "title": "c_str() is NUL terminated and faithful", "statement": "c_str() returns memory that holds exactly the string's bytes followed by NUL, without changing the value of this or any other string, for every String whose buffer has room for the byte it inspects; Strings built by the fill, initializer-list and iterator constructors have no such room and the call reads one byte past the buffer.", "quantifier": "every String state reachable by API operations", "why_tests_cant": "whether the byte after the end exists depends on capacity, offset and constructor used", "anchors": ["src/String.h: c_str, reserve, constructors"]}
{"id": "C18", "title": "Comparison is the lexicographic total order on bytes", "statement": "compare() has the sign of the unsigned lexicographic order (shorter prefix first) for all strings whose lengths differ by less than 2^31, hence <,<=,>,>=,==,!= form one consistent total order and == holds exactly for equal contents at any length. The sharing shortcut never changes the answer.", "quantifier": "all pairs and triples of byte strings, including embedded NULs and bytes above 127", "why_tests_cant": "antisymmetry, transitivity and totality quantify over all pairs and triples", "anchors": ["src/String.cpp: String::compare", "src/String.h: operator==, operator<, operator<=, operator>, operator>="]}
{"id": "C19", "title": "Comparison with C strings and with a length limit", "statement": "compare(cstr) and compare(cstr,n) have the sign of comparing with the characters of cstr (their first n), unless this string continues with a NUL where cstr ends, in which case memory behind cstr is read; compare(str,n) for n>0 has the sign of comparing the first n bytes of both; equality with a limit holds exactly when those prefixes are equal.", "quantifier": "all byte strings and all limits", "why_tests_cant": "all-inputs claim over prefixes and limits", "anchors": ["src/String.cpp: String::compare"]}
{"id": "C20", "title": "split cuts at every delimiter", "statement": "For a non-empty delimiter split() returns the pieces between successive leftmost delimiter occurrences (for a single space, runs of spaces count once and leading ones are dropped; a delimiter at the very end adds no empty piece); no piece contains the delimiter, and the loop terminates. With a limit k >= 2 at most k-1 cuts are made and the rest, possibly empty, is appended, so never more than k pieces. An empty delimiter makes split loop forever.", "quantifier": "all strings, delimiters and limits", "why_tests_cant": "termination and the piece structure quantify over all strings", "anchors": ["src/String.cpp: String::split"]}
{"id": "C21", "title": "split and join are inverse", "statement": "For a string not ending in the delimiter and a delimiter other than a single space, join(delim) of split(delim) is the original string. Splitting a join gives the elements back when the last is not empty and the delimiter occurs in each element followed by the delimiter only at the end; for one-character delimiters this is: no element contains it.", "quantifier": "all strings and delimiters under the stated conditions", "why_tests_cant": "round-trip law over an infinite domain", "anchors": ["src/String.cpp: String::split", "src/Array.h: join"]}
{"id": "C22", "title": "join concatenates with separators", "statement": "join(delim, quoted) is the concatenation of the (optionally quoted) elements separated by delim. The size precomputation never overflows except when the delimiter and all elements are empty, where the call throws.", "quantifier": "all arrays and delimiters", "why_tests_cant": "all-inputs claim; the size computation underflows only in one corner", "anchors": ["src/Array.h: join"]}
{"id": "C23", "title": "sub replaces non-overlapping occurrences left to right", "statement": "For a non-empty search string sub(search, replacement, limit) terminates and equals the left-to-right replacement of non-overlapping occurrences; replaced text is never rescanned; limit > 0 bounds the number of replacements; -1 and 0 mean unlimited; without an occurrence the result equals the input. An empty search string makes it loop forever.", "quantifier": "all strings, search strings, replacements and limits", "why_tests_cant": "termination and the scanning discipline quantify over all inputs", "anchors": ["src/String.cpp: String::sub, String::subst"]}
{"id": "C24", "title": "trim and chomp remove exactly the documented characters", "statement": "trim() yields the maximal infix with no whitespace at either end; chomp() removes at most one trailing \\n and then at most one trailing \\r; both are idempotent where documented, only narrow the slice, and leave sharing objects unchanged.", "quantifier": "all strings", "why_tests_cant": "all-inputs claim, including strings consisting only of whitespace", "anchors": ["src/String.cpp: String::trim, String::chomp"]}
{"id": "C25", "title": "newsplit tokenizes", "statement": "newsplit(str, delim) returns the bytes before the first delim and leaves the remainder after it (after the whole run for space); repeated calls return every token in order, consume the string completely and terminate, and agree with split(); on an empty string it returns an empty string.", "quantifier": "all strings and delimiters", "why_tests_cant": "termination and concatenation laws over all strings", "anchors": ["src/String.cpp: newsplit"]}
{"id": "C26", "title": "Substring search", "statement": "String::find(needle) returns the least offset at which needle occurs or npos; find(needle,pos) the distance from pos to the first occurrence at or after pos; rfind(needle,lpos) the greatest offset >= lpos; ifind the first occurrence ignoring case. rifind ignores its lpos argument.", "quantifier": "all haystacks, needles and positions", "why_tests_cant": "all-inputs claim; loop bounds rely on unsigned wrap-around", "anchors": ["src/String.cpp: String::_find, String::rfind, String::ifind, String::rifind", "src/String.h: String::find"]}
{"id": "C27", "title": "Repetition and formatting", "statement": "s * n for n >= 0 is the n-fold concatenation of s; printf() returns exactly the formatted bytes whenever they are fewer than 4096, otherwise it is wrong (last byte replaced at 4096, out-of-bounds read beyond).", "quantifier": "all strings, all n, all formatted lengths", "why_tests_cant": "the failing lengths are unbounded; behaviour just beyond the buffer is not visible to ordinary tests", "anchors": ["src/String.cpp: String::operator*, String::printf"]}
{"id": "C28", "title": "Destroying the last String erases its bytes", "statement": "When a String that is the last owner of its buffer is destroyed, the bytes left in the released buffer, and the erase counter, do not depend on what the buffer contained. This does not hold for buffers released by assignment or by growth; witnesses are given.", "quantifier": "all contents, all capacities, all counter values and addresses", "why_tests_cant": "non-interference is a property of pairs of executions", "anchors": ["src/String.h: String::cleanse, ~String, operator=, reserve"]}
{"id": "C29", "title": "Reading Strings from an istream", "statement": "operator>> skips leading whitespace, delivers the maximal run of non-space characters and leaves the following whitespace character in the stream; getline delivers the characters up to a newline which it consumes. Reading the last token or an unterminated last line sets the fail state although data was delivered, so a loop testing the stream drops it. When memory runs out what was appended stays and one more character is gone from the stream. Bytes above 127 are passed to isspace as negative numbers.", "quantifier": "all stream contents", "why_tests_cant": "all-inputs claim on both result and stream state", "anchors": ["src/String.cpp: operator>>, getline"]}
{"id": "C30", "title": "Array equality", "statement": "a == b exactly when both have the same length and equal elements position by position; equals(b,n) exactly when the lengths are equal and the first min(n,length) elements are equal; the shared-buffer shortcut never changes the answer provided elements equal themselves, and otherwise only when both have the same contents.", "quantifier": "all arrays and limits", "why_tests_cant": "all-pairs claim including shared buffers at different offsets", "anchors": ["src/Array.h: equals, operator==, operator!="]}
{"id": "C31", "title": "HashTable is a finite map", "statement": "For every sequence of construction, insert, remove, contains, getValue, find, operator[], clear, copy, move, swap and iteration over any number of tables, results are those of finite maps keyed by contents: insert never overwrites and reports whether it added, remove reports whether it removed, size() is the number of distinct keys, lookups of absent keys give a default value without inserting (const) or after inserting (non-const []), of duplicate keys in an initializer list the first counts. This only needs equal keys to have equal hashes; hash values, collisions and growth do not show in the answers. When copying the value throws, insert leaves the key with a default value.", "quantifier": "all operation sequences and all hash functions respecting equality", "why_tests_cant": "requires all histories and all collision patterns", "anchors": ["src/HashTable.h: HashTable"]}
{"id": "C32", "title": "base64 decode inverts encode", "statement": "base64Decode(base64Encode(x)) == x for every byte string x, with the default alphabet and with any custom alphabet of 64 distinct ASCII characters other than '='; hence encoding is injective.", "quantifier": "all byte strings of any length, all valid alphabets", "why_tests_cant": "round-trip over an infinite domain with three length residues and 2^24 block values", "anchors": ["src/base64.cpp: b64enc_buf, b64dec_buf, base64Encode, base64Decode, b64enc, b64dec", "src/base64.h"]}
{"id": "C33", "title": "base64 output form and buffer bounds", "statement": "The encoding of n bytes has length 4*ceil(n/3), uses only alphabet characters except for at most two trailing '=', and agrees with RFC 4648; the encoder never writes beyond the buffer it allocated.", "quantifier": "all byte strings of any length", "why_tests_cant": "off-by-one overflow of a heap buffer is length dependent and silent", "anchors": ["src/base64.cpp: b64enc_buf"]}
{"id": "C34", "title": "base64 decoder memory safety", "statement": "Decoding a buffer whose length is a multiple of 4 reads only inside the input and writes only inside the allocated output, for every byte content, including invalid characters; other lengths read past the end of the input (a witness is given).", "quantifier": "all byte strings", "why_tests_cant": "an over-read by up to three bytes is invisible without instrumentation", "anchors": ["src/base64.cpp: b64dec_buf, b64dec"]}
{"id": "C35", "title": "strlcpy contract", "statement": "strlcpy(dst,src,siz) returns strlen(src), writes at most siz bytes, stores the first min(strlen(src),siz-1) bytes of src followed by NUL when siz > 0, and touches nothing else.", "quantifier": "all buffers, sources and sizes", "why_tests_cant": "all sizes including 0 and 1, and the absence of other writes", "anchors": ["src/Cstrings.cpp: strlcpy"]}
{"id": "C36", "title": "strlcat contract", "statement": "strlcat(dst,src,siz) with dst NUL-terminated within siz appends at most siz-strlen(dst)-1 bytes, NUL-terminates, and returns strlen(dst)+strlen(src); if dst has no NUL in its first siz bytes nothing is written and the result is siz+strlen(src).", "quantifier": "all buffers, sources and sizes", "why_tests_cant": "all sizes and the absence of out-of-range accesses", "anchors": ["src/Cstrings.cpp: strlcat"]}
{"id": "C37", "title": "C string duplication helpers", "statement": "strdup, strldup and str_redup return or install a fresh NUL-terminated copy (truncated to the limit for strldup), leave the source unchanged, and str_redup frees the old buffer exactly once; passing str_redup a source inside the old buffer reads released memory. calloc returns zeroed memory that was not in use, realloc keeps the contents that fit and releases the old block, and both end the process when memory is lacking.", "quantifier": "all C strings, lengths and heap states", "why_tests_cant": "lifetime errors depend on aliasing between the arguments", "anchors": ["src/Cstrings.cpp: strdup, strldup, str_redup, calloc, realloc"]}
{"id": "C38", "title": "Stream is a byte sequence with a position", "statement": "A Stream behaves as a byte list with a cursor: puts(s) overwrites at the cursor and extends the data as needed and advances the cursor by |s|; seek clamps to [0,capacity]; tell reports the cursor; truncate keeps the data before the cursor. While the cursor is within the data no call throws and other Strings are unaffected.", "quantifier": "all operation sequences", "why_tests_cant": "needs all histories; capacity, not length, bounds the cursor so behaviour depends on allocation history", "anchors": ["src/Stream.h: Stream", "src/Stream.cpp: seek, reserve, read"]}
{"id": "C39", "title": "Stream reads partition the data", "statement": "Repeated getline() (or read(k)) from the start of a stream returns pieces whose concatenation is exactly the data; each getline piece contains no newline except possibly as its last byte; read terminates and always makes progress before the end. read(max, delim) may return max+1 bytes.", "quantifier": "all contents and all read sizes", "why_tests_cant": "concatenation law over all data", "anchors": ["src/Stream.cpp: Stream::read", "src/Stream.h: getline"]}
{"id": "C40", "title": "Stream file round trip", "statement": "writeFile followed by loadFile on the same file yields the same data for every non-empty stream, with the cursor at 0; loading an empty file reports an error.", "quantifier": "all stream contents", "why_tests_cant": "all contents, including NUL bytes and exact block multiples", "anchors": ["src/Stream.cpp: loadFile, writeFile"]}
{"id": "C41", "title": "AtomicFile replaces a file all-or-nothing", "statement": "If the process or machine stops at any point during open, write and commit, the target path afterwards holds either its previous contents (or absence) or the complete new contents, never a mixture or a prefix; after a successful commit it holds the new contents.", "quantifier": "all crash points, all contents, all prior states of the target, all failure results of each system call", "why_tests_cant": "crash points cannot be enumerated by unit tests", "anchors": ["src/AtomicFile.cpp: open, commit, abort", "src/AtomicFile.h"]}
{"id": "C42", "title": "AtomicFile cleans up", "statement": "After commit returns (either way), after abort, and after destruction, the object is closed and the temporary file no longer exists unless its removal failed; a failed commit leaves every other file exactly as it was. A program that closes what it opens leaves no other files and no descriptors behind, except descriptors when fchmod, fsync or close fails. The temporary file is created in the directory of the target, for names without NUL shorter than 4086 bytes. Opening an object that is already open leaves the first temporary file behind.", "quantifier": "all sequences of calls and all failure results", "why_tests_cant": "requires all combinations of system call failures", "anchors": ["src/AtomicFile.cpp: open, commit, abort", "src/AtomicFile.h: ~AtomicFile, is_open, fd"]}
{"id": "C43", "title": "Script integer conversions", "statement": "A C++ value stored in a script object and converted back is unchanged for every value of every signed integer type, for unsigned values (up to 32 bits) in the lower half of their range, for doubles, booleans, texts below INT_MAX bytes and lists and tables of texts; unsigned values in the upper half are shown negative and come back as 0; uint64 always reads as 0; a script value outside the type reads as 0 and never as a wrong number.", "quantifier": "all values of all integer types", "why_tests_cant": "2^64 values per type; the failing half is not tested", "anchors": ["src/ScriptInterpTCL.h: c_to_tcl_cast", "src/ScriptInterpTCL.cpp: tcl_to_c_cast"]}
{"id": "C44", "title": "Script command dispatch", "statement": "A registered command is invoked exactly when the number of script arguments is between its minimum and maximum; it receives the arguments in order with missing optional ones replaced by their defaults; otherwise an error is reported and the function is not called.", "quantifier": "all commands, all argument lists", "why_tests_cant": "all argument counts and all handler arities", "anchors": ["src/ScriptInterpTCL.cpp: _createCommand_callback", "src/ScriptInterpTCLCallbacks.h: real_call", "src/indices.h: make_indices"]}
{"id": "C45", "title": "Script command registry", "statement": "For any program creating and destroying interpreters and creating, deleting and calling commands, with functions that may do all of this except touching a command that is running, the registry is a map from names to the interpreter and function registered last: a script runs exactly what the map says and command objects live exactly as long as their entry. With one interpreter a name runs its last created function and nothing after deletion. Interpreters are not independent (same name, deletion, destruction), other spellings and renamed commands dereference null, and a function recreating its own command loses it; witnesses are given.", "quantifier": "all operation sequences over any number of interpreters and names", "why_tests_cant": "all histories across interpreters", "anchors": ["src/ScriptInterpTCL.h: createCommand, deleteCommand, ScriptCmdTCL, ~ScriptInterpTCL"]}
{"id": "C46", "title": "Script loading accepts exactly .tcl files", "statement": "loadScript evaluates a file exactly when its name ends in .tcl.", "quantifier": "all file names", "why_tests_cant": "all-inputs claim; the test is expressed with a bounded reverse search", "anchors": ["src/ScriptInterpTCL.cpp: loadScript", "src/String.cpp: String::rfind"]}
{"id": "C47", "title": "Concurrent copying and destroying of shared buffers is safe", "statement": "When several threads each own their objects and create, copy, move, assign, read, shorten and destroy objects sharing buffers and make substrings of them, calling c_str() on objects that a NUL ends or that were never copied, and modifying only objects that were never copied, then under every interleaving of the atomic counter steps a buffer is freed exactly when its last owner is gone, is never accessed after being freed, no two threads touch a buffer at the same time with one writing or freeing it, every thread sees the values it would see alone, c_str() included, and nothing is leaked. The erasure of the contents by the last destructor is not guaranteed under interleaving.", "quantifier": "all numbers of threads, all such programs, all interleavings, all initial states with shared buffers", "why_tests_cant": "interleavings are exponentially many and failures need precise timing", "anchors": ["src/ReferenceCountedArray.h: incRef, decRef, CheckDeallocRef, atomic refs"]}
{"id": "C48", "title": "Concurrent copy-on-write is unsafe", "statement": "If one thread modifies its own object while another destroys or modifies its own object sharing the same buffer, there are interleavings in which the buffer is read after being freed or is never freed; c_str(), though const, is such a modification when it is called on a substring that no NUL ends: two threads that only call c_str() on their own objects can spoil each other's texts. The same programs are safe when run without interleaving inside an operation.", "quantifier": "existence of a schedule; safety for all serial schedules", "why_tests_cant": "needs a particular schedule between dropping the reference and copying the elements", "anchors": ["src/ReferenceCountedArray.h: COW, doDetach, AboutToModify, isShared", "src/String.h: c_str"]}
{"id": "C49", "title": "Linked variables are the C++ objects they are linked to", "statement": "After linkVar, reading the script variable shows the current value of the C++ object, setting it stores the converted value and calls the hook with the old and the new value, read-only links refuse and change nothing, and unlinkVar ends the link; for any sequence of linking, unlinking, script reads and writes, C++ assignments and several interpreters, as long as a name is linked once at a time. Linking a name again clears the object linked before, reads go on showing that one, and for buffers freed memory is used; a text shorter than a linked buffer is read past its end; hooks are shared by all interpreters, lost when any interpreter is destroyed, outlive an unset by the script and are missed when the script names the variable with ::.", "quantifier": "all programs of link, unlink, read, write, unset, create and destroy operations; all values and types of objects", "why_tests_cant": "depends on the order of operations over an unbounded history and on state shared between interpreters", "anchors": ["src/ScriptInterpTCL.h: linkVar, unlinkVar, tcl_traceGet, tcl_traceSet, tcl_traceSetPtr, trace_ptrs, link_var_hooks", "src/ScriptInterpTCL.cpp: setupTraces, TraceGet, TraceSet, TraceSetRO"]}
{"id": "C50", "title": "A callback is called with exactly the given parameters", "statement": "ScriptCallbackerTCL::call(params) evaluates a script that is one command: the words of the callback followed by exactly the parameters, provided no parameter contains a quote, bracket, dollar, backslash or NUL and the script is shorter than 4096 bytes. Otherwise a parameter can run commands of its own, be substituted, cut the script short, or make the call read out of bounds.", "quantifier": "all callback commands, all lists of parameters", "why_tests_cant": "all-inputs claim about the quoting of arbitrary text", "anchors": ["src/ScriptInterpTCL.h: ScriptCallbackerTCL::call", "src/Array.h: Array<String>::join", "src/String.cpp: String::printf"]}
{"id": "C51", "title": "eval returns the result or the error text", "statement": "eval(script) returns the text of the script's result, or that of errorInfo if it fails; it does not return if reading errorInfo keeps failing, and the length of the script is truncated to an int.", "quantifier": "all scripts, all interpreter behaviours", "why_tests_cant": "quantifies over the behaviour of the interpreter and over lengths no test can allocate", "anchors": ["src/ScriptInterpTCL.cpp: ScriptInterpTCL::eval"]}
{"id": "C52", "title": "Elements are constructed once and destroyed once", "statement": "In any program over Arrays of a class type, whatever throws, no element is constructed over another by other calls than the two with signature (n, value), none is used or destroyed without existing, none is destroyed twice; every element an array shows exists; after insert of one element or of a range, a write at an index, replace of one element, shift, pop, slicing or resize returns, the array shows the elements it showed before with that edit made, even if its buffer was shared or had to be enlarged; after construction or assignment from a list or another array, or insert or replace with another array, returns, it shows the elements given, in their place, except that inserting at the start of a shorter array loses the elements it had; when all arrays are gone every element constructed was destroyed, provided elements can be moved or nothing throws, and neither Array(n, value) nor resize(n, value) was called. These two construct over existing elements: the constructor loses n elements, resize as many as it adds, and their destructors never run. clear() and pop() end no lifetime: elements stay until their buffer goes.", "quantifier": "all programs over any number of arrays, all element types, all points at which constructing, copying or allocating throws", "why_tests_cant": "quantifies over all call histories and all points of failure; a destructor that never runs has no visible effect in a test of contents", "anchors": ["src/ReferenceCountedArray.h: ArrayRef::Reallocate, ArrayRef::FreeBuf, resize, insert, Shift, construct and destroy calls", "src/Array.h: Array constructors, push_front, shift, pop"]}
{"id": "C53", "title": "What an exception leaves behind", "statement": "A call on an Array that throws leaves the array usable (a constructor leaves none) and all other arrays exactly as they were. Constructors, assignment of arrays, swap, clear, reserve, slicing, and appending one element or resizing while the buffer is not shared, show no change at all when they throw, if elements can be moved. Other calls can leave a changed array: insertion in the middle leaves elements doubled, a write to a shared array leaves it empty or with default values, an append to a type without move operations garbles it. An exception while a buffer grows leaks the new buffer. A copy that throws in resize(n, value) or Array(n, value) makes the destruction destroy elements that do not exist. What is constructed by then is destroyed or lost, the array can still be read up to its length and other arrays are as they were.", "quantifier": "all reachable states, all calls, all points at which constructing, copying or allocating throws", "why_tests_cant": "every point of failure in every reachable state", "anchors": ["src/ReferenceCountedArray.h: ArrayRef::Reallocate, COW, AboutToModify, insert, replace, resize, reserve", "src/Array.h"]}
{"id": "C54", "title": "String's algorithms run to their specified result or leave everything as it was", "statement": "sub, subst, operator*, operator+, join, ifind and rifind, run on the shared buffers with their temporaries, return the specified value, and every string then alive, including those sharing a buffer with the arguments, shows what it showed before; or they throw bad_alloc, which needs a refused allocation of a bounded size (about that of the string, the pattern and the result), and then no string has changed and neither result nor temporary exists. No undefined behaviour, no terminate.", "quantifier": "all reachable states of any number of strings sharing buffers, all contents, all points at which an allocation fails", "why_tests_cant": "every allocation in every state of sharing can fail; a test with the failure at one place says nothing about the others", "anchors": ["src/String.cpp: sub, subst, operator*, ifind, rifind", "src/String.h: operator+, operator+=", "src/Array.h: join"]}
{"id": "C55", "title": "split and newsplit copy no characters and change no string", "statement": "newsplit never throws, whatever the size of the string; split needs memory only for the array and one three-character local, however long the string. On success split constructs exactly the specified pieces and changes no string; if it throws, neither an element nor a temporary remains. The assertions in split never fail in a debug build.", "quantifier": "all reachable states, all strings below 2^31 bytes, all delimiters and limits, all points of failure", "why_tests_cant": "quantifies over all failing allocations and all states of sharing", "anchors": ["src/String.cpp: split, newsplit"]}
{"id": "C56", "title": "Pieces share the buffer of the split string", "statement": "After split, rcount() of the string has grown by exactly the number of pieces, after newsplit of a non-empty string by one: every piece, also an empty one, holds a reference to the same buffer.", "quantifier": "all reachable states, strings, delimiters, limits", "why_tests_cant": "a claim on the counter of a shared buffer in any state of sharing", "anchors": ["src/String.cpp: split (the assertion ref == rcount()), newsplit", "src/ReferenceCountedArray.h: slice, rcount"]}
{"id": "C57", "title": "Assignment to a slice", "statement": "s(start, len) = t with 0 <= start <= length writes min(len, length of t) characters of t (all of t for negative len) over s from start on, extends s if they reach beyond its end, and changes no other string; a slice then reads back what was assigned, and a slice assigned to itself changes nothing. It can throw bad_alloc; then s shows its previous contents or nothing, and no other string has changed. Other than when reading, a negative start throws out_of_range; a shorter or longer t does not take the slice's place, it only overwrites.", "quantifier": "all reachable states, contents, positions and lengths, all points of failure, self-assignment included", "why_tests_cant": "laws over all positions, lengths and states of sharing", "anchors": ["src/ReferenceCountedArray.h: class Slice, replace", "src/String.h: operator()"]}
{"id": "C58", "title": "References and iterators stay valid", "statement": "A pointer, reference or iterator to an element of an array keeps referring to that element, with the same value, while the program does anything to other arrays (including its copies: writing, growing, moving, destroying them) and does to this array nothing but read it, copy it and take elements off its ends - also when calls throw. After reserve(n) on an unshared array, appending up to n elements leaves pointers to the existing elements valid and attempts no allocation. (False for c_str(), although it is a const member.)", "quantifier": "all reachable states, all programs of any length, all failing allocations", "why_tests_cant": "use of a dangling pointer is undefined, and the claim is about every program in between", "anchors": ["src/ReferenceCountedArray.h: reserve, AboutToModify, COW, begin, front, read, CheckDeallocRef", "src/String.h: c_str, reserve, ~String"]}
{"id": "C59", "title": "Stream files without mmap", "statement": "Where mmap is not available, loadFile reads the whole file - or everything a pipe delivers - whatever its size, into the stream, puts the cursor at the beginning, returns 0 and leaves no descriptor open; the result is the same as with mmap for every non-empty file, and an empty file loads as an empty stream. If the descriptor cannot be duplicated or opened, 1 is returned and the stream is empty. Running out of memory throws bad_alloc and leaves other strings alone. writeFile leaves the stream alone, puts the data at the descriptor's position and returns 0 exactly when all of it was written; a stream written to a named file loads back unchanged, the empty one too. (False: a read error is reported; bad_alloc leaves no descriptor open; writing to an open descriptor replaces a longer file.)", "quantifier": "all reachable states, files and pipes of any size, positions, points at which reading, writing or allocation fails", "why_tests_cant": "a build without mmap and failing system calls are hard to arrange, and the claim covers every size and every point of failure", "anchors": ["src/Stream.cpp: loadFile, writeFile (#else branches), reserve", "src/Stream.h: clear"]}
{"id": "C60", "title": "Operators made of other members", "statement": "On an array of at least one and fewer than 2^31 elements, a++ (a--) returns the array of its first (last) element and removes that element, prefix ++ and -- only remove it, and neither can fail; s++ and s-- on a String return the string as it was. a << e appends e and a >> x takes the last element into x, so that the one undoes the other. a + b is the concatenation, also of an array with itself, and leaves a and b alone. The versions for temporaries return the same, and shift and pop on a temporary whose buffer is not shared return the first and last element. No other array changes, nor does any when memory runs out, save that << may leave its array empty and a postfix operator on a temporary has removed the element. (False: postfix ++ and -- and prefix -- leave an empty array empty; shift and pop on an rvalue leave arrays that share its buffer alone in a release build; a postfix operator on a temporary that throws has not changed it.)", "quantifier": "all reachable states, element types, aliasing between the arrays, points at which allocation fails", "why_tests_cant": "the operators work on shared buffers, and a test fixes how the buffers are shared, what the elements are and which allocation fails", "anchors": ["src/Array.h: operator++, operator--, operator<<, operator>>, operator+, shift, pop", "src/String.h: operator++, operator--"]}
{"id": "C61", "title": "A HashTable of Strings owns its keys and values", "statement": "A HashTable<String, String> behaves as a finite map from texts to texts, whatever other Strings share buffers with its keys and values. t[k] = v and insert(k, v) store copies; insert on a key that is there leaves the table, and the arguments even if they are rvalues, as they were. An rvalue value is moved from when it is stored, an rvalue key when a new entry is made of it; no other String changes. contains and remove may be given a key that lies in the table itself; getValue returns a copy, or an empty String. Removing, clearing and destroying free exactly the keys and values concerned, so nothing leaks. A copied table has Strings of its own. What the program does to its own Strings never changes the map, and through the reference t[k] returns only that entry changes. Other tables are untouched. If memory for an entry, for the buckets or for a copy runs out, bad_alloc is thrown and the table and all Strings are as before. (False for an rvalue key: when the entry was made but the buckets could not grow, the key is lost.)", "quantifier": "all reachable states of Strings, tables and bucket layouts, hash collisions, growth policies, rvalue or lvalue arguments, allocations that fail, sequences of calls of any length", "why_tests_cant": "keys and values share buffers with Strings outside and cache their hashes; a test fixes one sharing, one bucket layout and one failing allocation", "anchors": ["src/HashTable.h: insert, operator[], contains, remove, getValue, clear, copy constructor", "src/String.h: operator==, std::hash<String>", "src/ReferenceCountedArray.h: copy, move, hash"]}
{"id": "C62", "title": "Reading into Strings that share buffers", "statement": "is >> s and getline(is, s) make s the word or line read and change no other String, not even one that shared its buffer with s before; the stream is left as C29 says. When there is nothing to read or the stream is not good, s is emptied. In the loop that reads into s and appends s to an array, the elements keep the words (lines) read so far, and the last word (line) of a stream that ends right after it is in s only. bad_alloc is thrown only if memory for the string can be lacking (or the array cannot grow); then either nothing was read and s is as it was, or s holds the beginning of the string and exactly one character is lost. The temporary is destroyed in every case.", "quantifier": "all stream contents, reachable states of Strings and ways they share buffers, growth policies, allocations that fail", "why_tests_cant": "s is read into while copies of it exist; a test fixes one sharing, one text and one failing allocation", "anchors": ["src/String.cpp: operator>>, getline", "src/String.h: operator=(const char*), operator+=(const char)"]}
{"id": "C63", "title": "Writing Strings to an ostream", "statement": "os << s writes exactly the characters of s, throws nothing and changes no String. If the device refuses a character, exactly the characters before it have been written and badbit is set; a stream that is not good takes nothing; in every case what is added is a beginning of the text. Strings written with a blank (newline) after each are read back unchanged by the loops over >> (getline). An rvalue is printed like an lvalue if its buffer is not shared or assertions are off. (False: a width pads the whole String as it does a std::string - only its first character is padded, and an empty String leaves the width set; os << s.substring(a, b) prints in a build with assertions - it aborts.)", "quantifier": "all reachable states of Strings and ways they share buffers, all stream states, widths, fill characters, adjustments and devices", "why_tests_cant": "claim about every string and every state of the stream and its device, including failures in the middle", "anchors": ["src/String.h: operator<<(std::ostream&, const String&), operator<<(std::ostream&, String&&), substring", "src/String.cpp: operator>>, getline"]}
{"id": "C64", "title": "Strings going out to C and C++ strings and coming back", "statement": "dup() gives fresh memory holding all characters and a NUL; copy(dst, n) writes min(n, length) characters and nothing after them. Converting to std::string and back (by constructor or by assignment, to the same String even) gives the same text, NULs included; going through c_str() or dup() gives the characters up to the first NUL. If memory is lacking bad_alloc is thrown and nothing changes. s <= \"...\" and s < \"...\" are the order of the characters, and leave every String as it was. (False: copy leaves a C string - it writes no NUL; a String with a NUL inside survives a trip through c_str(); the comparison s <= \"...\" cannot fail - it makes a String inside a noexcept function and ends the program if there is no memory, where s < \"...\" needs none.)", "quantifier": "all reachable states of Strings and ways they share buffers, all contents, all destinations, all points at which memory may run out", "why_tests_cant": "claim about every text and every state of sharing, and about every allocation failing", "anchors": ["src/String.h: dup, operator std::string, String(const std::string&), operator=(const std::string&), c_str, operator<=(const String&, const char*), operator<(const String&, const char*)", "src/String.cpp: copy"]}
{"id": "C65", "title": "How many Strings can share one buffer", "statement": "The reference counter of a buffer is an int. As long as fewer than 2^31 - 1 objects share any one buffer (in particular as long as fewer are alive, or the program has made at most 2^31 - 2 calls), every call does exactly what it would do with a counter that cannot overflow, so copies are independent and buffers live as long as they are used. (False beyond that: with 2^31 copies of one String the counter is negative, the buffer counts as unshared, and writing to one copy changes the others; with one more, destroying a copy frees the buffer the others still use.)", "quantifier": "all types of elements, all programs of API calls up to that length, all reachable states, all sharing patterns; the counterexamples are programs of 2^31 calls", "why_tests_cant": "a test would need 2^31 live objects to see the failure, and says nothing about all programs below that number", "anchors": ["src/ReferenceCountedArray.h: ArrayRef::refs, incRef, decRef, isShared, CheckDeallocRef, COW, copy constructor, operator="]}
{"id": "C66", "title": "base64 on Strings that share buffers", "statement": "base64Encode(s) gives a new String with the encoding of the characters of s (slices included) and base64Decode of it gives them back; no other String changes, and the temporary block is freed. Text of 4k characters, or 4k+3 ending in '=', is decoded to something that depends on the text only. If there is no memory for the result bad_alloc is thrown and no String changes. (False: other text is decoded by its characters only - decoding a slice reads the characters after it in the shared buffer, so equal Strings decode differently; a failing malloc is noticed - both functions write through null; nothing is lost on bad_alloc - the malloc'ed block is never freed.)", "quantifier": "all reachable states of Strings and ways they share buffers, all contents and charsets, all contents of fresh memory, all points at which memory may run out", "why_tests_cant": "claim about every text, every state of sharing, every content of uninitialised memory and every failing allocation", "anchors": ["src/base64.cpp: base64Encode, base64Decode, b64enc, b64dec, b64enc_buf, b64dec_buf"]}
{"id": "C67", "title": "Whole tables of Strings: assign, move, swap, list", "statement": "For HashTables of Strings: t = u makes t hold the entries of u in Strings of its own, later changes to one are not seen in the other, and t = t changes nothing; a table constructed by moving, or moved to, has what the other had, which is then empty; swap exchanges; a table made of a list has its entries, the first of several with one key. Strings elsewhere never change and, when all tables and Strings are gone, no memory is left. If memory runs out during t = u, u and everything else is as before and t is as before or empty; assigning to a table with as many buckets and no fewer entries needs no memory. (False: an assignment that throws leaves the target as it was.)", "quantifier": "all reachable heaps, any number of tables of any size and capacity, all sequences of calls on them, all rehash policies, all points at which memory may run out", "why_tests_cant": "claim about every sequence of whole-table operations over every number of tables and every failing allocation", "anchors": ["src/HashTable.h: HashTable(const HashTable&), HashTable(HashTable&&), HashTable(initializer_list), operator=, swap, clear"]}
{"id": "C68", "title": "References to Tcl objects are balanced", "statement": "Every Tcl object that the library makes is given to exactly one owner or freed: the value a command returns (numbers, Strings, arrays and arrays of arrays) or the message it ends with becomes the result of the interpreter and says that value, the old result loses one reference; reading a linked variable gives it the text of its C++ value and leaves no other object behind; writing one, arguments and results read objects that are there, say what scripts put there, and are left as they were. Over any sequence of commands, traces and scripts every object's count is the number of references to it, nothing freed is used, nothing changes while it is referred to, and when no variable, result or script refers to anything no object is left. (False: a command may return a String of any length: with INT_MAX chars or more a null pointer becomes the result.)", "quantifier": "all values of the types a command can return, all heaps of Tcl objects with shared and nested lists, all sequences of commands, traces and scripts, any number of interpreters", "why_tests_cant": "a leaked or doubly freed reference shows only as memory growth or corruption after particular sequences; the claim is about every sequence", "anchors": ["src/ScriptInterpTCL.h: c_to_tcl_cast, tcl_traceGet, tcl_traceSet", "src/ScriptInterpTCL.cpp: TraceGet, TraceSet, _createCommand_callback, eval, c_to_tcl_cast<const Array<String>&>", "src/ScriptInterpTCLCallbacks.h: ScriptCallbackDispatchTCL::dispatch"]}
{"id": "C69", "title": "An Array<String> is a list of texts", "statement": "Arrays whose elements are Strings behave as lists of texts although copies share their slots and slots share their buffers: constructing, copying, moving, assigning, swapping, slicing, inserting, appending, replacing and removing elements (copied in or moved in; the item may be an element of another array, and to write or to replace one of the same array), changing an element in place with any member function of String, passing an element to a call on another String, reading elements and moving them out give the predicted texts, in the array concerned and in every other array and String; an insertion beyond the end throws out_of_range and changes nothing. If memory runs out, at either level, the array or String being worked on keeps its value or is empty and every other one is as it was. Nothing freed or moved away is read, every element is constructed and destroyed once, and nothing is left when the arrays and Strings are gone. (False: resize() to more elements gives new empty Strings: after pop() the element is the moved-from String, and reading it is undefined; also false for an insertion whose item is an element of the same array: it may use a String that has been destroyed, or insert another text.)", "quantifier": "all programs with any number of arrays and Strings, all lengths and texts, all member functions on elements, all patterns of failing allocations, all growth functions", "why_tests_cant": "two levels of shared buffers give unboundedly many sharing patterns; an error shows only when an element's buffer is shared through an array whose slots are shared as well", "anchors": ["src/ReferenceCountedArray.h: ReferenceCountedArray, ArrayRef, Cref::mget, the std::is_class branches", "src/Array.h: Array::shift, Array::pop, Array::push, operator<<", "src/String.h: copy and move of String"]}
{"id": "C70", "title": "Items that are elements of an array", "statement": "The item given to insert, append, push_back, write, replace or a[i] = is a reference, and may refer to an element of an array. If that is another array - also a copy or slice that shares its buffer with this one - or this array while it shares its buffer, the item is that element. An Array may also write or replace with its own elements, and so may a String that has room for its NUL. Appending an own element is right if there is room behind the elements, and inserting one if moreover it is not behind the position. (False otherwise: push_back(a[0]) on a full Array reads freed memory, insert(0, a[2]) inserts a[1], and String s{'a','b','c'}; s[0] = s.back() reads freed memory or writes a NUL. What happens is stated exactly.)", "quantifier": "all reachable states, arrays, indices, positions and patterns of sharing, all element types, growth functions and failing allocations", "why_tests_cant": "whether the reference still refers to the element depends on capacity, offset and sharing, which calling code does not see", "anchors": ["src/ReferenceCountedArray.h: insert(size_t, const_reference), append, push_back, write, replace, Cref::operator=, reserve, AboutToModify", "src/Array.h: push_front, operator<<, operator+=(const_reference)", "src/String.h: reserve"]}
{"id": "C71", "title": "split, join and == on an Array<String> in memory", "statement": "String::split returns an Array whose elements are exactly the pieces of the text, also with a limit, and changes nothing else; join() of an Array<String> returns the elements' texts, quoted if asked for, with the delimiter between them, and neither the Array nor an element changes; == on two Array<String> is true exactly if they have the same texts, whatever buffers they share at either level. join() of what was split with a delimiter other than a space gives the original text back unless it ends with the delimiter. If memory runs out, for a character buffer or for the Array, split and join throw and every array and String is exactly as before, with nothing left over.", "quantifier": "all reachable states with any number of arrays and Strings, all texts, delimiters and limits, all patterns of sharing and of failing allocations at both levels, all growth functions", "why_tests_cant": "an Array under construction holds slices of the original's buffer while either level may fail to allocate; which shortcut == takes depends on sharing at two levels", "anchors": ["src/String.cpp: String::split", "src/Array.h: Array::join, Array::equals, operator==, operator!=", "src/String.h: operator!=, operator+=, operator+"]}
{"id": "C72", "title": "a Stream saved through an AtomicFile is there completely or not at all", "statement": "A program saves Streams with f.open(name, mode) && s.writeFile(f.fd()) == 0 && f.commit() on an AtomicFile f that is then destroyed. Wherever the process or the machine stops, even between two bytes copied into the mapping, each file is what it was or all the data of one Stream that was to be saved there, and a Stream loaded from it holds exactly that. When the calls have returned each file is what the last call for it that reported success was given, with the permissions asked for; a call that did not report success, whichever system call failed or if memory ran out, has changed nothing. No temporary file and no descriptor, also not a duplicated one, is left unless removing or closing it failed. A saved Stream is loaded as it was. With and without mmap. Looking at the result of writeFile is needed, and writeFile with a name instead of an AtomicFile does not have these properties.", "quantifier": "all sequences of Streams and files, all contents, all patterns of failing system calls and of exhausted memory, every point at which the machine may stop, all choices of temporary names and descriptors, both builds", "why_tests_cant": "a test cannot stop the machine between any two bytes written, nor make every combination of system calls fail", "anchors": ["src/Stream.cpp: Stream::writeFile(int), Stream::writeFile(const String&, mode_t), Stream::loadFile", "src/AtomicFile.cpp: AtomicFile::open, commit, abort", "src/AtomicFile.h: AtomicFile::fd, ~AtomicFile"]}
{"id": "C73", "title": "Streams and Strings that share buffers do not notice each other", "statement": "A program makes any number of Streams and Strings, from each other by copy, by move and by assignment, swaps and destroys them, and calls puts, peek, read, getline, the conversion to String, seek, tell, length, operator!, truncate and clear on its Streams and any call of the String contract on its Strings, including on Strings that came out of a Stream. All results and exceptions are as if every Stream had a text and a cursor of its own and every String a text of its own: what is done to one is seen in no other, whether the call returns or throws. A moved-from Stream keeps its cursor and can be assigned, cleared and destroyed. bad_alloc is thrown only if memory can be refused at a size the call may ask for, and then every text is as before except that the one being written may be empty, and a read may have moved the cursor of its Stream. Stream::reserve() is not such a call: on a Stream made from part of a String it changes what the String reads.", "quantifier": "all programs over these calls, all contents, cursors, sizes and delimiters, all ways in which buffers can be shared, all patterns of exhausted memory", "why_tests_cant": "which buffers are shared depends on the whole history of copies, slices and writes; tests try a few histories and mostly one Stream", "anchors": ["src/Stream.h: constructors, swap, operator=, operator String, operator!, clear, operator<<", "src/Stream.cpp: Stream::reserve, seek, puts, read, getline, truncate, peek", "src/String.h, src/ReferenceCountedArray.h: copies, slices and copy-on-write of the text"]}
{"id": "C74", "title": "A program with several tables of Strings sees maps and texts, also when memory runs out", "statement": "A program makes any number of HashTable<String, String> and Strings, and in any order constructs (empty, from a list, by copy, by move), assigns, move-assigns, swaps, clears and destroys tables, calls insert, operator[], remove, contains, getValue, find and size with its Strings as keys and values (lvalues or rvalues), and calls any String operation on its Strings, on t[k] and on find(k)->second. It catches the exceptions and goes on. All results and exceptions are as if every table were a finite map of its own and every String a text of its own: a String that was put in, taken out or copied along with a table does not change when another is written. What a call does not mention is as before, whether the call returns or throws. bad_alloc is thrown only if memory is refused, and then tables and texts are as before, except that the text being written or the table being assigned to may be empty, an rvalue key may be lost, and t[k].f() may have made the entry. When all tables and Strings are destroyed no memory is left.", "quantifier": "all programs over these calls, all keys and values that are byte strings, all bucket counts and growth policies, all ways in which buffers come to be shared, all patterns of refused memory", "why_tests_cant": "which buffers the nodes of the tables share with the program's Strings depends on the whole history; a test fixes one history, and never runs out of memory at each point", "anchors": ["src/HashTable.h:58-72 constructors, 87-113 clear, swap, assignment, 125-127 size, 138-198 insert, operator[], remove, contains, getValue, find", "src/String.h, src/ReferenceCountedArray.h: copies and copy-on-write of keys and values"]}
{"id": "C75", "title": "A program using Strings, their algorithms, tables, arrays and base64 together sees texts, maps and lists", "statement": "A program holds any number of Strings, HashTable<String, String> and Array<String>, and in any order calls every operation of C74 and x + y, x * n, sub, subst with one of its tables, newsplit, ifind, rifind, compare, the comparison operators, find (also from a position), rfind, substring, trim() const, chomp() const, assignment to slices (from Strings, rvalues, slices), base64Encode, base64Decode of an encoding, split into an array, join of an array, construction, push_back and operator<< (copying and moving), pop, at, length and destruction of an array, and String operations on the elements of its arrays. It catches the exceptions and goes on. All results are as if every String were a text of its own, every table a finite map and every array a list of texts: concatenation, repetition, replacement left to right (for subst the entries in some order), the token before the delimiter and the rest, the first or last place (up to letter case for ifind and rifind; find throws out_of_range from a position behind the end), the lexicographic order, the stripped text, the written text, the encoding of RFC 4648 and its inverse, the pieces between delimiters, the pieces with the delimiter between, the list with a text added at or taken from its end, out_of_range for an element that is not there. What a call does not mention is as before, whether it returns or throws. bad_alloc is thrown only if memory is refused; everything is then as before, except as C74 says, that the String assigned to through a slice may be empty, and that a block used by base64 is lost. When all tables, arrays and Strings are destroyed no memory is left but for those blocks.", "quantifier": "all programs over these calls, all texts within the stated limits (below 2^31 characters where the code counts in int), all bucket counts and growth policies, all ways in which buffers come to be shared, all patterns of refused memory", "why_tests_cant": "the result of an algorithm may share its buffer with the argument, which may be a value in a table or an element of an array; whether some later call notices depends on the whole history and on where memory runs out", "anchors": ["src/String.cpp:42-56, 192-369 algorithms", "src/String.h:181-196, 298, 310, 322-326, 444-451, 537-601 operators, searches, substrings", "src/ReferenceCountedArray.h:147-210 slices", "src/base64.cpp:103-109, 167-173", "src/Array.h:153-176 join", "src/HashTable.h:58-198", "src/Array.h:92-133 operator<<, pop; src/ReferenceCountedArray.h:946-949, 991-1013 at, push_back, pop_back"]}
{"id": "C76", "title": "Building with assertions changes nothing for correct programs and only ends incorrect ones", "statement": "A program over Strings and Arrays that keeps to the contract (no pop_back(), shift() or pop() on an empty array, no index beyond the end, no use of a destroyed or moved-from object, ...) shows the same results, exceptions and lengths whether the library is built with NDEBUG or without it: none of the assertions in copy on write, c_str(), construction from a C string, assignment from std::string, pop_back(), shift() and pop() fails in any state such a program reaches, out of memory or not. A program that does not keep to it shows the same in both builds up to the point where the build with assertions stops. pop_back(), shift() and pop() on an empty array always stop it; without assertions pop_back() leaves an array claiming 2^64 - 1 elements.", "quantifier": "all sequences of calls on any number of arrays and Strings, all element types, all patterns of refused memory, both builds", "why_tests_cant": "tests run one build and reach few of the states in which buffers are shared, sliced or reallocated; an assertion that is too strict fails only in some of the others", "anchors": ["src/ReferenceCountedArray.h:383-392 COW", "src/ReferenceCountedArray.h:1010-1013 pop_back", "src/Array.h:107-133 shift, pop", "src/String.h:100-108, 164-171, 232-244"]}
{"id": "C77", "title": "Standard algorithms over begin()/end() and rbegin()/rend() act on an array as on a plain list", "statement": "An algorithm that is given iterator ranges, learns their lengths and reads and writes elements inside them - sort, reverse, transform, copy, find, equal, ... - does to an array exactly what it does to a list of its elements. Over const ranges, forwards or backwards, it computes the same result, copies nothing, changes nothing and throws nothing. Writing the range of x (begin() and end() or rbegin() and rend()) while reading const ranges of other arrays, copies and slices of x included, it leaves x with the elements it leaves in the list and no other array changed, whatever was shared before; the iterators stay valid throughout. It can fail only in begin(), before anything is written. A const range of x itself is excluded: taken before begin() it keeps reading the old buffer, or dangles.", "quantifier": "all algorithms (programs of reads, writes and moves that may depend on the elements read), all element types, all arrays and sharing patterns, both directions, all patterns of refused memory", "why_tests_cant": "the space of algorithms times sharing states is unbounded; a begin() that forgets to copy, or an end() that copies again, only shows with particular sharing and capacities", "anchors": ["src/ReferenceCountedArray.h:300-310 Buf, constBuf", "src/ReferenceCountedArray.h:399-413 getOwnCopy, AboutToModify", "src/ReferenceCountedArray.h:707-774 begin, end, rbegin, rend and const forms"]}
{"id": "C78", "title": "A program with Streams, Strings and files sees texts, cursors and a map of files", "statement": "However a program mixes Streams, Strings made from or taken out of Streams, and loadFile/writeFile by names held in Strings, with or without mmap and whichever system calls fail, everything it observes is as if each Stream had its own bytes and cursor, each String its own bytes, and the files were a map from names to bytes. A call changes only the Streams and Strings it mentions and only the file it writes. A successful save followed by any calls that do not write that file and a successful load gives back the bytes saved, whatever buffers were shared in between; the String with the name counts up to its first NUL only, so two Strings that differ may name one file. Descriptors are closed again, except that a load ended by bad_alloc leaves those it had opened.", "quantifier": "all programs over any number of Streams, Strings and files, all contents and sharing patterns, both ways of reading files, all patterns of refused memory and failing system calls", "why_tests_cant": "histories, sharing patterns and failure points are unbounded; a load that writes into a shared buffer, or a close that is skipped on one path, only shows in particular combinations", "anchors": ["src/Stream.cpp:98-154 loadFile", "src/Stream.cpp:156-200 writeFile", "src/Stream.h Stream, operator String", "src/String.h c_str"]}
{"id": "C79", "title": "A program that uses the whole library at once sees texts, maps, lists, cursors and files", "statement": "However a program mixes Strings and their algorithms, tables from String to String, arrays, base64, Streams and files over one heap with shared buffers, everything it observes is as if each String were its own bytes, each Stream its own bytes and cursor, each table its own map, each array its own list, and the files a map from names to bytes; memory may run out and system calls may fail anywhere. A call changes only what it mentions, whether it returns or throws. When all tables, Strings and Streams are gone so is all memory, except one block per base64 call that ran out of memory. In particular a String that is encoded, put into a Stream and saved is in the file encoded, and a String loaded through a Stream from a file with an encoding and decoded is what was encoded.", "quantifier": "all programs over any number of Strings, Streams, tables, arrays and files, all contents and sharing patterns, both ways of reading files, all patterns of refused memory and failing system calls", "why_tests_cant": "the components share buffers with each other; an aliasing mistake in one component only shows in what another one reads later, and the histories that could show it are unbounded", "anchors": ["src/String.h String", "src/String.cpp", "src/HashTable.h HashTable", "src/Array.h Array", "src/base64.cpp", "src/Stream.h Stream", "src/Stream.cpp", "src/ReferenceCountedArray.h"]}
{"id": "C80", "title": "A program that reads and writes text streams besides using the whole library sees texts, and text still to be read", "statement": "However a program mixes reading words and lines from istreams, writing to ostreams and every other use of the library, and however its next step depends on what it has seen, everything it observes is as if each istream were the text still to be read, or failed, each ostream the text written to it, and each String, Stream, table, array and file its own value. Reading is determined by the text in the istream. A call changes only what it mentions. Memory may run out anywhere: reading then leaves everything as it was, or stops after a part of the text, which the String holds, and loses one character. Two Strings without newlines, written as lines, are read back by getline. When all tables, Strings and Streams are gone so is all memory, except one block per base64 call that ran out of memory.", "quantifier": "all programs, including those that choose their next call by what was returned or thrown; all texts, contents and sharing patterns; all patterns of refused memory and failing system calls; both ways of reading files", "why_tests_cant": "the loop of a program over its input, the texts and the points where memory is refused are unbounded, and a String that is read into may share its buffer with a table, an array or a Stream, where a mistake shows only later", "anchors": ["src/String.cpp operator>>", "src/String.cpp getline", "src/String.h operator<<", "src/ReferenceCountedArray.h ReferenceCountedArray", "src/HashTable.h HashTable", "src/Array.h Array", "src/Stream.cpp"]}
{"id": "C81", "title": "What it costs to use an array as a stack or as a queue", "statement": "On an array of n elements that is not shared and has capacity c, rounds of pop() and push_back(v), and rounds of shift() and push_back(v), always return, even if no memory is to be had; they ask for no buffer and release none, and no other object changes. The array then holds the last n of its elements and those put in, in order (queue), or its elements with the last one replaced (stack). The stack moves no element inside the array. The queue moves exactly (n-1) * floor((o+k)/(c-n+1)) elements in k rounds, where o is the number of free slots in front of the elements: at most n+k if c >= 2n, but k*(n-1), that is all elements but one in every round, if the array is exactly full.", "quantifier": "all element types (Arrays, not Strings), all contents, all lengths and capacities, all numbers of rounds, all patterns of refused memory", "why_tests_cant": "tests see contents, not the elements moved; the bound is for every number of rounds, and the cost depends on an offset that cannot be asked for", "anchors": ["src/ReferenceCountedArray.h: ArrayRef::reserve, AboutToModify, insert, append", "src/Array.h: shift, pop"]}
{"id": "C82", "title": "What it costs to put a text or an array together from pieces", "statement": "Appending any number of pieces of any sizes to a String or Array, each piece being the first n elements or all of another array (append(y, n), x += y) or of the memory at a pointer (append(p, n), x += p), leaves its elements followed by the pieces in order, and no other object changes. With N elements in the end, this asks for at most 2*log2(4*(N+1))+3 allocations, releases buffers of at most 4*N elements altogether, and moves or copies at most 5*N elements besides the pieces themselves, whether the array was empty, shared, or had free slots in front. The calls return if memory is to be had. All of another array, appended with its length given to an empty array, is shared: nothing is asked for.", "quantifier": "all element types, all contents, all lists of pieces of any sizes, all prior sharing and capacities; up to 2^51 elements", "why_tests_cant": "tests see contents, not the elements moved, the allocations made and the buffers released; the bound is for every list of pieces", "anchors": ["src/ReferenceCountedArray.h: ArrayRef::reserve, COW, AboutToModify, insert, append", "src/String.h: reserve, append, operator+=", "src/String.cpp: insert"]}
