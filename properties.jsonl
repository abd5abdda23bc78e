{"id": "C01", "title": "rank after any history", "statement": "After a bitmap is built from any words and any sequence of flips and queries has run on it, rank(i) returns the number of ones at positions 0..i inclusive of the current bit vector, for every i < size().", "quantifier": "every input word array the type accepts, every operation sequence, every position, every block size (64/256/512), both index families (avx2, avx512), every tree height, and vector as well as scalar builds", "why_tests_cant": "the state space is all bit vectors up to 2^33 bits times all histories; the tests use one random density and one size per height", "anchors": ["include/mutable_bitmap.hpp:rank", "include/mutable_bitmap.hpp:flip", "include/mutable_bitmap.hpp:build", "include/types.hpp:block256_type::rank"]}
{"id": "C02", "title": "select after any history", "statement": "After any history, for every k smaller than the current number of ones, select(k) returns the position of the (k+1)-th one: the unique p whose bit is 1 and that has exactly k ones before it.", "quantifier": "every input, every history, every k below the number of ones, every block size, both index families, every height (on the height-4 avx2 index with 512-bit blocks except exactly the ranks C26 describes)", "why_tests_cant": "same unbounded state space; wrong answers could hide in a particular prefix-sum configuration (segment boundaries, equal prefix sums, empty blocks)", "anchors": ["include/mutable_bitmap.hpp:select", "include/segment_tree/avx2/segment_tree.hpp:search", "include/segment_tree/avx512/segment_tree.hpp:search", "include/rank_select_algorithms/select.hpp"]}
{"id": "C03", "title": "access after any history", "statement": "After any history, access(i) returns the current value of bit i: the built value toggled once for every flip(i) so far.", "quantifier": "every input, every history, every i < size()", "why_tests_cant": "needs all interleavings of flips at all positions", "anchors": ["include/mutable_bitmap.hpp:access", "include/mutable_bitmap.hpp:flip"]}
{"id": "C04", "title": "flip changes one bit and nothing else", "statement": "flip(i) toggles bit i and leaves every other bit, the size and the word array length unchanged; ranks change by exactly +1/-1 at positions >= i and not at all at positions < i.", "quantifier": "every reachable bitmap, every i, every other position", "why_tests_cant": "a frame property: quantifies over all the positions that must not change", "anchors": ["include/mutable_bitmap.hpp:flip", "include/mutable_bitmap.hpp:bits"]}
{"id": "C05", "title": "build contents and padding", "statement": "A freshly constructed bitmap built from n words holds exactly those n*64 bits followed by zero bits up to the next multiple of the block size; size() is that padded length; bits() starts with the input words.", "quantifier": "every n from 1 to 2^24 blocks' worth of words and every word content", "why_tests_cant": "all lengths, including those that are not a multiple of the block size", "anchors": ["include/mutable_bitmap.hpp:build", "include/mutable_bitmap.hpp:size", "include/mutable_bitmap.hpp:bits"]}
{"id": "C06", "title": "rank and select are inverse", "statement": "For every k below the number of ones, rank(select(k)) = k+1; for every position p holding a one, select(rank(p)-1) = p.", "quantifier": "every reachable bitmap, every k, every set position", "why_tests_cant": "universally quantified round trip over all reachable states", "anchors": ["include/mutable_bitmap.hpp:rank", "include/mutable_bitmap.hpp:select"]}
{"id": "C07", "title": "flipping twice is the identity", "statement": "flip(i); flip(i) restores every observable answer: all access, rank and select results are what they were.", "quantifier": "every reachable bitmap and every i", "why_tests_cant": "observational equality quantifies over all later query sequences", "anchors": ["include/mutable_bitmap.hpp:flip", "include/segment_tree/avx2/segment_tree.hpp:update", "include/segment_tree/avx512/segment_tree.hpp:update"]}
{"id": "C08", "title": "memory safety of valid calls", "statement": "Every build/flip/access/rank/select call whose argument meets the documented range reads and writes only inside the buffers owned by the bitmap and inside the constant tables; it never shifts by 64 or more and never evaluates ctz(0).", "quantifier": "every reachable bitmap and valid argument, all heights, vector and scalar paths", "why_tests_cant": "absence of out-of-bounds accesses must hold for every address computed; a test run only exercises some", "anchors": ["include/segment_tree/avx2/segment_tree_macros.hpp", "include/segment_tree/avx512/segment_tree_macros.hpp", "include/segment_tree/avx2/tables.hpp", "include/segment_tree/avx512/tables.hpp"]}
{"id": "C09", "title": "debug assertions never fire on valid calls", "statement": "In a debug build no assert fails during any sequence of valid calls (for the avx512 index only with blocks of at most 256 bits, see C25).", "quantifier": "every valid history in a debug build", "why_tests_cant": "the tests are built in release mode or see only a few inputs", "anchors": ["include/mutable_bitmap.hpp", "include/segment_tree/avx2/node128.hpp:search", "include/segment_tree/avx512/node512.hpp:search", "include/segment_tree/avx2/segment_tree.hpp:build"]}
{"id": "C10", "title": "vector and scalar builds agree", "statement": "A program compiled with the AVX2 (resp. AVX-512) code paths and the same program compiled with the scalar paths give the same answer to every query of every valid history.", "quantifier": "every input and valid history (same exclusion as C02)", "why_tests_cant": "relates two binaries on all inputs", "anchors": ["include/segment_tree/avx2/node64.hpp", "include/segment_tree/avx2/node32.hpp", "include/segment_tree/avx2/node128.hpp", "include/segment_tree/avx512/node512.hpp", "include/segment_tree/avx512/node256.hpp", "include/segment_tree/avx512/node128.hpp"]}
{"id": "C11", "title": "avx2 and avx512 indexes agree", "statement": "The bitmap instantiated with the avx2 segment tree and the one instantiated with the avx512 segment tree, built from the same words and driven by the same operations, give the same answers.", "quantifier": "every input and valid history (same exclusion as C02)", "why_tests_cant": "relates two implementations on all inputs", "anchors": ["include/segment_tree/avx2/segment_tree.hpp", "include/segment_tree/avx512/segment_tree.hpp"]}
{"id": "C12", "title": "all rank modes agree with counting", "statement": "Every supported rank mode of the 256-bit and 512-bit block rank functions returns the number of ones among bits 0..i of the block.", "quantifier": "every block content (2^256 / 2^512), every offset, every supported mode", "why_tests_cant": "2^512 block contents", "anchors": ["include/rank_select_algorithms/rank.hpp:rank_u256", "include/rank_select_algorithms/rank.hpp:rank_u512", "include/types.hpp:block64_type::rank"]}
{"id": "C13", "title": "all in-word select algorithms are correct", "statement": "Each of the five select_u64 algorithms returns the position of the (k+1)-th one of the word for every k below its popcount.", "quantifier": "every 64-bit word and every k < popcount", "why_tests_cant": "2^64 words; the tests sample random words only", "anchors": ["include/rank_select_algorithms/select.hpp:select_u64", "include/rank_select_algorithms/common.hpp:select_in_byte", "include/rank_select_algorithms/common.hpp:lt_sel", "include/rank_select_algorithms/common.hpp:ps_overflow"]}
{"id": "C14", "title": "all block select modes are correct", "statement": "Every supported select mode of the 256-bit and 512-bit block select functions returns the position of the (k+1)-th one of the block for every k below the number of ones in it.", "quantifier": "every block content, every k, every supported mode", "why_tests_cant": "2^512 block contents", "anchors": ["include/rank_select_algorithms/select.hpp:select_u256", "include/rank_select_algorithms/select.hpp:select_u512"]}
{"id": "C15", "title": "all popcounts agree", "statement": "The broadword popcount, the builtin one and the per-lane AVX2/AVX-512 popcounts return the number of set bits of each 64-bit word.", "quantifier": "every 64-bit word / every vector", "why_tests_cant": "2^64 words", "anchors": ["include/rank_select_algorithms/common.hpp:popcount_u64", "include/rank_select_algorithms/common.hpp:popcount_m256i", "include/rank_select_algorithms/common.hpp:popcount_m512i", "include/rank_select_algorithms/common.hpp:byte_counts"]}
{"id": "C16", "title": "index nodes implement prefix sums", "statement": "For each of the six node classes: after building from an array of counters and any sequence of +1/-1 updates that keeps counters in range, sum(i) is the sum of counters 0..i and search(x) returns the smallest i with sum(i) > x together with the sum before i.", "quantifier": "every counter array in range, every update sequence, every i and x, vector and scalar paths", "why_tests_cant": "all counter arrays and histories", "anchors": ["include/segment_tree/avx2/node128.hpp", "include/segment_tree/avx2/node64.hpp", "include/segment_tree/avx2/node32.hpp", "include/segment_tree/avx512/node512.hpp", "include/segment_tree/avx512/node256.hpp", "include/segment_tree/avx512/node128.hpp", "include/util.hpp:build_node_prefix_sums"]}
{"id": "C17", "title": "index trees implement searchable prefix sums", "statement": "For both tree families and every height: after build from n counters and any sequence of updates, sum(i) = sum of counters 0..i and search(x), for x below the total, returns the smallest position whose inclusive prefix sum exceeds x and the sum before it.", "quantifier": "every n with height(n) = Height, every counter array, every history", "why_tests_cant": "n up to 2^24, all counter arrays and histories", "anchors": ["include/segment_tree/avx2/segment_tree.hpp", "include/segment_tree/avx512/segment_tree.hpp", "include/segment_tree/avx2/segment_tree_macros.hpp", "include/segment_tree/avx512/segment_tree_macros.hpp"]}
{"id": "C18", "title": "height(n) is exactly the height that works", "statement": "For every n from 1 to 2^24, building with the tree type of height height(n) creates a single root and exactly that many levels; for other n height returns a value only the caller's precondition excludes (1 for n = 0, and 0 above 2^24). With a smaller height build itself writes out of bounds, for every input. With a larger height the sum up to the last counter is read past the end of the buffer, for every input, except that the largest height spares inputs whose last leaf holds at most 48 (256-bit family) or 224 (512-bit family) counters.", "quantifier": "every n, every Height parameter", "why_tests_cant": "all 2^24 sizes; a boundary slip would only show at one size", "anchors": ["include/segment_tree/avx2/segment_tree.hpp:height", "include/segment_tree/avx512/segment_tree.hpp:height", "include/segment_tree/avx2/segment_tree.hpp:build"]}
{"id": "C19", "title": "hidden static scratch buffers do not leak between calls", "statement": "rank and select results do not depend on what earlier calls (on this or any other bitmap of the process) left in the function-local static arrays.", "quantifier": "every sequence of earlier calls, every mode", "why_tests_cant": "quantifies over all call histories of the process", "anchors": ["include/rank_select_algorithms/rank.hpp:rank_u256", "include/rank_select_algorithms/rank.hpp:rank_u512", "include/rank_select_algorithms/select.hpp:select_u256", "include/rank_select_algorithms/select.hpp:select_u512"]}
{"id": "C20", "title": "calls from several threads", "statement": "If no thread flips a bitmap another thread uses and no two threads call rank or select in a mode that keeps its counts in the same static array, then under every schedule there is no data race, no thread gets stuck and each ends with the answers it would get alone. The condition is exact when each bitmap counts as one shared location and each static array word as another: any other set of threads with valid calls has a schedule in which two of them are about to access one location and at least one writes it. Threads that only query can only clash on static array words. (The expectation that const queries may always run concurrently is refuted: two rank calls in an unrolled or parallel mode, even on different bitmaps, have a schedule in which one counts the words of the other's block.)", "quantifier": "every number of threads, every sequence of valid calls per thread, every interleaving of their accesses to bitmaps and to each word of the static arrays", "why_tests_cant": "schedules are not controllable in a test; the failing ones have tiny windows", "anchors": ["include/rank_select_algorithms/rank.hpp", "include/rank_select_algorithms/select.hpp", "include/types.hpp", "include/mutable_bitmap.hpp"]}
{"id": "C21", "title": "what a copy shares with its source", "statement": "A bitmap filled by the copy constructor or by copy assignment owns its bits but shares the index buffer of its source. While neither is modified both answer every query exactly. A flip of either shifts by one the other's ranks in all later blocks, and no others. Once the source is destroyed no flip, no select and no rank beyond the first block of the copy returns. (The expectation that copies are independent is refuted.)", "quantifier": "every program before the copy, copy construction and copy assignment, every bitmap, every list of queries, every pair of positions", "why_tests_cant": "needs a model of object lifetime and aliasing", "anchors": ["include/segment_tree/avx2/segment_tree.hpp:m_ptr", "include/segment_tree/avx512/segment_tree.hpp:m_ptr", "include/mutable_bitmap.hpp"]}
{"id": "C22", "title": "moves preserve the value", "statement": "After move construction or move assignment the target answers every later operation exactly as the source would have. The source is left empty and can be built again like a new object.", "quantifier": "every program before the move, every bitmap, every later history", "why_tests_cant": "needs a model of object lifetime and aliasing", "anchors": ["include/segment_tree/avx2/segment_tree.hpp:m_ptr", "include/segment_tree/avx512/segment_tree.hpp:m_ptr", "include/mutable_bitmap.hpp"]}
{"id": "C23", "title": "distinct bitmaps do not interfere", "statement": "Any program that creates, builds, queries, flips, copies, moves, assigns and destroys any number of bitmaps of any types behaves as if each object were a plain list of bits, provided flip, rank and select are not called on an object filled by copying before it is built again. In particular no event that targets another object changes the answers of a bitmap.", "quantifier": "every program over any number of objects, every type, every placement of the buffers", "why_tests_cant": "quantifies over all interleavings and all memory layouts", "anchors": ["include/mutable_bitmap.hpp", "include/segment_tree/avx2/segment_tree.hpp", "include/segment_tree/avx512/segment_tree.hpp"]}
{"id": "C24", "title": "what building again leaves", "statement": "Calling build again makes the bitmap hold the new input followed, up to the end of the last block, by the bits it held at those positions before; all later operations answer for that. The padding is zero exactly when the old bits there were zero. (The expectation of zero padding is refuted.)", "quantifier": "every program before it, every previous contents, every new input, every later history", "why_tests_cant": "depends on what the earlier build left in the padding", "anchors": ["include/mutable_bitmap.hpp:build"]}
{"id": "C25", "title": "which blocks the avx512 index accepts in a debug build", "statement": "A debug build of a bitmap over the avx512 index accepts exactly the inputs in which every block has at most 256 ones: with such input every program works, and with a denser block (possible with 512-bit blocks only) build itself stops at the leaf assertion. The avx2 index, blocks of at most 256 bits and release builds are never affected. (The expectation that any words can be built is refuted.)", "quantifier": "every input, every block size, both families, every program, every configuration", "why_tests_cant": "only dense inputs with 512-bit blocks fail; tests use density 0.3", "anchors": ["include/segment_tree/avx512/segment_tree.hpp:build", "include/mutable_bitmap.hpp:build"]}
{"id": "C26", "title": "which selects work up to the advertised maximum size", "statement": "On any bitmap build accepts (up to 2^24 blocks), select(k) with k below the number of ones is right exactly when k is not lost to the signed 32-bit comparisons of the height-4 avx2 root: k in the last child of a completely full group of eight children (2^31 ones), or at least 2^31 ones before k in the last nine children. A lost k stops at an assertion in a debug build and reads outside the index in a release build. Nothing is lost with 64/256-bit blocks, below 2^31 ones, or below 15*2^19 blocks. (The expectation that select works on all of them is refuted by the full bitmap.)", "quantifier": "every bitmap of up to 2^24 blocks, every history, every k, every configuration", "why_tests_cant": "needs more than a gigabyte of dense bits; the tests never go near it", "anchors": ["include/segment_tree/avx2/node32.hpp:search", "include/mutable_bitmap.hpp:build"]}
{"id": "C27", "title": "which buffer addresses flip accepts", "statement": "With the avx2 index and a trapping aligned load, flip works exactly when the nodes (buffer address + 4*Height) are 32-byte aligned; at any other address the first flip faults, although all queries before it are right. An allocator returning multiples of 16 never gives a good address for heights 1 to 3. The avx512 index and builds without the aligned load accept every address. (The expectation that flip works wherever the allocator puts the buffer is refuted.)", "quantifier": "every buffer address, every input, every sequence of queries before the flip, every configuration", "why_tests_cant": "depends on the addresses an allocator happens to return", "anchors": ["include/segment_tree/avx2/node128.hpp:update"]}
{"id": "C28", "title": "stale scratch in the last leaf is invisible", "statement": "The counters left over from the previous leaf in the unused tail of the last leaf never influence the answer to a valid query.", "quantifier": "every n that does not fill the last leaf, every history, every valid query", "why_tests_cant": "all sizes and contents", "anchors": ["include/segment_tree/avx2/segment_tree.hpp:build", "include/segment_tree/avx512/segment_tree.hpp:build"]}
{"id": "C29", "title": "rank is a counting function", "statement": "rank is monotone, grows by at most one per position, never exceeds i+1, equals rank(i-1) plus the bit at i, and rank(size()-1) is the number of ones, which changes by exactly one per flip.", "quantifier": "every reachable bitmap, every pair of positions", "why_tests_cant": "relational over all states and positions", "anchors": ["include/mutable_bitmap.hpp:rank", "include/mutable_bitmap.hpp:flip"]}
{"id": "C30", "title": "select is strictly increasing and hits exactly the ones", "statement": "select is strictly increasing in k and its values over all k are exactly the positions holding a one.", "quantifier": "every reachable bitmap, every pair of ranks", "why_tests_cant": "relational over all states", "anchors": ["include/mutable_bitmap.hpp:select"]}
{"id": "C31", "title": "index space", "statement": "The index occupies exactly the bytes its layout prescribes, a number that only depends on n, and is at most a fixed fraction of the number of blocks plus a constant; building never writes outside it.", "quantifier": "every n from 1 to 2^24", "why_tests_cant": "all sizes", "anchors": ["include/segment_tree/avx2/segment_tree.hpp:build", "include/segment_tree/avx512/segment_tree.hpp:build", "include/mutable_bitmap.hpp:bytes"]}
{"id": "C32", "title": "what unsupported mode combinations do", "statement": "A rank/select mode the enum offers without an implementation for the block size stops at an assertion in a debug build for every block and argument. In a release build rank returns 0 for every block, select returns 0 for every block or, in pdep mode, reads one word past the block. (The expectation that such a mode is never silently wrong is refuted.)", "quantifier": "every unsupported enum value, every block size, every block content, every argument", "why_tests_cant": "the test list enumerates only the working combinations", "anchors": ["include/rank_select_algorithms/rank.hpp:rank_u256", "include/rank_select_algorithms/rank.hpp:rank_u512", "include/rank_select_algorithms/select.hpp:select_u256", "include/rank_select_algorithms/select.hpp:select_u512"]}
{"id": "C33", "title": "random bit generator reports what it wrote", "statement": "create_random_bits on at least four words leaves the old ones and the drawn positions set, sets bit 0 as well if the first 256 bits would all be zero, and returns the number of drawn positions counting that one. On an all-zero array this is exactly the number of ones now present, and one of the first 256 bits is set. On other arrays the result misses exactly the old ones that were not drawn. With fewer than four words it reads past the array exactly when no bit is set at the end. (The expectations that the result is always the number of ones and that any array is accepted are refuted.)", "quantifier": "every array of fewer than 2^58 words, every threshold, every seed", "why_tests_cant": "the tests trust its result to choose their own queries; all thresholds, seeds and lengths", "anchors": ["include/util.hpp:create_random_bits", "include/util.hpp:splitmix64"]}
{"id": "C34", "title": "histories with equal final contents are indistinguishable", "statement": "Two bitmaps of the same type whose current bits are equal answer every later operation sequence identically, however they got there (built, or built differently and flipped).", "quantifier": "every pair of histories with the same resulting bits, every later operation sequence", "why_tests_cant": "observational equivalence over all pairs of histories", "anchors": ["include/mutable_bitmap.hpp"]}
{"id": "C35", "title": "operations at different positions commute", "statement": "flip(i); flip(j) and flip(j); flip(i) lead to bitmaps that answer every query identically.", "quantifier": "every reachable bitmap, every i and j", "why_tests_cant": "all pairs of positions in all states", "anchors": ["include/mutable_bitmap.hpp:flip"]}
{"id": "C36", "title": "calls outside the contract are not answered", "statement": "In debug builds a flip, access, rank or select whose argument is not below size() stops at an assertion, as do building from no words or from more than 2^24 blocks and out-of-range calls on the index, on single nodes and on blocks. In release builds flip, access and rank beyond the end are undefined rather than answered. select(k) with at most k ones is not answered in debug builds when the index has at most two levels. (The expectation that select is always checked is refuted: an avx2 index of height 3 answers it with all assertions on, and the assertion in the loop selects does not detect a rank beyond the block.)", "quantifier": "every history before the call, every type, every argument out of range, every later operation", "why_tests_cant": "infinitely many bad arguments and states; a missed check shows only as an arbitrary answer", "anchors": ["include/mutable_bitmap.hpp", "include/segment_tree/avx2/segment_tree.hpp", "include/segment_tree/avx512/segment_tree.hpp", "include/rank_select_algorithms/select.hpp"]}
{"id": "C37", "title": "index memory is released exactly once", "statement": "A program that returns and destroys all of its bitmaps leaves no index buffer allocated, whatever it did in between (building again, copies, moves, assignments), and programs allowed by C23 never release a buffer twice.", "quantifier": "every program over any number of objects", "why_tests_cant": "all object histories; leaks and double frees are silent without a sanitizer", "anchors": ["include/segment_tree/avx2/segment_tree.hpp:build", "include/segment_tree/avx512/segment_tree.hpp:build", "include/mutable_bitmap.hpp"]}
{"id": "C38", "title": "NDEBUG only removes checks", "statement": "If a program returns in a debug build, the release build of the same program returns the same results, whether or not the program respects the preconditions. A release build never stops at an assertion.", "quantifier": "every program over one or any number of bitmaps, valid or not, every configuration", "why_tests_cant": "all programs, including those that break preconditions; an assertion with a side effect shows only in the build that is not tested", "anchors": ["include/mutable_bitmap.hpp", "include/segment_tree/avx2/segment_tree.hpp", "include/segment_tree/avx512/segment_tree.hpp", "include/rank_select_algorithms/rank.hpp", "include/rank_select_algorithms/select.hpp"]}
{"id": "C39", "title": "the random numbers have full period", "statement": "The i-th number of splitmix64 is a fixed function of seed and i, and within 2^64 consecutive calls every 64-bit number occurs exactly once, so no two positions of an array share a number. With a larger threshold create_random_bits sets at least the same bits, except possibly bit 0.", "quantifier": "every seed, every position, every 64-bit value, every threshold", "why_tests_cant": "the period has 2^64 elements", "anchors": ["include/util.hpp:splitmix64", "include/util.hpp:create_random_bits"]}
{"id": "C40", "title": "the Fenwick trees answer as the sequence of their elements", "statement": "A FixedF, FixedL, ByteF, ByteL, BitF, BitL, TypeF or TypeL tree built from a sequence answers every later prefix, find, compFind and size as the current sequence demands: prefix(i) is the sum of the first i elements, find(v) the longest prefix whose sum does not exceed v (leaving the difference in v), compFind(v) the same for the distances to BOUND, and add changes one element. No call is undefined. BitL needs shifts by 64 to be harmless (C43); TypeL is searched only at the sizes of C42.", "quantifier": "all eight classes, every BOUND and size whose nodes fit 64 bits (BitF 63, BitL 57, TypeL 63) and size up to 2^48, every sequence within the bound, every list of calls with indexes in range and elements kept within the bound", "why_tests_cant": "eight node layouts, all sizes and bounds, and histories of any length; overlapping unaligned fields go wrong only at particular widths", "anchors": ["include/hft/fenwick/fixedf.hpp", "include/hft/fenwick/fixedl.hpp", "include/hft/fenwick/bytef.hpp", "include/hft/fenwick/bytel.hpp", "include/hft/fenwick/bitf.hpp", "include/hft/fenwick/bitl.hpp", "include/hft/fenwick/typef.hpp", "include/hft/fenwick/typel.hpp", "include/hft/common.hpp"]}
{"id": "C41", "title": "the 64-bit classes are exact modulo 2^64", "statement": "In FixedF and FixedL prefix(i) returns the sum of the first i elements modulo 2^64, whatever the elements and increments, also when elements leave the bound or become negative.", "quantifier": "every BOUND, size up to 2^48, any 64-bit elements and any list of prefix, add and size calls", "why_tests_cant": "wrap-around needs sums beyond 2^64 and arbitrary histories", "anchors": ["include/hft/fenwick/fixedf.hpp", "include/hft/fenwick/fixedl.hpp"]}
{"id": "C42", "title": "the sizes at which TypeL can be searched", "statement": "find of a TypeL tree is correct for every sequence of n elements and every value exactly when every zero bit h of n below its top bit belongs to the last level of the 8-bit or of the 16-bit array, that is BOUNDSIZE + h is 8 or 16. At every other size there is a sequence and a value for which it is wrong.", "quantifier": "every BOUND >= 1 and size whose nodes fit 63 bits; the failing direction for every such size", "why_tests_cant": "an if-and-only-if over all bounds, sizes, sequences and values", "anchors": ["include/hft/fenwick/typel.hpp:find"]}
{"id": "C43", "title": "limits of the node representations", "statement": "Constructing a non-empty BitL shifts a 64-bit word by 64 for every bound and input. Constructing a TypeL whose largest node has 64 bits or more writes to an array that was not allocated. prefix(2^(64-BOUNDSIZE)) of a BitF is undefined. BitL accepts bounds at which add to one element changes the sums of others.", "quantifier": "every BOUND, every input in the given range, every list of calls containing the offending one", "why_tests_cant": "undefined behaviour that usually goes unnoticed, shown for every input", "anchors": ["include/hft/common.hpp:bitwrite_inc", "include/hft/fenwick/bitl.hpp", "include/hft/fenwick/typel.hpp", "include/hft/fenwick/bitf.hpp"]}
{"id": "C44", "title": "edges of the Fenwick tree interface", "statement": "add(0, inc) never returns, in any class and after any calls. find and compFind of an empty tree are undefined in the F classes. find(v) with v at least the total returns size(), not the zero that the interface documents.", "quantifier": "all classes, bounds, sequences, lists of calls and values", "why_tests_cant": "non-termination and undefined behaviour cannot be observed by a test; the rest ranges over all inputs", "anchors": ["include/hft/fenwick/fenwick_tree.hpp", "include/hft/fenwick/fixedf.hpp", "include/hft/fenwick/fixedl.hpp", "include/hft/fenwick/bytef.hpp", "include/hft/fenwick/bytel.hpp", "include/hft/fenwick/bitf.hpp", "include/hft/fenwick/bitl.hpp", "include/hft/fenwick/typef.hpp", "include/hft/fenwick/typel.hpp", "include/hft/common.hpp"]}
{"id": "C45", "title": "what the benchmark of the Fenwick trees computes", "statement": "For every class, input with elements at most 256 and list of queries, perf_hft prints at each measure(): for sum, runs times the sum of prefix(q) over the queries; for search, runs times the sum of the positions found for the queries; for build, runs times the sum of the queries; all modulo 2^64. For update in FixedF and FixedL it prints the initial total plus the accumulated drift of the queries. The update loop leaves the interval [0, BOUND] of some element whenever it is repeated more than BOUND times, and ByteF, ByteL, BitF and BitL then print other totals.", "quantifier": "all classes, inputs, query lists, numbers of runs and measures", "why_tests_cant": "ranges over all inputs and repetitions; the program checks nothing itself", "anchors": ["src/perf_hft.cpp:perf_test"]}
{"id": "C46", "title": "hybrid Fenwick trees answer as the sequence of their elements", "statement": "For every pair of classes, BOUND, CUT and sequence they can represent, every list of calls of a Hybrid returns what the sequence of elements gives: prefix sums, positions and remainders of find and compFind, size, with each add changing one element. It therefore returns the same as a tree of a single class. With an F class at the bottom and a size divisible by 2^CUT, find(v) with v at least the total is undefined behaviour, although the plain F classes answer it.", "quantifier": "all pairs of the eight classes, bounds, cuts, sequences up to 2^48 elements, lists of calls", "why_tests_cant": "64 combinations of classes times all cuts, sizes and histories; the failure is an intrinsic applied to zero", "anchors": ["include/hft/fenwick/hybrid.hpp"]}
{"id": "C47", "title": "what the benchmark of the bitmap computes", "statement": "For every tree family, working block type, density and size within the limits (all sizes 2^9..2^32 of the benchmark are, for blocks of 256 and 512 bits), perf_mutable_bitmap prints at each measure(): for rank, runs times the sum of the ranks of the generated queries in the generated bitmap; for select, runs times the sum of the positions of those ones (for ranks not lost to C26); for build, runs times the sum of the queries; all modulo 2^64. For flip it prints the number of ones after all flips so far; with an even number of runs, as in the program, every measure() leaves the bits as it found them and prints the number of ones of the generated bitmap. No division by zero, undefined behaviour or failed assertion occurs (debug avx512 over 512-bit blocks needs at most 256 ones per block).", "quantifier": "all families, block types, configurations, sizes, thresholds, numbers of queries, runs and measures", "why_tests_cant": "the program checks nothing itself; sizes reach 2^32 bits", "anchors": ["src/perf_mutable_bitmap.cpp:test::run"]}
{"id": "C48", "title": "what the benchmark of the segment trees computes", "statement": "For every input of 1..2^24 counters of at most 256 and queries in range, perf_prefix_sum prints at each measure(): for sum, runs times the sum of sum(q); for search, runs times the sum of the positions (queries below the total); for build, runs times the sum of the queries; all modulo 2^64. In the update loop the deltas +1 and -1 both convert to sign = true, so every update decrements: while no counter falls below zero it prints the initial total minus the number of updates so far, also for even queries, which are meant to increment. Repeated more often than the largest counter, the loop takes some counter below zero, and then prints something other than the sum even modulo 2^64.", "quantifier": "all inputs, query lists, numbers of runs and measures, both families and all configurations", "why_tests_cant": "the program checks nothing itself and ignores the totals", "anchors": ["src/perf_prefix_sum.cpp:test::run", "include/avx2/segment_tree.hpp:update", "include/avx512/segment_tree.hpp:update"]}
{"id": "C49", "title": "poppy: building and rank", "statement": "The index over an array of words built by poppy_wrapper numbers the bits of each word from the most significant one. For 2048 bits or more (below 2^33, fewer than 2^32-8191 ones in the first 2^32 bits) the constructor succeeds exactly when ceil(ones/8192) is the same for the bits in whole groups of 2048 and in whole blocks of 512 (so always when the size is a multiple of 2048) and otherwise writes past a heap array; below 2048 bits it always accesses memory outside its arrays. On the built index rank(pos) is the number of ones among the first pos bits for every pos in the whole groups of 2048 (and below 2^32), whatever uninitialised memory contained; every other pos <= size, in particular pos = size and thus the wrapper's rank(size-1), reads outside an array. At word boundaries this is the library's rank; inside words it differs. pCount(), size() and bytes() are exact.", "quantifier": "all arrays of words, positions, contents of fresh memory, both build modes", "why_tests_cant": "the failing accesses usually go unnoticed; sizes up to 2^33 bits", "anchors": ["include/poppy/bitmap.h:BitmapPoppy", "include/poppy/popcount.h:popcountLinear", "src/perf_immutable_bitmap.cpp:poppy_wrapper"]}
{"id": "C50", "title": "poppy: select", "statement": "Let p be the position of the (k+1)-th one, bits numbered as in the library. For every k below the number of covered ones and sizes up to 2^32 bits, the wrapper's select(k) returns the position of the next one after p if it is in the same word, and otherwise the first position after the word of p; when p is the last bit of a word of 64 ones it shifts by 64, which is undefined. So it never returns p. select(0) of the class reads outside an array. With the call of select64_popcount_search that popcount.h leaves as a comment, select(k+1) would be exactly the position of the (k+1)-th one in poppy's own numbering.", "quantifier": "all arrays of words, all ranks, contents of fresh memory, both build modes", "why_tests_cant": "the benchmark ignores the results", "anchors": ["include/poppy/bitmap.h:select", "include/poppy/popcount.h:select512", "include/poppy/popcount.h:select64"]}
{"id": "C51", "title": "poppy: functions on one word", "statement": "suxpopcount is the number of ones. select64_naive(x,k) is the position, from the most significant bit, of the k-th one and -1 if there is none; select64_popcount_search agrees for 1 <= k <= ones. select64_pdep_tzcnt(x,k) is the position, from the least significant bit, of the (k+1)-th one, 64 if there is none, undefined for k >= 64; select64_broadword agrees for k < ones.", "quantifier": "all 64-bit words and ranks", "why_tests_cant": "2^64 words", "anchors": ["include/poppy/popcount.h:suxpopcount", "include/poppy/popcount.h:select64_naive", "include/poppy/popcount.h:select64_popcount_search", "include/poppy/popcount.h:select64_pdep_tzcnt", "include/poppy/popcount.h:select64_broadword"]}
{"id": "C52", "title": "search benchmark kernels", "statement": "search_256/search_512 of perf_search256.cpp and perf_search512.cpp return, for k below the sum of the 4 or 8 words, k minus the sum of the words before the first one whose inclusive prefix sum exceeds k, in the loop mode always and in the avx512 mode when the sum is below 2^63, whatever earlier calls left in the static array. For k at or past the sum T both return k-T (avx512: k < 2^63), except that a debug build of the loop asserts if the last word is <= k-T. From 2^63 on the two modes can differ.", "quantifier": "all arrays of words, all offsets, all k, both widths, both modes, both build modes", "why_tests_cant": "2^64 values per word", "anchors": ["src/perf_search256.cpp:search_256", "src/perf_search512.cpp:search_512"]}
{"id": "C53", "title": "prefix-sum benchmark kernels", "statement": "prefixsum_256/prefixsum_512 return in all three modes (loop, unrolled, parallel) the sum of the first k+1 words modulo 2^64, for k below the number of words. For larger k the loop mode keeps adding words while the array lasts and reads outside it after that; the other modes read outside their static array.", "quantifier": "all arrays of words, offsets and k, both widths, three modes", "why_tests_cant": "2^64 values per word; the overrun is silent", "anchors": ["src/perf_prefix_sum256.cpp:prefixsum_256", "src/perf_prefix_sum512.cpp:prefixsum_512"]}
{"id": "C54", "title": "popcount benchmark kernels", "statement": "popcount_256/popcount_512 of perf_popcnt return the number of ones of the 4 or 8 words for broadword and builtin; the avx2/avx512 versions and both modes of perf_popcnt_for_avx_select return the vector of the counts per word, whatever the static array held.", "quantifier": "all arrays of words and offsets, both widths, all modes", "why_tests_cant": "2^256 and 2^512 inputs", "anchors": ["src/perf_popcnt256.cpp:popcount_256", "src/perf_popcnt512.cpp:popcount_512", "src/perf_popcnt_for_avx_select256.cpp:popcount_256", "src/perf_popcnt_for_avx_select512.cpp:popcount_512"]}
{"id": "C55", "title": "rank of perf_rank64", "statement": "The expression measured by perf_rank64.cpp is, for 0 < k < 64, the number of ones at positions below k of the word and, for k = 0, the number of ones of the whole word; that is block64_type's rank at (k-1) mod 64, not at k, and it is not monotone in k.", "quantifier": "all words, all k", "why_tests_cant": "the benchmark ignores the values", "anchors": ["src/perf_rank64.cpp:test"]}
{"id": "C56", "title": "micro-benchmark totals", "statement": "Each micro-benchmark (rank64/256/512, select64/256/512, search, prefix_sum, popcnt, popcnt_for_avx_select) prints, for each size and measurement, runs times the sum modulo 2^64 of the specified answers to the queries drawn from splitmix64(71) on the bits drawn from splitmix64(13), together with the number of ones of those bits; all modes of a program print the same numbers in debug and release builds. The vector modes of perf_popcnt instead print the number of ones of the first word of the last query.", "quantifier": "all thresholds, lists of sizes, numbers of queries, runs and measurements, all modes, both build modes", "why_tests_cant": "sizes up to 2^32 bits; the printed numbers are not compared by anyone", "anchors": ["src/perf_rank256.cpp:test", "src/perf_select256.cpp:test", "src/perf_search256.cpp:test", "src/perf_prefix_sum256.cpp:test", "src/perf_popcnt256.cpp:test", "src/perf_popcnt_for_avx_select256.cpp:test", "src/perf_rank64.cpp:test", "src/perf_select64.cpp:test"]}
{"id": "C57", "title": "micro-benchmark queries", "statement": "The query loops of all programs but perf_search end for every threshold with exactly the requested number of queries, each addressing a bucket inside the first n bits and an argument the measured function accepts; the list is determined by the seed. In perf_search the program divides by zero exactly if one of the drawn buckets has no ones.", "quantifier": "all thresholds, sizes and numbers of queries", "why_tests_cant": "termination for all inputs; improbable inputs", "anchors": ["src/perf_select256.cpp:test", "src/perf_select64.cpp:test", "src/perf_search256.cpp:test", "src/perf_rank256.cpp:test"]}
{"id": "C58", "title": "mranisz RankBasic64, standard headers", "statement": "After RankBasic64<RANK_BASIC_STANDARD>::build(text, textLen), rank(i) is the number of ones among the first i bits of the text (bytes in order, most significant bit first, continued by zeros to a whole number of 512-bit blocks) for every i below 512 times the number of blocks, whatever the allocated memory contained. rank(textLen*8) of a text of whole blocks depends on two header words that are never written: it is the right total or reads outside the array of bits.", "quantifier": "all texts below 2^58 bytes, all positions, all initial memory contents and allocation addresses", "why_tests_cant": "initial memory contents and addresses cannot be enumerated; the library's own test reads the uninitialised words", "anchors": ["include/mranisz/shared/rank.hpp:RankBasic64"]}
{"id": "C59", "title": "mranisz RankBasic64, compressed headers", "statement": "RankBasic64<RANK_BASIC_COMPRESSED_HEADERS>: the build reads flags past the end of the array emptyBlock, unless the number of 512-bit blocks is 63 modulo 64. Whatever these reads return, rank(i) is the number of ones among the first i bits for every i up to and including 512 times the number of blocks.", "quantifier": "all texts below 2^58 bytes, all positions, all values of the flags read outside, all initial memory contents", "why_tests_cant": "values read out of bounds cannot be chosen by a test", "anchors": ["include/mranisz/shared/rank.hpp:RankBasic64"]}
{"id": "C60", "title": "mranisz RankCF64", "statement": "RankCF64::build runs past the end of emptyBlock exactly if there is at least one block and every 512-bit block is all zeros or all ones. Otherwise rank(i) is the number of ones among the first i bits for every i below 512 times the number of blocks; at textLen*8 of a text of whole blocks it depends on two words never written.", "quantifier": "all texts below 2^58 bytes, all positions, all initial memory contents and allocation addresses", "why_tests_cant": "random inputs never have only uniform blocks", "anchors": ["include/mranisz/shared/rank.hpp:RankCF64"]}
{"id": "C61", "title": "mranisz rank sizes", "statement": "getTextSize returns the length of the text, and getSize is 16B+168 (standard) or 152(B/64+1)+160 (compressed headers) plus 64K+128 if K > 0, and 56K+16B+176 for RankCF64, where B is the number of 512-bit blocks and K the number of blocks that are neither all zeros nor all ones.", "quantifier": "all texts below 2^58 bytes", "why_tests_cant": "closed formula for all inputs", "anchors": ["include/mranisz/shared/rank.hpp:RankBasic64", "include/mranisz/shared/rank.hpp:RankCF64"]}
{"id": "C62", "title": "mranisz SelectBasic64, standard headers", "statement": "After SelectBasic64<SELECT_BASIC_STANDARD, L, THRESHOLD>::build(text, textLen) that wrote inside its memory (C64), select(k) for 1 <= k <= number of ones is the position of the k-th one, except when the last group of L ones is incomplete and its last one lies exactly L-1 positions after the end of the group before (or at position L-1 if it is the only group): there select counts positions instead of ones, and select(number of ones) is wrong. select(0) is 2^64-1.", "quantifier": "all texts below 2^58 bytes with a one, all L < THRESHOLD < 2^32, all k, all initial memory contents and allocation addresses", "why_tests_cant": "the wrong answers need a last group that ends at one exact position", "anchors": ["include/mranisz/shared/select.hpp:SelectBasic64"]}
{"id": "C63", "title": "mranisz SelectBasic64, compressed headers", "statement": "The same as C62 for SELECT_BASIC_COMPRESSED_HEADERS and every L and THRESHOLD that the constructor accepts, as long as there are fewer than 2^31-1 groups of L ones: the 16-bit offsets inside a superblock never overflow, and the unspecified entries of the last superblock do not disturb the ones in use.", "quantifier": "all texts below 2^58 bytes with a one, all accepted L and THRESHOLD, all k, all initial memory contents", "why_tests_cant": "sixteen blocks of maximal size in one superblock are not generated at random", "anchors": ["include/mranisz/shared/select.hpp:SelectBasic64"]}
{"id": "C64", "title": "mranisz SelectBasic64 build and memory", "statement": "With at least one set bit, build writes past its array of bits exactly if there are fewer than L ones, the last one is at position THRESHOLD, and 8 bytes per one do not fit into ceil(THRESHOLD/8) bytes plus the rest of the 128 bytes of slack after alignment. Without any set bit, compressed headers: exactly if textLen-1 exceeds that slack; standard headers: it depends on a word that was never written (no error if that word is at least THRESHOLD and 8*textLen).", "quantifier": "all texts below 2^58 bytes, all accepted L and THRESHOLD, all initial memory contents and allocation addresses", "why_tests_cant": "an overflow by a few bytes into allocator slack goes unnoticed, and the condition is a single position", "anchors": ["include/mranisz/shared/select.hpp:SelectBasic64"]}
{"id": "C65", "title": "mranisz SelectBasic64 sizes", "statement": "getTextSize returns the length of the text, and getSize is 184+16G (standard) or 168+168(G/16+1) (compressed headers) plus P+128 if P > 0, where G is the number of groups of L ones and P the bytes counted for their contents: 8 per one in groups longer than THRESHOLD, none in groups without zeros, otherwise one per 8 bits.", "quantifier": "all texts below 2^56 bytes, all accepted L and THRESHOLD", "why_tests_cant": "closed formula for all inputs", "anchors": ["include/mranisz/shared/select.hpp:SelectBasic64"]}
{"id": "C66", "title": "mranisz rank structures: save and load", "statement": "save() of a built RankBasic64 (both header kinds) or RankCF64 writes 32+16B+64K, 176+152(B/64)+64K or 40+56K+16B bytes (B blocks of 512 bits, K of them kept). load() of that file followed by anything, with any initial memory contents, consumes exactly those bytes and gives a structure with the same getTextSize and the same rank for every position below 512B (with compressed headers also at 512B if K > 0). load() of any strict prefix of the file exits.", "quantifier": "all texts below 2^58 bytes (RankCF64: not all blocks uniform), all positions, all prefixes, all trailing data, all memories at save and at load time", "why_tests_cant": "the arrays have unwritten slack whose content differs after loading, and every truncation point is covered", "anchors": ["include/mranisz/shared/rank.hpp:RankBasic64", "include/mranisz/shared/rank.hpp:RankCF64"]}
{"id": "C67", "title": "mranisz SelectBasic64: save and load", "statement": "For a built SelectBasic64 the file written by save() loads, in any memory, to a structure with the same answers as before, and every strict prefix of it makes load() exit, unless the text has fewer than L ones, the last one at p <> L-1, and either p < THRESHOLD is divisible by 8 or p = THRESHOLD and the ones need more than ceil(THRESHOLD/8)/8 entries. In exactly those cases the file lacks the end of the payload: select(number of ones) was right before and is wrong after loading in some memory; with a single one at position 0 the loaded structure reads through a null pointer in every memory.", "quantifier": "all texts below 2^57 bytes with a one, all accepted L and THRESHOLD, all k, all memories", "why_tests_cant": "the loss is one byte in one family of texts, and the missing byte is often zero by accident", "anchors": ["include/mranisz/shared/select.hpp:SelectBasic64"]}
{"id": "C68", "title": "mranisz load of arbitrary files", "statement": "load() of RankBasic64, RankCF64 and SelectBasic64 on any file whose length fields are below 2^64-16 (2^64-128 for the bytes of select) exits exactly if the file is shorter than the length fields say, and otherwise stores exactly the numbers of the file and leaves the rest; it never leaves its memory. A first length field of 2^64-16 or more in a file with more than 120 further bytes makes it write past its array. Nothing else is checked: a file of zeros is accepted and every query then reads through a null pointer.", "quantifier": "all byte strings, all memories", "why_tests_cant": "all byte strings", "anchors": ["include/mranisz/shared/rank.hpp:RankBasic64", "include/mranisz/shared/rank.hpp:RankCF64", "include/mranisz/shared/select.hpp:SelectBasic64"]}
{"id": "C69", "title": "mranisz self tests", "statement": "testRank prints nothing exactly if rank(i) is the number of ones before i for every 1 <= i <= size; testSelect exactly if select(k) is the position of the k-th one for every k. Consequently testRank prints nothing for RankBasic64 and RankCF64 on texts that are not a multiple of 64 bytes long and for compressed headers on all texts, and testSelect prints nothing exactly if the last group is not the exceptional one of C62; on whole blocks testRank of the standard headers depends on unwritten memory.", "quantifier": "all texts below 2^58 bytes, all rank and select functions, all memories", "why_tests_cant": "the tests themselves are verified: soundness and completeness for all inputs", "anchors": ["include/mranisz/shared/rank.hpp:RankBasic64", "include/mranisz/shared/rank.hpp:RankCF64", "include/mranisz/shared/select.hpp:SelectBasic64"]}
{"id": "C70", "title": "perf_compressed_bitmap: what is printed", "statement": "For every size, density threshold, number of queries, runs and measures the benchmark prints for operation rank and RankBasic64 (both header kinds) or RankCF64 in every measure runs times the sum, over the queries below n, of the ones before the query in the bitmap whose bytes are bit-reversed, modulo 2^64; for operation select and SelectBasic64 the same with the queries below the number of ones and the position of the q-th one counted from 1 (query 0 gives 2^64-1; last group as in C62); for build the sum of the queries; other operations stop a debug build and print 0 otherwise. RankCF64 instead writes outside its memory exactly if the bits of every 512-bit block are equal, SelectBasic64 exactly in the overflow case of C64.", "quantifier": "all sizes 193..2^58, all thresholds, query counts, runs, measures, memories", "why_tests_cant": "the benchmark prints totals that nobody compares; overflow depends on density", "anchors": ["src/perf_compressed_bitmap.cpp:test::run"]}
{"id": "C71", "title": "numbering of bits in the compared structures", "statement": "include/mranisz numbers the bits of every byte and include/poppy the bits of every word from the most significant one, that is the library's numbering with every group of s = 8 or 64 bits reversed. Ranks in the two numberings agree at multiples of s, differ at position i by at most min(i mod s, s - i mod s), have the same total, and the k-th ones lie in the same group. They are not equal in general.", "quantifier": "all bitmaps, all group sizes s >= 1, all positions and ranks", "why_tests_cant": "for all bitmaps and group sizes", "anchors": ["src/perf_compressed_bitmap.cpp:mranisz_rank_wrapper::build", "src/perf_immutable_bitmap.cpp:poppy_wrapper"]}
{"id": "C72", "title": "perf_immutable_bitmap with poppy: what is printed", "statement": "For sizes that are a multiple of 2048, up to 2^32, operation rank prints runs times the sum of the ranks of the queries in the word-reversed bitmap if no query is n-1, and reads outside an array otherwise; with the program's own 10000 queries this is so for the sizes 2^11 to 2^15 at every density. Operation select prints a sum in which query k contributes the position after number k (the next one of the same word or the end of the word), never that of the one asked for, and is undefined if a query hits the last bit of a full word. The sizes 2^8 to 2^10 cannot be built.", "quantifier": "all densities, query counts, runs, measures, sizes as stated, fewer than 2^32-8191 ones", "why_tests_cant": "reads one entry past an array that the allocator may have padded; totals are not compared with anything", "anchors": ["src/perf_immutable_bitmap.cpp:test::run"]}
{"id": "C73", "title": "RankMPE64: rank", "statement": "After build on a text of at least one byte, rank(i) is the number of ones before bit i, for every i from 0 up to and including the end of the last (perhaps incomplete) block of 1024 bits, for each of MPE1, MPE2 and MPE3 and whatever the memory read past the temporary arrays and the memory of the arrays held before.", "quantifier": "all texts of 1..2^58-1 bytes, all three variants, all memory contents and addresses, all positions", "why_tests_cant": "which pairs are dropped depends on the data; what is read past the arrays depends on the allocator", "anchors": ["include/mranisz/shared/rank.hpp:RankMPE64::build_v1", "include/mranisz/shared/rank.hpp:RankMPE64::build_v2", "include/mranisz/shared/rank.hpp:RankMPE64::getRank_v1", "include/mranisz/shared/rank.hpp:RankMPE64::getRank_v2"]}
{"id": "C74", "title": "RankMPE64: undefined cases", "statement": "build of the empty text indexes an array with 2^64-1. build of any other text reads past its flag array unless the number of 1024-bit blocks is 15 modulo 16. rank reads 64-bit words through misaligned pointers exactly for the positions in blocks that are neither empty nor full and whose stored bytes start at an offset that is no multiple of eight.", "quantifier": "all texts, all three variants, all memories, all positions", "why_tests_cant": "x86 executes misaligned loads and the flags read past the array do not change any answer", "anchors": ["include/mranisz/shared/rank.hpp:RankMPE64::build_v1", "include/mranisz/shared/rank.hpp:RankMPE64::getRank_v1"]}
{"id": "C75", "title": "RankMPE64: sizes", "statement": "getTextSize() is the number of bytes given; getSize() is 80*(nb/16+1)+304 plus the bytes stored for the nb blocks. A block stores nothing if its 1024 bits are equal, at most 128 bytes always, and at most 126 if zero or full byte pairs are dropped.", "quantifier": "all texts, all three variants, all memories", "why_tests_cant": "for all texts", "anchors": ["include/mranisz/shared/rank.hpp:RankMPE64::getSize", "include/mranisz/shared/rank.hpp:RankMPE64::getTextSize"]}
{"id": "C76", "title": "RankMPE64: files and self test", "statement": "save writes 112 + 80*(nb/16) bytes plus the bytes stored for the nb blocks. That file, followed by anything and loaded into any memory, gives a structure with the same text size and the same ranks at every position up to the end of the last block, and leaves what follows; every strict prefix makes load exit. A file of bytes with length fields a < 2^64-16 and b < 2^64-128 is loaded exactly if it has 24+8a+b bytes, and its numbers and bytes are taken over. testRank prints nothing after build, also for texts of whole blocks.", "quantifier": "all texts of 1..2^58-1 bytes, three variants, all memories, all prefixes, all files of bytes", "why_tests_cant": "for all texts, memories and prefixes", "anchors": ["include/mranisz/shared/rank.hpp:RankMPE64::save", "include/mranisz/shared/rank.hpp:RankMPE64::load", "include/mranisz/shared/rank.hpp:RankMPE64::testRank"]}
{"id": "C77", "title": "perf_compressed_bitmap with RankMPE64", "statement": "For rank_mpe1, rank_mpe2 and rank_mpe3 the benchmark prints for operation rank, in every measure, runs times the sum over the queries of the ones before the query in the bitmap whose bytes are bit-reversed, modulo 2^64 (with operation select the queries are those below the number of ones); for build the sum of the queries; other operations stop a debug build and print 0 otherwise.", "quantifier": "all sizes 193..2^58, all densities, query counts, runs, measures, memories", "why_tests_cant": "the benchmark prints totals that nobody compares", "anchors": ["src/perf_compressed_bitmap.cpp:test::run"]}
{"id": "C78", "title": "SelectMPE64: select", "statement": "After build on a text with at least one one (not one of C64's), select(k) for 1 <= k <= number of ones is what SelectBasic64 answers (C62): the position of the k-th one, unless the last group is misread; select(0) is 2^64-1. For MPE1, MPE2 and MPE3, all L and THRESHOLD whose groups fit the offset fields (C80), whatever the memory and the query buffer held before, provided that the flag of the last group, which build does not write when the number of ones is a multiple of L, is clear or not read (it is read exactly for L > 1 if the group is stored as bits, or as positions from the sixth group of a superblock on).", "quantifier": "all texts of up to 2^58-1 bytes with a one, three variants, all L and THRESHOLD that fit, all memories and buffers, all k", "why_tests_cant": "which pairs of bytes are left out depends on the data; the unwritten flag depends on what the allocator returns", "anchors": ["include/mranisz/shared/select.hpp:SelectMPE64::select", "include/mranisz/shared/select.hpp:SelectMPE64::build_v1", "include/mranisz/shared/select.hpp:SelectMPE64::build_v2", "include/mranisz/shared/select.hpp:SelectMPE64::getSelect_v1", "include/mranisz/shared/select.hpp:SelectMPE64::getSelect_v2"]}
{"id": "C79", "title": "SelectMPE64: undefined construction", "statement": "build of SelectMPE64 reads past the end of blockToCompress for every text. If such a read gives some byte, build is defined exactly for the texts that have a one and are not among those of C64.", "quantifier": "all texts of up to 2^58-1 bytes, three variants, all L < THRESHOLD < 2^32, all memories", "why_tests_cant": "reading past an array from new[] does not fail", "anchors": ["include/mranisz/shared/select.hpp:SelectMPE64::build_v1", "include/mranisz/shared/select.hpp:SelectMPE64::build_v2"]}
{"id": "C80", "title": "SelectMPE64: arguments", "statement": "The constructor accepts every L and THRESHOLD for which the offsets inside a superblock fit their fields; for MPE1 it accepts no others. For MPE2 and MPE3 it accepts others (exactly L < THRESHOLD, L <= 137, THRESHOLD <= 8737), with which select can be wrong.", "quantifier": "all L and THRESHOLD, three variants", "why_tests_cant": "all template arguments", "anchors": ["include/mranisz/shared/select.hpp:SelectMPE64::SelectMPE64", "include/mranisz/shared/select.hpp:SelectMPE64::getSelect_v2"]}
{"id": "C81", "title": "SelectMPE64: sizes", "statement": "getTextSize is the number of bytes given. getSize is 320 + 168*(g/16+1) for g groups of L ones, plus, if anything is stored, 128 and the bytes SelectBasic64 stores less those saved: two per pair of 00 or FF bytes left out of a group, minus the tables, for the groups the variant selects, never the last one.", "quantifier": "all texts of up to 2^56-1 bytes, three variants, all L < THRESHOLD < 2^32, all memories", "why_tests_cant": "for all texts", "anchors": ["include/mranisz/shared/select.hpp:SelectMPE64::getSize", "include/mranisz/shared/select.hpp:SelectMPE64::getTextSize"]}
{"id": "C82", "title": "SelectMPE64: files and self test", "statement": "With the arguments and texts of C78: save writes 192 + 168*(g/16) bytes plus the stored ones, for g groups of L ones; load of these bytes, followed by anything, in any memory, consumes exactly them and gives a structure with the same answers and text size; load of any proper part exits. This holds unless the text is one of the lost ones of C67 (fewer than L ones, the last at a position that is a multiple of 8, or at THRESHOLD), for which a memory exists in which the loaded structure gives a wrong answer. testSelect prints nothing exactly when the last group is not misread.", "quantifier": "all texts of up to 2^57-1 bytes with a one, three variants, all L and THRESHOLD that fit, all pairs of memories, all continuations and cuts of the file", "why_tests_cant": "wrong answers after load depend on what the allocator returns", "anchors": ["include/mranisz/shared/select.hpp:SelectMPE64::save", "include/mranisz/shared/select.hpp:SelectMPE64::load", "include/mranisz/shared/select.hpp:SelectMPE64::testSelect"]}
{"id": "C83", "title": "SelectMPE64: benchmark", "statement": "For the types select_mpe1/2/3, src/perf_compressed_bitmap.cpp prints, per run, the sum of the answers of C78 on the bitmap with each byte's bits reversed, 2^64-1 for query 0; it is undefined for the bitmaps of C64.", "quantifier": "all numbers of bits from 193 to 2^58, densities, numbers of queries, runs and measures, all memories, three variants, all L and THRESHOLD that fit", "why_tests_cant": "for all sizes and densities", "anchors": ["src/perf_compressed_bitmap.cpp:mranisz_select_wrapper", "include/mranisz/shared/select.hpp:SelectMPE64::select"]}
{"id": "C84", "title": "Select structures: alignment", "statement": "With the arguments and texts of C62 and C78, select(k) of SelectBasic64 (both header types) and SelectMPE64 reads a 64-bit word at an address that is not a multiple of 8 exactly when the bytes stored for the groups before k's group (less those saved by compression) are not a multiple of 8, k is not the last one of its group, and the group is stored as positions, or uncompressed as more than 64 bits that are not all ones; otherwise the answer is that of C62. It happens with the arguments of the benchmark.", "quantifier": "all texts of up to 2^58-1 bytes with a one, all L and THRESHOLD that fit, all memories, all k", "why_tests_cant": "the machine does not fault; the condition depends on all earlier groups", "anchors": ["include/mranisz/shared/select.hpp:SelectBasic64::getSelect_std", "include/mranisz/shared/select.hpp:SelectBasic64::getSelect_bch", "include/mranisz/shared/select.hpp:SelectMPE64::getSelect_v1", "include/mranisz/shared/select.hpp:SelectMPE64::getSelect_v2"]}
{"id": "C85", "title": "Poppy: bitmaps of 2^32 bits and more", "statement": "For 2^32 to 2^48-1 bits, poppy's constructor succeeds when each whole piece of 2^32 bits has fewer than 2^32-8191 ones and writes out of bounds otherwise; afterwards rank counts the ones before each position of the whole pieces (most significant bit first) and reads out of bounds beyond them; the number of ones, the size and the reported space are as stated.", "quantifier": "all bitmaps of 2^32 to 2^48-1 bits, all positions, all contents of fresh memory", "why_tests_cant": "a test needs half a gigabyte and more, and dense pieces", "anchors": ["include/poppy/bitmap.h:BitmapPoppy::BitmapPoppy", "include/poppy/bitmap.h:BitmapPoppy::rank", "include/poppy/bitmap.h:BitmapPoppy::select", "include/poppy/bitmap.h:BitmapPoppy::bytes", "src/perf_immutable_bitmap.cpp:poppy_wrapper"]}
{"id": "C86", "title": "Poppy: select on several pieces", "statement": "With two or more pieces of 2^32 bits, poppy's select(k) for ones of the first piece behaves as on small bitmaps (C50); for later pieces it searches the directory of the first piece, so that, if that piece has no one, every answer lies in the last 512 bits of the one's own piece; select is not the inverse of rank for 2^33 bits, whichever in-word select is compiled in.", "quantifier": "all bitmaps of 2^33 to 2^48-1 bits (later pieces: whole pieces, up to 2^37 bits), all ranks, all in-word selects", "why_tests_cant": "a test needs a gigabyte; the wrong index is only used from the second piece on", "anchors": ["include/poppy/bitmap.h:BitmapPoppy::BitmapPoppy", "include/poppy/bitmap.h:BitmapPoppy::rank", "include/poppy/bitmap.h:BitmapPoppy::select", "include/poppy/bitmap.h:BitmapPoppy::bytes", "src/perf_immutable_bitmap.cpp:poppy_wrapper"]}
{"id": "C87", "title": "Poppy: select between 2^32 and 2^33 bits", "statement": "Between 2^32 and 2^33 bits poppy's select(k) behaves as on small bitmaps (C50) for the ones before position 2^32-2048; for the ones of the last 2048 bits of the piece, if at least 2048 bits follow, it compares k with a directory entry that was never written, and answers rightly exactly when that entry's low 32 bits exceed k; otherwise the answer is at most the number of bits above 2^32, or 2^64-1.", "quantifier": "all bitmaps of 2^32 to 2^33-1 bits, all ranks, all contents of fresh memory", "why_tests_cant": "the answer depends on uninitialised memory", "anchors": ["include/poppy/bitmap.h:BitmapPoppy::BitmapPoppy", "include/poppy/bitmap.h:BitmapPoppy::rank", "include/poppy/bitmap.h:BitmapPoppy::select", "include/poppy/bitmap.h:BitmapPoppy::bytes", "src/perf_immutable_bitmap.cpp:poppy_wrapper"]}
{"id": "C88", "title": "RankBasic32: rank, standard headers", "statement": "For every text of at most 2^32-64 bytes RankBasic32 with standard headers builds, and rank(i) is the number of ones before bit i for every i below 2^32 inside the blocks of the text; at the size of a text of whole blocks the answer depends on two ints never written; for the last 63 lengths of an unsigned int nothing is stored and rank(i) reads out of bounds from i = 8192 on.", "quantifier": "all texts below 2^32 bytes, all positions, all addresses and contents of fresh memory", "why_tests_cant": "the effects depend on uninitialised memory and on texts of gigabytes", "anchors": ["include/mranisz/shared/rank.hpp:RankBasic32::build_std", "include/mranisz/shared/rank.hpp:RankBasic32::getRank_std", "include/mranisz/shared/rank.hpp:RankBasic32::build"]}
{"id": "C89", "title": "RankBasic32: rank, compressed headers", "statement": "For every text of at most 2^32-64 bytes, whatever the flags read past the end of the flag array hold, rank(i) is the number of ones before i for every i below 2^32 up to the end of the last block; by the rule of the language the build is undefined unless the number of blocks is 31 modulo 32; the last 63 lengths of an unsigned int give what the empty text gives.", "quantifier": "all texts below 2^32 bytes, all positions, all contents of fresh memory", "why_tests_cant": "a heap overread is not seen by tests", "anchors": ["include/mranisz/shared/rank.hpp:RankBasic32::build_bch", "include/mranisz/shared/rank.hpp:RankBasic32::getRank_bch"]}
{"id": "C90", "title": "RankCF32: rank", "statement": "For every text of at most 2^32-64 bytes that is not made of uniform blocks only, rank(i) is the number of ones before i if 64-bit words can be read at any address; by the rule of the language it is undefined exactly for the positions of blocks with zeros and ones that are kept in an even place; a non-empty text of uniform blocks only reads and writes out of bounds; at the size of a text of whole blocks uninitialised ints decide.", "quantifier": "all texts below 2^32 bytes, all positions, all contents of fresh memory", "why_tests_cant": "misaligned reads work on the machines tests run on", "anchors": ["include/mranisz/shared/rank.hpp:RankCF32::build", "include/mranisz/shared/rank.hpp:RankCF32::rank"]}
{"id": "C91", "title": "RankBasic32 and RankCF32: sizes", "statement": "getTextSize is the number of bytes given; getSize is 8 n + 156 (standard headers) or 76 (n/32+1) + 152 (compressed headers), plus 64 k + 128 when k > 0, and 60 k + 8 n + 156 modulo 2^32 for RankCF32, for n blocks of which k are not uniform; the size of RankCF32 is below 2^29 for some text of 2^32-64 bytes.", "quantifier": "all texts of at most 2^32-64 bytes", "why_tests_cant": "the wrap needs a text of four gigabytes", "anchors": ["include/mranisz/shared/rank.hpp:RankBasic32::getSize", "include/mranisz/shared/rank.hpp:RankBasic32::getTextSize", "include/mranisz/shared/rank.hpp:RankCF32::getSize", "include/mranisz/shared/rank.hpp:RankCF32::getTextSize"]}
{"id": "C92", "title": "RankBasic32 and RankCF32: files", "statement": "For every text of at most 2^32-64 bytes (not made of uniform blocks only, for RankCF32) save() writes 16 + 8 n + 64 k, 88 + 76 (n/32) + 64 k or 20 + 60 k + 8 n bytes for n blocks of which k are not uniform; load() of that file followed by anything gives a structure with the same text size and the same answer (or the same alignment error) to rank at every position inside the blocks and leaves the rest unread; load() of any proper prefix exits.", "quantifier": "all texts, all positions, all memories at building and at loading, all prefixes, all bytes after the file", "why_tests_cant": "tests load complete files in one memory", "anchors": ["include/mranisz/shared/rank.hpp:RankBasic32::save", "include/mranisz/shared/rank.hpp:RankBasic32::load", "include/mranisz/shared/rank.hpp:RankCF32::save", "include/mranisz/shared/rank.hpp:RankCF32::load"]}
{"id": "C93", "title": "RankBasic32 and RankCF32: load of any file", "statement": "load() of any bytes takes the lengths as they are in the file: it exits if the file is shorter than they demand, otherwise the fields and arrays are the little-endian numbers in the file; a length within 32 (ints) or 16 (words) of 2^32 wraps the allocation and writes out of bounds when enough bytes follow (nine bytes can be enough); files of zeros are accepted and make every query read through a null pointer.", "quantifier": "all files", "why_tests_cant": "the space of files is unbounded", "anchors": ["include/mranisz/shared/rank.hpp:RankBasic32::save", "include/mranisz/shared/rank.hpp:RankBasic32::load", "include/mranisz/shared/rank.hpp:RankCF32::save", "include/mranisz/shared/rank.hpp:RankCF32::load"]}
{"id": "C94", "title": "RankBasic32 and RankCF32: the self test", "statement": "testRank prints nothing exactly if for every i from 1 to the number of bits rank(i mod 2^32) is the number of ones before i modulo 2^32; so it prints nothing for a text below 2^29 bytes (for standard headers and RankCF32 if its length is no multiple of 64), and it reports errors for every text of 2^29 bytes and more with a zero and a one among its first 2^32 bits, although every answer is right.", "quantifier": "all rank functions, all texts of at most 2^32-64 bytes, all memories", "why_tests_cant": "the wrap needs a text of half a gigabyte", "anchors": ["include/mranisz/shared/rank.hpp:RankBasic32::testRank", "include/mranisz/shared/rank.hpp:RankCF32::testRank"]}
{"id": "C95", "title": "RankMPE32: rank", "statement": "For every nonempty text of at most 2^32-128 bytes whose stored bytes (none for a uniform block of 128 bytes; otherwise 128 less 2 for each pair left out plus 8 for each kind of pair left out) are fewer than 2^32-136 - which holds for every text of at most 2^32-256 bytes - and for each of the three variants, rank(i) is the number of ones before i for every i below 2^32 up to the end of the last block, whatever the flags read past the end of the temporary array hold.", "quantifier": "all texts, all positions, all variants, all memories", "why_tests_cant": "pairs can be left out of every block in any pattern", "anchors": ["include/mranisz/shared/rank.hpp:RankMPE32::build", "include/mranisz/shared/rank.hpp:RankMPE32::rank"]}
{"id": "C96", "title": "RankMPE32: undefined cases", "statement": "In the language every build is undefined, because the flags of the last superblock are read past the end of their array. If that read gives some value, the build is undefined exactly for the empty text, for texts of more than 2^32-128 bytes, and for texts with 2^32-136 stored bytes or more. rank(i) inside the blocks reads words at misaligned addresses exactly if the block of i is neither empty nor full and the bytes stored before it are no multiple of eight.", "quantifier": "all texts below 2^32 bytes, all positions, all variants, all memories", "why_tests_cant": "a read past the end of an array and misaligned reads go unnoticed on common machines", "anchors": ["include/mranisz/shared/rank.hpp:RankMPE32::build", "include/mranisz/shared/rank.hpp:RankMPE32::rank"]}
{"id": "C97", "title": "RankMPE32: sizes", "statement": "getTextSize is the number of bytes of the text; getSize is 72 (n/16 + 1) + 292 plus the stored bytes, for n blocks of 1024 bits.", "quantifier": "all texts that can be built, all variants", "why_tests_cant": "formula over all texts", "anchors": ["include/mranisz/shared/rank.hpp:RankMPE32::getSize", "include/mranisz/shared/rank.hpp:RankMPE32::getTextSize"]}
{"id": "C98", "title": "RankMPE32: files and self test", "statement": "save() writes 92 + 72 (n/16) bytes plus the stored bytes; load() of that file followed by anything gives the same text size and the same answers and leaves the rest unread; load() of a proper prefix exits; load() of any file takes the lengths as they are in it and exits if it is too short; lengths within 32 (ints) or 128 (bytes) of 2^32 wrap the allocation and write out of bounds when enough bytes follow; testRank prints nothing below 2^29 bytes, and reports errors from there on if there is a zero and a one among the first 2^32 bits.", "quantifier": "all texts, all files, all memories at building and loading", "why_tests_cant": "the space of files is unbounded; the wrap needs half a gigabyte", "anchors": ["include/mranisz/shared/rank.hpp:RankMPE32::save", "include/mranisz/shared/rank.hpp:RankMPE32::load", "include/mranisz/shared/rank.hpp:RankMPE32::testRank"]}
{"id": "C99", "title": "SelectBasic32: select with plain headers", "statement": "For every text below 2^29 bytes with at least one set bit and fewer than 2^31-17 groups that can be built (C101) and every L and THRESHOLD accepted (THRESHOLD at most 2^32-64), select(k) is the position of the k-th set bit for every k from 1 to the number of set bits, except when the last group of L ones is incomplete and spans exactly L positions: there positions are counted instead of ones. select(0) is 2^32-1.", "quantifier": "all texts below 2^29 bytes, all k, all L and THRESHOLD, all memories", "why_tests_cant": "groups can be stored in three ways in any order, for any L and THRESHOLD", "anchors": ["include/mranisz/shared/select.hpp:SelectBasic32::build_std", "include/mranisz/shared/select.hpp:SelectBasic32::select_std"]}
{"id": "C100", "title": "SelectBasic32: select with compressed headers", "statement": "The same for the compressed headers (16 groups in 25 ints), for every L and THRESHOLD accepted.", "quantifier": "all texts below 2^29 bytes, all k, all L and THRESHOLD, all memories", "why_tests_cant": "a header is shared by 16 groups with offsets of 16 bits whose bound depends on L and THRESHOLD", "anchors": ["include/mranisz/shared/select.hpp:SelectBasic32::build_bch", "include/mranisz/shared/select.hpp:SelectBasic32::select_bch"]}
{"id": "C101", "title": "SelectBasic32: when the constructor leaves its memory", "statement": "With at least one set bit the constructor writes outside its arrays exactly if the number of stored bytes is 2^32-128 or more, or there are fewer than L ones, the last at position THRESHOLD, and 4 bytes for each do not fit; otherwise it is defined. Without set bits, with compressed headers, exactly if the text is longer than the bytes left by alignment plus one; with plain headers it depends on an int never written.", "quantifier": "all texts below 2^29 bytes, all L and THRESHOLD, all memories", "why_tests_cant": "the rare texts depend on L and THRESHOLD; the wrap needs half a gigabyte", "anchors": ["include/mranisz/shared/select.hpp:SelectBasic32::build_std", "include/mranisz/shared/select.hpp:SelectBasic32::build_bch"]}
{"id": "C102", "title": "SelectBasic32: arguments and sizes", "statement": "The constructor accepts L and THRESHOLD exactly if L < THRESHOLD and, for compressed headers, 4(L-1) <= 4369 and THRESHOLD <= 34953. getTextSize is the number of bytes of the text; getSize is 164 + 8 g with plain and 156 + 100 (g/16 + 1) with compressed headers, for g groups of L ones below 2^31-17, plus the stored bytes and 128 if there are any.", "quantifier": "all L, THRESHOLD and texts that can be built", "why_tests_cant": "formula over all texts", "anchors": ["include/mranisz/shared/select.hpp:SelectBasic32::getSize", "include/mranisz/shared/select.hpp:SelectBasic32::getTextSize"]}
{"id": "C103", "title": "SelectBasic32: save and load", "statement": "save() writes 20 + 8 g bytes (plain headers) or 112 + 100 (g/16) (compressed) plus the stored bytes; load() of that file followed by anything gives the same text size and answers and leaves the rest unread, load() of a proper prefix exits - except exactly when there are fewer than L ones and the payload in use is longer than counted (the last one at a position p below THRESHOLD divisible by 8, p not L-1; or p = THRESHOLD with 4 bytes per one more than its bits need): then there is a memory in which the loaded structure answers wrongly (plain headers: shown for THRESHOLD below 2^30).", "quantifier": "all texts below 2^29 bytes that can be built, all L and THRESHOLD, all memories at building and loading", "why_tests_cant": "the lost byte shows only for special last positions and special contents of fresh memory", "anchors": ["include/mranisz/shared/select.hpp:SelectBasic32::save", "include/mranisz/shared/select.hpp:SelectBasic32::load"]}
{"id": "C104", "title": "SelectBasic32: load of any file", "statement": "load() takes the lengths as they are in the file and exits if it is too short; lengths within 32 (ints) or 128 (bytes) of 2^32 wrap the allocation and write out of bounds when enough bytes follow; a file of twelve zero bytes is loaded without an error and every query of it is undefined.", "quantifier": "all files, all memories", "why_tests_cant": "the space of files is unbounded", "anchors": ["include/mranisz/shared/select.hpp:SelectBasic32::load"]}
{"id": "C105", "title": "SelectBasic32: self test", "statement": "testSelect prints nothing exactly if select(k) is the position of the k-th one for every k; on a structure just built exactly if the last group is not the exceptional one of C99.", "quantifier": "all texts below 2^29 bytes, all L and THRESHOLD, all memories, all select functions", "why_tests_cant": "compares all answers on all texts", "anchors": ["include/mranisz/shared/select.hpp:SelectBasic32::testSelect"]}
{"id": "C106", "title": "SelectMPE32: select", "statement": "After build on a text that C107 builds, select(k) for 1 <= k <= number of ones is what SelectBasic32 answers (C99): the position of the k-th one, unless the last group is misread; select(0) is 2^32-1. For MPE1, MPE2 and MPE3, all L and THRESHOLD whose groups fit the offset fields (C108), whatever the memory and the query buffer held before, provided that the flag of the last group, which build does not write when the number of ones is a multiple of L, is clear or not read (it is read exactly for L > 1 if the group is stored as bits, or as positions from the fourth group of a superblock on).", "quantifier": "all texts below 2^29 bytes with a one and fewer than 2^31-17 groups, three variants, all L and THRESHOLD that fit, all memories and buffers, all k", "why_tests_cant": "which pairs of bytes are left out depends on the data; the unwritten flag depends on what the allocator returns", "anchors": ["include/mranisz/shared/select.hpp:SelectMPE32::select", "include/mranisz/shared/select.hpp:SelectMPE32::build_v1", "include/mranisz/shared/select.hpp:SelectMPE32::build_v2", "include/mranisz/shared/select.hpp:SelectMPE32::getSelect_v1", "include/mranisz/shared/select.hpp:SelectMPE32::getSelect_v2"]}
{"id": "C107", "title": "SelectMPE32: undefined construction", "statement": "build of SelectMPE32 reads past the end of blockToCompress for every text. If such a read gives some byte, build is defined exactly for the texts that have a one, are not among those of C101, and store fewer than 2^32-128 bytes.", "quantifier": "all texts below 2^29 bytes with fewer than 2^31-17 groups, three variants, all L < THRESHOLD < 2^32, all memories", "why_tests_cant": "reading past an array from new[] does not fail; the wrap of the length needs a text of hundreds of megabytes", "anchors": ["include/mranisz/shared/select.hpp:SelectMPE32::build_v1", "include/mranisz/shared/select.hpp:SelectMPE32::build_v2"]}
{"id": "C108", "title": "SelectMPE32: arguments", "statement": "The constructor accepts every L and THRESHOLD for which the offsets inside a superblock fit their fields; for MPE1 and MPE2 it accepts no others (MPE1: L < THRESHOLD, L <= 547, THRESHOLD <= 17473; MPE2: L <= 274, THRESHOLD <= 8737). MPE3 accepts the arguments of MPE2, though the offsets fit only up to THRESHOLD 7761.", "quantifier": "all L and THRESHOLD, three variants", "why_tests_cant": "all template arguments", "anchors": ["include/mranisz/shared/select.hpp:SelectMPE32::SelectMPE32"]}
{"id": "C109", "title": "SelectMPE32: sizes", "statement": "getTextSize is the number of bytes given. getSize is 308 + 100*(g/16+1) for g groups of L ones, plus, if anything is stored, 128 and the bytes SelectBasic32 stores less those saved: two per pair of 00 or FF bytes left out of a group, minus the tables, for the groups the variant selects, never the last one.", "quantifier": "all texts below 2^29 bytes with fewer than 2^31-17 groups, three variants, all L < THRESHOLD < 2^32, all memories", "why_tests_cant": "for all texts", "anchors": ["include/mranisz/shared/select.hpp:SelectMPE32::getSize", "include/mranisz/shared/select.hpp:SelectMPE32::getTextSize"]}
{"id": "C110", "title": "SelectMPE32: files and self test", "statement": "With the arguments and texts of C106: save writes 112 + 100*(g/16) bytes plus the stored ones, for g groups of L ones; load of these bytes, followed by anything, in any memory, consumes exactly them and gives a structure with the same answers and text size; load of any proper part exits. This holds unless the text is one of the lost ones of C103 (fewer than L ones, the last at a position that is a multiple of 8, or at THRESHOLD), for which a memory exists in which the loaded structure gives a wrong answer. A file of twelve zero bytes is loaded without an error and every query of it is undefined. testSelect prints nothing exactly when the last group is not misread.", "quantifier": "all texts below 2^29 bytes that C106 covers, three variants, all L and THRESHOLD that fit, all pairs of memories, all continuations and cuts of the file", "why_tests_cant": "wrong answers after load depend on what the allocator returns", "anchors": ["include/mranisz/shared/select.hpp:SelectMPE32::save", "include/mranisz/shared/select.hpp:SelectMPE32::load", "include/mranisz/shared/select.hpp:SelectMPE32::testSelect"]}
{"id": "C111", "title": "Fenwick trees: writing and reading back", "statement": "A FixedF, FixedL, ByteF, ByteL, BitF or BitL built from any sequence and changed by any calls, written with operator<< and read with operator>> into any tree of the same class and BOUND, gives a tree whose later answers are those of the sequence; reading consumes exactly the bytes written and leaves what follows them in the stream. The tree read is equal to the tree written in every member.", "quantifier": "six classes, all bounds and sequences that fit, all calls before and after, all trees read into, all bytes that follow", "why_tests_cant": "the round trip must hold for every tree state; no test of the repository writes or reads a tree", "anchors": ["include/hft/fenwick/fixedf.hpp:FixedF::operator<<", "include/hft/fenwick/fixedl.hpp:FixedL::operator<<", "include/hft/fenwick/fixedf.hpp:FixedF::operator>>", "include/hft/fenwick/fixedl.hpp:FixedL::operator>>", "include/hft/fenwick/bytef.hpp:ByteF::operator>>", "include/hft/fenwick/bytel.hpp:ByteL::operator>>", "include/hft/fenwick/bitf.hpp:BitF::operator>>", "include/hft/fenwick/bitl.hpp:BitL::operator>>", "include/hft/darray.hpp:DArray::operator<<", "include/hft/darray.hpp:DArray::operator>>", "include/hft/common.hpp:hton", "include/hft/common.hpp:ntoh"]}
{"id": "C112", "title": "Fenwick trees: format and size of the files", "statement": "For all eight classes the file is: the number of elements, for the L classes the number of levels and the starts of the levels, then for each array (TypeL has three) the number of its elements and the elements; all numbers of the file are big-endian, elements with the width of the array, whatever the byte order of memory. Its size is 8, plus 8 and 8 per level for the L classes, plus 8 and the bytes of the array for each array.", "quantifier": "all eight classes, all bounds and sequences that fit, all calls before writing", "why_tests_cant": "a round trip on one machine does not see the byte order of the file", "anchors": ["include/hft/fenwick/fixedf.hpp:FixedF::operator<<", "include/hft/fenwick/fixedl.hpp:FixedL::operator<<", "include/hft/fenwick/bytef.hpp:ByteF::operator<<", "include/hft/fenwick/bytel.hpp:ByteL::operator<<", "include/hft/fenwick/bitf.hpp:BitF::operator<<", "include/hft/fenwick/bitl.hpp:BitL::operator<<", "include/hft/fenwick/typef.hpp:TypeF::operator<<", "include/hft/fenwick/typel.hpp:TypeL::operator<<", "include/hft/darray.hpp:DArray::operator<<", "include/hft/common.hpp:hton", "include/hft/common.hpp:swap_endian"]}
{"id": "C113", "title": "Fenwick trees: files cut short", "statement": "Reading the first k bytes of a file of a tree: if the cut is before the first element of the array, a number is used that was never read (undefined); if it is later, reading returns a tree of the right size whose elements before the cut are those written, whose elements after the cut are zero, and which differs from the tree written without any sign but the failed state of the stream. There are cut files whose trees give other answers.", "quantifier": "six classes, all trees, every k below the length of the file", "why_tests_cant": "every position of the cut, in every tree", "anchors": ["include/hft/fenwick/fixedf.hpp:FixedF::operator>>", "include/hft/fenwick/fixedl.hpp:FixedL::operator>>", "include/hft/fenwick/bytef.hpp:ByteF::operator>>", "include/hft/fenwick/bytel.hpp:ByteL::operator>>", "include/hft/fenwick/bitf.hpp:BitF::operator>>", "include/hft/fenwick/bitl.hpp:BitL::operator>>", "include/hft/darray.hpp:DArray::operator>>"]}
{"id": "C114", "title": "Hybrid: files", "statement": "operator<< of a hybrid with fewer than 2^32 bottom trees always reads past the end of the vector of bottom trees (undefined): the loop is bounded by the number of trees in the byte order of the file. operator>> never returns on a file of fewer than 2^32 bytes that states a number of bottom trees between 1 and 2^32 - 1 as operator<< states it. When operator>> does return, size() is what it was before, and the trees read follow the bottom trees there were instead of replacing them.", "quantifier": "all classes of trees, bounds, CUTs and sequences that fit, all calls, all files and hybrids read into", "why_tests_cant": "no test writes or reads a hybrid", "anchors": ["include/hft/fenwick/hybrid.hpp:Hybrid::operator<<", "include/hft/fenwick/hybrid.hpp:Hybrid::operator>>"]}
{"id": "C115", "title": "Fenwick trees and Hybrid: bitCount", "statement": "bitCount of a tree of each of the eight classes is the memory of object, levels and arrays (in whole pages of 4096 bytes) in bits, plus 112 per array, modulo 2^64: the size of the array object is subtracted in bytes although it was added in bits. bitCount of a hybrid is the memory of its members and trees in bits, plus 112 per array of its trees, plus the bytes of an object of the class of the bottom trees, less 336. So it is never exact for a tree.", "quantifier": "eight classes and their hybrids, all bounds, CUTs and sequences that fit, all calls", "why_tests_cant": "no test compares bitCount with the memory", "anchors": ["include/hft/fenwick/fixedf.hpp:FixedF::bitCount", "include/hft/fenwick/fixedl.hpp:FixedL::bitCount", "include/hft/fenwick/bytef.hpp:ByteF::bitCount", "include/hft/fenwick/bytel.hpp:ByteL::bitCount", "include/hft/fenwick/bitf.hpp:BitF::bitCount", "include/hft/fenwick/bitl.hpp:BitL::bitCount", "include/hft/fenwick/typef.hpp:TypeF::bitCount", "include/hft/fenwick/typel.hpp:TypeL::bitCount", "include/hft/fenwick/hybrid.hpp:Hybrid::bitCount", "include/hft/darray.hpp:DArray::bitCount"]}
{"id": "C116", "title": "Poppy: selectLinear", "statement": "selectLinear(bits, length, x, k), for an array of length words and a word number x below length: with select64_popcount_search (the alternative left as a comment) it returns the position, counted from word x and most significant bit first, of the k-th one from there on. As shipped it returns instead the next one after the k-th in the same word (least significant bit first) or the end of the word, so never the k-th one, and shifts by 64 (undefined) when the k-th one is the last bit of a full word. With fewer than k ones from word x on it returns 2^64-1 if x is 0 or k exceeds the number of bits from there on, and otherwise reads past the end of the array. With k = 0 only word x is looked at. With x beyond length the array is overrun for all k up to 2^64-64*(x-length).", "quantifier": "all arrays of fewer than 2^58 words, all x, all k of 64 bits", "why_tests_cant": "no test or program of the repository calls it", "anchors": ["include/poppy/popcount.h:selectLinear", "include/poppy/popcount.h:select64"]}
{"id": "C117", "title": "SelectBasic32 and SelectMPE32: alignment", "statement": "A query of SelectBasic32 or SelectMPE32 reads through a cast pointer at an address that is not a multiple of the size read exactly when it asks for a one inside its group (not the last of it), the group is not all ones, and either the group is stored as positions (read 4 bytes at a time) after a number of bytes that is not a multiple of 4, or it is stored uncompressed as more than 64 bits (read 8 bytes at a time) after a number of bytes that is not a multiple of 8. The number of bytes is the sum over the groups before: 4 per position, the bits rounded up, nothing for groups of ones, less what compression saves. In all other cases the answer is that of C99, C100 and C106. The benchmark's arguments L = 128, THRESHOLD = 4096 do not prevent it.", "quantifier": "both structures, both header types, three compressions, all L, THRESHOLD and texts that can be built, all memory addresses, all queries", "why_tests_cant": "x86 performs misaligned reads, so tests cannot see them", "anchors": ["include/mranisz/shared/select.hpp:SelectBasic32::getSelect_std", "include/mranisz/shared/select.hpp:SelectBasic32::getSelect_bch", "include/mranisz/shared/select.hpp:SelectMPE32::getSelect_v1", "include/mranisz/shared/select.hpp:SelectMPE32::getSelect_v2"]}
{"id": "C118", "title": "TypeF: alignment", "statement": "Let w be the number of bits of the bound of a TypeF. If w is at most 8 and there are at least 2^(9-w) elements, or w is 9 to 16 and there are at least 2^(17-w) elements, the constructor writes through a cast pointer at an address that is not a multiple of the size written, whatever the elements are (four elements are enough for counts of 64-bit words). In all other cases, that is for smaller sequences and for all bounds of 17 bits or more, no access of the constructor, prefix, add, find and compFind is misaligned: every sequence of calls within the contract answers as C40 says, and calls with any increments and search values do what they do without the rule.", "quantifier": "all bounds and lengths TypeF can hold, all elements, all sequences of calls", "why_tests_cant": "x86 performs misaligned accesses, so tests cannot see them", "anchors": ["include/hft/fenwick/typef.hpp:TypeF", "include/hft/fenwick/typef.hpp:prefix", "include/hft/fenwick/typef.hpp:add", "include/hft/fenwick/typef.hpp:find", "include/hft/fenwick/typef.hpp:compFind", "include/hft/fenwick/typef.hpp:pos"]}
{"id": "C119", "title": "Fenwick helpers: bit fields", "statement": "For every offset below 64 and length from 1 to 64, bitread returns exactly the bits asked for, also when they lie in two words. bitextract, documented to do the same, does so for all contents exactly when the field lies in one word or its offset equals its length; otherwise the bits of the second word come out shifted to place 64-length and cut at place offset. bitwrite changes the bits of the field to those of the value and nothing else if the value fits the length; excess bits of the value are or-ed into the bits above the field in the words touched. compact_bitmask sets exactly count bits from pos on for count from 1 to 64, and is undefined for count 0.", "quantifier": "all memory contents, offsets, lengths and values", "why_tests_cant": "tests of the trees never call bitextract, bitwrite and compact_bitmask; there are 4096 pairs of offset and length and 2^128 contents each", "anchors": ["include/hft/common.hpp:bitread", "include/hft/common.hpp:bitextract", "include/hft/common.hpp:bitwrite", "include/hft/common.hpp:compact_bitmask"]}
{"id": "C120", "title": "Fenwick helpers: rounding, update root, selection in a word", "statement": "round_pow2 returns the least power of two that is not below its argument for arguments from 1 to 2^63, and 0 for all others. mround with a power of two returns the least multiple not below the number, modulo 2^64. updroot(j, n) returns the last node, among those an update of j visits, that is inside a tree of n nodes. select64 returns the position of the k-th one (from 0) for k below the number of ones, in both builds. For larger k below 128 the build without __haswell__ shifts by 64 (undefined); the build with __haswell__ returns 64 for larger k below 64 and shifts by k (undefined) from 64 on.", "quantifier": "all 64-bit words, all nodes and sizes below 2^64", "why_tests_cant": "2^64 words and 2^128 pairs; bit tricks fail on rare carries and boundaries", "anchors": ["include/hft/common.hpp:round_pow2", "include/hft/common.hpp:mround", "include/hft/common.hpp:updroot", "include/hft/common.hpp:select64"]}
{"id": "C121", "title": "Fenwick helpers: increments of fields in two words", "statement": "bitwrite_inc on a field that lies in two words always leaves the field at its old value plus the increment (when that fits the field). If the part of the field in the first word plus the increment is not negative, no other bit of memory changes. Otherwise the bits above the field up to the end of the second word are increased, as a number, by 2^(64-length), so some bit outside the field changes.", "quantifier": "all memory contents, offsets 1 to 63, lengths up to 64, increments from -2^63 to 2^63-1", "why_tests_cant": "needs trees whose nodes have 58 bits or more and a borrow between the words of one node", "anchors": ["include/hft/common.hpp:bitwrite_inc"]}
{"id": "C122", "title": "DArray: the memory of one array", "statement": "A DArray of n elements of w bytes maps the least number of whole pages that hold n*w bytes, provided n*w is at most 2^64 minus a page; exactly the elements of those pages can be accessed and are zero at first. If n*w modulo 2^64 is zero or above 2^64 minus a page, the array reports the length n but has no memory, no call fails, and the first write (operator>> does it) goes through a null pointer. If mmap fails, the assertion fails; without assertions the array reports its length and every access is undefined.", "quantifier": "all lengths, element sizes, page sizes, indexes, and sets of lengths for which mmap fails", "why_tests_cant": "lengths of 2^61 and more; failing mmap", "anchors": ["include/hft/darray.hpp:DArray", "include/hft/darray.hpp:page_aligned", "include/hft/darray.hpp:operator[]", "include/hft/darray.hpp:operator>>"]}
{"id": "C123", "title": "DArray: arrays are values and own their memory", "statement": "A program of constructors, move constructions, move assignments, swaps, destructors, size() and element accesses below the length prints what it prints with arrays as plain values (a moved-from array has length 0, an assigned-from array gets the old value of the target), and if all arrays are destroyed all memory is unmapped. In every program, even if mmap fails or lengths wrap, no unmapped memory is accessed or unmapped again, and every mapping belongs to exactly one array, with the length its destructor passes to munmap.", "quantifier": "all programs, element sizes, page sizes, with and without assertions", "why_tests_cant": "leaks and double unmaps depend on the order of moves and destructions; munmap of wrong lengths is silent", "anchors": ["include/hft/darray.hpp:DArray", "include/hft/darray.hpp:operator=", "include/hft/darray.hpp:swap", "include/hft/darray.hpp:~DArray"]}
{"id": "C124", "title": "mranisz: objects own their arrays until they are copied", "statement": "A program that creates, builds, loads, uses, frees and destroys objects of the ten classes RankBasic32/64, RankCF32/64, RankMPE32/64, SelectBasic32/64, SelectMPE32/64, each while it exists, and copies none, never touches or deletes deleted memory and always has the buffer that SelectMPE writes to; every array belongs to one member of one object, and when all objects are destroyed all arrays are. With the implicit copies this fails: after a copy of an object with an array is destroyed, using the original touches deleted memory and destroying it deletes twice; and the arrays an object has before it is assigned to are never deleted.", "quantifier": "all programs of one thread, any number of objects; any of the arrays allocated or not", "why_tests_cant": "the order of builds, frees, copies and destructions; leaks are silent", "anchors": ["include/mranisz/shared/rank.hpp:freeMemory", "include/mranisz/shared/rank.hpp:initialize", "include/mranisz/shared/rank.hpp:free", "include/mranisz/shared/select.hpp:freeMemory", "include/mranisz/shared/select.hpp:initialize"]}
{"id": "C125", "title": "ByteF: nodes do not overlap, with and without HFT_DISABLE_TRANSHUGE", "statement": "In both builds, for every bound B and size n with bound size plus log2 n at most 64, every node of ByteF has enough bytes for the sum of its elements (at most B each), no two nodes share a byte, and the 8-byte accesses at every node stay in the array. The option costs exactly n/2^(18+m) - n/2^(28+m) bytes, m = (64 - bound size) mod 8, and nothing from a bound size of 32 on. Without it the positions are those for which the other claims on ByteF are proved.", "quantifier": "all bounds below 2^64, all sizes up to 2^48 with bound size plus log2 n at most 64, all nodes, both builds", "why_tests_cant": "the holes start at node 2^18 or 2^28; the option is set in no build of the repository", "anchors": ["include/hft/fenwick/bytef.hpp:holes", "include/hft/fenwick/bytef.hpp:pos", "include/hft/fenwick/bytef.hpp:bytesize"]}
{"id": "C126", "title": "BitmapPoppy: the memory of objects", "statement": "A program that creates, uses and destroys BitmapPoppy objects of less than 2^48 + 2^32 bits, each used while it exists and none copied, never touches or frees freed memory, and when all objects are destroyed all memory is freed, provided every allocation succeeds. If posix_memalign fails, the constructor does not end the process, as its code means to: the error is positive and the test is for a negative one, so it writes through a pointer without a value. The constructor for more bits writes past its arrays of 2^16 entries. After a copy of an object is destroyed, using the original touches freed memory and destroying it frees twice.", "quantifier": "all programs of one thread without copies, any number of objects; all error codes; a copy after any such program", "why_tests_cant": "failing posix_memalign; double frees depend on copies that the repository does not make", "anchors": ["include/poppy/bitmap.h:BitmapPoppy", "include/poppy/bitmap.h:~BitmapPoppy"]}
{"id": "C127", "title": "RankBasic64 (standard headers): queries of several threads", "statement": "A rank query that runs alone on a built object ends within nine steps with the number of ones before i, whatever earlier queries left in the object. Several queries for bits of the same 512-bit block, interleaved in any way, all answer right. Queries for bits of any blocks, interleaved in any way, never read outside the arrays and end after nine turns each. But queries for bits of different blocks need not answer right: although they change nothing a caller can see, they share a member in which each keeps the place of its block, and there are texts, queries and interleavings with a wrong answer. A wrong answer differs from the right one by at most i mod 512.", "quantifier": "all texts below 2^58 bytes, addresses and old contents of memory, any number of queries, all interleavings of their steps", "why_tests_cant": "wrong answers depend on the moment at which another thread runs; the repository queries from one thread only", "anchors": ["include/mranisz/shared/rank.hpp:RankBasic64::getRank_std"]}
{"id": "C128", "title": "RankCF64: queries of several threads", "statement": "For texts on which build works (C60), a rank query that runs alone ends within twelve steps with the number of ones before i, whatever earlier queries left in the object. Several queries for bits of one 512-bit block past the border of the structure, interleaved in any way, all answer right and never read outside the array. Before the border this fails even for equal queries: two threads that ask for the same bit can make one of them answer more than the text has bits, and many can read outside the array.", "quantifier": "all texts below 2^58 bytes with a mixed block, addresses and old contents of memory, any number of queries, all interleavings of their steps", "why_tests_cant": "wrong answers depend on the moment at which another thread runs; the repository queries from one thread only", "anchors": ["include/mranisz/shared/rank.hpp:RankCF64::rank"]}
