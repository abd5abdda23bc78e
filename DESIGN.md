# Formal model of jermp/mutable_rank_select

Prover: Rocq / Coq 8.16.1, standard library only. Sources under `rocq/theories`, built by
`coq_makefile -f _CoqProject -o Makefile && make -j4` in `rocq`.

## Shape of the model

* Numbers are `Z`; every C++ unsigned operation that can wrap is written with an explicit `mod 2^w`
  (`u8`, `u16`, `u32`, `u64`). Loops are structural recursions that keep the order of the source.
* Every operation returns `res`: `Ok v`, `Ub kind` (out-of-bounds access, use of a freed or null
  buffer, shift by >= 64, ctz(0), misaligned aligned load, end of a non-void function) or
  `AssertFail`. Asserts only exist when the configuration says debug build. A theorem that concludes
  `= Ok v` therefore also claims memory safety and the absence of assertion failures.
* Build configuration `cfg` = debug build?, AVX2 paths? (`DISABLE_AVX` not defined), `AVX512` defined?,
  does an aligned load trap on a misaligned address? Theorems quantify over all of it unless stated.
* Memory of an index = list of bytes plus the address the allocator gave it. Nodes are byte offsets;
  typed loads and stores are little-endian. The literal address arithmetic of the SUM/UPDATE/SEARCH
  macros is kept for each of the seven (family, height) pairs.
* Vector code is modelled lane by lane (lists of lanes), with the meaning of each intrinsic taken from
  Intel's documentation.
* Function-local static arrays are explicit state.
* Constant tables are transcribed from the sources by `tools/gen_tables.py` (`Tables.v`).

## Files

| file | content |
|---|---|
| Base, Mem | outcomes, wraps, arrays; byte memory and vector lanes |
| Tables | constant tables of `common.hpp`, `avx2/tables.hpp`, `avx512/tables.hpp` |
| Words | `rank_select_algorithms/common.hpp`, `select_u64` of `select.hpp` |
| Blocks | `rank.hpp`, block part of `select.hpp`, `types.hpp` |
| Nodes | `avx2/node{32,64,128}.hpp`, `avx512/node{128,256,512}.hpp`, `search_common.hpp` |
| Trees | `avx2/segment_tree.hpp`, `avx512/segment_tree.hpp` and their macro files |
| Bitmap | `mutable_bitmap.hpp` |
| Drivers | build-then-call programs over one node or one tree (as in `test/`) |
| System | several bitmaps: implicit copy/move/assign/destroy over a heap of index buffers |
| Conc | threads calling member functions, small steps |
| Random | `util.hpp`: `splitmix64`, `create_random_bits` |
| Hft | `include/hft`: `common.hpp` (what the trees use), `darray.hpp`, the eight trees of `fenwick/` |
| HftHybrid | `include/hft/fenwick/hybrid.hpp` |
| HftFile | `include/hft`: `operator<<`, `operator>>`, `bitCount` of `DArray`, the eight trees and `Hybrid`; byte order functions of `common.hpp` |
| HftPerf | measured loops of `src/perf_hft.cpp` |
| Perf | measured loops of `src/perf_mutable_bitmap.cpp` and `src/perf_prefix_sum.cpp` |
| Poppy | `include/poppy`: `bitmap.h`, `popcount.h` except `selectLinear` (next row); `poppy_wrapper` of `src/perf_immutable_bitmap.cpp` |
| PoppyLinear | `include/poppy/popcount.h`: `selectLinear` |
| Kernels | `src/perf_rank64/256/512.cpp`, `perf_select64/256/512.cpp`, `perf_search256/512.cpp`, `perf_prefix_sum256/512.cpp`, `perf_popcnt256/512.cpp`, `perf_popcnt_for_avx_select256/512.cpp`: measured functions, query loops, totals |
| MrRank | `include/mranisz/shared/rank.hpp`: `RankBasic64` (both header types) and `RankCF64`: build, rank, sizes |
| MrSelect | `include/mranisz/shared/select.hpp`: `SelectBasic64` (both header types, any `L`, `THRESHOLD`): build, select, sizes |
| MrMpe | `include/mranisz/shared/rank.hpp`: `RankMPE64` (MPE1, MPE2, MPE3): build, rank, sizes |
| MrMpeUse | `RankMPE64`: save, load; in `src/perf_compressed_bitmap.cpp` |
| MrSmpe | `include/mranisz/shared/select.hpp`: `SelectMPE64` (MPE1, MPE2, MPE3, any `L`, `THRESHOLD`): build, select, sizes |
| MrSmpeUse | `SelectMPE64`: save, load, testSelect (those of MrFile); in `src/perf_compressed_bitmap.cpp` |
| MrRank32 | `include/mranisz/shared/rank.hpp`: `RankBasic32` (both header types), `RankCF32`: build, rank, sizes, save, load, testRank |
| MrMpe32 | `include/mranisz/shared/rank.hpp`: `RankMPE32` (MPE1, MPE2, MPE3): build, rank, sizes, save, load |
| MrSelect32 | `include/mranisz/shared/select.hpp`: `SelectBasic32` (both header types, any `L`, `THRESHOLD`): build, select, sizes |
| MrSelFile32 | `SelectBasic32`, `SelectMPE32`: save, load, testSelect |
| MrSmpe32 | `include/mranisz/shared/select.hpp`: `SelectMPE32` (MPE1, MPE2, MPE3, any `L`, `THRESHOLD`): build, select, sizes |
| MrAlign | `SelectBasic64`, `SelectMPE64`: select with the language's rule about aligned 64-bit reads |
| MrAlign32 | `SelectBasic32`, `SelectMPE32`: select with the same rule for reads of 4 and 8 bytes |
| TypeFAlign | `include/hft/fenwick/typef.hpp`: constructor, prefix, add, find, compFind with the same rule for accesses of 2 and 8 bytes |
| Darray | `include/hft/darray.hpp`: the constructors, assignment, `swap`, destructor, `operator[]`, `page_aligned`; mappings and their owners |
| MrOwn | `include/mranisz/shared/rank.hpp`, `select.hpp`, all ten classes: constructor, destructor, `free`, and which arrays `build` and `load` allocate |
| MrRace | `include/mranisz/shared/rank.hpp` `getRank_std` of RankBasic64 in steps, the member `pointer` shared by all calls |
| MrRaceCf | `include/mranisz/shared/rank.hpp` `rank` of RankCF64 in steps, the member `pointer` shared by all calls |
| PopOwn | `include/poppy/bitmap.h`, `BitmapPoppy`: what the constructor allocates and the destructor frees, the tests of `posix_memalign` |
| HftHoles | `include/hft/fenwick/bytef.hpp`: `holes`, `pos`, `bytesize`, the length of the array, with and without `HFT_DISABLE_TRANSHUGE` |
| HftWord | `include/hft/common.hpp`: `bitextract`, `bitwrite`, `compact_bitmask`, `round_pow2`, `mround`, `updroot`, `select64` (both builds) |
| MrFile | RankBasic64, RankCF64, SelectBasic64: save, load (a file is the list of its bytes), testRank, testSelect |
| PerfBase | `src/perf_compressed_bitmap.cpp` (RankBasic64, RankCF64, SelectBasic64), `src/perf_immutable_bitmap.cpp` (type poppy): input, queries, measured loops, printed totals |
| Spec, SpecIndex, SpecSystem, SpecConc, SpecRandom, SpecHft, SpecHftFile, SpecTypeF, SpecHftWord, SpecDarray, SpecOwn, SpecHoles, SpecPopOwn, SpecPerf, SpecPoppy, SpecPoppyBig, SpecKernel, SpecText, SpecText32, SpecSel32, SpecMpe, SpecSmpe, SpecSmpe32, SpecAlign, SpecAlign32, SpecFile, SpecFile32, SpecSelFile32, SpecOrder, Usage | specifications and limits of use; no proofs |
| *Facts, TreeBuild, LimitProps, Hft*, Poppy*Facts, Poppy*Props, Kernel*, Mr*Facts, MrRankProps, MrRank32Props, MrFile32Props, MrSelectProps, MrSelect32Props, MrSelFile32Props, MrMpeProps, MrMpe32Props, MrSmpeProps, MrSmpe32Props, MrSmpe32UseFacts, MrAlignProps, MrAlign32Props, MrFileProps, Demo* | proofs and concrete cases |
| Properties1 ... Properties42 | the property theorems, each followed by `Print Assumptions` |

`rank.hpp`, `select.hpp`, `common.hpp` in comments mean the files in
`include/rank_select_algorithms`; `node*.hpp`, `tables.hpp`, `segment_tree*.hpp` those of the family
named beside them.

`Usage.v` says what using the library within its limits means (`history`): a supported mode, 1..2^24
blocks, the template height `height(n)` returns, an index address the aligned load accepts (only if it
traps; C27), blocks of at most 256 ones in debug builds of the avx512 index (C25), and selects that the
root of the height-4 avx2 index does not lose (C26; a condition on each k, not on the bitmap). C25, C26
and C27 prove what happens outside these three, so the limits are the exact ones.

## Per property

* C01-C05, C07, C29, C30, C34, C35: the bitmap refines a list of booleans, by an invariant established
  by build and kept by flip; each property is about the outputs after an arbitrary operation list.
* C06: both compositions, from the refinement and counting lemmas.
* C08, C09: no `Ub`, no `AssertFail` in any history. C10, C11: equal outputs across configurations and
  families.
* C12-C15: for all words and blocks; byte-level facts by evaluation on all 256 bytes (complete), the
  rest by algebra and induction.
* C16, C17: "stored word = prefix sum modulo 2^w", for arbitrary histories of updates.
* C18: arithmetic on the thresholds against the levels `build` computes. Too small a height fails for
  every input. Too large a height makes the last counter unreadable; inputs spared by the largest height
  (last leaf at most 48 resp. 224 counters) are excluded by hypothesis, and nothing is claimed for them.
* C19: no result depends on the contents of the static arrays.
* C20: interleavings of threads. Exact condition for the absence of races; the naive expectation is
  refuted with a schedule that makes `rank` return the count of another block.
* C21-C24, C37: heap model. Copies share the index of their source; independence and zero padding after
  a rebuild are refuted and replaced by exact statements.
* C25, C26, C27, C32: exact descriptions of where the library leaves its documented behaviour, with
  refutations of the naive expectation.
* C28: arbitrary leftovers in the unused entries of the last leaf.
* C31: closed form of the buffer size and a bound.
* C33, C39: induction on the generator loop; the steps of splitmix64 are bijections.
* C36: calls outside the contract. C38: removing assertions changes no returned result.

* C40, C41: one invariant, "field i of the memory holds the sum of the elements node i covers", for
  separate fields of arbitrary bit or byte width; each class supplies the positions and widths of its
  fields and a proof that they do not overlap. `fits` in `SpecHft.v` is what a class can represent.
* C42: the search of TypeL asks whether a node lies in its array, not in its level; the converse builds a
  failing sequence for every bad size. C43, C44: what happens outside the limits of C40.
* C45: the loops of the benchmark as folds over the queries, from C40 and C41.
* C46: sums over blocks; the top tree holds the block sums, each bottom tree its block without the last
  element. Built on the one-call lemmas behind C40, so for all pairs of classes at once.
* C47: the loops as folds over the queries, from the step theorem of the bitmap and C33; an even number
  of rounds of flips is the identity because each position is flipped an even number of times.
* C48: the same over the step theorem of the trees; the exact condition for a list of decrements to stay
  in range is that no counter is hit more often than its value.
* C49: loop invariants over groups, blocks and bits, for any content of uninitialised memory; the scan
  that fills the select hints is proved to fail exactly when the hints outgrow their array.
* C50: the word of the r-th one does not depend on the order of bits inside words; the search for the
  word is right, and the in-word select then decides the result, for both candidates.
* C51: halving invariant; byte sums as in C13 and a checked table of all bytes for the broadword one.
* C52: the loop stops at the first word whose inclusive prefix sum exceeds k; the comparison mask of the
  vector mode has exactly the bits of the sums <= k set while all sums are below 2^63.
* C53, C54: invariants of the loops; the vector prefix sum is computed symbolically on 4 and 8 words, modulo 2^64.
* C55: the mask keeps the k low bits, and all bits for k = 0.
* C56: the calls of C52-C55 and of the blocks (C13-C15) on buckets of the array, with the function-local
  statics as an invariant through all queries, runs and sizes.
* C57: relation `asked` between the random numbers and the list of queries; the skipping loops end because
  splitmix64 takes every value (C39) and the generator puts a one among the first 256 bits (C33).
* C58-C60: loop invariants of the builds over the blocks written so far, with the initial contents of every
  allocated array and its address as parameters; rank by splitting at the block and the word.
* C61: lengths of the arrays the builds of C58-C60 make.
* C62, C63: an invariant per group of `L` ones for each of the two passes of the build (what is stored for the
  groups before, which part of the present one is written), then the three loops of the query over the stored
  bits; compressed headers by arithmetic on the 16-bit fields of a superblock.
* C64: the same invariants with "or the write lies outside, and then the payload is too large" as second
  outcome; the sizes counted by the first pass and used by the second compared group by group.
* C65: lengths of the arrays; the argument checks by arithmetic.
* C66: what the queries need (C58-C60) is a condition on the words inside the counted lengths, which the file
  keeps; exact behaviour of load on any file (C68) for the prefixes.
* C67: the same, with the payload of C62/C63; `lost` is proved equivalent to "more payload is used than counted".
  For the converse a memory of bytes 127.
* C68: symbolic execution of load with the length fields read from the file.
* C69: induction over the loop of the test with the printed lines as accumulator.
* C70: the loops as sums modulo 2^64 (induction), with C58-C64 for the structures and the generator's specification
  (C33, C39) for the bitmap; the bytes of the words give the bit-reversed bitmap (C71).
* C71: sums of bits over a group do not depend on the order inside it.
* C72: C49 and C50 for the answers, the loops as in C70; three numbers of the query generator decide for 2^11 ... 2^15.
* C73: induction over the blocks for what is stored (order of the kept pairs, flag words of the dropped ones), over the
  header words for the ranks and offsets; rank is the number of ones of the kept pairs before the position plus 16 for
  every dropped pair of full bytes, a sum over pairs.
* C74: the reads of the last header group and of the words of rank, with the exact condition carried through C73's lemmas.
* C75: the stored bytes of a block are twice the kept pairs plus eight for each flag word.
* C76: the file has the layout of a select structure's, so C67's lemmas apply; the loaded structure meets the invariant of C73.
* C77: C70's lemma about the loops with C73.
* C78: the three passes over the text share an induction over bits and blocks; what a block stores is given by its
  bytes, the pairs left out and their tables; decoding a block is an induction over its pairs, with the number of ones
  seen; the offset and flag fields of a header word are read back from sums of shifted numbers, with the bounds of C80.
* C79: the reads of the last superblock, and the failing first pass or store, carried through the same lemmas.
* C80: arithmetic; the refutation is computed.
* C81: the sums of stored bytes of the passes, matched with counts of byte pairs of the text.
* C82: C67's lemmas about files; all bytes built are bytes, so the loaded structure meets the invariant of C78; in the lost
  case the last group is stored plainly and C67's argument about the missing byte applies.
* C83: C70's lemma about the loops with C78.
* C84: the offsets of C62 and C78 as sums over the groups before; the loop over words advances by 8 bytes, so the first
  read decides.
* C85: the two passes of the constructor by induction over the pieces, each with the invariants of C49 relative to the
  piece's first bit; a piece with too many ones makes the 32-bit capacity wrap to 0, and its first location is out of bounds.
* C86: the loop over L1 entries finds the piece of the r-th one; in the first piece the rest is C50's; with an empty first
  piece all entries met are 0, so the search runs to the last one and to the last basic block.
* C87: the search for the L2 entry stops at the first entry that is not smaller than the rank; entries from 2^21 on are the
  unspecified contents of fresh memory.
* C88, C89, C90: the proofs of C58-C60 with 32-bit arithmetic; prefix counts are stored modulo 2^32, and differences of
  neighbouring ones are exact. C90's misaligned places: the left part keeps 17 ints per block, so words start at an odd int
  of every even place; the place of a block right of the border is the uniform block with the same number among its kind.
* C91: the lengths of C88-C90 in the size formulas; a text of bytes 1 keeps every block.
* C92-C94: as C66, C68, C69, with fields of four bytes (`int_field`); C94's iff follows the loop with counts modulo 2^32.
* C95: C73's proof; choosing and storing are the same code, the headers are 16 blocks in 18 ints with fields of 16 bits.
* C96: the allocation of `bitsLen + 128` bytes wraps only if the first block stores 120 bytes or more, and the array of at most 8
  bytes left cannot take it. The misaligned reads as in C74.
* C97, C98: as C75, C76, C92-C94.
* C99, C100: the proofs of C62, C63 with 32-bit counters. Texts below 2^29 bytes (`8 * i + j` is an unsigned int) with fewer
  than 2^31-17 groups (`selectsLen + 32` does not wrap; always so for `L >= 3`); larger ones are not claimed. Plain headers:
  `THRESHOLD` at most 2^32-64, the loop counter of the query.
* C101: as C64; in addition the payload plus 128 can reach 2^32 (small `L` and `THRESHOLD` only), then the first write past the
  wrapped allocation is found from the invariant of the second pass.
* C102: as C65.
* C103-C105: the file is byte by byte that of `RankMPE32`, so C98's lemmas apply; the rest as C67-C69. The converse of the round
  trip with plain headers needs `THRESHOLD` < 2^30 (a lost position is told from fresh bytes 127 by its top byte).
* C106: C78's induction over bits and blocks with 32-bit counters; positions and offsets below 2^32 by C107's bounds; two
  16-bit fields to an int, read back by lane.
* C107: as C79, with the wrapped allocation of C101.
* C108: linear arithmetic on the conditions of the constructor.
* C109: as C81.
* C110: as C82, with C103's lemmas about files.
* C111: `swap_endian` is an involution and writes numbers big-endian; no operation changes sizes and levels; then C40
  for the calls after reading.
* C112: the same lemmas, by cases on the class.
* C113: induction over the elements, with the state of the stream.
* C114: the byte-swapped count is at least 2^32; each tree read consumes 8 bytes or more. Every hybrid a client can have
  has trees a client can have (HftFileFacts4).
* C115: congruences modulo 2^64.
* C116: induction over the words from x on, counting in the order of poppy; then the lemmas of C50 for the word found.
* C117: as C84, with the offsets of C99 and C106.
* C118: below the limit every node is aligned, so each access, and by induction over the loops each call, is that of C40; at the
  limit the constructor's first loop reaches the first misaligned node with every store before it in bounds.
* C119: bits of shifted, masked and stored words are computed one by one and compared with the bits of memory; `bitextract` on the
  words 0, 1 shows that the other cases are wrong.
* C120: `round_pow2` by windows of doubling width; `mround` by the quotient; `updroot` by the top bit in which the arguments differ
  and induction along the updates; `select64` by the lemmas of C13. Arguments of
  `select64` from 128 on are covered in the `__haswell__` build only.
* C121: the two words as one number of 128 bits; the code adds the increment times 2^from, and 2^(64+from) more when the part in the
  first word becomes negative. `bitwrite_inc` is that of Hft (C40), where only fields in one word are used.
* C122: `page_aligned` as division by the page size, with the wraps; the wrap cases by periodicity.
* C123: invariant: every variable with a mapping has one that exists, with the length `page_aligned(Size)`, no two have the same, and
  every mapping has a variable. The values by a simulation relation between the variables of the specification and the memory.
  Not covered: copies (deleted), threads, a failing `munmap` of a whole mapping.
* C124: invariant: every pointer of an object that exists is to memory that exists, no two are the same, and all memory has a pointer.
  C124_assign: memory without a pointer keeps that state under every step, copies included. The arrays that `build` creates and deletes
  itself are left out, as is `load` of a bad file, which ends the process.
* C125: positions as sums of quotients; a step of one node adds at least its width. Not proved with the option: the operations of the
  tree, which use the positions in no other way.
* C126: the invariant of C124 for any number of members, `l1EntryCount_` kept with every object. `new` of `loc_` is taken to succeed.
* C127: invariant: every call under way, given `pointer` for itself, would still end with the answer of C58, and `pointer` is the place
  of its block; a call in the same block sets `pointer` to what it is. For other blocks: `pointer` is always the place of eight words; a call starts from the rank of its own block and adds at most `i mod 512`. Steps interleave; formally unordered writes of `pointer` are a
  data race in C++ even then. Not modelled: calls on compressed headers and of classes other than those of C127 and C128, which use `pointer` the same way.
* C128: what a call still computes, given `pointer` for itself, is kept by its steps; right of the border as C127. The border is a member
  of the object (`cf_border`). Only examples are proved left of it.

## Findings

1. Height-4 avx2 index: the vector search of the root compares unsigned 32-bit keys as signed numbers.
   Select loses certain ranks from 2^31 ones on (C26).
2. `avx2/node128.hpp` update loads with an aligned load from addresses a 16-byte allocator never aligns
   (C27).
3. The avx512 index asserts `val <= 256`, which 512-bit blocks violate when dense (C25).
4. Building again leaves stale bits in the padding of the last block (C24).
5. Implicit copies share, and do not own, the index buffer (C21).
6. rank/select in unrolled and parallel modes use static arrays: const queries race, with wrong
   answers (C20).
7. Mode combinations without implementation return 0 silently in release builds (C32).
8. The scratch array of the tree build is not cleared for the last leaf; harmless (C28).
9. A tree type of another height than `height(n)` compiles and breaks (C18).
10. select(k) with too large k: undefined behaviour in release builds; in debug builds a height-3 avx2
    index answers it with all assertions on (C36).
11. The assertion `k < cnt` of the loop selects does not detect a rank beyond the block (C36).
12. `create_random_bits` reads past arrays of fewer than four words when no bit is set, and miscounts
    on arrays that already hold ones (C33).
13. `hft::fenwick::TypeL::find` takes nodes of the next level for missing ones: wrong results at most
    sizes (C42).
14. `bitwrite_inc` (`hft/common.hpp` line 294) shifts by 64 whenever a field starts at a byte boundary:
    undefined in every construction of a `BitL` (C43). It is harmless where the processor masks the count.
15. `BitL` accepts bounds up to 64 bits, but its fields may spread over nine bytes from 58 bits on, and
    `bitwrite_inc` then turns a borrow into a carry: an add of -1 changes other sums (C43); C121 says exactly when.
16. `find` beyond the total returns `size()`; the interface documents zero (C44).
17. `src/perf_hft.cpp` line 41 compares with "sarch", so the search benchmark searches for positions
    1..n instead of sums; its update benchmark leaves the bound, and the compressed classes print wrong
    totals (C45).
18. `Hybrid::find` of the total or more is undefined with an F class at the bottom and a size divisible
    by 2^CUT (C46).
19. `operator>>` of `Hybrid` does not convert the number of trees back and does not restore the size (C114; for `operator<<` see 57).
20. `src/perf_prefix_sum.cpp` line 85 passes the deltas +1 and -1 as the parameter `bool sign`: both
    become true, every update decrements, and the 4000 rounds take counters below zero (C48). Line 54
    has the "sarch" of finding 17.
21. Read only: `UINT64_MAX * density` with density 1 is 2^64 as a double, whose conversion to
    `uint64_t` is undefined (`src/perf_mutable_bitmap.cpp` line 37).
22. `poppy::BitmapPoppy` writes outside its arrays below 2048 bits (the benchmark starts at 2^8), may
    overrun the array of select hints at sizes that are no multiple of 2048, and `rank(size)` reads one
    entry too far, so the wrapper's `rank(size-1)` does (C49).
23. `poppy::select` passes a 1-based rank to a 0-based in-word select of the opposite bit order: the
    result is never the right position, and is undefined at the end of a full word (C50).
24. `src/perf_rank64.cpp` line 57 builds the mask `(k != 0) * (1 << k) - 1`: rank(0) counts the whole word
    and rank(k) excludes bit k, unlike `block64_type::rank` and `rank_u256` (C55).
25. `src/perf_popcnt256.cpp` and `perf_popcnt512.cpp`, vector modes: the result of each call overwrites the
    previous one instead of being added, so the printed number is lane 0 of the last query and is not
    comparable with the other modes; with `runs * queries = 0` it would be uninitialised (C56).
26. `src/perf_search256.cpp` and `perf_search512.cpp` draw `% r` without the test for `r = 0` that
    `perf_select256.cpp` has: division by zero when a drawn bucket has no ones (C57). With the density 0.3
    fixed in the source this is improbable; it depends on the generator.
27. `search_256`/`search_512` compare as signed integers in the avx512 mode (wrong from 2^63 on), and the
    assertion of the loop mode accepts some k past the total (C52).
28. `mranisz` `RankBasic64` (standard headers) and `RankCF64`: `rank(size)` of a text of whole blocks reads
    two header words that were allocated but never written; the library's own `testRank` calls it (C58, C60).
29. `RankBasic64` with compressed headers reads `emptyBlock` out of bounds while building, unless the number
    of blocks is 63 modulo 64; the answers do not depend on what it reads (C59).
30. `RankCF64::build` looks for the last kept block without a bound: undefined if all blocks are uniform (C60).
31. `SelectBasic64::select` takes an incomplete last group that spans exactly `L` positions for a run of ones:
    with one set bit at position 127 and `L` = 128, select(1) is 0 (C62).
32. `SelectBasic64::build` counts the payload of the first group from its last one instead of from 0: with fewer
    than `L` ones, the last at position `THRESHOLD`, it writes 8 bytes per one into memory for `THRESHOLD` bits
    (90 ones, the last at 4096, `L` = 128) (C64).
33. `SelectBasic64::build` of a text without ones reads a word it never wrote (standard headers), or writes
    textLen-1 bytes into at most 128 (compressed headers) (C64).
34. `SelectBasic64::save` writes the counted payload, which can be one byte shorter than the payload in use
    (finding 32): two ones at 0 and 8 and `L` = 128 give a file after whose loading select(2) may be 9; a single one at 0
    a structure whose select(1) reads through a null pointer (C67).
35. `load` of the mranisz classes does not validate the length fields: `new unsigned long long[len + 16]` wraps for
    `len` from 2^64-16 on and the file is read past the array (17 bytes suffice); a file of zeros is accepted and every
    query after it reads through a null pointer (C68).
36. `perf_immutable_bitmap -t poppy -o rank`: the 10000 queries of the program contain n-1 for the sizes 2^11 to 2^15,
    for which poppy reads past its directory (C49); the sizes 2^8 to 2^10 cannot be built at all (C72).
37. `perf_immutable_bitmap -o select` with poppy adds up positions after the ones asked for, and shifts by 64 in dense
    bitmaps (2^11 bits, density 1-2^-53) (C72).
38. `perf_compressed_bitmap`: queries of select are 0-based, the structures 1-based, so query 0 adds 2^64-1 and the
    last one is never asked for; rank excludes the queried bit while the library's includes it; RankCF64 overflows its
    array for 512 bits at density 1-2^-53 (C70). Its help text says sizes start at 2^8, they start at 2^9.
39. The structures compared number bits differently (C71), so the totals printed by the benchmarks for one input
    cannot be compared.
40. `RankMPE64::build` of the empty text reads and writes `ranksTemp[rankCounter-2]` with `rankCounter` 1, and every
    other build reads `blockToCompress` past its end unless the number of blocks is 15 modulo 16; the values read do
    not change any answer (C73, C74).
41. `RankMPE64::rank` casts `bits + offset` to `unsigned long long *` though offsets are even numbers only: 13 dropped
    pairs in the first block make all reads of the second one misaligned (C74).
42. `SelectMPE64::build` never writes `blockToCompress` of the last block when the number of ones is a multiple of
    `L`; if the byte from `new[]` is not 0 the block is decoded as compressed and select is wrong (C78): with 256 bits
    01010101... and the benchmark's arguments select(64) is 87 instead of 127.
43. Every `SelectMPE64::build` reads `blockToCompress` past its end; a text without ones is undefined altogether (C79).
44. The constructor of `SelectMPE64` allows 16383/15 = 1092 bytes per block for MPE2 and MPE3, but the fields of the
    first four blocks have 12 bits: at most 1023 fit. `SelectMPE64<SELECT_MPE2, 129, 130>` answers wrongly (C80).
45. Files of `SelectMPE64` lose the last byte of a text with fewer than `L` ones just as those of `SelectBasic64` (C82, C67).
46. The select structures read 64-bit words at any byte offset, undefined in the language unless it is a multiple of 8; the
    exact condition is C84's, and the benchmark's arguments meet it.
47. `poppy::select` uses `l2Entries_[l2Id]` without adding the piece's `offset`: from 2^33 bits on, ones after the first 2^32
    bits are looked up in the wrong part of the directory (C86). Between 2^32 and 2^33 bits it may read a directory entry
    that was never written (C87). A piece with 2^32-8191 ones or more cannot be indexed (C85).
48. `RankBasic32` and `RankCF32`: for texts of 2^32-63 bytes and more `extendedTextLen` wraps to 0, the structure is that of the
    empty text, and queries read out of bounds (C88-C90).
49. `RankBasic32` with compressed headers reads `emptyBlock` past its end unless the number of blocks is 31 modulo 32 (C89).
50. `RankCF32::rank` reads 64-bit words through a pointer to `unsigned int`: misaligned for every second place, beginning with
    the first block (C90). As `RankCF64`, it cannot build a text of uniform blocks only.
51. `RankCF32::getSize` returns an `unsigned int` and wraps for texts near four gigabytes (C91).
52. `testRank` of the 32-bit rank structures asks for `rank(0)` in place of `rank(2^32)`: it reports errors of a correct
    structure for almost every text of half a gigabyte and more (C94). `load` wraps `len + 32` as finding 35's `len + 16` (C93).
53. `RankMPE32::build`: `blockToCompress` has one entry per block, but the last superblock reads at least one past its end, for every
    text (`RankMPE64` has one entry more and is right for 15 blocks modulo 16). For texts of 2^32-255 bytes and more
    `bitsLen + 128` or `extendedTextLen` can wrap, and the build then writes or reads far outside its arrays (C96).
54. `SelectBasic32` has findings 31-33 too, with 4 bytes per position (`L` = 12, `THRESHOLD` = 20, bytes 248 0 8). In addition
    `bitsLen + 128` is an unsigned int and wraps for `L` = 2, `THRESHOLD` = 3 and 2^29-1 bytes 0x99: the build writes past
    its array (C101). Files lose the last byte as finding 34, and `load` wraps as finding 52 (C103, C104).
55. `SelectMPE32` has findings 42, 43 and 54: the unwritten flag of the last block (C106), reads past the end of
    `blockToCompress` for every text and the wrap of `bitsLen + 128` (C107). Finding 44 is absent for MPE2 (two blocks share
    the 12-bit fields); for MPE3 the constructor does not count the tables, so the offsets of THRESHOLD 7762 to 8737 may not
    fit their fields (C108; no wrong answer is exhibited). Files lose the last byte as finding 45 (C110).
56. `operator>>` of `TypeF` and `TypeL` assigns to const members (`typef.hpp` line 211, `typel.hpp` lines 252 and 256): any
    use of it does not compile. The model leaves these two out of C111 and C113.
57. `Hybrid::operator<<` bounds its loop by the byte-swapped number of trees (`hybrid.hpp` line 97) and always runs past the
    vector; `operator>>` does not swap the number back, ignores the size it reads and appends to the trees there are (C114).
58. `operator>>` of the trees never checks the stream: a file cut in its data gives a tree with zeros, one cut in its header
    uses variables that were not read (C113).
59. `bitCount` subtracts `sizeof(Tree)` in bytes from a sum in bits, and `Hybrid::bitCount` adds the size of a `Hybrid` in bytes,
    of the type with TOP and BOTTOM exchanged (C115).
60. `selectLinear` compares its counter with `length - 1` instead of `length - 1 - x` (`popcount.h` lines 219 and 224): from a
    word other than the first it reads past the array when there are not enough ones; and it has the fault of finding 23,
    the 0-based `select64` called with a 1-based number (C116).
61. `SelectBasic32` and `SelectMPE32` have finding 46 too, with 4 bytes for positions and 8 for bits (C117).
62. `TypeF` stores 16-bit nodes at odd addresses, and 64-bit nodes at even ones, through cast pointers: undefined from four
    elements on for counts of 64-bit words (`typef.hpp` lines 26-39 and 194-198; C118).
63. `bitextract` (`hft/common.hpp` line 232) shifts the second word back by `64 - from` where `bitread` has `64 - length`: fields
    across two words come out wrong unless `from` equals `length` (C119). No caller in the repository.
64. `compact_bitmask(0, pos)` shifts by 64 although the expression means to handle it; `bitwrite` does not mask its value (C119).
65. `DArray` computes `size * sizeof(T)` modulo 2^64: for 2^61 elements of 8 bytes (a damaged stream is enough) it maps nothing, keeps
    the length, and `operator>>` writes through a null pointer; without assertions a failing `mmap` goes unnoticed too
    (`darray.hpp` lines 43-62, 102-108 and 122-134; C122).
66. The ten classes of `include/mranisz/shared` have a destructor that deletes but neither copy constructor nor assignment: a copy
    passed by value deletes the arrays of the original, an assignment loses those of its target (C124). `BitmapPoppy` is the same
    (`poppy/bitmap.h` lines 146-150), and tests `posix_memalign(...) < 0` (lines 77-84), which is never true (C126).
    The repository copies none of these objects.
67. `BitmapPoppy` has `loc_` and `locCount_` of 2^16 entries, one for every 2^32 bits, and checks no size: from 2^48 + 2^32 bits on the
    constructor writes past them (`poppy/bitmap.h` lines 69, 115, 122, 246-247; C126_large).
68. `RankBasic64::rank` writes the member `pointer` and reads it again for every word (`rank.hpp` lines 665-717): two threads that only
    query one object in different blocks can get wrong answers (C127_refuted). The benchmarks use one thread.
69. `RankCF64::rank` also reads the ranks through `pointer` and increments it (`rank.hpp` lines 1640-1646): two threads that ask for the
    same bit can get a word of the text as rank, and many can read outside the array (C128_same_refuted, C128_bounds_refuted).

## Simplifications and assumptions

* `std::ceil(double)` divisions are exact ceiling divisions (operands below 2^53, power-of-two
  divisors).
* The release outcome `Ub UB_bounds` of C26 is an access outside the index buffer; what a real machine
  returns there is not modelled.
* System: the input array of `build` does not alias `bits()` of the same object; a moved-from
  `std::vector` is empty (true of the usual implementations, not guaranteed by the standard); buffer
  addresses are any the limits allow; reading a freed buffer is `Ub UB_freed`. Allocation never fails.
* Threads: interleaving (sequentially consistent) semantics. A bitmap is one location, read or written
  in one step; static arrays are separate words, one set per template instantiation, and vector stores
  to them go word by word. Freedom from races is therefore sound for finer granularity; the converse
  (a race exists) is exact for query-only threads, and for flips it is a race on the bitmap as a whole:
  flip and access of different words of one bitmap count as racing although the language would allow it.
* `include/hft`: only the requested bytes of a `DArray` are memory (the mapping has more; lengths whose byte count wraps have none: C122); alignment of the
  casts in TypeF is checked in C118 only; `HFT_DISABLE_TRANSHUGE` occurs in C125 only; huge pages (`HFT_FORCE_HUGETLBPAGE`) occur in C122 and C123 only.
  Streams: writing never fails; a read that fails leaves the variable as it was (uninitialised locals: `Ub UB_uninit`,
  elements of a new array: zero) and delivers the bytes there are.
* `include/mranisz`: `SelectMPE64`'s query buffer is any 8 bytes at each query number; alignment of 64-bit reads is checked in
  C74, C84 and C117 only, elsewhere they are allowed at any address (as on the machines the code is for).
* Files: writing never fails; allocations of any size succeed (in reality a length from 2^60 to 2^64-17 throws).
* Vector popcounts of both widths are one function applied lane by lane.

## Not modelled

The bitmaps of 2^48 bits and more of `include/poppy`
(the constructor is modelled for every size, the theorems on answers stop there; C126_large on memory),
the types of `perf_immutable_bitmap.cpp` other than poppy (their sources are not in the repository), `test/` (except the call patterns in Drivers), JSON and timing output, `name()`,
prefetch hints, allocation failure (except `mmap` in C122 and `posix_memalign` in C126).

## Testing the theorems

`seeded/LOG.jsonl` records edits of the model that imitate bugs, made in a scratch copy, the claim each
breaks and what failed. Two kinds of evidence: the rebuild of all proofs (which proof fails first, and
which property files can no longer be built), and probes that evaluate the English claims on concrete
inputs in the edited model, to tell a false claim from a proof script that merely broke.

## Trusted base

Coq's kernel; the model's faithfulness to the sources (comments cite lines); the semantics given to the
intrinsics. No axioms are declared and no kernel check is switched off. `coqchk` lists seven axioms of
`Coq.ssr.ssrunder` because that module is loaded by the standard library; no theorem depends on them.

### `Print Assumptions`

Every theorem below prints `Closed under the global context`.


* `Properties1.v`: C01_rank_after_any_history, C02_select_after_any_history, C03_access_after_any_history, C04_flip_frame, C05_build_contents, C06_rank_of_select, C06_select_of_rank, C07_flip_twice, C08_no_undefined_behaviour, C09_no_assertion_failure, C10_configurations_agree, C11_types_agree, C19_statics_do_not_leak, C29_rank_counts, C30_select_enumerates, C34_equal_contents_indistinguishable, C35_flips_commute
* `Properties10.v`: C46_answers, C46_same, C46_find_total, C46_find_refuted
* `Properties11.v`: C47_sizes, C47_rank, C47_select, C47_flip, C47_flip_even, C47_build, C48_sum, C48_search, C48_build, C48_update, C48_update_refuted, C48_update_leaves_range, C48_update_wraps_refuted
* `Properties12.v`: C49_build, C49_build_multiple, C49_build_refuted, C49_build_small, C49_rank, C49_wrapper_rank, C49_rank_boundaries, C49_rank_refuted, C49_counts, C50_select, C50_select_never, C50_select_zero, C50_select_other, C51_suxpopcount, C51_naive, C51_popcount_search, C51_pdep, C51_broadword
* `Properties13.v`: C52_search, C52_search_past, C52_search_asserts_refuted, C52_search_modes_refuted, C53_prefix_sum, C53_prefix_sum_past, C54_popcount, C54_popcount_vector, C54_popcount_for_select, C55_rank64, C55_rank64_block, C55_rank64_refuted, C56_totals, C56_vector_last, C56_modes_agree, C56_vector_refuted, C57_queries_end, C57_queries_unique, C57_queries_in_range, C57_search_division, C57_search_refuted
* `Properties14.v`: C58_basic_rank, C58_basic_rank_at_size, C58_basic_rank_at_size_refuted, C59_bch_rank, C59_bch_strict, C59_bch_build_refuted, C60_cf_rank, C60_cf_uniform, C60_cf_rank_at_size, C60_cf_build_refuted, C61_basic_sizes, C61_bch_sizes, C61_cf_sizes
* `Properties15.v`: C62_std_select, C62_std_select_exact, C62_answer_right, C62_answer_wrong, C62_std_select_refuted, C63_bch_select, C63_bch_select_exact, C64_std_overflow, C64_bch_overflow, C64_bch_no_ones, C64_std_no_ones, C64_build_refuted, C64_no_ones_refuted, C65_arguments, C65_std_sizes, C65_bch_sizes
* `Properties16.v`: C66_basic_file, C66_bch_file, C66_cf_file, C67_std_file, C67_bch_file, C67_std_lost, C67_bch_lost, C67_std_file_refuted, C67_std_file_null_refuted, C68_basic_any, C68_cf_any, C68_sel_any, C68_basic_wraps, C68_cf_wraps, C68_sel_wraps, C68_load_refuted, C68_query_refuted, C69_rank_test, C69_select_test, C69_basic_self_test, C69_bch_self_test, C69_cf_self_test, C69_std_select_self_test, C69_bch_select_self_test, C69_basic_self_test_refuted
* `Properties17.v`: C70_basic, C70_bch, C70_cf, C70_cf_overflow, C70_cf_refuted, C70_select, C70_select_bch, C70_select_overflow, C70_select_bch_overflow, C70_select_refuted, C71_mranisz_order, C71_bytes, C71_poppy_order, C71_rank_ends, C71_rank_close, C71_count, C71_select_group, C71_same_answers_refuted, C72_rank, C72_rank_refuted, C72_select, C72_select_undefined, C72_select_refuted, C72_small, C72_other
* `Properties18.v`: C73_mpe_rank, C74_mpe_empty, C74_mpe_build, C74_mpe_align, C74_mpe_empty_refuted, C74_mpe_build_refuted, C74_mpe_align_refuted, C75_mpe_sizes, C75_mpe_stored
* `Properties19.v`: C76_mpe_file, C76_mpe_any, C76_mpe_self_test, C77_mpe_printed
* `Properties2.v`: C12_rank_256, C12_rank_512, C12_rank_64, C13_select_word, C14_select_256, C14_select_512, C14_select_64, C15_popcounts_agree, C16_node_prefix_sums, C16_search_past_total, C16_update_past_end, C17_tree_prefix_sums, C18_height_exact, C18_height_outside, C18_levels, C18_smaller_height, C18_larger_height, C28_unused_entries_invisible, C31_space, C31_space_bound
* `Properties20.v`: C78_smpe_select, C78_smpe_right, C78_last_flag_refuted, C79_smpe_undefined, C80_fitting_accepted, C80_mpe1_exact, C80_accepted_exact, C80_mpe2_fields_refuted, C81_smpe_sizes
* `Properties21.v`: C82_smpe_file, C82_lost_refuted, C82_smpe_self_test, C83_smpe_printed, C83_smpe_overflow
* `Properties22.v`: C84_std, C84_bch, C84_smpe, C84_aligned_refuted
* `Properties23.v`: C85_build, C85_build_refuted, C85_rank, C85_wrapper_rank, C85_counts, C86_first, C86_first_other, C86_later, C86_select_refuted, C87_below, C87_below_other, C87_last_read, C87_last_lost, C87_select_refuted
* `Properties24.v`: C88_basic_rank32, C88_basic_rank32_at_size, C88_basic_rank32_at_size_refuted, C88_basic_rank32_long, C88_basic_rank32_long_refuted, C89_bch_rank32, C89_bch_strict32, C89_bch_build32_refuted, C89_bch_rank32_long, C90_cf_rank32, C90_cf_aligned32, C90_cf_aligned32_refuted, C90_cf_uniform32, C90_cf_build32_refuted, C90_cf_rank32_at_size, C90_cf_rank32_long, C91_basic_sizes32, C91_bch_sizes32, C91_cf_sizes32, C91_cf_size32_refuted
* `Properties25.v`: C92_basic_file32, C92_bch_file32, C92_cf_file32, C93_basic_any32, C93_cf_any32, C93_basic_wraps32, C93_basic_bits_wrap32, C93_cf_wraps32, C93_load32_refuted, C93_query32_refuted, C94_rank_test32, C94_basic_self_test32, C94_bch_self_test32, C94_cf_self_test32, C94_basic_long_test32, C94_bch_long_test32, C94_cf_long_test32, C94_basic_self_test32_refuted, C94_long_test32_refuted
* `Properties26.v`: C95_mpe_rank32, C95_mpe_fits32, C96_mpe_build32, C96_mpe_build32_refuted, C96_mpe_build_iff32, C96_mpe_long32_refuted, C96_mpe_align32, C96_mpe_align32_refuted, C97_mpe_sizes32, C98_mpe_file32, C98_mpe_any32, C98_mpe_wraps32, C98_mpe_bits_wrap32, C98_mpe_load32_refuted, C98_mpe_query32_refuted, C98_mpe_self_test32, C98_mpe_long_test32
* `Properties27.v`: C99_std_select32, C99_std_select32_exact, C99_std_select32_refuted, C100_bch_select32, C100_bch_select32_exact, C101_std_overflow32, C101_bch_overflow32, C101_bch_no_ones32, C101_std_no_ones32, C101_build32_refuted, C101_no_ones32_refuted, C101_payload32_refuted, C102_arguments32, C102_std_sizes32, C102_bch_sizes32
* `Properties28.v`: C103_std_file32, C103_bch_file32, C103_std_lost32, C103_bch_lost32, C103_file32_refuted, C104_sel_any32, C104_sel_wraps32, C104_sel_bits_wrap32, C104_load32_refuted, C104_query32_refuted, C105_select_test32, C105_std_self_test32, C105_bch_self_test32
* `Properties29.v`: C106_smpe_select32, C106_smpe_right32, C106_last_flag32_refuted, C107_smpe_undefined32, C108_fitting_accepted32, C108_mpe12_exact32, C108_accepted_exact32, C108_mpe3_fits32, C109_smpe_sizes32
* `Properties3.v`: C25_sparse_blocks_build, C25_dense_block_asserts, C25_never_otherwise, C25_every_input_builds_refuted, C26_select_exact, C26_unsafe_select_fails, C26_safe_cases, C26_full_bitmap_refuted, C27_misaligned_flip_faults, C27_aligned_or_no_load, C27_malloc_address_refuted, C32_unsupported_rank, C32_unsupported_select, C32_never_wrong_refuted
* `Properties30.v`: C110_smpe_file32, C110_lost32_refuted, C110_query32_refuted, C110_smpe_self_test32
* `Properties31.v`: C111_answers, C111_same, C112_format, C112_size, C113_cut, C113_silent_refuted, C114_write, C114_read, C114_keeps, C115_trees, C115_hybrids, C115_exact_refuted
* `Properties32.v`: C116_other, C116_shipped, C116_never, C116_missing, C116_missing_refuted, C116_zero, C116_beyond
* `Properties33.v`: C117_std, C117_bch, C117_smpe, C117_aligned_refuted
* `Properties34.v`: C118_misaligned, C118_aligned, C118_same, C118_defined_refuted
* `Properties35.v`: C119_read, C119_extract, C119_extract_bits, C119_extract_refuted, C119_write, C119_write_bits, C119_write_confined_refuted, C119_mask, C119_mask_empty, C120_round, C120_round_none, C120_multiple, C120_root, C120_select, C120_select_past, C120_select_haswell, C120_select_haswell_past, C120_select_haswell_shift
* `Properties36.v`: C121_increment, C121_exact, C121_borrow
* `Properties37.v`: C122_pages, C122_reach, C122_null, C122_pages_refuted, C122_failed, C123_values, C123_never_freed, C123_owners
* `Properties38.v`: C124_safe, C124_owners, C124_copy, C124_assign, C124_copy_refuted, C124_leak_refuted
* `Properties39.v`: C125_nodes, C125_cost, C125_same
* `Properties4.v`: C23_value_semantics, C23_others_untouched, C23_shared_indexes, C22_move_construct, C22_move_assign, C22_source_reusable, C21_copy_answers, C21_flip_leaks, C21_source_destroyed, C21_independence_refuted, C24_rebuild_answers, C24_rebuilt_bits, C24_zero_padding_iff, C24_zero_padding_refuted, C37_nothing_leaks
* `Properties40.v`: C126_safe, C126_failed, C126_large, C126_copy
* `Properties41.v`: C127_alone, C127_same, C127_bounds, C127_refuted, C127_near
* `Properties42.v`: C128_alone, C128_right, C128_same_refuted, C128_bounds_refuted
* `Properties5.v`: C36_out_of_range_asserts, C36_out_of_range_stuck, C36_select_past_stuck, C36_select_past_refuted, C36_empty_build_asserts, C36_large_build_asserts, C36_index_build_asserts, C36_index_range_asserts, C36_node_range_asserts, C36_block_rank_range, C36_block_select_refuted, C38_release_agrees, C38_release_never_asserts, C38_processes_agree, C38_processes_never_assert
* `Properties6.v`: C20_threads_answer, C20_readers_answer, C20_race_exact, C20_rank_race, C20_mixed_rank, C20_readers_refuted
* `Properties7.v`: C33_contents, C33_zero_array, C33_count_exact, C33_count_refuted, C33_short_array, C33_short_array_refuted, C39_full_period, C39_calls, C39_threshold_monotone
* `Properties8.v`: C40_answers, C41_modulo, C42_typel_search, C42_search_refuted, C43_bitl_undefined, C43_typel_unallocated, C43_bitf_undefined, C43_bitl_refuted, C44_add_zero, C44_empty_search, C44_find_beyond, C44_documented_zero_refuted
* `Properties9.v`: C45_sum, C45_search, C45_build, C45_update, C45_update_leaves_bound, C45_update_refuted
