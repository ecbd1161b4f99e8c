# Design: a Rocq model of deatil/go-hash

## Method

Every Go function that matters for a property is transcribed into a total, computable Gallina
function (state in, state out).  `uintN` arithmetic is `N` with an explicit wrap (`w8`, `w32`, `w64`),
fixed-size arrays and slices are `list N`, `d0 := *d` (struct copy) is sharing of an immutable value
unless a slice/pointer field makes the copy alias the receiver -- then the model returns the mutated
receiver.  Panics are `None`/`Panic` results where a property is about them.  Loops are structural
recursion, folds, or recursion on explicit fuel with fuel proved sufficient.

The Go `hash.Hash` contract is stated once in `HashAPI.v`: a client issues an arbitrary list of
`Write p | Sum in | Reset` and observes counts and returned slices; `ideal_run H hist ops` says what a
correct implementation of the pure function `H` shows.  "hash.Hash contract" properties are
`forall ops, run impl new ops = ideal_run H [] ops`.  `H` is a separate specification (`md_pad`,
`chunks`, `fold_left`), not the code.

The two buffering idioms used by nearly all packages are modelled and proved once (`Buf.v`,
`MD.v`) and instantiated per package with that package's constants, block function, counter
bookkeeping and end-of-message processing.

Where the code violates the property, the theorem is `..._refuted : exists ...` over the faithful
model, plus -- where possible -- the strongest true variant.

## Per-property plan

| id | model | proof |
|----|-------|-------|
| C01-C03 | Md2.v: Write/Sum/checkSum/block/Reset, Marshal/Unmarshal | refinement to RFC 1319; round trip by list algebra |
| C04-C05, C59 | Sm3.v | refinement to GB/T 32905; round trip; finite table check |
| C06 | Sha0.v (+ generated Sha0Block.v) | refinement |
| C07 | Ripemd.v | refinement for all four variants |
| C08 | Tiger.v | refinement, both paddings |
| C09 | Has160.v | refinement |
| C10 | Buf.v `md_pad` | injectivity of padding |
| C11-C12 | Crc16.v | induction over bytes with a 256-entry table sweep; C12 refuted |
| C13-C15 | Rabin.v | GF(2) polynomial algebra on N; chunker state machine over reader schedules; C15 refuted |
| C16-C17 | Cmac.v, cipher = Section variable quantified in the theorem | refinement to RFC 4493 |
| C18 | Pmac.v with the aliasing of the struct copy | refuted; every history (panics included) by an object whose checksum is off by a tracked block |
| C19-C21 | Gmac.v | C19, C20 refuted; C21 by linearity |
| C22-C23 | Siphash.v | refinement for histories without Reset; Reset refuted |
| C24-C25 | Chaskey.v | refuted |
| C26-C27 | Murmur3.v, Xxhash.v | refinement |
| C28-C30 | Ascon.v | refinement, split-read lemma, Open/Seal inverse |
| C31-C32 | SpecBlake3.v (tree from the top), Blake3.v (whole package, uint8 index arithmetic, panics as None) | stack invariant: pieces with increasing exponents, the top two possibly equal (Blake3N, Blake3T); every history up to 2^17 bytes is BLAKE3; never a wrong digest; C32 refuted, with the exact set of lengths for which Sum panics |
| C33, C80 | K12.v against SpecK12.v (FIPS 202 rounds from theta/rho/pi/chi/iota and the LFSR constants, sponge, K12 tree); KeccakP: unrolled in-place rounds = FIPS rounds, symbolically | C33 refuted, sound within the first chunk; C80 every history without Reset |
| C34-C36 | Blake256.v, Blake512.v against SpecBlake.v (own transcription of the BLAKE submission) | refinement incl. counters; Reset/salt and variant confusion refuted; round trip |
| C37, C79 | Bash.v against SpecBash.v (bash-f with generated rotations and constants) | C37 refuted; sponge for boundary-respecting histories; C79 refuted for negative sizes |
| C38-C39 | Belt.v | refinement; inverse |
| C40-C42 | Threefish.v, Skein.v | inverse by round inversion; refinement; C42 refuted |
| C43-C44 | Kupyna.v | refinement; KMAC refuted |
| C45-C46 | GostTree.v | cache invariants; C45 refuted + true variant |
| C47-C49 | Makwa.v | codec round trip; C48/C49 refuted + true variants |
| C50, C82, C83, C84 | Md6.v (pairs of uint32, in-place array, padding loops, the key slice with its capacity) against SpecMd6.v (the report: 64-bit words, tree and sequential modes); Md6P: pair arithmetic = 64-bit arithmetic, array = recurrence | C50, C82, C83 refuted with the exact behaviour proved; C84 proved |
| C51, C81 | Jh.v (slices with their capacity: None = panic), Jh2.v against SpecJh.v (4-bit elements, S-boxes, L over GF(16), P_8, constants from sqrt 2); JhP*: bitsliced rounds = unsliced rounds for both bit orders | C51 refuted, exact behaviour proved; C81 every history |
| C53 | Shavite.v (both classes, T-table AES, counters) against SpecShavite.v over SpecAes.v (FIPS-197 S-box from inversion, ShiftRows, MixColumns); ShaviteP: T-tables = AES round | refuted; exact behaviour of every history proved |
| C52 | Esch.v against SpecEsch.v (Sparkle, Alzette, Esch256/384) | refuted; exact behaviour for every history; one-shot Sum = Esch for all messages |
| C54 | HashComp.v over arbitrary digest objects I1, I2 | refuted; exact behaviour for every history; right with one Sum per Reset |
| C55-C56 | HashWrap.v | finite-map refinement; arithmetic |
| C57-C58, C73-C74 | Sm3Rand.v; clock readings and entropy bytes are arguments | exact function for all inputs; refutations |
| C60 | HashWrap.v: goroutines as lists of lock/access/unlock steps, arbitrary interleavings | invariant over the transition system |
| C61 | HashWrap.v: error field along call chains | induction on chains; refuted where an error is overwritten |
| C62 | Chunker.v | refuted + exact condition |
| C63 | Murmur.v | induction on histories |
| C64-C65 | Pmac.v | refinement; panic bound |
| C66-C68 | Ascon2.v | refinement; refutations |
| C69 | Threefish.v | carry analysis |
| C75-C78 | Makwa.v, MakwaR.v, Fermat.v: big.Int as N, hash function quantified, nil salt (random) not modelled | square roots mod p via Fermat/Euler, CRT; refutations |
| C70-C72 | Gost3411.v, Gost3411P.v, StreebogP.v (tables generated in StreebogTab.v) | refinement to GOST R 34.11-2012; lossy carry of `addm` refuted |
| C85-C87 | SpecLsh.v (KS X 3262 with generated constants and IVs), Lsh.v (one model of the two packages' digest.go, parameterised by word size and tables), LshP.v (msg array = message expansion rows, two-steps-per-iteration loop = step recursion, output bytes) | C85, C86: every history of every size, unbounded length; C87 refuted (one-shot functions call New()), exact values proved |
| C88-C91 | SpecCube.v (CubeHash round as index-bit operations, padding, IV by i rounds), Cube.v (digest.go with loops and array updates), PropCube.v (each sub-step compared on 32 variables) | C88: every history; C89 refuted; C90: round trip and acceptance; C91 refuted with exact length |
| C92 | SpecPanama.v (state/buffer recurrences of the paper), Panama.v (unrolled assignments, circular buffer with bufferPtr), PropPanama.v (representation relation between circular buffer and shift register), Pad.v (last block of a padded message) | every history |
| C93 | SpecShabal.v (keyed permutation, rounds, counter, final rounds, prefix-block IV), Shabal.v (the 48 unrolled line pairs as an index table extracted from the source, Write/checkSum), PropShabal.v (index table = formula, Write = standard buffer idiom, counter invariant) | every history, every accepted size |
| C94 | SpecGost94.v (RFC 5831, least significant byte first), Gost94.v (step, chkAdd, Write, checkSum with big-endian arrays), PropGost94.v (the model is the specification under byte reversal) | every history under 2^61 bytes |
| C95, C96 | SpecVmac.v (draft-krovetz-vmac-01: KDF, NH, L1, L2, L3, PDF), Vmac.v (byte slices and big.Int as N, panics as None), PropVmac.v (NH as a sum, key slices, masks, L3 key search, pad block, call sequences with SetNonce) | every call sequence; sizes other than 8, 16 always panic |
| C97, C98, C99 | SpecSkeins.v (Skein as UBI over Threefish of SpecSkein, plus the eager variant), SkeinsTab.v (index tables of the unrolled ubi), Skeins.v, PropSkeins.v (key injection sums, rotations written as xor, streaming) | every history; whole-block messages and hs > 32 refuted |
| C100 | SpecBmw.v (f0, f1, f2, padding, final call from the BMW document, parametric in the word size), BmwTab.v (generated right-hand sides), Bmw.v, PropBmw.v (array filling front to back, loops, streaming) | every history, all four sizes |
| C101, C102 | SpecGroestl.v (columns of bytes, AES S-box and field), GroestlTab.v, Groestl.v (word-sliced code with T-tables), MDX.v (buffer longer than a block), PropGroestl.v | every history, all sizes; negative sizes refuted |
| C103, C104 | SpecEcho.v (big words of bytes, AES round of SpecAes.v), EchoTab.v, Echo.v, PropEcho.v (byte relation on 64-bit words, counters, streaming) | every history, all sizes, salted and unsalted; negative sizes refuted |
| C105 | SpecWhirl.v (rows of bytes, S-box from mini-boxes, circulant matrix), WhirlTab.v, Whirl.v, PropWhirl.v (tables, rounds, counter, streaming) | every history, all three variants |
| C106 | SpecHaraka.v (columns of bytes, AES round of SpecAes.v), HarakaTab.v, Haraka.v (portable path and a machine model of the assembly), PropHaraka.v | every input, both paths equal to the specification |
| C107 | SpecRadio.v (belt and mill, from the paper), Radio.v (unrolled mill generated from the Go text), PropRadio.v (rotating belt view, blank-round count, streaming) | every history, both word sizes |
| C108 | haval: whole package (Haval.v); spec SpecHaval.v (ANF functions, phi permutations, tailoring by bit fields, constants computed as digits of pi); unrolled groups of eight assignments = eight register-shifting steps by per-line simulation, boolean functions and mixing by bits, padding via byte-wise writes, then the history refinement |
| C109–C114 | Lyra.v, LyraSum.v: Lyra2 of both packages (outcome: value or panic), Sum of both; SpecLyra.v: Lyra2 with closed forms for the orders of rows | relation between the word array and a list of written blocks, growing with the rows (LyraP); revisiting and wandering orders by coprimality (LyraQ); input, squeeze (LyraR) |
| C115–C116 | Fsb.v: digest, write, checkSum, performHash, tables of first lines; SpecFsb.v: FSB on bits | bit-by-bit description of the arrays filled by the loops of Reset (FsbP), columns, index; buffer invariant on byte-aligned writes |
| C117–C120 | skein512 (hash, MAC, reader, stream): SpecSkn.v (optional inputs, output stream), SknTab.v (tables of block.go), Skn.v | block = one UBI step from the generated tables; lazy buffer invariant; reader position invariant; refutations by vm_compute |
| C121 | luffa: SpecLuffa.v (GF(2^8) ring message injection, bit-sliced S-box, LFSR constants), LuffaTab.v (generated straight-line code), Luffa.v | SubCrumb by bit-level case analysis, MI by computation on symbolic words, write_pre buffer invariant |
| C122 | fugue: SpecFugue.v (ROR/CMIX/SMIX/TIX on columns), FugueTab.v (generated tables and unrolled positions), Fugue.v | smix by bytes and linearity of GF(2^8) products; each unrolled position equals one round on the rotated state, by symbolic execution on 36 variables; partial-word invariant |
| C123 | hamsi: SpecHamsi.v (message expansion over F4, concatenation, permutations P and Pf, truncation), HamsiTab.v (generated tables and statements of a round), Hamsi.v | expansion by linearity, rounds by bits and symbolic execution, partial-word invariant; padding loop by fuel induction |
| C124-C126 | xxhash/xxh3 one-shot: SpecXxh3.v (whole-message XXH3 with sums over pieces and stripes), Xxh3.v (utils.go) | 64x64 multiplication and byte swaps by bits, one lemma per length class, block loop = fold over stripes |
| C127, C128 | xxhash/xxh3 digests: digest64.go, digest128.go, constructors; a panic is None | invariant: hashed prefix, buffer, last hashed stripe at the end of the buffer; induction over call sequences |
| C129, C130 | simd: SpecSimd.v (polynomial evaluation over GF(257), Feistel ladder, version-string IVs), SimdTab.v (generated tables), Simd.v (int32 FFT over an arithmetic record) | parametricity to linear forms mod 257 with bounds, one kernel computation for all rows; steps by symbolic execution; write_pre buffer invariant |
| C131-C136 | tool/deepcopy: DeepCopy.v models copyRecursive over a memory of cells (pointer, slice window, map); SpecDeep.v says what a value shows (`den`) and reaches (`reach`). One mutual induction over `den` gives the copy, its content and its isolation; C133-C136 are refutations (arrays share, rings do not end, NaN and nil-interface keys panic, unexported fields are lost). Fuel is existential for results and universal for non-termination. |
| C137-C140 | package hash: Fluent.v models the Hash value as (bytes, pointer, error) over a heap of objects of any constructor meeting the contract; the specification is a log of events per object. Refinement by an invariant heap/log; the library table is instantiated from C01, C04, C08, C09, C34, C85, C86; PropFluent2.v does the same for the methods whose contract has side conditions (C13, C23, C26, C27, C70, C94, C103, C105). WrapRace.v: small-step goroutines over the registry (C139, invariant) and Generate as two loads and a store (C140). |
| C141 | hash/hmac.go over crypto/hmac: Hmac.v models hmac.New/Write/Sum/Reset with the marshaled flag over any constructor; `sound` is a simulation that MarshalBinary/UnmarshalBinary restores. Refinement to RFC 2104, instantiated from the md2, sm3, blake256, blake512 simulations (with marshal) and the others (contract only), then plugged into the C137 programs. |
| C142, C143 | FluentMem.v: arrays, slices with offset/length/capacity, Go's append with an arbitrary growth policy, the values made so far. A value's window is unchanged by every event that does not write into it (induction over the program); C143 refuted for every buffer by the two aliasing programs. |

(kept up to date in MANIFEST.json, which names the exact theorems)

## Trusted base

* Coq 8.16.1 kernel (incl. `vm_compute`), the standard library.
* `Print Assumptions` of every property theorem in `Prop*.v` says "Closed under the global
  context".  (A checker that lists the axioms of every loaded *library* also shows a few constants of
  ssreflect's `ssrunder` opaque module; no theorem here depends on them.)  No axiom, Parameter or
  module-level Variable is declared; block ciphers (cmac, gmac, pmac) are section variables, i.e. they
  are universally quantified in the closed theorems.
* The reading of Go into Gallina (comments cite file and lines); nothing is extracted from or
  run against the Go code.  Test vectors of the repository are checked on the models with
  `vm_compute` as a guard against transcription errors.
* Generated files (Sha0Block, TigerTab, ThreefishTab, KupynaTab, StreebogTab and similar) are transcribed
  mechanically from the Go tables by the scripts in `tools/`; the independent specifications either
  recompute the tables from their definition (checked by `vm_compute`) or share them and say so.

### Modelling assumptions

* Not modelled: goroutines/parallel paths (except C60), assembly variants (sm3, gcm), `unsafe` fast paths,
  allocation, `cap()` of slices except where a property depends on it.
* RWMutex (C60): mutual exclusion of writer/writer and writer/reader; no fairness is assumed.
* io.Reader (chunker): an arbitrary stream delivered in arbitrary non-empty pieces; stream positions are
  unbounded naturals.
* Bounds kept as hypotheses: message length below 2^61 bytes where the code has a 64-bit *bit* counter
  (kupyna, streebog, ...), below 2^64 for byte counters (xxhash, skein).
* siphash round counts are naturals; gmac's Sum is modelled for a destination whose capacity does not
  alias the state; pmac's block counter is 64-bit.
* crypto/hmac is modelled from the Go standard library: as H((K xor opad) || H((K xor ipad) || m)) in GostTree.v, and with
  its marshaling path in Hmac.v (C141).
* UnmarshalBinary aliasing of its argument (gost) is not modelled.
