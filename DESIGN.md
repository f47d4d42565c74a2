# Formal model of derivepass/dumb-crypto in Rocq (Coq 8.16.1)

`properties.jsonl` states the properties (C01, C02, ...). `MANIFEST.json` names the
theorems of each. `seeded/LOG.jsonl` records the wrong programs the theorems were
tried on. The two JSON files are written by `tools/gen_properties.py` and
`tools/gen_manifest.py`.

## Layout (`rocq/theories/`)

| Files | Content |
|---|---|
| `Rust.v` | the fragment of Rust used: outcomes (`Ret`/`Panic`/`Diverge`), `usize` arithmetic with overflow checks or wrap-around on 32- and 64-bit targets, indexing, slicing, `copy_from_slice`, `chunks`, loops, allocation limits |
| `Model/*.v` | the code, function by function, one file per `/repo/src/*.rs`; every definition cites its lines; no proofs |
| `Calls.v` | drivers that only chain public calls: histories of `update`/`digest`, `init`/`write`/`flush`, ... |
| `Leak/*.v` | the text of `Model/*.v` again, over operations (`Leak/Ops.v`) that also record branches, addresses, slice bounds, loop counts and allocation sizes |
| `Unwind/*.v` | the parts of `Model/*.v` that can panic with memory of the caller in hand, again, writing to that memory in the order of the source |
| `Heap/*.v` | the text of `Model/Scrypt.v` again, over operations (`Heap/Ops.v`) that also record what is requested from the allocator and returned to it |
| `Source/*.v` | the text of the code: `Syntax` (trees), `Tree` (the functions and constants of `/repo/src`, written by `tools/gen_source.py`), `Interp` (what trees mean, over the operations of `Rust.v`; it imports no file of `Model/`), `Observe` (the same with a record of branches, indices, loop counts, sizes, calls and divisions), `Calls` and `Objects` (calling public functions and the methods of an object) |
| `Spec/*.v` | specifications: `Octets`, `Hex`, `Matrix`, `Sha256` (RFC 6234, on bits), `Hmac` (RFC 2104), `Pbkdf2` (RFC 2898), `Salsa20`, `Scrypt` (RFC 7914), `Aes` (FIPS 197), `Cbc` (SP 800-38A and RFC 5652), abstract machines for call histories (`Hasher`, `Mac`, `BlockCipher`, `Stream`), the padding-oracle game (`Oracle`), the chosen-beginning game (`Chosen`), ciphertexts built backwards (`Forge`), collisions (`Collision`, `Multi`), differences of AES states (`Diffusion`, `Differential`), sums of bits (`Linear`), families of strings (`Integral`), levels of the heap (`Heap`), scrypt with a smaller table (`Frugal`), pairs of HMAC keys (`Partner`, `Toggle`), what objects hold (`Residue`), ciphertexts under several keys (`Ambiguous`), PBKDF2 with the pads kept (`Cached`), counting (`Counting`), caught panics (`Survive`), what may be visible (`Leakage`, `Observed`). None imports `Rust`, `Model` or `Calls`. |
| `Proofs/*.v` | lemmas |
| `Tests.v` | the repository's 60 tests evaluated in the model (56 pass; 4 are too long to evaluate here: PBKDF2 with 80000 iterations, scrypt with N >= 1024) and 6 of the 8 examples in doc comments (the two of PBKDF2 and scrypt are too long), written by `tools/gen_tests.py` from the text of `/repo`. All of the long ones but one (scrypt with N = 2^20) come out right when the model is extracted and run (`tools/replay.py`, no part of the build) |
| `Props/*.v` | the property theorems `Cnn_...`, each followed by `Print Assumptions`, with `Example`s that meet the hypotheses |

## Trusted base

* Coq 8.16.1's kernel, including `vm_compute` (the kernel's bytecode machine), and
  the file compilation and loading of `coqc`. `coqchk` rechecks every file without
  the bytecode machine.
* `Print Assumptions` answers "Closed under the global context" for every theorem
  in `Props/`: no axiom, of ours or of the library, is used.
* Only Coq's standard library is imported (`NArith ZArith Arith List Bool Lia
  ZifyBool ZifyNat ZifyN Btauto Ascii String`). `coqchk -o` also lists the axioms of library
  files that are merely loaded: `Coq.ssr.ssrunder.Under_rel.Under_rel`,
  `Under_rel_from_rel`, `Under_relE`, `Over_rel`, `over_rel`, `over_rel_done`,
  `under_rel_done` (fields of a module type of the standard library, loaded with
  `Lia`). No theorem depends on them.
* The reading of `/repo` in `Model/*.v` and of Rust in `Rust.v`: the code is not
  compiled or run here. `Tests.v` replays the repository's own tests in the model.
* The specifications in `Spec/*.v`. Where possible these are cross-checked:
  SHA-256's constants are computed from square and cube roots, AES's S-box from
  field inversion and the affine map (and `C26_field_inverse`, `C27_mul_is_remainder`
  check the field), and `Example`s replay published vectors.
* For C57-C65, C71-C73, C76, C77 and C93, the placement of the recording operations in `Leak/*.v`. That the
  recorded programs compute what the model computes is proved
  (`Cnn_same_results`); that no visible step is missing from the text is not a
  theorem. `Leak/Ops.v` makes it hard to forget one: indexing, slicing, branching
  and loops are only available in recording form.
* For C100-C112, the parser `tools/gen_source.py`, the interpreter `Source/Interp.v` and `Rust.v`, instead of
  `Model/*.v`: these theorems are about the trees of `Source/Tree.v`. The parser infers no types and evaluates
  nothing; two element types that rustc infers from later lines are listed in it. In the interpreter shared
  references are values and calls copy the referents of mutable references in and out, which borrowing makes
  unobservable; a program that is not well-typed gets stuck (`Diverge`), and the theorems exclude that. A
  `Formatter` is the text written to it so far; `write!` to it succeeds. For C110 and C111, `Source/Observe.v`: which
  constructs of the syntax leave something in the record.
* For C89, the placement of requests and drops in `Heap/Scrypt.v`, and that `clone`,
  `to_vec`, `with_capacity` and `collect` from an iterator of known length request
  exactly what they hold. Whether the `collect` of line 293 reuses its buffer is a
  parameter of the theorems; the growth of the vector of line 296 is not recorded.

## Modelled

| File in `/repo/src` | Modelled | Not modelled |
|---|---|---|
| `common.rs` | `wrapping_sum!` (expanded at its uses), `hex_to_vec` | |
| `sha256.rs` | constants, `new`, `update`, `digest`, `process_block`, `fill_block`, `write_u64_be`, the small functions, `Default` | |
| `hmac.rs` | `new` (with its recursion), `update`, `digest` | |
| `pbkdf2.rs` | `pbkdf2_sha256` | |
| `salsa20.rs` | all functions | |
| `scrypt.rs` | `Scrypt::new`, `derive`, `ro_mix`, `block_mix`, `integerify`, `xor`, errors, their text and `derive(Debug, PartialEq)` | |
| `aes.rs` | tables, `mul`, key expansion, `init`, `encrypt`, `decrypt`, all steps, errors, their text and `derive`s | |
| `pkcs7.rs` | `Pad`, `Unpad`, errors, their text and `derive`s | |
| `aes_cbc.rs` | `Cipher`, `Decipher`, errors, their text and `derive`s | |

The `#[cfg(test)]` modules are in `Tests.v`.

Modelling decisions:

* Bytes, `u32`, `u64` and `usize` are `N`; an operation that can wrap or panic says
  so. Hypotheses `octets l` (all elements below 256) and lengths at most
  `isize_max T` are Rust's types `u8` and `&[u8]`, not restrictions.
* A panic is the outcome `Panic`, exhausted fuel is `Diverge`. Conformance theorems
  say `= Ret ...`, so they include absence of panics and termination.
* The target (`T`: pointer width 32 or 64, overflow checks on or off) is a
  parameter; theorems quantify over it.
* `&mut self` methods return the new state. Fixed-size arrays are lists whose
  length is proved to stay right.
* `for` loops over ranges and slices are folds; the loop in `hmac.rs` `new` (a
  recursive call) and `hex_to_vec` have fuel, and `Diverge` is excluded by theorem.
* `Vec::with_capacity` and `vec![]` panic above `isize::MAX` bytes where the size is
  the caller's; growth of vectors by `push`/`extend` and running out of memory (an
  abort) are not modelled.
* In `Model/` a history ends with its first panic. The memory a panic leaves to a
  caller who catches it (`&mut self`, `&mut [u8]`) is modelled in `Unwind/*.v` for the
  objects and functions that can panic on admissible input: `SHA256`, `HMac`,
  `pbkdf2_sha256`, `salsa20`, `derive`. Its outcomes are proved to be those of `Model/`
  (`C81_same_outcomes`, `C82_same_outcomes`).

Not modelled at all: the compiler, stack use, memory exhaustion, threads (no shared
state exists), `{:#?}` and other formatting options, `Error::source` (not overridden,
so `None`). For visibility (C57-C65, C110, C111): timing of individual instructions
(C110 and C111 record the operands of divisions, the others do not), caches, what the allocator does when a vector grows, and
what the compiler makes of the source.

## Plan and result per property

* C01-C05 (SHA-256). Spec on bits: append "1", least number of zeros, 64-bit length.
  Invariant "chaining value, pending tail and length describe the message so far",
  induction over bytes; every history of `update`/`digest` refines `Spec/Hasher`.
* C06-C09 (HMAC). Spec over the SHA-256 spec; same technique; termination of the
  recursion in `new`.
* C10-C15 (PBKDF2). Loop invariants over the output buffer; C14 is about wrapped
  block counters for all long buffers.
* C16-C19 (Salsa20). Spec on words; C18 by explicit inverses; C19 by commuting
  every round with flipping the top bits.
* C20-C25 (scrypt). Spec on octet strings with full Integerify; loop invariants for
  the table; C21 needs `n land (n-1) = 0 <-> n is a power of two`. C20's hypothesis
  `8 * (p*128*r + 68) < 2^bits` excludes only 32-bit builds near 512 MiB, where
  HMAC's bit counter overflows (C04 says how).
* C26-C32 (AES). Spec with GF(2^8) as polynomials modulo x^8+x^4+x^3+x+1, state as
  4x4 matrix; finite facts by computation lifted with `forallb_forall`, the rest by
  linearity; C32 by refinement of histories to `Spec/BlockCipher`.
* C33-C36, C47 (PKCS#7). Spec on whole strings; invariants over writes.
* C37-C46 (AES-CBC). Refinement of every history of calls to `Spec/Stream`; round
  trip, several messages, malleability as corollaries.
* C48 (errors). Text as strings.
* C49 (padding oracle). A strategy using only replies "accepted"/"rejected",
  defined in `Spec/Oracle` with no access to the key; proved to recover every
  block and every message, with its number of queries bounded.
* C50-C53 (hash structure). Explicit collision extraction from a colliding pair;
  length extension; Davies-Meyer permutation and fixed points by inverting rounds.
* C54 (Salsa20 fixed family). Induction on rounds.
* C55 (key schedule). Running the recurrence backwards.
* C56 (bounded memory). Invariant over histories.
* C57-C65 (visibility). "Same trace" as a relation closed under all operations
  (`Proofs/Leak.v`), or, where the trace does depend on secrets, exactly on what:
  both directions.
* C66 (portability). A simulation of every function from a checked narrow build to
  any build at least as wide.
* C67 (`hex_to_vec`). Induction over pairs of digits.
* C68, C69 (scrypt keys). Normalisation by HMAC's key rule; collision extraction
  through the last PBKDF2 call.
* C70 (repeated blocks). From injectivity of the block cipher.
* C71-C73 (work). A step count on the records of `Leak/*.v` and a program logic for
  it (`Proofs/Cost.v`).
* C74 (diagonal symmetry). Each round commutes with the move; induction on rounds.
* C75 (derived `==` and debug text). By cases.
* C76, C77 (work of AES and CBC). As C71 (`Proofs/CostAes.v`).
* C78 (neighbouring iteration counts). From the recurrence of RFC 2898 and C72.
* C79 (accepted input). An explicit duplicate-free list of the accepted blocks, moved
  through the bijections of AES and xor (`Proofs/Count.v`).
* C80 (joined ciphertexts). From the equation of CBC decryption at a cut.
* C81, C82 (caught panics). Erasure of the memory gives the model; a panicking hasher
  satisfies an invariant ("doomed") that no call leaves; blocks of PBKDF2 panic together
  (from the trace equality of C58).
* C83 (exact panic conditions). By cases over the checks, each side from conformance or
  from the abstract machines.
* C84 (chosen beginnings). The strategy and the service are played against each other;
  one guess is settled by injectivity of the block cipher, the rest is induction over
  the candidates and over the bytes of the secret.
* C85 (forgeries). C49 gives the decryption of single blocks; CBC decryption of blocks
  built backwards is what they were built for.
* C86 (ciphertexts of a message). C39 and its converse by encrypting the decryption.
* C87 (shared digests). Pigeonhole principle on all strings of a length, and induction over
  the chain of pairs; the existence of a finder by searching all pairs of blocks.
* C88 (diffusion). The column mixings have branch number 5 (case analysis on which of eight
  bytes are zero, 2x2 minors by computation); counting on patterns of differing bytes.
* C89 (memory of scrypt). Change and maximum of the level of the heap composed along
  the program; one rule for each loop.
* C90 (differences). All rows of the difference table of the S-box by computation; through
  a round the count is a product over the bytes, because what follows the substitution
  is a bijection that respects sums; four rounds by the count of C88.
* C91 (sums of bits). All correlations of the S-box by a fast transform on trees, proved
  right; through a round they multiply over the bytes. The masks before the mixing of
  columns come from those behind it by the transposed mixing, named through a pairing on
  the field; it has branch number 5 as well.
* C92 (families of states). Each byte of a family is of one of two kinds, all values or one
  value; the kinds go through the steps of a round by the pattern calculus of C88. Sums by
  linearity of the mixing step.
* C93 (records of CBC calls). A relation "the records agree exactly if R", closed under
  sequencing; the blocks through C62, the end of a decryption through C65. Two histories
  stay related as long as their records agree.
* C94 (scrypt with less memory). An algorithm that keeps every k-th entry, with counters, in
  `Spec/Frugal.v`; loop invariants; then C20 and C61.
* C95 (pairs of HMAC keys). The sum of the two pads exchanges them; from the text of `new`.
* C96 (toggled lanes). The flips of C19 pass through the sums of `block_mix` and `ro_mix` and vanish in the
  core; entry 0 of the table, which keeps them, is used under another `block_mix` only.
* C97 (memory of the objects). The buffer of a hasher refines an overlay of pending bytes on the last block; the
  messages fed to HMAC's two hashers and the key schedule give the rest.
* C98 (several keys). The ciphertext is built from its end; induction over the blocks; sums of two numbers up to 16
  for the padding.
* C99 (half the work). The padding behind whole blocks; induction over the iterations; the exact costs of C72.
* C100-C108 (the text itself). The trees are run symbolically against `Model/`, function by function
  (`Proofs/Source*.v`); a loop of the tree runs in step with a loop of the model. Then the theorems about the model.
* C109 (fuel, overflow checks). A simulation between two runs of the interpreter, by induction on the syntax
  (`Proofs/SourceMeta.v`).
* C110 (what the text shows). A checker that gives every variable a label, public or secret, and the proof that two
  runs of an accepted function stay related and have one record (`Proofs/SourceFlow.v`); it is then run on the trees.
* C111 (what scrypt, AES and CBC show). The same check, told that some kinds of events may depend on secrets: two runs stay
  related until such an event differs.
* C112 (scrypt and CBC together). The spec functions of C106 and C107, composed; scrypt sees of a passphrase only HMAC's
  block of it.

## Findings (behaviour a user may not expect; each is a theorem)

* `Unpad::flush` accepts a final byte 0 as "no padding" (C36); so `Decipher` accepts
  ciphertexts of plaintexts that were never padded.
* `Decipher::flush` ignores up to 15 trailing ciphertext bytes (C40).
* A `write` or `flush` that fails because `init` was not called discards data (C41).
* A failed `Decipher::flush` leaves its state behind (C46). A failed `AES::init`
  keeps the old key (C32).
* Block sizes 0 and from 256 on make PKCS#7 unsound (C47); the type is not public,
  only size 16 is used.
* `digest` is not idempotent and does not reset (C05, C09).
* The bit counter is a `usize`: on 32-bit targets messages from 2^29 bytes panic or
  get a wrong digest (C04).
* PBKDF2 accepts c = 0 as c = 1 (C13) and outputs beyond (2^32-1)*32 bytes, where
  its block counter wraps (C14).
* `salsa20` silently handles only the first 64 bytes of a longer input (C17); its
  core has trivial collisions (C19), 2^32 unmixed inputs (C54) and a symmetry (C74).
* scrypt does not enforce the documented bounds (C22); `p*128*r` may wrap in release
  builds, in the worst case to 0, and the salt is then ignored (C24).
* scrypt cannot tell a passphrase from itself with zero bytes appended (up to 64 bytes
  in all) or, above 64 bytes, from its digest (C68).
* The reply to a wrong padding is a usable padding oracle (C49); SHA-256 of
  secret-then-message admits length extension (C51).
* Lookups indexed by secrets: AES key setup, encryption and decryption reveal the
  whole key to an observer of addresses (C62, C63); scrypt reveals exactly the table
  positions (C61); `Unpad::flush` reveals exactly the verdict and the last byte
  (C65). A whole `Cipher` session reveals every byte that was passed, a `Decipher` session
  the key and every complete block (C93).
* PBKDF2 makes the HMAC state anew in every iteration: four compressions instead of
  two, and a password of more than 64 bytes is hashed again each time (C72).
* Keys derived with consecutive iteration counts let a password be tested with one HMAC
  (C78).
* One in 128 arbitrary last blocks is accepted by `Decipher` (C79); joined ciphertexts
  are accepted (C80).
* Messages through one `Cipher` have predictable vectors: secrets behind chosen
  beginnings are recovered byte by byte (C84). The padding oracle also makes ciphertexts
  of any message (C85). A lost last block goes unnoticed where the message ends in a
  zero byte at the end of a block (C86).
* Above 64 bytes, very many passwords of one length share their keys for every salt; no pair
  is known (C87).
* scrypt's key can be computed with one table entry, or with half the table at the price of at
  most half as much work again (C94).
* MACs under a key and under the key with 0x6a added to every byte of its block are related,
  for every message; `new` exchanges the two hashers (C95).
* scrypt's mixing sends the 4^r lanes that differ in flips of top bits to one, and the zero lane to itself (C96).
* An undigested `HMac` holds its key under a constant mask, a `Cipher` or `Decipher` always in clear; `HMac::digest`
  leaves nothing of the key except two hashes (C97).
* AES-CBC does not commit to the key: one ciphertext can be made to carry chosen blocks under several keys (C98).
* `pbkdf2_sha256` builds the HMAC state in every iteration; keeping the two chaining values behind the pads halves the
  work, so who guesses passwords pays half of what the user pays (C99).
* The number of steps of `Decipher::flush` tells success from failure, and failures
  apart; the length of valid padding does not show in it (C77).
* `salsa20` writes part of a too short output buffer before it panics (C82).
* scrypt can mix for its whole run and only then panic, in the last PBKDF2 call, on
  32-bit builds with overflow checks from 512 MiB on (C83).
* scrypt takes at least 11/8 of the 128*r*N bytes usually quoted on 64-bit targets; more
  lanes do not multiply the table (C89).
* `hex_to_vec` (tests only) drops an odd last digit (C67).
