{"id": "C01", "title": "SHA-256 conforms to RFC 6234", "statement": "SHA256::new(), any sequence of update calls, then digest() returns the RFC 6234 SHA-256 of the concatenation of everything passed to update, and nothing panics, as long as the total length in bits fits in usize (2^61 bytes on 64-bit targets, 2^29 bytes on 32-bit targets).", "quantifier": "every list of byte strings, both pointer widths, with and without overflow checks", "why_tests_cant": "the input space is unbounded (every byte string, every length); vectors only sample it; the padding has boundary cases at every residue mod 64", "anchors": ["src/sha256.rs: SHA256::new, update, digest, process_block, fill_block, write_u64_be, K, H"]}
{"id": "C02", "title": "SHA-256 does not depend on how the input is split", "statement": "Two sequences of update calls whose concatenated data is equal leave the hasher in states that cannot be told apart: the next digest, and everything observable afterwards, is the same. In particular update(b\"\") is a no-op.", "quantifier": "every pair of chunkings of every message, starting from every reachable hasher", "why_tests_cant": "there are exponentially many chunkings of each message", "anchors": ["src/sha256.rs: SHA256::update"]}
{"id": "C03", "title": "update and digest are total and digests are 32 bytes", "statement": "update never panics while the total stays below 2^W bytes (W the pointer width); digest, unless it panics for the reason of C04 (a bit length that overflows in a checked build), returns exactly 32 bytes, whatever calls came before.", "quantifier": "every history of update/digest calls on one hasher", "why_tests_cant": "panic-freedom must hold for every buffer offset and every history, including calls after digest", "anchors": ["src/sha256.rs: update, digest"]}
{"id": "C04", "title": "SHA-256 length limit", "statement": "The only way digest can fail to be SHA-256 of a message is the bit length overflowing usize: at or above 2^(W-3) bytes a build with overflow checks panics in digest and a build without them hashes a wrapped length field. On 32-bit targets that already happens at 512 MiB, far below the 2^64-bit limit of the RFC, so the RFC claim for all messages below 2^61 bytes is false there.", "quantifier": "every message length, both pointer widths, both overflow modes", "why_tests_cant": "needs messages of 512 MiB and more, and exact statements about every length above the limit", "anchors": ["src/sha256.rs: digest line 354 (self.length * 8) as u64"]}
{"id": "C05", "title": "Hasher reuse after digest", "statement": "What a SHA256 value returns for every sequence of update and digest calls is exactly determined: only the first digest is the SHA-256 of the data; digest is not idempotent, a later digest is a digest of a different, exactly described block sequence.", "quantifier": "every interleaving of update and digest calls on one hasher", "why_tests_cant": "the set of call histories is infinite and the behaviour after the first digest is never exercised by tests", "anchors": ["src/sha256.rs: digest (mutates h and buffer), update"]}
{"id": "C06", "title": "HMAC-SHA256 conforms to RFC 2104", "statement": "HMac::new(key), any sequence of update calls, then digest() returns H((K xor opad) || H((K xor ipad) || text)) with K the key zero-padded to 64 bytes, or its SHA-256 zero-padded if the key is longer than 64 bytes. It never panics.", "quantifier": "every key, every list of byte strings within the hash's length limit", "why_tests_cant": "the input space is unbounded (every byte string, every length); vectors only sample it, keys at, below and above the block size", "anchors": ["src/hmac.rs: HMac::new, update, digest"]}
{"id": "C07", "title": "HMAC does not depend on how the input is split", "statement": "Two sequences of update calls with the same concatenation give the same digest and the same later behaviour.", "quantifier": "every key, every pair of chunkings of every message", "why_tests_cant": "exponentially many chunkings", "anchors": ["src/hmac.rs: HMac::update"]}
{"id": "C08", "title": "HMAC key normalisation", "statement": "Keys that normalise to the same 64-byte block give the same MAC for every message: a key of at most 64 bytes and the same key with zero bytes appended up to 64 bytes; a key longer than 64 bytes and its SHA-256 digest. A 64-byte key is used as is; a 65-byte key is hashed. HMac::new terminates for every key.", "quantifier": "every key of every length and every message", "why_tests_cant": "the input space is unbounded (every byte string, every length); vectors only sample it; the boundary is at one key length", "anchors": ["src/hmac.rs: HMac::new lines 74-85"]}
{"id": "C09", "title": "HMAC reuse after digest", "statement": "What an HMac value returns for every sequence of update and digest calls is exactly determined; only the first digest is the MAC, and a second digest call is not idempotent.", "quantifier": "every interleaving of update and digest on one HMac", "why_tests_cant": "infinite set of call histories", "anchors": ["src/hmac.rs: digest (feeds the inner digest into outer)"]}
{"id": "C10", "title": "PBKDF2-HMAC-SHA256 conforms to RFC 2898", "statement": "pbkdf2_sha256(P, S, c, out) fills out with the first out.len() bytes of T_1 || T_2 || ... of RFC 2898 section 5.2 with PRF HMAC-SHA256, for c >= 1 and out.len() <= (2^32-1)*32, without panicking.", "quantifier": "every password, salt, iteration count and output length", "why_tests_cant": "the input space is unbounded (every byte string, every length); vectors only sample it", "anchors": ["src/pbkdf2.rs: pbkdf2_sha256"]}
{"id": "C11", "title": "PBKDF2 overwrites exactly its output buffer", "statement": "The result does not depend on what out held before, every byte of out is written, and its length does not change; an empty out is left empty.", "quantifier": "every password, salt, c and every pair of initial buffers of the same length", "why_tests_cant": "the initial contents are an arbitrary byte string; last block is partial for 31 of 32 lengths", "anchors": ["src/pbkdf2.rs: lines 86-112"]}
{"id": "C12", "title": "PBKDF2 outputs of different lengths are prefixes of each other", "statement": "The key derived into a shorter buffer is a prefix of the key derived into a longer one from the same password, salt and c.", "quantifier": "every pair of output lengths, every password, salt, c", "why_tests_cant": "two unbounded lengths at once", "anchors": ["src/pbkdf2.rs: line 108-111"]}
{"id": "C13", "title": "PBKDF2 iteration count zero", "statement": "c = 0 gives exactly the same output as c = 1 (RFC 2898 requires a positive count; the code does not reject 0).", "quantifier": "every password, salt, output length", "why_tests_cant": "the input space is unbounded (every byte string, every length); vectors only sample it", "anchors": ["src/pbkdf2.rs: for _j in 2..=c"]}
{"id": "C14", "title": "PBKDF2 beyond the RFC length limit", "statement": "RFC 2898 requires 'derived key too long' above (2^32-1)*32 bytes; the function does not report it. Above that length the four-byte block counter wraps, so the output repeats with period 2^32 blocks.", "quantifier": "every output buffer longer than (2^32-1)*32 bytes on a 64-bit target", "why_tests_cant": "needs outputs over 128 GiB", "anchors": ["src/pbkdf2.rs: line 41-42 (skip), line 87 ctr"]}
{"id": "C15", "title": "PBKDF2 password normalisation", "statement": "Passwords that HMAC normalises to the same block derive the same key: a password and its zero-extension up to 64 bytes, a password longer than 64 bytes and its SHA-256.", "quantifier": "every password, salt, c, output length", "why_tests_cant": "the input space is unbounded (every byte string, every length); vectors only sample it", "anchors": ["src/pbkdf2.rs", "src/hmac.rs: HMac::new"]}
{"id": "C16", "title": "Salsa20 core conforms to the specification", "statement": "salsa20(input, k, output) writes x + doubleround^k(x) of the Salsa20 specification, with x the 16 little-endian words of the first 64 bytes of input; with k = 10 it is the Salsa20 hash, with k = 4 it is Salsa20/8.", "quantifier": "every 64-byte input and every round count", "why_tests_cant": "2^512 inputs, unbounded round count", "anchors": ["src/salsa20.rs: salsa20, doubleround, rowround, columnround, quarterround, littleendian, littleendian_inv, rotl"]}
{"id": "C17", "title": "Salsa20 touches exactly the first 64 bytes", "statement": "salsa20 panics if and only if input or output is shorter than 64 bytes; otherwise the result depends only on the first 64 input bytes, only the first 64 output bytes change, and previous output contents do not matter. The documented 'lengths must be multiples of BLOCK_SIZE' suggests longer buffers are mixed block by block: they are not.", "quantifier": "every pair of buffers of every length, every round count", "why_tests_cant": "arbitrary buffer lengths and contents", "anchors": ["src/salsa20.rs: salsa20 lines 140-207"]}
{"id": "C18", "title": "Salsa20 mixing is invertible", "statement": "For every round count, the mixing before the final addition is a bijection on 16-word states: no two different inputs are merged by the rounds.", "quantifier": "every pair of 16-word states and every round count", "why_tests_cant": "2^512 states", "anchors": ["src/salsa20.rs: quarterround, rowround, columnround, doubleround"]}
{"id": "C19", "title": "Salsa20 core is not collision resistant", "statement": "Flipping the top bit of all sixteen words of the input leaves the output unchanged, for every input and every round count; so the function is not injective.", "quantifier": "every 64-byte input, every round count", "why_tests_cant": "2^512 inputs", "anchors": ["src/salsa20.rs: salsa20"]}
{"id": "C20", "title": "scrypt conforms to the specification", "statement": "Scrypt::new(r, n, p).derive(P, S, out) for admissible parameters returns Ok and fills out with the scrypt of draft-josefsson-scrypt-kdf-03 (RFC 7914) for cost n, block size r, parallelisation p and dkLen = out.len(); no array access fails and nothing panics while the buffer sizes fit the address space.", "quantifier": "every passphrase, salt, r, power-of-two n, p, output length", "why_tests_cant": "parameters and inputs are unbounded and single evaluations are deliberately slow", "anchors": ["src/scrypt.rs: derive, ro_mix, block_mix, integerify, block_xor"]}
{"id": "C21", "title": "scrypt parameter validation", "statement": "derive rejects exactly r = 0, n = 0, n not a power of two, p = 0, in that order of precedence, with RIsTooSmall, NIsTooSmall, NIsNotAPowerOfTwo, PIsTooSmall, and then leaves out untouched; every other triple is accepted.", "quantifier": "every triple (r, n, p), every output buffer", "why_tests_cant": "2^192 parameter triples; the power-of-two test is bit arithmetic", "anchors": ["src/scrypt.rs: derive lines 230-244"]}
{"id": "C22", "title": "scrypt accepts parameters its documentation and the RFC forbid", "statement": "The documentation and RFC require n > 1, n < 2^(16 r) and p <= (2^32-1)/(4 r) (and the docs and error text even r > 1 and p > 1). derive does not enforce them: n = 1, r = 1 with n = 2^16, and p above the bound are accepted.", "quantifier": "parameter triples", "why_tests_cant": "the claim is about every triple outside the documented domain", "anchors": ["src/scrypt.rs: derive lines 230-244, doc lines 96-101, description 36-45"]}
{"id": "C23", "title": "scrypt Integerify truncation is sound", "statement": "Reading only 8 bytes of the last 64-byte block, truncating to usize and reducing modulo n gives the same table index as the specification's reduction of the full little-endian integer, for every accepted n; the index is always in range.", "quantifier": "every block vector, every power of two n representable in usize, both pointer widths", "why_tests_cant": "2^512 block values times every n", "anchors": ["src/scrypt.rs: integerify, ro_mix line 209"]}
{"id": "C24", "title": "scrypt size overflow", "statement": "If p*128*r does not fit in usize, a build with overflow checks panics; a build without them derives from a truncated block vector, and when the product wraps to 0 the derived key does not depend on the salt, r, n or p at all.", "quantifier": "every (r, n, p) whose buffer size overflows", "why_tests_cant": "needs parameters of the order of 2^57", "anchors": ["src/scrypt.rs: line 279"]}
{"id": "C25", "title": "scrypt output buffer discipline", "statement": "On success the result does not depend on the previous contents of out, the length is unchanged, and a shorter output is a prefix of a longer one; deriving does not change the Scrypt value.", "quantifier": "every pair of output buffers, every input", "why_tests_cant": "unbounded lengths and contents", "anchors": ["src/scrypt.rs: derive step 3", "src/pbkdf2.rs"]}
{"id": "C26", "title": "AES S-boxes are the FIPS-197 substitution and its inverse", "statement": "The substitution used by encryption is the affine transform of the multiplicative inverse in GF(2^8), and the one used by decryption is its inverse permutation, for all 256 bytes in both directions.", "quantifier": "all 256 byte values", "why_tests_cant": "tables must be right in every entry; a wrong entry shows only for some keys/blocks", "anchors": ["src/aes.rs: SBOX, INV_SBOX, lookup_sbox"]}
{"id": "C27", "title": "AES field multiplication", "statement": "The multiplication used by the column mixing is polynomial multiplication modulo x^8+x^4+x^3+x+1, for every byte and every multiplier.", "quantifier": "every byte, every usize multiplier", "why_tests_cant": "the multiplier is an unbounded usize, and correctness must be algebraic", "anchors": ["src/aes.rs: double, mul"]}
{"id": "C28", "title": "AES key expansion conforms to FIPS-197", "statement": "For each key of 16, 24 or 32 bytes init succeeds without panicking and computes the FIPS-197 key schedule of 44, 52 or 60 words.", "quantifier": "every key of the three sizes", "why_tests_cant": "2^128..2^256 keys", "anchors": ["src/aes.rs: expand_key, sub_word, rot_word, RCON, AES::init"]}
{"id": "C29", "title": "AES encryption conforms to FIPS-197", "statement": "After init(key) with a 128-, 192- or 256-bit key, encrypt(block) returns the FIPS-197 Cipher of the block.", "quantifier": "every key of the three sizes, every 16-byte block", "why_tests_cant": "2^128 blocks times 2^256 keys", "anchors": ["src/aes.rs: AES::encrypt, AESEncrypt, add_round_key, sub_bytes, mix_columns"]}
{"id": "C30", "title": "AES decryption conforms to FIPS-197", "statement": "After init(key), decrypt(block) returns the FIPS-197 InvCipher of the block.", "quantifier": "every key of the three sizes, every 16-byte block", "why_tests_cant": "2^128 blocks times 2^256 keys", "anchors": ["src/aes.rs: AES::decrypt, AESDecrypt"]}
{"id": "C31", "title": "AES decrypt inverts encrypt and conversely", "statement": "With the same key, decrypt(encrypt(b)) = b and encrypt(decrypt(b)) = b; so encryption under a fixed key is a permutation of 16-byte blocks (distinct blocks never collide, every block is hit).", "quantifier": "every key of the three sizes, every block", "why_tests_cant": "2^128 blocks times 2^256 keys", "anchors": ["src/aes.rs: encrypt, decrypt"]}
{"id": "C32", "title": "AES initialisation protocol", "statement": "init accepts exactly 16-, 24- and 32-byte keys. On any history of init/encrypt/decrypt calls: before the first successful init encrypt and decrypt return NotInitialized; a failed init returns InvalidKeySize and leaves the previous key in force; a successful init replaces it completely; encrypt/decrypt do not change the instance.", "quantifier": "every history of init, encrypt and decrypt calls on one instance", "why_tests_cant": "infinite set of histories, keys of every length", "anchors": ["src/aes.rs: AES::new, init, encrypt, decrypt"]}
{"id": "C33", "title": "PKCS#7 padding of a stream", "statement": "Everything returned by the padder for any sequence of writes followed by flush, concatenated, is the data followed by n bytes of value n with 1 <= n <= block size making the length a multiple of the block size (RFC 5652); each write returns exactly the complete blocks so far, so fewer than one block is ever held back.", "quantifier": "every data string, every chunking, every block size from 1 to 255", "why_tests_cant": "unbounded data, exponentially many chunkings", "anchors": ["src/pkcs7.rs: Pad::new, write, flush", "src/aes_cbc.rs: Cipher"]}
{"id": "C34", "title": "PKCS#7 unpad inverts pad", "statement": "Padding a stream and unpadding the result, with arbitrary and independent chunkings on both sides, returns the original data and succeeds; no padding byte is ever released as data and at most one block is held back.", "quantifier": "every data string, every pair of chunkings, every block size from 1 to 255", "why_tests_cant": "unbounded data, exponentially many chunkings", "anchors": ["src/pkcs7.rs: Pad, Unpad"]}
{"id": "C35", "title": "Exact acceptance of padded data", "statement": "Unpadding a stream succeeds exactly when its length is a positive multiple of the block size and the last byte n satisfies n <= block size and the last n bytes all equal n; it then returns all but the last n bytes; otherwise it returns UnfinishedBlock or InvalidPadding as documented.", "quantifier": "every byte string, every chunking", "why_tests_cant": "every possible (also adversarial) final block", "anchors": ["src/pkcs7.rs: Unpad::write, flush"]}
{"id": "C36", "title": "Only valid PKCS#7 padding is accepted", "statement": "A user relies on decryption rejecting any final block whose padding is not valid PKCS#7 (1 <= n <= 16). This is false of the code: a final block ending in byte 0 is accepted as having no padding at all.", "quantifier": "every final plaintext block", "why_tests_cant": "adversarial final blocks", "anchors": ["src/pkcs7.rs: Unpad::flush lines 127-141"]}
{"id": "C37", "title": "AES-CBC encryption conforms to SP 800-38A with PKCS#7 padding", "statement": "Cipher::new(iv), init(key), any sequence of writes, then flush: the concatenation of all returned bytes is the CBC encryption under FIPS-197 AES with that iv of the PKCS#7-padded concatenation of the data; its length is 16*(len/16+1); after each write exactly the complete blocks so far have been emitted.", "quantifier": "every key of the three sizes, iv, data and chunking", "why_tests_cant": "unbounded data, keys, chunkings", "anchors": ["src/aes_cbc.rs: Cipher::new, init, write, flush, encrypt_block"]}
{"id": "C38", "title": "AES-CBC round trip", "statement": "Decrypting what was encrypted, with the same key and iv and with arbitrary independent chunkings on both sides, succeeds and returns the original data.", "quantifier": "every key of the three sizes, iv, data, and pair of chunkings", "why_tests_cant": "unbounded data, keys, chunkings", "anchors": ["src/aes_cbc.rs: Cipher, Decipher"]}
{"id": "C39", "title": "AES-CBC decryption of arbitrary input", "statement": "For every byte string fed to Decipher in any chunks and then flushed, the outcome is exactly: CBC-decrypt the whole 16-byte blocks, hold back the last block, and release the rest; flush succeeds exactly when there is at least one whole block and the held-back block's padding is acceptable, and otherwise reports the documented PKCS7 error. It never panics.", "quantifier": "every byte string (also adversarial), every chunking, key, iv", "why_tests_cant": "adversarial ciphertexts of every length", "anchors": ["src/aes_cbc.rs: Decipher::write, flush"]}
{"id": "C40", "title": "Truncated ciphertext is reported", "statement": "A user relies on UnfinishedBlock ('data length must be a multiple of block size') being returned when the ciphertext length is not a multiple of 16. This is false of the code: up to 15 trailing bytes after a valid ciphertext are silently ignored.", "quantifier": "every ciphertext whose length is not a multiple of 16", "why_tests_cant": "every length and content", "anchors": ["src/aes_cbc.rs: Decipher::flush never inspects buffer", "src/pkcs7.rs: UnpadError doc"]}
{"id": "C41", "title": "A failed CBC call loses no data", "statement": "A user relies on a call that returned Err having no effect, so that initialising and continuing works. False of the code: a write or flush before a successful init returns NotInitialized but has already discarded the complete blocks (or the pending bytes), so later output silently lacks them.", "quantifier": "every history containing a failed write or flush", "why_tests_cant": "requires histories with an error in the middle", "anchors": ["src/aes_cbc.rs: Cipher::write line 66, flush line 83, Decipher::write line 188", "src/pkcs7.rs"]}
{"id": "C42", "title": "CBC cipher and decipher call histories", "statement": "For every sequence of init, write and flush calls, on Cipher and on Decipher, the sequence of results is exactly that of a small abstract machine holding the key if any, the chaining block and the pending bytes; no call panics.", "quantifier": "every finite history of calls", "why_tests_cant": "infinite set of histories", "anchors": ["src/aes_cbc.rs: Cipher, Decipher"]}
{"id": "C43", "title": "Several messages through one cipher", "statement": "flush leaves the cipher ready for another message chained to the last ciphertext block; feeding the resulting messages, flushing after each, through one decipher with the same key and iv returns every message.", "quantifier": "every list of messages and chunkings", "why_tests_cant": "infinite set of message lists", "anchors": ["src/aes_cbc.rs: Cipher::flush, Decipher::flush", "src/pkcs7.rs: storage.clear()"]}
{"id": "C44", "title": "CBC error propagation is limited to two blocks", "statement": "Changing one ciphertext block changes only the corresponding plaintext block and, by exactly the same xor difference, the next one; all other plaintext blocks are unaffected. Xoring a difference into the iv xors it into the first plaintext block and nothing else, and decryption still succeeds when there are at least two blocks: there is no integrity protection.", "quantifier": "every ciphertext, block position and difference", "why_tests_cant": "every position and difference of every ciphertext", "anchors": ["src/aes_cbc.rs: Decipher::write"]}
{"id": "C45", "title": "CBC encryption is prefix-determined and injective", "statement": "The ciphertext blocks of a message depend only on the key, iv and the plaintext up to and including that block; different messages under the same key and iv give different ciphertexts.", "quantifier": "every pair of messages", "why_tests_cant": "pairs of unbounded messages", "anchors": ["src/aes_cbc.rs: Cipher"]}
{"id": "C46", "title": "A failed flush of the decipher changes nothing", "statement": "Decipher::flush returning an error leaves the instance exactly as it was: calling it again returns the same error and later writes behave as if it had not been called. A successful flush empties the held-back block.", "quantifier": "every reachable decipher state", "why_tests_cant": "every reachable state", "anchors": ["src/aes_cbc.rs: Decipher::flush", "src/pkcs7.rs: Unpad::flush"]}
{"id": "C47", "title": "Block sizes for which padding is sound", "statement": "The padding layer is sound for block sizes 1 to 255 and not for 256 or 0; the library only instantiates it with 16.", "quantifier": "every block size", "why_tests_cant": "the property is about the u8 truncation at one boundary for all data", "anchors": ["src/pkcs7.rs: Pad::flush len as u8, Unpad::flush block_size as u8"]}
{"id": "C48", "title": "Error messages", "statement": "Every error value renders as its type name, a colon and its description; different errors of one type render differently; DecipherError renders with the description of the error it wraps.", "quantifier": "every error value", "why_tests_cant": "finite, but stated for all values of all four error types", "anchors": ["src/aes.rs: AESError", "src/aes_cbc.rs: DecipherError", "src/pkcs7.rs: UnpadError", "src/scrypt.rs: ScryptError"]}
{"id": "C49", "title": "What the outcome of Decipher::flush gives away", "statement": "It is not true that whether Decipher::flush returns Ok or Err reveals nothing about the plaintext: one fixed strategy, which chooses initialisation vectors and sees only whether flush succeeded, computes the decryption of any block under any key with at most 4864 queries, and so recovers every message Cipher produced from its ciphertext.", "quantifier": "every key of 16, 24 or 32 bytes, every block, every message and chunking", "why_tests_cant": "the attack must work for every key and block, and every sequence of answers", "anchors": ["src/aes_cbc.rs: Decipher::write, Decipher::flush", "src/pkcs7.rs: Unpad::flush"]}
{"id": "C50", "title": "Equal digests mean a collision of the compression function", "statement": "If two different messages, however they were split into update calls, give the same SHA-256 digest, then two different inputs of the RFC 6234 compression function that occur while hashing those two messages have the same output: buffering, padding and length encoding add no collisions of their own.", "quantifier": "every pair of different messages within the length limit, every chunking, every target", "why_tests_cant": "no colliding pair is known, so no test can exercise it; the statement is a reduction over all pairs", "anchors": ["src/sha256.rs: SHA256::update, digest, process_block"]}
{"id": "C51", "title": "A digest is not a MAC of a secret prefix (length extension)", "statement": "It is not true that SHA256 of a secret followed by a message authenticates the message: from the digest, the message and the length of the secret alone one can compute the digest that the same secret followed by a longer, chosen-suffix message will have.", "quantifier": "every secret, message and suffix within the length limit, every target", "why_tests_cant": "quantifies over all secrets; a test shows single instances", "anchors": ["src/sha256.rs: SHA256::digest"]}
{"id": "C52", "title": "Equal MACs mean equal inputs or a collision", "statement": "If two (key, message) pairs give the same HMAC, then the keys normalise to the same 64-byte block and the messages are equal, or there is a collision of the compression function among the inputs occurring in the two computations.", "quantifier": "every pair of keys and messages within the length limits, every chunking, every target", "why_tests_cant": "a reduction over all pairs; no colliding pair is known", "anchors": ["src/hmac.rs: HMac::new, update, digest"]}
{"id": "C53", "title": "Compression: the rounds are a permutation, each block has exactly one fixed point", "statement": "For every 64-byte block, the 64 rounds before the final addition permute the chaining values, and absorbing the block leaves exactly one chaining value unchanged.", "quantifier": "every block and chaining value", "why_tests_cant": "2^512 blocks times 2^256 chaining values", "anchors": ["src/sha256.rs: process_block"]}
{"id": "C54", "title": "Salsa20 does not mix every input", "statement": "It is not true that the Salsa20 core mixes every input: the 2^32 inputs whose words alternate between a and -a in a chequered pattern pass through any number of rounds unchanged, and the output is the input doubled; all zeros give all zeros.", "quantifier": "every round count and every 32-bit a", "why_tests_cant": "2^32 inputs for each of unboundedly many round counts", "anchors": ["src/salsa20.rs: quarterround, rowround, columnround, doubleround, salsa20"]}
{"id": "C55", "title": "Round keys determine the key", "statement": "Any run of consecutive round-key words as long as the key determines the key (any one round key for 128-bit keys); different keys never expand to the same object.", "quantifier": "every pair of keys of 16, 24 or 32 bytes, every position in the schedule", "why_tests_cant": "pairs of 2^256 keys", "anchors": ["src/aes.rs: expand_key, AES::init"]}
{"id": "C56", "title": "Bounded memory of Cipher and Decipher", "statement": "After any history of init, write and flush calls, successful or not, a Cipher holds fewer than 16 bytes of data and a Decipher fewer than 16 bytes of ciphertext and at most 16 of plaintext, whatever was written.", "quantifier": "every finite history of calls, every target", "why_tests_cant": "infinite set of histories", "anchors": ["src/aes_cbc.rs: Cipher, Decipher", "src/pkcs7.rs: Pad::write, Unpad::write"]}
{"id": "C57", "title": "SHA-256 is constant-time up to lengths", "statement": "To an observer who sees every branch taken, every array index and slice bound, every loop count and every allocation (but not the data), two histories of update and digest calls on new hashers that differ only in the bytes passed look the same.", "quantifier": "every pair of histories of calls with the same lengths, every target", "why_tests_cant": "all pairs of secrets; timing tests are statistical and cannot see every address", "anchors": ["src/sha256.rs: update, digest, process_block"]}
{"id": "C58", "title": "HMAC is constant-time up to lengths", "statement": "To the same observer, two histories of calls on HMac values with keys of the same length that differ only in bytes of the keys and messages look the same, panics included.", "quantifier": "every pair of keys of one length and histories of the same lengths, every target", "why_tests_cant": "all pairs of secrets", "anchors": ["src/hmac.rs: HMac::new, update, digest"]}
{"id": "C59", "title": "PBKDF2 is constant-time up to lengths", "statement": "To the same observer, two derivations with the same iteration count and the same lengths of password, salt and output look the same.", "quantifier": "every pair of passwords and salts of the same lengths, every iteration count and output length, every target", "why_tests_cant": "all pairs of secrets and unboundedly many iterations", "anchors": ["src/pbkdf2.rs: pbkdf2_sha256"]}
{"id": "C60", "title": "Salsa20 is constant-time", "statement": "To the same observer, two runs of salsa20 with the same number of rounds look the same whatever the input block.", "quantifier": "every pair of inputs of one length, every number of rounds", "why_tests_cant": "2^1024 pairs of inputs", "anchors": ["src/salsa20.rs: salsa20"]}
{"id": "C61", "title": "What scrypt gives away: exactly the table positions", "statement": "It is not true that scrypt's derive looks the same for all passphrases: to the same observer, two derivations with the same parameters and lengths look the same if and only if all the data-dependent table positions of scryptROMix (Integerify mod N, in every lane) are the same, and there are passphrases for which they are not.", "quantifier": "every admissible parameter triple, every pair of passphrases and salts of the same lengths, within the size limits", "why_tests_cant": "an equivalence over all pairs of inputs", "anchors": ["src/scrypt.rs: Scrypt::derive, ro_mix, integerify"]}
{"id": "C62", "title": "What AES encryption and decryption give away: the key", "statement": "It is not true that encrypting or decrypting a block looks the same for all keys: to the same observer, runs under two different keys of one size never look the same on the same block, and runs on two different blocks never look the same under one key; the table lookups determine the key from the block and the block from the key.", "quantifier": "every pair of keys of 16, 24 or 32 bytes and every pair of blocks", "why_tests_cant": "injectivity over all pairs of 2^256 keys", "anchors": ["src/aes.rs: encrypt, decrypt, sub_bytes, inv_sub_bytes, SBOX, INV_SBOX"]}
{"id": "C63", "title": "What AES key setup gives away: the key", "statement": "It is not true that init looks the same for all keys of one size: to the same observer, init with two different keys of one size never looks the same; the table lookups of the key schedule alone determine the whole key.", "quantifier": "every pair of keys of 16, 24 or 32 bytes", "why_tests_cant": "injectivity over all pairs of 2^256 keys", "anchors": ["src/aes.rs: AES::init, expand_key, sub_word"]}
{"id": "C64", "title": "Padding is constant-time up to lengths", "statement": "To the same observer, two streams of writes of the same lengths through a new Pad, then flush, look the same.", "quantifier": "every pair of streams of the same lengths, every block size, every target", "why_tests_cant": "all pairs of secrets", "anchors": ["src/pkcs7.rs: Pad"]}
{"id": "C65", "title": "What removing padding gives away: exactly the verdict and the last byte", "statement": "To the same observer, two streams of the same lengths through an Unpad look the same if and only if flush sees the same of their final blocks: that no block is complete, that the last byte exceeds the block size, or else the last byte and whether the padding is valid. The same holds for Decipher::flush after any two histories. So a failed flush gives away more than the error value: whether the last byte exceeds the block size, and otherwise its value.", "quantifier": "every block size from 1 to 255, every pair of streams of the same lengths; every pair of decipher histories", "why_tests_cant": "an equivalence over all pairs of inputs", "anchors": ["src/pkcs7.rs: Unpad::flush", "src/aes_cbc.rs: Decipher::flush"]}
{"id": "C66", "title": "Results of checked builds are portable", "statement": "Whatever an overflow-checked build returns, values and errors alike, for any call or history of calls of SHA-256, HMAC, PBKDF2, scrypt, PKCS#7 or AES-CBC, every build for the same or a wider pointer size, checked or not, returns too. (An unchecked build can return where a checked one panics.)", "quantifier": "every pair of such targets, every input and every history on which the checked build does not panic", "why_tests_cant": "a relation between builds for different targets over all inputs", "anchors": ["src/sha256.rs", "src/hmac.rs", "src/pbkdf2.rs", "src/scrypt.rs", "src/pkcs7.rs", "src/aes_cbc.rs"]}
{"id": "C67", "title": "The hexadecimal reader of the tests", "statement": "hex_to_vec reads every text that spells octets in hexadecimal digits of either case as those octets, undoes encoding, drops an odd last digit without notice, and panics on a text with any other character anywhere.", "quantifier": "every text, every target", "why_tests_cant": "infinite set of texts; the helper is itself untested", "anchors": ["src/common.rs: hex_to_vec"]}
{"id": "C68", "title": "Equivalent scrypt passphrases", "statement": "It is not true that different passphrases derive different keys: appending zero bytes to a passphrase of at most 64 bytes in all, or replacing a passphrase of more than 64 bytes by its SHA-256 digest, never changes what derive does, for any parameters, salt and output length, errors and panics included.", "quantifier": "every passphrase, salt, output buffer, parameter triple and target", "why_tests_cant": "an equality over all inputs of a deliberately slow function", "anchors": ["src/scrypt.rs: Scrypt::derive", "src/hmac.rs: HMac::new"]}
{"id": "C69", "title": "Two derivations agree only by collision", "statement": "If two PBKDF2 derivations with one iteration, or two scrypt derivations with any admissible parameters, agree in their first 32 bytes, then either the passphrases are the same after key normalisation and the salts (for scrypt: the mixed blocks) are the same, or two explicitly given messages collide under SHA-256. In particular passphrases that differ after normalisation derive one key only by such a collision.", "quantifier": "every pair of passphrases, salts, admissible parameters and output buffers of at least 32 bytes within the size limits", "why_tests_cant": "a reduction over all pairs of inputs", "anchors": ["src/pbkdf2.rs: pbkdf2_sha256", "src/scrypt.rs: Scrypt::derive"]}
{"id": "C70", "title": "What equal ciphertext blocks give away", "statement": "Two ciphertext blocks made under one key, in one message or in two, with equal or different ivs, are equal if and only if the exclusive or of the two padded plaintext blocks equals that of the two ciphertext blocks (or ivs) before them. With one key and one iv, two ciphertexts agree in exactly the leading blocks in which the padded messages agree.", "quantifier": "every key of 16, 24 or 32 bytes, all ivs, all messages however split into writes, all block positions", "why_tests_cant": "an equivalence over all pairs of messages", "anchors": ["src/aes_cbc.rs: Cipher"]}
{"id": "C71", "title": "Hashing takes an exact, linear number of steps", "statement": "Counting every index, slice, branch, loop test and allocation as one step and a traversal of k elements as k, hashing n bytes in k pieces takes exactly k + 3n + 2(64 - n mod 64) + 63 + 621 B steps, B being the number of 512-bit blocks the standard pads the message to; so at most 13n + k + 900.", "quantifier": "all messages within the length limit, all ways to cut them into pieces, all targets", "why_tests_cant": "a count for all lengths", "anchors": ["src/sha256.rs: update", "src/sha256.rs: digest"]}
{"id": "C72", "title": "The work of PBKDF2 and the cost of long passwords", "statement": "The number of steps of pbkdf2_sha256 is an exact function of the lengths of password, salt and output and of the iteration count, linear in the count. (A user may expect a long password to be hashed once; REFUTED:) a password of more than 64 bytes is hashed again in every iteration of every block: the work exceeds that of passing its digest, which gives the same key, by exactly blocks * count * (1 + steps of hashing the password).", "quantifier": "all passwords, salts, counts and outputs within the limits, all targets", "why_tests_cant": "a count for all lengths and iteration counts", "anchors": ["src/pbkdf2.rs: pbkdf2_sha256", "src/hmac.rs: new"]}
{"id": "C73", "title": "The work of scrypt is set by its parameters", "statement": "The number of steps of derive is an exact function of n, r, p and of the lengths of passphrase, salt and output; doubling n adds exactly p n (4972 r + 26) steps, whatever the passphrase and salt are.", "quantifier": "all accepted parameters, passphrases, salts and outputs within the limits, all targets", "why_tests_cant": "a count for all parameters", "anchors": ["src/scrypt.rs: derive", "src/scrypt.rs: ro_mix", "src/scrypt.rs: block_mix"]}
{"id": "C74", "title": "Salsa20 commutes with a move along the diagonal", "statement": "(A user may expect the core to treat its sixteen words differently; REFUTED:) moving the words of the input one row up and one column left, cyclically, moves the words of the output in the same way, for every number of rounds; a row round is a column round of the transposed matrix; and the 2^128 inputs in which every row is the one above moved right by one word give outputs of that form, sixteen bytes written four times over.", "quantifier": "all 64-byte inputs, all round counts", "why_tests_cant": "a symmetry over all inputs and round counts", "anchors": ["src/salsa20.rs: salsa20", "src/salsa20.rs: rowround", "src/salsa20.rs: columnround"]}
{"id": "C75", "title": "Comparing and printing errors", "statement": "The derived == of the four error types holds exactly between identical errors, including the error wrapped in a DecipherError, and their derived debug texts are the variant names (with the wrapped error in parentheses) and differ for different errors.", "quantifier": "all pairs of error values", "why_tests_cant": "the derived implementations are only used, never tested", "anchors": ["src/aes.rs: AESError", "src/pkcs7.rs: UnpadError", "src/aes_cbc.rs: DecipherError", "src/scrypt.rs: ScryptError"]}
{"id": "C76", "title": "The work of AES is set by the key size", "statement": "Key setup takes 263, 295 or 355 steps for keys of 16, 24 and 32 bytes and one step for any other length; encrypting a block takes 277 Nr - 222 steps and decrypting one 885 Nr - 830, Nr being the number of rounds. So the number of steps, unlike the record of addresses and branches, is the same for all keys of one size and all blocks.", "quantifier": "all keys, all blocks, all previous states of the object", "why_tests_cant": "a count for all keys and blocks", "anchors": ["src/aes.rs: init", "src/aes.rs: encrypt", "src/aes.rs: decrypt", "src/aes.rs: mul"]}
{"id": "C77", "title": "The work of AES-CBC is linear, and success shows in it", "statement": "Encrypting a stream takes an exact number of steps given by the key size and the lengths of the pieces, at most 234 for each byte, 19 for each piece and 4062 more; decrypting one likewise, at most 729 for each byte, 39 for each piece and 357 more. The flush of a decipher takes 23 steps if it removes padding, however long the padding is, and fewer if it fails (2, 4 or 6 plus the last byte), so the count tells success from failure.", "quantifier": "all keys, initialisation vectors, messages and ways of cutting them; flushes after any history of calls; all targets", "why_tests_cant": "a count for all inputs and histories", "anchors": ["src/aes_cbc.rs: Cipher::write", "src/aes_cbc.rs: Cipher::flush", "src/aes_cbc.rs: Decipher::write", "src/aes_cbc.rs: Decipher::flush", "src/pkcs7.rs: Unpad::flush"]}
{"id": "C78", "title": "PBKDF2 keys of neighbouring iteration counts", "statement": "(A user may expect keys derived with different iteration counts to be unrelated; REFUTED:) for one password and salt, in every 32-byte block the difference of the keys of c + 1 and c + 2 iterations is the HMAC under the password of the difference of the keys of c and c + 1 iterations; the key of one iteration authenticates to its difference with the key of two. So a password is tested with a single HMAC, which takes fewer steps than one iteration: at least c times fewer than a derivation.", "quantifier": "all passwords, salts, counts c >= 1 and output lengths, all targets (within the size limits)", "why_tests_cant": "a relation between three runs for all inputs", "anchors": ["src/pbkdf2.rs: pbkdf2_sha256", "src/hmac.rs: HMac::digest"]}
{"id": "C79", "title": "How much arbitrary input is accepted", "statement": "Of the 256^k blocks of k bytes, 1 <= k <= 255, exactly (256^k - 1)/255 carry valid PKCS#7 padding, and Unpad accepts these and 256^(k-1) more. For every key, initialisation vector and ciphertext of whole blocks, exactly (256^16 - 1)/255 + 256^15 of the 256^16 blocks that may come last make the decipher report success, about one in 128 and twice as many as with a strict check; for every key and block the same number of initialisation vectors does.", "quantifier": "all keys, initialisation vectors, ciphertext prefixes and block sizes 1..255", "why_tests_cant": "an exact count over 2^128 inputs", "anchors": ["src/pkcs7.rs: Unpad::flush", "src/aes_cbc.rs: Decipher::flush", "src/aes_cbc.rs: Decipher::write"]}
{"id": "C80", "title": "Joined ciphertexts decrypt without an error", "statement": "(A user may expect a rearranged ciphertext to be noticed; REFUTED:) the first i blocks of one ciphertext followed by another ciphertext of the same key from block j on, at least two blocks, decrypt without an error to the first i blocks of the first message, one foreign block and the second message from block j + 1 on. The foreign block is block j of the second message changed by the xor of the ciphertext blocks before the two cuts.", "quantifier": "all keys, initialisation vectors, pairs of messages, cuts and ways of splitting the input, all targets", "why_tests_cant": "needs all messages and all cuts", "anchors": ["src/aes_cbc.rs: Decipher::write", "src/aes_cbc.rs: Decipher::flush", "src/aes_cbc.rs: Cipher::write"]}
{"id": "C81", "title": "A hasher or MAC that panicked never gives a digest again", "statement": "If the caller catches every panic and goes on using the object, then every reply of SHA256 and HMac to every history of calls is the one the specification gives: up to the first panic as without catching; after it, no digest is ever returned again, whatever is called, so no wrong digest or MAC can be obtained. In builds without overflow checks there is no panic.", "quantifier": "all keys, all histories of update and digest calls, all targets", "why_tests_cant": "needs histories that reach 2^29 or 2^61 bytes, and the memory in the middle of a panic", "anchors": ["src/sha256.rs: update", "src/sha256.rs: digest", "src/hmac.rs: update", "src/hmac.rs: digest"]}
{"id": "C82", "title": "Output buffers after a panic", "statement": "When pbkdf2_sha256 or Scrypt::derive panics, the output buffer of the caller is as it was before the call: whether a block panics does not depend on its number, so the first one does. (A user may expect the same of salsa20; REFUTED:) salsa20 with an output buffer shorter than 64 bytes writes all whole words that fit before it panics; with an input shorter than 64 bytes it leaves the buffer alone.", "quantifier": "all passwords, salts, counts, parameters, inputs and buffers, all targets", "why_tests_cant": "needs the memory in the middle of a panic", "anchors": ["src/pbkdf2.rs: pbkdf2_sha256", "src/scrypt.rs: Scrypt::derive", "src/salsa20.rs: salsa20"]}
{"id": "C83", "title": "Exactly when key derivation panics", "statement": "HMac::new panics exactly in builds with overflow checks on keys whose bit count exceeds usize. pbkdf2_sha256 panics exactly in those builds, with a non-empty output and a password or salt (with 68 bytes more) whose bit count exceeds usize. Scrypt::derive with accepted parameters panics with overflow checks exactly if the p*128*r bytes exceed isize::MAX, the first PBKDF2 call panics, the table of n vectors exceeds isize::MAX, or the last PBKDF2 call panics; without them exactly if a lane wraps to 0 bytes, the wrapped size exceeds isize::MAX, or there is at least one lane and 128*r wraps or the table is too large. Otherwise all of them return, with a buffer of the same length.", "quantifier": "all inputs that Rust's types admit, all targets", "why_tests_cant": "an equivalence over all inputs, including sizes no test can allocate", "anchors": ["src/hmac.rs: new", "src/pbkdf2.rs: pbkdf2_sha256", "src/scrypt.rs: Scrypt::derive", "src/scrypt.rs: ro_mix", "src/scrypt.rs: block_mix"]}
{"id": "C84", "title": "Secrets behind chosen beginnings, through one cipher", "statement": "(A user may expect ciphertexts to show nothing of a secret to somebody without the key; REFUTED:) one Cipher encrypts message after message in one chain, so the vector of the next message is known from the last ciphertext. Somebody who chooses the beginnings of messages that end in a secret of n bytes, and sees the ciphertexts, computes n and the secret from at most 257 n + 17 messages, by one strategy for all keys, vectors and earlier messages. The step behind it: after any messages, the block g xor (the ciphertext block before block i) xor (the last ciphertext block) is encrypted to ciphertext block i if and only if plaintext block i is g.", "quantifier": "all keys of the three sizes, initialisation vectors, histories of messages, secrets and guesses, all targets", "why_tests_cant": "the strategy has to be right for every key and every secret", "anchors": ["src/aes_cbc.rs: Cipher::write", "src/aes_cbc.rs: Cipher::flush"]}
{"id": "C85", "title": "Ciphertexts made without the key", "statement": "(A user may expect that what decrypts without an error was made with the key; REFUTED:) from nothing but outcomes of Decipher::flush, at most 4864 for each block, one computes for every message an initialisation vector and a ciphertext, its last block chosen at will, that decrypt to exactly this message. If the vector cannot be chosen, it goes in as first block: the outcomes are the same, and the message comes out after sixteen bytes that are not chosen.", "quantifier": "all keys, messages and last blocks, all ways of splitting the input, all targets", "why_tests_cant": "the strategy has to be right for every key and every message", "anchors": ["src/aes_cbc.rs: Decipher::write", "src/aes_cbc.rs: Decipher::flush", "src/pkcs7.rs: Unpad::flush"]}
{"id": "C86", "title": "Which ciphertexts decrypt to a given message", "statement": "Apart from ignored bytes after the last complete block, the ciphertexts that decrypt to a message m under a key and an iv are: the encryption of m, and, exactly if m consists of complete blocks and ends in a zero byte, that encryption without its last block. So encrypting again what was decrypted gives the complete blocks back, or these and one block more. (A user may expect the loss of a block to be noticed; REFUTED:) for every message of complete blocks that ends in a zero byte it is not.", "quantifier": "all keys, initialisation vectors, messages, input strings and ways of splitting them, all targets", "why_tests_cant": "an equivalence over all input strings", "anchors": ["src/aes_cbc.rs: Decipher::write", "src/aes_cbc.rs: Decipher::flush", "src/pkcs7.rs: Unpad::flush", "src/aes_cbc.rs: Cipher::flush"]}
{"id": "C87", "title": "How many messages and passwords share a digest or a key", "statement": "Among the messages of L bytes at least 256^(L-32) share one digest. From any way of finding two blocks that lead one chaining value to the same value (one exists), k uses of it give 2^k different messages with the same digest, behind any beginning of complete blocks and before any end. (A user may expect different passwords of the same length to derive different keys; REFUTED:) for every length above 64 there are at least 256^(L-32) passwords of that length that give the same HMAC object, the same PBKDF2 key and the same scrypt result for every salt, count, parameters and output.", "quantifier": "all message lengths, beginnings, ends, numbers of blocks and ways of finding collisions; all password lengths above 64, salts, counts, parameters; all targets", "why_tests_cant": "collisions of SHA-256 exist but are not known: no test can exhibit one", "anchors": ["src/sha256.rs: update", "src/sha256.rs: process_block", "src/hmac.rs: HMac::new", "src/pbkdf2.rs: pbkdf2_sha256", "src/scrypt.rs: derive"]}
{"id": "C88", "title": "How a difference spreads through the rounds of AES", "statement": "Two AES states that differ in exactly one byte differ in exactly four bytes after one round of encrypt's loop and in all sixteen after two, whatever the state, the byte and the round keys. Of any two different states, in any four successive rounds, at least 25 of the 64 bytes that go into the substitution differ. Both hold for the loop of decrypt as well.", "quantifier": "all pairs of states, all round key arrays and round numbers", "why_tests_cant": "a statement over all 2^256 pairs of states and all round keys", "anchors": ["src/aes.rs: encrypt", "src/aes.rs: decrypt", "src/aes.rs: shift_rows", "src/aes.rs: mix_column", "src/aes.rs: sub_bytes"]}
{"id": "C89", "title": "The memory of scrypt", "statement": "Counting every request to the allocator and every drop, up to the end of the mixing (line 293), the heap of Scrypt::derive rises by exactly p*(128r + w + L) + n*(w + L) + 2L + 64 + max(64, 3rw) bytes at its highest, where w is the size of a Vec (12 or 24 bytes) and L = 2r(64 + w), plus p*w if collect does not reuse its buffer; afterwards exactly p*(128r + w + L) of them are in use. So lanes share one table: what a further lane costs does not depend on n. Rejected parameters request nothing. (A user may expect 128*r*n bytes; REFUTED:) on 64-bit targets it is always more than 11/8 of that.", "quantifier": "all passphrases, salts, outputs and admissible parameters whose sizes fit, all targets, both behaviours of collect", "why_tests_cant": "an exact maximum for all parameters, including sizes no test can allocate", "anchors": ["src/scrypt.rs: derive", "src/scrypt.rs: ro_mix", "src/scrypt.rs: block_mix", "src/scrypt.rs: block_xor"]}
{"id": "C90", "title": "How many states carry a difference through the rounds of AES", "statement": "Changed by the same nonzero octet, at most four entries of the substitution table change by the same octet. If k bytes of a difference are not zero, then for every round key and every difference behind the round, at most 2^128 / 64^k states carry the one to the other through a round of encrypt's loop; for some differences of one byte it is exactly 2^122. Along any chain of five differences, the first not zero, the four shares of states multiply to at most 2^-150. The bounds hold for the loop of decrypt as well.", "quantifier": "all differences of 16 bytes, all round key arrays and round numbers that fit them", "why_tests_cant": "counts over all 2^128 states for all pairs of differences", "anchors": ["src/aes.rs: encrypt", "src/aes.rs: decrypt", "src/aes.rs: SBOX", "src/aes.rs: sub_bytes", "src/aes.rs: mix_column"]}
{"id": "C91", "title": "How often sums of bits agree across the rounds of AES", "statement": "For any two nonzero masks, between 112 and 144 of the 256 octets have the same sum of bits under the first as their entry in the substitution table has under the second. If a mask before a round selects from k bytes, then for every round key and every mask behind the round the number n of states whose two sums agree satisfies |2n - 2^128| * 8^k <= 2^128. Along any chain of five masks, the first not zero, the four numbers |2n/2^128 - 1| multiply to at most 2^-75. The bounds hold for the loop of decrypt as well.", "quantifier": "all masks of 16 bytes, all round key arrays and round numbers that fit them", "why_tests_cant": "counts over all 2^128 states for all pairs of masks", "anchors": ["src/aes.rs: encrypt", "src/aes.rs: decrypt", "src/aes.rs: SBOX", "src/aes.rs: sub_bytes", "src/aes.rs: mix_column"]}
{"id": "C92", "title": "Families of states that differ in one byte, through the rounds of AES", "statement": "Take the 256 states that agree except in one byte. For all round keys: after one round of encrypt the four bytes of one column, which is determined by the place of the byte, take every value exactly once and the other twelve bytes are constant; after two rounds every byte takes every value exactly once; after three rounds the exclusive or of the 256 states is zero. The last two hold for the rounds of decrypt as well. After four rounds the sum is not zero in general.", "quantifier": "all states, all places of the byte, all round key arrays and round numbers that fit them", "why_tests_cant": "a statement about every family of 256 states under every key", "anchors": ["src/aes.rs: encrypt", "src/aes.rs: decrypt", "src/aes.rs: sub_bytes", "src/aes.rs: shift_rows", "src/aes.rs: mix_column"]}
{"id": "C93", "title": "What the calls on a Cipher or Decipher give to an observer", "statement": "Take two histories of calls on an AES-CBC Cipher (or Decipher) that differ only in the bytes passed: same sequence of init, write and flush, same lengths, any initialisation vectors. Their records of addresses, lengths and branches are equal if and only if these are equal, call by call: for a Cipher the accepted keys and the ciphertexts returned; for a Decipher the accepted keys, the ciphertext blocks completed by each write while a key is set, and at each flush the verdict and the last byte of the held-back plaintext (unless it exceeds 16). Bytes that do not yet complete a block do not show. So a Cipher's record and initialisation vector determine the key and every byte of a session that ends in flush, and a Decipher's determine all its replies.", "quantifier": "all pairs of call histories of any length, all keys, data and initialisation vectors, all targets", "why_tests_cant": "an equivalence between all pairs of executions", "anchors": ["src/aes_cbc.rs: Cipher", "src/aes_cbc.rs: Decipher", "src/aes.rs", "src/pkcs7.rs"]}
{"id": "C94", "title": "scrypt with less memory than the program takes", "statement": "For every k from 1 on, derive returns the key that an algorithm computes which keeps only every k-th entry of the table and computes the others again. Per lane it keeps exactly n/k entries (rounded up) and takes exactly 2n + (sum over the positions j read of j mod k) BlockMix operations, so between 2n and n*(k+1). With k = n one entry is enough, whatever n is; with k = 2 half the table is enough at no more than one and a half times the work. An observer of a derivation can reject passphrases of the same length with n BlockMix operations and no table, by the first position read.", "quantifier": "all k, parameters, passphrases, salts, output lengths and targets within the size limits", "why_tests_cant": "a statement about two algorithms on all inputs, with exact counts", "anchors": ["src/scrypt.rs: derive", "src/scrypt.rs: ro_mix", "src/scrypt.rs: block_mix"]}
{"id": "C95", "title": "Pairs of HMAC keys with related MACs", "statement": "For every key there is exactly one 64-byte key block whose inner pad is the outer pad of the key: the zero-extended (or hashed) key with 0x6a added to every byte. It always differs from the key's own block, and the relation is mutual. HMac::new gives this partner the same two hashers in exchanged places. Hence for all messages m, with I the key's inner pad block: the MAC under the partner of SHA-256(I || m) is SHA-256(I || MAC of m), and the relation stays under any number of repeated MACs.", "quantifier": "all keys and messages within the length limits, all targets, all numbers of repetitions", "why_tests_cant": "a relation between MACs under two keys for all keys and messages", "anchors": ["src/hmac.rs: new", "src/hmac.rs: digest"]}
{"id": "C96", "title": "Lanes that scrypt's mixing cannot tell apart", "statement": "Flipping the top bit of every 32-bit word in any of the 64-byte blocks of its input changes neither what block_mix nor what ro_mix returns: every lane of 2r blocks shares its result with 4^r - 1 others, so at most one result in 4^r is reached. The lane of zeros is returned unchanged. Two salts whose lanes differ in such flips only derive the same key and give an observer the same record. (That different lanes are mixed to different lanes is false for every lane.)", "quantifier": "all r, n = 2^k, p that fit, all lanes, all choices of blocks, all targets", "why_tests_cant": "each result has 4^r preimages among 2^(1024 r) lanes", "anchors": ["src/scrypt.rs: block_mix", "src/scrypt.rs: ro_mix", "src/salsa20.rs: salsa20"]}
{"id": "C97", "title": "What a hasher, an HMac and a cipher hold in memory", "statement": "After any sequence of update and digest calls every field of a SHA256 object is known, including the bytes of its 64-byte buffer that no longer matter: pending bytes over the last complete block; after a digest the last block of the padded message. Two messages of one length leave the same object after the digest if and only if the digests agree and, when the padding fits behind the last incomplete block (length mod 64 at most 55), those blocks agree. An HMac that has not been digested holds its key whatever has been fed to it: the outer hasher's buffer is the key block under the constant 0x5c, and for messages shorter than 64 bytes the inner buffer shows the key from the end of the message on. The digest replaces both: afterwards two keys leave the same object for a message if and only if the inner hashes and the MACs agree, so nothing else of the key is left. A Cipher and a Decipher hold the key last accepted in clear, after any calls: it is the beginning of the round keys.", "quantifier": "all call sequences, messages, keys and targets within the length limits", "why_tests_cant": "about bytes that no call returns, after every history of calls", "anchors": ["src/sha256.rs: update", "src/sha256.rs: digest", "src/hmac.rs: new", "src/hmac.rs: update", "src/hmac.rs: digest", "src/aes.rs: init", "src/aes_cbc.rs: Cipher", "src/aes_cbc.rs: Decipher"]}
{"id": "C98", "title": "Ciphertexts that decrypt under several keys", "statement": "For each block of a ciphertext one may choose any key and any 16 bytes: there is a ciphertext with any given last block such that the Decipher, with each of the keys, gives out at every position the bytes chosen for that key (only the first block needs a chosen initialisation vector), and it is the only one. A ciphertext with last block z can be accepted under two keys if and only if the exclusive or of the two decryptions of z ends in a byte x below 32 that is repeated x - 16 times (once if that is less); a last byte up to 17 always is enough. With such a z all blocks before it can still be chosen freely for either key and both deciphers report no error. That a ciphertext is accepted under one key only is refuted with a ciphertext of three blocks whose message begins with one sentence under one key and contains another sentence under the other, with valid padding under both.", "quantifier": "all keys of the three sizes, all choices of blocks, all last blocks, any number of keys and blocks, all targets, all ways to cut the ciphertext", "why_tests_cant": "about all pairs of keys and all ciphertexts; such ciphertexts do not turn up by chance", "anchors": ["src/aes_cbc.rs: Decipher", "src/aes.rs: decrypt", "src/pkcs7.rs: Unpad"]}
{"id": "C99", "title": "PBKDF2 keys at half the work", "statement": "The key pbkdf2_sha256 writes can be computed by keeping the two chaining values behind the pads of the password: the result is the same for all passwords, salts, counts and lengths, and it takes exactly 2 compressions for the pads, the blocks of the password once if it has more than 64 bytes, and for each 32 bytes of output the blocks of salt and number, 1, and 2 for each iteration after the first. The program makes an HMAC state anew in every iteration: its steps are at least 524 (the exact cost of one of its compressions) for each of those compressions and, for every iteration of every block but one, for the pads and the hash of the password again. With a salt of up to 51 bytes the work of the program is at least twice the other's, but for the pads; so the claim that trying a password costs what the program spends on it is refuted.", "quantifier": "all passwords, salts, iteration counts, output lengths and targets within the stated sizes", "why_tests_cant": "the cost of an algorithm that is not in the program, for all inputs; a test sees the program's time only", "anchors": ["src/pbkdf2.rs: pbkdf2_sha256", "src/hmac.rs: HMac::new", "src/sha256.rs: process_block"]}
{"id": "C100", "title": "SHA-256, from the text of the program", "statement": "The text of src/sha256.rs, parsed and interpreted, returns on every history of update and digest calls what the hasher of the specification returns, and panics exactly where it does; a message fed in any number of pieces gets its RFC 6234 digest.", "quantifier": "all histories, messages, splittings and targets, within the limits of C01 for the digest", "why_tests_cant": "all inputs and histories; and no model written by hand stands between the text and the theorem", "anchors": ["src/sha256.rs"]}
{"id": "C101", "title": "HMAC, from the text of the program", "statement": "The text of src/hmac.rs, parsed and interpreted, returns for every key and on every history of calls what the specification's machine returns, and panics exactly where it does; a message in any number of pieces gets its RFC 2104 HMAC-SHA256.", "quantifier": "all keys, histories, messages, splittings and targets, within the limits of C06 for the MAC", "why_tests_cant": "all inputs; and no model written by hand stands between the text and the theorem", "anchors": ["src/hmac.rs", "src/sha256.rs"]}
{"id": "C102", "title": "PBKDF2, from the text of the program", "statement": "The text of pbkdf2_sha256, parsed and interpreted, leaves the RFC 2898 key in the buffer behind its mutable reference, whatever was in it, within the limits of C10; beyond them it does exactly what the model does, panics included, so the other theorems about pbkdf2_sha256 hold of the text.", "quantifier": "all passwords, salts, counts, buffers and targets", "why_tests_cant": "all inputs; and no model written by hand stands between the text and the theorem", "anchors": ["src/pbkdf2.rs", "src/hmac.rs", "src/sha256.rs"]}
{"id": "C103", "title": "Salsa20, from the text of the program", "statement": "The text of src/salsa20.rs, parsed and interpreted, turns 64 bytes into the Salsa20 block with the given number of double rounds, and panics exactly if the input or the output is shorter than 64 bytes.", "quantifier": "all inputs, outputs, numbers of rounds and targets", "why_tests_cant": "all inputs; and no model written by hand stands between the text and the theorem", "anchors": ["src/salsa20.rs"]}
{"id": "C104", "title": "PKCS#7, from the text of the program", "statement": "The text of src/pkcs7.rs, parsed and interpreted: a Pad for blocks of 1 to 255 bytes, written to in any pieces and flushed, returns the RFC 5652 padding of the message; an Unpad accepts exactly the data C35 describes and returns the message. For every block size the text does what the model does, so the other theorems about padding hold of the text.", "quantifier": "all block sizes, messages, splittings and targets", "why_tests_cant": "all inputs and call orders; and no model written by hand stands between the text and the theorem", "anchors": ["src/pkcs7.rs"]}
{"id": "C105", "title": "AES, from the text of the program", "statement": "The text of src/aes.rs, parsed and interpreted: an AES object replies to every sequence of init, encrypt and decrypt what the specification's machine over FIPS-197 replies, errors included, and never panics; in particular it computes Cipher and InvCipher for keys of 128, 192 and 256 bits.", "quantifier": "all sequences of calls with keys of any length and blocks of 16 bytes, all targets", "why_tests_cant": "all inputs and call orders; and no model written by hand stands between the text and the theorem", "anchors": ["src/aes.rs"]}
{"id": "C106", "title": "AES-CBC, from the text of the program", "statement": "The text of src/aes_cbc.rs, parsed and interpreted together with the files it uses: Cipher and Decipher reply to every sequence of init, write and flush what the specification's machines reply; a message in any pieces is encrypted as SP 800-38A and RFC 5652 say, and the Decipher recovers it from the ciphertext cut into any pieces.", "quantifier": "all keys, initialisation vectors, messages, splittings, call sequences and targets; no slice within 16 bytes of the largest size a slice can have", "why_tests_cant": "all inputs and call orders; and no model written by hand stands between the text and the theorem", "anchors": ["src/aes_cbc.rs", "src/aes.rs", "src/pkcs7.rs"]}
{"id": "C107", "title": "scrypt, from the text of the program", "statement": "The text of src/scrypt.rs, parsed and interpreted together with the files it uses: Scrypt::new(r, n, p).derive(..) computes the scrypt of draft-josefsson-scrypt-kdf-03 for admissible parameters, answers with exactly the errors C21 lists otherwise, leaving the output alone, and in every case, panics included, does what the model does, so the other theorems about scrypt hold of the text.", "quantifier": "all parameters, passphrases, salts, outputs and targets; conformance within the size limits of C20", "why_tests_cant": "all inputs; and no model written by hand stands between the text and the theorem", "anchors": ["src/scrypt.rs", "src/pbkdf2.rs", "src/salsa20.rs"]}
{"id": "C108", "title": "Error descriptions and displayed errors, from the text of the program", "statement": "The text of the four description functions, parsed and interpreted, gives for each error value the sentence C48 lists; a DecipherError gives that of the error it wraps. The text of the four impl Display blocks writes the name of the type, a colon and that sentence behind whatever was written before, and succeeds.", "quantifier": "all error values and targets, all texts written before", "why_tests_cant": "all error values at once, from the text itself", "anchors": ["src/aes.rs", "src/pkcs7.rs", "src/aes_cbc.rs", "src/scrypt.rs"]}
{"id": "C109", "title": "Fuel and overflow checks do not change results of the text", "statement": "For every program in the parsed syntax, every function and all arguments: a run that ends, in a result or a panic, ends in the same way with more fuel, so each call of the text has one outcome and the fuel in C100-C108 is no restriction. Whatever a build with overflow checks returns, the build without them returns too, with the same effects on what is passed by mutable reference; so also any sequence of calls on an object. (That both builds do the same is false: the checked one may panic where the other returns.)", "quantifier": "all programs of the syntax, functions, arguments, amounts of fuel, pointer widths and call sequences", "why_tests_cant": "quantifies over all programs and arguments; two builds of one source cannot be compared on all inputs by running them", "anchors": ["src/sha256.rs", "src/hmac.rs", "src/pbkdf2.rs", "src/salsa20.rs", "src/scrypt.rs", "src/aes.rs", "src/pkcs7.rs", "src/aes_cbc.rs"]}
{"id": "C110", "title": "The text of SHA-256, HMAC, PBKDF2, Salsa20, scrypt's block mixing and adding a padding shows lengths only", "statement": "An observer of the parsed source sees, for every run, which way each branch goes, each index and slice bound, the number of turns of each loop, the size of each array made or worked through, each call and the operands of each division. For any two histories of updates and digests on a SHA256 object with data of the same lengths, on an HMac object with keys and data of the same lengths, for any two calls of pbkdf2_sha256 with passwords, salts and outputs of the same lengths and the same iteration count, of salsa20 with the same number of rounds and lengths, of Scrypt::block_mix with the same parameters and block lengths, and for any two histories of writes and flushes on a Pad with data of the same lengths, the observations are equal, also if they end in a panic. Recording does not change what is computed. (The same is false of AES key expansion, AES doubling and Unpad::flush.)", "quantifier": "all keys, passwords, salts, data, outputs, histories of calls, pointer widths and overflow modes; the check is right for all programs of the syntax", "why_tests_cant": "a relation between all pairs of secret inputs; a timing test compares a few of them", "anchors": ["src/sha256.rs", "src/hmac.rs", "src/pbkdf2.rs", "src/salsa20.rs", "src/aes.rs:74-106", "src/pkcs7.rs"]}
{"id": "C111", "title": "The text of scrypt shows nothing of its secrets but dividends, those of AES and CBC nothing but indices and branches", "statement": "With the record of C110. Two calls of Scrypt::derive with the same parameters and with passphrases, salts and outputs of the same lengths have the same record, or their records are equal up to a division of two different numbers by the same number; if all divisions in the two records are equal, then so is everything else, and both return, both panic or both run out of fuel. The same holds of AES::init with keys of the same length and of AES::encrypt and AES::decrypt on objects with the same number of rounds and round keys of the same length (or none), and of histories of init, write and flush on a CBC Cipher and of init and write on a Decipher, with ivs, keys and data of the same lengths, with array indices and branches in place of divisions. (That scrypt's mixing shows nothing at all is false.)", "quantifier": "all passphrases, salts, outputs, parameters, keys, round keys, blocks, pointer widths and overflow modes; the check is right for all programs of the syntax and all choices of the kinds of events that may differ", "why_tests_cant": "a relation between all pairs of secret inputs; a timing test compares a few of them and does not say where they part", "anchors": ["src/scrypt.rs:73-300", "src/aes.rs:74-150", "src/aes.rs:162-407", "src/aes_cbc.rs"]}
{"id": "C112", "title": "Encrypting under a passphrase, from the text of the program", "statement": "The texts of src/scrypt.rs and src/aes_cbc.rs used together: derive a key of 16, 24 or 32 bytes from a passphrase and a salt into a buffer, then write a message in any pieces to a new Cipher with that key and flush it. For admissible parameters the output is the SP 800-38A encryption of the padded message under the key of the scrypt draft, whatever the buffer held. A Decipher with the key derived on any target from a passphrase that HMAC makes the same block of gives the message back, the ciphertext cut in any way. (That only the passphrase that sealed a message opens it is false, for every passphrase of a length other than 64.) With parameters scrypt refuses, the error is all there is.", "quantifier": "all passphrases, salts, admissible parameters, buffers, ivs, messages, cuts, pointer widths and overflow modes on both sides", "why_tests_cant": "a test runs a few passphrases on one machine, and does not look for a second passphrase that opens the same message", "anchors": ["src/scrypt.rs: Scrypt::derive", "src/aes_cbc.rs: Cipher, Decipher", "src/hmac.rs: HMac::new"]}
