NOTES = {
 "C04": ("proved", "Exact outcome for every length and target; the RFC limit of 2^61 bytes is refuted for 32-bit targets (C04_rfc_limit_refuted)."),
 "C05": ("proved", "Exact machine for every history; idempotence is refuted by witness."),
 "C09": ("proved", "Exact machine for every history; idempotence is refuted by witness."),
 "C13": ("proved", "The code accepts c = 0 (refuted: rejection)."),
 "C14": ("proved", "The code does not report over-long keys (refuted by witness); exact output for every length."),
 "C17": ("proved", "Exact behaviour; the documented multi-block reading is refuted by witness."),
 "C19": ("proved", "Collision for every input and round count; injectivity refuted."),
 "C22": ("proved", "The bounds of the documentation and the RFC are not enforced (refuted by witnesses)."),
 "C24": ("proved", "Exact outcome of the overflow in both kinds of build; dependence on the salt refuted."),
 "C36": ("proved", "Refuted by witness: a final byte 0 is accepted as no padding, and for every key, iv and block string ending in 0 the decipher accepts a ciphertext of it; exactly this and valid padding are accepted."),
 "C40": ("proved", "Refuted by witness: up to 15 trailing bytes are ignored; for every input they change no reply."),
 "C41": ("proved", "Refuted by witnesses: a failed write is neither without effect nor kept; exactly what is lost is proved."),
 "C47": ("proved", "Soundness proved for block sizes 1 to 255 and refuted for every other one."),
 "C49": ("proved", "Refuted expectation: a padding-oracle strategy recovers every block and every message, proved for all keys and blocks."),
 "C51": ("proved", "Refuted expectation: explicit length-extension function, proved for all secrets, messages and suffixes."),
 "C54": ("proved", "Refuted expectation: a family of 2^32 unmixed inputs, proved for every round count."),
 "C57": ("proved", "Source-level program counter and memory address model (Leak/Ops.v): compiler, division timing and allocator growth are not covered."),
 "C58": ("proved", "Source-level program counter and memory address model (Leak/Ops.v): compiler, division timing and allocator growth are not covered."),
 "C59": ("proved", "Source-level program counter and memory address model (Leak/Ops.v): compiler, division timing and allocator growth are not covered."),
 "C60": ("proved", "Source-level program counter and memory address model (Leak/Ops.v): compiler, division timing and allocator growth are not covered."),
 "C64": ("proved", "Source-level program counter and memory address model (Leak/Ops.v): compiler, division timing and allocator growth are not covered."),
 "C61": ("proved", "Refuted expectation: the record depends on the passphrase (witness); it depends on exactly the table positions. Source-level program counter and memory address model (Leak/Ops.v): compiler, division timing and allocator growth are not covered."),
 "C62": ("proved", "Refuted expectation, for every pair of different keys or blocks. Source-level program counter and memory address model (Leak/Ops.v): compiler, division timing and allocator growth are not covered."),
 "C63": ("proved", "Refuted expectation, for every pair of different keys of one size. Source-level program counter and memory address model (Leak/Ops.v): compiler, division timing and allocator growth are not covered."),
 "C65": ("proved", "Exact characterisation, both directions. Source-level program counter and memory address model (Leak/Ops.v): compiler, division timing and allocator growth are not covered."),
 "C66": ("proved", "Agreement of release with debug builds on one target is refuted by witness (a block size whose double wraps)."),
 "C67": ("proved", "Exact behaviour on every text; refusal of odd lengths is refuted by witness."),
 "C68": ("proved", "Refuted expectation: for every salt, parameters and output length two passphrases derive one key; the equivalences are proved for all inputs."),
 "C71": ("proved", "Steps are the events of the source-level model Leak/Ops.v."),
 "C72": ("proved", "Refuted expectation: the exact extra work of long passwords is proved. Steps are the events of the source-level model Leak/Ops.v."),
 "C73": ("proved", "Steps are the events of the source-level model Leak/Ops.v."),
 "C76": ("proved", "Steps are the events of the source-level model Leak/Ops.v."),
 "C77": ("proved", "Steps are the events of the source-level model Leak/Ops.v. A user's expectation that a failing and a succeeding flush cost the same is REFUTED by C77_failure_is_faster."),
 "C78": ("proved", "The expectation that keys of different iteration counts are unrelated is REFUTED by C78_three_counts and C78_one_and_two."),
 "C80": ("proved", "The expectation that a rearranged ciphertext is noticed is REFUTED by C80_splice_accepted."),
 "C84": ("proved", "The expectation that ciphertexts hide the secret is REFUTED by C84_secret_is_safe_refuted, which gives the strategy and proves it right for every key."),
 "C85": ("proved", "The expectation that accepted ciphertexts are authentic is REFUTED by C85_accepted_means_authentic_refuted, which gives the forgery for every key and message."),
 "C86": ("proved", "The exact set is proved; the expectation that a lost block is noticed is REFUTED by C86_lost_block_is_noticed_refuted."),
 "C87": ("proved", "The expectation that passwords of one length have different keys is REFUTED by C87_passwords_of_one_length_refuted, by counting; no colliding pair is exhibited."),
 "C82": ("proved", "The expectation that salsa20 leaves the output buffer alone when it panics is REFUTED by C82_salsa20_keeps_buffer_refuted."),
 "C89": ("proved", "Memory is what Heap/Ops.v records, up to line 293. The expectation of 128*r*n bytes is REFUTED by C89_textbook_size_refuted."),
 "C93": ("proved", "Visible is what Leak/*.v records. The expectation that the calls hide key and message is REFUTED by C93_cipher_record_determines_calls, for every session."),
 "C94": ("proved", "The expectation that a key takes a table that grows with n is REFUTED by C94_table_is_needed_refuted, for all parameters."),
 "C95": ("proved", "So the expectation that MACs under different keys are unrelated is refuted for every key."),
 "C96": ("proved", "The expectation that different lanes are mixed to different lanes is REFUTED for every lane by C96_injective_refuted."),
 "C97": ("proved", "The expectation that an HMac does not hold its key is REFUTED for every key and message by C97_hmac_holds_key; only digest removes it. About the objects while they exist: copies the compiler makes, and memory after it is freed, are not modelled."),
 "C98": ("proved", "The expectation that a ciphertext is accepted under one key only is REFUTED by C98_one_key_refuted. For a particular pair of keys the existence of a suitable last block is a hypothesis of C98_two_messages; C98_accepted_under_both says exactly which blocks are suitable."),
 "C99": ("proved", "Compressions of the program are not counted as such: C99_program_work bounds its exact number of steps (C72) from below by 524 steps for each. The expectation that an attacker's cost per password is the program's is REFUTED by C99_half_refuted."),
 "C100": ("proved", "Run on the trees of Source/Tree.v (tools/gen_source.py's parse of src/) by the interpreter of Source/Interp.v; the fuel bounds the depth of calls."),
 "C101": ("proved", "Run on the trees of Source/Tree.v (tools/gen_source.py's parse of src/) by the interpreter of Source/Interp.v; the fuel bounds the depth of calls."),
 "C102": ("proved", "Run on the trees of Source/Tree.v (tools/gen_source.py's parse of src/) by the interpreter of Source/Interp.v; the fuel bounds the depth of calls."),
 "C103": ("proved", "Run on the trees of Source/Tree.v (tools/gen_source.py's parse of src/) by the interpreter of Source/Interp.v; the fuel bounds the depth of calls."),
 "C104": ("proved", "Run on the trees of Source/Tree.v (tools/gen_source.py's parse of src/) by the interpreter of Source/Interp.v; the fuel bounds the depth of calls and the turns of while loops."),
 "C105": ("proved", "Run on the trees of Source/Tree.v (tools/gen_source.py's parse of src/) by the interpreter of Source/Interp.v; the fuel bounds the depth of calls and the turns of while loops."),
 "C106": ("proved", "Run on the trees of Source/Tree.v (tools/gen_source.py's parse of src/) by the interpreter of Source/Interp.v; the fuel bounds the depth of calls and the turns of while loops. A slice longer than isize::MAX - 16 bytes is excluded: there Vec::with_capacity may be asked for more than isize::MAX."),
 "C107": ("proved", "Run on the trees of Source/Tree.v (tools/gen_source.py's parse of src/) by the interpreter of Source/Interp.v; the fuel bounds the depth of calls and the turns of while loops."),
 "C108": ("proved", "Run on the trees of Source/Tree.v (tools/gen_source.py's parse of src/) by the interpreter of Source/Interp.v; the fuel bounds the depth of calls and the turns of while loops. A formatter is the text written to it so far, and writing to it succeeds."),
 "C109": ("proved", "About the interpreter of Source/Interp.v and every program in its syntax, so about all 79 functions of Source/Tree.v. The expectation that builds with and without overflow checks do the same is REFUTED by C109_builds_agree_refuted."),
 "C110": ("proved", "From the text: the record is kept by the interpreter (Source/Observe.v) for every branch, index, slice, loop, size, call and division in the trees of Source/Tree.v, so unlike in C57-C60 nobody decides by hand where something is recorded. The check that finds no secret in the record is proved right for all programs; all 26 functions of sha256.rs, hmac.rs, pbkdf2.rs and salsa20.rs pass it, and 16 of scrypt.rs, pkcs7.rs and aes.rs. That AES key expansion, AES doubling and removing a padding do the same is REFUTED by C110_others_refuted."),
 "C111": ("proved", "From the text, with the record and the check of C110; the check also takes the kinds of events that may depend on secrets, and is proved right for each choice: the first difference of two records is in such an event. A branch or an index is allowed anywhere in the AES functions, not only where the text has one on secrets today; which one differs first is not stated. Decipher::flush and Unpad::flush are not checked (C110_others_refuted). C111_scrypt_shows_nothing_refuted: two inputs of ro_mix with different dividends."),
 "C112": ("proved", "From the text, by C106 and C107, under their size conditions. The client code between the two calls (look at the Result, hand the buffer to init) is written in Coq as `keyed`; /repo has no such client. C112_one_passphrase_refuted: the witness is the passphrase with a zero byte added, or its digest if it is longer than 64 bytes."),
 "C74": ("proved", "Refuted expectation, for every input and number of rounds."),
}
