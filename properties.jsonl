{"id": "C01", "title": "Live handles are unique and in range", "statement": "At every moment, two different live objects of the same kind (keys, cipher contexts, MAC contexts, SVP buffers, clients) have different handles, every handle handed out is below the configured capacity and is never the invalid-handle value, and creating an object fails with NO_AVAILABLE_RESOURCE_SLOT exactly when as many objects are live as the capacity allows.", "quantifier": "every capacity that the store accepts and every finite history of create and destroy requests, valid or not", "why_tests_cant": "tests create a handful of objects in a handful of orders; uniqueness and the exact exhaustion point must hold for every fill/free history", "anchors": ["reference/src/taimpl/src/internal/slots.c: slots_init, slots_allocate, slots_free", "reference/src/taimpl/src/internal/object_store.c: object_store_add, store_remove"]}
{"id": "C02", "title": "Handle stores behave like a finite map with owners", "statement": "Creating, using and destroying objects behaves like a map from handles to (object, owner): a handle returned by create designates exactly the object created, keeps designating it until it is destroyed, operations on one handle never change what another designates, and an unknown, destroyed or out-of-range handle is refused without any effect.", "quantifier": "every finite sequence of create / acquire / release / destroy requests with arbitrary handles and callers", "why_tests_cant": "the claim is about all histories, including reuse of a slot after destruction", "anchors": ["reference/src/taimpl/src/internal/object_store.c: object_store_add, object_store_acquire, object_store_release, object_store_remove"]}
{"id": "C03", "title": "Only the creator can use or destroy an object", "statement": "A request that names an object created by a different caller identity is refused with OPERATION_NOT_ALLOWED and changes nothing; in particular no caller can use, copy or release another caller's key, context or buffer.", "quantifier": "every history and every pair of caller identities", "why_tests_cant": "isolation must hold against every sequence of foreign requests, not just the ones a test tries", "anchors": ["reference/src/taimpl/src/internal/object_store.c: object_store_acquire, object_store_release, store_remove"]}
{"id": "C04", "title": "No object is destroyed while it is in use", "statement": "Under every interleaving of threads, an object that some thread has acquired and not yet released is not destroyed; the destroyer waits, each object is destroyed at most once, and nobody can acquire it after destruction.", "quantifier": "every number of threads, every interleaving of their lock-protected steps", "why_tests_cant": "use-after-free races appear only on particular schedules", "anchors": ["reference/src/taimpl/src/internal/object_store.c: store_remove, object_store_acquire, object_store_release, object_store_shutdown"]}
{"id": "C05", "title": "Shutdown stops new use and destroys everything", "statement": "Once a store's shutdown has begun no request can acquire or create an object in it, and when shutdown completes every object that was live has been destroyed exactly once, whoever owned it.", "quantifier": "every store content and every interleaving of outstanding users with the shutdown", "why_tests_cant": "requires all schedules of outstanding references and concurrent removals", "anchors": ["reference/src/taimpl/src/internal/object_store.c: object_store_shutdown, store_remove, object_store_acquire, object_store_add"]}
{"id": "C06", "title": "Every call returns the references it took", "statement": "Whatever its arguments and result, a completed sa_crypto_cipher_process or sa_crypto_cipher_process_last call leaves the number of outstanding references and exclusive locks on the client and the cipher context exactly as it found them, so that the context can later be used, released, and the client closed.", "quantifier": "every argument combination, including buffer-type values outside the enumeration", "why_tests_cant": "leaks only on rare error paths, and then shows up as a hang much later", "anchors": ["reference/src/taimpl/src/ta_sa_crypto_cipher_process.c: ta_sa_crypto_cipher_process", "reference/src/taimpl/src/ta_sa_crypto_cipher_process_last.c: ta_sa_crypto_cipher_process_last", "reference/src/taimpl/src/internal/cipher_store.c: cipher_store_acquire_exclusive, cipher_store_release_exclusive"]}
{"id": "C07", "title": "Concurrent SVP operations cannot deadlock", "statement": "Two clients' threads that concurrently operate on SVP buffers (for instance sa_svp_buffer_copy from A to B and from B to A) always both finish.", "quantifier": "every pair of operations and every interleaving", "why_tests_cant": "a lock-order deadlock needs a precise schedule", "anchors": ["reference/src/taimpl/src/ta_sa_svp_buffer_copy.c: ta_sa_svp_buffer_copy", "reference/src/taimpl/src/internal/svp_store.c: svp_store_acquire_exclusive"]}
{"id": "C08", "title": "A key is only used as its usage flags allow", "statement": "Encrypting, decrypting, signing, computing a MAC, unwrapping, deriving, exchanging and exporting succeed only if the corresponding flag (ENCRYPT, DECRYPT, SIGN, UNWRAP, DERIVE, KEY_EXCHANGE, CACHEABLE) is set in the rights stored with the key; otherwise the answer is OPERATION_NOT_ALLOWED and no key material, handle or output is produced.", "quantifier": "every rights value, key, algorithm and argument combination", "why_tests_cant": "the space of 64-bit flag words times operations cannot be enumerated", "anchors": ["reference/src/taimpl/src/internal/rights.c: rights_allowed_*", "reference/src/taimpl/src/ta_sa_crypto_cipher_init.c", "reference/src/taimpl/src/ta_sa_key_unwrap.c", "reference/src/taimpl/src/ta_sa_key_derive.c", "reference/src/taimpl/src/ta_sa_key_exchange.c", "reference/src/taimpl/src/ta_sa_crypto_sign.c", "reference/src/taimpl/src/ta_sa_crypto_mac_init.c", "reference/src/taimpl/src/internal/key_store.c: key_store_export"]}
{"id": "C09", "title": "A key is only usable inside its validity window", "statement": "No operation obtains a key's material at a time before not_before or at/after not_on_or_after; inside the window the time check never refuses.", "quantifier": "every 64-bit clock value and window, including empty and maximal windows", "why_tests_cant": "boundary instants over 2^64 clock values", "anchors": ["reference/src/taimpl/src/internal/rights.c: rights_allowed_time", "reference/src/taimpl/src/internal/key_store.c: key_store_unwrap"]}
{"id": "C10", "title": "Output protection flags gate decryption by video output state", "statement": "With a symmetric key, decryption or encryption proceeds only when every active unprotected, CGMS-A, HDCP 1.4, HDCP 2.2 and DTCP output is permitted by the corresponding usage flag and secure video path is enabled unless SVP_OPTIONAL is set; and this is decided again on each processing call, not only when the context is created.", "quantifier": "every rights value and every combination of output counts", "why_tests_cant": "the product of flag words and output states is unbounded", "anchors": ["reference/src/taimpl/src/internal/rights.c: rights_allowed_video_output_state, rights_allowed_decrypt", "reference/src/taimpl/src/ta_sa_crypto_cipher_process.c: ta_sa_crypto_cipher_process_symmetric"]}
{"id": "C11", "title": "A key is only usable by the TAs on its allow list", "statement": "A caller obtains a key's material only if its identity occurs in the key's list of allowed TAs or the list contains the all-match entry; the no-match entry never grants access.", "quantifier": "every list of 32 identities and every caller", "why_tests_cant": "cannot enumerate 128-bit identities in 32 positions", "anchors": ["reference/src/taimpl/src/internal/rights.c: rights_allowed_uuid", "reference/src/taimpl/src/internal/key_store.c: key_store_unwrap"]}
{"id": "C12", "title": "A child key never gains rights its parent withholds", "statement": "A key derived, unwrapped or exchanged from a parent key never carries an output-protection flag (analog/digital unprotected, CGMS-A, HDCP, DTCP, SVP optional) that the parent lacks, and if the parent restricts child usage it carries no usage flag outside that restriction; nothing else in the requested rights changes.", "quantifier": "every parent rights and every requested child rights (all 64-bit flag words)", "why_tests_cant": "2^128 flag combinations", "anchors": ["reference/src/taimpl/src/internal/stored_key.c: restrict_child_rights, stored_key_create", "reference/src/client/include/sa_types.h: sa_usage_flag, sa_rights"]}
{"id": "C13", "title": "Exported keys import with the same identity", "statement": "A key exported and imported again has the same rights, type, parameters, size and key bytes as the original, and a key without the CACHEABLE flag is never exported.", "quantifier": "every key, mixin and derivation secret", "why_tests_cant": "round trip over all keys and rights", "anchors": ["reference/src/taimpl/src/internal/key_store.c: key_store_export, key_store_import_exported, wrapped_key_create, unwrap", "reference/src/taimpl/src/internal/pad.c"]}
{"id": "C14", "title": "Importing an exported blob never reads outside it and never accepts a modified one", "statement": "For every byte string offered as an exported key, import stays within the given bytes, and it succeeds only when the embedded authentication code matches the header, parameters and ciphertext that will be used.", "quantifier": "every byte string of every length", "why_tests_cant": "malformed-length inputs are unbounded", "anchors": ["reference/src/taimpl/src/internal/key_store.c: key_store_import_exported, unwrap, validate_header_format"]}
{"id": "C15", "title": "Protected content never reaches a clear buffer without permission", "statement": "A decrypt or encrypt call whose output buffer is clear succeeds only if the key has SVP_OPTIONAL set; content that entered through an SVP buffer is never written to a clear buffer; authenticated and asymmetric ciphers never write to SVP buffers.", "quantifier": "every key rights, algorithm and buffer-type combination", "why_tests_cant": "must hold for every combination of rights, algorithm and buffers", "anchors": ["reference/src/taimpl/src/ta_sa_crypto_cipher_process.c", "reference/src/taimpl/src/ta_sa_crypto_cipher_process_last.c", "reference/src/taimpl/src/ta_sa_process_common_encryption.c: verify_sample", "reference/src/taimpl/src/ta_sa_svp_key_check.c", "reference/src/taimpl/src/internal/rights.c: rights_allowed_clear"]}
{"id": "C16", "title": "Buffers handed to ciphers are in range", "statement": "Whenever a clear or SVP buffer description (base, length, offset) and a byte count are accepted, the byte range that will be accessed lies inside the described buffer and does not wrap the address space; otherwise the call fails before touching memory.", "quantifier": "every 64-bit base, length, offset and count", "why_tests_cant": "integer wrap-around cases over 64-bit values", "anchors": ["reference/src/taimpl/src/internal/buffer.c: convert_buffer", "reference/src/taimpl/src/porting/overflow.c: add_overflow", "reference/src/taimpl/src/porting/memory.c: memory_is_valid_clear"]}
{"id": "C17", "title": "SVP writes and copies are bounded and all-or-nothing", "statement": "sa_svp_buffer_write and sa_svp_buffer_copy either perform every requested segment, changing exactly the destination ranges to the source bytes, or change nothing and fail; no segment reads or writes outside either buffer.", "quantifier": "every list of 64-bit (out offset, in offset, length) segments", "why_tests_cant": "overflowing segment lists are unbounded", "anchors": ["reference/src/taimpl/src/porting/svp.c: svp_write, svp_copy", "reference/src/taimpl/src/ta_sa_svp_buffer_write.c", "reference/src/taimpl/src/ta_sa_svp_buffer_copy.c"]}
{"id": "C18", "title": "Creating an SVP buffer validates its memory", "statement": "sa_svp_buffer_create fails for a memory range that wraps the address space, and on success returns a handle whose buffer describes exactly the memory and size given.", "quantifier": "every 64-bit address and size", "why_tests_cant": "only wrapping ranges expose it", "anchors": ["reference/src/taimpl/src/porting/svp.c: svp_create_buffer, svp_validate_buffer", "reference/src/taimpl/src/internal/svp_store.c: svp_store_create", "reference/src/taimpl/src/porting/memory.c: memory_is_valid_svp"]}
{"id": "C19", "title": "Releasing an SVP buffer frees its handle", "statement": "Every sa_svp_buffer_release call that reports success has destroyed the handle and returned the buffer's memory and size; a failing one leaves the buffer usable; it always terminates.", "quantifier": "every state of the SVP buffer and every caller", "why_tests_cant": "depends on how the buffer came into being", "anchors": ["reference/src/taimpl/src/internal/svp_store.c: svp_store_release", "reference/src/taimpl/src/porting/svp.c: svp_release_buffer"]}
{"id": "C20", "title": "Common-encryption subsample layout is respected", "statement": "Decrypting a sample copies every clear byte unchanged, transforms exactly the bytes the CENC scheme (cenc, cens, cbc1, cbcs) marks as protected, leaves partial trailing blocks clear where the scheme says so, writes exactly as many bytes as the subsamples total, and advances both buffer offsets by that amount.", "quantifier": "every subsample list, every crypt/skip pattern, every content", "why_tests_cant": "layouts are unbounded sequences", "anchors": ["reference/src/taimpl/src/internal/cenc.c: cenc_process_sample", "reference/src/client/include/sa_cenc.h"]}
{"id": "C21", "title": "Common-encryption counter arithmetic follows the standard", "statement": "In counter mode the keystream block for the k-th protected 16-byte block uses the 8-byte IV unchanged and the 8-byte block counter increased by k modulo 2^64, across subsample boundaries that split a block and across counter roll-over.", "quantifier": "every starting counter, every sequence of protected range lengths", "why_tests_cant": "roll-over needs specific 64-bit counters combined with specific fragmentations", "anchors": ["reference/src/taimpl/src/internal/cenc.c: decrypt"]}
{"id": "C22", "title": "Common-encryption processing stays inside the sample and terminates", "statement": "For every accepted sample, processing terminates, every byte read lies in the input range and every byte written lies in the output range given by the sum of the subsample lengths.", "quantifier": "every accepted sample with every pattern, length and counter value", "why_tests_cant": "needs 64-bit extreme pattern and counter values", "anchors": ["reference/src/taimpl/src/internal/cenc.c: cenc_process_sample, decrypt, cenc_get_required_length"]}
{"id": "C23", "title": "A decryption failure inside a sample is reported", "statement": "If decrypting any protected range of a sample fails, sa_process_common_encryption does not report success for that sample.", "quantifier": "every position at which the cipher may fail", "why_tests_cant": "failures must be injected at every point", "anchors": ["reference/src/taimpl/src/internal/cenc.c: cenc_process_sample"]}
{"id": "C24", "title": "Common encryption refuses overlapping buffers", "statement": "If the input and output ranges of a sample overlap in memory the call is refused before any byte is written, and every accepted sample's ranges are disjoint while it is processed.", "quantifier": "every pair of ranges and every list of samples, including samples that share buffers", "why_tests_cant": "address arithmetic over 64-bit values and multi-sample calls", "anchors": ["reference/src/taimpl/src/ta_sa_process_common_encryption.c: verify_sample, ta_sa_process_common_encryption"]}
{"id": "C25", "title": "Sample length accounting never wraps", "statement": "The required length of a sample is the exact sum of all subsample lengths, or the call is refused when that sum does not fit in 64 bits.", "quantifier": "every list of 64-bit subsample lengths", "why_tests_cant": "overflow combinations are unbounded", "anchors": ["reference/src/taimpl/src/internal/cenc.c: cenc_get_required_length"]}
{"id": "C26", "title": "PKCS#7 padding is exact", "statement": "Padding any message and then stripping returns the message; stripping succeeds only for correctly padded blocks, whose pad value is between 1 and 16; padded length is the next multiple of 16 strictly above the length.", "quantifier": "every message and every final block", "why_tests_cant": "all block contents (2^128)", "anchors": ["reference/src/taimpl/src/internal/pad.c: pad_check_pkcs7, pad_apply_pkcs7", "reference/src/taimpl/src/internal/key_store.c: pad"]}
{"id": "C27", "title": "Key sizes and types are enforced at creation", "statement": "Every key that exists in a store has a type/size pair allowed by the specification (AES/HMAC 16..512 bytes, RSA 128/256/384/512, EC the curve's size, DH 1..512) and a NUL-terminated identifier.", "quantifier": "every creation request by every route", "why_tests_cant": "all sizes, types and curves", "anchors": ["reference/src/taimpl/src/internal/key_type.c", "reference/src/taimpl/src/internal/stored_key.c: stored_key_create", "reference/src/taimpl/src/internal/rights.c: rights_validate_format"]}
{"id": "C28", "title": "MAC contexts compute the MAC of exactly the data fed, once", "statement": "The value returned by sa_crypto_mac_compute is the MAC of the concatenation, in order, of all data and keys successfully processed since initialisation; asking only for the length, or offering too small a buffer, changes nothing; after a successful compute every further process or compute is refused.", "quantifier": "every sequence of process / process_key / compute calls", "why_tests_cant": "unbounded call histories", "anchors": ["reference/src/taimpl/src/ta_sa_crypto_mac_process.c", "reference/src/taimpl/src/ta_sa_crypto_mac_compute.c", "reference/src/taimpl/src/internal/hmac_context.c", "reference/src/taimpl/src/internal/cmac_context.c"]}
{"id": "C29", "title": "Key derivation follows the published KDFs", "statement": "sa_key_derive with HKDF yields RFC 5869 output, CONCAT yields SP 800-56A one-step output, ANSI X9.63 yields X9.63 output, CMAC yields the requested slice of the four-block counter-mode CMAC, each truncated to exactly the requested length; requests beyond the limits are refused.", "quantifier": "every length, digest, salt, info and secret", "why_tests_cant": "all lengths including exact multiples and remainders of the digest size", "anchors": ["reference/src/taimpl/src/internal/kdf.c: kdf_hkdf_hmac, kdf_concat_kdf, kdf_ansi_x963, kdf_ctr_cmac", "reference/src/taimpl/src/ta_sa_key_derive.c"]}
{"id": "C30", "title": "Netflix authenticated DH exchange is all-or-nothing", "statement": "The exchange either creates all three output keys or leaves no new key in the store, whichever step fails.", "quantifier": "every failure point and store state", "why_tests_cant": "failures must be injected at every step", "anchors": ["reference/src/taimpl/src/ta_sa_key_exchange.c: ta_sa_key_exchange_netflix_dh", "reference/src/taimpl/src/internal/netflix.c"]}
{"id": "C31", "title": "Creation calls yield a valid handle exactly on success", "statement": "When a key creation call (generate, import, unwrap, derive, exchange) reports success the returned handle designates the new key; when it reports failure no new key exists in the store.", "quantifier": "every request and every internal failure", "why_tests_cant": "every failure path must be covered", "anchors": ["reference/src/taimpl/src/ta_sa_key_generate.c", "reference/src/taimpl/src/ta_sa_key_import.c", "reference/src/taimpl/src/ta_sa_key_unwrap.c", "reference/src/taimpl/src/ta_sa_key_derive.c", "reference/src/taimpl/src/ta_sa_key_exchange.c"]}
{"id": "C32", "title": "Unwrapping a padded key reads only the decrypted key", "statement": "Unwrapping with AES-ECB/CBC and PKCS#7 padding examines only bytes of the decrypted buffer and yields the plaintext with its padding removed, for every input length it accepts.", "quantifier": "every wrapped-key length that is a multiple of the block size, including zero", "why_tests_cant": "the zero length case is easy to miss", "anchors": ["reference/src/taimpl/src/internal/unwrap.c: unwrap_aes_ecb, unwrap_aes_cbc", "reference/src/taimpl/src/ta_sa_key_unwrap.c"]}
{"id": "C33", "title": "A failed cipher initialisation leaves nothing behind", "statement": "When sa_crypto_cipher_init fails no cipher context exists, and the key copy it held is destroyed exactly once.", "quantifier": "every algorithm and failure point", "why_tests_cant": "requires failure at each internal step", "anchors": ["reference/src/taimpl/src/ta_sa_crypto_cipher_init.c: ta_sa_crypto_cipher_init_rsa_oaep, ta_sa_crypto_cipher_init", "reference/src/taimpl/src/internal/cipher_store.c: cipher_store_add_asymmetric_key"]}
{"id": "C34", "title": "Command marshalling never accesses memory outside what the caller provided", "statement": "For every command identifier and every four parameters an untrusted caller sends (types, pointers, sizes and contents), the command dispatcher and marshalling layer reads only inside provided input memory, writes only inside provided output memory, and stays inside its own stack and heap objects before calling the implementation.", "quantifier": "every command, parameter type word, pointer (including NULL), size and field value", "why_tests_cant": "attacker-controlled 64-bit sizes cannot be enumerated", "anchors": ["reference/src/taimpl/src/internal/ta.c: ta_invoke_command_handler and all ta_invoke_* functions"]}
{"id": "C35", "title": "Values checked are the values used", "statement": "A parameter that the untrusted caller can modify concurrently is fetched once: no command validates a value in shared memory and then reads it again.", "quantifier": "every command and every concurrent modification of shared parameter memory", "why_tests_cant": "needs a racing writer between check and use", "anchors": ["reference/src/taimpl/src/internal/ta.c: ta_invoke_key_unwrap", "reference/src/taimpl/src/internal/unwrap.c: unwrap_ec"]}
{"id": "C36", "title": "UUID text conversion is exact", "statement": "Converting a textual UUID succeeds exactly for 32 hexadecimal digits grouped 8-4-4-4-12 with hyphens, and then yields the 16 bytes those digits denote.", "quantifier": "every character string", "why_tests_cant": "all 36-character strings", "anchors": ["reference/src/taimpl/src/internal/rights.c: convert_uuid"]}
{"id": "C37", "title": "A release call destroys the object its handle named when the call was made", "statement": "A call that releases a handle destroys the object that handle designated at the moment of the call, and no other object, even if the handle is released and reused by other calls of the same client meanwhile.", "quantifier": "every interleaving of release and creation calls", "why_tests_cant": "needs a creation between two passes of a waiting release", "anchors": ["reference/src/taimpl/src/internal/object_store.c: store_remove"]}
{"id": "C38", "title": "Container usage words grant exactly the documented flags", "statement": "When a key is imported from a Type-J or SoC container, the container's usage word decides exactly the six usage flags (data-and-key, data-only and key-only groups, key exchange only for EC and DH keys, no encryption or decryption for MAC-only keys), leaves every other flag alone, and an unknown word is refused.", "quantifier": "every usage word, key type, subtype and previous flag word", "why_tests_cant": "the whole product of usage words, types and 64-bit flag words", "anchors": ["reference/src/taimpl/src/internal/rights.c: key_usage_to_usage_flags"]}
{"id": "C39", "title": "A successful release has destroyed the object", "statement": "A key, cipher-context or MAC-context release that reports success has removed exactly the object its handle names from the caller's session.", "quantifier": "every request and every behaviour of concurrent calls", "why_tests_cant": "the effect is on internal state that tests observe only through later calls", "anchors": ["reference/src/taimpl/src/ta_sa_key_release.c", "reference/src/taimpl/src/ta_sa_crypto_cipher_release.c", "reference/src/taimpl/src/ta_sa_crypto_mac_release.c"]}
{"id": "C40", "title": "Calls share objects safely", "statement": "Every call reads and writes keys, contexts and buffers shared between threads only while it holds a reference to them and, where they change, their lock; gives back only what it holds; frees only what it owns; and never dereferences a NULL object, whatever concurrent calls do.", "quantifier": "every call, argument combination, internal failure and interleaving", "why_tests_cant": "needs adversarial schedules of concurrent calls on the same handles", "anchors": ["reference/src/taimpl/src/internal/cipher_store.c", "reference/src/taimpl/src/internal/mac_store.c", "reference/src/taimpl/src/internal/svp_store.c", "reference/src/taimpl/src/internal/object_store.c", "reference/src/taimpl/src/ta_sa_svp_buffer_check.c"]}
{"id": "C41", "title": "Exhausted memory while storing or exporting a key is reported", "statement": "If memory runs out at any point while a key is stored, imported or exported, the call answers with an error and the implementation goes on; it does not crash.", "quantifier": "every key and every point of failure", "why_tests_cant": "allocation failures inside the secure heap cannot be provoked through the API", "anchors": ["reference/src/taimpl/src/internal/key_store.c: pad, wrapped_key_create, wrapped_key_free", "reference/src/taimpl/src/porting/memory.c"]}
{"id": "C42", "title": "Contexts only exist for keys of the kind and size their algorithm needs", "statement": "A cipher or MAC context only ever comes into being for a key whose type and size the algorithm requires: AES keys of 16 or 32 bytes for AES modes and CMAC, 32 bytes for ChaCha20, RSA keys for the RSA algorithms, EC keys of a suitable curve for ElGamal, symmetric keys of 16 to 512 bytes for HMAC; other algorithms are refused.", "quantifier": "every algorithm word, key and behaviour of concurrent calls", "why_tests_cant": "the product of algorithm words, key types, curves and sizes, and schedules in which the key is replaced", "anchors": ["reference/src/taimpl/src/ta_sa_crypto_cipher_init.c", "reference/src/taimpl/src/ta_sa_crypto_mac_init.c", "reference/src/taimpl/src/internal/key_type.c"]}
{"id": "C43", "title": "Netflix key derivation yields the MSL keys", "statement": "The Netflix wrapping key is the one the MSL specification derives from encryption and HMAC key, and an authenticated Diffie-Hellman exchange yields the encryption and HMAC keys MSL derives from the shared secret as a number, with exactly one leading zero byte.", "quantifier": "every pair of keys and every shared secret", "why_tests_cant": "a secret with two leading zero bytes occurs once in 65536 exchanges", "anchors": ["reference/src/taimpl/src/internal/netflix.c: kdf_netflix_wrapping, kdf_netflix_shared_secret", "reference/src/taimpl/src/ta_sa_key_derive.c"]}
{"id": "C44", "title": "Unwrapping yields exactly the key inside", "statement": "Unwrapping with any algorithm succeeds only for a wrapping key that may be used and is of the right kind, with arguments of the documented lengths and, in authenticated modes, a tag that covers the input and all associated data; the key that comes out consists of exactly the decrypted bytes (for EC-ElGamal of the slice asked for) with the size and type they have; otherwise the call reports an error. No buffer is overrun and the plaintext is freed on every path.", "quantifier": "every algorithm, parameters, wrapping key, input of any length and every point of failure", "why_tests_cant": "lengths beyond 2 GiB, padding and tag values, and failing library calls on every path", "anchors": ["reference/src/taimpl/src/internal/unwrap.c", "reference/src/taimpl/src/ta_sa_key_unwrap.c", "reference/src/taimpl/src/porting/otp.c: unwrap_aes_ecb_internal, unwrap_aes_cbc_internal, unwrap_aes_gcm_internal"]}
{"id": "C45", "title": "A call through the client library is a call of the implementation", "statement": "Every function of the library either fails with a parameter error because a required pointer is missing, empty or of the wrong size, and nothing happens, or the trusted application's implementation is called exactly once with exactly the arguments the application passed (clear buffers from their offsets on) and its status and results, and only those, come back.", "quantifier": "every function, all arguments C's types can hold, every content of uninitialised memory and every behaviour of the implementation", "why_tests_cant": "tests use a few arguments per function; structure layouts, unassigned fields and offsets of buffers must agree for all of them", "anchors": ["reference/src/clientimpl/src/sa_*.c", "reference/src/taimpl/src/internal/ta.c", "reference/src/client/include/sa_ta_types.h"]}
{"id": "C46", "title": "A cipher context computes the encryption or decryption of the whole message", "statement": "However a message is cut into pieces, and whatever refused calls and size questions come between, all bytes a cipher context returns together are the encryption (with padding or tag) or the decryption of all bytes it was given; decryption succeeds exactly for properly padded texts with the right tag; decrypting what was encrypted gives the message back; a new vector acts as a new context; a failing library call is reported.", "quantifier": "every symmetric algorithm, key, vector, associated data and sequence of calls of any lengths", "why_tests_cant": "all ways of cutting messages of any length into calls, with refused calls in between", "anchors": ["reference/src/taimpl/src/internal/symmetric.c", "reference/src/taimpl/src/ta_sa_crypto_cipher_process.c", "reference/src/taimpl/src/ta_sa_crypto_cipher_process_last.c", "reference/src/taimpl/src/ta_sa_crypto_cipher_update_iv.c"]}
{"id": "C47", "title": "A cipher call stays inside the output size it requires", "statement": "A cipher call writes nothing outside the output buffer, and nothing behind the number of bytes it documents as required, for every context and every sequence of earlier calls.", "quantifier": "every algorithm, buffer size, sequence of calls and version of the library", "why_tests_cant": "the overrun depends on earlier calls and on the library version, and is silent", "anchors": ["reference/src/taimpl/src/ta_sa_crypto_cipher_process.c: get_required_length", "reference/src/taimpl/src/internal/symmetric.c: symmetric_context_decrypt, symmetric_context_encrypt_last"]}
{"id": "C48", "title": "The last call of a cipher context keeps its documented contract", "statement": "Wrong padding or a wrong tag is refused and reported as a failed verification; a second last call is refused as an invalid parameter; what encryption accepts as a last piece decryption accepts too.", "quantifier": "every algorithm, sequence of calls and last piece", "why_tests_cant": "all texts, tags and call sequences", "anchors": ["reference/src/taimpl/src/ta_sa_crypto_cipher_process_last.c", "reference/src/taimpl/src/internal/symmetric.c: symmetric_context_decrypt_last"]}
{"id": "C49", "title": "A JSON document is read as what it says", "statement": "The parser for key containers turns every JSON document it is given into the tree that stands for it, or refuses it; looking up a field gives the value of the first field of that name; when memory is short the document is refused, and reading it takes a depth of calls that its nesting bounds.", "quantifier": "every JSON document, every name, every pattern of failing allocations", "why_tests_cant": "documents are unbounded, and a failing allocation can hit any of their parts", "anchors": ["reference/src/taimpl/src/internal/json.c", "reference/src/taimpl/src/internal/json.h"]}
{"id": "C50", "title": "A Type-J container gives the key its signer put into it", "statement": "Importing a Type-J container succeeds only if header and payload carry the right HMAC under the given MAC key and the keys permit it; the imported key has the identifier, usages, output protections, lifetime and TA list the payload states, cut down to those of the wrapping key, and is the decryption of the content key with the stated algorithm and length. A genuine container that states all this is imported, and nothing else influences the result.", "quantifier": "every container, every pair of keys, every time, every behaviour of base64, JSON and cipher libraries within their contracts", "why_tests_cant": "containers are unbounded texts made by others, and the interesting ones deviate in a single field", "anchors": ["reference/src/taimpl/src/internal/typej.c", "reference/src/taimpl/src/ta_sa_key_import.c: ta_sa_key_import_typej", "reference/src/taimpl/src/internal/json.c: b64_decode"]}
{"id": "C51", "title": "No key container makes the trusted application access memory it does not own", "statement": "Whatever bytes are passed as a key container, importing it ends with a key or a reported failure: no memory is freed twice and nothing outside an object is read or written.", "quantifier": "every sequence of bytes passed as a container, genuine or not", "why_tests_cant": "the inputs are chosen by an attacker, and the faults are silent on common allocators", "anchors": ["reference/src/taimpl/src/internal/typej.c: unpack_typej, unwrap_key_v1, unwrap_key_v2, fields_to_rights", "reference/src/taimpl/src/internal/soc_key_container.c"]}
{"id": "C52", "title": "A SoC key container gives the key the provisioner sealed", "statement": "Importing a SoC key container succeeds only if the encrypted key and every field that decides about it were authenticated together under a key derived from the device's root key; the imported key is the decrypted one and has the stated type, size, usage, usage of wrapped keys and TAs and the identifier the caller gave. Whoever lacks that key can make no container that is imported. A genuine container is imported.", "quantifier": "every sequence of bytes passed as a container, every parameter of the caller, every behaviour of base64, JSON and cipher libraries within their contracts", "why_tests_cant": "containers are unbounded texts made by others; forging one depends on what the authentication leaves out and on how short a tag may be", "anchors": ["reference/src/taimpl/src/internal/soc_key_container.c", "reference/src/taimpl/src/ta_sa_key_import.c: ta_sa_key_import_soc", "reference/src/taimpl/src/porting/otp.c: otp_unwrap_aes_gcm"]}
{"id": "C53", "title": "A signature is one by the key over the data", "statement": "When signing succeeds, the output is a signature of exactly the given data with the given scheme, valid for the public key of the signing key, and the reported length is its length; the key had the sign usage, was within its lifetime and fits the scheme. A size query reports the size; a request that is in order is fulfilled; a call that fails leaves the output buffer alone.", "quantifier": "every key, scheme, parameter, message, buffer, time and failure of the cryptographic library", "why_tests_cant": "messages and keys are unbounded, and failures of the library inside the call are not reachable from tests", "anchors": ["reference/src/taimpl/src/ta_sa_crypto_sign.c", "reference/src/taimpl/src/internal/rsa.c: rsa_sign_pkcs1v15, rsa_sign_pss", "reference/src/taimpl/src/internal/ec.c: ec_sign_ecdsa, ec_sign_eddsa, bn_export"]}
{"id": "C54", "title": "The public key reported is that of the private key", "statement": "Asking for the public key of an asymmetric key yields exactly its public key; a size query reports its length; too small a buffer is refused and left alone; symmetric keys have none.", "quantifier": "every key, buffer and failure of the library", "why_tests_cant": "all keys of all types and all buffer lengths", "anchors": ["reference/src/taimpl/src/ta_sa_key_get_public.c", "reference/src/taimpl/src/internal/rsa.c: rsa_get_public", "reference/src/taimpl/src/internal/ec.c: ec_get_public", "reference/src/taimpl/src/internal/dh.c: dh_get_public"]}
{"id": "C55", "title": "Two parties agree on the same secret", "statement": "Key agreement succeeds only with a private key that may be used for it, is of a suitable kind and within its lifetime, and a public key of the same kind; the result is a symmetric key holding the shared secret with rights within what the private key hands on; two parties that exchange public keys obtain the same secret. Failures are reported for what they are and release everything.", "quantifier": "every pair of keys, every time, all rights, every failure of the library", "why_tests_cant": "the property relates two runs with different keys, for all keys", "anchors": ["reference/src/taimpl/src/ta_sa_key_exchange.c: ta_sa_key_exchange_dh, ta_sa_key_exchange_ecdh", "reference/src/taimpl/src/internal/dh.c: dh_compute_shared_secret", "reference/src/taimpl/src/internal/ec.c: ec_compute_ecdh_shared_secret"]}
{"id": "C56", "title": "A generated key is the one asked for", "statement": "Generating a key yields one of the requested type, size, curve or group with exactly the requested rights, whose bytes are a private key of that kind (or that many random bytes); it succeeds exactly if parameters and rights are in order, and whatever is asked for the call ends with a key or a refusal.", "quantifier": "all parameters, all rights, every failure of the library", "why_tests_cant": "parameters range over 64-bit numbers and byte strings; the extreme ones are not tried", "anchors": ["reference/src/taimpl/src/ta_sa_key_generate.c", "reference/src/taimpl/src/internal/rsa.c: rsa_generate_key", "reference/src/taimpl/src/internal/ec.c: ec_generate_key", "reference/src/taimpl/src/internal/dh.c: dh_generate_key", "reference/src/taimpl/src/internal/symmetric.c: symmetric_generate_key"]}
{"id": "C57", "title": "Messages through the OpenSSL provider's ciphers", "statement": "However an application cuts a message into EVP updates, the output of the updates and the final call together is the encryption of the whole message under the given key and vector, decryption succeeds exactly for encryptions and returns the message, incomplete blocks are refused where there is no padding, every update with the documented room succeeds, and a failure below is reported.", "quantifier": "every cipher, key, vector, message, every division into pieces, every failure of a call below", "why_tests_cant": "the divisions of a message into pieces are unboundedly many, and the failing ones are those that leave small rests twice", "anchors": ["reference/src/client/src/sa_provider_cipher.c: cipher_cipher, cipher_init"]}
{"id": "C58", "title": "Authentication through the OpenSSL provider's ciphers", "statement": "For AES-GCM and ChaCha20-Poly1305 the tag obtained after encryption is that of the text and of all associated data given, and the final call of a decryption succeeds exactly if the tag set is that of the text and the associated data, in whatever way they are passed.", "quantifier": "every key, vector, message, associated data and tag, every division of either into calls", "why_tests_cant": "forged tags and divisions of the associated data are not enumerable", "anchors": ["reference/src/client/src/sa_provider_cipher.c: cipher_cipher, cipher_set_ctx_params, cipher_get_ctx_params"]}
{"id": "C59", "title": "A provider's cipher context can be used for the next message", "statement": "Initialising a context again makes it process the next message exactly as a new context would with the new vector, whatever it has processed before.", "quantifier": "every history of a context, every next message", "why_tests_cant": "the property quantifies over the whole history of a context", "anchors": ["reference/src/client/src/sa_provider_cipher.c: cipher_init, cipher_cipher"]}
{"id": "C60", "title": "A provider's context releases the keys it owns, and no others", "statement": "A key that an application passes by handle stays its own unless it asks the context to delete it; a clear key that a context imports is released at the latest with the context; no use of a context, successful or not, releases any other key or leaves an imported one behind.", "quantifier": "every sequence of initialisations, parameters and processing calls of cipher and MAC contexts, every failure of key import and key header", "why_tests_cant": "ownership depends on the whole history of a context and on failures of imports in the middle of it", "anchors": ["reference/src/client/src/sa_provider_cipher.c: cipher_init, cipher_set_ctx_params, cipher_freectx", "reference/src/client/src/sa_provider_mac.c: mac_init, mac_set_ctx_params, mac_freectx", "reference/src/client/include/sa_provider.h: OSSL_PARAM_SA_KEY_DELETE"]}
{"id": "C61", "title": "A handle stands for what its creating call put there", "statement": "A key handle given to any call stands for exactly the key (bytes, type and rights) that the call which returned the handle had stored; a cipher or MAC context handle works with the algorithm, the direction and the key given to the initialisation that returned it, even if the key's own handle has since been released or reused; no other call, in whatever order they run, changes this.", "quantifier": "every history and interleaving of calls", "why_tests_cant": "the failing case needs a particular interleaving of releases, reuses of handles and uses; tests run calls one after another", "anchors": ["reference/src/taimpl/src/internal/object_store.c: object_store_acquire, object_store_add", "reference/src/taimpl/src/internal/key_store.c: key_store_unwrap", "reference/src/taimpl/src/internal/cipher_store.c: cipher_store_acquire_exclusive", "reference/src/taimpl/src/ta_sa_crypto_cipher_process.c", "reference/src/taimpl/src/ta_sa_process_common_encryption.c", "reference/src/taimpl/src/ta_sa_crypto_mac_process.c"]}
{"id": "C62", "title": "A call touches only the objects its arguments name", "statement": "The objects a call looks up, uses or destroys are those named by the handles in its arguments, and those the call itself has just made; it never reaches into any other object of the caller or of anyone else.", "quantifier": "every call, argument combination and answer of its surroundings", "why_tests_cant": "a test sees only the objects it looks at; an access to another one goes unnoticed", "anchors": ["reference/src/taimpl/src/ta_sa_*.c", "reference/src/taimpl/src/internal/object_store.c"]}
{"id": "C63", "title": "Nothing is lost and nothing dangles", "statement": "At every moment every object in the trusted application's memory has exactly one owner, the call that is making it or the one handle it belongs to, and everything owned or named by a handle is still there; a handle's usage count is the number of uses by calls in progress; once all calls have returned no lock and no usage is left and all that is allocated belongs to live handles; once all clients are closed nothing is left.", "quantifier": "every history and interleaving of calls, at every moment", "why_tests_cant": "leaks and dangling references appear under particular interleavings and error paths only, and remain invisible until memory runs out or is reused", "anchors": ["reference/src/taimpl/src/internal/object_store.c", "reference/src/taimpl/src/internal/client_store.c: client_shutdown", "reference/src/taimpl/src/internal/cipher_store.c", "reference/src/taimpl/src/internal/key_store.c", "reference/src/taimpl/src/ta_sa_*.c"]}
{"id": "C64", "title": "Every call returns", "statement": "Whatever calls run at the same time, they never wait for each other in a circle: as long as a call has not returned some call can continue; and no run of the calls in progress goes on for ever, so every call comes to return.", "quantifier": "every number and combination of calls in progress and every schedule of their steps", "why_tests_cant": "a circle of waiting calls needs a particular interleaving of several calls; tests run calls one after another", "anchors": ["reference/src/taimpl/src/internal/object_store.c: object_store_remove", "reference/src/taimpl/src/internal/svp_store.c: svp_store_acquire_exclusive", "reference/src/taimpl/src/internal/cipher_store.c: cipher_store_acquire_exclusive", "reference/src/taimpl/src/ta_sa_svp_buffer_copy.c: ta_sa_svp_buffer_copy", "reference/src/taimpl/src/ta_sa_close.c: ta_sa_close"]}
{"id": "C65", "title": "Signatures through the OpenSSL provider are the ones asked for and verify", "statement": "A signature made through the provider with a key behind a handle is valid for the key's public part, for exactly the data given in whatever pieces, and for the digest, padding, MGF1 digest and salt length set in the context; ECDSA signatures are DER encoded; the size announced by a query suffices for the signature; nothing is written behind the caller's buffer; a context set up likewise accepts the signature, and verification accepts nothing else; the AlgorithmIdentifier read back names the algorithm used.", "quantifier": "every key, setting of parameters in every order, data and division into pieces, buffer size, and for every behaviour of OpenSSL within its contract", "why_tests_cant": "there are as many combinations of key, digest, padding, MGF1 digest and salt length as no test suite goes through, and an overrun shows only for particular keys and sizes", "anchors": ["reference/src/client/src/sa_provider_signature.c: signature_sign, signature_verify, signature_digest_sign_init, signature_digest_sign_final, signature_digest_sign, signature_get_ctx_params, signature_set_ctx_params", "reference/src/client/src/sa_public_key.c: ec_encode_signature"]}
{"id": "C66", "title": "RSA encryption through the OpenSSL provider follows the settings and can be undone", "statement": "What is encrypted through the provider for an RSA key, with PKCS#1 v1.5 or OAEP, any digests and any label, is decrypted with the key by anyone who uses the same settings; a text made by others with these settings is decrypted through the provider if the key's rights allow it, exactly to the message, which is all that is written; refused calls change nothing; parameters that are accepted are in force, and a copy of a context has them too.", "quantifier": "every key, setting of the parameters, label, message, text and buffer size, and every behaviour of OpenSSL within its contract", "why_tests_cant": "tests encrypt and decrypt with one context whose defects cancel out, and use few of the combinations of digest, MGF1 digest and label", "anchors": ["reference/src/client/src/sa_provider_asym_cipher.c: asym_cipher_encrypt, asym_cipher_decrypt, asym_cipher_set_ctx_params, asym_cipher_dupctx", "reference/src/util/src/digest_util.c: digest_algorithm_from_md"]}
{"id": "C67", "title": "Provider key objects live as long as they are used and no longer", "statement": "With the OpenSSL provider, however key objects are made, imported, copied, shared between contexts and threads and given back: no call crashes or touches memory that has been given back; a key object and the private key it stands for exist as long as the application or a context refers to it; the provider releases the private keys it owns, and only those, once nobody refers to them; keys that stay the application's are never released; nothing is left when everything has been given back; different keys do not match.", "quantifier": "every history of calls by any number of threads, with every failure of the calls below", "why_tests_cant": "histories are unbounded and the failures show only as a leak or a crash much later", "anchors": ["reference/src/client/src/sa_provider_keymgt.c: keymgmt_new, keymgmt_free, keymgmt_dup, keymgmt_match, keymgmt_import, keymgmt_gen", "reference/src/client/src/sa_provider_keyexch.c: keyexch_newctx, keyexch_freectx, keyexch_dupctx, keyexch_init, keyexch_derive, keyexch_set_peer", "reference/src/client/src/sa_provider_signature.c: signature_dupctx, signature_sign_init, signature_digest_sign_init, signature_freectx", "reference/src/client/src/sa_provider_asym_cipher.c: asym_cipher_dupctx, asym_cipher_encrypt_init, asym_cipher_freectx"]}
{"id": "C68", "title": "Keys derived through OpenSSL are those of the standard and the settings", "statement": "With the OpenSSL provider, whatever was set on a key derivation context before, in any order and with resets and copies: a derivation yields the handle of a new key whose bytes are those that RFC 5869, NIST SP 800-56A, ANSI X9.63 or NIST SP 800-108 define for the key, digest, salt, info and switches last asked for, or it fails and changes nothing; it writes nothing outside the caller's buffer; requests within the limits of the API are accepted; a key is released by the context if and only if it was told to delete it.", "quantifier": "every sequence of parameter settings, resets, copies and derivations on a context, with every failure of the calls below", "why_tests_cant": "the settings and their order are unbounded, and a wrong derivation shows only against another implementation", "anchors": ["reference/src/client/src/sa_provider_kdf.c: kdf_newctx, kdf_freectx, kdf_dupctx, kdf_reset, kdf_derive, kdf_set_ctx_params", "reference/src/util/src/digest_util.c: digest_algorithm_from_name", "reference/src/taimpl/src/ta_sa_key_derive.c: ta_sa_key_derive"]}
{"id": "C69", "title": "Digests through the OpenSSL provider are those of exactly the data given", "statement": "With the OpenSSL provider, a digest that is delivered is the digest, by the algorithm its context was made for, of all data given since the initialisation in whatever pieces, also to the context it was copied from before the copy; it is delivered whenever the calls below succeed and the buffer has room; nothing is written behind the caller's buffer; contexts hold memory exactly until they are given back; the parameters announced are those that can be used.", "quantifier": "every history of creations, copies, initialisations, updates, results and releases of any number of contexts, with every failure of the calls below", "why_tests_cant": "the histories are unbounded, and an overrun shows only for a copied context and a short buffer", "anchors": ["reference/src/client/src/sa_provider_digest.c: digest_newctx, digest_freectx, digest_dupctx, digest_init, digest_update, digest_final, digest_gettable_ctx_params, digest_settable_ctx_params"]}
{"id": "C70", "title": "Ciphers through the OpenSSL engine work on the message they were given", "statement": "Output produced through a context of the engine's AES and ChaCha20 ciphers is that of the key, vector, associated data and data passed to that context, whatever is done with other contexts in between; the tag read after an encryption is the message's, a decryption finishes well only with the right tag; failures are reported; calls stay within memory; when all contexts are closed nothing is held.", "quantifier": "every sequence of EVP calls on any number of contexts (open, initialise, associated data, data, finish, read and set tags, copy, reset), interleaved with the caller writing or freeing the memory of keys and vectors, with any of the calls below failing", "why_tests_cant": "Tests encrypt one message with one context and check the result; interleaved contexts, initialising again, memory reused between initialisation and data, associated data in pieces and failures below are not met.", "anchors": ["reference/src/client/src/sa_engine_cipher.c: cipher_init, cipher_do_cipher, cipher_ctrl, cipher_cleanup, DECLARE_CIPHER"]}
{"id": "C71", "title": "Threads share one engine and its methods", "statement": "Several threads of a program can use the engine at the same time: at most one engine is made; every thread that asks for it gets it, and every call returns; every thread that asks for the method of a cipher, a key type or a digest gets the same one.", "quantifier": "all numbers of threads, all programs of calls for the engine, for methods and for lists of methods, all schedules, and all failures of the calls below", "why_tests_cant": "Tests run in one thread; the mutex is recursive, so a lock that is never given back is not noticed there, and the interleavings of several threads cannot be enumerated by tests.", "anchors": ["reference/src/client/src/sa_engine.c: sa_get_engine, engine_mutex", "reference/src/client/src/sa_engine_cipher.c: sa_get_engine_ciphers", "reference/src/client/src/sa_engine_pkey.c: sa_get_engine_pkey_meths", "reference/src/client/src/sa_engine_pkey_asn1_method.c: sa_get_engine_pkey_asn1_meths", "reference/src/client/src/sa_engine_digest.c: sa_get_engine_digests"]}
{"id": "C72", "title": "MACs through the engine are those of the data given", "statement": "A MAC read from an EVP_MD_CTX initialised with a symmetric key of the engine is the HMAC with the digest asked for, or the CMAC if none was, under that key, of the data given to that context since it was initialised, whatever other contexts are at work; copies are contexts of their own; data can be added after a value was read; and when all contexts are freed nothing of them is left in the secure API.", "quantifier": "all histories of allocating, marking, initialising, giving data, reading values and lengths, copying, resetting and freeing any number of contexts, with all handles the secure API may choose and all failures below", "why_tests_cant": "Tests compute one MAC at a time with one context and free it at once; the handle that outlives its MAC shows only when contexts overlap and handles are used again.", "anchors": ["reference/src/client/src/sa_engine_pkey.c: pkey_mac_init, pkey_mac_update, pkey_signctx_init, pkey_signctx, pkey_copy, pkey_cleanup, pkey_ctrl", "reference/src/client/src/sa_engine_digest.c: sa_get_engine_digests"]}
{"id": "C73", "title": "Signatures and RSA encryption through the engine follow the settings asked of each context", "statement": "EVP_PKEY_sign with a key of the engine asks the secure API for a signature by that key with the padding, digest, mask digest and salt length set on that context (or on the one it was copied from), with OpenSSL's defaults for those not set; a context with the same key and settings verifies it; what one context encrypts another with the same settings decrypts, labels included; nothing is written beyond the caller's room, and memory and cipher contexts are given back when the contexts are freed.", "quantifier": "all histories of creating, setting, copying, freeing and using any number of RSA and EC contexts, with all failures of memory, all moduli, curves, signatures and sizes of the caller's buffer", "why_tests_cant": "Tests set one combination on one context and give large buffers; combinations of settings, copies, second labels, other digests and small buffers are not tried.", "anchors": ["reference/src/client/src/sa_engine_pkey.c: pkey_init, pkey_copy, pkey_cleanup, pkey_sign, pkey_verify, pkey_encrypt, pkey_decrypt, pkey_pderive, pkey_ctrl, sa_get_engine_pkey_methods", "reference/src/client/src/sa_public_key.c: ec_encode_signature"]}
{"id": "C74", "title": "The root keys and the device id are those of the keystore", "statement": "The device's root key and id, and the common root key, are those stored under the device's and the common name in the keystore, whatever its order and structure; the secret of a bag is found whatever its length and attributes, and nothing outside the bag is read; a keystore without a proper entry is refused every time; keys once given do not change; and calls of several threads get the same keys.", "quantifier": "all secret bags in DER, all keystores (safes, bags, names, secrets), all histories of asking for the root key, the common root key and the device id, with the file changing in between, and calls at the same time", "why_tests_cant": "Tests load one well-formed keystore with two keys in one order in one process; other orders, safes, key lengths, broken entries, repeated calls after a refusal and threads are not tried.", "anchors": ["reference/src/util/src/pkcs12.c: find_asn1_item_length, parse_pkcs12_safe_bag, load_pkcs12_secret_key", "reference/src/taimpl/src/porting/otp.c: convert_str_to_int, get_root_key, get_common_root_key, otp_device_id"]}
{"id": "C75", "title": "A process has one session with the trusted application and leaves nothing of it when it ends", "statement": "All threads of a process use the same session: the first call opens it, no second one is opened, a failure to open leaves nothing and the next call tries again, and no thread waits for ever. When the process ends, the session, its client and the store are closed in this order after the calls at work are done, nothing freed is used, and later calls are refused.", "quantifier": "any number of threads, all interleavings of their calls with each other and with exit(), failures to open at any point", "why_tests_cant": "Tests use the library from one thread at a time for its first call and end the process with no call in progress.", "anchors": ["reference/src/clientimpl/src/internal/client.c: client_session, client_shutdown, client_create", "reference/src/taimpl/src/internal/ta.c: ta_open_session_handler, ta_close_session_handler", "reference/src/taimpl/src/internal/client_store.c: client_store_global, client_store_global_shutdown", "reference/src/taimpl/src/internal/object_store.c: object_store_shutdown"]}
{"id": "C76", "title": "Provisioning opens exactly the containers it was given and leaves no key behind", "statement": "sa_key_provision_ta succeeds if and only if every key container of the structure it is given is genuine; each is opened once, in order, with exactly the bytes and parameters given; refused calls have no effect; and when the call returns no key of it is left in the trusted application and no key of the application has been released, whatever fails and whatever other threads do meanwhile.", "quantifier": "all kinds of provisioning, structures, lengths and parameters, all failures of memory, session, client and slots, all actions of other threads between the accesses to the key store", "why_tests_cant": "Tests provision one genuine structure of each kind from one thread; they do not fail allocations, extend the parameters or run other threads in the gaps.", "anchors": ["reference/src/clientimpl/src/sa_key_provision.c: sa_key_provision_ta", "reference/src/clientimpl/src/porting/sa_key_provision_impl.c: sa_key_provision_preprocessing", "reference/src/taimpl/src/internal/ta.c: ta_invoke_key_provision", "reference/src/taimpl/src/ta_sa_key_import.c: ta_sa_key_provision, ta_sa_key_import"]}
{"id": "C77", "title": "Keys generated through the provider are what was asked for", "statement": "EVP_PKEY_keygen with the provider asks the secure API for a key of the context's type with the bits, the curve or the prime set on the context, with the defaults for what was not set, or with those of the template; a setting refused leaves the context as it was; the key behind every generated or imported object is of the object's type; importing does no harm to memory; an object tells what parts of a key it has.", "quantifier": "all histories of contexts, settings, templates, generated, imported and freed objects of the seven types, with all parameters and all answers of the secure API", "why_tests_cant": "Tests generate a key or two of each type with proper parameters; other combinations of settings, unknown names, templates from imported parameters and keys of other types are not tried.", "anchors": ["reference/src/client/src/sa_provider_keymgt.c: keymgmt_gen_init, keymgmt_gen_set_params, keymgmt_gen_set_template, keymgmt_gen, keymgmt_import, keymgmt_has, ec_get_curve_from_name"]}
{"id": "C78", "title": "MACs computed through the provider are those asked for", "statement": "EVP_MAC with the provider yields the HMAC with the digest set, or the CMAC, of all data given since the context was initialised, under the key given as bytes or by handle, whatever other contexts do and whatever calls failed before; the size announced is the size of the value; a value is read once; digests the secure API does not have are refused; nothing is left in the secure API when all contexts are freed.", "quantifier": "all histories of contexts, settings, initialisations with and without keys, data, readings and releases, of keys made and released by the application, with all answers and all choices of handles of the secure API", "why_tests_cant": "Tests compute one MAC per context with a listed digest; several contexts at a time, changed settings, failing calls and other digests are not tried.", "anchors": ["reference/src/client/src/sa_provider_mac.c: mac_newctx, mac_freectx, mac_init, mac_update, mac_final, mac_get_ctx_params, mac_set_ctx_params", "reference/src/util/src/digest_util.c: digest_algorithm_from_name"]}
{"id": "C79", "title": "Memory of secure-video buffers is freed once and gets back to its owner", "statement": "Allocating, making, releasing and freeing secure-video buffers never frees or accesses memory that is not in use; a released buffer gives back the address and size it was made of; buffers do not overlap each other or the application's memory; a failed allocation leaves nothing behind; when all is freed nothing remains allocated.", "quantifier": "all histories of allocations and releases of secure-video memory, of buffers made of memory, released, allocated, freed and used, with all addresses of the allocator, all handles and all failures", "why_tests_cant": "Tests allocate and free single buffers; interleaved lives, failures of the TA after the memory was allocated, ranges at the end of the address space and handles without buffers are not tried.", "anchors": ["reference/src/clientimpl/src/sa_svp_buffer_alloc.c: sa_svp_buffer_alloc", "reference/src/clientimpl/src/sa_svp_buffer_free.c: sa_svp_buffer_free", "reference/src/clientimpl/src/sa_svp_buffer_create.c: sa_svp_buffer_create", "reference/src/clientimpl/src/sa_svp_buffer_release.c: sa_svp_buffer_release", "reference/src/clientimpl/src/porting/sa_svp_memory_alloc.c: sa_svp_memory_alloc", "reference/src/clientimpl/src/porting/sa_svp_memory_free.c: sa_svp_memory_free", "reference/src/taimpl/src/internal/svp_store.c: svp_store_create, svp_store_release"]}
{"id": "C80", "title": "A key loaded through the engine stands for the handle it was loaded from", "statement": "ENGINE_load_private_key answers a key with the public key of the handle given, which later operations use with that handle and no other, until it is freed; if it cannot, it answers NULL and leaves nothing behind; keys not loaded this way are refused by the engine; freeing all keys leaves nothing allocated.", "quantifier": "all histories of loads, keys made by the application, frees and uses with the engine, with all answers of the secure API, all addresses and all failures of allocations and of libcrypto", "why_tests_cant": "Tests load one key at a time with memory to spare and use only loaded keys with the engine.", "anchors": ["reference/src/client/src/sa_engine_pkey.c: sa_load_engine_private_pkey, pkey_pderive", "reference/src/client/src/sa_engine_pkey_data.c: sa_get_pkey_data, sa_set_pkey_data", "reference/src/client/src/sa_engine_pkey_asn1_method.c: pkey_asn1_set_priv_key, pkey_asn1_free"]}
{"id": "C81", "title": "Key exchange through the provider yields the shared secret of the keys given", "statement": "EVP_PKEY_derive with the provider yields a handle of a key whose value is the one agreed on by the private key the context was initialised with last and the public key of the peer set last, so that two sides with each other's public keys get the same; it succeeds for keys of one group only; a failed or too small derivation changes nothing; copies behave as their original.", "quantifier": "all histories of contexts, initialisations, peers, copies, derivations and releases of keys, with all groups, handles and failures, for every primitive", "why_tests_cant": "Tests derive once per context with matching keys; several contexts, copies, keys of other groups, missing peers and handles given again are not tried.", "anchors": ["reference/src/client/src/sa_provider_keyexch.c: keyexch_newctx, keyexch_freectx, keyexch_dupctx, keyexch_init, keyexch_derive, keyexch_set_peer", "reference/src/taimpl/src/ta_sa_key_exchange.c: ta_sa_key_exchange"]}
{"id": "C82", "title": "Every thread gets the one library context with the provider in it", "statement": "sa_get_provider called by any number of threads, at any time, gives all of them the same library context; one is made at most; no thread is given one into which the provider is not loaded; every call returns.", "quantifier": "all numbers of threads and calls, all schedules, and all failures of the calls that load the provider", "why_tests_cant": "Tests call it from one thread, and loading never fails in them.", "anchors": ["reference/src/client/src/sa_provider.c: sa_get_provider, sa_provider_load"]}
{"id": "C83", "title": "The calls about the implementation give what they promise", "statement": "sa_get_name without memory tells the length required, with enough memory writes the name and its zero and nothing else and sets the length to what is required, and with too little refuses; asking for the length first always works. Version, device id and UUID are given on success. A call that fails changes nothing, and no call leaves memory behind.", "quantifier": "all names, memory sizes and contents, both ways to build the library, all failures, and all histories of calls", "why_tests_cant": "Tests read the name with memory of the right size, in one build, and no call fails in them.", "anchors": ["reference/src/clientimpl/src/sa_get_name.c: sa_get_name", "reference/src/clientimpl/src/sa_get_device_id.c: sa_get_device_id", "reference/src/clientimpl/src/sa_get_version.c: sa_get_version", "reference/src/clientimpl/src/sa_get_ta_uuid.c: sa_get_ta_uuid", "reference/src/taimpl/src/ta_sa_get_name.c: ta_sa_get_name"]}
{"id": "C84", "title": "The client library gives back the memory of a call, once", "statement": "Whatever a call of the client library does, whatever fails in it and however the library was built (with shared memory or without), when it returns all the memory taken for it has been given back exactly once, no memory of the caller was freed, and no null pointer was used. Common encryption processes the samples in order up to the first with which something is wrong, says success only if all were processed, and keeps no memory.", "quantifier": "all functions of the client library that send a command, both builds, all failures of memory and of the implementation, all sequences of samples", "why_tests_cant": "Tests are built one way and memory never runs out in them.", "anchors": ["reference/src/clientimpl/src/porting/ta_client.h: CREATE_COMMAND, CREATE_PARAM, RELEASE_COMMAND, RELEASE_PARAM", "reference/src/clientimpl/src/sa_process_common_encryption.c: sa_process_common_encryption", "reference/src/clientimpl/src/sa_key_header.c: sa_key_header", "reference/src/clientimpl/src/sa_key_provision.c: sa_key_provision", "reference/README.md: USE_SHARED_MEMORY"]}
{"id": "C85", "title": "Tables of sizes reach the implementation as given, whatever the width of size_t", "statement": "The lengths of subsamples given to common encryption and the offsets given to a copy between buffers are the ones the implementation works with, and nothing beyond the table is read, whether the application and the implementation are built with a size_t of 32 or of 64 bits.", "quantifier": "all tables, all memory behind them, all combinations of widths", "why_tests_cant": "Tests run with 64 bits on both sides.", "anchors": ["reference/src/clientimpl/src/sa_process_common_encryption.c: sa_process_common_encryption", "reference/src/taimpl/src/internal/ta.c: ta_invoke_process_common_encryption, ta_invoke_svp_buffer_copy", "reference/src/clientimpl/src/sa_svp_buffer_copy.c: sa_svp_buffer_copy", "reference/src/client/include/sa_ta_types.h: sa_subsample_length_s, sa_svp_offset_s"]}
{"id": "C86", "title": "Random bytes: all of those asked for, or an error", "statement": "When sa_crypto_random succeeds every byte of the memory given to it is fresh from the generator, and when it fails the memory is as before; a symmetric key that is generated consists of fresh bytes only, as many as asked for; no memory behind the one given is written.", "quantifier": "all lengths and contents of memory, all answers of the generator, both ways to build the client library, the versions of OpenSSL", "why_tests_cant": "Tests ask for a few bytes, and the generator always works in them.", "anchors": ["reference/src/taimpl/src/porting/rand.c: rand_bytes", "reference/src/taimpl/src/ta_sa_crypto_random.c: ta_sa_crypto_random", "reference/src/clientimpl/src/sa_crypto_random.c: sa_crypto_random", "reference/src/taimpl/src/internal/symmetric.c: symmetric_generate_key"]}
