# Design: a Rocq model of the SecAPI reference TA (rdkcentral/tasecureapi)

All paths below are relative to `/repo/reference/src`. `taimpl/src` is the
trusted-application side: the part that holds keys and enforces rights, and so
the part that is modelled.

## 1. Method

* The model is plain, total, computable Gallina (`rocq/theories/M_*.v`). Each
  definition cites the file and lines it models and says where it simplifies.
* Specifications that are independent of the model live in `S_*.v`. They are
  meant to be readable without the proofs.
* Proofs live in `P_*.v`. Property theorems live in `C_*.v`, which contain only
  theorem statements closed by `exact`, non-vacuity examples closed by `exact`,
  and `Print Assumptions`.
* C integers: `size_t`/`uint64_t` values are `Z` (or `N`) with the wrap
  `mod 2^64` written explicitly where the code computes with them. Where wrap
  cannot matter (list lengths already bounded) plain `nat`/`Z` is used and the
  comment says so.
* Undefined behaviour (out-of-bounds access, NULL dereference, use after free,
  double free) is an explicit outcome (`UB`, a recorded out-of-range access, or a
  `Bad` state), never assumed away.
* A loop that is not obviously terminating is written with fuel and has an
  explicit out-of-fuel outcome.
* OpenSSL, the clock, the video-output poll, the OTP fuse key and the allocator
  are oracles: Section variables or function arguments. What is assumed about
  each is an explicit hypothesis of the theorem that needs it.
* A property that is false of the faithful model is proved false: the theorem is
  called `..._refuted` and exhibits a concrete witness; a `..._partial` theorem
  then states the exact part that does hold.

## 2. Trusted base

* Coq 8.16.1 kernel (including `vm_compute`), and the Coq standard library.
* `Print Assumptions` follows every property theorem. The expected answer is
  "Closed under the global context"; any exception is listed in section 5.
* The reading of the C code. No code is executed; the link between model and code
  is the citation on each definition.
* Oracles: AES/HMAC/CMAC/SHA/RSA/EC/DH primitives of OpenSSL are uninterpreted.
* C11 mutexes provide mutual exclusion; each mutex-protected region is one atomic
  step of the concurrent model.

## 3. Plan per property

| id | what is modelled | how it is proved |
|----|------------------|------------------|
| C01 | `internal/slots.c` bit blocks; `object_store.c` add/remove | representation invariant of the bit blocks; refinement of allocate/free to a finite set; lifted to all histories by `fold_left` induction |
| C02 | `object_store.c` add/acquire/release/remove, one request at a time | refinement to a finite map handle -> (object, owner, references) |
| C03 | same | decision lemma on every operation: foreign owner => NOT_ALLOWED and state unchanged |
| C04 | small-step interleaving model of the store: threads hold references, remover spins | inductive invariant over all schedules: reference count = number of holders, destroyed objects have no holders |
| C05 | same, with the shutdown thread | invariant over all schedules, plus completion lemma |
| C06 | `cipher_process`, `cipher_process_last` control flow over lock and reference counters | refuted by the invalid buffer-type path; partial: balanced on every other path |
| C07 | two-thread lock model of `svp_buffer_copy` | refuted: reachable deadlock; partial: deadlock-free when both threads take locks in the same order |
| C08 | `rights.c`, the permission check sequence of each API function, and the system of concurrent calls | check functions exact; every use in every reachable state of the system, by the invariant of C61 |
| C09 | `rights_allowed_time`, `key_store_unwrap` | iff theorem over all clock values |
| C10 | `rights_allowed_video_output_state`, per-call re-check | refuted for DTCP; partial iff for the outputs that are checked |
| C11 | `rights_allowed_uuid` | iff theorem over all lists |
| C12 | `restrict_child_rights` | refuted; partial theorems for the two branches; frame theorem |
| C13 | `key_store_export`/`import_exported`, header codec, mixin, padding | round trip with cipher/MAC oracles whose only assumption is decrypt(encrypt x)=x and length preservation |
| C14 | the same parser over arbitrary bytes with an access log | all accesses in range; success implies MAC equality |
| C15 | decision logic of process, process_last, verify_sample, key_check | success implies rights and buffer types |
| C16 | `convert_buffer` with explicit 64-bit wrap | range theorem |
| C17 | `svp_write`, `svp_copy` over byte arrays with UB outcome | all-or-nothing + exact content against an independent spec |
| C18 | `svp_create_buffer`, `svp_store_create` including the C `bool` conversion of a status value | refuted; partial for non-wrapping ranges |
| C19 | `svp_store_release` | refuted; partial for buffers whose memory is present |
| C20 | `cenc_process_sample` on memory (`M_Cenc`): `process_bytes`, `process_sample`, `common_encryption`; the cipher is an arbitrary function, failures an oracle | equality with the layout specification `decrypted` (`S_Cenc`), by induction over stripes and subsamples; refuted for 4 GiB ranges and wrapping patterns |
| C21 | `decrypt` with the 64-bit counter and OpenSSL's 128-bit one | counter equation for well placed ranges, roll-over included; refuted for two kinds of placement |
| C22 | accesses outside live memory are the outcome `CFault`, endless loops `CSpin` | proved for every failure oracle under the same conditions; refuted (counter underflow, pattern overflow) |
| C23 | failure oracle for each OpenSSL call | equivalence without a pattern; refuted with one |
| C24 | `verify_sample`, overlap test, buffer offsets | acceptance characterised exactly; refuted for samples that share a buffer |
| C25 | `cenc_get_required_length` | exact-sum theorem |
| C26 | `pad.c`, `key_store.c: pad` | round trip and iff |
| C27 | `key_type.c`, `stored_key_create` | iff against a table; store invariant |
| C28 | MAC context state machine | refinement to (bytes so far, done) over all histories |
| C29 | `kdf.c` loops | equality with RFC-style specs for any hash oracle with fixed output length |
| C30 | `netflix_dh` sequence over the key store model with failure oracles | all-or-nothing theorem |
| C31 | creation call control flow over the store model | success iff handle maps to the new key |
| C32 | `unwrap_aes_ecb/cbc` with access log | refuted for length 0; partial for length >= 16 |
| C33 | ownership model of cipher_init (OAEP) | refuted; partial for the other algorithms |
| C34 | `M_Marshal.v`: all 34 commands of `ta.c` as programs over the memory of four parameters, every read, write, copy, cast and call a step | weakest-precondition calculus; per command proved safe, or under a stated condition and refuted without it |
| C35 | the same programs; ranges of shared memory read or handed over | induction on programs that ranges are pairwise disjoint; refuted for EC ElGamal |
| C36 | `convert_uuid` | refuted; partial: canonical text converts exactly |
| C37 | the interleaving model of C04 | refuted with a schedule |
| C38 | `key_usage_to_usage_flags` | exact table for all words |
| C39 | release calls of the API model | reachability in the call programs |
| C40 | all API calls as programs over shared objects | accounting invariant of every path; for the whole system the invariant of C63 |
| C41 | `wrapped_key_create`/`wrapped_key_free` with the answers of all fallible calls as arguments | case analysis; the failed allocation of the padded key is a finding |
| C42 | the API model's context creations (`ta_sa_crypto_cipher_init.c`, `ta_sa_crypto_mac_init.c`) | every stored context was added after a successful type and size check: guard invariant over programs |
| C43 | `kdf_netflix_wrapping`, `kdf_netflix_shared_secret` on bytes | unfolding; uniqueness of MSL's number format; secrets with two leading zeros are a finding |
| C44 | `unwrap.c` and the checks of `ta_sa_key_unwrap.c` on bytes, every algorithm | case analysis against a specification of what an input contains; lengths beyond 4 GiB and the leaked buffer are findings |
| C45 | every `sa_*` function of the client library as the structures and parameters it sends, run against the command handlers | symbolic execution of client, handler and reply per function; uninitialised memory arbitrary; the repeated table entry and the refused NULL are findings; several samples by induction over the list, with the offsets of shared buffers |
| C46 | `symmetric.c` and the process, process_last and update_iv calls on bytes, over a model of OpenSSL's buffering | invariant over all sequences of calls relating bytes taken and bytes returned to ECB, CBC and stream encryption of the whole message; lengths as int are a finding |
| C47 | the same, with the output buffer as a bounded list | the invariant bounds what is written; the held-back block and the second last call are findings |
| C48 | the same | case analysis over all outcomes of the last call; three deviations from the header are findings |
| C49 | `M_Json.v`: yajl's callbacks of `json.c` as a machine over events, lookup, base64 | documents as trees (`S_Json.v`); induction over documents: the machine builds the tree; allocation failures as free choices give the findings |
| C50 | `M_TypeJ.v`: `typej.c` and the caller in `ta_sa_key_import.c`; base64, JSON lexer, time, HMAC and ciphers are parameters | `S_TypeJ.v` says what a container states, field by field; soundness and completeness of the import against it, on top of the unwrap results of C44; deviations are existence theorems |
| C51 | the same, with double frees and wild accesses as outcomes | for containers meeting `tidy` only reported failures remain; the other outcomes are reached by concrete or arbitrary malformed containers |
| C52 | `import_soc` (SoC key containers, key ladder as decryptions in turn, GCM as a library with a forgery predicate) | inversion of the reading of fields; the associated data determines the statement (`aad_covers`); forward simulation for documented containers; a cut tag gives a forgery by pigeonhole over the 256 bytes |
| C53 | `crypto_sign` on bytes with ECDSA, EdDSA, RSA-PSS and PKCS1v15; OpenSSL as a record of functions with contracts (signatures verify, lengths, which digests are signed) | case analysis down to the library call; big-endian export and its value for ECDSA; the status preset to success in `rsa_sign_pss` is a finding |
| C54 | `key_get_public` for EC, DH and RSA | equation for the whole function |
| C55 | `exchange_ecdh`, `exchange_dh` up to the stored key | exact condition for the key; commutativity of the library's derivation gives equal secrets |
| C56 | `key_generate` for the four types | exact condition for the key; well-formedness from the library's contracts; the product in int is a finding |
| C57 | the provider's `cipher_cipher` with its rest of a block over the cipher contexts of `M_Cipher.v` | invariant relating the provider's context to a run of the API's context; the lost piece and the swallowed failure are findings |
| C58 | the same for the authenticated ciphers, associated data and tags | corollaries of the invariant; ignored associated data, a final call without buffer and short tags are findings |
| C59 | `cipher_init` on a context that has been used | re-initialisation meets the hypotheses of C57; the rest that survives is a finding |
| C60 | key slots of cipher and MAC contexts against the set of keys | induction over uses of a context; the released and leaked keys are findings |
| C61 | M_World.v (the system of concurrent calls): the invariant that every object has one birth, recorded in the history of the call that allocated it, that all later reads agree with, and that every store entry was added by a call of its owner | invariant over `reaches` (P_WorldBirth.v), with the calls' own discipline from all paths of their programs (P_Birth.v) |
| C62 | the handles of a call's arguments, by kind of object (S_World.v) | all paths of all calls (P_Birth.v) |
| C63 | ownership of every memory cell, reference counts and locks in the world model (S_Safe.v) | one invariant of all reachable systems (P_Safe2.v `safe`), preserved by each kind of step; sums over the calls in flight (P_Accounts.v) |
| C64 | waiting in the world model: removal of an object in use and taking a lock (S_Progress.v) | every waiting call waits for an unfinished call at a strictly later stage (P_Progress.v), by the order in which all paths of all calls take references and locks (P_ApiAccount*.v `waits`); runs end because programs are finite trees |
| C65 | the provider's signature contexts on top of the API's signing (M_ProvSign.v); DER, OpenSSL's verification as a contract (S_ProvSign.v) | case analysis over key, padding and salt on top of C53's theorems; induction over the pieces of data; refutations by computed runs of a toy library |
| C66 | the provider's RSA encryption contexts (M_ProvAsym.v) on top of the API's decryption; OpenSSL's encryption as a contract (S_ProvAsym.v) | on top of C46's theorem for RSA; refutations by computed runs of a toy library |
| C67 | key objects with reference counts, the three kinds of contexts and the private keys behind the API, calls of any threads with the choices of the environment (M_ProvKeys.v); a ledger that the program can keep itself (S_ProvKeys.v) | invariant: every count is the program's references plus the slots of live contexts (at least, or exactly); ownership of private keys; refutations by computed histories |
| C68 | the context of sa_provider_kdf.c, its parameters as what the OSSL_PARAM functions make of them, keys by handle, the derivations of M_Kdf.v below (M_ProvKdf.v); settings last asked for and the four standards (S_ProvKdf.v) | the context agrees with the settings after any life; values and acceptance from C29; keys by induction over the life; refutations by computation or for all inputs |
| C69 | provider digest contexts, as numbered objects with the state of OpenSSL's context, and counters of what is taken from OpenSSL | invariant over histories relating each context to the calls made; the specification reads the history only |
| C70 | engine ciphers: EVP contexts, application data, contexts of the secure API and the caller's memory as one world, with OpenSSL's reading of the results | invariants over histories: ownership for all, and for each context used with care that the message at work is the one in the history |
| C71 | the engine's recursive mutex, the lists of methods and their lazy filling, any number of threads stepping between the calls that matter | invariant counting how often each thread holds the mutex by place and by calls that returned without unlocking; measure for one thread |
| C72 | MACs through the engine: EVP_MD_CTX, EVP_PKEY_CTX with its handle, the secure API's table of MACs with handles of its choice | invariants over histories: handles apart, the MAC behind a handle is the message heard, every MAC owned; sufficient conditions by induction |
| C73 | RSA and EC contexts of the engine: settings, labels in memory, copies, the requests they make, bytes written | invariant over histories tying each context to the settings heard and its label to memory of its own; arithmetic of DER lengths |
| C74 | the keystore: the scan for the secret in a DER bag, names and buffers while bags are parsed, the static variables that keep the keys | reading DER by position with the rest of the data as witness; induction over bags; invariant over histories |
| C75 | the session variable, its lock, the store and the atexit handlers as steps of threads and of exit() | invariants over all schedules, one without and one with exit(), and one for an orderly end |
| C76 | provisioning through client library and trusted application, with the key store as a map of handles and other threads acting between the accesses | case analysis along the program with the state of the store as invariant |
| C77 | key generation contexts with settings and templates, import, headers with the union of curve and prime as bytes (M_ProvGen.v) | invariant tying what was asked (S_ProvGen.v) to contexts and objects over all histories; nine deviations are findings |
| C78 | EVP_MAC contexts of the provider with tables of MACs and keys by handle (M_ProvMac.v) | invariants: each MAC is held by one context; what the context was told (S_ProvMac.v) is what its MAC computes; seven deviations are findings |
| C79 | secure-video memory: malloc's blocks, the store's buffers and the client's calls (M_SvpMem.v) | invariant: blocks in use are exactly those the application was told of (S_SvpMem.v), pairwise disjoint; four deviations are findings |
| C80 | loading keys through the engine and attaching handles to them, with counts of blocks (M_EngKey.v) | invariant over histories: keys known to the application (S_EngKey.v) carry their handle, counts equal the keys alive; three deviations are findings |
| C81 | key-exchange contexts of the provider over keys by handle and any primitive (M_ProvExch.v) | invariant: contexts hold what they were told (S_ProvExch.v); two deviations are findings |
| C82 | threads in call_once, the loading steps and the recursive mutex (M_ProvLoad.v) | invariant on stages of loading; progress by leading the loader, then the holder, then the waiting thread (S_ProvLoad.v); failures are a finding |
| C83 | client and TA side of the calls about the implementation, with and without shared memory (M_Info.v) | case analysis; count of memory over histories (S_Info.v); three deviations are findings |
| C84 | the variables, allocations and releases of every function of the client library and the loop of common encryption, over both versions of the macros (M_ClientMem.v) | case analysis over functions and outcomes; invariant of the loop; deviations are findings |
| C85 | the tables of subsample lengths and of offsets from the application's memory to the implementation's, with size_t of either width on each side (M_Widths.v) | induction over the table; deviations are findings |
| C86 | sa_crypto_random and symmetric key generation down to RAND_bytes, whose answers are choices (M_Random.v) | case analysis; deviations are findings |

### The API model

* `M_Prog.v`: a call is a program, a tree of commands (acquire, lock, read, use
  a key, allocate, ...) whose answers are chosen by the environment. History =
  list of commands with their answers. `M_ApiKey`, `M_ApiCipher`, `M_ApiMac`,
  `M_ApiSvp`, `M_Api` give each API function as such a program, following the
  C functions statement by statement.
* Theorems about single calls (`C_Api.v`) quantify over all answers, so they
  cover every behaviour of concurrent calls, OpenSSL, the clock and the
  allocator.
* `M_World.v` gives the answers: a heap, the object stores, mutexes and any
  number of threads, each running one call, in every interleaving of commands.
  The refuted theorems exhibit schedules of this system (`P_ApiRuns.v`).

## 4. What is not modelled

* The configuration with USE_SHARED_MEMORY, except for the memory of each call
  (M_ClientMem.v) and the calls about the implementation (M_Info.v). It does not
  compile as it is: `sa_key_header.c` passes a structure to `memcpy` as a
  pointer. Also not: the transport below `ta_open_session`.
* A `size_t` of 32 bits, except for the tables of sizes (M_Widths.v).
* Constants without state: the values of `ta_sa_get_version`,
  `ta_sa_get_device_id` and `ta_sa_get_ta_uuid`, `ta_sa_svp_supported`,
  `saimpl.c`, `video_output.c`, `log.c`. Their commands are modelled (M_Client.v,
  M_Marshal.v, M_Info.v).
* Random bytes are a choice of each call; `rand.c` itself is M_Random.v.
* Of the provider (`sa_provider.c`): the tables of algorithms by name; the
  gettable and settable tables are modelled for digests only (M_ProvDigest.v).
* Of the engine: it is modelled for OpenSSL 1.1.1; the code for 1.0.2 is not.
* The test suites; real scheduling and timing; constant-time behaviour; weak
  memory: threads interleave at calls of the library and accesses to shared
  data as listed in the comments of M_World.v, M_StoreConc.v, M_EngThreads.v.
* Clearing of memory before it is freed.
* The mathematics of the cryptographic primitives: they are functions, or oracles
  that may fail, chosen by the environment.

## 5. Axioms

None. Below each theorem of the files `C_*.v` stands `Print Assumptions`, and all
540 of them print "Closed under the global context": no axiom of the standard
library or of any other is used. `coqchk -o` over the compiled files lists the
fields of `Coq.ssr.ssrunder.Under_rel` only, a module of the standard library
loaded with it; no theorem depends on them.

Number of theorems printed so, by file:

`C_Api` 31, `C_Asym` 18, `C_Bytes` 12, `C_Cenc` 18, `C_Cipher` 24,
`C_Client` 6, `C_ClientMem` 5, `C_ClientSamples` 3, `C_EngCipher` 23,
`C_EngKey` 9, `C_EngMac` 9, `C_EngPkey` 23, `C_EngThreads` 9, `C_Handles` 6,
`C_Info` 9, `C_Json` 5, `C_Kdf` 12, `C_KeyStore` 10, `C_Mac` 7,
`C_Marshal` 14, `C_Progress` 4, `C_ProvAsym` 10, `C_ProvDigest` 7,
`C_ProvExch` 7, `C_ProvGen` 12, `C_ProvKdf` 17, `C_ProvKeys` 12,
`C_ProvLoad` 4, `C_ProvMac` 15, `C_ProvSign` 18, `C_Provider` 35,
`C_Provision` 10, `C_Rights` 18, `C_Random` 7, `C_RootKey` 14, `C_Safe` 10, `C_Session` 13,
`C_Sharing` 12, `C_Soc` 11, `C_Svp` 10, `C_SvpMem` 9, `C_TypeJ` 11,
`C_Unwrap` 8, `C_Widths` 5, `C_World` 8.
