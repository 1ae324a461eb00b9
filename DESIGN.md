# Formal model of wolfPKCS11 - design

Source: /repo (C), read as text only. Model and proofs: rocq/theories (Coq 8.16.1).
Everything builds with `coq_makefile -f _CoqProject -o Makefile && make -j4` in rocq.

## Approach

The model is a small, total, computable Gallina program that follows the C code
function by function; every definition cites the file and lines it models.
Undefined behaviour (out-of-bounds access, use after free, reading the wrong union
member) is a separate outcome `Undef` of the result type (Base.v), so that
memory-safety claims are claims about outcomes.  Properties are stated against
small specifications kept apart from the model (CbcSpec, OpsSpec, EcdsaSpec,
ObjectSpec, StoreSpec and the claim definitions at the top of the Prop*.v files),
for all inputs, all reachable states and all histories of calls.  A property that
the code does not have is refuted by a concrete history, and what remains true is
proved under a `_partial` name.  Beside each theorem an `Example` gives a
non-trivial case that meets its hypotheses.

| Files | What they are |
|---|---|
| Base, Cbc, Ops, Ecdsa, RsaRaw, Codec, Mech, RwLock, LoginRace, Threads, PinRace, ObjRace, LibRace, SessRace, Object, DhDer, Store, Sys, Info, Api, Rng, Names, Fault, Wipe, Procs, Heap, Mem, Bufs | the model |
| CbcSpec, OpsSpec, EcdsaSpec, ObjectSpec, StoreSpec, SafeSpec, Answers, Device, Guard, Table, Seek, Job, Note, Archive, Vault, first parts of Isolate and Secrets | independent specifications |
| ToyEnv, ToySys | a concrete environment (toy cipher, toy RSA, ...) for examples and refutations |
| *Proofs*, OpLift, KeyHeld, OpsFinal, OpsPadExact, OpsClaims, OpsRefute, ObjFrame, FindState, DiskHandles, SafeOps, SafeObj, SafeStore, SafeSys | lemmas |
| Prop* | the theorems named in MANIFEST.json, each followed by `Print Assumptions` |

## Trusted base

- The Coq 8.16.1 kernel (and coqchk).
- No axioms: `Print Assumptions` answers "Closed under the global context" for
  every theorem in MANIFEST.json.  coqchk lists seven parameters of the standard
  library's `Coq.ssr.ssrunder` module type (`Under_rel`), loaded through a library
  dependency; no theorem uses them.
- That the model says what the C code does.  This is by reading; the citations are
  there to be checked.  The simplifications are listed below and in the header
  comment of each model file.
- Hypotheses about external code, which are arguments of the theorems and never
  axioms:
  - `honest` (SafeSpec.v): the laws of StoreSpec.v, plain text 16 bytes shorter than
    its ciphertext, points of the size of their curve, no undefined behaviour.
  - `env_sizes` (OpsSpec.v): wolfCrypt's output lengths (16-byte blocks, ciphertext
    as long as plaintext, HMAC of the digest size, RSA/ECDSA output within the key
    length); the primitives themselves have no undefined behaviour; the HMAC member
    of the session's parameter union does not reach the partial block of the CBC
    member (`es_tail`).
  - `laws` (StoreSpec.v): PIN hashes have 32 bytes, storage decryption inverts
    storage encryption under the same key and nonce, the tag has 16 bytes, and each
    DER decoder inverts its encoder.  `small_der`: encodings are below 2^30 bytes.
    `pub_laws`: a public key decoder's result depends on the encoding only.
  - `sealing` (Secrets.v): a sealed key shows no more of the plain text than its length; whether it opens, and the length of what it opens to, does not depend on the plain text.
  - `quiet` (UseProofs.v): wolfCrypt itself reports no use after free.
  - `ec_laws`, `dh_law` (PropImport.v): a curve's identifier is the one it is found by,
    an imported point of full length is exported again, wc_DhSetKey reads big-endian numbers.
  - The inverse laws of the block cipher (C32) and of RSA (C42, C66), where stated.
  Each of these is shown satisfiable by the toy environment.

## What is modelled

| Code | Model |
|---|---|
| wolfpkcs11.c 127-150 C_Initialize, C_Finalize | Sys.v |
| slot.c: slot and mechanism lists, mechanism info, token info, C_InitToken, C_InitPIN, C_SetPIN, sessions, C_Login, C_Logout | Mech.v, Sys.v |
| wolfpkcs11.c 152-178, slot.c 66-216, 801-820: information structures | Info.v |
| crypto.c 40-1160: template checking, create, copy, destroy, get/set attributes, find | Object.v, Sys.v |
| crypto.c 1165-2292, 2465-2903, 2995-3376: encrypt, decrypt, sign, verify | Ops.v |
| crypto.c 3621-4275: key generation, wrap, unwrap, derive | Sys.v |
| all 68 functions: checks of library, slot, session, pointers and parameters before anything else | Api.v |
| internal.c 707-860: names of the files | Names.v |
| internal.c 4938-4975 | Wipe.v |
| internal.c 707-865, 3028-3146: several processes | Procs.v |
| allocation and freeing of objects: crypto.c 458-483, 545-645, 734-766, 3621-3843, 4245-4275; internal.c 584-590, 3255-3272, 3658-3703, 3779-3797 | Heap.v |
| failing allocation: internal.c 1400-1410, 1641-1644, 1700-1732, 1883-1910, 1932-1935, 1994-2025, 2077-2105, 2154-2159, 2382-2438, 2476-2556, 3028-3145, 3596-3643, 3974-4058, 4162-4189, 6100-6146, 6410-6432; crypto.c 315-483; slot.c 721-744 | Mem.v |
| buffers of operations: internal.c 584-623, 4490-4515, 4599-4629, 6750-6842, 8054-8303 | Bufs.v |
| internal.c 820-1090, and the calls that store or load: failing storage | Fault.v |
| crypto.c 4290-4350, internal.c 494-508, 8536-8566: random generator | Rng.v |
| internal.c 343-491: read/write lock | RwLock.v |
| internal.c 525-625, 3245-4350, 4600-4960: sessions, slots, tokens, PINs, object lists | Sys.v |
| internal.c 993-1436: storage primitives | Codec.v |
| internal.c 2231-2437: DER of DH parameters | DhDer.v |
| internal.c 1454-3245: object and token storage, encryption at rest | Store.v |
| m4/hexversion.m4, internal.h 50-51 | Info.v |
| internal.c 3884-4060 under concurrency | LoginRace.v |
| locking and shared data of every call on an initialised library (internal.c, crypto.c, slot.c) | Threads.v |
| internal.c 3845-3870, 3974-4059, 4114-4155 under concurrency: PIN changes and logins | PinRace.v |
| crypto.c 1507-1718, 2079-2292, internal.c 7620-8009, 8106-8303 under concurrency: multi-part calls on a session | SessRace.v |
| internal.c 4639-4742, 5445-5478, crypto.c 863-885 under concurrency: token objects | ObjRace.v |
| internal.c 3443-3517 under concurrency: C_Initialize and C_Finalize | LibRace.v |
| internal.c 4490-4629, 6571-6842, 7569-8565: operation parameters, RSA/AES/HMAC operations | Cbc.v, Ops.v |
| internal.c 5020-6450: key data, attributes | Object.v |
| internal.c 6501-6564, 6859-6942: RSA exponent, raw RSA | RsaRaw.v |
| internal.c 7177-7318: ECDSA signature conversion | Ecdsa.v |

## What is not modelled

- wolfCrypt: all of cryptography is a parameter of the model.
- Concurrency, except the read/write lock, concurrent logins and PIN changes, use
  and destruction of token objects, C_Initialize and C_Finalize, multi-part encryption on shared sessions, and which locks
  every call holds when it touches which shared data: elsewhere calls run one after
  another.
- Failure of memory allocation in the calls Mem.v does not cover, of RNG initialisation and of mutex operations; failure
  of the storage in Fault.v only; a directory name the library refuses.
- Pointers that are neither NULL nor valid, and lengths that are not those of the buffer.
- Builds other than the default one (all algorithms on, one slot, file storage, LP64,
  little-endian; TPM and other conditional code absent).

## Simplifications and their direction

- Codec.v: a read is short only at the end of the file; malloc(0) succeeds, a
  negative size fails; left shifts of signed values wrap (gcc).
- RwLock.v: mutexes are binary semaphores (any thread may release).
- LoginRace.v: each critical section is one atomic step (this only removes
  executions, and the property is refuted anyway).
- Threads.v: the shared data are eleven fields (one for all token objects, one for
  all files ...); data belonging to one session are not included; branches are
  taken freely, which adds executions; refutations name the branch they take.
- PinRace.v: HashPIN reads its seed at once and writes its result at once.
- SessRace.v: a call of wolfCrypt, a memcpy and a `+=` are one step each (this only removes
  executions); memory behind the AAD and the Aes object is not followed; objects do not change and
  sessions are not opened, closed or given new operations meanwhile. Allocation does not fail except
  that realloc(p, 0) may free and give NULL (parameter `rz`; Ops.v and the theorems about it take
  it to succeed).
- ObjRace.v: an object is used in one step after it has been found; contents, storage
  and failures are left out.
- LibRace.v: the set-up and the tear-down are one step each and do not fail.
- Object.v: attribute values below 2^31 bytes, little-endian CK_ULONG; a failed
  SetRsaKey leaves zeros, a failed SetEcKey keeps the curve; exports depend on
  curve and point only; cert.type is never read.
- Store.v: storage encryption never fails; decoding data above 512 bytes into the
  512-byte key buffer is `Undef`; a file header is one write, with crash points at
  every byte.
- Names.v: the directory does not change while the token is in use and its name is a string of characters without
  regard to links; object and slot numbers below 2^64. Elsewhere (Store.v) every item is assumed to have its own file;
  C97_disk_partial justifies this for directories of at most 68 characters.
- Procs.v: each call of a process runs to its end before another process does anything.
- Heap.v: objects only; the buffers inside objects, sessions and operations are not counted; wolfCrypt allocates elsewhere. A refusal before the allocation is entered as an allocation and a free.
- Mem.v: denials in nine calls only; all allocations of loading are denied together; those inside wolfCrypt and libc, and the two first sessions, are granted.
- Bufs.v: one session; the three buffers of operations only (C_WrapKey, certificates and wolfCrypt allocate elsewhere); no allocation fails.
- C110, C111: `face` (AttrFrame.v) is the object without its key and its stored form (encoded flag, IV, encrypted key); objects loaded from files by C_Initialize are the subject of C49 and its neighbours, not of C111.
- C112: `allowed` in Answers.v is transcribed by hand from PKCS #11 v2.40 and reads it generously (the codes any function may give, the device codes and CKR_FUNCTION_CANCELED are counted as listed).  The histories of PropAnswers.v run in the world `aw`, where chosen calls of the crypto library fail; allocation never fails there.
- C113: the handle is compared as a number, so destroying another session's object with the same number counts as naming the key; C_WrapKey and C_UnwrapKey count as operation calls of their session.
- Fault.v: the operations are those of Store.v (a header or a key is one write); a write that is lost
  is lost at once and not when the file is closed; reading fails per file, not per call.
- Rng.v: elsewhere the generator is assumed to work; the state in which it does not is only here.
- Sys.v: one slot; wc_DhAgree and wc_ecc_shared_secret are assumed to respect the size of the
  buffer they are given; randomness is a stream given to each call; time is an input of
  the calls that read it.

## Properties

For each property: what is modelled and how it is approached, then the result. "Refuted" means: the full claim is stated as a `Prop` (`Cnn_claim` or similar) and its negation is proved from a concrete history of the model; the `_partial` theorems are what remains true.

- **C01** Session handles of simultaneously open sessions are distinct and bounded in number. System model (sessions as the C linked list of records); inductive invariant on the list (handles n..1, n<=70) over all histories.
  - proved: `C01_open_session`, `C01_session_count` (PropSys1.v).
- **C02** C_CloseSession closes exactly the named session. System model; frame theorem for C_CloseSession against a handle->mode map view.
  - proved: `C02_close_session` (PropSys1.v).
- **C03** C_CloseAllSessions closes every session and logs out. System model; expected false (session id 1 survives, no logout): refutation by witness plus a partial theorem for the rest.
  - partial: `C03_close_all_refuted`, `C03_no_logout_refuted`, `C03_close_all_partial` (PropSys1.v).
  - REFUTED: C_CloseAllSessions skips the session with number 1, which stays open, and never logs out. Proved for all other sessions.
- **C04** A Security-Officer login never coexists with a read-only session. System model; invariant over all histories.
  - proved: `C04_so_no_read_only`, `C04_so_login_refused` (PropSys1.v).
- **C05** Login only with the right PIN and only when nobody is logged in. System model; C_Login characterised against an independent spec of PIN checking; hash is an oracle.
  - proved: `C05_session_state`, `C05_login`, `C05_right_pin_accepted`, `C05_logout`, `C05_frame` (PropSys2.v).
- **C06** Lock-out after three consecutive wrong PINs. System model, clock as input of each call; potential-function induction over histories.
  - partial: `C06_locked_out`, `C06_no_comparison`, `C06_wrong_pin_counted`, `C06_three_wrong_lock`, `C06_success_resets`, `C06_guess_rate_partial`, `C06_across_restart_refuted` (PropSys2.v).
  - REFUTED across a restart of the process: failures are kept in memory only, so the lock-out ends when the process does. Everything else is proved for one process; the guess rate is a bound over all sequential histories between two restarts.
- **C07** Lock-out holds under concurrent logins. Small-step interleaving model of the lock sections of UserLogin; expected false: refutation by a schedule, partial for non-overlapping schedules.
  - partial: `C07_refuted`, `C07_unbounded_refuted`, `C07_serial_partial` (PropLoginRace.v).
  - REFUTED: the lock-out test is `== 3` and is made in a separate critical section from the counter update; four overlapping wrong logins take the counter to 4, after which no attempt is ever refused (unboundedly many comparisons at one instant). Partial: the claim holds for schedules without overlapping login calls.
- **C08** Every PIN guess is rate limited. System model; expected false for C_SetPIN/C_InitToken; refutation and partial (C_Login).
  - partial: `C08_set_pin_refuted`, `C08_init_token_refuted`, `C08_login_partial` (PropSys2.v).
  - REFUTED: C_SetPIN and C_InitToken compare PINs without counting failures, also during lock-out. Proved for C_Login.
- **C09** Changing a PIN takes effect exactly. System model; PIN verification after the call.
  - proved: `C09_set_pin`, `C09_init_pin` (PropSys3.v).
  - For every hash with 32-byte results.
- **C10** Changing a PIN keeps private token objects recoverable. System model with storage encryption oracle; expected false; refutation and the recoverable cases.
  - partial: `C10_refuted`, `C10_partial` (PropStore.v).
  - REFUTED: setting the user PIN while the user is not logged in (C_InitPIN by the SO, or C_SetPIN without login) draws a new seed and key without re-encrypting, so the old keys cannot be decrypted any more. Proved for C_SetPIN during a user login with the user's own history.
- **C11** Re-initialising a token requires the SO PIN and erases it. System model.
  - proved: `C11_init_token` (PropSys3.v).
- **C12** A fresh token can always be initialised. System model with persisted token; expected false; refutation and partial.
  - partial: `C12_fresh_token_refuted`, `C12_fresh_token_partial` (PropSys3.v).
  - REFUTED: C_Finalize stores the uninitialised token, and after the next C_Initialize it counts as initialised with no SO PIN, so C_InitToken answers CKR_PIN_INCORRECT for ever. Proved for a token that was never stored.
- **C13** C_Initialize / C_Finalize bracketing. Library counter model; expected false for unbalanced histories; partial for balanced ones.
  - partial: `C13_bracketing_refuted`, `C13_bracketing_partial` (PropSys3.v).
  - REFUTED: after one C_Finalize too many the count is -1 and the next C_Initialize succeeds without effect. Proved: in every history a call is refused exactly if C_Initialize calls do not outnumber C_Finalize calls.
- **C14** Object handles identify live objects uniquely. System model; invariant: handles in each object list strictly decreasing.
  - partial: `C14_refuted`, `C14_partial` (PropObj.v).
  - REFUTED: CKA_TOKEN = 16 gives a token object a handle without the token bit, so the handle can name a session object instead. Proved for every history, restarts included, in which CKA_TOKEN bytes are 0 or not a multiple of 16 and fewer than 2^28 handles are consumed.
- **C15** Object quotas. System model; invariant on counts.
  - partial: `C15_refuted`, `C15_partial` (PropObj.v).
  - REFUTED: the error for a full session or token is CKR_FUNCTION_FAILED, not CKR_DEVICE_MEMORY. Proved: the quotas hold in every reachable state, creation beyond them fails and changes nothing, and a creation that succeeds on the emptied state is not refused while there is room.
- **C16** A key-pair generation that fails leaves no trace. System model with object identities; expected false at the quota; partial below it.
  - partial: `C16_refuted`, `C16_partial` (PropObj.v).
  - REFUTED: with room for one more object C_GenerateKeyPair frees the public key that is already in the list (use after free, an undefined result in the model). Proved: whenever the call has a defined result other than CKR_OK, objects, handles and files are exactly as before.
- **C17** Session objects belong to one session and die with it. System model; frame theorems.
  - proved: `C17_only`, `C17_created`, `C17_created_pair`, `C17_closed`, `C17_others` (PropObj2.v).
  - For every reachable state; session objects are those created with CKA_TOKEN absent or false.
- **C18** C_DestroyObject removes exactly one object. System model; list removal theorem.
  - proved: `C18_destroy` (PropObj2.v).
  - For every history with fewer than 2^27 calls; the content of an object is everything except the state of its stored form. Destroying an object whose CKA_TOKEN byte was even and not 0 has no defined result (see C63).
- **C19** Destroying a key that is in use is safe. System model with explicit use-after-free outcome; expected false; partial.
  - partial: `C19_refuted`, `C19_other_session_refuted`, `C19_partial` (PropInUse.v).
  - REFUTED: C_DestroyObject leaves the session's pointer to the key; C_Encrypt with AES-GCM, also from another session, then reads the freed object. Proved: in histories that destroy no key while an operation uses it (and do not initialise an uninitialised token while operations are active) no call of the operation interface touches freed memory.
- **C20** Read-only sessions cannot change objects. System model; every call with a read-only session preserves the object lists.
  - proved: `C20_read_only` (PropObj3.v).
  - For every reachable state and every call that takes a session handle. C_Login, C_Logout and C_CloseSession decrypt or encrypt the key material of token objects and change nothing else of them; all other calls leave token, files and session objects exactly as they were.
- **C21** Search results are sound. Find model over object lists and attribute matching.
  - partial: `C21_refuted`, `C21_partial` (PropFind.v).
  - REFUTED: an object created with CKA_TOKEN = 2 makes the search walk the token's list for ever, and its handle is delivered ten times. Proved for every history with CKA_TOKEN bytes 0 or odd: no handle is delivered twice and each names an object having every value of the template.
- **C22** Search results are complete. As C21; expected false (10 result limit); partial up to the limit.
  - partial: `C22_refuted`, `C22_partial` (PropFind.v).
  - REFUTED: at most ten objects are found and the rest are silently dropped; without login, objects with no usage flag are not found although they are public. Proved for at most ten matches when the user is logged in or the object has a usage flag, and its key is not in encrypted form.
- **C23** C_FindObjects delivers results in pieces without loss or duplication. Find cursor model; prefix theorem by induction on requests.
  - partial: `C23_refuted`, `C23_partial` (PropFind.v).
  - REFUTED for counts of 2^31 and more, which are cast to a negative int and yield nothing. Proved for every smaller count, with arbitrary other calls in between.
- **C24** Private objects are invisible and unusable without user login. As C21; expected false (flag tested in the wrong word); partial.
  - partial: `C24_find_refuted`, `C24_use_refuted`, `C24_find_partial` (PropFind.v).
  - REFUTED: the search tests the usage flags where CKA_PRIVATE should be tested, and using an object by its handle involves no test at all. Proved: with nobody logged in, an object without usage flags or still encrypted is not found.
- **C25** An attribute reads back as it was set. Attribute model; expected false for protection flags and CKA_UNWRAP; laws for the rest.
  - partial: `C25_readback_refuted`, `C25_protection_refuted`, `C25_alias_refuted`, `C25_readback_partial`, `C25_others_unchanged_partial`, `C25_create_partial` (PropObject.v).
  - REFUTED: protection attributes are written to one flag word and read from another, so they read back FALSE; CKA_TRUSTED reads CKA_ENCRYPT's bit; CKA_UNWRAP sets CKA_WRAP. Proved for the other usage attributes, CKA_LABEL, CKA_ID, CKA_CLASS and dates.
- **C26** C_SetAttributeValue changes only the listed attributes. Attribute model; expected false (key data reset).
  - partial: `C26_unlisted_refuted`, `C26_unlisted_partial`, `C26_rejected_unchanged` (PropObject.v).
  - REFUTED: renaming an AES key erases its value (the key setters run with no data and wipe it). Proved: identity, location and stored form never change, DH values are kept, refused templates change nothing.
- **C27** Attribute reads respect the caller's buffer. Buffer-level model of GetData & co.; expected false for CKA_EC_POINT.
  - partial: `C27_bounds_refuted`, `C27_query_refuted`, `C27_value_len_refuted`, `C27_bounds_partial`, `C27_ec_point_partial`, `C27_query_partial` (PropObject.v); `C27_wf_preserved`, `C27_create_wf` (PropObject2.v).
  - REFUTED: CKA_EC_POINT overflows buffers two or three bytes too short; unset dates report 0 and then fail; CKA_VALUE_LEN beyond the key buffer makes the read run past it. Proved for all other attributes and for objects whose recorded length fits (an invariant of sane templates).
- **C28** Sensitive key values never leave through attribute reads. One object: attribute model over histories; holds for symmetric/RSA/EC, false for DH. Whole library (Secrets.v, SecretsStep.v, SecretsProofs.v): two histories of Sys.v that differ in the values of protected keys; a relation between states in which these objects differ in their key bytes and sealed forms only, kept by every call; refuted by a token key made readable while it lies sealed.
  - partial: `C28_no_leak_refuted`, `C28_no_leak_partial`, `C28_stored_form_partial`, `C28_dh_partial`, `C28_created_partial` (PropObject2.v); `C28_system_refuted`, `C28_full_system_refuted`, `C28_system_partial` (PropSecrets.v).
  - REFUTED: a sensitive DH private key becomes readable after changing CKA_CLASS to CKO_PUBLIC_KEY; and a sensitive, non-extractable AES token key leaks: while the user is logged out C_SetAttributeValue (any read-write session) makes it extractable, clearing the key in memory but not its sealed form, and after the next C_Login C_GetAttributeValue returns the value (C28_system_refuted). Proved for one object as non-interference over all its histories for RSA, EC, AES and generic secrets; and for the whole library (C28_system_partial) for AES and generic secrets: two histories that differ in the values of protected keys give the same answers to every call, if no call computes with such a key, no change of a token object makes anything readable, and the library is not loaded anew. Missing: RSA and EC at library level, reloading.
- **C29** Non-extractable keys cannot be wrapped. Wrap model; expected false.
  - partial: `C29_refuted`, `C29_partial` (PropKeys.v).
  - REFUTED: C_WrapKey never looks at CKA_EXTRACTABLE; an RSA key created with CKA_EXTRACTABLE false is wrapped. Proved: a successful C_WrapKey was of an RSA key, through a read/write session, with both handles valid.
- **C30** Key usage flags are enforced. Init model; expected false.
  - partial: `C30_refuted`, `C30_partial` (PropKeys.v).
  - REFUTED for every usage attribute: no call reads them. Proved: what the Init calls do check, the type of the key against the mechanism.
- **C31** AES-CBC streaming equals one-shot. Streaming model over an arbitrary block function; induction over chunks.
  - proved: `C31_encrypt`, `C31_decrypt`, `C31_fresh_history`, `C31_fresh_final` (PropOps.v).
  - For every block cipher whose block functions keep 16-byte length; buffers with 15 spare bytes, pieces below 2^31 bytes. C31_fresh_* say which histories leave no partial block.
- **C32** AES-CBC-PAD decrypts what it encrypted, under any chunking. Streaming model; needs dec(enc(b))=b as hypothesis.
  - proved: `C32_encrypt`, `C32_decrypt`, `C32_spec_total` (PropOps.v).
  - Ciphertext is characterised by the independent specification in CbcSpec.v; C32_encrypt and C32_decrypt compose to the round trip.
- **C33** Malformed CBC padding is rejected. Streaming model; expected false.
  - partial: `C33_refuted`, `C33_partial`, `C33_exact_partial`, `C33_valid_partial` (PropOps.v).
  - REFUTED: C_Decrypt accepts a block that decrypts to 16 zero bytes (WP11_AesCbcPad_DecryptFinal never validates the padding). Proved part: wrong total lengths are rejected by the multi-part calls; every other ciphertext is accepted by both forms and gives the CBC plain text without as many bytes as its last byte says (none if above 16), which for valid padding is the message.
- **C34** Encryption calls respect the caller's output buffer. Output length model; expected false for CBC-PAD; theorems for the others.
  - partial: `C34_refuted`, `C34_query_refuted`, `C34_partial`, `C34_query_partial` (PropOps.v).
  - REFUTED for CBC-PAD: C_Encrypt writes 32 bytes into a 16-byte buffer after a query that answered 16. Proved for all other calls.
- **C35** AES-GCM decryption releases plaintext only after authentication. GCM model over an AEAD oracle.
  - proved: `C35_multipart`, `C35_oneshot`, `C35_output` (PropOps.v).
  - For inputs at least as long as the tag (shorter inputs are an out-of-bounds read in the code, UB outcome in the model).
- **C36** Multi-part AES-GCM encryption equals one-shot. GCM model; expected false for two or more pieces, true for one.
  - partial: `C36_refuted`, `C36_partial`, `C36_each_update_restarts` (PropOps.v).
  - REFUTED: two Updates give a different ciphertext than one C_Encrypt. Proved part: a single Update; and in every environment each Update is a separate encryption under the same IV.
- **C37** A GCM nonce is used for at most one message per initialisation. GCM model; expected false.
  - partial: `C37_refuted`, `C36_each_update_restarts` (PropOps.v); `C37_partial` (PropNonce.v).
  - REFUTED: two C_Encrypt calls after one C_EncryptInit both encrypt under the same IV. C36_each_update_restarts shows the same for every two Updates. C37_partial: for every sequence of data calls, exactly which encryptions are made: one per C_Encrypt or C_EncryptUpdate that is not refused, all under the one IV, the additional data with the first only; no other call encrypts. So the claim holds of exactly the sequences with at most one such call.
- **C38** One-shot and final calls terminate the operation. Operation life-cycle model; holds for CBC/HMAC, expected false for RSA/GCM/ECDSA one-shot.
  - partial: `C38_refuted`, `C38_partial`, `C38_query_unchanged` (PropOps.v).
  - REFUTED for RSA (ECDSA, GCM alike): a second C_Encrypt succeeds without a new Init. Proved for CBC, CBC-PAD and HMAC; the query half is proved for all mechanisms.
- **C39** A new operation starts from a clean state. Operation life-cycle model; expected false for CBC (stale partial block).
  - partial: `C39_refuted`, `C39_partial` (PropOps.v).
  - REFUTED for CBC and CBC-PAD: the partial block of an unfinished operation is used by the next one. Proved for all other mechanisms.
- **C40** Operations need their own Init. Operation life-cycle model; invariant over histories.
  - proved: `C40_own_init` (PropOps.v).
- **C41** HMAC signing and verifying agree under any chunking. HMAC model over a hash oracle with streaming law.
  - proved: `C41_sign_multipart`, `C41_sign_oneshot`, `C41_verify_multipart`, `C41_verify_oneshot` (PropOps.v); `C41_sign_mixed`, `C41_verify_mixed` (PropTight.v).
  - HMAC itself is an oracle with output of the right size.
- **C42** Raw RSA verification accepts only true signatures. Byte-level model of WP11_Rsa_Verify; expected false.
  - partial: `C42_refuted`, `C42_longer_data_accepted`, `C42_partial` (PropEcdsa.v).
  - REFUTED: with a 2048-bit key the bytes above short data are never compared, and data longer than the modulus is accepted with any signature under any key. Proved for data of modulus length.
- **C43** ECDSA signatures convert losslessly. Byte-level DER model; round trip.
  - proved: `C43_roundtrip`, `C43_encode`, `C43_decode` (PropEcdsa.v).
  - DER is specified independently in EcdsaSpec.v.
- **C44** ECDSA DER conversion is memory safe. Byte-level DER model with explicit out-of-bounds outcome; expected false; partial for canonical DER.
  - partial: `C44_refuted`, `C44_refuted_empty`, `C44_partial`, `C44_canonical_partial` (PropEcdsa.v).
  - REFUTED: an INTEGER of n+1 bytes without a leading zero is copied to one byte before the output; an empty INTEGER before a zero byte gives a copy of size -1. Proved for all other inputs, in particular all canonical ones.
- **C45** The public exponent used is the one requested. Exponent byte order model; expected false; characterisation.
  - partial: `C45_refuted`, `C45_reversed`, `C45_partial` (PropEcdsa.v); `C45_default` (PropTight.v).
  - REFUTED: the exponent is byte reversed (65539 becomes 196609). Proved: it is right exactly for palindromic byte strings.
- **C46** Derived keys have the requested length and content. Length/offset model with explicit over-read; expected false; partial when the length equals the secret length.
  - partial: `C46_read_refuted`, `C46_handle_refuted`, `C46_length_refuted`, `C46_partial` (PropKeys.v).
  - REFUTED three ways: the secret is read past its end, CKR_OK is returned without a handle, and CKA_VALUE_LEN beyond the secret is not refused. Proved: a derived key is the whole secret.
- **C47** Key import is bounds checked. Length model with explicit overflow; expected false for symmetric keys.
  - partial: `C47_refuses_refuted`, `C47_stores_refuted`, `C47_stores_partial`, `C47_refuses_partial`, `C47_secret_partial` (PropObject2.v).
  - REFUTED: a 600 byte generic secret overflows the 512 byte buffer; CKA_VALUE_LEN smaller than the value drops the rest. Proved for DH and certificates; secret keys store the whole value or exactly CKA_VALUE_LEN bytes of it.
- **C48** Integer storage encoding round-trips. Storage codec model; round trip with trailing bytes.
  - proved: `C48_int`, `C48_word32`, `C48_ulong`, `C48_time`, `C48_boolean`, `C48_fixed`, `C48_array`, `C48_array_bounded`, `C48_big_endian` (PropCodec.v).
  - Signed left shifts are taken to wrap (gcc); ISO C leaves reading back a negative int or time undefined.
- **C49** Token state survives a clean restart. Token/object file codec; round trip through a file-system map.
  - partial: `C49_refuted`, `C49_partial` (PropStore.v).
  - REFUTED: the value of a certificate is not read back into memory, so storing a reloaded certificate fails and drops what follows it. Proved for every reachable token whose objects have their key data and whose sizes fit the C types.
- **C50** Key values survive a clean restart. Encode/store/load/decode composition; holds for symmetric keys, expected false for certificates.
  - partial: `C50_refuted`, `C50_partial` (PropStore.v).
  - REFUTED for tokens holding a reloaded certificate. Proved for every history of one user and every storable token, with the external key import/export as laws.
- **C51** A crash while storing never damages previously stored state. Crash model (prefix of the write sequence); expected false.
  - partial: `C51_refuted`, `C51_keys_refuted`, `C51_partial` (PropStore2.v).
  - REFUTED: the token file is truncated in place, so a crash in the first write leaves a blank token and all objects are lost; and a crash between an object's attributes and its key can pair a new key's attributes with another key's value left behind in a stale file. Proved for every call and crash point: label, PIN state and seed are the old ones, the new ones, or blank.
- **C52** Damaged files are detected, never misread. Codec: prefix-freeness.
  - partial: `C52_refuted`, `C52_partial` (PropStore2.v).
  - REFUTED: C_Initialize reports success and the token counts as initialised. Proved: cutting any file of the token at any byte never gives wrong fields, always the same blank token.
- **C53** Private key bytes at rest are always encrypted. Data-flow theorem over the store model with a symbolic view of ciphertext.
  - partial: `C53_refuted`, `C53_plain_refuted`, `C53_partial`, `C53_disk_partial` (PropStore3.v).
  - REFUTED: a token key created while nobody is logged in is encrypted under the initial all-zero key; and setting CKA_CLASS of a DH private key to CKO_PUBLIC_KEY makes the next logout write its value in the clear. Proved for all histories in which objects are created only during a user login and CKA_CLASS is not changed, under the external laws and with DER encodings below 2^30 bytes.
- **C54** Storage nonces are fresh. Store model; IV generation per encoding.
  - partial: `C54_refuted`, `C54_zero_iv_partial` (PropStore3.v).
  - REFUTED: the code that draws an IV is never reached for new token keys. Proved instead, for every creating call: the key is encrypted under the token key with the all-zero IV.
- **C55** Destroyed token objects leave no key material on disk. File-system model; expected false (stale file of the top index).
  - partial: `C55_refuted`, `C55_partial` (PropStore3.v).
  - REFUTED: when an older object is destroyed the others are renumbered and the key file of the highest number stays behind; it survives the destruction of its key. Proved: the object does not come back on restart, and when the key files were in step with the objects before the call, every one is then empty or belongs to a remaining object.
- **C56** The internal read/write lock excludes correctly. Small-step model of the two-mutex lock, any number of threads; invariant and progress.
  - proved: `C56_exclusion`, `C56_readers_share`, `C56_no_deadlock`, `C56_owner_refuted` (PropRwLock.v).
  - With mutexes as binary semaphores. C56_owner_refuted records that the last reader unlocks a mutex another thread locked, which POSIX leaves undefined.
- **C57** Two-call list protocol. Direct model with the sign conversion.
  - partial: `C57_mechanism_list`, `C57_slot_list_refuted`, `C57_slot_list_partial` (PropMech.v).
  - REFUTED for C_GetSlotList: the count is compared as an int, so counts of 2^31 and more are refused. Proved in full for C_GetMechanismList and for slot counts below 2^31.
- **C58** Mechanism list and mechanism info agree. Mechanism tables; finite case analysis lifted to all identifiers.
  - partial: `C58_list_info`, `C58_crypto_flags`, `C58_key_management_flags`, `C58_refuted`, `C58_wrap_flag_refuted`, `C58_keygen_unlisted_refuted`, `C58_flags_partial` (PropMech.v).
  - REFUTED: CKM_RSA_X_509 advertises wrapping, which C_WrapKey refuses; CKM_AES_CBC_PAD wraps but does not say so; CKM_AES_KEY_GEN works but is not listed. List/info agreement and all other flags proved.
- **C59** Token info reflects the lock-out. Direct model; expected false at one instant; characterisation.
  - partial: `C59_locked_flag_refuted`, `C59_flags_partial` (PropSys2.v).
  - REFUTED at one instant: at exactly the expiry time the login is refused but the flag is clear. Proved at every other instant, FINAL_TRY in full.
- **C60** Failed calls leave the session usable. Find/Init error paths; expected false for the search.
  - partial: `C60_crypto` (PropOps.v); `C60_find_refuted`, `C60_find_partial` (PropFind.v).
  - REFUTED for C_FindObjectsInit with a CKA_TOKEN entry that is not one byte: the call fails but the search is active. Proved for C_FindObjectsInit otherwise (nothing changes) and for the Init calls of all cryptographic operations.
- **C61** C_CopyObject copies the object. Attribute model; expected false.
  - partial: `C61_unlisted_refuted`, `C61_listed_refuted`, `C61_copy_partial` (PropObject2.v).
  - REFUTED: the template's values are overwritten with the source's, and attributes not listed (key value, label) are not copied. Proved: type and listed attributes equal the source's.
- **C62** Template validation is complete. Template checking model.
  - partial: `C62_validation_refuted`, `C62_validation_partial`, `C62_create_partial` (PropObject2.v).
  - REFUTED for CKA_TOKEN, which is checked as a byte string of any length. Proved for every other attribute type.
- **C63** CKA_TOKEN decides where an object lives. System model with the one-bit field; expected false for values other than 0/1.
  - partial: `C63_refuted`, `C63_partial` (PropObj3.v).
  - REFUTED: with CKA_TOKEN = 16 the token object's handle names nothing; with 2 destroying the object is a use after free. Proved for CK_FALSE and every odd byte, for all creating calls, C_GenerateKeyPair included, in every history whose bytes are 0 or not a multiple of 16.
- **C64** A refused Init does not disturb a running operation. Operation model; Init error paths; expected false; partial for failures detected before the parameter union is written.
  - partial: `C64_refuted`, `C64_partial` (PropOps.v).
  - REFUTED: a refused OAEP Init overwrites the parameter union of a running CBC operation. Proved for failures detected before the parameters are set.
- **C65** The reported length is the number of bytes written. Operation model; reported length against bytes written.
  - partial: `C65_refuted`, `C65_partial` (PropOps.v).
  - REFUTED for C_EncryptFinal with CBC-PAD, which leaves the length untouched. Proved for every other call (one-shot CBC for block multiples).
- **C66** Raw RSA signatures of short data verify. Byte-level model of WP11_Rsa_Sign/Verify composed through abstract RSA inverse functions.
  - partial: `C66_refuted`, `C66_partial`, `C66_short_rejected` (PropEcdsa.v).
  - REFUTED for 1024-bit keys and short data. Proved for data of modulus length and for moduli of a multiple of 2048 bits.
- **C67** An unwrapped key is the key that was wrapped. System model of C_WrapKey/C_UnwrapKey composed with the CBC-PAD model of the operation state; PKCS#8 encode/decode as inverse oracles.
  - partial: `C67_refuted`, `C67_wrap_partial`, `C67_unwrap_partial` (PropKeys2.v).
  - REFUTED: bytes left in the session by an unfinished C_EncryptUpdate are encrypted in front of the key; C_WrapKey reports CKR_OK and the result cannot be unwrapped. Proved for a session whose block buffer is empty: wrapping gives the CBC encryption of the padded key encoding, and unwrapping that gives an object holding the same key.
- **C68** A generated key has the requested length and is made of random bytes. System model of C_GenerateKey; the random bytes are an argument of the call.
  - partial: `C68_refuted`, `C68_partial` (PropKeys2.v).
  - REFUTED: without CKA_VALUE_LEN the AES key is empty, and a CKA_VALUE in the template decides the length. Proved: with CKA_VALUE_LEN in the template the key has 16, 24 or 32 bytes, as asked, all of them from the random generator.
- **C69** The handles of a generated key pair are those of its two matching halves. System model of C_GenerateKeyPair; the generated key is an argument of the call with its public and private part.
  - proved: `C69_handles` (PropKeys2.v).
  - For every reachable state, mechanism and template.
- **C70** No deadlock among concurrent calls. Threads.v: every call as a non-deterministic program of lock, unlock, read and write events; invariant of an interleaving machine from a static lock-order check evaluated in the kernel.
  - proved: `C70_no_deadlock`, `C70_all_finish` (PropThreads.v).
  - For all sequences of all modelled calls; C_Initialize and C_Finalize are treated in C83 instead. The locks are the abstract read/write lock justified by C56.
- **C71** A random generator is used by one thread at a time. Threads.v: a static check that every access happens under one common lock implies exclusion in all interleavings; where the check fails, a schedule.
  - partial: `C71_refuted`, `C71_partial`, `C71_global` (PropThreads.v); `C71_branch_reached` (PropThreadsReach.v).
  - REFUTED: storing a token object that needs a new IV draws from the token's generator without rngLock; a history reaching that branch is given. Proved: for all calls that do not store token objects; always for the library's own generator.
- **C72** The token's object list is not read while another thread changes it. Threads.v: a static check that every access happens under one common lock implies exclusion in all interleavings; where the check fails, a schedule.
  - partial: `C72_refuted`, `C72_partial` (PropThreads.v).
  - REFUTED: C_Logout walks the list under slot.lock, C_CreateObject changes it under token.lock. Proved without the calls that log the user in or out or set PINs.
- **C73** The session list is not read while another thread changes it. Threads.v: a static check that every access happens under one common lock implies exclusion in all interleavings; where the check fails, a schedule.
  - partial: `C73_refuted`, `C73_partial` (PropThreads.v).
  - REFUTED: C_CloseAllSessions unlinks and frees sessions without a lock. Proved for all other calls.
- **C74** The login state is not read while another thread changes it. Threads.v: a static check that every access happens under one common lock implies exclusion in all interleavings; where the check fails, a schedule.
  - partial: `C74_refuted`, `C74_partial` (PropThreads.v).
  - REFUTED: the search reads the login state under token.lock, logging in writes it under slot.lock. Proved for all calls but C_FindObjectsInit.
- **C75** One thread at a time writes the token's files. Threads.v: a static check that every access happens under one common lock implies exclusion in all interleavings; where the check fails, a schedule.
  - partial: `C75_refuted`, `C75_partial` (PropThreads.v).
  - REFUTED: C_SetPIN writes the token under slot.lock, C_CreateObject under token.lock. Proved without C_InitToken, C_InitPIN and C_SetPIN.
- **C76** The failed-login counters are changed by one thread at a time. Threads.v: a static check that every access happens under one common lock implies exclusion in all interleavings; where the check fails, a schedule.
  - partial: `C76_refuted`, `C76_partial` (PropThreads.v).
  - REFUTED: the SO login resets its count holding the lock for reading only. Proved without SO logins, C_GetTokenInfo and storing of token objects.
- **C77** A token object is not read while another thread changes it. Threads.v: a static check that every access happens under one common lock implies exclusion in all interleavings; where the check fails, a schedule.
  - partial: `C77_refuted`, `C77_derive_refuted`, `C77_partial` (PropThreads.v).
  - REFUTED twice: C_Logout replaces key data under slot.lock while C_GetAttributeValue reads them under token.lock; C_DeriveKey stores a pointer in the EC key without lock. Proved for the session and object calls.
- **C78** After concurrent PIN changes some PIN still works. PinRace.v: interleaving of PIN changes and logins, with the hash's read of the seed and write of the result as separate steps.
  - partial: `C78_refuted`, `C78_window_refuted`, `C78_partial` (PropPinRace.v).
  - REFUTED: two overlapping PIN changes can both succeed and leave a PIN hash that no PIN matches; and during one change neither the old nor the new PIN is accepted. Proved: if PIN changes do not overlap each other, the PIN set last works whenever none is in progress, whatever logins run meanwhile.
- **C79** The storage key belongs to the PIN that works. PinRace.v, as C78, for the storage key.
  - partial: `C79_refuted`, `C79_login_refuted`, `C79_partial` (PropPinRace.v).
  - REFUTED even with a single PIN change: a login with the old PIN that overlaps it leaves a storage key made from the old PIN and the new seed. Proved when logins do not overlap PIN changes.
- **C80** No call touches a token object another thread has freed. ObjRace.v: interleaving of creating, finding, using, unlinking and freeing token objects; invariant over all schedules; schedules as witnesses.
  - partial: `C80_refuted`, `C80_double_free_refuted`, `C80_partial` (PropObjRace.v).
  - REFUTED: WP11_Object_Find gives up the lock before its caller uses the object; another thread frees it in between, and two threads free it twice. Proved when an object is destroyed only while no other call uses it.
- **C81** The token's object count is the number of its objects. ObjRace.v, as C80, for the count.
  - partial: `C81_refuted`, `C81_partial` (PropObjRace.v).
  - REFUTED: two overlapping C_DestroyObject calls for one object lower the count twice, to -1. Proved under the condition of C80_partial.
- **C82** Mechanism information reports the key sizes of the mechanism's key type. Mech.v: the reported sizes against a table of mechanisms and key types.
  - partial: `C82_refuted`, `C82_partial`, `C82_ordered` (PropTight.v).
  - REFUTED: CKM_RSA_PKCS_PSS reports key sizes 256 to 521, those of EC keys. Proved for every other mechanism with information.
- **C83** The library is set up once, torn down once and used only in between. LibRace.v: the unlocked test of the count, the set-up, the locked update and the tear-down as separate steps; invariant over all schedules.
  - partial: `C83_refuted`, `C83_final_refuted`, `C83_partial`, `C83_count_partial` (PropLibRace.v).
  - REFUTED: the count is tested before the lock is taken, so two threads calling C_Initialize both set the library up; and a call that found the library initialised uses its lock after C_Finalize has freed it. Proved when the first C_Initialize and the last C_Finalize overlap no other call.
- **C84** Reading attributes and searching never misuses memory. Corollary of C85 for reads and searches; refuted by concrete histories.
  - partial: `C84_refuted`, `C84_search_refuted`, `C84_partial`, `C84_types_partial` (PropSafe.v).
  - REFUTED: asking an X.509 certificate for CKA_MODULUS reads it as an RSA key (certificate type 0 is the key type of RSA), also during a search; asking an EC token key for its curve before login dereferences NULL. Proved in every carefully reached state for the attributes all objects have, and for all attributes of objects that are neither certificates nor EC keys.
- **C85** No call has undefined behaviour. SafeSpec.v: when a call is careful, clause by clause. Invariant of all states reached by careful calls (union member in use matches class and type, lengths within buffers, operation parameters match the mechanism, key data of token objects long enough), proved for every call of Sys.v (SafeOps, SafeObj, SafeStore, SafeSys). Reachable failing calls for the clauses in PropSafe.v.
  - partial: `C85_refuted`, `C85_careless`, `C85_files`, `C85_partial`, `C85_restart_partial`, `C85_nofiles_partial` (PropSafe.v).
  - REFUTED: C85_careless lists two dozen reachable calls that misuse memory, C85_files a damaged file. Proved for the whole library and all histories: calls that keep to the conditions of SafeSpec.v (careful) have no undefined behaviour; files written at a clean end meet the condition on files.
- **C86** An imported key is the key given. PropImport.v: own big-endian reading of byte strings and own table of the numbers of a key; followed from the template through SetAttributeValue, SetRsaKey, SetEcKey and SetDhKey into the new object and back through the GetAttr functions, for every reachable state.
  - partial: `C86_refuted`, `C86_rsa_partial`, `C86_ec_partial`, `C86_dh_partial` (PropImport.v).
  - REFUTED: a DH prime given without a base is thrown away and the call succeeds. Proved for all RSA keys; for EC keys for the curve and the point, and for the private value when no point is given (with a point, it is what wc_ecc_import_x963_ex leaves); for DH keys with prime and base. Missing: nothing else of the claim.
- **C87** Diffie-Hellman parameters are stored as valid DER. DhDer.v: the length computation and the writes into the buffer, byte by byte with bounds; own relation saying what DER of the two integers is; any contents of the fresh buffer.
  - partial: `C87_refuted`, `C87_unambiguous`, `C87_partial` (PropDhDer.v).
  - REFUTED: a key without parameters is written with INTEGERs that have no contents byte, which is not DER. Proved for all positive p and g below 2^(8*2^22). C87_unambiguous: the specification determines p and g.
- **C88** Text fields of the information structures are blank-padded text. Info.v: the structures byte by byte, the digits written into them included; own definitions of blank-padded text and of decimal digits.
  - partial: `C88_refuted`, `C88_partial` (PropInfo.v).
  - REFUTED: the fields are padded with zero bytes. Proved: the text is right, and the slot number and the serial number are the decimal digits of the slot number (modulo 100).
- **C89** Token information is accurate. Info.v; own table of what each flag bit means, checked for every bit; own definition of the time format; limits compared with the calls that enforce them in Sys.v.
  - partial: `C89_refuted`, `C89_slot`, `C89_info`, `C89_flags`, `C89_clock`, `C89_no_clock`, `C89_sessions`, `C89_partial` (PropInfo.v).
  - REFUTED only for the error code: a PIN outside the limits gives CKR_PIN_INCORRECT. Proved: every flag bit, the time for years 0 to 9999, the session limits, and that exactly the PIN lengths within the limits can be set.
- **C90** Session information names the session's slot, state and mode. Api.v, Info.v: the structure including what it held before; state and flags compared with PropSys1/PropSys2.
  - partial: `C90_refuted`, `C90_partial` (PropApi.v).
  - REFUTED: the slot is never written; the structure keeps what the caller had in it. Proved: state, flags and device error.
- **C91** Calls without a library, slot or session are refused with the right code. Api.v: all 68 functions with their checks in order; own tables of which function takes which handle.
  - partial: `C91_refuted`, `C91_library_partial`, `C91_session`, `C91_slot`, `C91_object`, `C91_random` (PropApi.v).
  - REFUTED only by C_Finalize, which succeeds without C_Initialize. Proved for the other 65 functions, and in full for slots, sessions and objects.
- **C92** NULL pointers are refused. Api.v: pointer arguments that may be NULL; own table of the pointers each function needs; by cases on all functions and all combinations.
  - partial: `C92_refuted`, `C92_reserved_refuted`, `C92_empty_refuted`, `C92_partial` (PropApi.v).
  - REFUTED three ways: C_UnwrapKey on a read-only session answers CKR_SESSION_READ_ONLY first, C_Finalize ignores its reserved pointer, and a NULL template is refused even for zero attributes. Proved for all functions and states: the call fails, behaves in a defined way and changes nothing, and only C_UnwrapKey and C_OpenSession may answer with another reason.
- **C93** Unsupported functions say so, reporting functions only report. Api.v: own lists of unsupported and of reporting functions.
  - partial: `C93_refuted`, `C93_partial`, `C93_query` (PropApi.v).
  - REFUTED for the code: C_DigestInit answers CKR_MECHANISM_INVALID, others CKR_OPERATION_NOT_INITIALIZED, CKR_STATE_UNSAVEABLE ... Proved: all of them fail and change nothing; reporting functions change nothing.
- **C94** Nothing but the modelled steps changes the library's state. Api.v against Sys.v, both directions; reachability through the interface equals reachability in Sys.v.
  - proved: `C94_call`, `C94_step`, `C94_reach` (PropApi.v).
  - C94_reach: the states reached through the interface (and process ends) are exactly those reached by the steps of Sys.v.
- **C95** Wrong mechanism parameters of key generation and agreement are refused. Api.v: parameters as given by the caller; own definition of a wrong parameter.
  - proved: `C95_parameters`, `C95_proper` (PropApi.v).
  - The base key of C_DeriveKey is looked up first, so that an invalid handle answers CKR_OBJECT_HANDLE_INVALID.
- **C96** The random generator delivers what was asked for and survives bad seeds. Rng.v: whether wolfCrypt has the generator instantiated, lengths cut to 32 bits; all histories of the two calls.
  - partial: `C96_length_refuted`, `C96_seed_refuted`, `C96_keys_refuted`, `C96_partial` (PropRng.v).
  - REFUTED: a length of 2^32 is cut to 0 and succeeds with nothing written; a refused seed leaves a freed generator, so that all random numbers and key generation fail from then on (wolfCrypt answers RNG_FAILURE_E for a generator that is not instantiated). Proved for lengths below 2^32, and that the generator works exactly if the last seed was accepted.
- **C97** Every stored item has a file of its own. Names.v: the names character by character with the limit of the buffer, and a file system addressed by them; injectivity by induction over the digits, then simulation of the file system of Store.v over all histories.
  - partial: `C97_refuted`, `C97_shared`, `C97_disk_refuted`, `C97_partial`, `C97_disk_partial` (PropNames.v).
  - REFUTED for directories of 69 to 73 characters: the limit of 47 characters for the rest of the name is too small (up to 51 are needed), so that the last digits of the object number are cut off and RSA or EC private keys overwrite each other without an error. Proved for directories of at most 68 characters, for names and for all histories starting without a token file.
- **C98** A call that answers CKR_OK has stored what it says. Fault.v: every call with file operations that succeed, fail, or are lost in the buffers of stdio, at will; equal to Sys.v without faults; simulation of storing with faults by storing without.
  - partial: `C98_refuted`, `C98_pin_refuted`, `C98_partial`, `C98_deaf`, `C98_calm` (PropFault.v).
  - REFUTED: creating, destroying and generating objects and C_Finalize ignore the answer of storing, so they answer CKR_OK when no file can be opened; and fflush and fclose are not checked, so a full disk is not noticed even by C_SetPIN. Proved: the calls that set a PIN, if every failure is reported by the operation that fails (C98_partial); the answers of all other calls never depend on the storage (C98_deaf).
- **C99** A PIN change that fails leaves the old PIN. Fault.v: as C98; the answer and the memory of C_SetPIN against those without faults, refuted by a failing open and a failing write.
  - partial: `C99_refuted`, `C99_disk_refuted`, `C99_partial` (PropFault.v).
  - REFUTED: the new PIN is in memory before it is stored, and stays when storing fails; the token file is emptied before it is written, so a failed write destroys the token. Proved: nothing changes if the PIN is refused for another reason, the files stay if the token file cannot be opened, and memory is the same whatever the storage does.
- **C100** A failing storage causes no undefined behaviour. Fault.v: storing objects that agree up to IV and encoded key is defined alike (relation alike), hence every call but the double close of C_DestroyObject.
  - partial: `C100_refuted`, `C100_partial` (PropFault.v).
  - REFUTED: C_DestroyObject closes its first file twice if the second cannot be opened. Proved for every other call and every pattern of failures, and for C_DestroyObject in all other cases.
- **C101** A read that fails does not destroy the stored token. Fault.v: C_Initialize reads the readable part of the files; refuted by a token file that cannot be opened once.
  - partial: `C101_refuted`, `C101_partial` (PropFault.v).
  - REFUTED: a file that cannot be opened, for whatever reason, counts as missing; C_Finalize then overwrites the token with an empty one. Proved: reading changes no file, and failures in files that are not there or beyond their end change nothing.
- **C102** The token survives the end of the process. DurableProofs.v: invariant over all histories: the files load to the token in memory, up to what the format does not hold; every call either stores the token or leaves what is stored of it. DurableKeys.v: in a process with one login of the user, each object's stored form decodes to its key: invariant over objects decoded at login and objects encoded since.
  - partial: `C102_refuted`, `C102_keys_refuted`, `C102_partial`, `C102_keys_partial` (PropDurable.v).
  - REFUTED: C_SetAttributeValue never stores a token object, so a change is lost unless C_Finalize or another storing call follows; and after C_SetPIN by the user, a process that ends without logout leaves keys encrypted under the old PIN's key beside the new PIN: they are lost. Proved: for all histories without changes of token objects' attributes, ending anywhere, the next process loads label, flags, PINs and objects as they were; and if in the last process the user logged in once and no PIN was changed, the login with the same PIN succeeds (unless locked in the files) and every key that could be read is back.
- **C103** Keys leave the memory. Wipe.v: what is in an object's memory when it is given back; Sys.v's encode_all and UserLogin for logout and login. The specification looks at the key buffers only.
  - partial: `C103_refuted`, `C103_login_refuted`, `C103_free_refuted`, `C103_rest_refuted`, `C103_partial`, `C103_login_partial`, `C103_free_partial` (PropWipe.v).
  - REFUTED: the loop of C_Logout stops at the first object that cannot be encoded and leaves the keys behind it in clear; such an object also makes the right PIN answer CKR_PIN_INCORRECT with earlier keys already decoded; the memory of a DH private key is not cleared when it is freed; a DH key replaced by a shorter one leaves its tail in the buffer. Proved: where every object can be encoded logout clears all keys, a wrong PIN changes no object, and every other kind of key is cleared when freed. Session objects stay in clear by design.
- **C104** Several processes can use one token. Procs.v: the files are shared, each process has its own state of Sys.v, calls interleave. ProcsProofs.v: a call's answer, its effect in memory and its writes do not depend on the files, the first C_Initialize excepted (simulation between two states equal in memory).
  - partial: `C104_refuted`, `C104_pin_refuted`, `C104_partial`, `C104_readers_partial` (PropProcs.v).
  - REFUTED: two processes that each create a token object write the same file, and one object is lost though both calls answered CKR_OK; a process that only looked stores its old copy of the token in C_Finalize, and a PIN given up meanwhile works again. Proved: for any number of processes and any interleaving, each process gets the answers it would get alone from its C_Initialize on; and a process is as if alone, files included, while the others only make calls that store nothing. Calls are atomic in the model; that the files are torn when two processes write at once is not modelled.
- **C105** Every object made is freed, once. Heap.v: the allocations and frees of objects each call makes, function by function, run on a ledger of allocated objects beside Sys.v; freeing an object not in the ledger is an error. HeapProofs.v: the ledger is the objects in the lists plus those lost (permutation invariant over all calls).
  - partial: `C105_refuted`, `C105_lists_refuted`, `C105_free_partial`, `C105_partial`, `C105_bound_partial` (PropHeap.v).
  - REFUTED: C_DeriveKey does not free the object it made when the key cannot be put into it or the object cannot be added: a full session loses it with the key in it, a template of a kind that takes no secret loses it with CKR_OK; both stay allocated after C_Finalize. Proved for every history: no object is freed twice or without having been allocated; without such a C_DeriveKey the objects allocated are exactly those in the lists, none after the last C_Finalize; each such call loses at most one. Buffers inside objects and sessions are not in the ledger.
- **C106** Running out of memory is reported and harmless. Mem.v: nine calls again with the failing branch of every XMALLOC, an oracle saying which allocations are granted in each call; with all granted it is step (C106_plenty). MemProofs.v: the invariant of C01, C02, C04 over histories with any denials; MemProofs2.v: when an answer CKR_OK can be relied on.
  - partial: `C106_success_refuted`, `C106_failure_refuted`, `C106_defined_refuted`, `C106_stored_refuted`, `C106_plenty`, `C106_partial`, `C106_failure_partial`, `C106_attr_partial`, `C106_login_partial`, `C106_search_partial`, `C106_usable_partial`, `C106_stored_partial` (PropMem.v).
  - REFUTED: with too little memory C_FindObjectsInit answers CKR_OK and misses objects, C_OpenSession answers CKR_OK without a session, C_Logout answers CKR_OK and leaves keys without encoded form (then C_Finalize leaves their files empty and the next process has no token), C_Finalize with a DH key leaves a file that cannot be read, C_Initialize clears the token; C_SetAttributeValue of a label fails and leaves a NULL label with its old length, which C_GetAttributeValue reads; C_Login with the right PIN answers CKR_PIN_INCORRECT and leaves keys in the clear. Proved for every history of denials: the invariants of sessions, login and object identity; success of C_Login, C_SetAttributeValue, of creating session objects, of searches by values of at most 8 bytes, and of storing objects that have their encoded form and are not DH keys is genuine; other failing calls change nothing; searches find only what matches.
- **C107** Sessions do not disturb one another. Sys.v's runs. Isolate.v: which calls are a session's own and which are the token's; a set A of sessions is cleared, and every other call commutes with that; IsolateProofs.v: own calls change nothing but their session (and the names of allocations); IsolateProofs2.v: invariant that the key an operation refers to is never an object of another session; IsolateProofs3.v: induction over the history.
  - proved: `C107_isolated`, `C107_alone` (PropIsolate.v).
  - For every history from sys0 and every set of sessions. The calls of those sessions must be of their own or of the token; the three mixed kinds (a token object copied or derived from a session object, or unwrapped) are not allowed for the sessions left out. Names of allocations (s_uid, not part of the code) may have gaps in the reduced run.
- **C108** A handle names the same object in every session. Sys.v: WP11_Object_Find looks into the asking session's list for small handles, so refuted by two sessions; for handles of token objects the calls do not depend on the session.
  - partial: `C108_refuted`, `C108_partial`, `C108_found_partial` (PropIsolate.v).
  - REFUTED: session objects are looked up in the asking session only: two sessions use handle 1 for different keys, and the handle of one is unknown or another object in the other. Proved: for handles of token objects C_GetAttributeValue, C_SetAttributeValue and C_DestroyObject do not depend on the session, and two sessions without objects of their own find the same.
- **C109** Operations give back the memory they take. Bufs.v: the calls of Ops.v with a heap: which of them allocate, free, or write over the union with the two pointers in it. BufsProofs.v: the heap agrees with the pointers of Ops.v (so no double free), counts by induction over the history; refuted by a label kept after a failed decryption, with an unbounded version; nothing is lost if no Init finds anything not yet consumed.
  - partial: `C109_refuted`, `C109_unbounded`, `C109_pointers_partial`, `C109_partial`, `C109_closed_partial` (PropBufs.v).
  - REFUTED: WP11_RsaOaep_PrivateDecrypt frees the label only when it succeeds and the next C_DecryptInit writes over the pointer, so every refused ciphertext costs a buffer for ever (C109_unbounded: n + 1 refused ciphertexts leave n buffers, for any key and label); likewise AES-GCM with additional data and no C_EncryptUpdate. Proved: nothing is freed twice, pointers are to live buffers, and if no Init is called while the session has a label, additional data or ciphertext not yet consumed, at most two buffers are live and none after C_CloseSession.
- **C110** Attributes change only where asked, and protection is not taken back. AttrFrame.v: over Sys.v, no call but C_SetAttributeValue changes anything of an object beside its key and its stored form (step_keeps, from the elementary changes of SysProofs.v). PropAttrs.v: a table of which attribute type touches which field, induction over the history with the numbers of objects (a number is never given twice); the four claims of PKCS #11 refuted by one template.
  - partial: `C110_refuted`, `C110_step_partial`, `C110_partial` (PropAttrs.v).
  - REFUTED: WP11_Object_SetAttr sets CKA_SENSITIVE, CKA_EXTRACTABLE and CKA_CLASS to whatever the template says and C_SetAttributeValue does not look at CKA_MODIFIABLE. Proved, for all histories: an attribute that no C_SetAttributeValue call names is as it was, whatever else is called; kind, handle, place, CKA_LOCAL and CKA_KEY_GEN_MECHANISM never change; and a change in one call is made by C_SetAttributeValue in a read/write session on a handle of that very object. The key itself: C125 and C127 to C132 (kept while no C_SetAttributeValue and no C_DestroyObject names it). Missing: the restrictions that the code lacks.
- **C111** CKA_LOCAL and CKA_KEY_GEN_MECHANISM tell where a key comes from. AttrProofs2.v: every object after a call was there before or bears the marks of the call that made it (step_new). PropAttrs.v: induction over the history; refuted by C_GenerateKey and by C_CopyObject.
  - partial: `C111_refuted`, `C111_partial` (PropAttrs.v).
  - REFUTED: C_GenerateKey leaves CKA_LOCAL FALSE and no mechanism, and C_CopyObject does not copy either. Proved, for all histories: marks never change, an object not loaded from a file bears TRUE and the mechanism if C_GenerateKeyPair made it, FALSE and no mechanism if any other call did.
- **C112** Functions answer only with the return values PKCS #11 lists for them. Answers.v: two tables written as numbers, what PKCS #11 lists (allowed) and what the functions give (answers). AnswersProofs.v: every call of Api.v, in any state, gives an answer of the table (or one of four more); OpLift.v: what the functions of Ops.v keep holds of every session of the library; AnswersProofs2.v: with that the four more are excluded in reachable states. PropAnswers.v: 23 histories in a world with failing crypto calls show every entry of the table, so the table is exact; the difference of the two tables is the list of deviations.
  - partial: `C112_refuted`, `C112_partial`, `C112_beyond_partial` (PropAnswers.v).
  - REFUTED: 30 functions give answers not listed for them, among them C_InitPIN CKR_PIN_INCORRECT, C_EncryptInit CKR_OBJECT_HANDLE_INVALID, C_Encrypt CKR_MECHANISM_INVALID and C_GetAttributeValue the value CK_UNAVAILABLE_INFORMATION, which is no CK_RV at all (deviations in Answers.v lists them). Proved: for each of the 68 functions the exact set of answers (each one is given in some reachable state, no other ever is), and exactly which of them PKCS #11 does not list. Missing: allocation failures, which would add CKR_HOST_MEMORY and the like.
- **C113** An operation goes on with the key it was started with. The library's history is projected to the operation calls of one session (mine) and compared with a run of Ops.v on one key that never changes. KeyHeld.v: no other call changes the operation of the session (aside_op); an object neither named to C_DestroyObject or C_SetAttributeValue nor hit by a login or logout stays as it is (step_has, from the elementary changes of SysProofs.v); with the mechanisms that copy the key the object is not looked at (data_no_key). PropHold.v: induction over the history; refuted by C_SetAttributeValue and by C_Logout.
  - partial: `C113_refuted`, `C113_logout_refuted`, `C113_copied_partial`, `C113_partial`, `C113_hmac_partial` (PropHold.v).
  - REFUTED: AES-GCM reads the key anew in every call: if another session sets CKA_VALUE, the parts of one message are encrypted under two keys, and after C_Logout (the library wipes the keys of the token) the rest of the message is encrypted under the key of zeros, all with CKR_OK. Proved: for AES-CBC, CBC-PAD and HMAC the claim in full, even if the key is destroyed meanwhile (with C41: the signature is the HMAC under the key at C_SignInit); for every mechanism if no call in between names the key's handle to C_DestroyObject or C_SetAttributeValue and, for keys on the token, nobody logs in or out or initialises the token.
- **C114** Threads that share a session do not disturb one another's calls. SessRace.v writes the four calls as programs of single accesses to the session, with the memory behind gcm.enc; threads step through them in any order. SessRaceProofs.v: invariant that a session used by one call at a time is where running the finished calls one after the other and the unfinished one so far puts it. SessRaceProofs2/3.v: a program run without interruption does what the function of Ops.v does (agree), so the one-after-the-other runs are those all other theorems are about. PropSessRace.v: four schedules of two threads refute the claim.
  - partial: `C114_refuted`, `C114_output_refuted`, `C114_gcm_refuted`, `C114_order_refuted`, `C114_partial` (PropSessRace.v).
  - REFUTED: no lock protects a session. Two threads that call C_EncryptUpdate on one session can both find room for 8 bytes in the partial block and the second copies past its 16 bytes; a thread told that its buffer of 0 bytes is enough writes 16 bytes to it if another thread has put in data meanwhile; two C_DecryptUpdate with AES-GCM give the same block to XREALLOC, the second after it was freed; and without undefined behaviour data is lost with both calls answering CKR_OK. Proved: if no call begins on a session while another is running on it, then for any number of threads and sessions and any interleaving the answers and states are those of Ops.v for the calls of each session in turn, and undefined behaviour occurs only where Ops.v has it.
- **C115** A part of no bytes changes nothing. SessRace.v without interruption; that realloc(p, 0) may free p and give NULL is a parameter of the model. Proved by computing the functions of Ops.v on the empty part and the agreement of C114, which also carries the equality through all later calls; refuted by two runs of AES-GCM.
  - partial: `C115_refuted`, `C115_freed_refuted`, `C115_tag_refuted`, `C115_partial` (PropSessRace.v).
  - REFUTED: AES-GCM decryption with only empty parts so far calls XREALLOC(p, 0); where that frees p and gives NULL (glibc) the second empty part is answered CKR_FUNCTION_FAILED with gcm.enc left pointing to freed memory, and the next C_DecryptUpdate uses it after free. AES-GCM encryption encrypts the empty part as a message of its own: the tag of the data before is lost. Proved: for AES-CBC and AES-CBC-PAD in both directions, and AES-GCM decryption outside that case, the empty part is answered CKR_OK with no output, the state is unchanged, and all later calls are answered as without it.
- **C116** The library gives its version. Info.v: hexversion.m4 writes decimal digits (two, three, three) behind 0x and internal.h takes bits 16 to 23 for the minor number; computed for the pinned version 1.3.0 and characterised for all versions by arithmetic on the digits.
  - partial: `C116_refuted`, `C116_partial` (PropInfo.v).
  - REFUTED: the package is 1.3.0 and reports 1.0 in C_GetInfo, C_GetSlotInfo and C_GetTokenInfo: the version word is 0x01003000 (two, three and three digits) and the minor number is taken from bits 16 to 23, the first two of its three digits. Proved for all versions: what is reported, and that it is right exactly if the minor number is 0 and the major number has one digit.
- **C117** A message in parts is encrypted as one and decrypts to itself, whatever other calls are made meanwhile. PropMsg.v: C113 turns the answers a session gets within a history into a run of Ops.v on one fixed key, to which C31, C32 and C35 apply; the round trip composes the two directions through the reference ciphertext of CbcSpec.v.
  - proved: `C117_cbc_encrypt`, `C117_cbc_decrypt`, `C117_pad_encrypt`, `C117_pad_decrypt`, `C117_roundtrip`, `C117_gcm_decrypt` (PropMsg.v).
  - The session is in a state where no CBC operation was left unfinished (fresh; C39 shows what happens otherwise); buffers as large as the part and 15 bytes more; parts below 2^31 bytes. Cipher laws are hypotheses.
- **C118** Sessions and login follow a small reference machine in every history. Device.v: the reference machine, which knows no lists of sessions, tokens or objects; DeviceProofs.v and PropDevice.v: simulation of every step of Sys.v, then induction over histories. That C_CloseAllSessions leaves session 1 open and logs nobody out is part of the machine (C03).
  - proved: `C118_step`, `C118_follows`, `C118_state`, `C118_independent`, `C118_one_choice` (PropDevice.v).
  - C118_follows: every history from any files. Whether a PIN is right is C05 and C06; the machine leaves that answer of C_Login open, as it leaves open those of C_InitToken, C_InitPIN and C_SetPIN that depend on the PIN or the storage. C_CloseAllSessions does in the machine what C03 found.
- **C119** PINs follow a small reference machine in every history, and a wrong PIN tells only that it is wrong. Guard.v: the reference machine for PINs on top of Device.v; PropGuard.v: simulation of every step of Sys.v, then induction over histories. C_Initialize may find anything in the storage, so there the machine takes some state; the right user PIN may still be refused when decrypting the private objects fails; a PIN change whose storing fails has changed the PIN (C99).
  - proved: `C119_step`, `C119_follows`, `C119_wrong_alike` (PropGuard.v).
  - C119_follows: every history from any files; hypotheses: the hash has 32 bytes and tells apart the PINs that occur in the history. C119_wrong_alike: one call, any state. Not determined by the machine: what C_Initialize finds stored (C126), whether the private objects can be decrypted at user login, whether storing a new PIN fails, the label and the PIN-set flag of C_GetTokenInfo.
- **C120** Object handles follow a small reference machine in every history. Table.v: the reference machine for object handles on top of Device.v; TableProofs.v, PropTable.v: simulation of every step of Sys.v using the invariants on handles (HandleProofs.v, DiskHandles.v), then induction over histories. What C_Initialize finds in the storage is some list of handles. C120_gone is read off the machine. CKA_TOKEN bytes other than 0 and 1 are the subject of C14.
  - proved: `C120_step`, `C120_follows`, `C120_gone` (PropTable.v).
  - C120_follows: every history from a storage without token file, CKA_TOKEN bytes 0 or 1 (C14 is refuted for others), fewer than 2^27 calls, so that no list runs out of handles. C120_gone: after C_DestroyObject and until the handle is given out again or the library restarted, calls through the session are refused. Not determined by the machine: whether an object can be created for reasons other than room, and the list found in the storage by C_Initialize.
- **C121** No search results without a search. Seek.v: [searching], what PKCS#11 calls an active search, from calls and answers; and a reference machine that says what the library does (per session handle: active or not, and the handles still to be delivered, which stay when a search or a session ends). PropSeek.v: simulation of every step of Sys.v, induction over histories; the claim is refuted by a history in which the next, not logged in, user of a session handle is given the results of the one before.
  - partial: `C121_refuted`, `C121_step`, `C121_partial`, `C121_begun_partial`, `C121_one_search_partial` (PropSeek.v).
  - REFUTED: C_FindObjects never looks at the state of the search and C_FindObjectsFinal and closing a session keep what was found, so the remaining handles are delivered after the end of the search and to the next user of the session handle. Proved: every history follows a reference machine that says exactly what is delivered and when C_FindObjectsInit is refused (C121_partial); nothing is delivered on a session handle on which no search was ever begun (C121_begun_partial); while a search is active another is refused (C121_one_search_partial).
- **C122** Operations follow a small reference machine in every history. Job.v: reference machine over calls and answers, on top of the one for sessions (Device.v): a job per session handle, which answers a call may give when it finds its operation and when not, which answers end an operation. PropJob.v: one lemma per data call of Ops.v and one for the Init calls (the operation code kept in the session is always that of the mechanism kept there), then simulation of every step of Sys.v including C_WrapKey and C_UnwrapKey, closing and reopening, and induction over histories; two corollaries read off calls and answers alone.
  - proved: `C122_machine`, `C122_step`, `C122_begun`, `C122_found` (PropJob.v); `C122_closed` (PropClosed.v).
  - The machine says what this library does, including where an operation should end and does not (C38), where one goes on after a failure, and that a new Init silently replaces an operation that goes on. After a failing C_WrapKey or C_UnwrapKey it allows both what went on before and the inner operation. It says nothing about keys, data and lengths (C31-C41, C67).
- **C123** Attributes read as they were last written, in every history. Note.v: reference machine over calls and answers on top of the one for object handles (Table.v): per owner (token or session), handle and attribute the value last written, if known; what a template tells (last entry, CKA_UNWRAP shares a flag with CKA_WRAP), which answers of C_SetAttributeValue say that nothing was written, what C_GetAttributeValue then answers for whole templates. NoteProofs.v: objects a call adds hold what its template tells. PropNote.v: objects stay where they are and keep their fields (AttrFrame.v, ObjFrame.v), simulation of every step of Sys.v, induction over histories; a corollary about the last write read off calls and answers alone.
  - proved: `C123_step`, `C123_follows`, `C123_last_written` (PropNote.v).
  - Every history from a storage without token file, CKA_TOKEN bytes 0 or 1, fewer than 2^27 calls (as C120). The machine does not know: attributes never written, those of copies (C61), the entries a failing C_SetAttributeValue was to write, dates beginning with a zero byte (C25), the values after C_Initialize finds objects in the storage (C124, C49, C102). Other attributes and the key itself: C25-C28, C110.
- **C124** Token objects survive restarts, in every history. Archive.v: reference machine over calls and answers on top of those for object handles (Table.v) and attributes (Note.v): what the library has now, whether token objects have attributes not stored yet, and what the storage holds; a restart recalls the stored content, an initialised one does not forget. ArchiveProofs.v: a stored list of token objects reads back with the same handles and attributes (StoreProofs.v, Durable), which calls leave storage and memory alike. PropArchive.v: simulation of every step of Sys.v including restarts, induction over histories; a corollary about one written value and any restarts after it.
  - proved: `C124_step`, `C124_follows`, `C124_survives` (PropArchive.v).
  - Every history from a storage without token file, CKA_TOKEN bytes 0 or 1, fewer than 2^27 calls (as C120), in which the token can be stored at every moment (tidy: lengths within the format's fields, key data present; a reloaded certificate is not storable, C49) and the storage itself does not fail. That a bare process end loses attributes set since the last store is C102; the key values themselves C28.
- **C125** What is encrypted or signed under an imported key is so under the value given, in every history. PropUse.v: the specification says which template gives which value and which calls since then leave the key alone; the claims speak of the handle the application got and of HMAC and CBC of the cipher (CbcSpec.v). The import puts the value there (PropImport.v, SetSecretKey), induction over the calls after it keeps it under the handle (KeyHeld.v) and handles stay distinct (DiskHandles.v), so the operation started with the handle runs on that value (C113, C117, C41).
  - proved: `C125_there`, `C125_sign`, `C125_verify`, `C125_encrypt`, `C125_meet` (PropUse.v).
  - CKA_VALUE once and no CKA_VALUE_LEN; the importing session stays open and the handle is not passed to C_DestroyObject or C_SetAttributeValue before the use; for a key on the token nobody logs in or out or initialises the token meanwhile (C127 allows logins, logouts and restarts); fewer than 2^27 calls, CKA_TOKEN bytes 0 or 1. CBC needs a session without the leftover block of an abandoned operation (C39). The primitives (HMAC, AES block) are parameters.
- **C126** PINs and lock-outs follow a reference machine across restarts, in every history. Vault.v: the machine of Guard.v (C119) with the counters held by the files; it says what C_Initialize finds, which C119 leaves open. PropVault.v: simulation step by step (C119_step for what the calls do, DurableProofs.v for what the token file then says), history by induction; the claims about right and wrong PINs are then consequences of the machine alone.
  - proved: `C126_step`, `C126_follows`, `C126_wrong_pin`, `C126_set_pin`, `C126_right_pin` (PropVault.v).
  - From a storage without a token file, which does not fail, in the states of C124 (tidy_run); the hash tells apart the PINs of the history. What the machine shows is lost: after a process that just ends the counters are those last stored, so wrong PINs given since are forgotten (C06); C_Finalize of a token that was never initialised leaves one that counts as initialised without a PIN (C12). C126_right_pin is about the security officer from C_InitToken on; the right user PIN may also be refused because objects cannot be decrypted (C10, C50). C126_set_pin: C_SetPIN directly after the login, which tells whose PIN it changes.
- **C127** An imported secret key on the token keeps its value through logouts, logins, restarts and processes that just end, in every history. PropSurvive.v: specification [brought], [same_pin], [unnamed] (on calls and their answers). Invariant over the rest of the history: on file and, while the library is up, in memory there is the object whose stored form is the value sealed under the key derived from the PIN and the stored seed, and while the user is logged in its clear form is the value; by induction over the calls with the facts about stores of DurableProofs.v and store_load for C_Finalize. From [ready] on as in C125.
  - proved: `C127_there`, `C127_sign`, `C127_verify`, `C127_encrypt`, `C127_meet` (PropSurvive.v).
  - From a storage without a token file, which does not fail, in the states of C124 (tidy_run). The user is logged in at the import and at the use, and every successful user login from the one before the import on is with the same PIN; C_SetPIN and C_InitPIN are excluded because the key is lost by a change of the user PIN (C10). CKA_VALUE once and no CKA_VALUE_LEN; fewer than 2^27 calls, CKA_TOKEN bytes 0 or 1. CBC needs a session without the leftover block of an abandoned operation (C39). The primitives (HMAC, AES block, GCM, PIN hash) are parameters; of GCM the law that decryption under the same key and IV gives back the data.
- **C128** A secret key made on the token in any way keeps its value through logouts, logins, restarts and processes that just end, in every history. PropEndure.v: specification [endured] (a history on calls and their answers, with any call that makes the object) and [has_value] (what the state right after that call holds). New are: every object that a making call adds to the token has its stored form sealed from its clear form ([agreed], over the primitive changes of SysProofs.v), the object under the new handle is one of these (its identity is fresh, good_handles of PropObj.v), and the store at the end of the call put it on file. From there on the invariant of C127. For C_GenerateKey the value is computed from the template and the generator's bytes.
  - proved: `C128_there`, `C128_generated`, `C128_meet` (PropEndure.v); `C128_sign`, `C128_verify`, `C128_mac` (PropMac.v); `C128_gcm` (PropGcm.v); `C128_derived`, `C128_agreed` (PropDerive.v).
  - As C127 (tidy_run states, storage that does not fail, one user PIN, fewer than 2^27 calls, CKA_TOKEN bytes 0 or 1), but for every way of making the key. The value is the one the object has when the call returns, which for C_CopyObject of a secret key is empty (C61), and for C_GenerateKey without CKA_VALUE_LEN is not the one asked for (C68). The class of the object is not certificate. C128_derived: the secret is what WP11_EC_Derive or WP11_Dh_Derive gave, an input of the model, and the template names the key type once and no certificate. The histories of C128_meet, C128_mac, C128_gcm and C128_agreed are independent; C128_gcm takes from the primitive that ciphertext and tag open to their plaintext (gcm_opens); a history and a continuation of it after a restart are an instance (C128_case).
- **C129** RSA and EC private keys on the token keep their numbers through logouts, logins, restarts and processes that just end, in every history. SurviveAny.v, PropPrivate.v: the argument of C128 is carried out once for any pair of a sealed and a clear form of an object that encoding, decoding, storing and loading respect (SurviveAny.v, [any_there]); PropPrivate.v gives this pair for RSA private keys (the clear form is all numbers, by the round trip law of the DER coder) and for EC private keys (curve and private value, as the DER written at logout leaves the public point out; that this DER depends on nothing else is the hypothesis [ec_der_private]). Signing after the restart by C117 ([lift_spared]). Specification: [has_private], read from the state right after the making call.
  - proved: `C129_rsa`, `C129_ec`, `C129_sign` (PropPrivate.v).
  - As C128 (tidy_run states, storage that does not fail, one user PIN, fewer than 2^27 calls, CKA_TOKEN bytes 0 or 1). wolfCrypt's DER coder and AES-GCM are oracles with round trip laws (StoreSpec.v laws); for EC also that wc_EccPrivateKeyToDer writes only the curve and the private value. The public point of an EC private key is not kept: the key read back is a private-only one (C129_case). C129_sign is for CKM_RSA_PKCS in one call. Public keys: C130, C131; DH keys: C132.
- **C130** RSA and EC public keys on the token keep their public numbers through restarts, and what one half of a pair signs the other verifies, in every history. PropPublic.v: as C129, by [any_there] of SurviveAny.v with the sealed form the plain DER of the public part and the clear form any key with the same public numbers; that the DER depends on nothing else is [rsa_der_public], [ec_der_public]. Specification [has_public], [rsa_matches] (correctness of the primitive for one key). The pair by C129_sign and one verification in the model of C_Verify.
  - proved: `C130_rsa`, `C130_ec`, `C130_pair` (PropPublic.v); `C130_ec_pair` (PropEcPair.v); `C130_pss_pair`, `C130_unseal` (PropSealed.v).
  - As C129. wolfCrypt's public DER coders are oracles with round trip laws (StoreSpec.v laws) that write only the public numbers. C130_pair is for CKM_RSA_PKCS in one call each and takes from the primitive that for the key at hand verification accepts what signing gives (rsa_matches); C130_ec_pair and C130_pss_pair are the same for CKM_ECDSA (ec_matches) and CKM_RSA_PKCS_PSS (pss_matches; a signature whose making failed is no signature), and C130_unseal for encryption with CKM_RSA_PKCS and CKM_RSA_PKCS_OAEP (rsa_unseals). The two histories are independent; C130_case signs before and verifies after several restarts.
- **C131** A public key on the token has its numbers whether or not somebody is logged in. PropPublic.v: the claim [C131_claim] is C130 without the login. Refuted by a history: keys read from the files stay undecoded until a user logs in, so after a restart the modulus is empty in a public session. What holds: from a login on until the library is shut down the numbers are there, logged in or not ([stays], C131_rsa_partial, C131_ec_partial by [awake_run] of SurviveAny.v).
  - partial: `C131_refuted`, `C131_rsa_partial`, `C131_ec_partial` (PropPublic.v).
  - REFUTED: wp11_Object_Load_RsaKey and wp11_Object_Load_EccKey (internal.c 1848-1870, 2043-2065) only read the stored DER; it is decoded in WP11_Slot_UserLogin (4045) and nowhere else. After C_Finalize and C_Initialize, or in a new process, a public session finds the public key, but its modulus (point) is empty: C_GetAttributeValue answers CKR_OK with length 0, and verifying runs on an empty key. Proved: from a login of the user on, until the library is shut down, the numbers are those the key was made with, also after the logout. Missing: the time between loading and the first login.
- **C132** Diffie-Hellman keys on the token keep their parameters and value through logouts, logins, restarts and processes that just end, in every history. PropDh.v: as C129, by [any_there] of SurviveAny.v; the parameters travel in a DER of their own beside the sealed value (wp11_Object_Store_DhKey), which the invariant carries along unsealed. Specification [has_dh] (prime, base and the first bytes of the buffer). With C128 to C131 every kind of key object the library stores is covered.
  - proved: `C132_there` (PropDh.v).
  - As C128 (tidy_run states, storage that does not fail, one user PIN, fewer than 2^27 calls, CKA_TOKEN bytes 0 or 1). That the DER of the parameters reads back is a law of the oracle here; the encoder is proved right for positive parameters in C87.

## Other findings

Behaviour seen while modelling that is not the subject of one property alone:

- SetAttributeValue of only a label on an AES key wipes the key (C26).
- Login with the right PIN but undecodable objects returns CKR_PIN_INCORRECT and
  resets the failure counter; the token key stays set.
- Logout stops at the first object that cannot be encoded and keeps the token key.
- Public token keys are all zero after a restart until the user logs in.
- C_InitToken leaves the files of the old objects behind.
- C_OpenSession answers CKR_OK when the session could not be allocated.
- Read-only sessions cannot create any object; no creation needs a login.
- C_InitToken on a token in the unknown state is allowed with open sessions.
- C_SetAttributeValue on token objects is not persisted until the next logout or
  C_Finalize.
- A stored failure count outside 0..3 never locks.
- C_DeriveKey does not check the type of the base key (union confusion).
- C_GenerateKey (AES) without CKA_VALUE_LEN makes a zero-length key.
- C_FindObjects works without an active search.
- Handles grow without bound and after 2^28 creations overlap the token bit.

## Mutation tests

seeded/LOG.jsonl records deliberate bugs put into a scratch copy of the model, one
line per run.  How to read it:

- `failed` is what was seen: the statement at which each file that did not compile
  stopped.  Coq stops at the first error of a file and make does not go on to the
  files that import it, so this is often an auxiliary lemma about the edited function
  and not the theorem of the property.
- `claim_theorems_in_files_not_built` is inferred, not seen: the theorems of the claim
  that existed at the time and lie in a file that did not build, or that imports one
  that did not.  Such a theorem was not checked on the wrong model; that it is false
  there is not shown.  `properties_whose_file_failed` (random edits) is likewise per
  file.  Until commit 3be31d5 the first of these fields was called
  `claim_theorems_without_proof`, and both were recomputed with every new theorem, so
  that old entries came to name theorems added after their run; the lists are now
  those of the commit that first logged the entry.
- `false_instances_of` is seen again: theorems of which an instance (InstCalls.v,
  InstLasting.v) has its hypotheses and not its conclusion on the wrong model, so that
  the statement itself is false there and no other proof could save it.  Instances
  were run for the edits named tc_, cl_ and dv_ and for those aimed at C126 to C130
  and C132.  Where the field is missing from those, no instance told the edit apart
  (the toy cipher ignores the IV, for example) or the toy world itself did not build.
- An empty `failed` is a survivor.  Its `note` says whether a theorem was tightened or
  added (`tightened`) or why the edit breaks no property.

