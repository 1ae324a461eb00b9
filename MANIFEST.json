{
 "claims": [
  {
   "property": "C01",
   "status": "proved",
   "theorems": [
    "C01_open_session",
    "C01_session_count"
   ],
   "note": ""
  },
  {
   "property": "C02",
   "status": "proved",
   "theorems": [
    "C02_close_session"
   ],
   "note": ""
  },
  {
   "property": "C03",
   "status": "partial",
   "theorems": [
    "C03_close_all_refuted",
    "C03_no_logout_refuted",
    "C03_close_all_partial"
   ],
   "note": "REFUTED: C_CloseAllSessions skips the session with number 1, which stays open, and never logs out. Proved for all other sessions."
  },
  {
   "property": "C04",
   "status": "proved",
   "theorems": [
    "C04_so_no_read_only",
    "C04_so_login_refused"
   ],
   "note": ""
  },
  {
   "property": "C05",
   "status": "proved",
   "theorems": [
    "C05_session_state",
    "C05_login",
    "C05_right_pin_accepted",
    "C05_logout",
    "C05_frame"
   ],
   "note": ""
  },
  {
   "property": "C06",
   "status": "partial",
   "theorems": [
    "C06_locked_out",
    "C06_no_comparison",
    "C06_wrong_pin_counted",
    "C06_three_wrong_lock",
    "C06_success_resets",
    "C06_guess_rate_partial",
    "C06_across_restart_refuted"
   ],
   "note": "REFUTED across a restart of the process: failures are kept in memory only, so the lock-out ends when the process does. Everything else is proved for one process; the guess rate is a bound over all sequential histories between two restarts."
  },
  {
   "property": "C07",
   "status": "partial",
   "theorems": [
    "C07_refuted",
    "C07_unbounded_refuted",
    "C07_serial_partial"
   ],
   "note": "REFUTED: the lock-out test is `== 3` and is made in a separate critical section from the counter update; four overlapping wrong logins take the counter to 4, after which no attempt is ever refused (unboundedly many comparisons at one instant). Partial: the claim holds for schedules without overlapping login calls."
  },
  {
   "property": "C08",
   "status": "partial",
   "theorems": [
    "C08_set_pin_refuted",
    "C08_init_token_refuted",
    "C08_login_partial"
   ],
   "note": "REFUTED: C_SetPIN and C_InitToken compare PINs without counting failures, also during lock-out. Proved for C_Login."
  },
  {
   "property": "C09",
   "status": "proved",
   "theorems": [
    "C09_set_pin",
    "C09_init_pin"
   ],
   "note": "For every hash with 32-byte results."
  },
  {
   "property": "C10",
   "status": "partial",
   "theorems": [
    "C10_refuted",
    "C10_partial"
   ],
   "note": "REFUTED: setting the user PIN while the user is not logged in (C_InitPIN by the SO, or C_SetPIN without login) draws a new seed and key without re-encrypting, so the old keys cannot be decrypted any more. Proved for C_SetPIN during a user login with the user's own history."
  },
  {
   "property": "C100",
   "status": "partial",
   "theorems": [
    "C100_refuted",
    "C100_partial"
   ],
   "note": "REFUTED: C_DestroyObject closes its first file twice if the second cannot be opened. Proved for every other call and every pattern of failures, and for C_DestroyObject in all other cases."
  },
  {
   "property": "C101",
   "status": "partial",
   "theorems": [
    "C101_refuted",
    "C101_partial"
   ],
   "note": "REFUTED: a file that cannot be opened, for whatever reason, counts as missing; C_Finalize then overwrites the token with an empty one. Proved: reading changes no file, and failures in files that are not there or beyond their end change nothing."
  },
  {
   "property": "C102",
   "status": "partial",
   "theorems": [
    "C102_refuted",
    "C102_keys_refuted",
    "C102_partial",
    "C102_keys_partial"
   ],
   "note": "REFUTED: C_SetAttributeValue never stores a token object, so a change is lost unless C_Finalize or another storing call follows; and after C_SetPIN by the user, a process that ends without logout leaves keys encrypted under the old PIN's key beside the new PIN: they are lost. Proved: for all histories without changes of token objects' attributes, ending anywhere, the next process loads label, flags, PINs and objects as they were; and if in the last process the user logged in once and no PIN was changed, the login with the same PIN succeeds (unless locked in the files) and every key that could be read is back."
  },
  {
   "property": "C103",
   "status": "partial",
   "theorems": [
    "C103_refuted",
    "C103_login_refuted",
    "C103_free_refuted",
    "C103_rest_refuted",
    "C103_partial",
    "C103_login_partial",
    "C103_free_partial"
   ],
   "note": "REFUTED: the loop of C_Logout stops at the first object that cannot be encoded and leaves the keys behind it in clear; such an object also makes the right PIN answer CKR_PIN_INCORRECT with earlier keys already decoded; the memory of a DH private key is not cleared when it is freed; a DH key replaced by a shorter one leaves its tail in the buffer. Proved: where every object can be encoded logout clears all keys, a wrong PIN changes no object, and every other kind of key is cleared when freed. Session objects stay in clear by design."
  },
  {
   "property": "C104",
   "status": "partial",
   "theorems": [
    "C104_refuted",
    "C104_pin_refuted",
    "C104_partial",
    "C104_readers_partial"
   ],
   "note": "REFUTED: two processes that each create a token object write the same file, and one object is lost though both calls answered CKR_OK; a process that only looked stores its old copy of the token in C_Finalize, and a PIN given up meanwhile works again. Proved: for any number of processes and any interleaving, each process gets the answers it would get alone from its C_Initialize on; and a process is as if alone, files included, while the others only make calls that store nothing. Calls are atomic in the model; that the files are torn when two processes write at once is not modelled."
  },
  {
   "property": "C105",
   "status": "partial",
   "theorems": [
    "C105_refuted",
    "C105_lists_refuted",
    "C105_free_partial",
    "C105_partial",
    "C105_bound_partial"
   ],
   "note": "REFUTED: C_DeriveKey does not free the object it made when the key cannot be put into it or the object cannot be added: a full session loses it with the key in it, a template of a kind that takes no secret loses it with CKR_OK; both stay allocated after C_Finalize. Proved for every history: no object is freed twice or without having been allocated; without such a C_DeriveKey the objects allocated are exactly those in the lists, none after the last C_Finalize; each such call loses at most one. Buffers inside objects and sessions are not in the ledger."
  },
  {
   "property": "C106",
   "status": "partial",
   "theorems": [
    "C106_success_refuted",
    "C106_failure_refuted",
    "C106_defined_refuted",
    "C106_stored_refuted",
    "C106_plenty",
    "C106_partial",
    "C106_failure_partial",
    "C106_attr_partial",
    "C106_login_partial",
    "C106_search_partial",
    "C106_usable_partial",
    "C106_stored_partial"
   ],
   "note": "REFUTED: with too little memory C_FindObjectsInit answers CKR_OK and misses objects, C_OpenSession answers CKR_OK without a session, C_Logout answers CKR_OK and leaves keys without encoded form (then C_Finalize leaves their files empty and the next process has no token), C_Finalize with a DH key leaves a file that cannot be read, C_Initialize clears the token; C_SetAttributeValue of a label fails and leaves a NULL label with its old length, which C_GetAttributeValue reads; C_Login with the right PIN answers CKR_PIN_INCORRECT and leaves keys in the clear. Proved for every history of denials: the invariants of sessions, login and object identity; success of C_Login, C_SetAttributeValue, of creating session objects, of searches by values of at most 8 bytes, and of storing objects that have their encoded form and are not DH keys is genuine; other failing calls change nothing; searches find only what matches."
  },
  {
   "property": "C107",
   "status": "proved",
   "theorems": [
    "C107_isolated",
    "C107_alone"
   ],
   "note": "For every history from sys0 and every set of sessions. The calls of those sessions must be of their own or of the token; the three mixed kinds (a token object copied or derived from a session object, or unwrapped) are not allowed for the sessions left out. Names of allocations (s_uid, not part of the code) may have gaps in the reduced run."
  },
  {
   "property": "C108",
   "status": "partial",
   "theorems": [
    "C108_refuted",
    "C108_partial",
    "C108_found_partial"
   ],
   "note": "REFUTED: session objects are looked up in the asking session only: two sessions use handle 1 for different keys, and the handle of one is unknown or another object in the other. Proved: for handles of token objects C_GetAttributeValue, C_SetAttributeValue and C_DestroyObject do not depend on the session, and two sessions without objects of their own find the same."
  },
  {
   "property": "C109",
   "status": "partial",
   "theorems": [
    "C109_refuted",
    "C109_unbounded",
    "C109_pointers_partial",
    "C109_partial",
    "C109_closed_partial"
   ],
   "note": "REFUTED: WP11_RsaOaep_PrivateDecrypt frees the label only when it succeeds and the next C_DecryptInit writes over the pointer, so every refused ciphertext costs a buffer for ever (C109_unbounded: n + 1 refused ciphertexts leave n buffers, for any key and label); likewise AES-GCM with additional data and no C_EncryptUpdate. Proved: nothing is freed twice, pointers are to live buffers, and if no Init is called while the session has a label, additional data or ciphertext not yet consumed, at most two buffers are live and none after C_CloseSession."
  },
  {
   "property": "C11",
   "status": "proved",
   "theorems": [
    "C11_init_token"
   ],
   "note": ""
  },
  {
   "property": "C110",
   "status": "partial",
   "theorems": [
    "C110_refuted",
    "C110_step_partial",
    "C110_partial"
   ],
   "note": "REFUTED: WP11_Object_SetAttr sets CKA_SENSITIVE, CKA_EXTRACTABLE and CKA_CLASS to whatever the template says and C_SetAttributeValue does not look at CKA_MODIFIABLE. Proved, for all histories: an attribute that no C_SetAttributeValue call names is as it was, whatever else is called; kind, handle, place, CKA_LOCAL and CKA_KEY_GEN_MECHANISM never change; and a change in one call is made by C_SetAttributeValue in a read/write session on a handle of that very object. The key itself: C125 and C127 to C132 (kept while no C_SetAttributeValue and no C_DestroyObject names it). Missing: the restrictions that the code lacks."
  },
  {
   "property": "C111",
   "status": "partial",
   "theorems": [
    "C111_refuted",
    "C111_partial"
   ],
   "note": "REFUTED: C_GenerateKey leaves CKA_LOCAL FALSE and no mechanism, and C_CopyObject does not copy either. Proved, for all histories: marks never change, an object not loaded from a file bears TRUE and the mechanism if C_GenerateKeyPair made it, FALSE and no mechanism if any other call did."
  },
  {
   "property": "C112",
   "status": "partial",
   "theorems": [
    "C112_refuted",
    "C112_partial",
    "C112_beyond_partial"
   ],
   "note": "REFUTED: 30 functions give answers not listed for them, among them C_InitPIN CKR_PIN_INCORRECT, C_EncryptInit CKR_OBJECT_HANDLE_INVALID, C_Encrypt CKR_MECHANISM_INVALID and C_GetAttributeValue the value CK_UNAVAILABLE_INFORMATION, which is no CK_RV at all (deviations in Answers.v lists them). Proved: for each of the 68 functions the exact set of answers (each one is given in some reachable state, no other ever is), and exactly which of them PKCS #11 does not list. Missing: allocation failures, which would add CKR_HOST_MEMORY and the like."
  },
  {
   "property": "C113",
   "status": "partial",
   "theorems": [
    "C113_refuted",
    "C113_logout_refuted",
    "C113_copied_partial",
    "C113_partial",
    "C113_hmac_partial"
   ],
   "note": "REFUTED: AES-GCM reads the key anew in every call: if another session sets CKA_VALUE, the parts of one message are encrypted under two keys, and after C_Logout (the library wipes the keys of the token) the rest of the message is encrypted under the key of zeros, all with CKR_OK. Proved: for AES-CBC, CBC-PAD and HMAC the claim in full, even if the key is destroyed meanwhile (with C41: the signature is the HMAC under the key at C_SignInit); for every mechanism if no call in between names the key's handle to C_DestroyObject or C_SetAttributeValue and, for keys on the token, nobody logs in or out or initialises the token."
  },
  {
   "property": "C114",
   "status": "partial",
   "theorems": [
    "C114_refuted",
    "C114_output_refuted",
    "C114_gcm_refuted",
    "C114_order_refuted",
    "C114_partial"
   ],
   "note": "REFUTED: no lock protects a session. Two threads that call C_EncryptUpdate on one session can both find room for 8 bytes in the partial block and the second copies past its 16 bytes; a thread told that its buffer of 0 bytes is enough writes 16 bytes to it if another thread has put in data meanwhile; two C_DecryptUpdate with AES-GCM give the same block to XREALLOC, the second after it was freed; and without undefined behaviour data is lost with both calls answering CKR_OK. Proved: if no call begins on a session while another is running on it, then for any number of threads and sessions and any interleaving the answers and states are those of Ops.v for the calls of each session in turn, and undefined behaviour occurs only where Ops.v has it."
  },
  {
   "property": "C115",
   "status": "partial",
   "theorems": [
    "C115_refuted",
    "C115_freed_refuted",
    "C115_tag_refuted",
    "C115_partial"
   ],
   "note": "REFUTED: AES-GCM decryption with only empty parts so far calls XREALLOC(p, 0); where that frees p and gives NULL (glibc) the second empty part is answered CKR_FUNCTION_FAILED with gcm.enc left pointing to freed memory, and the next C_DecryptUpdate uses it after free. AES-GCM encryption encrypts the empty part as a message of its own: the tag of the data before is lost. Proved: for AES-CBC and AES-CBC-PAD in both directions, and AES-GCM decryption outside that case, the empty part is answered CKR_OK with no output, the state is unchanged, and all later calls are answered as without it."
  },
  {
   "property": "C116",
   "status": "partial",
   "theorems": [
    "C116_refuted",
    "C116_partial"
   ],
   "note": "REFUTED: the package is 1.3.0 and reports 1.0 in C_GetInfo, C_GetSlotInfo and C_GetTokenInfo: the version word is 0x01003000 (two, three and three digits) and the minor number is taken from bits 16 to 23, the first two of its three digits. Proved for all versions: what is reported, and that it is right exactly if the minor number is 0 and the major number has one digit."
  },
  {
   "property": "C117",
   "status": "proved",
   "theorems": [
    "C117_cbc_encrypt",
    "C117_cbc_decrypt",
    "C117_pad_encrypt",
    "C117_pad_decrypt",
    "C117_roundtrip",
    "C117_gcm_decrypt"
   ],
   "note": "The session is in a state where no CBC operation was left unfinished (fresh; C39 shows what happens otherwise); buffers as large as the part and 15 bytes more; parts below 2^31 bytes. Cipher laws are hypotheses."
  },
  {
   "property": "C118",
   "status": "proved",
   "theorems": [
    "C118_step",
    "C118_follows",
    "C118_state",
    "C118_independent",
    "C118_one_choice"
   ],
   "note": "C118_follows: every history from any files. Whether a PIN is right is C05 and C06; the machine leaves that answer of C_Login open, as it leaves open those of C_InitToken, C_InitPIN and C_SetPIN that depend on the PIN or the storage. C_CloseAllSessions does in the machine what C03 found."
  },
  {
   "property": "C119",
   "status": "proved",
   "theorems": [
    "C119_step",
    "C119_follows",
    "C119_wrong_alike"
   ],
   "note": "C119_follows: every history from any files; hypotheses: the hash has 32 bytes and tells apart the PINs that occur in the history. C119_wrong_alike: one call, any state. Not determined by the machine: what C_Initialize finds stored (C126), whether the private objects can be decrypted at user login, whether storing a new PIN fails, the label and the PIN-set flag of C_GetTokenInfo."
  },
  {
   "property": "C12",
   "status": "partial",
   "theorems": [
    "C12_fresh_token_refuted",
    "C12_fresh_token_partial"
   ],
   "note": "REFUTED: C_Finalize stores the uninitialised token, and after the next C_Initialize it counts as initialised with no SO PIN, so C_InitToken answers CKR_PIN_INCORRECT for ever. Proved for a token that was never stored."
  },
  {
   "property": "C120",
   "status": "proved",
   "theorems": [
    "C120_step",
    "C120_follows",
    "C120_gone"
   ],
   "note": "C120_follows: every history from a storage without token file, CKA_TOKEN bytes 0 or 1 (C14 is refuted for others), fewer than 2^27 calls, so that no list runs out of handles. C120_gone: after C_DestroyObject and until the handle is given out again or the library restarted, calls through the session are refused. Not determined by the machine: whether an object can be created for reasons other than room, and the list found in the storage by C_Initialize."
  },
  {
   "property": "C121",
   "status": "partial",
   "theorems": [
    "C121_refuted",
    "C121_step",
    "C121_partial",
    "C121_begun_partial",
    "C121_one_search_partial"
   ],
   "note": "REFUTED: C_FindObjects never looks at the state of the search and C_FindObjectsFinal and closing a session keep what was found, so the remaining handles are delivered after the end of the search and to the next user of the session handle. Proved: every history follows a reference machine that says exactly what is delivered and when C_FindObjectsInit is refused (C121_partial); nothing is delivered on a session handle on which no search was ever begun (C121_begun_partial); while a search is active another is refused (C121_one_search_partial)."
  },
  {
   "property": "C122",
   "status": "proved",
   "theorems": [
    "C122_machine",
    "C122_step",
    "C122_begun",
    "C122_found",
    "C122_closed"
   ],
   "note": "The machine says what this library does, including where an operation should end and does not (C38), where one goes on after a failure, and that a new Init silently replaces an operation that goes on. After a failing C_WrapKey or C_UnwrapKey it allows both what went on before and the inner operation. It says nothing about keys, data and lengths (C31-C41, C67)."
  },
  {
   "property": "C123",
   "status": "proved",
   "theorems": [
    "C123_step",
    "C123_follows",
    "C123_last_written"
   ],
   "note": "Every history from a storage without token file, CKA_TOKEN bytes 0 or 1, fewer than 2^27 calls (as C120). The machine does not know: attributes never written, those of copies (C61), the entries a failing C_SetAttributeValue was to write, dates beginning with a zero byte (C25), the values after C_Initialize finds objects in the storage (C124, C49, C102). Other attributes and the key itself: C25-C28, C110."
  },
  {
   "property": "C124",
   "status": "proved",
   "theorems": [
    "C124_step",
    "C124_follows",
    "C124_survives"
   ],
   "note": "Every history from a storage without token file, CKA_TOKEN bytes 0 or 1, fewer than 2^27 calls (as C120), in which the token can be stored at every moment (tidy: lengths within the format's fields, key data present; a reloaded certificate is not storable, C49) and the storage itself does not fail. That a bare process end loses attributes set since the last store is C102; the key values themselves C28."
  },
  {
   "property": "C125",
   "status": "proved",
   "theorems": [
    "C125_there",
    "C125_sign",
    "C125_verify",
    "C125_encrypt",
    "C125_meet"
   ],
   "note": "CKA_VALUE once and no CKA_VALUE_LEN; the importing session stays open and the handle is not passed to C_DestroyObject or C_SetAttributeValue before the use; for a key on the token nobody logs in or out or initialises the token meanwhile (C127 allows logins, logouts and restarts); fewer than 2^27 calls, CKA_TOKEN bytes 0 or 1. CBC needs a session without the leftover block of an abandoned operation (C39). The primitives (HMAC, AES block) are parameters."
  },
  {
   "property": "C126",
   "status": "proved",
   "theorems": [
    "C126_step",
    "C126_follows",
    "C126_wrong_pin",
    "C126_set_pin",
    "C126_right_pin"
   ],
   "note": "From a storage without a token file, which does not fail, in the states of C124 (tidy_run); the hash tells apart the PINs of the history. What the machine shows is lost: after a process that just ends the counters are those last stored, so wrong PINs given since are forgotten (C06); C_Finalize of a token that was never initialised leaves one that counts as initialised without a PIN (C12). C126_right_pin is about the security officer from C_InitToken on; the right user PIN may also be refused because objects cannot be decrypted (C10, C50). C126_set_pin: C_SetPIN directly after the login, which tells whose PIN it changes."
  },
  {
   "property": "C127",
   "status": "proved",
   "theorems": [
    "C127_there",
    "C127_sign",
    "C127_verify",
    "C127_encrypt",
    "C127_meet"
   ],
   "note": "From a storage without a token file, which does not fail, in the states of C124 (tidy_run). The user is logged in at the import and at the use, and every successful user login from the one before the import on is with the same PIN; C_SetPIN and C_InitPIN are excluded because the key is lost by a change of the user PIN (C10). CKA_VALUE once and no CKA_VALUE_LEN; fewer than 2^27 calls, CKA_TOKEN bytes 0 or 1. CBC needs a session without the leftover block of an abandoned operation (C39). The primitives (HMAC, AES block, GCM, PIN hash) are parameters; of GCM the law that decryption under the same key and IV gives back the data."
  },
  {
   "property": "C128",
   "status": "proved",
   "theorems": [
    "C128_there",
    "C128_generated",
    "C128_meet",
    "C128_sign",
    "C128_verify",
    "C128_mac",
    "C128_gcm",
    "C128_derived",
    "C128_agreed"
   ],
   "note": "As C127 (tidy_run states, storage that does not fail, one user PIN, fewer than 2^27 calls, CKA_TOKEN bytes 0 or 1), but for every way of making the key. The value is the one the object has when the call returns, which for C_CopyObject of a secret key is empty (C61), and for C_GenerateKey without CKA_VALUE_LEN is not the one asked for (C68). The class of the object is not certificate. C128_derived: the secret is what WP11_EC_Derive or WP11_Dh_Derive gave, an input of the model, and the template names the key type once and no certificate. The histories of C128_meet, C128_mac, C128_gcm and C128_agreed are independent; C128_gcm takes from the primitive that ciphertext and tag open to their plaintext (gcm_opens); a history and a continuation of it after a restart are an instance (C128_case)."
  },
  {
   "property": "C129",
   "status": "proved",
   "theorems": [
    "C129_rsa",
    "C129_ec",
    "C129_sign"
   ],
   "note": "As C128 (tidy_run states, storage that does not fail, one user PIN, fewer than 2^27 calls, CKA_TOKEN bytes 0 or 1). wolfCrypt's DER coder and AES-GCM are oracles with round trip laws (StoreSpec.v laws); for EC also that wc_EccPrivateKeyToDer writes only the curve and the private value. The public point of an EC private key is not kept: the key read back is a private-only one (C129_case). C129_sign is for CKM_RSA_PKCS in one call. Public keys: C130, C131; DH keys: C132."
  },
  {
   "property": "C13",
   "status": "partial",
   "theorems": [
    "C13_bracketing_refuted",
    "C13_bracketing_partial"
   ],
   "note": "REFUTED: after one C_Finalize too many the count is -1 and the next C_Initialize succeeds without effect. Proved: in every history a call is refused exactly if C_Initialize calls do not outnumber C_Finalize calls."
  },
  {
   "property": "C130",
   "status": "proved",
   "theorems": [
    "C130_rsa",
    "C130_ec",
    "C130_pair",
    "C130_ec_pair",
    "C130_pss_pair",
    "C130_unseal"
   ],
   "note": "As C129. wolfCrypt's public DER coders are oracles with round trip laws (StoreSpec.v laws) that write only the public numbers. C130_pair is for CKM_RSA_PKCS in one call each and takes from the primitive that for the key at hand verification accepts what signing gives (rsa_matches); C130_ec_pair and C130_pss_pair are the same for CKM_ECDSA (ec_matches) and CKM_RSA_PKCS_PSS (pss_matches; a signature whose making failed is no signature), and C130_unseal for encryption with CKM_RSA_PKCS and CKM_RSA_PKCS_OAEP (rsa_unseals). The two histories are independent; C130_case signs before and verifies after several restarts."
  },
  {
   "property": "C131",
   "status": "partial",
   "theorems": [
    "C131_refuted",
    "C131_rsa_partial",
    "C131_ec_partial"
   ],
   "note": "REFUTED: wp11_Object_Load_RsaKey and wp11_Object_Load_EccKey (internal.c 1848-1870, 2043-2065) only read the stored DER; it is decoded in WP11_Slot_UserLogin (4045) and nowhere else. After C_Finalize and C_Initialize, or in a new process, a public session finds the public key, but its modulus (point) is empty: C_GetAttributeValue answers CKR_OK with length 0, and verifying runs on an empty key. Proved: from a login of the user on, until the library is shut down, the numbers are those the key was made with, also after the logout. Missing: the time between loading and the first login."
  },
  {
   "property": "C132",
   "status": "proved",
   "theorems": [
    "C132_there"
   ],
   "note": "As C128 (tidy_run states, storage that does not fail, one user PIN, fewer than 2^27 calls, CKA_TOKEN bytes 0 or 1). That the DER of the parameters reads back is a law of the oracle here; the encoder is proved right for positive parameters in C87."
  },
  {
   "property": "C14",
   "status": "partial",
   "theorems": [
    "C14_refuted",
    "C14_partial"
   ],
   "note": "REFUTED: CKA_TOKEN = 16 gives a token object a handle without the token bit, so the handle can name a session object instead. Proved for every history, restarts included, in which CKA_TOKEN bytes are 0 or not a multiple of 16 and fewer than 2^28 handles are consumed."
  },
  {
   "property": "C15",
   "status": "partial",
   "theorems": [
    "C15_refuted",
    "C15_partial"
   ],
   "note": "REFUTED: the error for a full session or token is CKR_FUNCTION_FAILED, not CKR_DEVICE_MEMORY. Proved: the quotas hold in every reachable state, creation beyond them fails and changes nothing, and a creation that succeeds on the emptied state is not refused while there is room."
  },
  {
   "property": "C16",
   "status": "partial",
   "theorems": [
    "C16_refuted",
    "C16_partial"
   ],
   "note": "REFUTED: with room for one more object C_GenerateKeyPair frees the public key that is already in the list (use after free, an undefined result in the model). Proved: whenever the call has a defined result other than CKR_OK, objects, handles and files are exactly as before."
  },
  {
   "property": "C17",
   "status": "proved",
   "theorems": [
    "C17_only",
    "C17_created",
    "C17_created_pair",
    "C17_closed",
    "C17_others"
   ],
   "note": "For every reachable state; session objects are those created with CKA_TOKEN absent or false."
  },
  {
   "property": "C18",
   "status": "proved",
   "theorems": [
    "C18_destroy"
   ],
   "note": "For every history with fewer than 2^27 calls; the content of an object is everything except the state of its stored form. Destroying an object whose CKA_TOKEN byte was even and not 0 has no defined result (see C63)."
  },
  {
   "property": "C19",
   "status": "partial",
   "theorems": [
    "C19_refuted",
    "C19_other_session_refuted",
    "C19_partial"
   ],
   "note": "REFUTED: C_DestroyObject leaves the session's pointer to the key; C_Encrypt with AES-GCM, also from another session, then reads the freed object. Proved: in histories that destroy no key while an operation uses it (and do not initialise an uninitialised token while operations are active) no call of the operation interface touches freed memory."
  },
  {
   "property": "C20",
   "status": "proved",
   "theorems": [
    "C20_read_only"
   ],
   "note": "For every reachable state and every call that takes a session handle. C_Login, C_Logout and C_CloseSession decrypt or encrypt the key material of token objects and change nothing else of them; all other calls leave token, files and session objects exactly as they were."
  },
  {
   "property": "C21",
   "status": "partial",
   "theorems": [
    "C21_refuted",
    "C21_partial"
   ],
   "note": "REFUTED: an object created with CKA_TOKEN = 2 makes the search walk the token's list for ever, and its handle is delivered ten times. Proved for every history with CKA_TOKEN bytes 0 or odd: no handle is delivered twice and each names an object having every value of the template."
  },
  {
   "property": "C22",
   "status": "partial",
   "theorems": [
    "C22_refuted",
    "C22_partial"
   ],
   "note": "REFUTED: at most ten objects are found and the rest are silently dropped; without login, objects with no usage flag are not found although they are public. Proved for at most ten matches when the user is logged in or the object has a usage flag, and its key is not in encrypted form."
  },
  {
   "property": "C23",
   "status": "partial",
   "theorems": [
    "C23_refuted",
    "C23_partial"
   ],
   "note": "REFUTED for counts of 2^31 and more, which are cast to a negative int and yield nothing. Proved for every smaller count, with arbitrary other calls in between."
  },
  {
   "property": "C24",
   "status": "partial",
   "theorems": [
    "C24_find_refuted",
    "C24_use_refuted",
    "C24_find_partial"
   ],
   "note": "REFUTED: the search tests the usage flags where CKA_PRIVATE should be tested, and using an object by its handle involves no test at all. Proved: with nobody logged in, an object without usage flags or still encrypted is not found."
  },
  {
   "property": "C25",
   "status": "partial",
   "theorems": [
    "C25_readback_refuted",
    "C25_protection_refuted",
    "C25_alias_refuted",
    "C25_readback_partial",
    "C25_others_unchanged_partial",
    "C25_create_partial"
   ],
   "note": "REFUTED: protection attributes are written to one flag word and read from another, so they read back FALSE; CKA_TRUSTED reads CKA_ENCRYPT's bit; CKA_UNWRAP sets CKA_WRAP. Proved for the other usage attributes, CKA_LABEL, CKA_ID, CKA_CLASS and dates."
  },
  {
   "property": "C26",
   "status": "partial",
   "theorems": [
    "C26_unlisted_refuted",
    "C26_unlisted_partial",
    "C26_rejected_unchanged"
   ],
   "note": "REFUTED: renaming an AES key erases its value (the key setters run with no data and wipe it). Proved: identity, location and stored form never change, DH values are kept, refused templates change nothing."
  },
  {
   "property": "C27",
   "status": "partial",
   "theorems": [
    "C27_bounds_refuted",
    "C27_query_refuted",
    "C27_value_len_refuted",
    "C27_bounds_partial",
    "C27_ec_point_partial",
    "C27_query_partial",
    "C27_wf_preserved",
    "C27_create_wf"
   ],
   "note": "REFUTED: CKA_EC_POINT overflows buffers two or three bytes too short; unset dates report 0 and then fail; CKA_VALUE_LEN beyond the key buffer makes the read run past it. Proved for all other attributes and for objects whose recorded length fits (an invariant of sane templates)."
  },
  {
   "property": "C28",
   "status": "partial",
   "theorems": [
    "C28_no_leak_refuted",
    "C28_system_refuted",
    "C28_full_system_refuted",
    "C28_no_leak_partial",
    "C28_stored_form_partial",
    "C28_dh_partial",
    "C28_created_partial",
    "C28_system_partial"
   ],
   "note": "REFUTED: a sensitive DH private key becomes readable after changing CKA_CLASS to CKO_PUBLIC_KEY; and a sensitive, non-extractable AES token key leaks: while the user is logged out C_SetAttributeValue (any read-write session) makes it extractable, clearing the key in memory but not its sealed form, and after the next C_Login C_GetAttributeValue returns the value (C28_system_refuted). Proved for one object as non-interference over all its histories for RSA, EC, AES and generic secrets; and for the whole library (C28_system_partial) for AES and generic secrets: two histories that differ in the values of protected keys give the same answers to every call, if no call computes with such a key, no change of a token object makes anything readable, and the library is not loaded anew. Missing: RSA and EC at library level, reloading."
  },
  {
   "property": "C29",
   "status": "partial",
   "theorems": [
    "C29_refuted",
    "C29_partial"
   ],
   "note": "REFUTED: C_WrapKey never looks at CKA_EXTRACTABLE; an RSA key created with CKA_EXTRACTABLE false is wrapped. Proved: a successful C_WrapKey was of an RSA key, through a read/write session, with both handles valid."
  },
  {
   "property": "C30",
   "status": "partial",
   "theorems": [
    "C30_refuted",
    "C30_partial"
   ],
   "note": "REFUTED for every usage attribute: no call reads them. Proved: what the Init calls do check, the type of the key against the mechanism."
  },
  {
   "property": "C31",
   "status": "proved",
   "theorems": [
    "C31_encrypt",
    "C31_decrypt",
    "C31_fresh_history",
    "C31_fresh_final"
   ],
   "note": "For every block cipher whose block functions keep 16-byte length; buffers with 15 spare bytes, pieces below 2^31 bytes. C31_fresh_* say which histories leave no partial block."
  },
  {
   "property": "C32",
   "status": "proved",
   "theorems": [
    "C32_encrypt",
    "C32_decrypt",
    "C32_spec_total"
   ],
   "note": "Ciphertext is characterised by the independent specification in CbcSpec.v; C32_encrypt and C32_decrypt compose to the round trip."
  },
  {
   "property": "C33",
   "status": "partial",
   "theorems": [
    "C33_refuted",
    "C33_partial",
    "C33_exact_partial",
    "C33_valid_partial"
   ],
   "note": "REFUTED: C_Decrypt accepts a block that decrypts to 16 zero bytes (WP11_AesCbcPad_DecryptFinal never validates the padding). Proved part: wrong total lengths are rejected by the multi-part calls; every other ciphertext is accepted by both forms and gives the CBC plain text without as many bytes as its last byte says (none if above 16), which for valid padding is the message."
  },
  {
   "property": "C34",
   "status": "partial",
   "theorems": [
    "C34_refuted",
    "C34_query_refuted",
    "C34_partial",
    "C34_query_partial"
   ],
   "note": "REFUTED for CBC-PAD: C_Encrypt writes 32 bytes into a 16-byte buffer after a query that answered 16. Proved for all other calls."
  },
  {
   "property": "C35",
   "status": "proved",
   "theorems": [
    "C35_multipart",
    "C35_oneshot",
    "C35_output"
   ],
   "note": "For inputs at least as long as the tag (shorter inputs are an out-of-bounds read in the code, UB outcome in the model)."
  },
  {
   "property": "C36",
   "status": "partial",
   "theorems": [
    "C36_refuted",
    "C36_partial",
    "C36_each_update_restarts"
   ],
   "note": "REFUTED: two Updates give a different ciphertext than one C_Encrypt. Proved part: a single Update; and in every environment each Update is a separate encryption under the same IV."
  },
  {
   "property": "C37",
   "status": "partial",
   "theorems": [
    "C37_refuted",
    "C37_partial",
    "C36_each_update_restarts"
   ],
   "note": "REFUTED: two C_Encrypt calls after one C_EncryptInit both encrypt under the same IV. C36_each_update_restarts shows the same for every two Updates. C37_partial: for every sequence of data calls, exactly which encryptions are made: one per C_Encrypt or C_EncryptUpdate that is not refused, all under the one IV, the additional data with the first only; no other call encrypts. So the claim holds of exactly the sequences with at most one such call."
  },
  {
   "property": "C38",
   "status": "partial",
   "theorems": [
    "C38_refuted",
    "C38_partial",
    "C38_query_unchanged"
   ],
   "note": "REFUTED for RSA (ECDSA, GCM alike): a second C_Encrypt succeeds without a new Init. Proved for CBC, CBC-PAD and HMAC; the query half is proved for all mechanisms."
  },
  {
   "property": "C39",
   "status": "partial",
   "theorems": [
    "C39_refuted",
    "C39_partial"
   ],
   "note": "REFUTED for CBC and CBC-PAD: the partial block of an unfinished operation is used by the next one. Proved for all other mechanisms."
  },
  {
   "property": "C40",
   "status": "proved",
   "theorems": [
    "C40_own_init"
   ],
   "note": ""
  },
  {
   "property": "C41",
   "status": "proved",
   "theorems": [
    "C41_sign_multipart",
    "C41_sign_oneshot",
    "C41_sign_mixed",
    "C41_verify_multipart",
    "C41_verify_oneshot",
    "C41_verify_mixed"
   ],
   "note": "HMAC itself is an oracle with output of the right size."
  },
  {
   "property": "C42",
   "status": "partial",
   "theorems": [
    "C42_refuted",
    "C42_longer_data_accepted",
    "C42_partial"
   ],
   "note": "REFUTED: with a 2048-bit key the bytes above short data are never compared, and data longer than the modulus is accepted with any signature under any key. Proved for data of modulus length."
  },
  {
   "property": "C43",
   "status": "proved",
   "theorems": [
    "C43_roundtrip",
    "C43_encode",
    "C43_decode"
   ],
   "note": "DER is specified independently in EcdsaSpec.v."
  },
  {
   "property": "C44",
   "status": "partial",
   "theorems": [
    "C44_refuted",
    "C44_refuted_empty",
    "C44_partial",
    "C44_canonical_partial"
   ],
   "note": "REFUTED: an INTEGER of n+1 bytes without a leading zero is copied to one byte before the output; an empty INTEGER before a zero byte gives a copy of size -1. Proved for all other inputs, in particular all canonical ones."
  },
  {
   "property": "C45",
   "status": "partial",
   "theorems": [
    "C45_refuted",
    "C45_reversed",
    "C45_partial",
    "C45_default"
   ],
   "note": "REFUTED: the exponent is byte reversed (65539 becomes 196609). Proved: it is right exactly for palindromic byte strings."
  },
  {
   "property": "C46",
   "status": "partial",
   "theorems": [
    "C46_read_refuted",
    "C46_handle_refuted",
    "C46_length_refuted",
    "C46_partial"
   ],
   "note": "REFUTED three ways: the secret is read past its end, CKR_OK is returned without a handle, and CKA_VALUE_LEN beyond the secret is not refused. Proved: a derived key is the whole secret."
  },
  {
   "property": "C47",
   "status": "partial",
   "theorems": [
    "C47_refuses_refuted",
    "C47_stores_refuted",
    "C47_stores_partial",
    "C47_refuses_partial",
    "C47_secret_partial"
   ],
   "note": "REFUTED: a 600 byte generic secret overflows the 512 byte buffer; CKA_VALUE_LEN smaller than the value drops the rest. Proved for DH and certificates; secret keys store the whole value or exactly CKA_VALUE_LEN bytes of it."
  },
  {
   "property": "C48",
   "status": "proved",
   "theorems": [
    "C48_int",
    "C48_word32",
    "C48_ulong",
    "C48_time",
    "C48_boolean",
    "C48_fixed",
    "C48_array",
    "C48_array_bounded",
    "C48_big_endian"
   ],
   "note": "Signed left shifts are taken to wrap (gcc); ISO C leaves reading back a negative int or time undefined."
  },
  {
   "property": "C49",
   "status": "partial",
   "theorems": [
    "C49_refuted",
    "C49_partial"
   ],
   "note": "REFUTED: the value of a certificate is not read back into memory, so storing a reloaded certificate fails and drops what follows it. Proved for every reachable token whose objects have their key data and whose sizes fit the C types."
  },
  {
   "property": "C50",
   "status": "partial",
   "theorems": [
    "C50_refuted",
    "C50_partial"
   ],
   "note": "REFUTED for tokens holding a reloaded certificate. Proved for every history of one user and every storable token, with the external key import/export as laws."
  },
  {
   "property": "C51",
   "status": "partial",
   "theorems": [
    "C51_refuted",
    "C51_keys_refuted",
    "C51_partial"
   ],
   "note": "REFUTED: the token file is truncated in place, so a crash in the first write leaves a blank token and all objects are lost; and a crash between an object's attributes and its key can pair a new key's attributes with another key's value left behind in a stale file. Proved for every call and crash point: label, PIN state and seed are the old ones, the new ones, or blank."
  },
  {
   "property": "C52",
   "status": "partial",
   "theorems": [
    "C52_refuted",
    "C52_partial"
   ],
   "note": "REFUTED: C_Initialize reports success and the token counts as initialised. Proved: cutting any file of the token at any byte never gives wrong fields, always the same blank token."
  },
  {
   "property": "C53",
   "status": "partial",
   "theorems": [
    "C53_refuted",
    "C53_plain_refuted",
    "C53_partial",
    "C53_disk_partial"
   ],
   "note": "REFUTED: a token key created while nobody is logged in is encrypted under the initial all-zero key; and setting CKA_CLASS of a DH private key to CKO_PUBLIC_KEY makes the next logout write its value in the clear. Proved for all histories in which objects are created only during a user login and CKA_CLASS is not changed, under the external laws and with DER encodings below 2^30 bytes."
  },
  {
   "property": "C54",
   "status": "partial",
   "theorems": [
    "C54_refuted",
    "C54_zero_iv_partial"
   ],
   "note": "REFUTED: the code that draws an IV is never reached for new token keys. Proved instead, for every creating call: the key is encrypted under the token key with the all-zero IV."
  },
  {
   "property": "C55",
   "status": "partial",
   "theorems": [
    "C55_refuted",
    "C55_partial"
   ],
   "note": "REFUTED: when an older object is destroyed the others are renumbered and the key file of the highest number stays behind; it survives the destruction of its key. Proved: the object does not come back on restart, and when the key files were in step with the objects before the call, every one is then empty or belongs to a remaining object."
  },
  {
   "property": "C56",
   "status": "proved",
   "theorems": [
    "C56_exclusion",
    "C56_readers_share",
    "C56_no_deadlock",
    "C56_owner_refuted"
   ],
   "note": "With mutexes as binary semaphores. C56_owner_refuted records that the last reader unlocks a mutex another thread locked, which POSIX leaves undefined."
  },
  {
   "property": "C57",
   "status": "partial",
   "theorems": [
    "C57_mechanism_list",
    "C57_slot_list_refuted",
    "C57_slot_list_partial"
   ],
   "note": "REFUTED for C_GetSlotList: the count is compared as an int, so counts of 2^31 and more are refused. Proved in full for C_GetMechanismList and for slot counts below 2^31."
  },
  {
   "property": "C58",
   "status": "partial",
   "theorems": [
    "C58_list_info",
    "C58_crypto_flags",
    "C58_key_management_flags",
    "C58_refuted",
    "C58_wrap_flag_refuted",
    "C58_keygen_unlisted_refuted",
    "C58_flags_partial"
   ],
   "note": "REFUTED: CKM_RSA_X_509 advertises wrapping, which C_WrapKey refuses; CKM_AES_CBC_PAD wraps but does not say so; CKM_AES_KEY_GEN works but is not listed. List/info agreement and all other flags proved."
  },
  {
   "property": "C59",
   "status": "partial",
   "theorems": [
    "C59_locked_flag_refuted",
    "C59_flags_partial"
   ],
   "note": "REFUTED at one instant: at exactly the expiry time the login is refused but the flag is clear. Proved at every other instant, FINAL_TRY in full."
  },
  {
   "property": "C60",
   "status": "partial",
   "theorems": [
    "C60_crypto",
    "C60_find_refuted",
    "C60_find_partial"
   ],
   "note": "REFUTED for C_FindObjectsInit with a CKA_TOKEN entry that is not one byte: the call fails but the search is active. Proved for C_FindObjectsInit otherwise (nothing changes) and for the Init calls of all cryptographic operations."
  },
  {
   "property": "C61",
   "status": "partial",
   "theorems": [
    "C61_unlisted_refuted",
    "C61_listed_refuted",
    "C61_copy_partial"
   ],
   "note": "REFUTED: the template's values are overwritten with the source's, and attributes not listed (key value, label) are not copied. Proved: type and listed attributes equal the source's."
  },
  {
   "property": "C62",
   "status": "partial",
   "theorems": [
    "C62_validation_refuted",
    "C62_validation_partial",
    "C62_create_partial"
   ],
   "note": "REFUTED for CKA_TOKEN, which is checked as a byte string of any length. Proved for every other attribute type."
  },
  {
   "property": "C63",
   "status": "partial",
   "theorems": [
    "C63_refuted",
    "C63_partial"
   ],
   "note": "REFUTED: with CKA_TOKEN = 16 the token object's handle names nothing; with 2 destroying the object is a use after free. Proved for CK_FALSE and every odd byte, for all creating calls, C_GenerateKeyPair included, in every history whose bytes are 0 or not a multiple of 16."
  },
  {
   "property": "C64",
   "status": "partial",
   "theorems": [
    "C64_refuted",
    "C64_partial"
   ],
   "note": "REFUTED: a refused OAEP Init overwrites the parameter union of a running CBC operation. Proved for failures detected before the parameters are set."
  },
  {
   "property": "C65",
   "status": "partial",
   "theorems": [
    "C65_refuted",
    "C65_partial"
   ],
   "note": "REFUTED for C_EncryptFinal with CBC-PAD, which leaves the length untouched. Proved for every other call (one-shot CBC for block multiples)."
  },
  {
   "property": "C66",
   "status": "partial",
   "theorems": [
    "C66_refuted",
    "C66_partial",
    "C66_short_rejected"
   ],
   "note": "REFUTED for 1024-bit keys and short data. Proved for data of modulus length and for moduli of a multiple of 2048 bits."
  },
  {
   "property": "C67",
   "status": "partial",
   "theorems": [
    "C67_refuted",
    "C67_wrap_partial",
    "C67_unwrap_partial"
   ],
   "note": "REFUTED: bytes left in the session by an unfinished C_EncryptUpdate are encrypted in front of the key; C_WrapKey reports CKR_OK and the result cannot be unwrapped. Proved for a session whose block buffer is empty: wrapping gives the CBC encryption of the padded key encoding, and unwrapping that gives an object holding the same key."
  },
  {
   "property": "C68",
   "status": "partial",
   "theorems": [
    "C68_refuted",
    "C68_partial"
   ],
   "note": "REFUTED: without CKA_VALUE_LEN the AES key is empty, and a CKA_VALUE in the template decides the length. Proved: with CKA_VALUE_LEN in the template the key has 16, 24 or 32 bytes, as asked, all of them from the random generator."
  },
  {
   "property": "C69",
   "status": "proved",
   "theorems": [
    "C69_handles"
   ],
   "note": "For every reachable state, mechanism and template."
  },
  {
   "property": "C70",
   "status": "proved",
   "theorems": [
    "C70_no_deadlock",
    "C70_all_finish"
   ],
   "note": "For all sequences of all modelled calls; C_Initialize and C_Finalize are treated in C83 instead. The locks are the abstract read/write lock justified by C56."
  },
  {
   "property": "C71",
   "status": "partial",
   "theorems": [
    "C71_refuted",
    "C71_branch_reached",
    "C71_partial",
    "C71_global"
   ],
   "note": "REFUTED: storing a token object that needs a new IV draws from the token's generator without rngLock; a history reaching that branch is given. Proved: for all calls that do not store token objects; always for the library's own generator."
  },
  {
   "property": "C72",
   "status": "partial",
   "theorems": [
    "C72_refuted",
    "C72_partial"
   ],
   "note": "REFUTED: C_Logout walks the list under slot.lock, C_CreateObject changes it under token.lock. Proved without the calls that log the user in or out or set PINs."
  },
  {
   "property": "C73",
   "status": "partial",
   "theorems": [
    "C73_refuted",
    "C73_partial"
   ],
   "note": "REFUTED: C_CloseAllSessions unlinks and frees sessions without a lock. Proved for all other calls."
  },
  {
   "property": "C74",
   "status": "partial",
   "theorems": [
    "C74_refuted",
    "C74_partial"
   ],
   "note": "REFUTED: the search reads the login state under token.lock, logging in writes it under slot.lock. Proved for all calls but C_FindObjectsInit."
  },
  {
   "property": "C75",
   "status": "partial",
   "theorems": [
    "C75_refuted",
    "C75_partial"
   ],
   "note": "REFUTED: C_SetPIN writes the token under slot.lock, C_CreateObject under token.lock. Proved without C_InitToken, C_InitPIN and C_SetPIN."
  },
  {
   "property": "C76",
   "status": "partial",
   "theorems": [
    "C76_refuted",
    "C76_partial"
   ],
   "note": "REFUTED: the SO login resets its count holding the lock for reading only. Proved without SO logins, C_GetTokenInfo and storing of token objects."
  },
  {
   "property": "C77",
   "status": "partial",
   "theorems": [
    "C77_refuted",
    "C77_derive_refuted",
    "C77_partial"
   ],
   "note": "REFUTED twice: C_Logout replaces key data under slot.lock while C_GetAttributeValue reads them under token.lock; C_DeriveKey stores a pointer in the EC key without lock. Proved for the session and object calls."
  },
  {
   "property": "C78",
   "status": "partial",
   "theorems": [
    "C78_refuted",
    "C78_window_refuted",
    "C78_partial"
   ],
   "note": "REFUTED: two overlapping PIN changes can both succeed and leave a PIN hash that no PIN matches; and during one change neither the old nor the new PIN is accepted. Proved: if PIN changes do not overlap each other, the PIN set last works whenever none is in progress, whatever logins run meanwhile."
  },
  {
   "property": "C79",
   "status": "partial",
   "theorems": [
    "C79_refuted",
    "C79_login_refuted",
    "C79_partial"
   ],
   "note": "REFUTED even with a single PIN change: a login with the old PIN that overlaps it leaves a storage key made from the old PIN and the new seed. Proved when logins do not overlap PIN changes."
  },
  {
   "property": "C80",
   "status": "partial",
   "theorems": [
    "C80_refuted",
    "C80_double_free_refuted",
    "C80_partial"
   ],
   "note": "REFUTED: WP11_Object_Find gives up the lock before its caller uses the object; another thread frees it in between, and two threads free it twice. Proved when an object is destroyed only while no other call uses it."
  },
  {
   "property": "C81",
   "status": "partial",
   "theorems": [
    "C81_refuted",
    "C81_partial"
   ],
   "note": "REFUTED: two overlapping C_DestroyObject calls for one object lower the count twice, to -1. Proved under the condition of C80_partial."
  },
  {
   "property": "C82",
   "status": "partial",
   "theorems": [
    "C82_refuted",
    "C82_partial",
    "C82_ordered"
   ],
   "note": "REFUTED: CKM_RSA_PKCS_PSS reports key sizes 256 to 521, those of EC keys. Proved for every other mechanism with information."
  },
  {
   "property": "C83",
   "status": "partial",
   "theorems": [
    "C83_refuted",
    "C83_final_refuted",
    "C83_partial",
    "C83_count_partial"
   ],
   "note": "REFUTED: the count is tested before the lock is taken, so two threads calling C_Initialize both set the library up; and a call that found the library initialised uses its lock after C_Finalize has freed it. Proved when the first C_Initialize and the last C_Finalize overlap no other call."
  },
  {
   "property": "C84",
   "status": "partial",
   "theorems": [
    "C84_refuted",
    "C84_search_refuted",
    "C84_partial",
    "C84_types_partial"
   ],
   "note": "REFUTED: asking an X.509 certificate for CKA_MODULUS reads it as an RSA key (certificate type 0 is the key type of RSA), also during a search; asking an EC token key for its curve before login dereferences NULL. Proved in every carefully reached state for the attributes all objects have, and for all attributes of objects that are neither certificates nor EC keys."
  },
  {
   "property": "C85",
   "status": "partial",
   "theorems": [
    "C85_refuted",
    "C85_careless",
    "C85_files",
    "C85_partial",
    "C85_restart_partial",
    "C85_nofiles_partial"
   ],
   "note": "REFUTED: C85_careless lists two dozen reachable calls that misuse memory, C85_files a damaged file. Proved for the whole library and all histories: calls that keep to the conditions of SafeSpec.v (careful) have no undefined behaviour; files written at a clean end meet the condition on files."
  },
  {
   "property": "C86",
   "status": "partial",
   "theorems": [
    "C86_refuted",
    "C86_rsa_partial",
    "C86_ec_partial",
    "C86_dh_partial"
   ],
   "note": "REFUTED: a DH prime given without a base is thrown away and the call succeeds. Proved for all RSA keys; for EC keys for the curve and the point, and for the private value when no point is given (with a point, it is what wc_ecc_import_x963_ex leaves); for DH keys with prime and base. Missing: nothing else of the claim."
  },
  {
   "property": "C87",
   "status": "partial",
   "theorems": [
    "C87_refuted",
    "C87_unambiguous",
    "C87_partial"
   ],
   "note": "REFUTED: a key without parameters is written with INTEGERs that have no contents byte, which is not DER. Proved for all positive p and g below 2^(8*2^22). C87_unambiguous: the specification determines p and g."
  },
  {
   "property": "C88",
   "status": "partial",
   "theorems": [
    "C88_refuted",
    "C88_partial"
   ],
   "note": "REFUTED: the fields are padded with zero bytes. Proved: the text is right, and the slot number and the serial number are the decimal digits of the slot number (modulo 100)."
  },
  {
   "property": "C89",
   "status": "partial",
   "theorems": [
    "C89_refuted",
    "C89_slot",
    "C89_info",
    "C89_flags",
    "C89_clock",
    "C89_no_clock",
    "C89_sessions",
    "C89_partial"
   ],
   "note": "REFUTED only for the error code: a PIN outside the limits gives CKR_PIN_INCORRECT. Proved: every flag bit, the time for years 0 to 9999, the session limits, and that exactly the PIN lengths within the limits can be set."
  },
  {
   "property": "C90",
   "status": "partial",
   "theorems": [
    "C90_refuted",
    "C90_partial"
   ],
   "note": "REFUTED: the slot is never written; the structure keeps what the caller had in it. Proved: state, flags and device error."
  },
  {
   "property": "C91",
   "status": "partial",
   "theorems": [
    "C91_refuted",
    "C91_library_partial",
    "C91_session",
    "C91_slot",
    "C91_object",
    "C91_random"
   ],
   "note": "REFUTED only by C_Finalize, which succeeds without C_Initialize. Proved for the other 65 functions, and in full for slots, sessions and objects."
  },
  {
   "property": "C92",
   "status": "partial",
   "theorems": [
    "C92_refuted",
    "C92_reserved_refuted",
    "C92_empty_refuted",
    "C92_partial"
   ],
   "note": "REFUTED three ways: C_UnwrapKey on a read-only session answers CKR_SESSION_READ_ONLY first, C_Finalize ignores its reserved pointer, and a NULL template is refused even for zero attributes. Proved for all functions and states: the call fails, behaves in a defined way and changes nothing, and only C_UnwrapKey and C_OpenSession may answer with another reason."
  },
  {
   "property": "C93",
   "status": "partial",
   "theorems": [
    "C93_refuted",
    "C93_partial",
    "C93_query"
   ],
   "note": "REFUTED for the code: C_DigestInit answers CKR_MECHANISM_INVALID, others CKR_OPERATION_NOT_INITIALIZED, CKR_STATE_UNSAVEABLE ... Proved: all of them fail and change nothing; reporting functions change nothing."
  },
  {
   "property": "C94",
   "status": "proved",
   "theorems": [
    "C94_call",
    "C94_step",
    "C94_reach"
   ],
   "note": "C94_reach: the states reached through the interface (and process ends) are exactly those reached by the steps of Sys.v."
  },
  {
   "property": "C95",
   "status": "proved",
   "theorems": [
    "C95_parameters",
    "C95_proper"
   ],
   "note": "The base key of C_DeriveKey is looked up first, so that an invalid handle answers CKR_OBJECT_HANDLE_INVALID."
  },
  {
   "property": "C96",
   "status": "partial",
   "theorems": [
    "C96_length_refuted",
    "C96_seed_refuted",
    "C96_keys_refuted",
    "C96_partial"
   ],
   "note": "REFUTED: a length of 2^32 is cut to 0 and succeeds with nothing written; a refused seed leaves a freed generator, so that all random numbers and key generation fail from then on (wolfCrypt answers RNG_FAILURE_E for a generator that is not instantiated). Proved for lengths below 2^32, and that the generator works exactly if the last seed was accepted."
  },
  {
   "property": "C97",
   "status": "partial",
   "theorems": [
    "C97_refuted",
    "C97_shared",
    "C97_disk_refuted",
    "C97_partial",
    "C97_disk_partial"
   ],
   "note": "REFUTED for directories of 69 to 73 characters: the limit of 47 characters for the rest of the name is too small (up to 51 are needed), so that the last digits of the object number are cut off and RSA or EC private keys overwrite each other without an error. Proved for directories of at most 68 characters, for names and for all histories starting without a token file."
  },
  {
   "property": "C98",
   "status": "partial",
   "theorems": [
    "C98_refuted",
    "C98_pin_refuted",
    "C98_partial",
    "C98_deaf",
    "C98_calm"
   ],
   "note": "REFUTED: creating, destroying and generating objects and C_Finalize ignore the answer of storing, so they answer CKR_OK when no file can be opened; and fflush and fclose are not checked, so a full disk is not noticed even by C_SetPIN. Proved: the calls that set a PIN, if every failure is reported by the operation that fails (C98_partial); the answers of all other calls never depend on the storage (C98_deaf)."
  },
  {
   "property": "C99",
   "status": "partial",
   "theorems": [
    "C99_refuted",
    "C99_disk_refuted",
    "C99_partial"
   ],
   "note": "REFUTED: the new PIN is in memory before it is stored, and stays when storing fails; the token file is emptied before it is written, so a failed write destroys the token. Proved: nothing changes if the PIN is refused for another reason, the files stay if the token file cannot be opened, and memory is the same whatever the storage does."
  }
 ]
}