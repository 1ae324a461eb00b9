{"id": "C01", "title": "Session handles of simultaneously open sessions are distinct and bounded in number", "statement": "For every history of C_OpenSession/C_CloseSession/C_CloseAllSessions/C_Login/C_Logout calls after initialisation, a successful C_OpenSession returns a handle that no currently open session has, that handle is immediately usable, all other open sessions stay open with their own mode, and there are never more than 70 sessions open; C_OpenSession reports CKR_SESSION_COUNT only when exactly 70 are open.", "quantifier": "all finite call histories, all flag values", "why_tests_cant": "unbounded interleaving of opens and closes; tests exercise a handful of sequences", "anchors": ["src/slot.c:C_OpenSession", "src/slot.c:C_CloseSession", "src/internal.c:WP11_Slot_OpenSession", "src/internal.c:wp11_Slot_AddSession", "src/internal.c:wp11_Slot_FreeSession", "src/internal.c:WP11_Slot_CloseSession"]}
{"id": "C02", "title": "C_CloseSession closes exactly the named session", "statement": "After C_CloseSession(h) returns CKR_OK, every call using h returns CKR_SESSION_HANDLE_INVALID until h is handed out again by C_OpenSession; the session objects of h are gone; every other open session remains open with the same mode, objects and active operation.", "quantifier": "all reachable states and all handles", "why_tests_cant": "needs every reachable session-list shape (static/dynamic session records, freed tails)", "anchors": ["src/slot.c:C_CloseSession", "src/internal.c:WP11_Slot_CloseSession", "src/internal.c:wp11_Session_Final", "src/internal.c:WP11_Session_Get"]}
{"id": "C03", "title": "C_CloseAllSessions closes every session and logs out", "statement": "After C_CloseAllSessions on a slot returns CKR_OK no previously open session handle of that slot is valid any more and nobody is logged in.", "quantifier": "all reachable states", "why_tests_cant": "depends on which of the pre-allocated session records are in use; tests close one session at a time", "anchors": ["src/slot.c:C_CloseAllSessions", "src/internal.c:WP11_Slot_CloseSessions"]}
{"id": "C04", "title": "A Security-Officer login never coexists with a read-only session", "statement": "In every state reachable through the API, if the SO is logged in then no read-only session is open; C_OpenSession without CKF_RW_SESSION is refused while the SO is logged in and SO C_Login is refused while a read-only session is open.", "quantifier": "all finite sequential call histories", "why_tests_cant": "invariant over unbounded histories", "anchors": ["src/slot.c:C_OpenSession", "src/slot.c:C_Login", "src/internal.c:WP11_Slot_SOLogin", "src/internal.c:WP11_Slot_OpenSession"]}
{"id": "C05", "title": "Login only with the right PIN and only when nobody is logged in", "statement": "C_Login returns CKR_OK only if nobody was logged in and the supplied PIN has the allowed length and its hash equals the hash stored for exactly that role; a refused C_Login never changes who is logged in; C_GetSessionInfo reports the PKCS#11 session state determined by (who is logged in, session mode).", "quantifier": "all states, PINs, user types, times", "why_tests_cant": "quantifies over all PIN strings, counters and clocks", "anchors": ["src/slot.c:C_Login", "src/slot.c:C_GetSessionInfo", "src/internal.c:WP11_Slot_UserLogin", "src/internal.c:WP11_Slot_SOLogin", "src/internal.c:WP11_Session_GetState"]}
{"id": "C06", "title": "Lock-out after three consecutive wrong PINs", "statement": "After three consecutive wrong-PIN C_Login calls for a role, every further C_Login for that role made no later than the lock-out expiry is refused, even with the right PIN, and no PIN comparison is made; the lock-out period grows by 60 s (user) / 600 s (SO) with every completed round of three failures; a successful login resets it. Hence over any sequential history without a success, the number of PIN comparisons made by time T obeys an explicit bound growing only with the square root of elapsed time.", "quantifier": "all sequential C_Login histories with a non-decreasing clock", "why_tests_cant": "needs unbounded attempt sequences and arbitrary clock readings", "anchors": ["src/slot.c:C_Login", "src/internal.c:WP11_Slot_UserLogin", "src/internal.c:WP11_Slot_SOLogin"]}
{"id": "C07", "title": "Lock-out holds under concurrent logins", "statement": "If several threads call C_Login concurrently with wrong PINs, the lock-out of C06 still limits the number of PIN comparisons: once three failures were recorded further attempts are refused until the lock-out expires.", "quantifier": "all thread schedules", "why_tests_cant": "a schedule-dependent race between the check and the counter update", "anchors": ["src/internal.c:WP11_Slot_UserLogin", "src/internal.c:WP11_Slot_SOLogin", "src/internal.c:WP11_Lock_LockRW"]}
{"id": "C08", "title": "Every PIN guess is rate limited", "statement": "Any API call that compares a caller-supplied PIN against the stored PIN hash and tells the caller whether it matched (C_Login, C_SetPIN, C_InitToken) counts a mismatch towards the lock-out and is refused during lock-out.", "quantifier": "all call histories", "why_tests_cant": "an attacker chooses the call mix; tests check C_Login only", "anchors": ["src/slot.c:C_SetPIN", "src/slot.c:C_InitToken", "src/slot.c:C_Login", "src/internal.c:WP11_Slot_CheckUserPin", "src/internal.c:WP11_Slot_CheckSOPin"]}
{"id": "C09", "title": "Changing a PIN takes effect exactly", "statement": "After C_SetPIN or C_InitPIN returns CKR_OK the new PIN verifies for that role, any PIN whose hash under the new seed differs from that of the new PIN does not, the PIN of the other role is unaffected, and a failed C_SetPIN/C_InitPIN with a wrong old PIN or insufficient login changes no PIN.", "quantifier": "all states, old/new PINs, seeds", "why_tests_cant": "all PIN pairs and histories", "anchors": ["src/slot.c:C_SetPIN", "src/slot.c:C_InitPIN", "src/internal.c:WP11_Slot_SetUserPin", "src/internal.c:WP11_Slot_SetSOPin"]}
{"id": "C10", "title": "Changing a PIN keeps private token objects recoverable", "statement": "If an object was readable after user login before C_SetPIN/C_InitPIN, then after any C_Logout/C_Finalize/C_Initialize it is readable again after user login with the new PIN.", "quantifier": "all states and PINs", "why_tests_cant": "needs the combination PIN change x encryption key x logout/restart order", "anchors": ["src/internal.c:WP11_Slot_SetUserPin", "src/internal.c:wp11_Object_Encode", "src/internal.c:wp11_Object_Decode", "src/internal.c:wp11_Token_Store", "src/slot.c:C_SetPIN", "src/slot.c:C_InitPIN"]}
{"id": "C11", "title": "Re-initialising a token requires the SO PIN and erases it", "statement": "C_InitToken on an initialised token succeeds only with no open session and the SO's PIN; on success no token object remains reachable, the user PIN is unset, nobody is logged in, failure counters are zero and the given SO PIN and label are in force; on failure nothing changes.", "quantifier": "all reachable states, PINs and labels", "why_tests_cant": "whole-state effect over all histories", "anchors": ["src/slot.c:C_InitToken", "src/internal.c:WP11_Slot_TokenReset", "src/internal.c:wp11_Token_Init", "src/internal.c:wp11_Token_Final"]}
{"id": "C12", "title": "A fresh token can always be initialised", "statement": "On a token never initialised by C_InitToken, C_InitToken with a PIN of allowed length succeeds, whatever sequence of C_Initialize/C_Finalize preceded it.", "quantifier": "all call histories, including process restarts", "why_tests_cant": "history-dependent: state is persisted by C_Finalize", "anchors": ["src/slot.c:C_InitToken", "src/internal.c:WP11_Library_Final", "src/internal.c:wp11_Token_Load", "src/internal.c:wp11_Token_Store"]}
{"id": "C13", "title": "C_Initialize / C_Finalize bracketing", "statement": "After C_Initialize returns CKR_OK API calls do not return CKR_CRYPTOKI_NOT_INITIALIZED until a matching number of C_Finalize calls was made, for every history of C_Initialize/C_Finalize calls.", "quantifier": "all histories of init/finalize calls", "why_tests_cant": "unbalanced histories are not exercised", "anchors": ["src/wolfpkcs11.c:C_Initialize", "src/wolfpkcs11.c:C_Finalize", "src/internal.c:WP11_Library_Init", "src/internal.c:WP11_Library_Final", "src/internal.c:WP11_Library_IsInitialized"]}
{"id": "C14", "title": "Object handles identify live objects uniquely", "statement": "In every reachable state two different live objects reachable from one session never share a handle, and the handle returned by a successful object creation resolves, in that session, to exactly the new object (as long as fewer than 2^28 handles have been consumed).", "quantifier": "all finite histories of object creation, destruction and session changes", "why_tests_cant": "unbounded create/destroy sequences", "anchors": ["src/crypto.c:C_CreateObject", "src/crypto.c:C_DestroyObject", "src/internal.c:WP11_Session_AddObject", "src/internal.c:WP11_Object_Find", "src/internal.c:WP11_Session_RemoveObject"]}
{"id": "C15", "title": "Object quotas", "statement": "At most 64 token objects and 8 objects per session exist in any reachable state; creation beyond the quota fails with CKR_DEVICE_MEMORY and leaves the set of existing objects and their handles unchanged, and creation below the quota is never refused for lack of space.", "quantifier": "all finite histories", "why_tests_cant": "boundary behaviour over every history", "anchors": ["src/internal.c:WP11_Session_AddObject", "src/crypto.c:AddObject"]}
{"id": "C16", "title": "A key-pair generation that fails leaves no trace", "statement": "If C_GenerateKeyPair does not return CKR_OK, the objects visible and reachable afterwards are exactly those before, and no freed object is reachable.", "quantifier": "all states (object counts) and templates", "why_tests_cant": "only visible at the quota boundary; use-after-free is silent in tests", "anchors": ["src/crypto.c:C_GenerateKeyPair", "src/internal.c:WP11_Session_AddObject", "src/internal.c:WP11_Object_Free"]}
{"id": "C17", "title": "Session objects belong to one session and die with it", "statement": "An object created with CKA_TOKEN false is reachable only through the session that created it; closing that session removes it; closing or using any other session never affects it.", "quantifier": "all reachable states and handles", "why_tests_cant": "all interleavings of several sessions", "anchors": ["src/internal.c:WP11_Object_Find", "src/internal.c:wp11_Session_Final", "src/internal.c:WP11_Session_AddObject"]}
{"id": "C18", "title": "C_DestroyObject removes exactly one object", "statement": "C_DestroyObject(h) returning CKR_OK makes h unresolvable and leaves every other object of the token and of all sessions reachable with unchanged handle and content (as long as fewer than 2^28 handles have been consumed).", "quantifier": "all reachable states and handles", "why_tests_cant": "frame condition over all list shapes", "anchors": ["src/crypto.c:C_DestroyObject", "src/internal.c:WP11_Session_RemoveObject"]}
{"id": "C19", "title": "Destroying a key that is in use is safe", "statement": "After C_DestroyObject of a key, continuing an operation that was initialised with that key (in any session) never touches freed memory.", "quantifier": "all histories over any number of sessions", "why_tests_cant": "use-after-free is invisible without the right schedule and allocator", "anchors": ["src/crypto.c:C_DestroyObject", "src/internal.c:WP11_Session_RemoveObject", "src/internal.c:WP11_Object_Free", "src/internal.c:WP11_Session_SetObject"]}
{"id": "C20", "title": "Read-only sessions cannot change objects", "statement": "No call made with a read-only session handle creates, modifies or destroys any token or session object.", "quantifier": "all calls and states", "why_tests_cant": "all entry points x all states", "anchors": ["src/crypto.c:C_CreateObject", "src/crypto.c:C_CopyObject", "src/crypto.c:C_DestroyObject", "src/crypto.c:C_SetAttributeValue", "src/crypto.c:C_GenerateKey", "src/crypto.c:C_GenerateKeyPair", "src/crypto.c:C_UnwrapKey", "src/crypto.c:C_DeriveKey", "src/crypto.c:SetAttributeValue"]}
{"id": "C21", "title": "Search results are sound", "statement": "Every handle returned by C_FindObjects resolves at C_FindObjectsInit time to an object whose listed attributes are byte-equal to the template, and no handle is returned twice.", "quantifier": "all object populations and templates", "why_tests_cant": "all templates x all object sets", "anchors": ["src/crypto.c:C_FindObjectsInit", "src/crypto.c:C_FindObjects", "src/internal.c:WP11_Session_Find", "src/internal.c:wp11_Session_FindMatched", "src/internal.c:WP11_Object_MatchAttr"]}
{"id": "C22", "title": "Search results are complete", "statement": "C_FindObjectsInit followed by C_FindObjects until exhaustion returns every visible object that matches the template.", "quantifier": "all object populations and templates", "why_tests_cant": "needs populations above the internal limit", "anchors": ["src/internal.c:WP11_Session_Find", "src/internal.c:wp11_Session_FindNext", "src/internal.c:wp11_Session_FindMatched"]}
{"id": "C23", "title": "C_FindObjects delivers results in pieces without loss or duplication", "statement": "For every sequence of ulMaxObjectCount values, the concatenation of the results of successive C_FindObjects calls is a prefix of one fixed result list, and a call returns fewer than the requested number only when that list is exhausted.", "quantifier": "all sequences of requested counts", "why_tests_cant": "all partitions of the result list", "anchors": ["src/crypto.c:C_FindObjects", "src/internal.c:WP11_Session_FindGet"]}
{"id": "C24", "title": "Private objects are invisible and unusable without user login", "statement": "When no user is logged in, no object with CKA_PRIVATE true is returned by a search nor usable through a handle.", "quantifier": "all reachable states", "why_tests_cant": "all object populations and login states", "anchors": ["src/internal.c:wp11_Session_FindNext", "src/internal.c:WP11_Object_Find", "src/crypto.c:C_FindObjectsInit"]}
{"id": "C25", "title": "An attribute reads back as it was set", "statement": "After C_SetAttributeValue/C_CreateObject sets an attribute (boolean usage or protection flags, CKA_LABEL, CKA_ID, CKA_START_DATE, CKA_END_DATE), C_GetAttributeValue returns the same value, and other attributes keep theirs.", "quantifier": "all objects, attributes and values", "why_tests_cant": "all attribute pairs x values", "anchors": ["src/internal.c:WP11_Object_SetAttr", "src/internal.c:WP11_Object_GetAttr", "src/internal.c:WP11_Object_SetOpFlag", "src/crypto.c:C_SetAttributeValue", "src/crypto.c:C_GetAttributeValue"]}
{"id": "C26", "title": "C_SetAttributeValue changes only the listed attributes", "statement": "C_SetAttributeValue with a template that does not list key or certificate value attributes leaves the object's key material unchanged.", "quantifier": "all key objects and templates", "why_tests_cant": "key material is checked by tests only directly after creation", "anchors": ["src/crypto.c:C_SetAttributeValue", "src/crypto.c:SetAttributeValue", "src/internal.c:WP11_Object_SetSecretKey", "src/internal.c:WP11_Object_SetRsaKey"]}
{"id": "C27", "title": "Attribute reads respect the caller's buffer", "statement": "C_GetAttributeValue never writes more bytes to an attribute's pValue than its ulValueLen on entry; a size query followed by a read with a buffer of the reported size succeeds and fills exactly that many bytes.", "quantifier": "all objects, attributes, buffer sizes", "why_tests_cant": "overruns of one to three bytes are silent", "anchors": ["src/internal.c:GetData", "src/internal.c:GetMPIData", "src/internal.c:GetEcPoint", "src/internal.c:GetEcParams", "src/internal.c:GetBool", "src/internal.c:GetULong", "src/crypto.c:C_GetAttributeValue"]}
{"id": "C28", "title": "Sensitive key values never leave through attribute reads", "statement": "For every history, a key value stored while CKA_SENSITIVE is true or CKA_EXTRACTABLE is false is never returned by C_GetAttributeValue (neither then nor after later attribute changes), and no C_FindObjectsInit result depends on it.", "quantifier": "all call histories", "why_tests_cant": "an attacker picks the history: flag changes, class changes, copies", "anchors": ["src/internal.c:SecretObject_GetAttr", "src/internal.c:RsaObject_GetAttr", "src/internal.c:EcObject_GetAttr", "src/internal.c:DhObject_GetAttr", "src/internal.c:WP11_Object_MatchAttr", "src/crypto.c:C_GetAttributeValue", "src/crypto.c:SetAttributeValue"]}
{"id": "C29", "title": "Non-extractable keys cannot be wrapped", "statement": "C_WrapKey never outputs the (encrypted) value of a key whose CKA_EXTRACTABLE is false.", "quantifier": "all keys and wrapping keys", "why_tests_cant": "all flag combinations and key pairs", "anchors": ["src/crypto.c:C_WrapKey"]}
{"id": "C30", "title": "Key usage flags are enforced", "statement": "C_EncryptInit/C_DecryptInit/C_SignInit/C_VerifyInit/C_WrapKey/C_DeriveKey succeed only with a key whose corresponding CKA_ENCRYPT/DECRYPT/SIGN/VERIFY/WRAP/DERIVE attribute is true.", "quantifier": "all keys and mechanisms", "why_tests_cant": "all flag combinations", "anchors": ["src/crypto.c:C_EncryptInit", "src/crypto.c:C_DecryptInit", "src/crypto.c:C_SignInit", "src/crypto.c:C_VerifyInit", "src/crypto.c:C_DeriveKey"]}
{"id": "C31", "title": "AES-CBC streaming equals one-shot", "statement": "For every split of the data into pieces, C_EncryptInit (AES-CBC) then C_EncryptUpdate on the pieces then C_EncryptFinal produces the same bytes as one C_Encrypt of the whole when the total is a block multiple, and likewise for decryption, in a session with no partial block left over from an earlier operation (see C39); the amount reported by each call equals the amount written.", "quantifier": "all data, all chunkings, all block ciphers", "why_tests_cant": "infinitely many chunkings", "anchors": ["src/internal.c:WP11_AesCbc_EncryptUpdate", "src/internal.c:WP11_AesCbc_DecryptUpdate", "src/internal.c:WP11_AesCbc_Encrypt", "src/internal.c:WP11_AesCbc_PartLen", "src/crypto.c:C_EncryptUpdate", "src/crypto.c:C_DecryptUpdate"]}
{"id": "C32", "title": "AES-CBC-PAD decrypts what it encrypted, under any chunking", "statement": "In a session with no partial block left over (see C39), encrypting any data with AES-CBC-PAD through any sequence of Updates and Final and decrypting the result through any other chunking returns exactly the original data, and the ciphertext is the PKCS#7-padded CBC encryption.", "quantifier": "all data, keys, chunkings on both sides", "why_tests_cant": "infinitely many chunkings and lengths", "anchors": ["src/internal.c:WP11_AesCbcPad_EncryptUpdate", "src/internal.c:WP11_AesCbcPad_EncryptFinal", "src/internal.c:WP11_AesCbcPad_DecryptUpdate", "src/internal.c:WP11_AesCbcPad_DecryptFinal", "src/internal.c:WP11_AesCbcPad_Encrypt", "src/internal.c:WP11_AesCbcPad_Decrypt"]}
{"id": "C33", "title": "Malformed CBC padding is rejected", "statement": "C_Decrypt/C_DecryptFinal with AES-CBC-PAD return an error when the decrypted padding is not valid PKCS#7 padding or the ciphertext is not a positive multiple of the block size.", "quantifier": "all ciphertexts", "why_tests_cant": "2^128 last blocks", "anchors": ["src/internal.c:WP11_AesCbcPad_Decrypt", "src/internal.c:WP11_AesCbcPad_DecryptFinal", "src/crypto.c:C_Decrypt", "src/crypto.c:C_DecryptFinal"]}
{"id": "C34", "title": "Encryption calls respect the caller's output buffer", "statement": "C_Encrypt/C_Decrypt/C_EncryptUpdate/C_DecryptUpdate/C_EncryptFinal/C_DecryptFinal never write more bytes than the output length the caller passed in, and the length reported by a NULL-buffer query is always enough.", "quantifier": "all mechanisms, lengths, buffer sizes", "why_tests_cant": "off-by-up-to-16 overruns occur only for particular lengths", "anchors": ["src/crypto.c:C_Encrypt", "src/crypto.c:C_Decrypt", "src/crypto.c:C_EncryptUpdate", "src/crypto.c:C_EncryptFinal", "src/crypto.c:C_DecryptUpdate", "src/crypto.c:C_DecryptFinal"]}
{"id": "C35", "title": "AES-GCM decryption releases plaintext only after authentication", "statement": "Multi-part AES-GCM decryption outputs no byte before C_DecryptFinal, and C_DecryptFinal/C_Decrypt output plaintext only when the tag over the whole accumulated ciphertext verifies; the result is independent of the chunking.", "quantifier": "all ciphertexts and chunkings", "why_tests_cant": "all chunkings and forgeries", "anchors": ["src/internal.c:WP11_AesGcm_DecryptUpdate", "src/internal.c:WP11_AesGcm_DecryptFinal", "src/internal.c:WP11_AesGcm_Decrypt"]}
{"id": "C36", "title": "Multi-part AES-GCM encryption equals one-shot", "statement": "C_EncryptUpdate on the pieces followed by C_EncryptFinal with AES-GCM yields the same ciphertext and tag as one C_Encrypt of the whole data (and so can be decrypted).", "quantifier": "all data and chunkings", "why_tests_cant": "only differs with two or more update calls", "anchors": ["src/internal.c:WP11_AesGcm_EncryptUpdate", "src/internal.c:WP11_AesGcm_EncryptFinal", "src/internal.c:WP11_AesGcm_Encrypt"]}
{"id": "C37", "title": "A GCM nonce is used for at most one message per initialisation", "statement": "After one C_EncryptInit with AES-GCM at most one message is encrypted under the given IV, for every following call sequence.", "quantifier": "all call sequences", "why_tests_cant": "needs call sequences after the operation finished", "anchors": ["src/internal.c:WP11_AesGcm_Encrypt", "src/internal.c:WP11_AesGcm_EncryptUpdate", "src/crypto.c:C_Encrypt"]}
{"id": "C38", "title": "One-shot and final calls terminate the operation", "statement": "After C_Encrypt/C_Decrypt/C_Sign/C_Verify/…Final returned CKR_OK for a real (non-query) call, the next call of the same kind without a new Init returns CKR_OPERATION_NOT_INITIALIZED; a size query or CKR_BUFFER_TOO_SMALL leaves the operation unchanged.", "quantifier": "all mechanisms and call sequences", "why_tests_cant": "per mechanism x call sequence", "anchors": ["src/crypto.c:C_Encrypt", "src/crypto.c:C_Decrypt", "src/crypto.c:C_Sign", "src/crypto.c:C_Verify", "src/crypto.c:C_SignFinal", "src/crypto.c:C_VerifyFinal", "src/internal.c:WP11_Session_IsOpInitialized"]}
{"id": "C39", "title": "A new operation starts from a clean state", "statement": "The output of an operation after a successful Init depends only on key, parameters and the data passed after that Init, never on data passed to an earlier operation of the session.", "quantifier": "all call histories before the Init", "why_tests_cant": "needs abandoned operations with buffered data", "anchors": ["src/internal.c:WP11_Session_SetCbcParams", "src/crypto.c:C_EncryptInit", "src/crypto.c:C_DecryptInit", "src/internal.c:WP11_AesCbc_EncryptUpdate"]}
{"id": "C40", "title": "Operations need their own Init", "statement": "C_Encrypt*, C_Decrypt*, C_Sign*, C_Verify* calls without a preceding successful Init of that very kind since the last session opening (with no other Init after it) return CKR_OPERATION_NOT_INITIALIZED or CKR_MECHANISM_INVALID, produce no output and change nothing.", "quantifier": "all call histories", "why_tests_cant": "cross product of operation kinds", "anchors": ["src/crypto.c:C_EncryptInit", "src/crypto.c:C_DecryptInit", "src/crypto.c:C_SignInit", "src/crypto.c:C_VerifyInit", "src/internal.c:WP11_Session_IsOpInitialized", "src/internal.c:WP11_Session_GetObject"]}
{"id": "C41", "title": "HMAC signing and verifying agree under any chunking", "statement": "C_SignUpdate/C_SignFinal over any split of the data gives the HMAC of the concatenation, equal to one-shot C_Sign; C_VerifyUpdate/C_VerifyFinal or C_Verify accept a signature exactly when it equals that HMAC (same length, same bytes).", "quantifier": "all data, chunkings and signatures", "why_tests_cant": "all chunkings and forgeries", "anchors": ["src/internal.c:WP11_Hmac_Sign", "src/internal.c:WP11_Hmac_Verify", "src/internal.c:WP11_Hmac_Update", "src/internal.c:WP11_Hmac_SignFinal", "src/internal.c:WP11_Hmac_VerifyFinal", "src/crypto.c:C_SignFinal", "src/crypto.c:C_VerifyFinal"]}
{"id": "C42", "title": "Raw RSA verification accepts only true signatures", "statement": "C_Verify with CKM_RSA_X_509 returns CKR_OK only if the signature raised to the public exponent equals the data, left padded with zero bytes to the modulus size.", "quantifier": "all moduli sizes, data and signatures", "why_tests_cant": "forgeries depend on key size and data length", "anchors": ["src/internal.c:WP11_Rsa_Verify", "src/crypto.c:C_Verify"]}
{"id": "C43", "title": "ECDSA signatures convert losslessly", "statement": "The DER signature computed by the crypto library and the fixed-width r||s signature exchanged through the API denote the same (r, s): converting r||s to DER and back is the identity, and every canonical DER signature with r,s below 2^(8n) converts to the n-byte big-endian r and s.", "quantifier": "all r, s and field sizes up to 66 bytes", "why_tests_cant": "leading zero and high-bit cases are rare (probability 2^-8..2^-16)", "anchors": ["src/internal.c:Pkcs11ECDSASig_Decode", "src/internal.c:Pkcs11ECDSASig_Encode", "src/internal.c:WP11_Ec_Sign", "src/internal.c:WP11_Ec_Verify"]}
{"id": "C44", "title": "ECDSA DER conversion is memory safe", "statement": "Converting a DER signature to r||s never reads or writes outside the input and output buffers, for every byte string up to the maximum DER length.", "quantifier": "all byte strings", "why_tests_cant": "adversarial encodings", "anchors": ["src/internal.c:Pkcs11ECDSASig_Decode"]}
{"id": "C45", "title": "The public exponent used is the one requested", "statement": "C_GenerateKeyPair(RSA) uses the exponent encoded big-endian in CKA_PUBLIC_EXPONENT for the generated key.", "quantifier": "all exponents", "why_tests_cant": "65537 is palindromic, so usual tests cannot notice", "anchors": ["src/internal.c:WP11_Rsa_GenerateKeyPair"]}
{"id": "C46", "title": "Derived keys have the requested length and content", "statement": "C_DeriveKey with CKA_VALUE_LEN n creates a key of exactly n bytes taken from the shared secret and reads no memory outside the secret; CKR_OK is returned only if a key handle was stored.", "quantifier": "all secret lengths and requested lengths", "why_tests_cant": "over-reads are silent", "anchors": ["src/crypto.c:C_DeriveKey", "src/crypto.c:SymmKeyLen", "src/internal.c:WP11_Object_SetSecretKey"]}
{"id": "C47", "title": "Key import is bounds checked", "statement": "C_CreateObject/C_SetAttributeValue/C_UnwrapKey with a CKA_VALUE longer than the key buffer is refused, for every value length; accepted values are stored completely.", "quantifier": "all lengths", "why_tests_cant": "needs oversized inputs", "anchors": ["src/internal.c:WP11_Object_SetSecretKey", "src/internal.c:WP11_Object_SetDhKey", "src/internal.c:WP11_Object_SetCert", "src/crypto.c:SetAttributeValue"]}
{"id": "C48", "title": "Integer storage encoding round-trips", "statement": "Every int, 32-bit, CK_ULONG, time and boolean value, fixed or length-prefixed byte array written to storage reads back equal, consuming exactly the bytes written, whatever follows.", "quantifier": "all values and all trailing bytes", "why_tests_cant": "2^64 values incl. negatives", "anchors": ["src/internal.c:wp11_storage_write_int", "src/internal.c:wp11_storage_read_int", "src/internal.c:wp11_storage_write_ulong", "src/internal.c:wp11_storage_read_ulong", "src/internal.c:wp11_storage_write_array", "src/internal.c:wp11_storage_read_array", "src/internal.c:wp11_storage_read_alloc_array"]}
{"id": "C49", "title": "Token state survives a clean restart", "statement": "C_Finalize followed by C_Initialize restores label, PIN hashes, seeds, failure counters, lock-out times, and for every token object its class, type, flags, dates, id, label, handle and order.", "quantifier": "all token states", "why_tests_cant": "all states incl. full token, empty labels, negative counters", "anchors": ["src/internal.c:wp11_Token_Store", "src/internal.c:wp11_Token_Load", "src/internal.c:wp11_Object_Store", "src/internal.c:wp11_Object_Load", "src/internal.c:WP11_Library_Final", "src/internal.c:WP11_Library_Init"]}
{"id": "C50", "title": "Key values survive a clean restart", "statement": "A token key object whose value was readable before logout is readable with the same value after C_Logout, C_Finalize, C_Initialize and user C_Login with the same PIN.", "quantifier": "all key values, types and histories", "why_tests_cant": "composition of encode, store, load, decode for every value", "anchors": ["src/internal.c:wp11_Object_Encode", "src/internal.c:wp11_Object_Decode", "src/internal.c:wp11_Object_Store_SymmKey", "src/internal.c:wp11_Object_Load_SymmKey", "src/internal.c:wp11_Object_Store_Cert", "src/internal.c:wp11_Object_Load_Cert"]}
{"id": "C51", "title": "A crash while storing never damages previously stored state", "statement": "If the process stops at any point while the token is being written, the next C_Initialize restores either the old or the new token state.", "quantifier": "all crash points (byte granularity) and states", "why_tests_cant": "crash points are not tested", "anchors": ["src/internal.c:wp11_Token_Store", "src/internal.c:wp11_Object_Store", "src/internal.c:wolfPKCS11_Store_Open", "src/internal.c:wp11_Token_Load"]}
{"id": "C52", "title": "Damaged files are detected, never misread", "statement": "Loading a token or object file that is a strict prefix of a well-formed one reports failure rather than producing a token with wrong fields, and no byte outside the file content influences the result.", "quantifier": "all files and truncation points", "why_tests_cant": "all truncations", "anchors": ["src/internal.c:wp11_Token_Load", "src/internal.c:wp11_Object_Load", "src/internal.c:wp11_storage_read"]}
{"id": "C53", "title": "Private key bytes at rest are always encrypted", "statement": "For every sequence of API calls, whatever is written to storage for secret and private keys is AES-GCM ciphertext under a key derived from the user PIN; the plaintext key is never written.", "quantifier": "all call histories", "why_tests_cant": "requires a whole-history data-flow argument", "anchors": ["src/internal.c:wp11_Object_Store_SymmKey", "src/internal.c:wp11_Object_Encode_SymmKey", "src/internal.c:wp11_EncryptData", "src/internal.c:wp11_Object_Store"]}
{"id": "C54", "title": "Storage nonces are fresh", "statement": "Two different encryptions of token key data under the same storage key never use the same IV.", "quantifier": "all call histories", "why_tests_cant": "nonce reuse is invisible functionally", "anchors": ["src/internal.c:wp11_Object_Encode", "src/internal.c:wp11_EncryptData", "src/internal.c:WP11_Session_AddObject"]}
{"id": "C55", "title": "Destroyed token objects leave no key material on disk", "statement": "After C_DestroyObject of a token key no file retains its (encrypted) key data and a restart does not bring the object back.", "quantifier": "all token populations and positions", "why_tests_cant": "depends on position in list and file numbering", "anchors": ["src/internal.c:wp11_Object_Unstore", "src/internal.c:WP11_Session_RemoveObject", "src/internal.c:wp11_Token_Store"]}
{"id": "C56", "title": "The internal read/write lock excludes correctly", "statement": "For every number of threads and every schedule of lock/unlock pairs, a writer never holds the lock together with a reader or another writer, readers may share, and no reachable state is a deadlock.", "quantifier": "all thread counts and schedules", "why_tests_cant": "schedule space", "anchors": ["src/internal.c:WP11_Lock_LockRW", "src/internal.c:WP11_Lock_LockRO", "src/internal.c:WP11_Lock_UnlockRO", "src/internal.c:WP11_Lock_UnlockRW"]}
{"id": "C57", "title": "Two-call list protocol", "statement": "C_GetSlotList/C_GetMechanismList: a NULL query reports n, and a following call with a buffer of at least n entries succeeds, writes exactly n entries and reports n; a smaller buffer gives CKR_BUFFER_TOO_SMALL and nothing is written.", "quantifier": "all buffer sizes", "why_tests_cant": "2^64 sizes, sign conversions", "anchors": ["src/slot.c:C_GetSlotList", "src/slot.c:C_GetMechanismList", "src/internal.c:WP11_GetSlotList"]}
{"id": "C58", "title": "Mechanism list and mechanism info agree", "statement": "C_GetMechanismInfo succeeds exactly for the mechanisms listed by C_GetMechanismList, and its CKF_SIGN/VERIFY/ENCRYPT/DECRYPT/… flags are set exactly for those operations whose Init (or generate/derive) call accepts the mechanism.", "quantifier": "all mechanism identifiers", "why_tests_cant": "2^64 identifiers x operations", "anchors": ["src/slot.c:C_GetMechanismList", "src/slot.c:C_GetMechanismInfo", "src/crypto.c:C_EncryptInit", "src/crypto.c:C_SignInit", "src/crypto.c:C_VerifyInit", "src/crypto.c:C_DecryptInit", "src/crypto.c:C_DeriveKey", "src/crypto.c:C_GenerateKey", "src/crypto.c:C_GenerateKeyPair"]}
{"id": "C59", "title": "Token info reflects the lock-out", "statement": "C_GetTokenInfo reports CKF_USER_PIN_LOCKED / CKF_SO_PIN_LOCKED exactly when a C_Login of that role at the same time would be refused because of lock-out, and FINAL_TRY exactly when one more failure starts a lock-out.", "quantifier": "all counters, times", "why_tests_cant": "boundary instants", "anchors": ["src/slot.c:C_GetTokenInfo", "src/internal.c:WP11_Slot_UserLogin", "src/internal.c:WP11_Slot_TokenFailedExpire"]}
{"id": "C60", "title": "Failed calls leave the session usable", "statement": "A call of C_FindObjectsInit or a crypto Init that returns an error leaves no search or operation active that was not active before.", "quantifier": "all inputs and states", "why_tests_cant": "error paths", "anchors": ["src/crypto.c:C_FindObjectsInit", "src/internal.c:WP11_Session_FindInit", "src/crypto.c:C_EncryptInit"]}
{"id": "C61", "title": "C_CopyObject copies the object", "statement": "C_CopyObject returning CKR_OK creates an object whose attributes equal the source's except those given in the template, which take the template's values.", "quantifier": "all objects and templates", "why_tests_cant": "all attribute combinations", "anchors": ["src/crypto.c:C_CopyObject"]}
{"id": "C62", "title": "Template validation is complete", "statement": "C_CreateObject/C_SetAttributeValue/C_GenerateKey reject every template containing an unknown attribute type, or a boolean/ULONG/date attribute whose value has the wrong length, before changing anything.", "quantifier": "all templates", "why_tests_cant": "all templates", "anchors": ["src/crypto.c:CheckAttributes", "src/crypto.c:FindValidAttributeType", "src/crypto.c:SetAttributeValue"]}
{"id": "C63", "title": "CKA_TOKEN decides where an object lives", "statement": "An object created with CKA_TOKEN = CK_TRUE is a token object (survives session close, visible to all sessions) and with CK_FALSE or no CKA_TOKEN is a session object, for every accepted CKA_TOKEN value.", "quantifier": "all CKA_TOKEN byte values", "why_tests_cant": "only 0 and 1 are tested", "anchors": ["src/crypto.c:AddObject", "src/crypto.c:CreateObject", "src/internal.c:WP11_Session_AddObject", "src/internal.c:WP11_Session_RemoveObject"]}
{"id": "C64", "title": "A refused Init does not disturb a running operation", "statement": "After an Init call that returned an error, every following data call gives the same outcome as it would have given without that Init call.", "quantifier": "all histories, all Init calls", "why_tests_cant": "union members overwritten by rejected parameters", "anchors": ["src/crypto.c:C_EncryptInit", "src/crypto.c:C_SignInit", "src/internal.c:WP11_Session_SetOaepParams", "src/internal.c:WP11_Session_SetPssParams", "src/internal.c:WP11_Session_SetCbcParams"]}
{"id": "C65", "title": "The reported length is the number of bytes written", "statement": "Every successful C_Encrypt*/C_Decrypt*/C_Sign* call with an output buffer stores in the length argument exactly the number of bytes it wrote.", "quantifier": "all histories, mechanisms and buffer sizes", "why_tests_cant": "all call sequences", "anchors": ["src/crypto.c:C_Encrypt", "src/crypto.c:C_EncryptFinal", "src/crypto.c:C_Decrypt", "src/crypto.c:C_DecryptFinal", "src/internal.c:WP11_AesCbc_Encrypt"]}
{"id": "C66", "title": "Raw RSA signatures of short data verify", "statement": "A signature made by C_Sign with CKM_RSA_X_509 over data no longer than the modulus is accepted by C_Verify with the same data and the matching public key.", "quantifier": "all key sizes and data lengths", "why_tests_cant": "the defect depends on the modulus size modulo 256 bytes; tests use 2048-bit keys", "anchors": ["src/internal.c:WP11_Rsa_Sign", "src/internal.c:WP11_Rsa_Verify"]}
{"id": "C67", "title": "An unwrapped key is the key that was wrapped", "statement": "If C_WrapKey with CKM_AES_CBC_PAD returns CKR_OK and a wrapped key, C_UnwrapKey of those bytes with the same wrapping key and IV is not refused as an invalid wrapped key, and the object it creates holds the same private key.", "quantifier": "all histories, keys, IVs and buffer sizes", "why_tests_cant": "the outcome depends on what an earlier unfinished operation left in the session", "anchors": ["src/crypto.c:C_WrapKey", "src/crypto.c:C_UnwrapKey", "src/internal.c:WP11_AesCbcPad_Encrypt"]}
{"id": "C68", "title": "A generated key has the requested length and is made of random bytes", "statement": "C_GenerateKey(CKM_AES_KEY_GEN) returning CKR_OK creates a key of 16, 24 or 32 bytes, the number asked for in CKA_VALUE_LEN, and all of its bytes come from the token's random generator.", "quantifier": "all templates", "why_tests_cant": "all template combinations", "anchors": ["src/crypto.c:C_GenerateKey", "src/internal.c:WP11_AesGenerateKey", "src/internal.c:WP11_Object_SetSecretKey"]}
{"id": "C69", "title": "The handles of a generated key pair are those of its two matching halves", "statement": "After C_GenerateKeyPair returns CKR_OK the first handle names a public key and the second a private key of the mechanism's type (unless a template sets another CKA_CLASS), and their key material is the two halves of the same generated key.", "quantifier": "all histories, mechanisms and templates", "why_tests_cant": "all templates and placements", "anchors": ["src/crypto.c:C_GenerateKeyPair", "src/internal.c:WP11_Rsa_GenerateKeyPair", "src/internal.c:WP11_Ec_GenerateKeyPair", "src/internal.c:WP11_Dh_GenerateKeyPair"]}
{"id": "C70", "title": "No deadlock among concurrent calls", "statement": "However many threads call the library and however their calls interleave, as long as some call has not returned some thread can make progress, all calls can return, and then every lock has been released.", "quantifier": "all numbers of threads, sequences of calls and interleavings", "why_tests_cant": "interleavings; four locks taken in nested order by some forty functions", "anchors": ["src/internal.c:WP11_Lock_LockRW", "src/internal.c:WP11_Slot_Logout", "src/internal.c:WP11_Session_AddObject", "src/internal.c:WP11_Session_Find"]}
{"id": "C71", "title": "A random generator is used by one thread at a time", "statement": "No two threads are inside the same random generator (the token's or the library's) at the same time.", "quantifier": "all numbers of threads, sequences of calls and interleavings", "why_tests_cant": "interleavings", "anchors": ["src/internal.c:wp11_Object_Encode", "src/internal.c:WP11_Slot_GenerateRandom", "src/internal.c:wp11_EncryptData"]}
{"id": "C72", "title": "The token's object list is not read while another thread changes it", "statement": "No thread reads or changes the list of token objects while another thread changes it.", "quantifier": "all numbers of threads, sequences of calls and interleavings", "why_tests_cant": "interleavings", "anchors": ["src/internal.c:WP11_Slot_Logout", "src/internal.c:WP11_Session_AddObject", "src/internal.c:WP11_Session_RemoveObject"]}
{"id": "C73", "title": "The session list is not read while another thread changes it", "statement": "No thread reads or changes the slot's list of sessions while another thread changes it.", "quantifier": "all numbers of threads, sequences of calls and interleavings", "why_tests_cant": "interleavings", "anchors": ["src/internal.c:WP11_Slot_CloseSessions", "src/internal.c:WP11_Session_Get", "src/internal.c:WP11_Slot_OpenSession"]}
{"id": "C74", "title": "The login state is not read while another thread changes it", "statement": "No thread reads or changes the token's login state while another thread changes it.", "quantifier": "all numbers of threads, sequences of calls and interleavings", "why_tests_cant": "interleavings", "anchors": ["src/internal.c:WP11_Session_Find", "src/internal.c:WP11_Slot_UserLogin", "src/internal.c:WP11_Slot_Logout"]}
{"id": "C75", "title": "One thread at a time writes the token's files", "statement": "No thread accesses the files of the token while another thread writes them.", "quantifier": "all numbers of threads, sequences of calls and interleavings", "why_tests_cant": "interleavings", "anchors": ["src/internal.c:wp11_Token_Store", "src/internal.c:WP11_Slot_SetUserPin", "src/internal.c:WP11_Session_AddObject"]}
{"id": "C76", "title": "The failed-login counters are changed by one thread at a time", "statement": "No thread reads or changes the counters and times of failed logins while another thread changes them.", "quantifier": "all numbers of threads, sequences of calls and interleavings", "why_tests_cant": "interleavings", "anchors": ["src/internal.c:WP11_Slot_SOLogin", "src/internal.c:WP11_Slot_UserLogin"]}
{"id": "C77", "title": "A token object is not read while another thread changes it", "statement": "No thread reads or changes the data of a token object while another thread changes them.", "quantifier": "all numbers of threads, sequences of calls and interleavings", "why_tests_cant": "interleavings", "anchors": ["src/internal.c:WP11_Slot_Logout", "src/internal.c:WP11_EC_Derive", "src/internal.c:WP11_Object_GetAttr", "src/internal.c:WP11_Object_SetAttr"]}
{"id": "C78", "title": "After concurrent PIN changes some PIN still works", "statement": "When all calls that set the user PIN have returned successfully, one of the PINs is accepted (the last one set if the calls did not overlap); and during a change the old or the new PIN is accepted.", "quantifier": "all numbers of threads, PINs and interleavings", "why_tests_cant": "interleavings inside the hashing of the PIN", "anchors": ["src/internal.c:WP11_Slot_SetUserPin", "src/internal.c:WP11_Slot_CheckUserPin"]}
{"id": "C79", "title": "The storage key belongs to the PIN that works", "statement": "When no PIN change or login is in progress the key that protects the token's objects is the one derived from the PIN that is accepted.", "quantifier": "all numbers of threads, PINs and interleavings", "why_tests_cant": "a login overlapping a PIN change writes the key last", "anchors": ["src/internal.c:WP11_Slot_SetUserPin", "src/internal.c:WP11_Slot_UserLogin"]}
{"id": "C80", "title": "No call touches a token object another thread has freed", "statement": "Whatever calls other threads make, no call reads or frees a token object after it has been freed by C_DestroyObject, and no object is freed twice.", "quantifier": "all numbers of threads, objects and interleavings", "why_tests_cant": "interleavings", "anchors": ["src/crypto.c:C_DestroyObject", "src/internal.c:WP11_Object_Find", "src/internal.c:WP11_Session_RemoveObject", "src/internal.c:WP11_Object_Free"]}
{"id": "C81", "title": "The token's object count is the number of its objects", "statement": "Whenever no call is in progress the count kept for the token equals the number of objects on it.", "quantifier": "all numbers of threads, objects and interleavings", "why_tests_cant": "interleavings", "anchors": ["src/internal.c:WP11_Session_AddObject", "src/internal.c:WP11_Session_RemoveObject"]}
{"id": "C82", "title": "Mechanism information reports the key sizes of the mechanism's key type", "statement": "C_GetMechanismInfo reports for every mechanism the sizes keys of its type can have: 1024 to 4096 bits for RSA and DH, 256 to 521 bits for EC, 16 to 32 bytes for AES, and at least the hash length for HMAC.", "quantifier": "all mechanisms", "why_tests_cant": "tests compare a single mechanism", "anchors": ["src/slot.c:C_GetMechanismInfo"]}
{"id": "C83", "title": "The library is set up once, torn down once and used only in between", "statement": "If C_Finalize is called no more often than C_Initialize, then whatever the interleaving of threads the library's locks and slots are never set up while they exist, never torn down or used while they do not.", "quantifier": "all numbers of threads and interleavings", "why_tests_cant": "interleavings", "anchors": ["src/internal.c:WP11_Library_Init", "src/internal.c:WP11_Library_Final", "src/internal.c:WP11_Library_IsInitialized"]}
{"id": "C84", "title": "Reading attributes and searching never misuses memory", "statement": "In every reachable state C_GetAttributeValue of any object with any attributes, and C_FindObjectsInit with any template, have no undefined behaviour.", "quantifier": "all histories, objects, attributes and buffer sizes", "why_tests_cant": "the kinds of object and the attributes asked of them combine freely; before login the keys are not decoded", "anchors": ["src/internal.c:WP11_Object_GetAttr", "src/internal.c:WP11_Object_MatchAttr", "src/internal.c:RsaObject_GetAttr", "src/internal.c:EcObject_GetAttr", "src/crypto.c:C_GetAttributeValue"]}
{"id": "C85", "title": "No call has undefined behaviour", "statement": "Whatever the files of the token and the calls made before, no call reads or writes outside a buffer, uses a freed or missing object, reads a union member that was not written, or fails to end.", "quantifier": "all files, histories, calls and arguments of the calls modelled", "why_tests_cant": "all sequences of all calls", "anchors": ["src/crypto.c:C_CreateObject", "src/crypto.c:C_CopyObject", "src/crypto.c:C_GenerateKeyPair", "src/crypto.c:C_DeriveKey", "src/internal.c:wp11_Object_Load", "src/internal.c:wp11_Object_Decode", "src/internal.c:WP11_AesGcm_Decrypt"]}
{"id": "C86", "title": "An imported key is the key given", "statement": "When C_CreateObject succeeds, each number given in the template (modulus, exponents, primes and coefficient of an RSA key, private value of an EC key, prime and base of a DH key) is the corresponding number of the new key, the curve and the point of an EC key are those given, and C_GetAttributeValue returns them when the key's protection attributes allow.", "quantifier": "all states, templates without repeated attributes, RSA, EC and DH keys", "why_tests_cant": "all values of all numbers", "anchors": ["src/internal.c:WP11_Object_SetRsaKey", "src/internal.c:WP11_Object_SetEcKey", "src/internal.c:WP11_Object_SetDhKey", "src/internal.c:RsaObject_GetAttr", "src/internal.c:EcObject_GetAttr", "src/internal.c:DhObject_GetAttr", "src/crypto.c:SetAttributeValue"]}
{"id": "C87", "title": "Diffie-Hellman parameters are stored as valid DER", "statement": "The encoding of the prime and base written when a DH key is stored is the DER encoding of SEQUENCE {INTEGER p, INTEGER g} (so that the parameters can be read back), and no byte is written outside the buffer of the length computed for it.", "quantifier": "all primes and bases", "why_tests_cant": "all values; byte and length boundaries of DER", "anchors": ["src/internal.c:wp11_DhParamsToDer", "src/internal.c:wp11_SetLength", "src/internal.c:wp11_BytePrecision", "src/internal.c:wp11_Object_Store_DhKey"]}
{"id": "C88", "title": "Text fields of the information structures are blank-padded text", "statement": "C_GetInfo, C_GetSlotInfo and C_GetTokenInfo fill their text fields with the right text padded with blanks and without zero bytes; the serial number tells tokens apart.", "quantifier": "all slots and token states", "why_tests_cant": "none of the fields is read by the tests", "anchors": ["src/wolfpkcs11.c:wolfpkcs11Info", "src/slot.c:C_GetSlotInfo", "src/slot.c:C_GetTokenInfo"]}
{"id": "C89", "title": "Token information is accurate", "statement": "C_GetTokenInfo reports each flag exactly when its condition holds, the UTC time, the real limits on sessions, and limits on PIN lengths that C_InitPIN enforces with CKR_PIN_LEN_RANGE.", "quantifier": "all token states, clock values and PINs", "why_tests_cant": "combinations of flags; all times; lengths at the limits", "anchors": ["src/slot.c:C_GetTokenInfo", "src/slot.c:C_InitPIN", "src/internal.c:WP11_Slot_TokenFailedLogin", "src/internal.c:WP11_Slot_TokenFailedExpire"]}
{"id": "C90", "title": "Session information names the session's slot, state and mode", "statement": "C_GetSessionInfo reports the slot the session was opened on, its state, its flags and device error 0.", "quantifier": "all histories and previous contents of the structure", "why_tests_cant": "the tests never read the slot", "anchors": ["src/slot.c:C_GetSessionInfo", "src/internal.c:WP11_Session_GetState"]}
{"id": "C91", "title": "Calls without a library, slot or session are refused with the right code", "statement": "Before C_Initialize every function except C_Initialize and C_GetFunctionList returns CKR_CRYPTOKI_NOT_INITIALIZED; with a slot that does not exist CKR_SLOT_ID_INVALID; with a handle that is not that of an open session CKR_SESSION_HANDLE_INVALID; and nothing changes.", "quantifier": "all 68 functions, states and arguments", "why_tests_cant": "68 functions times all states", "anchors": ["src/slot.c:C_GetSlotList", "src/slot.c:C_OpenSession", "src/crypto.c:C_CreateObject", "src/crypto.c:C_Sign", "src/wolfpkcs11.c:C_Finalize"]}
{"id": "C92", "title": "NULL pointers are refused", "statement": "A call in which a pointer the function needs is NULL returns CKR_ARGUMENTS_BAD, does not use the pointer and changes nothing; a reserved pointer that is not NULL is refused too, and an empty template may be NULL.", "quantifier": "all 68 functions, states and combinations of NULL pointers", "why_tests_cant": "tests pass one NULL pointer at a time in one state", "anchors": ["src/crypto.c:C_UnwrapKey", "src/crypto.c:C_GenerateKeyPair", "src/crypto.c:C_Encrypt", "src/slot.c:C_SetPIN", "src/wolfpkcs11.c:C_Finalize", "src/crypto.c:C_FindObjectsInit"]}
{"id": "C93", "title": "Unsupported functions say so, reporting functions only report", "statement": "The functions the library does not support return CKR_FUNCTION_NOT_SUPPORTED and change nothing; the functions that report information change nothing.", "quantifier": "all states and arguments", "why_tests_cant": "all states", "anchors": ["src/crypto.c:C_DigestInit", "src/crypto.c:C_SignRecover", "src/crypto.c:C_DigestEncryptUpdate", "src/slot.c:C_GetOperationState", "src/slot.c:C_WaitForSlotEvent", "src/slot.c:C_GetFunctionStatus"]}
{"id": "C94", "title": "Nothing but the modelled steps changes the library's state", "statement": "Every call of the interface, with any arguments including NULL pointers, either leaves the state as it is or performs exactly one of the modelled steps, so that every property of the states reached by the steps holds of all states reached through the interface.", "quantifier": "all histories of all 68 functions", "why_tests_cant": "all histories", "anchors": ["src/wolfpkcs11.c:wolfpkcs11FunctionList", "src/slot.c:C_OpenSession", "src/crypto.c:C_CreateObject"]}
{"id": "C95", "title": "Wrong mechanism parameters of key generation and agreement are refused", "statement": "C_GenerateKey and C_GenerateKeyPair with a parameter, and C_DeriveKey with a missing, empty or wrong parameter or a key derivation function, return CKR_MECHANISM_PARAM_INVALID and change nothing; with right parameters the keys are made.", "quantifier": "all states, mechanisms and parameters", "why_tests_cant": "all combinations", "anchors": ["src/crypto.c:C_GenerateKey", "src/crypto.c:C_GenerateKeyPair", "src/crypto.c:C_DeriveKey"]}
{"id": "C96", "title": "The random generator delivers what was asked for and survives bad seeds", "statement": "C_GenerateRandom returning CKR_OK has filled the whole buffer; a seed C_SeedRandom refuses leaves the generator working.", "quantifier": "all lengths, seeds and histories", "why_tests_cant": "lengths of 2^32 and more; failing seeds", "anchors": ["src/crypto.c:C_GenerateRandom", "src/crypto.c:C_SeedRandom", "src/internal.c:WP11_Slot_SeedRandom", "src/internal.c:WP11_Slot_GenerateRandom", "src/internal.c:Rng_New"]}
{"id": "C97", "title": "Every stored item has a file of its own", "statement": "For every directory the library accepts, different items (token, object, key, certificate, with their slot and object numbers) are kept in different files, so that the next process finds what was stored last.", "quantifier": "all directories, slot and object numbers, histories", "why_tests_cant": "tests use short directories", "anchors": ["src/internal.c:wolfPKCS11_Store_Open", "src/internal.c:wp11_Token_Store", "src/internal.c:wp11_Object_Store_RsaKey"]}
{"id": "C98", "title": "A call that answers CKR_OK has stored what it says", "statement": "Whatever the storage does, a call that answers CKR_OK leaves the files as the same call leaves them when nothing fails.", "quantifier": "all states, calls and failures of storage operations", "why_tests_cant": "tests run on working disks", "anchors": ["src/internal.c:wp11_Token_Store", "src/internal.c:wolfPKCS11_Store_Write", "src/internal.c:WP11_Session_AddObject", "src/internal.c:WP11_Session_RemoveObject", "src/internal.c:WP11_Library_Final"]}
{"id": "C99", "title": "A PIN change that fails leaves the old PIN", "statement": "If C_SetPIN answers anything but CKR_OK, the PINs are as before, in memory and on disk.", "quantifier": "all states, PINs and failures of storage operations", "why_tests_cant": "needs a failure at a chosen operation", "anchors": ["src/internal.c:WP11_Slot_SetUserPin", "src/internal.c:WP11_Slot_SetSOPin", "src/slot.c:C_SetPIN"]}
{"id": "C100", "title": "A failing storage causes no undefined behaviour", "statement": "A call that is defined when the storage works is defined when any of its storage operations fails.", "quantifier": "all states, calls and failures of storage operations", "why_tests_cant": "needs a failure at a chosen operation", "anchors": ["src/internal.c:wp11_Object_Unstore", "src/internal.c:wp11_Object_Store", "src/internal.c:wp11_Token_Store", "src/internal.c:wp11_Token_Load"]}
{"id": "C101", "title": "A read that fails does not destroy the stored token", "statement": "A process that cannot read some file, and does nothing but C_Initialize and C_Finalize, leaves what the next process finds.", "quantifier": "all stored tokens and failures of reading", "why_tests_cant": "needs a failure at a chosen file", "anchors": ["src/internal.c:wp11_Token_Load", "src/internal.c:wolfPKCS11_Store_Open", "src/internal.c:WP11_Library_Final"]}
{"id": "C102", "title": "The token survives the end of the process", "statement": "Whenever a process ends, with or without C_Finalize, the next one finds the token as the last call left it: label, PINs and token objects with all their attributes, and the user's keys after login.", "quantifier": "all histories of calls and all points at which the process ends", "why_tests_cant": "tests finish properly before they look again", "anchors": ["src/internal.c:wp11_Token_Store", "src/internal.c:wp11_Token_Load", "src/internal.c:WP11_Session_AddObject", "src/internal.c:WP11_Session_RemoveObject", "src/internal.c:WP11_Slot_SetUserPin", "src/crypto.c:C_SetAttributeValue"]}
{"id": "C103", "title": "Keys leave the memory", "statement": "After C_Logout no private or secret key of the token is left in memory in clear, a failed C_Login leaves none, and the memory of a destroyed key is cleared before it is given back.", "quantifier": "all histories of calls, all objects", "why_tests_cant": "tests cannot see memory that was given back", "anchors": ["src/internal.c:wp11_Object_Encode", "src/internal.c:WP11_Slot_Logout", "src/internal.c:WP11_Slot_UserLogin", "src/internal.c:WP11_Object_Free"]}
{"id": "C104", "title": "Several processes can use one token", "statement": "Processes with the same token directory work together: a key one process stored is kept, a PIN one process gave up is not accepted any more, whatever the others do.", "quantifier": "all numbers of processes, all interleavings of their calls", "why_tests_cant": "tests run one process", "anchors": ["src/internal.c:wolfPKCS11_Store_Open", "src/internal.c:wp11_Token_Load", "src/internal.c:wp11_Token_Store", "src/internal.c:WP11_Library_Final"]}
{"id": "C105", "title": "Every object made is freed, once", "statement": "The objects allocated are at every moment those in the lists of the token and the sessions; nothing is freed twice or without having been allocated; after the last C_Finalize nothing is left allocated.", "quantifier": "all histories of calls, process ends included", "why_tests_cant": "leaks on error paths are not seen by tests that look at return values", "anchors": ["src/crypto.c:C_DeriveKey", "src/crypto.c:C_CreateObject", "src/crypto.c:C_GenerateKeyPair", "src/internal.c:wp11_Session_Final", "src/internal.c:wp11_Token_Final"]}
{"id": "C106", "title": "Running out of memory is reported and harmless", "statement": "A call that answers CKR_OK did what it does when there is enough memory; one that fails for want of memory changes neither sessions nor the token nor files, and leaves every object readable; what C_Finalize stores does not depend on the memory there was.", "quantifier": "all histories of calls, with any allocations denied in each of C_Initialize, C_Finalize, C_OpenSession, C_CloseSession, C_Login, C_Logout, C_CreateObject, C_SetAttributeValue, C_FindObjectsInit", "why_tests_cant": "malloc does not fail in tests", "anchors": ["src/internal.c:wp11_Object_Encode_SymmKey", "src/internal.c:WP11_Object_SetLabel", "src/internal.c:WP11_Object_MatchAttr", "src/slot.c:C_OpenSession", "src/internal.c:WP11_Slot_Logout", "src/internal.c:wp11_Token_Load"]}
{"id": "C107", "title": "Sessions do not disturb one another", "statement": "What a session does for itself - its operations, its searches, its session objects - changes no answer that any other session gets, in any interleaving, and nothing in the token, in files or in other sessions: without those calls the same history has the same answers and the same end.", "quantifier": "all histories and interleavings of calls, all sets of sessions", "why_tests_cant": "interleavings of any number of sessions cannot be enumerated", "anchors": ["src/internal.c:WP11_Session_Get", "src/internal.c:WP11_Session_Find", "src/internal.c:WP11_Object_Find", "src/internal.c:WP11_Session_SetObject", "src/internal.c:WP11_Session_AddObject", "src/crypto.c:C_EncryptInit", "src/crypto.c:C_FindObjectsInit"]}
{"id": "C108", "title": "A handle names the same object in every session", "statement": "As PKCS #11 has it, all sessions of an application can use the session objects that any of them created: a handle that one session can read names the same object in every other open session.", "quantifier": "all reachable states, all pairs of sessions", "why_tests_cant": "tests use one session", "anchors": ["src/internal.c:WP11_Object_Find", "src/internal.c:WP11_Session_Find", "src/internal.c:WP11_Session_AddObject"]}
{"id": "C109", "title": "Operations give back the memory they take", "statement": "The label of RSA-OAEP, the additional data of AES-GCM and the ciphertext AES-GCM collects are freed exactly once: whatever operations an application performs one after another in a session, with whatever outcome, nothing of them is left on the heap after C_CloseSession.", "quantifier": "all sequences of operations of a session in which no operation is started before the last one has ended", "why_tests_cant": "leaks show up over long runs only, and on paths that fail", "anchors": ["src/internal.c:WP11_Session_SetOaepParams", "src/internal.c:WP11_Session_SetGcmParams", "src/internal.c:WP11_RsaOaep_PrivateDecrypt", "src/internal.c:WP11_AesGcm_EncryptFinal", "src/internal.c:WP11_AesGcm_DecryptFinal", "src/internal.c:wp11_Session_Final"]}
{"id": "C110", "title": "Attributes change only where asked, and protection is not taken back", "statement": "An attribute of an object changes only by a C_SetAttributeValue call, in a read/write session, on that object and naming that attribute; CKA_SENSITIVE never goes from TRUE to FALSE, CKA_EXTRACTABLE never from FALSE to TRUE, CKA_CLASS never changes, and an object made with CKA_MODIFIABLE FALSE is not changed at all.", "quantifier": "all sequences of API calls, all objects, all templates", "why_tests_cant": "any call of any sequence could be the one that changes an attribute of an object it does not concern", "anchors": ["src/internal.c:WP11_Object_SetAttr", "src/crypto.c:C_SetAttributeValue", "src/internal.c:WP11_Object_SetFlag"]}
{"id": "C111", "title": "CKA_LOCAL and CKA_KEY_GEN_MECHANISM tell where a key comes from", "statement": "CKA_LOCAL is TRUE exactly for keys generated in the token and for copies of such keys, CKA_KEY_GEN_MECHANISM is then the mechanism that generated them, and neither ever changes.", "quantifier": "all sequences of API calls, all objects", "why_tests_cant": "tests read the attributes right after generation; they do not show that no later call changes them", "anchors": ["src/internal.c:WP11_Rsa_GenerateKeyPair", "src/internal.c:WP11_Ec_GenerateKeyPair", "src/internal.c:WP11_Dh_GenerateKeyPair", "src/crypto.c:C_GenerateKey", "src/crypto.c:C_CopyObject"]}
{"id": "C112", "title": "Functions answer only with the return values PKCS #11 lists for them", "statement": "Whatever the arguments and the state, the return value of each function is one of those that PKCS #11 v2.40 section 5 lists for that function.", "quantifier": "all 68 functions, all arguments, all reachable states, all outcomes of the crypto library", "why_tests_cant": "a test sees the answer of one call; that a code is never given needs every path through the function and what it calls", "anchors": ["src/slot.c:C_InitPIN", "src/slot.c:C_SetPIN", "src/crypto.c:C_EncryptInit", "src/crypto.c:C_GetAttributeValue", "src/crypto.c:C_WrapKey", "src/crypto.c:SetAttributeValue"]}
{"id": "C113", "title": "An operation goes on with the key it was started with", "statement": "After an Init call has answered CKR_OK, the calls that continue the operation answer as they would with the key as it was at the Init call, whatever calls this and other sessions make in between (other than further operation calls of the same session, or closing it).", "quantifier": "all histories, all sessions, all mechanisms, all interleavings of other calls", "why_tests_cant": "a test interleaves a few chosen calls; the claim is about every call that could come between two parts of a message", "anchors": ["src/crypto.c:C_EncryptUpdate", "src/crypto.c:C_Encrypt", "src/internal.c:WP11_Slot_Logout", "src/internal.c:WP11_AesGcm_EncryptUpdate", "src/internal.c:WP11_Session_SetCbcParams"]}
{"id": "C114", "title": "Threads that share a session do not disturb one another's calls", "statement": "If several threads call C_EncryptUpdate, C_EncryptFinal, C_DecryptUpdate and C_DecryptFinal, also on the same session, then every interleaving is free of undefined behaviour if the calls one after the other are, and each session has done its calls in some order.", "quantifier": "all interleavings of any number of threads and sessions, all data and buffer sizes", "why_tests_cant": "the windows are a few instructions wide; a test that runs threads sees a handful of interleavings", "anchors": ["src/crypto.c:C_EncryptUpdate", "src/crypto.c:C_EncryptFinal", "src/crypto.c:C_DecryptUpdate", "src/crypto.c:C_DecryptFinal", "src/internal.c:WP11_AesCbc_EncryptUpdate", "src/internal.c:WP11_AesCbc_DecryptUpdate", "src/internal.c:WP11_AesCbcPad_DecryptUpdate", "src/internal.c:WP11_AesGcm_DecryptUpdate", "src/internal.c:WP11_Session_Get"]}
{"id": "C115", "title": "A part of no bytes changes nothing", "statement": "C_EncryptUpdate and C_DecryptUpdate with a part of length 0 answer CKR_OK with no output, and all later calls are answered as if it had not been made.", "quantifier": "all mechanisms for several parts, all states of an active operation, all buffers, all later calls", "why_tests_cant": "tests give parts with data in them; the effect of an empty part shows one or two calls later", "anchors": ["src/crypto.c:C_EncryptUpdate", "src/crypto.c:C_DecryptUpdate", "src/internal.c:WP11_AesCbc_EncryptUpdate", "src/internal.c:WP11_AesCbcPad_DecryptUpdate", "src/internal.c:WP11_AesGcm_EncryptUpdate", "src/internal.c:WP11_AesGcm_DecryptUpdate"]}
{"id": "C116", "title": "The library gives its version", "statement": "libraryVersion in C_GetInfo and the hardware and firmware versions of slot and token are the major and minor number of the package version.", "quantifier": "all package versions with a major number of two and a minor number of three digits", "why_tests_cant": "a test can only compare with the one version it was built with, and compares with the same macros", "anchors": ["m4/hexversion.m4:CREATE_HEX_VERSION", "wolfpkcs11/internal.h:WOLFPKCS11_MINOR_VERSION", "src/wolfpkcs11.c:C_GetInfo", "src/slot.c:C_GetSlotInfo", "src/slot.c:C_GetTokenInfo"]}
{"id": "C117", "title": "A message in parts is encrypted as one and decrypts to itself, whatever other calls are made meanwhile", "statement": "In a session whose last CBC operation was finished, a message given in parts to AES-CBC or AES-CBC-PAD comes out as that mode encrypts (decrypts) the whole message under the key's value at the Init call, whatever calls the same session makes besides its operation and other sessions make at all, even if they change or destroy the key or log out; decrypting the result in any other parts, in any session and with any key of the same value, gives the message. AES-GCM decryption delivers the message at the end and only if it is authentic, if the key is left alone meanwhile.", "quantifier": "all reachable states, all messages and divisions into parts, all interleaved calls", "why_tests_cant": "tests encrypt without anything in between; the claim is about all histories", "anchors": ["src/crypto.c:C_EncryptUpdate", "src/crypto.c:C_EncryptFinal", "src/crypto.c:C_DecryptUpdate", "src/crypto.c:C_DecryptFinal", "src/internal.c:WP11_AesCbc_EncryptUpdate", "src/internal.c:WP11_AesCbcPad_DecryptUpdate", "src/internal.c:WP11_Session_SetCbcParams"]}
{"id": "C118", "title": "Sessions and login follow a small reference machine in every history", "statement": "Whatever calls are made in whatever order, the answers about sessions and login are those of a machine that holds only how often the library was initialised, which session numbers are open in which mode, and who is logged in: which number C_OpenSession gives (the greatest free one up to the greatest in use, else the next), when it is refused, when calls are refused for the handle, the mode or the login, and what C_GetSessionInfo reports. Calls on objects and keys have no influence on any of it.", "quantifier": "all histories of all calls, all initial files, all randomness, all behaviour of the cryptography", "why_tests_cant": "the order of calls and the choice of numbers are unbounded; tests run a few fixed orders", "anchors": ["src/slot.c:C_OpenSession", "src/slot.c:C_CloseSession", "src/slot.c:C_CloseAllSessions", "src/slot.c:C_GetSessionInfo", "src/slot.c:C_Login", "src/slot.c:C_Logout", "src/slot.c:C_InitToken", "src/internal.c:WP11_Slot_OpenSession", "src/internal.c:WP11_Slot_CloseSession", "src/internal.c:wp11_Slot_FreeSession", "src/internal.c:WP11_Session_GetState"]}
{"id": "C119", "title": "PINs follow a small reference machine in every history, and a wrong PIN tells only that it is wrong", "statement": "Whatever calls are made in whatever order, the answers of C_Login, C_SetPIN, C_InitPIN and C_InitToken and the PIN warnings of C_GetTokenInfo are those of a machine that holds, beside that of C118, only whether the token is initialised and for each role which text is its PIN, the number of wrong ones since, and the start and length of its lock-out; nothing else, such as objects, keys, storage or hashes, has an influence. All wrong PINs get the same answer and leave the same state.", "quantifier": "all histories of all calls, all initial files, all randomness, all hash functions of 32 bytes that tell the PINs of the history apart, all times", "why_tests_cant": "histories, times and PINs are unbounded; tests try one wrong PIN at a few moments", "anchors": ["src/slot.c:C_Login", "src/slot.c:C_SetPIN", "src/slot.c:C_InitPIN", "src/slot.c:C_InitToken", "src/slot.c:C_GetTokenInfo", "src/internal.c:WP11_Slot_SOLogin", "src/internal.c:WP11_Slot_UserLogin", "src/internal.c:WP11_Slot_CheckSOPin", "src/internal.c:WP11_Slot_CheckUserPin", "src/internal.c:WP11_Slot_SetSOPin", "src/internal.c:WP11_Slot_SetUserPin", "src/internal.c:WP11_Slot_TokenReset"]}
{"id": "C120", "title": "Object handles follow a small reference machine in every history", "statement": "Whatever calls are made in whatever order on a token that starts without a token file, with CKA_TOKEN true or false in the templates, a handle names an object exactly when a machine that sees only calls and answers has it on its list of token objects or on the list of the session used. A new object gets the handle after the newest of its list (the first one, if empty) and only if there are fewer than 64 token or 8 session objects; C_DestroyObject on a listed handle succeeds and takes exactly it off; closing a session empties its list; C_InitToken empties that of the token. Calls naming a handle not listed are refused with the code for it, those naming a listed one are not; in particular the handle of a destroyed object is refused until it is given out again.", "quantifier": "all histories of fewer than 2^27 calls, all randomness, all environments with the stated laws", "why_tests_cant": "histories are unbounded and handles are reused; tests create and destroy a few objects in one session", "anchors": ["src/crypto.c:C_CreateObject", "src/crypto.c:C_CopyObject", "src/crypto.c:C_DestroyObject", "src/crypto.c:C_GetAttributeValue", "src/crypto.c:C_GenerateKey", "src/crypto.c:C_GenerateKeyPair", "src/crypto.c:C_UnwrapKey", "src/crypto.c:C_DeriveKey", "src/crypto.c:C_WrapKey", "src/internal.c:WP11_Session_AddObject", "src/internal.c:WP11_Session_RemoveObject", "src/internal.c:WP11_Object_Find", "src/slot.c:C_CloseSession", "src/slot.c:C_CloseAllSessions", "src/slot.c:C_InitToken"]}
{"id": "C121", "title": "No search results without a search", "statement": "C_FindObjects on a session in which no search is active gives no handles: not before C_FindObjectsInit, not after C_FindObjectsFinal, and not in a session opened again under the same handle.", "quantifier": "all histories, all sessions, all counts, all environments", "why_tests_cant": "needs the interplay of ending a search, closing a session and the reuse of its record; tests always begin a search before C_FindObjects and read it to its end", "anchors": ["src/crypto.c:C_FindObjectsInit", "src/crypto.c:C_FindObjects", "src/crypto.c:C_FindObjectsFinal", "src/internal.c:WP11_Session_FindInit", "src/internal.c:WP11_Session_FindGet", "src/internal.c:WP11_Session_FindFinal", "src/internal.c:wp11_Session_Final", "src/internal.c:WP11_Slot_OpenSession", "src/internal.c:WP11_Slot_CloseSession", "src/internal.c:WP11_Slot_CloseSessions"]}
{"id": "C122", "title": "Operations follow a small reference machine in every history", "statement": "In every history of calls the answers of the Init, one-shot, Update and Final calls of encryption, decryption, signing and verification are those of a small machine that sees calls and answers only: per session handle the mechanism begun last, what for, and whether that goes on. In particular a call finds an operation only if the last one begun in its session was of its kind, and finds it whatever was called in between that does not end it (other sessions, logins, objects, Updates, questions for lengths, refused Init calls). A session that is not open has no key in use and no AES-CBC key schedule set up.", "quantifier": "all histories, sessions, mechanisms, keys, data, buffers, environments", "why_tests_cant": "needs all interleavings of operations with each other and with everything else; tests run one operation at a time from beginning to end", "anchors": ["src/crypto.c:C_EncryptInit", "src/crypto.c:C_Encrypt", "src/crypto.c:C_EncryptUpdate", "src/crypto.c:C_EncryptFinal", "src/crypto.c:C_DecryptInit", "src/crypto.c:C_Decrypt", "src/crypto.c:C_DecryptUpdate", "src/crypto.c:C_DecryptFinal", "src/crypto.c:C_SignInit", "src/crypto.c:C_Sign", "src/crypto.c:C_SignUpdate", "src/crypto.c:C_SignFinal", "src/crypto.c:C_VerifyInit", "src/crypto.c:C_Verify", "src/crypto.c:C_VerifyUpdate", "src/crypto.c:C_VerifyFinal", "src/crypto.c:C_WrapKey", "src/crypto.c:C_UnwrapKey", "src/internal.c:wp11_Session_Final", "src/internal.c:WP11_Session_IsOpInitialized"]}
{"id": "C123", "title": "Attributes read as they were last written, in every history", "statement": "In every history of calls, C_GetAttributeValue for usage flags, label, id, dates and class returns the value last written into that attribute of that object, by the template it was made from or by C_SetAttributeValue, whatever happened in between: calls through other sessions, other objects with the same handle, key pairs, logins, refused or failing calls, writes of other attributes.", "quantifier": "all histories, objects, sessions, templates and values", "why_tests_cant": "needs all interleavings of writes, new objects and reused handles; tests write and read one object at a time", "anchors": ["src/crypto.c:C_GetAttributeValue", "src/crypto.c:C_SetAttributeValue", "src/crypto.c:SetAttributeValue", "src/crypto.c:C_CreateObject", "src/crypto.c:C_GenerateKey", "src/crypto.c:C_GenerateKeyPair", "src/crypto.c:C_UnwrapKey", "src/crypto.c:C_DeriveKey", "src/crypto.c:C_CopyObject", "src/internal.c:WP11_Object_GetAttr", "src/internal.c:WP11_Object_SetAttr", "src/internal.c:WP11_Session_AddObject", "src/internal.c:WP11_Object_Find"]}
{"id": "C124", "title": "Token objects survive restarts, in every history", "statement": "In every history of calls with any number of restarts, the token objects found by C_Initialize are those that were there, under the same handles and with the attributes last written, when the process finalized the library before; when it just ended, they are those at that moment too unless attributes of token objects were set since the last call that added or removed a token object.", "quantifier": "all histories, restarts, objects, attributes and values", "why_tests_cant": "needs all interleavings of changes and restarts; tests store and reload one prepared token", "anchors": ["src/crypto.c:C_Initialize", "src/crypto.c:C_Finalize", "src/crypto.c:C_CreateObject", "src/crypto.c:C_DestroyObject", "src/crypto.c:C_SetAttributeValue", "src/crypto.c:C_GetAttributeValue", "src/internal.c:wp11_Token_Load", "src/internal.c:wp11_Token_Store", "src/internal.c:wp11_Object_Load_Object", "src/internal.c:wp11_Object_Store_Object", "src/internal.c:WP11_Session_AddObject", "src/internal.c:WP11_Session_RemoveObject", "src/internal.c:WP11_Library_Init", "src/internal.c:WP11_Library_Final"]}
{"id": "C125", "title": "What is encrypted or signed under an imported key is so under the value given, in every history", "statement": "In every history in which C_CreateObject imported a secret key with a value, whatever calls follow the import and whatever calls fall between the parts of the message: a MAC made with its handle is the HMAC under that value and no other MAC is accepted, AES-CBC produces the CBC ciphertext under that value, and two parties that imported the same value in libraries of their own read each other's padded CBC messages.", "quantifier": "all histories, key values, messages, ways to split them and calls in between", "why_tests_cant": "needs all interleavings of other sessions and objects between import and use; tests use a key immediately after creating it", "anchors": ["src/crypto.c:C_CreateObject", "src/crypto.c:C_SignInit", "src/crypto.c:C_SignUpdate", "src/crypto.c:C_SignFinal", "src/crypto.c:C_VerifyInit", "src/crypto.c:C_VerifyUpdate", "src/crypto.c:C_VerifyFinal", "src/crypto.c:C_EncryptInit", "src/crypto.c:C_EncryptUpdate", "src/crypto.c:C_EncryptFinal", "src/crypto.c:C_DecryptInit", "src/crypto.c:C_DecryptUpdate", "src/crypto.c:C_DecryptFinal", "src/internal.c:WP11_Object_SetSecretKey", "src/internal.c:WP11_Object_Find"]}
{"id": "C126", "title": "PINs and lock-outs follow a reference machine across restarts, in every history", "statement": "Whatever calls are made in whatever order, over any number of C_Finalize and C_Initialize and of processes that just end, PINs and their counters are those of the machine of C119 extended by what the files hold: an orderly end loses nothing; a process that just ends keeps every PIN and takes the counters back to those last stored, never to others. So after C_InitToken, C_InitPIN, C_SetPIN or a login told the library which PIN is right, no other PIN is accepted until one of these changes it, however often the library is restarted, and the security officer's own PIN is not refused as wrong unless wrong ones were given.", "quantifier": "all histories from a storage without a token file, all randomness, all hashes that tell the PINs of the history apart", "why_tests_cant": "tests restart the library once with one PIN; the claim is over every interleaving of restarts, crashes, PIN changes and other calls", "anchors": ["src/internal.c:wp11_Token_Load", "src/internal.c:wp11_Token_Store", "src/internal.c:WP11_Slot_SOLogin", "src/internal.c:WP11_Slot_UserLogin", "src/internal.c:WP11_Slot_SetSOPin", "src/internal.c:WP11_Slot_SetUserPin", "src/internal.c:WP11_Slot_TokenReset", "src/slot.c:C_Login", "src/slot.c:C_InitPIN", "src/slot.c:C_SetPIN", "src/slot.c:C_InitToken", "src/slot.c:C_Initialize", "src/slot.c:C_Finalize"]}
{"id": "C127", "title": "An imported secret key on the token keeps its value through logouts, logins, restarts and processes that just end, in every history", "statement": "If a user logged in with a PIN imports an AES or generic secret key onto the token, then, whatever is called afterwards, over any number of C_Logout and C_Login, of C_Finalize and C_Initialize and of processes that just end, whenever the user is logged in the key is found under its handle in every open session with exactly the value given: signatures are the HMAC and ciphertexts the CBC encryption under that value, and what was encrypted before a restart is decrypted after it. Required is only that no PIN is set and the token not initialised meanwhile, that the user logs in with that PIN, and that the handle is not named to C_DestroyObject or C_SetAttributeValue.", "quantifier": "all histories from a storage without a token file, all randomness, all key values, all messages and ways to split them", "why_tests_cant": "tests reload a token once with the calls they make; the claim is over every interleaving of logouts, logins, restarts, crashes and other calls between import and use", "anchors": ["src/internal.c:wp11_Object_Encode", "src/internal.c:wp11_Object_Decode", "src/internal.c:WP11_Slot_UserLogin", "src/internal.c:WP11_Slot_Logout", "src/internal.c:wp11_Token_Load", "src/internal.c:wp11_Token_Store", "src/internal.c:WP11_Session_AddObject", "src/crypto.c:C_CreateObject"]}
{"id": "C128", "title": "A secret key made on the token in any way keeps its value through logouts, logins, restarts and processes that just end, in every history", "statement": "If, while a user is logged in, any call that hands out object handles (C_CreateObject, C_GenerateKey, C_UnwrapKey, C_DeriveKey, C_CopyObject) makes an AES or generic secret key on the token, then, whatever is called afterwards, over any number of C_Logout and C_Login, of C_Finalize and C_Initialize and of processes that just end, whenever the user is logged in the key is found under its handle in every open session with exactly the value it had when the call returned. For C_GenerateKey with CKA_VALUE_LEN n that value is the first n bytes the generator gave, for C_DeriveKey it is the whole agreed secret, so that two parties with tokens of their own who agreed on a secret open each other's AES-GCM messages, and what was encrypted before a restart is decrypted after it. Required is only that no PIN is set and the token not initialised meanwhile, that the user logs in with that PIN, and that the handle is not named to C_DestroyObject or C_SetAttributeValue.", "quantifier": "all histories from a storage without a token file, all calls that make objects, all randomness, all key values, all messages and ways to split them", "why_tests_cant": "a generated or derived key differs in every run and often cannot be read back; tests make a key in one way and reload it once, the claim is over every way and every interleaving of calls until the use", "anchors": ["src/internal.c:wp11_Object_Encode", "src/internal.c:wp11_Object_Decode", "src/internal.c:wp11_Token_Load", "src/internal.c:wp11_Token_Store", "src/internal.c:WP11_Session_AddObject", "src/crypto.c:C_GenerateKey", "src/crypto.c:C_DeriveKey"]}
{"id": "C129", "title": "RSA and EC private keys on the token keep their numbers through logouts, logins, restarts and processes that just end, in every history", "statement": "If, while a user is logged in, any call that hands out object handles (C_CreateObject, C_GenerateKeyPair, C_UnwrapKey) makes an RSA or EC private key on the token, then, whatever is called afterwards, over any number of C_Logout and C_Login, of C_Finalize and C_Initialize and of processes that just end, whenever the user is logged in the key is found under its handle in every open session: an RSA key with all its numbers, an EC key with its curve and private value. A PKCS#1 v1.5 signature made after a restart is then the one the primitive gives under the key as it was made. Required is only that no PIN is set and the token not initialised meanwhile, that the user logs in with that PIN, and that the handle is not named to C_DestroyObject or C_SetAttributeValue.", "quantifier": "all histories from a storage without a token file, all calls that make objects, all randomness, all RSA and EC private keys, all messages to sign", "why_tests_cant": "a private key generated on the token cannot be compared with itself after a restart; tests reload one fixed key once, the claim is over every key and every interleaving of calls until the use", "anchors": ["src/internal.c:wp11_Object_Encode", "src/internal.c:wp11_Object_Decode", "src/internal.c:wp11_Token_Load", "src/internal.c:wp11_Token_Store", "src/internal.c:WP11_Session_AddObject", "src/crypto.c:C_GenerateKeyPair", "src/crypto.c:C_Sign"]}
{"id": "C130", "title": "RSA and EC public keys on the token keep their public numbers through restarts, and what one half of a pair signs the other verifies, in every history", "statement": "If, while a user is logged in, any call that hands out object handles makes an RSA or EC public key on the token, then, whatever is called afterwards, over any number of C_Logout and C_Login, of C_Finalize and C_Initialize and of processes that just end, whenever the user is logged in the key is found under its handle in every open session: an RSA key with its modulus and exponent, an EC key with its curve and point. A CKM_RSA_PKCS, CKM_RSA_PKCS_PSS or CKM_ECDSA signature made with a private key on the token in one history is accepted with the public key of the same numbers on the token in any other, and what is encrypted there with CKM_RSA_PKCS or CKM_RSA_PKCS_OAEP is decrypted with the private key.", "quantifier": "all histories from a storage without a token file, all calls that make objects, all randomness, all RSA and EC public keys, all messages", "why_tests_cant": "tests verify with the key pair still in memory or reload one fixed key once; the claim is over every pair, every restart between signing and verifying and every interleaving of calls", "anchors": ["src/internal.c:wp11_Object_Encode", "src/internal.c:wp11_Object_Decode", "src/internal.c:wp11_Token_Load", "src/internal.c:wp11_Token_Store", "src/crypto.c:C_GenerateKeyPair", "src/crypto.c:C_Sign", "src/crypto.c:C_Verify"]}
{"id": "C131", "title": "A public key on the token has its numbers whether or not somebody is logged in", "statement": "A public key on the token that is not private can be used in every session that finds it: in every history its modulus and exponent (its curve and point) are those it was made with, also in a public session after a restart.", "quantifier": "all histories from a storage without a token file, all public keys on the token", "why_tests_cant": "needs a restart and then the use of the key without a login; tests log in first", "anchors": ["src/internal.c:wp11_Object_Load_RsaKey", "src/internal.c:wp11_Object_Load_EccKey", "src/internal.c:wp11_Token_Load", "src/internal.c:WP11_Slot_UserLogin", "src/internal.c:wp11_Object_Decode"]}
{"id": "C132", "title": "Diffie-Hellman keys on the token keep their parameters and value through logouts, logins, restarts and processes that just end, in every history", "statement": "If, while a user is logged in, any call that hands out object handles makes a Diffie-Hellman private or public key on the token, then, whatever is called afterwards, over any number of C_Logout and C_Login, of C_Finalize and C_Initialize and of processes that just end, whenever the user is logged in the key is found under its handle in every open session with the same prime, base and value. Required is only that no PIN is set and the token not initialised meanwhile, that the user logs in with that PIN, and that the handle is not named to C_DestroyObject or C_SetAttributeValue.", "quantifier": "all histories from a storage without a token file, all calls that make objects, all randomness, all Diffie-Hellman keys", "why_tests_cant": "a generated private value cannot be compared with itself after a restart; tests reload at most one key once", "anchors": ["src/internal.c:wp11_Object_Decode_DhKey", "src/internal.c:wp11_Object_Encode_DhKey", "src/internal.c:wp11_Object_Load_DhKey", "src/internal.c:wp11_Object_Store_DhKey", "src/crypto.c:C_GenerateKeyPair"]}
