{"id": "C01", "title": "Usernames are unique, ignoring case", "statement": "After NewDatabase succeeds and after any sequence of API calls, no two accounts in the database have usernames that are equal after strings.ToLower.", "quantifier": "every history of API calls (any length, any requests, any clock readings, random draws and I/O outcomes) starting from a successful NewDatabase, and every pair of accounts", "why_tests_cant": "Tests try a few duplicate names in one order; uniqueness is an invariant over all histories, including ones with failed commits and arbitrary initial files.", "anchors": ["database.go:NewDatabase", "database.go:Database.AddUser"]}
{"id": "C02", "title": "Email addresses are unique across the database, ignoring case", "statement": "After NewDatabase succeeds and after any sequence of API calls, no email address (after strings.ToLower) belongs to two accounts, nor twice to one account.", "quantifier": "every history of API calls (any length, any requests, any clock readings, random draws and I/O outcomes) starting from a successful NewDatabase, and every pair of (account, address) positions", "why_tests_cant": "Same as C01: an invariant over unbounded histories and arbitrary initial files.", "anchors": ["database.go:NewDatabase", "database.go:Database.AddUser", "README.md"]}
{"id": "C03", "title": "User IDs are unique when the UUID source yields a fresh value", "statement": "If in every AddUser call at least one of the drawn UUIDs that the call may use is not yet taken, all accounts always have pairwise different IDs and each ID is 36 characters long. Without that assumption the claim fails: AddUser falls back to an unchecked ID after ten collisions.", "quantifier": "every history of API calls (any length, any requests, any clock readings, random draws and I/O outcomes) starting from a successful NewDatabase, every UUID stream", "why_tests_cant": "The fallback branch needs ten consecutive UUID collisions; no test can provoke it.", "anchors": ["database.go:Database.AddUser", "uuid.go:NewID", "user.go:NewUser"]}
{"id": "C04", "title": "AddUser accepts exactly the well-formed, non-conflicting requests", "statement": "AddUser succeeds if and only if username and password lengths are within policy, the trimmed password is not empty and bcrypt hashes it, the email matches the documented grammar, no role is blank, the trimmed full name is empty or parses, the username and email (lowercased) are unused, and the file write succeeds.", "quantifier": "every database state reachable by C01's histories, every request, every oracle outcome", "why_tests_cant": "The acceptance condition is a conjunction over an infinite input space; both directions matter.", "anchors": ["database.go:Database.AddUser", "user.go:NewUserWithRoles"]}
{"id": "C05", "title": "A successful AddUser appends exactly one account and touches nothing else", "statement": "After AddUser succeeds the list of accounts is the old list followed by one new account that carries the request's username, email, roles and name, one active password, revision 0 and no keys or tokens; every earlier account, the policy and the path are unchanged.", "quantifier": "every reachable state and request for which AddUser succeeds", "why_tests_cant": "The frame condition quantifies over all other accounts and fields.", "anchors": ["database.go:Database.AddUser", "user.go:NewUserWithRoles"]}
{"id": "C06", "title": "Rejected requests leave accounts, indexes and the file untouched", "statement": "When a mutating call is rejected for any reason other than a failed file write, every account, every lookup index and the database file are exactly as before.", "quantifier": "every reachable state, every mutating API call and request, every reason for rejection", "why_tests_cant": "Requires checking every early return on every state.", "anchors": ["database.go:Database.AddUser", "database.go:Database.AddPublicKey", "database.go:Database.DeletePublicKey", "database.go:Database.AddAPIKey", "database.go:Database.DeleteAPIKey", "database.go:Database.ChangeUserPassword", "database.go:Database.AddMfaToken", "database.go:Database.DeleteMfaToken", "database.go:Database.DeleteUser"]}
{"id": "C07", "title": "Lookup indexes agree with the account list", "statement": "In every reachable state a name (of 2 or more bytes) or address (of 6 or more bytes) resolves to an account exactly when some account carries that lowercased username or address, and it resolves to that account.", "quantifier": "every history of API calls (any length, any requests, any clock readings, random draws and I/O outcomes) starting from a successful NewDatabase, every looked-up string", "why_tests_cant": "Index/list agreement is a refinement invariant over all histories.", "anchors": ["database.go:Database.getUserByUsername", "database.go:Database.getUserByEmailAddress", "database.go:Database.getUser"]}
{"id": "C08", "title": "Every accepted account can be found again (fails for short names and addresses)", "statement": "Every account that AddUser accepts can afterwards be authenticated by its username and by its email. The code violates this for one-byte usernames (allowed when the stored policy has min_length 1), for addresses shorter than 6 bytes such as a@b.c, and for usernames containing '@'.", "quantifier": "every reachable state and every accepted AddUser request", "why_tests_cant": "The gap is between two length checks in different functions; a test must guess the boundary.", "anchors": ["database.go:Database.getUserByUsername", "database.go:Database.getUserByEmailAddress", "database.go:Database.AddUser"]}
{"id": "C09", "title": "Username and email must name the same account", "statement": "Every call that takes a username/email pair (GetUsers, GetUser, DeleteUser, public key, API key, MFA and password operations) is rejected, with no change to any state, when the two do not resolve to accounts with the same ID.", "quantifier": "every reachable state, every pair of strings, each of those calls", "why_tests_cant": "All pairs of identities in all states.", "anchors": ["database.go:Database.validateUserIdentity"]}
{"id": "C10", "title": "Operations for one account never modify another", "statement": "A call made for account A leaves the record of every other account, and the API key index entries owned by other accounts, unchanged.", "quantifier": "every history of API calls (any length, any requests, any clock readings, random draws and I/O outcomes) starting from a successful NewDatabase, every account other than the named one", "why_tests_cant": "Universal over all other accounts in all states.", "anchors": ["database.go", "user.go"]}
{"id": "C11", "title": "Accounts are never removed, reordered or renamed", "statement": "Along every history the account list only grows at its end; the ID, username, email addresses, names, roles and creation time of an existing account never change; DeleteUser always fails.", "quantifier": "every history of API calls (any length, any requests, any clock readings, random draws and I/O outcomes) starting from a successful NewDatabase", "why_tests_cant": "A statement about all pairs of points of all histories.", "anchors": ["database.go:Database.DeleteUser", "database.go:Database.AddUser", "README.md"]}
{"id": "C12", "title": "Password authentication decision", "statement": "AuthenticateUser with a non-empty password succeeds if and only if the username (or address, when it contains '@') resolves to an account that has a password entry which is neither disabled nor expired and which bcrypt-matches the supplied string; the response code is 200 exactly on success and 400 on every error.", "quantifier": "every database state, request and bcrypt oracle", "why_tests_cant": "Decision rule over unbounded password histories.", "anchors": ["database.go:Database.AuthenticateUser", "user.go:User.VerifyPassword", "password.go:Password.Match"]}
{"id": "C13", "title": "A newly added user can log in with the password given", "statement": "After a successful AddUser, AuthenticateUser with the request's username (no '@', at least 2 bytes) in any letter case and the request's password succeeds, provided the password has no leading or trailing white space; with surrounding white space it always fails, except that trailing white space behind 72 or more bytes is ignored.", "quantifier": "every reachable state, every accepted AddUser request, every correct bcrypt", "why_tests_cant": "Tests use a handful of tidy passwords and never one with surrounding spaces.", "anchors": ["password.go:Password.hash", "password.go:Password.Match", "database.go:Database.AuthenticateUser"]}
{"id": "C14", "title": "Wrong passwords are rejected", "statement": "After a successful AddUser, AuthenticateUser for that account with any password whose 72-byte bcrypt key differs from that of the trimmed original is rejected with code 400.", "quantifier": "every reachable state, every wrong password, every bcrypt that accepts only its own key", "why_tests_cant": "Ranges over all wrong passwords.", "anchors": ["user.go:User.VerifyPassword", "password.go:Password.Match"]}
{"id": "C15", "title": "Read operations change nothing", "statement": "AuthenticateUser, IdentifyUser, LookupAPIKey, GetUsers, GetUser, GetPublicKeys, GetAPIKeys, GetMfaTokens, GetUserCount and DeleteUser never write the file and never change any account, index, policy, revision or path; the only memory they may touch is the parsed-public-key cache of a u2f token, and that only during WebAuthn authentication.", "quantifier": "every state and request", "why_tests_cant": "Frame condition over the entire state.", "anchors": ["database.go", "mfa_token.go:MfaToken.WebAuthnRequest"]}
{"id": "C16", "title": "Changing the password switches credentials", "statement": "ChangeUserPassword succeeds exactly when the identity pair is valid, the new password's length is within policy, the old password currently authenticates, the new one is hashable and the write succeeds; afterwards the new password (trimmed) authenticates and any password with another bcrypt key, including the old one, does not.", "quantifier": "every reachable state, every request", "why_tests_cant": "Ranges over all password histories and inputs.", "anchors": ["database.go:Database.ChangeUserPassword", "user.go:User.ChangePassword", "user.go:User.AddPassword"]}
{"id": "C17", "title": "At most one active password per account", "statement": "Every account created through AddUser has exactly one password entry that is neither disabled nor expired, at the head of its list, in every later state; disabled entries never become active again.", "quantifier": "every history of API calls (any length, any requests, any clock readings, random draws and I/O outcomes) starting from a successful NewDatabase", "why_tests_cant": "Invariant over unbounded histories of password changes.", "anchors": ["user.go:User.AddPassword", "password.go:Password.Disable"]}
{"id": "C18", "title": "Password history is bounded by the policy", "statement": "An account never stores more than KeepVersions+3 password entries (the documented intent, KeepVersions entries, is violated), and a change keeps the most recent entries in order.", "quantifier": "every history of API calls (any length, any requests, any clock readings, random draws and I/O outcomes) starting from a successful NewDatabase, every KeepVersions value", "why_tests_cant": "Off-by-N in a loop bound shows only after more than ten password changes.", "anchors": ["user.go:User.AddPassword", "database.go:Policy"]}
{"id": "C19", "title": "Password length policy applies to the stored secret (violated by padding)", "statement": "AddUser and ChangeUserPassword reject every password whose byte length lies outside the policy. The secret that is actually hashed is the trimmed string, so a padded password can be arbitrarily shorter than the minimum.", "quantifier": "every reachable state, every password", "why_tests_cant": "The interplay of two functions on white space; all strings.", "anchors": ["database.go:Database.checkPasswordPolicyCompliance", "password.go:Password.hash"]}
{"id": "C20", "title": "Default policy fills only unset limits", "statement": "After a successful NewDatabase each of the five numeric limits is non-zero: it equals the stored value when that was non-zero and the documented default otherwise; all boolean policy flags keep their stored values.", "quantifier": "every stored policy", "why_tests_cant": "All combinations of zero/non-zero/negative values.", "anchors": ["database.go:Database.enforceDefaultPolicy", "database.go:NewDatabase"]}
{"id": "C21", "title": "Published username policy is enforced (only its length part is)", "statement": "AddUser accepts only usernames whose length the policy allows; the character classes announced by GetUsernamePolicyRegex and GetUsernamePolicySummary are not enforced.", "quantifier": "every policy and username", "why_tests_cant": "Mismatch between an advertised regex and a check; all strings.", "anchors": ["database.go:Database.GetUsernamePolicyRegex", "database.go:Database.checkUserPolicyCompliance"]}
{"id": "C22", "title": "A freshly issued API key identifies its owner", "statement": "After a successful AddAPIKey for an account, LookupAPIKey with the returned secret succeeds and reports that account's username and email, in the resulting state and in every later state in which the key has not been deleted.", "quantifier": "every history of API calls (any length, any requests, any clock readings, random draws and I/O outcomes) starting from a successful NewDatabase, every random draw", "why_tests_cant": "Interaction of key issue, lookup and unrelated later operations over all histories.", "anchors": ["database.go:Database.AddAPIKey", "database.go:Database.LookupAPIKey"]}
{"id": "C23", "title": "API key lookup is sound", "statement": "LookupAPIKey succeeds only if the reported account owns a key entry whose prefix equals the first 24 bytes of the payload and whose stored hash bcrypt-matches the payload; shorter payloads than 72 bytes are always rejected.", "quantifier": "every reachable state, every payload", "why_tests_cant": "All payloads in all states.", "anchors": ["database.go:Database.LookupAPIKey", "user.go:User.LookupAPIKey", "api_key.go:APIKey.Match"]}
{"id": "C24", "title": "The whole API key is needed (violated beyond 72 bytes)", "statement": "Only the exact secret returned by AddAPIKey should be accepted. In fact every payload that shares the first 72 bytes with an issued secret is accepted, because bcrypt ignores the rest.", "quantifier": "every issued key and every payload", "why_tests_cant": "Tests do not try payloads that differ only in the tail.", "anchors": ["database.go:Database.AddAPIKey", "api_key.go:APIKey.Match"]}
{"id": "C25", "title": "Disabled API keys are refused (violated)", "statement": "LookupAPIKey ignores the Disabled and Expired flags: a key issued with Disabled=true authenticates.", "quantifier": "every reachable state, every disabled key", "why_tests_cant": "No test issues a disabled key and looks it up.", "anchors": ["user.go:User.LookupAPIKey", "api_key.go:NewAPIKey"]}
{"id": "C26", "title": "A deleted API key stops working, others continue", "statement": "After a successful DeleteAPIKey of a key, LookupAPIKey with that key's secret fails in that and all later states until a key with the same prefix is issued; every key with another ID and prefix is looked up with the same result as before.", "quantifier": "every history of API calls (any length, any requests, any clock readings, random draws and I/O outcomes) starting from a successful NewDatabase, every key", "why_tests_cant": "All keys of all accounts in all states.", "anchors": ["database.go:Database.DeleteAPIKey", "user.go:User.DeleteAPIKey"]}
{"id": "C27", "title": "API key prefixes are unique and indexed", "statement": "In every reachable state no two API keys (of any accounts) share a prefix, and the prefix index maps exactly the stored prefixes to their owners, provided key IDs drawn are fresh within the account.", "quantifier": "every history of API calls (any length, any requests, any clock readings, random draws and I/O outcomes) starting from a successful NewDatabase", "why_tests_cant": "Invariant over histories mixing issue, delete and restart.", "anchors": ["database.go:NewDatabase", "database.go:Database.AddAPIKey", "database.go:Database.DeleteAPIKey"]}
{"id": "C28", "title": "AddAPIKey terminates (violated on prefix collision)", "statement": "AddAPIKey returns for every state and draw whose 24-character prefix is unused; if the prefix is in use the call loops forever while holding the database lock.", "quantifier": "every reachable state, every random draw", "why_tests_cant": "Needs a 24-character collision; the loop never redraws.", "anchors": ["database.go:Database.AddAPIKey"]}
{"id": "C29", "title": "API key secrets have the documented shape and are not stored", "statement": "An issued secret consists of 72 to 95 letters and digits; the stored entry contains its 24-byte prefix and the bcrypt hash of the secret.", "quantifier": "every random draw", "why_tests_cant": "All random streams.", "anchors": ["random.go:GetRandomStringFromRange", "random.go:gen", "database.go:Database.AddAPIKey"]}
{"id": "C30", "title": "No duplicate public keys by type and fingerprint", "statement": "No account ever holds two public keys with the same type and fingerprint unless they were already in the loaded file.", "quantifier": "every history of API calls (any length, any requests, any clock readings, random draws and I/O outcomes) starting from a successful NewDatabase", "why_tests_cant": "Invariant over histories.", "anchors": ["user.go:User.AddPublicKey"]}
{"id": "C31", "title": "The same key is a duplicate in every encoding (violated)", "statement": "Adding the same RSA key once as PEM and once in OpenSSH form is not recognised as a duplicate because the two paths store different fingerprint strings.", "quantifier": "every RSA key", "why_tests_cant": "Tests add each key in one form.", "anchors": ["public_key.go:PublicKey.parsePublicKeyRSA", "public_key.go:PublicKey.parsePublicKeyOpenSSH"]}
{"id": "C32", "title": "GetPublicKeys and GetAPIKeys return exactly the enabled keys of the requested usage", "statement": "On a valid identity the returned bundle lists, in storage order, exactly the account's keys whose usage equals the requested one and which are not disabled, and its Size equals its length; GetMfaTokens returns exactly the non-disabled tokens.", "quantifier": "every reachable state, every usage string", "why_tests_cant": "Exact set equality over all stored lists.", "anchors": ["database.go:Database.GetPublicKeys", "database.go:Database.GetAPIKeys", "database.go:Database.GetMfaTokens"]}
{"id": "C33", "title": "Delete operations remove exactly the named item", "statement": "DeletePublicKey, DeleteAPIKey and DeleteMfaToken succeed exactly when the account holds an item with the given ID, remove all and only items with that ID, keep the order of the rest and increment the account revision once.", "quantifier": "every reachable state, every ID", "why_tests_cant": "All lists and IDs.", "anchors": ["user.go:User.DeletePublicKey", "user.go:User.DeleteAPIKey", "user.go:User.DeleteMfaToken"]}
{"id": "C34", "title": "Key usage matches the key material (violated)", "statement": "A stored key has usage ssh or gpg and non-empty payload; but an ssh-rsa or PGP payload is accepted under either usage.", "quantifier": "every request", "why_tests_cant": "Dispatch over all payload strings.", "anchors": ["public_key.go:PublicKey.parse"]}
{"id": "C35", "title": "TOTP codes are well formed", "statement": "For every secret, algorithm, time step and digit count from 1 to 9, the generated passcode is a string of exactly that many decimal digits whose value is the RFC 4226 dynamic truncation modulo 10^digits.", "quantifier": "every secret, HMAC output of at least 20 bytes, time step, digits 1..9", "why_tests_cant": "All HMAC outputs, including values that need zero padding and all 16 offsets.", "anchors": ["mfa_token.go:generateMfaCode"]}
{"id": "C36", "title": "TOTP acceptance window", "statement": "ValidateCodeWithTime accepts a passcode if and only if, after trimming, its length is the token's digit count (4 to 8) and it equals the RFC 6238 code for the time step before, at or after the given time.", "quantifier": "every token, passcode, non-negative time below 2^53 s and positive period", "why_tests_cant": "All times including step boundaries.", "anchors": ["mfa_token.go:MfaToken.ValidateCodeWithTime"]}
{"id": "C37", "title": "A correct code stays valid for a full period either side", "statement": "The code generated for the step of time t is accepted at every time t' with |t'-t| <= period, and a code for a step two or more periods away is accepted only if it coincides with a code of the window.", "quantifier": "all times t, t'", "why_tests_cant": "Boundary behaviour at all instants.", "anchors": ["mfa_token.go:MfaToken.ValidateCodeWithTime"]}
{"id": "C38", "title": "Stored MFA tokens have parameters within limits", "statement": "Every token created by NewMfaToken has type totp (algorithm sha1/sha256/sha512, period 30..300, digits 4..8) or u2f (non-empty id, key type ec2, algorithm es256, allowed transports).", "quantifier": "every request", "why_tests_cant": "All requests.", "anchors": ["mfa_token.go:NewMfaToken"]}
{"id": "C39", "title": "MFA secrets and comments are unique per account", "statement": "No two MFA tokens added to an account through the API share a secret or a comment.", "quantifier": "every history of API calls (any length, any requests, any clock readings, random draws and I/O outcomes) starting from a successful NewDatabase", "why_tests_cant": "Invariant over histories.", "anchors": ["user.go:User.AddMfaToken"]}
{"id": "C40", "title": "A passcode is accepted once (violated)", "statement": "Validation keeps no state, so the same passcode is accepted any number of times within its window.", "quantifier": "every token, code, time and repetition count", "why_tests_cant": "Absence of replay state is a statement about all repetitions.", "anchors": ["mfa_token.go:MfaToken.ValidateCode"]}
{"id": "C41", "title": "Registration checks the passcode one period in the past", "statement": "NewMfaToken accepts a totp passcode exactly for the steps T-2, T-1 and T of the current time, where T is the current step.", "quantifier": "every current time and period", "why_tests_cant": "All instants.", "anchors": ["mfa_token.go:NewMfaToken"]}
{"id": "C42", "title": "Floating point time-step computation is exact", "statement": "The float64 expression math.Floor(float64(unix)/float64(period)) equals the integer quotient for all 0 <= unix < 2^53 and 1 <= period < 2^53.", "quantifier": "all integers in range", "why_tests_cant": "2^53 times 2^53 inputs.", "anchors": ["mfa_token.go:MfaToken.ValidateCodeWithTime"]}
{"id": "C43", "title": "WebAuthn authentication is sound", "statement": "AuthenticateUser with an empty password and a WebAuthn message succeeds only if the account has an enabled u2f token with the message's key id such that the client data type is webauthn.get, crossOrigin is false, the challenge equals the request's challenge, the rpIdHash equals the registered one, the user-present bit is set, and the signature over authData followed by the SHA-256 of the client data verifies under the token's P-256 key.", "quantifier": "every database state and message, every signature oracle", "why_tests_cant": "All messages.", "anchors": ["user.go:User.VerifyWebAuthnRequest", "mfa_token.go:MfaToken.WebAuthnRequest"]}
{"id": "C44", "title": "A WebAuthn assertion cannot be replayed (violated)", "statement": "The signature counter is neither checked nor updated: a message that authenticated once authenticates again in the resulting state with the same challenge, any number of times.", "quantifier": "every accepted message", "why_tests_cant": "Statement about all repetitions.", "anchors": ["mfa_token.go:MfaToken.WebAuthnRequest"]}
{"id": "C45", "title": "Malformed registrations are rejected, not fatal (violated)", "statement": "NewMfaToken returns an error or a token for every u2f registration whose public key fields have the expected JSON types; it panics when key_type, algorithm or curve_type is not a number or a curve coordinate is not a string.", "quantifier": "every decoded registration message", "why_tests_cant": "All JSON values in those positions.", "anchors": ["mfa_token.go:NewMfaToken"]}
{"id": "C46", "title": "Authenticator data is decoded faithfully", "statement": "For every authenticator data of at least 37 bytes the decoded rpIdHash is the lowercase hex of bytes 0..31, each named flag equals its bit of byte 32, and the counter is the big-endian value of bytes 33..36; shorter inputs are rejected.", "quantifier": "every byte string", "why_tests_cant": "All byte strings.", "anchors": ["mfa_token.go:unpackAuthData"]}
{"id": "C47", "title": "Only full-size curve coordinates make a key", "statement": "A u2f token yields a verification key only if both coordinates are base64 of exactly 32 bytes and the algorithm is es256; the key's coordinates are their big-endian values.", "quantifier": "every parameter map", "why_tests_cant": "All parameter maps.", "anchors": ["mfa_token.go:MfaToken.derivePublicKey"]}
{"id": "C48", "title": "IdentifyUser reports the account or nobody", "statement": "IdentifyUser never fails; for an unknown name it reports nobody / nobody@localhost with the password challenge, otherwise the account's username, first address, name and roles.", "quantifier": "every state and request", "why_tests_cant": "All states.", "anchors": ["database.go:Database.IdentifyUser"]}
{"id": "C49", "title": "The mfa challenge is issued exactly when a usable token exists (violated by disabled tokens)", "statement": "IdentifyUser lists the mfa challenge exactly when the account has any MFA token, even if all are disabled, whereas the MfaConfigured flag is raised exactly when an enabled token exists; so the two can disagree.", "quantifier": "every token list", "why_tests_cant": "All token lists.", "anchors": ["user.go:User.GetChallenges", "user.go:User.GetFlags"]}
{"id": "C50", "title": "The database file round-trips", "statement": "For every database whose strings are valid UTF-8 and whose times are within years 0..9999, decoding the JSON text written by commit yields the same accounts, policy, revision and times (unexported caches excepted).", "quantifier": "every such database value", "why_tests_cant": "All database values; escaping, indentation, omitted fields, nested arrays.", "anchors": ["database.go:Database.commit", "database.go:NewDatabase", "user.go:User"]}
{"id": "C51", "title": "Acknowledged changes survive a restart", "statement": "After any history in which the last mutating call returned success, opening the same path again succeeds and yields the same accounts, policy and revision, and every later sequence of calls gets the same answers as it would have without the restart, provided drawn UUIDs and key IDs were unused and all texts are valid UTF-8 (other texts come back with each undecodable byte replaced by U+FFFD). With repeated UUIDs the acknowledged file can no longer be opened.", "quantifier": "every history of API calls (any length, any requests, any clock readings, random draws and I/O outcomes) starting from a successful NewDatabase, paths not beginning with '~'", "why_tests_cant": "All histories followed by a restart.", "anchors": ["database.go:NewDatabase", "database.go:Database.commit"]}
{"id": "C52", "title": "A crash during a write leaves the old or the new database (violated)", "statement": "The file is truncated and rewritten in place; a crash during commit can leave a file that no longer opens, losing all accounts.", "quantifier": "every crash point of every commit", "why_tests_cant": "Needs a crash between two system calls.", "anchors": ["database.go:Database.commit"]}
{"id": "C53", "title": "A torn write is always detected", "statement": "Opening a database whose file holds any proper prefix of a committed file fails with an error; a partial set of accounts is never loaded.", "quantifier": "every database value and every prefix length", "why_tests_cant": "All crash points.", "anchors": ["database.go:NewDatabase", "database.go:Database.commit"]}
{"id": "C54", "title": "A call that reports an error has no effect (violated on write failure)", "statement": "When the file write fails, AddUser (and every mutating call) returns an error although the change stays in memory and is visible to later calls.", "quantifier": "every reachable state and failing write", "why_tests_cant": "I/O failure injection at every call.", "anchors": ["database.go:Database.AddUser", "database.go:Database.commit"]}
{"id": "C55", "title": "Revision counts commits", "statement": "Every call that reaches the commit increments the database revision by one modulo 2^64 and stamps the current time; every other call leaves both unchanged.", "quantifier": "every history of API calls (any length, any requests, any clock readings, random draws and I/O outcomes) starting from a successful NewDatabase", "why_tests_cant": "All histories.", "anchors": ["database.go:Database.commit"]}
{"id": "C56", "title": "Copy leaves the primary file and path alone", "statement": "Copy(fp) with fp different from the database path writes the current accounts to fp, leaves every other file untouched and leaves the database bound to its own path, whether or not the write succeeds.", "quantifier": "every state, path and I/O outcome", "why_tests_cant": "All paths and failures.", "anchors": ["database.go:Database.Copy"]}
{"id": "C57", "title": "A database is opened only if it is consistent", "statement": "For every file content, NewDatabase succeeds only if all accounts are valid and usernames, IDs, email addresses and API key prefixes are unique; then all lookup indexes are exact.", "quantifier": "every decoded file content", "why_tests_cant": "All file contents.", "anchors": ["database.go:NewDatabase"]}
{"id": "C58", "title": "Opening never crashes (violated by null entries)", "statement": "NewDatabase returns a database or an error for every file without JSON null inside the users, email_addresses, passwords or api_keys arrays; a null entry makes it panic.", "quantifier": "every decoded file content", "why_tests_cant": "All file contents.", "anchors": ["database.go:NewDatabase", "user.go:User.Valid"]}
{"id": "C59", "title": "The same path always names the same database (violated for '~')", "statement": "NewDatabase checks and writes the literal path but reads the home-expanded one; a database created at a path beginning with '~' is not read back by the next open.", "quantifier": "every path", "why_tests_cant": "All paths.", "anchors": ["database.go:NewDatabase", "internal/utils/file.go:expandHomePath"]}
{"id": "C60", "title": "Concurrent calls are linearizable", "statement": "Every concurrent execution of API calls gives each call the result, and the database the final state, of some sequential execution of the same calls that respects real-time order.", "quantifier": "every number of goroutines, every schedule", "why_tests_cant": "All interleavings.", "anchors": ["database.go:Database.mu"]}
{"id": "C61", "title": "Readers never observe a partially applied change", "statement": "While a read-locked call runs, the accounts, indexes and file do not change.", "quantifier": "every schedule and every point of it", "why_tests_cant": "All interleavings.", "anchors": ["database.go:Database.mu"]}
{"id": "C62", "title": "Calls under the read lock do not write shared memory (violated)", "statement": "AuthenticateUser holds only the read lock but fills the public key cache of the u2f token, so two concurrent WebAuthn logins can write the same field.", "quantifier": "every schedule", "why_tests_cant": "Data races depend on the schedule.", "anchors": ["database.go:Database.AuthenticateUser", "mfa_token.go:MfaToken.derivePublicKey"]}
{"id": "C63", "title": "Role parsing and printing", "statement": "For every non-blank string the printed form of the parsed role is the trimmed string, unless it starts with '/', in which case exactly that slash is lost; organization is the part before the first slash.", "quantifier": "every string", "why_tests_cant": "All strings.", "anchors": ["role.go:NewRole", "role.go:Role.String"]}
{"id": "C64", "title": "Role sets", "statement": "AddRole is idempotent, keeps roles pairwise different and HasRole(s) holds afterwards for exactly the old roles and the new one.", "quantifier": "every role list and string", "why_tests_cant": "All lists and strings.", "anchors": ["user.go:User.AddRole", "user.go:User.HasRole", "user.go:User.AddRoles"]}
{"id": "C65", "title": "Names parse in both orders", "statement": "ParseName maps 'First Last' and 'Last, First' to the same name for all comma-free, space-free parts, and parsing the printed full name gives the name back for every name obtained from a 'Last,First' input with a non-empty first part.", "quantifier": "every string", "why_tests_cant": "All strings.", "anchors": ["name.go:ParseName", "name.go:Name.GetFullName"]}
{"id": "C66", "title": "Email grammar", "statement": "NewEmailAddress accepts exactly: a non-empty local part over the documented characters, one '@', and one or more dot-separated labels of 1 to 63 letters, digits or inner hyphens; the stored domain is the part after '@'.", "quantifier": "every string", "why_tests_cant": "Regex equivalence over all strings.", "anchors": ["email.go:NewEmailAddress"]}
{"id": "C67", "title": "Random strings have the requested length and alphabet", "statement": "GetRandomString(n) has length n (40 for n<1); GetRandomStringFromRange(a,b) has a length in [min,max) for a<>b; all characters are in the alphabet.", "quantifier": "every n, a, b and random stream", "why_tests_cant": "All streams.", "anchors": ["random.go", "uuid.go:NewRandomString"]}
{"id": "C68", "title": "Generated user IDs are canonical version 4 UUIDs", "statement": "Every ID is 36 characters, 8-4-4-4-12 lowercase hex with version nibble 4 and variant bits 10, and lower-casing it leaves it unchanged.", "quantifier": "every 16 random bytes", "why_tests_cant": "2^128 inputs.", "anchors": ["uuid.go:NewID"]}
{"id": "C69", "title": "QR enrolment URIs encode the token faithfully", "statement": "For every valid code, the URI built can be parsed back to the same type, label, issuer, secret, algorithm, digits, counter and period, and no character of label, issuer or secret can introduce another URI parameter; GetEncoded is the base64 of the URI.", "quantifier": "every code", "why_tests_cant": "All labels and issuers, including reserved characters.", "anchors": ["pkg/qr/qr.go:Code.Build"]}
{"id": "C70", "title": "QR parameter validation", "statement": "Build succeeds exactly when the label is set, the secret has at least 6 bytes, digits are 0 or 4..8, period is 0 or 30..180, type is totp or hotp with positive counter, and the algorithm (lowercased) is empty, sha1, sha256 or sha512; zero digits and period become 6 and 30.", "quantifier": "every code", "why_tests_cant": "All codes.", "anchors": ["pkg/qr/qr.go:Code.validate"]}
{"id": "C71", "title": "Bundles report their true size", "statement": "For every sequence of Add calls, Size equals the number of elements returned by Get, which are the added elements in order.", "quantifier": "every sequence of Add calls on each of the four bundle types", "why_tests_cant": "All sequences.", "anchors": ["user.go:UserMetadataBundle", "public_key.go:PublicKeyBundle", "api_key.go:APIKeyBundle", "mfa_token.go:MfaTokenBundle"]}
{"id": "C72", "title": "Errors keep their identity", "statement": "WithArgs returns nil exactly when an argument is nil and none is an error; otherwise the result matches (errors.Is) exactly the standard error it was made from, whatever its arguments.", "quantifier": "every argument list", "why_tests_cant": "All argument lists.", "anchors": ["pkg/errors/errors.go"]}
{"id": "C73", "title": "User metadata covers every account", "statement": "GetUsers on a valid identity returns one metadata record per account in order, with the account's id, username, title, times, revision, primary name and email.", "quantifier": "every reachable state", "why_tests_cant": "All states.", "anchors": ["database.go:Database.GetUsers", "user.go:User.GetMetadata"]}
{"id": "C74", "title": "Credit card associations", "statement": "AddAssociation accepts exactly the five supported names (aliases are ignored) and leaves the card unchanged on error; AddIssuer accepts nothing while the issuer table is empty.", "quantifier": "every string", "why_tests_cant": "All strings.", "anchors": ["credit_card.go", "credit_card_association.go"]}
{"id": "C75", "title": "Account revisions count modifications", "statement": "Each successful key, token or password operation increments the account's revision by exactly one and stamps its modification time.", "quantifier": "every history of API calls (any length, any requests, any clock readings, random draws and I/O outcomes) starting from a successful NewDatabase", "why_tests_cant": "All histories.", "anchors": ["user.go:User.Revise"]}
{"id": "C76", "title": "A restart preserves stored secrets (violated for texts that are not UTF-8)", "statement": "Every text stored by an acknowledged call is the same after a restart. Violated: encoding/json replaces undecodable bytes by U+FFFD, so a TOTP token accepted with a secret that is not UTF-8 refuses its own codes after a restart.", "quantifier": "every history of API calls (any length, any requests, any clock readings, random draws and I/O outcomes) starting from a successful NewDatabase, every stored text", "why_tests_cant": "All byte strings; the loss shows only after a restart.", "anchors": ["database.go:Database.commit", "database.go:NewDatabase", "mfa_token.go:NewMfaToken"]}
{"id": "C77", "title": "Calls in flight can always return (violated by a hanging AddAPIKey)", "statement": "No schedule deadlocks: while every call comes back on its own, every call in flight can return. Violated: an AddAPIKey that finds no unused prefix never returns and keeps the exclusive lock, so no call that waits for it ever starts.", "quantifier": "every number of goroutines, every schedule", "why_tests_cant": "All interleavings.", "anchors": ["database.go:Database.mu", "database.go:Database.AddAPIKey"]}
{"id": "C78", "title": "Direct calls on an account change only what they are about", "statement": "Each method of an account (AddPassword, AddEmailAddress, AddName, AddRole, AddRoles, AddPublicKey, AddAPIKey, AddMfaToken, the deletes, Disable of an item, Revise, VerifyWebAuthnRequest) leaves every field other than its own part, the revision and the modification time unchanged; a counted call that changes something adds exactly one to the revision; a failed call changes nothing, except AddRoles, which keeps the roles before the bad one. Not every change is counted: the first name and Disable are not.", "quantifier": "every account, every method, every argument", "why_tests_cant": "All accounts and arguments.", "anchors": ["user.go:User", "password.go:Password.Disable", "api_key.go:APIKey.Disable", "public_key.go:PublicKey.Disable", "mfa_token.go:MfaToken.Disable"]}
{"id": "C79", "title": "GetUser hands out the live account (so the password policy can be bypassed)", "statement": "GetUser returns the stored account itself: a password set through it is accepted by the next AuthenticateUser, replaces all others, and is not checked against the password policy.", "quantifier": "every history of API calls (any length, any requests, any clock readings, random draws and I/O outcomes) starting from a successful NewDatabase, mixed with direct calls on accounts", "why_tests_cant": "All histories and passwords.", "anchors": ["database.go:Database.GetUser", "user.go:User.AddPassword"]}
{"id": "C80", "title": "Direct calls keep the lookup indexes exact (violated by AddEmailAddress and AddAPIKey)", "statement": "In every history that mixes API calls with direct calls other than AddEmailAddress and AddAPIKey, lookups stay exact, names and addresses stay unique, and the changes survive the next write and a restart. Violated otherwise: an address or key added directly is unknown to the open database, and an address taken from another account makes the saved file impossible to open.", "quantifier": "every history of API calls (any length, any requests, any clock readings, random draws and I/O outcomes) starting from a successful NewDatabase, mixed with direct calls on accounts", "why_tests_cant": "All mixed histories; the damage shows only at the next start.", "anchors": ["user.go:User.AddEmailAddress", "user.go:User.AddAPIKey", "database.go:NewDatabase"]}
{"id": "C81", "title": "AddEmailAddress on an account", "statement": "It accepts exactly the addresses of the grammar, adds each address once (byte for byte), makes the first one primary and is idempotent.", "quantifier": "every account and string", "why_tests_cant": "All strings.", "anchors": ["user.go:User.AddEmailAddress"]}
{"id": "C82", "title": "AddName on an account", "statement": "A name that renders like one the account already has is not added again; the first name becomes the primary one; later names are appended.", "quantifier": "every account and name", "why_tests_cant": "All names.", "anchors": ["user.go:User.AddName"]}
{"id": "C83", "title": "AddRoles on an account", "statement": "It adds, in order and without repetition, the new roles among those before the first blank one, reports an error exactly when there is a blank one, and never creates duplicates.", "quantifier": "every account and list of strings", "why_tests_cant": "All lists.", "anchors": ["user.go:User.AddRoles", "user.go:User.AddRole"]}
{"id": "C84", "title": "Disabling one item affects only that item", "statement": "Disable marks exactly one password, key or token; a disabled password no longer logs in while others do; a disabled token takes no part in a WebAuthn login. A disabled API key keeps working and a disabled token still validates codes.", "quantifier": "every account and item", "why_tests_cant": "All accounts.", "anchors": ["password.go:Password.Disable", "api_key.go:APIKey.Disable", "public_key.go:PublicKey.Disable", "mfa_token.go:MfaToken.Disable"]}
{"id": "C85", "title": "NewPasswordWithOptions", "statement": "It succeeds exactly for a non-blank password, the algorithm bcrypt and an integer cost the hash function accepts; a cost below 8 becomes 10; a cost that is not an integer panics; everything else is the documented error.", "quantifier": "every argument", "why_tests_cant": "All arguments.", "anchors": ["password.go:NewPasswordWithOptions"]}
{"id": "C86", "title": "Accounts stay valid", "statement": "Valid() holds exactly for accounts with a 36 character ID, a username and a password, and it holds for every account of every history, including direct calls other than AddEmailAddress and AddAPIKey.", "quantifier": "every history of API calls (any length, any requests, any clock readings, random draws and I/O outcomes) starting from a successful NewDatabase, mixed with direct calls on accounts", "why_tests_cant": "All histories.", "anchors": ["user.go:User.Valid"]}
{"id": "C87", "title": "The published username policy means what it says and is accepted", "statement": "Read as a pattern, GetUsernamePolicyRegex matches exactly the names that start with an allowed letter, contain only allowed characters and have a length within the limits; GetUsernamePolicySummary states the same limits and restrictions; a registration whose name and password match the published patterns, with nothing else wrong, succeeds.", "quantifier": "every policy with 1 <= min <= max, every name; every history of API calls (any length, any requests, any clock readings, random draws and I/O outcomes) starting from a successful NewDatabase", "why_tests_cant": "All policies and all names.", "anchors": ["database.go:Database.GetUsernamePolicyRegex", "database.go:Database.GetUsernamePolicySummary"]}
{"id": "C88", "title": "The published password policy means what it says and is enforced (violated: only the length is enforced)", "statement": "Read as a pattern, GetPasswordPolicyRegex matches exactly the passwords with a length within the limits that contain the required kinds of characters; GetPasswordPolicySummary states the same. Violated: registration and password change accept passwords that lack every required kind of character.", "quantifier": "every policy with 0 <= min <= max, every password; every history of API calls (any length, any requests, any clock readings, random draws and I/O outcomes) starting from a successful NewDatabase", "why_tests_cant": "All policies and all passwords.", "anchors": ["database.go:Database.GetPasswordPolicyRegex", "database.go:Database.GetPasswordPolicySummary", "database.go:Database.checkPasswordPolicyCompliance"]}
{"id": "C89", "title": "Every error reads as a finished sentence (violated by failed WebAuthn logins)", "statement": "The text of every error returned by an API call, by opening a database and by a direct call on an account is its template with each placeholder replaced by exactly one argument of the right kind, nothing missing and nothing surplus, also inside wrapped errors. Violated for one error: a failed WebAuthn login returns a template whose %v was never filled.", "quantifier": "every call, environment, database, file system and request", "why_tests_cant": "All error paths with all arguments.", "anchors": ["pkg/errors/errors.go:StandardError.WithArgs", "pkg/errors/errors.go:enhancedError.Error", "user.go:User.VerifyWebAuthnRequest"]}
{"id": "C90", "title": "Errors do not disclose secrets", "statement": "For a given operation, file name and disclosed part of the request (everything except passwords, one-time codes, app secrets, API keys and WebAuthn messages) there are at most 18 possible errors, whatever secrets the request carries and whatever the database holds: the error never depends on a secret beyond the choice among these.", "quantifier": "every operation, request, database, file system and random choice", "why_tests_cant": "A statement over all pairs of requests that differ in their secrets.", "anchors": ["database.go", "user.go", "mfa_token.go", "public_key.go", "api_key.go", "password.go"]}
{"id": "C91", "title": "A failed login does not tell whether the account exists (violated)", "statement": "AuthenticateUser hashes the password of unknown users so that timing hides them. Violated by the error: it is 'user not found' exactly when no account matches the login, so two wrong logins with the same password are told apart.", "quantifier": "every history of API calls (any length, any requests, any clock readings, random draws and I/O outcomes) starting from a successful NewDatabase, every login request", "why_tests_cant": "All databases and requests.", "anchors": ["database.go:Database.AuthenticateUser"]}
{"id": "C92", "title": "Only AddMfaToken can panic and only AddAPIKey can fail to return", "statement": "Every other call returns nil or an error; calls that only read do so whatever happens to the disk and never touch it; a call dies only together with the write it performs. This is for databases without nil pointers in their lists; C120 treats the others.", "quantifier": "every call, environment, database, file system and request", "why_tests_cant": "All inputs, including malformed ones.", "anchors": ["database.go"]}
{"id": "C93", "title": "The database file has the documented layout", "statement": "What is written is JSON with exactly the members named by the struct tags, each holding its own field, empty texts, zeros, false flags, empty lists and absent objects left out, maps in ascending order of their keys; every time is the calendar date and the time of day of the stored instant in UTC with the trailing zeros of the fraction removed. Every successful call that writes leaves such a file for the accounts in memory.", "quantifier": "every database content whose times lie in years 0 to 9999; every call, environment, file system and request", "why_tests_cant": "All contents and all instants; a round trip test cannot see two members that are swapped both when writing and when reading.", "anchors": ["database.go:Database.commit", "user.go:User", "password.go:Password", "api_key.go:APIKey", "mfa_token.go:MfaToken", "public_key.go:PublicKey"]}
{"id": "C94", "title": "WebAuthn messages mean what their JSON says", "statement": "A registration, an assertion and a client data text are accepted with given contents exactly when they are JSON objects (or null) whose members, matched to the fields by name ignoring case, have the right types, and each field holds what its members say: the last one counts, null leaves texts and flags alone and clears objects, maps and lists, and repeated objects are merged. A text has at most one meaning.", "quantifier": "every byte string", "why_tests_cant": "All byte strings.", "anchors": ["webauthn.go:WebAuthnRegisterRequest", "webauthn.go:WebAuthnAuthenticateRequest", "webauthn.go:ClientData", "webauthn.go:unpackWebAuthnRequest", "mfa_token.go:NewMfaToken", "mfa_token.go:MfaToken.WebAuthnRequest"]}
{"id": "C95", "title": "No WebAuthn message can bring data into the database that a restart loses", "statement": "Whatever bytes a registration message holds, its counter fits 32 bits and all its texts and flag names are UTF-8, so the assumption of the theorems on restarts holds of the program with its real decoders: acknowledged changes survive, also with direct calls on accounts in between.", "quantifier": "every history of API calls (any length, any requests, any clock readings, random draws and I/O outcomes) starting from a successful NewDatabase, every byte string as message", "why_tests_cant": "All byte strings and histories.", "anchors": ["mfa_token.go:NewMfaToken", "webauthn.go", "database.go:Database.commit", "database.go:NewDatabase"]}
{"id": "C96", "title": "A WebAuthn login proves a fresh assertion for this site (violated: the origin is never checked)", "statement": "A WebAuthn login succeeds only if the signed client data is a JSON object of type webauthn.get that carries the challenge of the request and is not cross-origin. Violated: the origin plays no part, an assertion for another site than that of the registration is accepted; and at registration challenge, origin and type of the client data are not looked at.", "quantifier": "every history of API calls (any length, any requests, any clock readings, random draws and I/O outcomes) starting from a successful NewDatabase, every request and every byte string as message", "why_tests_cant": "All messages; tests use messages of one site.", "anchors": ["mfa_token.go:MfaToken.WebAuthnRequest", "mfa_token.go:NewMfaToken", "user.go:User.VerifyWebAuthnRequest", "webauthn.go:ClientData"]}
{"id": "C97", "title": "Numbers in WebAuthn messages are read as the nearest float64", "statement": "Every number of a parsed message is a decimal literal; it is read as the float64 nearest to its exact value, ties to even; the message is refused exactly when that overflows, and key type, algorithm and curve are compared with the exact integer value of that float64. Integers up to 2^53 in size are read exactly.", "quantifier": "every byte string; every decimal literal with any number of digits and any exponent", "why_tests_cant": "Infinitely many literals; rounding errors show on rare ones.", "anchors": ["mfa_token.go:NewMfaToken", "webauthn.go:CredentialData"]}
{"id": "C98", "title": "The struct tag check accepts exactly the compliant structs and its suggestions repair the others", "statement": "GetTagCompliance passes a struct exactly when the check is disabled or every exported field has, for each of json, xml and yaml up to the first tag \"-\", the tag derived from its name; otherwise its messages are exactly the complaints, one per field and tag, and a struct that follows the suggested declaration gets no complaint. Other kinds are refused; nil and types without element type panic. Violated in one point: a field with a lower-case non-ASCII name counts as exported.", "quantifier": "every struct (any number of fields, any names, types and tags), every combination of options, every snake-case function", "why_tests_cant": "Tests check the structs of the repository, which all comply.", "anchors": ["internal/tag/tag.go:GetTagCompliance", "internal/tag/tag.go:convertFieldToTag", "internal/tag/tag.go:makeTags"]}
{"id": "C99", "title": "A registration stores exactly what was attested", "statement": "NewMfaToken makes a token from a WebAuthn registration exactly when the message is complete, names a public key credential with known transports and attests an ES256 key; every field of the token is then determined by message, request, clock and random draws: site hash, credential, transports, flags, counter, curve and coordinates are the attested ones, and nothing else is stored. The key of later assertions is the attested one. Violated wish: coordinates are not checked, a registration without a usable key is accepted and no login with it can ever succeed.", "quantifier": "every history of API calls (any length, any requests, any clock readings, random draws and I/O outcomes) starting from a successful NewDatabase, every request and every registration message", "why_tests_cant": "All messages and keys; tests register one recorded message.", "anchors": ["mfa_token.go:NewMfaToken", "mfa_token.go:MfaToken.derivePublicKey", "database.go:Database.AddMfaToken"]}
{"id": "C100", "title": "An answer about one account depends on nothing but that account", "statement": "In two databases that hold the same account, among any other accounts, in any order and opened from any files, every call about that account gets the same result, writes the same into the request and leaves the account in the same state; for calls that change it the policies have to agree and the files have to be writable. A login name nobody has is answered alike in both, and an API key is judged by its owner's account alone.", "quantifier": "every pair of reachable databases, every account they share, every call about one account, every request", "why_tests_cant": "Relates two arbitrary databases; tests compare no databases.", "anchors": ["database.go:Database.AuthenticateUser", "database.go:Database.IdentifyUser", "database.go:Database.LookupAPIKey", "database.go:Database.AddAPIKey", "database.go:Database.ChangeUserPassword"]}
{"id": "C101", "title": "Disabled, locked or unconfirmed accounts cannot be used (violated: the status is never checked or set)", "statement": "Violated: accounts that differ only in enabled, lockout, confirmation of addresses, title, organisations, public keys or times are answered the same at login, identification and API key lookup, so a file that disables and locks an account does not keep it from logging in. No sequence of calls changes the status: new accounts are disabled, not locked and unconfirmed for ever. Any number of login attempts leaves the answer to the next password unchanged.", "quantifier": "every pair of reachable databases and accounts; every history of calls; every sequence of attempts", "why_tests_cant": "All histories; the absence of an effect.", "anchors": ["user.go:User", "lockout.go:LockoutState", "database.go:Database.AuthenticateUser", "database.go:Database.IdentifyUser", "database.go:Database.LookupAPIKey"]}
{"id": "C102", "title": "Passwords and API keys reach memory and file only as hashes (one-time-password secrets are stored in clear)", "statement": "With another password of the same bcrypt hash AddUser and ChangePassword leave the same memory and file and return the same; at login a password is only compared with the stored hashes; of a generated API key nothing is kept but its first 24 characters and its hash. The corresponding wish for one-time-password secrets is false: they stand in the file as they are.", "quantifier": "every state, every request and every pair of passwords or drawn keys with the same hash", "why_tests_cant": "Relates two executions (non-interference); a test sees one.", "anchors": ["database.go:Database.AddUser", "database.go:Database.ChangeUserPassword", "database.go:Database.AddAPIKey", "password.go:Password.hash", "mfa_token.go:NewMfaToken"]}
{"id": "C103", "title": "Calls about different accounts commute", "statement": "Two calls that change items or passwords of different accounts lead to the same accounts and indexes in either order, and if the file can be written each caller gets the same answer and the revision is the same; a reading call about one account is answered the same before and after a change of another. For two calls about the same account this is false.", "quantifier": "every reachable database, every two such calls, requests, draws and write outcomes", "why_tests_cant": "Compares two interleavings over all states; a test runs one.", "anchors": ["database.go:Database.ChangeUserPassword", "database.go:Database.AddPublicKey", "database.go:Database.AddAPIKey", "database.go:Database.AddMfaToken", "database.go:Database.validateUserIdentity"]}
{"id": "C104", "title": "The times in a database are in order as long as the clock does not go back", "statement": "If no call's clock is behind the last change of the database, then in every account: created <= last modified <= last change of the database; every password, public key, API key and MFA token was made between the creation and the last change of its account, and is disabled, if at all, not before it was made; passwords are newest first, the other items oldest first; accounts are in order of creation. Saving and reopening keeps this. With a clock that goes back it is false.", "quantifier": "every history of calls on a database created at a path without a file, with clocks not behind the last change", "why_tests_cant": "Quantifies over all histories; the tests look at no stored time.", "anchors": ["user.go:User.AddPassword", "user.go:User.AddPublicKey", "user.go:User.AddAPIKey", "user.go:User.AddMfaToken", "password.go:Password.Disable", "database.go:Database.commit"]}
{"id": "C105", "title": "Deleting what was just added restores the account", "statement": "If a public key, an API key or an MFA token was added to an account under an ID that no other item of the account has, deleting that ID right afterwards leaves the account with exactly the fields it had before the addition, apart from its revision and last-modified time, and every other account as it was; the deletion fails only if the file cannot be written. IDs are drawn at random and not checked: if the drawn ID was in use, the deletion takes the older item with it.", "quantifier": "every reachable database, every account, every accepted addition and every later clock and disk behaviour", "why_tests_cant": "Composes two calls over all states and all random draws; the tests delete by hand-picked IDs and do not compare whole accounts.", "anchors": ["user.go:User.AddPublicKey", "user.go:User.DeletePublicKey", "user.go:User.AddAPIKey", "user.go:User.DeleteAPIKey", "user.go:User.AddMfaToken", "user.go:User.DeleteMfaToken", "database.go:Database.DeletePublicKey"]}
{"id": "C106", "title": "What is read from a database file depends only on what it says", "statement": "Reading a file does not depend on the order of the members of its objects, on members with unknown names, or on texts, numbers and flags that are given again right afterwards, at any depth: files that differ only in this open as the same database. A time in UTC (ending in Z, as the package writes it) is accepted exactly if it is a calendar date and a time of day, and is read as that instant; times with another zone offset are outside the model. That the last of two objects for one member wins is false: they are merged. What the package writes is nested at most six levels, far from the reader's limit of 10000.", "quantifier": "every two texts and every sequence of such changes at any place; every member of time type", "why_tests_cant": "All texts and all edits of them; the tests read files the package has written itself.", "anchors": ["database.go:NewDatabase", "database.go:Database", "user.go:User"]}
{"id": "C107", "title": "What a database file means", "statement": "A text is read as a database exactly if every member has the type of the field whose name it spells (ignoring case, with the two Unicode letters that fold to ASCII), and each field gets exactly the value its members state: texts and flags as written, whole numbers in the range of their Go type, dates on the calendar, null as zero, later members over earlier ones, objects merged. Every text has at most one meaning; an opened database has exactly the accounts its file means, and every file that means a consistent set of accounts opens. Outside the model, and without meaning here: times not in the UTC form the package writes, null for an element of a list of objects, and a second list for a field that already has elements.", "quantifier": "every text, every content, every field of every persisted type", "why_tests_cant": "Equivalence over all texts; tests read one file written by the package itself.", "anchors": ["database.go:NewDatabase", "database.go:Database", "user.go:User", "mfa_token.go:MfaToken", "public_key.go:PublicKey", "api_key.go:APIKey"]}
{"id": "C108", "title": "Changes made through two databases open on one file are both kept (violated: the last writer wins)", "statement": "Several databases may be open on the same file, in one process or several. Each behaves as if it were alone: whatever the others do, its memory and its answers depend only on what it read when it was opened and on its own calls. The file always holds what its last successful writer had in memory, so nothing is lost as long as only one of them makes changes. That an acknowledged change is kept is false when two do: both AddUser calls succeed, with the same revision number, and the first account is gone when the file is opened again.", "quantifier": "every number of open databases, every interleaving of their calls, openings, ends of processes and outside edits, every file system", "why_tests_cant": "All interleavings of all calls; the tests open one database at a time.", "anchors": ["database.go:NewDatabase", "database.go:Database.commit", "database.go:Database"]}
{"id": "C109", "title": "The lookup indexes are determined by the accounts", "statement": "An open database is its accounts, its settings and its path: its four lookup maps are at all times exactly those a rebuild from the list of accounts would give, so two open databases with the same accounts are in the same state, and a restart after an acknowledged change restores the whole state (but for cached keys). This needs the drawn IDs to be fresh; without that it is false (the entry of a deleted API key can stay behind).", "quantifier": "every reachable state with fresh draws; every database just opened from any file", "why_tests_cant": "Equality of whole states over all histories; tests look up a few names.", "anchors": ["database.go:NewDatabase", "database.go:Database.AddUser", "database.go:Database.AddAPIKey", "database.go:Database.DeleteAPIKey"]}
{"id": "C110", "title": "Answers do not disclose stored secrets (violated by GetMfaTokens, GetAPIKeys and GetUser)", "statement": "Take two databases that differ only in stored secrets (password hashes, API key hashes, token secrets). Every call that neither hands out stored items nor compares a given secret is answered alike by both and keeps them alike, so any sequence of such calls is answered as if all secrets had been erased. The calls that compare (AuthenticateUser, ChangeUserPassword, LookupAPIKey, AddMfaToken) are answered alike whenever the comparisons come out alike: they disclose that outcome and nothing else. The other three calls do disclose: GetMfaTokens returns one-time-password secrets in clear, GetAPIKeys the key hashes, and GetUser the account with its password hashes.", "quantifier": "every two databases that differ only in secrets, every pair of file systems with the same files, every call, every random draw and disk behaviour, every sequence of calls", "why_tests_cant": "A relation between two runs (noninterference); tests observe one run at a time.", "anchors": ["database.go:Database", "user.go:User.GetMetadata", "user.go:User.GetFlags", "database.go:Database.GetMfaTokens", "database.go:Database.GetAPIKeys", "database.go:Database.GetUser"]}
{"id": "C111", "title": "Generated identifiers keep all the randomness they are made from", "statement": "Two draws of random bytes give the same user ID exactly if they agree in all 122 bits a version 4 UUID leaves free, and every canonical version 4 UUID is a possible ID. Two draws give the same random string (IDs of items, API key secrets) exactly if every character was drawn alike and, for strings of random length, the length was.", "quantifier": "every two sequences of random draws, every length and range", "why_tests_cant": "An equivalence over all pairs of random sequences; tests generate a few strings.", "anchors": ["uuid.go:NewID", "random.go:GetRandomString", "random.go:GetRandomStringFromRange", "random.go:gen", "uuid.go:NewRandomString"]}
{"id": "C112", "title": "At any time at least one and at most three of the possible passcodes are accepted", "statement": "A one-time-password token with d digits accepts, at any instant, at least one and at most three of the 10^d strings of d decimal digits, and nothing else apart from surrounding white space.", "quantifier": "every token with parameters within the limits, every instant, every keyed hash with 20 bytes or more of output", "why_tests_cant": "Counts over all passcodes and all instants; tests validate a handful of codes.", "anchors": ["mfa_token.go:MfaToken.ValidateCodeWithTime", "mfa_token.go:generateMfaCode"]}
{"id": "C113", "title": "Database files and messages are read as JSON says", "statement": "A text is read as a value exactly if it is one JSON text (RFC 8259: white space, literals, numbers, strings with their escapes and surrogate pairs, arrays, objects) with at most 10000 levels of arrays and objects, and the value is the one the text says; bytes that are not UTF-8 and surrogates without partner are read as U+FFFD. Hence a text says at most one thing, everything a successful call writes is a JSON text, a text of an object that was cut short is refused, and a database file is accepted exactly if it is the text of an object (or null) whose members mean the database. A text is refused as a time exactly if it is neither a time in UTC nor one of the listed forms on which versions of Go differ or that keep a zone offset.", "quantifier": "For all texts and all values; for all calls that write.", "why_tests_cant": "The grammar has infinitely many texts and near misses (leading zeros, trailing commas, split surrogates, truncated sequences, deep nesting); a test tries a few.", "anchors": ["database.go:140-146", "database.go:455-467", "mfa_token.go:159", "mfa_token.go:325", "mfa_token.go:343", "webauthn.go:112"]}
{"id": "C114", "title": "One-time passwords are those of RFC 6238, and an account holds no two tokens with one key (the second is violated)", "statement": "With SHA-1, SHA-256, SHA-512 (FIPS 180-4) and HMAC (RFC 2104) as the standards define them, every secret has exactly one code per counter, the dynamic truncation of RFC 4226, and the arithmetic never leaves the digest. Two secrets that are one HMAC key (zeros at the end; a secret longer than a block and its digest) give the same codes always; among secrets that fit in a block, only zeros at the end make two of them one key. AddMfaToken compares texts and not keys, so it is false that an account holds no two tokens with one key: one account can hold two tokens with different secrets that accept the same passcodes at every time.", "quantifier": "every secret, algorithm, number of digits, counter, passcode and time; the witness is a reachable database", "why_tests_cant": "All secrets of all lengths; tests try two secrets.", "anchors": ["mfa_token.go:generateMfaCode", "mfa_token.go:MfaToken.ValidateCodeWithTime", "user.go:User.AddMfaToken"]}
{"id": "C115", "title": "An assertion is refused for the first check it fails, and accepted only if it passes all", "statement": "MfaToken.WebAuthnRequest makes 29 checks: four of the token, eight of its public key (unless the key is known already), seventeen of the message. It accepts exactly the messages for which all of them hold, and then returns the client data of the message; otherwise the error it returns is the one that belongs to the first check that fails, in that order. The token is changed in one way only, by keeping the key derived from its parameters, and that happens exactly when the checks of the token and of the key hold. A token made by registration fails none of the checks of its type, of the presence of its parameters or of its algorithm.", "quantifier": "every token, every message, every outcome of the signature check; every registration for the last sentence", "why_tests_cant": "29 checks, each of which may fail alone or with others; tests cover a dozen messages for one token.", "anchors": ["mfa_token.go:MfaToken.WebAuthnRequest", "mfa_token.go:MfaToken.derivePublicKey", "mfa_token.go:WebAuthnAuthenticateRequest.unpackAuthData"]}
{"id": "C116", "title": "Every database call is refused for the first check it fails, and succeeds only if it passes all", "statement": "For each of the calls of the database there is a fixed list of checks with an error for each, wrapped as the call wraps it: who the request is about, the policies, the form of the payload, what is stored already, and whether the file can be written. Whenever the call returns, it succeeds exactly if all its checks hold, and otherwise its error is that of the first that does not. It always returns, but for a registration with a wrongly typed key (it panics), a search for a free key prefix that finds none (it never ends) and a write during which the process dies. In particular a wrong password, an account without passwords and an unknown login are answered with three different errors: whoever submits a password learns whether the account exists.", "quantifier": "every call, every reachable database, every request, every file system, every draw and outcome of a write", "why_tests_cant": "each call has up to 30 checks that may fail alone or together; tests cover a few failing requests for each call, one failure each.", "anchors": ["database.go:Database.AddUser", "database.go:Database.AuthenticateUser", "database.go:Database.ChangeUserPassword", "database.go:Database.AddPublicKey", "database.go:Database.AddAPIKey", "database.go:Database.AddMfaToken", "database.go:Database.LookupAPIKey", "database.go:Database.validateUserIdentity", "user.go:User.AddMfaToken", "public_key.go:NewPublicKey", "mfa_token.go:NewMfaToken"]}
{"id": "C117", "title": "A database file is refused for its first defect (but may have been rewritten by then)", "statement": "Opening a database checks, in this order: that the path can be examined; if there is nothing at it, that a directory and a new file can be made; otherwise that it is no directory, can be read, is a database text, can be rewritten if a limit of its policy is missing, and then for each account in order its identifier, name and passwords, that no earlier account has its name or identifier, and for each address and API key in order that none before it is the same. It succeeds exactly if all these hold; otherwise the error, panic or crash is the one that belongs to the first that does not. Opening changes no other file, and this one only if it is missing or lacks a limit. It does not hold that a refused file is left as it was: one that lacks a limit is rewritten before its accounts are checked.", "quantifier": "every path, every file system, every text, every outcome of the file operations", "why_tests_cant": "a file may have any number of defects at any place; tests open a handful of files with one defect each.", "anchors": ["database.go:NewDatabase", "database.go:Database.enforceDefaultPolicy", "user.go:User.Valid"]}
{"id": "C118", "title": "The calls that took effect determine which passwords and API keys work", "statement": "Keep a ledger of a database from its creation, from the requests and answers alone. A call took effect if it was accepted or refused with an error that wraps the one of a failed write (C121). Every AddUser that took effect adds an entry with the name, the address and the trimmed password; every such ChangeUserPassword replaces the password of the entry with that name; every such AddAPIKey adds the secret handed out, every such DeleteAPIKey removes the keys with that identifier; everything else, every other refused call and every change of files by others changes nothing; a restart from a file holding the content of this or of any earlier moment, under whatever path, takes the ledger to what it was at that moment. Then, provided every call returns and the texts are valid UTF-8 at restarts, the accounts, addresses and key identifiers of the database are those of the ledger in order; a password login succeeds exactly if some entry is called by the login name and its password has the same bcrypt key (first 72 bytes) as the one given; at most one entry is called by a login name; an API key of 72 bytes or more is accepted exactly if a key of the ledger has the same first 72 bytes, and the answer names its owner; a password is changed, saved or not, only if the old password given is the one of the ledger. Two histories with the same ledger admit the same passwords and keys.", "quantifier": "for every environment with sound and complete bcrypt, every history of the kind described, of any length, and every request", "why_tests_cant": "The tests check single logins after single changes; that no interleaving of calls, refusals, failed writes, edits and restarts from backups lets another password or key in, or a current one out, is a statement about all histories.", "anchors": ["database.go:251-310", "database.go:353-428", "database.go:540-594", "database.go:619-686", "user.go:149-170", "user.go:263-277", "user.go:413-454", "user.go:511-520", "api_key.go:68-110"]}
{"id": "C119", "title": "The calls that took effect determine what keys and second factors an account holds", "statement": "Keep a list of accounts with their public keys, API keys and second factors from the requests and answers alone, counting the calls that were accepted or refused only for a failed write (C121): such an AddUser adds an account holding nothing; such an AddPublicKey, AddAPIKey or AddMfaToken adds, for the account with the user name of the request, an item with its identifier (the one drawn, or for a PGP key the key ID), its usage or type and whether it was added as disabled; such a delete removes the items with that identifier; nothing else changes the list, neither other refused calls nor password changes, logins nor changes of files by others; a restart from a file holding the content of this or an earlier moment takes the list to what it was then. Then GetPublicKeys and GetAPIKeys list for an account exactly the identifiers of the items of that usage not disabled, in the order added, GetMfaTokens those of all second factors not disabled; a delete succeeds exactly if an item with that identifier is held and the file can be written; IdentifyUser asks for a second factor exactly if one is held, disabled or not, and answers with the name and address given when the account was added.", "quantifier": "for every environment whose decoded registration messages are typed, every history in which calls return and texts are valid UTF-8 at restarts, with any number of failed writes and restored backups, of any length, every account and every request naming it", "why_tests_cant": "Tests look at lists after one addition or one deletion; that no interleaving of calls about several accounts, refusals and restarts loses an item, brings one back or shows it elsewhere is a statement about all histories.", "anchors": ["database.go:484-616", "database.go:641-662", "database.go:689-739", "user.go:374-492", "user.go:546-553", "public_key.go:87-246", "mfa_token.go:98-293"]}
{"id": "C120", "title": "Null elements of the lists that opening does not look at", "statement": "A database file whose accounts have null elements among names, organizations, addresses, public keys, second factors or roles opens exactly as it would with other elements there; the indexes and everything else about the accounts are the same. Afterwards exactly these calls panic: GetPublicKeys, DeletePublicKey, GetMfaTokens and DeleteMfaToken on an account with a null in the list; AddPublicKey with a well-formed key and AddMfaToken with an acceptable factor if a null comes before any element they clash with; IdentifyUser on an account with a null role or, when flags are asked for, a null second factor; AuthenticateUser with a well-formed WebAuthn request if a null comes before the factor that answers it. On files without nulls all of this is what the rest of the model says. So a database that opens can still crash its callers, without a password: that opening implies soundness is refuted.", "quantifier": "for all file contents, environments, databases, lists with nulls anywhere, calls and requests", "why_tests_cant": "Tests use well-formed files; which call reaches a null before it returns depends on the position of every element of a list of any length.", "anchors": ["database.go:136-191", "database.go:353-382", "database.go:484-537", "database.go:641-661", "database.go:689-739", "user.go:45-68", "user.go:214-260", "user.go:279-310", "user.go:337-410", "user.go:457-508"]}
{"id": "C121", "title": "What a call does in memory does not depend on the disk", "statement": "The memory of the database and the request after a call are the same whatever the files hold and whatever becomes of the write (success, failure to open, a short write, even the death of the process); so is the answer of a call that does not write. Of the eight calls that change accounts, one takes effect in memory exactly if it is accepted or refused with an error that wraps the one of a failed write, which does not depend on the disk either; it is accepted exactly if it takes effect and the file can be written; refused with any other error it leaves memory and files as they were; refused for the write it leaves in memory and in the request (including the secret of a new API key) exactly what it would have left on a disk that works. So an error answer for a changed password does not mean that the old password is still in force: it is not, until the program restarts from the file.", "quantifier": "for all environments, draws, fates of the write, databases, file systems, calls and requests", "why_tests_cant": "Tests have a disk that works; the claim compares each call with itself on every other disk.", "anchors": ["database.go:251-310", "database.go:437-481", "database.go:484-616", "database.go:619-639", "database.go:689-739"]}
{"id": "C122", "title": "The registrations that took effect determine which WebAuthn logins succeed and which passcodes are valid", "statement": "Keep for every account of a database, from its creation and from the requests and answers alone, the AddMfaToken requests that took effect (accepted, or refused only for a failed write, C121) with the identifiers drawn, without those deleted since. A login with a WebAuthn message succeeds exactly if its credential was registered there and not as disabled, and the message answers the challenge of the request for the site of the first such registration, with the user present, and is signed with the key attested then; so it depends on nothing else in memory or on disk. GetMfaTokens returns the tokens of the registrations not made as disabled, in order; a passcode is valid for one of type totp exactly if it is a code of the registered secret, with the registered algorithm, digits and period, for the step before, at or after the time. A further registration is accepted exactly if it is in order, shares neither secret (for a key, challenge) nor comment with one of the list, and can be saved. Restarts from any earlier backup of the current content, refused calls and edits of the files change none of this.", "quantifier": "for every environment whose decoded registration messages are typed (and whose HMACs have at least 20 bytes, for passcodes), every history in which calls return and texts are valid UTF-8 at restarts, of any length, every request, passcode and time", "why_tests_cant": "Tests log in right after one registration; that no interleaving of registrations, deletions, refusals, failed writes, logins that cache keys and restarts lets another key in, or a registered one out, is a statement about all histories.", "anchors": ["database.go:353-382", "database.go:689-739", "user.go:279-310", "user.go:457-492", "mfa_token.go:98-293", "mfa_token.go:295-428", "mfa_token.go:450-538"]}
{"id": "C123", "title": "A public key is stored as exactly what its text says", "statement": "NewPublicKey makes an entry exactly if the text is a PEM block with an RSA key, a line with an RSA key or an armored PGP block with one supported key, under a usage that fits, and the entry is the one described: type, both fingerprints, comment, payload, OpenSSH form, identifier, times and flags, each derived from the text and the key it decodes to. AddPublicKey accepts a request exactly if the account exists, the text says an entry, the account has no key of that type and fingerprint and the file can be written; it appends that entry and changes nothing else but revision and time. After any calls every key of an account was there before or is what a text handed in in the name of that account said. For a PEM key whose encoded blob does not start with a character of the type's name, the OpenSSH form kept is the blob.", "quantifier": "for all environments (decoders of keys), draws, requests, reachable databases, file systems and histories of calls", "why_tests_cant": "Tests store a handful of generated keys and compare a few fields; the claim fixes every field of the entry for every text, including white space, tabs, comments and flags.", "anchors": ["public_key.go:87-103", "public_key.go:113-129", "public_key.go:131-192", "public_key.go:194-246", "public_key.go:248-275", "user.go:374-391", "database.go:484-498"]}
{"id": "C124", "title": "The key texts handed in determine the public keys returned and which further texts are accepted", "statement": "Keep for every account of a database, from its creation and from the requests and answers alone, the AddPublicKey requests that took effect (accepted, or refused only for a failed write, C121) with the times and draws of their calls, without those deleted since. GetPublicKeys for a use returns, in order and in every field, the entries (C123) of the requests with that use that were not made as disabled, and nothing else; so two databases with the same requests return the same. A further text is accepted exactly if it says an entry, no text kept for the account says a key with that type and fingerprint, and the file can be written.", "quantifier": "for every environment whose decoded registration messages are typed, every history in which calls return and texts are valid UTF-8 at restarts, of any length, every request and time", "why_tests_cant": "Tests read keys back right after adding them; that no interleaving of additions, deletions, refusals, failed writes and restarts from the current or an earlier file alters, loses, reorders or revives a key is a statement about all histories.", "anchors": ["database.go:484-498", "database.go:501-520", "database.go:523-537", "user.go:374-391", "user.go:394-411", "public_key.go:87-275"]}
{"id": "C125", "title": "The calls that took effect determine who is listed and how", "statement": "Keep for every account of a database, from its creation and from the requests and answers alone, the AddUser request that made it, the time of that call, the time of the last call that took effect on it (accepted, or refused only for a failed write, C121) and the number of those calls. GetUsers returns one record per account, in the order in which they were made, with the user name, address and full name of that request, an identifier of 36 characters, no title or avatar, not enabled, those two times, and as revision that number modulo 2^64; and the size of the list is their number. IdentifyUser answers with the user name, address, full name and exactly the roles of that request, whatever else was done to the account and whenever the database was restarted.", "quantifier": "for every environment whose decoded registration messages are typed, every history in which calls return and texts are valid UTF-8 at restarts, of any length, every request and time", "why_tests_cant": "Tests list a database they have just filled; that no interleaving of changes, refusals, failed writes, logins and restarts alters, reorders or miscounts the list is a statement about all histories.", "anchors": ["database.go:251-327", "database.go:641-662", "user.go:105-132", "user.go:522-542", "user.go:556-560"]}
{"id": "C126", "title": "The API keys issued determine the API keys returned", "statement": "Keep for every account of a database, from its creation and from the requests and answers alone, the API keys issued to it and not deleted since: the request, the time and draws of the call that took effect (accepted, or refused only for a failed write, C121), and the secret handed out. GetAPIKeys for the use \"api\" returns, in the order of issue, one entry for each of them that was not asked for as disabled, and nothing else: with the first 24 characters of the secret, its bcrypt hash at cost 10, the identifier drawn, the comment asked for, the time of the call as creation time, no expiry and not disabled. For every other use it returns an empty list. So two databases with the same record answer alike, in every field, whatever else was done and whenever they were restarted.", "quantifier": "for every environment whose decoded registration messages are typed, every history in which calls return and texts are valid UTF-8 at restarts, of any length, every request, time and draw", "why_tests_cant": "Tests list keys right after adding one; that no interleaving of other calls, failed writes and restarts alters, reorders, loses or revives an entry is a statement about all histories.", "anchors": ["database.go:540-616", "user.go:413-440", "api_key.go:25-95"]}
{"id": "C127", "title": "The registrations determine the second factors returned", "statement": "Keep for every account of a database, from its creation and from the requests and answers alone, the registrations of second factors that took effect (accepted, or refused only for a failed write, C121) and were not deleted since, with the time and draws of their calls. GetMfaTokens returns, in the order of registration, one token for each of them that was not asked for as disabled, and nothing else: exactly the token that the registration describes, in every field (for a one-time password the secret, algorithm, digits and period; for a WebAuthn key the attested credential, site, flags, counter and coordinates; identifier, comment and dates). Only the key that a login may have left beside a token is not determined, and it is always the one given by the coordinates. So two databases with the same record answer alike, whatever else was done and whenever they were restarted.", "quantifier": "for every environment whose decoded registration messages are typed and whose HMACs have at least 20 bytes, every history in which calls return and texts are valid UTF-8 at restarts, of any length, every request, time and draw", "why_tests_cant": "Tests list tokens right after adding one; that no interleaving of other calls, logins, failed writes and restarts alters, reorders, loses or revives a token is a statement about all histories.", "anchors": ["database.go:689-739", "user.go:457-492", "mfa_token.go:98-293"]}
{"id": "C128", "title": "The passwords set determine the passwords kept", "statement": "Keep for every account of a database, from its creation and from the requests and answers alone, the passwords set by the calls that took effect (accepted, or refused only for a failed write, C121), with the time and draws of those calls. Under the default policy every account holds the thirteen passwords set last, newest first, and nothing else: each as the bcrypt hash at cost 10 of the text without surrounding blanks, with the time at which it was set; the newest neither disabled nor expired, and every other disabled and expired at the time at which the next one was set. (The policy says that ten versions are kept; C18.) So two databases with the same record hold the same passwords in every field, whatever else was done and whenever they were restarted.", "quantifier": "for every environment whose decoded registration messages are typed, every history in which calls return and texts are valid UTF-8 at restarts, of any length and with any number of changes, every request, time and draw", "why_tests_cant": "Tests change a password once or twice; which versions are kept, in which order and with which dates after any number of changes, interleaved with other calls, failed writes and restarts, is a statement about all histories.", "anchors": ["database.go:251-327", "database.go:619-637", "user.go:149-173", "user.go:510-520", "password.go:39-70"]}
{"id": "C129", "title": "A database is what the calls that took effect make of it", "statement": "Note of the history of a database, from its creation and from the requests and answers alone, the calls of Save and Copy and those changing calls that took effect (accepted, or refused only for a failed write, C121), each with its time and draws. Made one after the other on the database as it was created, on an empty disk on which every write succeeds, these calls alone lead to a database with the same content in every field (accounts, identifiers, keys, passwords, tokens, policy, revision, times), the same path, the same file text byte for byte, and the same answers to every further sequence of calls, failing or not. Reads, logins, refused calls, failed writes, changes of files by others and restarts from the file of the database add nothing. Two histories with the same noted calls cannot be told apart. (The keys that tokens cache while they are used are left out of the content; no answer depends on them. If a drawn key identifier repeats, a restart can be noticed: a prefix stays taken after its key is deleted, until the next restart.)", "quantifier": "for every environment whose decoded registration messages are typed, every history of any length in which calls return, drawn UUIDs and API key identifiers are fresh and texts are valid UTF-8 at restarts, every request, time and draw", "why_tests_cant": "Tests make a handful of calls on one live database; that nothing but the calls that took effect leaves a trace in content, indexes or answers, under every interleaving with failures and restarts, is a statement about all pairs of histories.", "anchors": ["database.go:119-250", "database.go:251-327", "database.go:328-480", "database.go:481-739"]}
{"id": "C130", "title": "A killed process loses no acknowledged change and brings back a prefix of its history", "statement": "Note the calls of a database as in C129, and separately those that its file holds: all noted so far whenever a call that writes the file of the database is accepted. As long as every write takes place or does not (none stops half way, C52) and nobody else writes that file, then at any time, after any number of calls, failed writes, changes of other files, kills and restarts, the calls in the file are the first of those noted, and the file is byte for byte the one that these calls alone make of the database as it was created. Whenever the process is killed, the file opens again and answers every further sequence of calls as these calls make it answer; a living database answers as all calls noted make it. An accepted change is in the file at once, together with everything noted before it (also changes whose own write had failed), and no later event takes it out. (A write that stops half way destroys the file with all that was acknowledged before.)", "quantifier": "for every environment whose decoded registration messages are typed, every history of any length in which calls return, drawn UUIDs and API key identifiers are fresh, writes are whole or fail and texts are valid UTF-8 at restarts, every request, time, draw and moment of a kill", "why_tests_cant": "Tests reopen a file once after a successful save; that under every interleaving of failed and successful writes and of kills the file is a prefix of the history, and never loses what was acknowledged, is a statement about all histories.", "anchors": ["database.go:119-250", "database.go:251-327", "database.go:430-466", "database.go:481-739"]}
{"id": "C131", "title": "A copy is a complete backup", "statement": "When Copy(fp) is accepted, then at any later time, whatever became of the original in between, as long as the file fp is left alone and can be read, it opens as a database bound to fp with exactly the content of the original at the time of the copy (bytes that are not UTF-8 replaced, C50). If the texts are UTF-8, it answers every further sequence of calls, failing or not, as the original at that time would if it were bound to fp, and where writes succeed callers hear the same from it as from the original itself and both come to the same content. In general neither what a call does in memory, nor its answer, nor whether it takes effect depends on the path a database is bound to, and no call touches a file other than the one it writes.", "quantifier": "for every environment whose decoded registration messages are typed, every reachable state in whose history drawn UUIDs and API key identifiers were fresh, every path, request, time, draw, file system and sequence of further calls", "why_tests_cant": "Tests copy a database and look at whether the file exists; that the copy cannot be told from the original by any sequence of calls is a statement about all of them.", "anchors": ["database.go:119-250", "database.go:437-466"]}
