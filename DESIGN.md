# Formal model of greenpau/go-identity in Rocq (Coq 8.16.1)

Source of truth: `/repo` (read as text, never built).  The model is a set of total, computable
Gallina functions, one per Go function, in `/verif/rocq/theories`.  Each definition cites the file
and lines it models and states its simplifications.

## Layout

| layer | files | content |
|---|---|---|
| Go values | `GoStr.v`, `Utf8.v`, `Codec.v`, `GoErr.v`, `GoTime.v`, `Float.v` | byte strings (`Coq string`), `strings.*`, UTF-8, hex/base32/base64/query escaping, error values, `time.Time`, float64 |
| value types | `Role.v`, `Name.v`, `Regex.v`, `Email.v`, `Random.v`, `CreditCard.v`, `Qr.v` | pure parts of the library (`Random.v` has random.go and uuid.go) |
| environment | `Env.v` | the external functions as fields of a record `Env`, and the non-determinism of one call (clock, random draws, salt, I/O outcome) as a record `Nd` |
| accounts | `Types.v`, `Password.v`, `ApiKey.v`, `PublicKey.v`, `Mfa.v`, `User.v` | request/response records and the methods of `User`; `Mfa.v` has mfa_token.go and webauthn.go |
| database | `Json.v`, `Persist.v`, `Fs.v`, `Database.v`, `System.v` | JSON trees and text, struct encoding, file system with write failures and crash points, all `Database` methods, histories of calls/restarts/crashes/outside edits |
| hashes | `Hash.v` | SHA-1, SHA-256, SHA-512 and HMAC as FIPS 180-4 and RFC 2104 define them |
| WebAuthn messages | `WebAuthn.v` | the JSON decoding of registration, assertion and client data |
| error texts | `Message.v` | `Error()`, i.e. the formatting of templates and arguments |
| direct calls | `Method.v` | methods of `*User`, `*Password`, `*APIKey`, `*PublicKey`, `*MfaToken` called on the pointers the API hands out |
| struct tags | `Tag.v` | the struct tag check of internal/tag |
| concurrency | `Conc.v` | small-step interleavings of lock, body steps, unlock |
| several databases | `Share.v` | any number of databases open on the same files, taking turns call by call |
| specifications | `Spec*.v` | the vocabulary of the theorem statements, independent of the model's helpers |
| examples | `Examples.v`, `Real.v` | concrete environments and concrete histories for non-vacuity and witnesses (`Real.v`: with the hashes of `Hash.v` and the JSON decoders) |
| conformance | `Conformance.v` | the tables of the repository's own tests, replayed in the model: tests of the transcription, not proofs |
| proofs | `*Facts.v`, `Inv.v`, `TokenUse.v` | lemmas; `Inv.v` is the consistency invariant |
| theorems | `Properties*.v` | the theorems with `Print Assumptions`, and an `Example C##_ex` meeting the hypotheses |

## Modelling decisions

* A Go `string`/`[]byte` is a Coq `string` of 8-bit characters.  `int` is `Z` with explicit wrap-around
  where it can overflow; `uint64` revisions wrap.
* `*User` pointers are indexes into `Users`: the slice only grows and elements are never replaced, so
  an index identifies a pointer for the life of the database.
* Every method returns the new database, the new file system, the updated request (requests are in/out
  parameters) and an outcome `OOk | OErr e | OPanic | OHang | OCrash`.  Panics (failed type assertions,
  nil dereferences), endless loops and dying in the middle of a write are outcomes, not omitted.
* All external behaviour is a parameter.  A theorem that needs an external function to behave (for
  example "bcrypt accepts the password it hashed") says so in a hypothesis on `Env`; beside it a
  concrete `Env` is shown to satisfy the hypothesis.
* Several `time.Now()` calls inside one API call are one clock reading.
* A write may succeed, fail at open, fail or crash after any number of bytes.

## Trusted base

* Coq's kernel (8.16.1), including its `vm_compute` machine, used for the concrete witnesses and examples.
* The reading of the Go source into the model.  (`Conformance.v` computes that the model gives the answers the
  repository's own tests expect, with the real hash functions and JSON decoders: evidence, not proof.)
* The Go semantics of the standard library functions transcribed in `GoStr.v`, `Utf8.v`, `Codec.v`,
  `Json.v`, `Persist.v`, `WebAuthn.v`, `GoTime.v`, `Regex.v`, `Fs.v`.  (The parser of `Json.v` is proved against the
  grammar of RFC 8259, C113; the float arithmetic of `Float.v` against real numbers, C97.)
* The hypotheses on `Env` and `Nd` named in the theorems (`SpecCrypto.v`, `SpecPersist.v`).
* The standard library axioms listed at the end, for the C42 and C97 theorems only.

## Modelled

| source | model |
|---|---|
| database.go | all of it: `NewDatabase`, every method, both policies, `commit`, `Copy` (`Database.v`, `Persist.v`, `Conc.v` for the lock) |
| user.go, password.go, api_key.go, public_key.go, mfa_token.go | all functions (`User.v`, `Password.v`, `ApiKey.v`, `PublicKey.v`, `Mfa.v`, `Method.v`); `WebAuthnRequest` is modelled twice, without its errors in `Mfa.v` for the database and with them in `Assert.v`, and C115 relates the two; the request it hands out beside an error is not modelled | 
| webauthn.go | all of it (`Env.v`, `Mfa.v`, `WebAuthn.v`) |
| role.go, name.go, email.go, random.go, uuid.go | all functions |
| credit_card*.go | all functions |
| organization.go, location.go, lockout.go, image.go, registration | as stored data of an account (`Types.v`, `Persist.v`); they have no behaviour |
| pkg/errors | all of it: `StandardError`, `WithArgs`, `Unwrap` (`GoErr.v`), `Error` (`Message.v`) |
| pkg/qr | all of it |
| pkg/requests | all fields that are read or written |
| internal/tag | all of it (`Tag.v`); strcase and `%q` are parameters, a struct type is the list of its fields |
| internal/utils/file.go | `expandHomePath`, `ReadFileBytes` (`Fs.v`) |

## Not modelled, or simplified

* External libraries: bcrypt, HMAC, SHA-256, ECDSA verification, ssh/x509/openpgp parsers, zap, `os.UserHomeDir`:
  parameters of the model (`Env`), with nothing assumed unless a theorem says so.  HMAC and SHA are defined in
  `Hash.v`; only C114 asks the environment to compute them so.
* Error texts of external libraries (`EFmt`), `strconv.Quote`, and the printed form of whole structs: parameters of `Message.v`.
* File permissions, parent directories and disk space only show up as the outcome of a write.
* JSON input the decoder of `Persist.v` gives up on (`DUnmod`, `LUnmod`): a second array for a field that already
  has elements, times with a zone offset, a one-digit hour, a comma or more than nine digits of a fraction, and
  null elements of the arrays names, organizations, street_address, public_keys, mfa_tokens and roles.  Such nulls
  are decoded, opened and run into by the calls in `Holes.v` (C120), but no file is written from a database with them
  except by opening, and all other theorems are about databases without them.
* xml and yaml tags (nothing in /repo reads or writes xml or yaml).
* `AddName(nil)`.  `Method.v` ignores what a direct call writes into its request.
* The unsynchronised `*rand.Rand` of random.go shared by goroutines: draws are an arbitrary stream per call.
* Direct calls on accounts run without the lock; `Conc.v` covers the API calls only.
* cmd/authdbctl (prints version and usage), internal/tests (test support), handle.go,
  registration.go (constructors without behaviour).

## Plan per property

* **C01** Usernames are unique, ignoring case — invariant `Inv` over `System.v` histories; corollary of index exactness.
* **C02** Email addresses are unique across the database, ignoring case — same invariant, email index.
* **C03** User IDs are unique when the UUID source yields a fresh value — invariant under per-call freshness hypothesis on the UUID stream; `_refuted` witness with a constant stream.
* **C04** AddUser accepts exactly the well-formed, non-conflicting requests — characterisation of `add_user` as an iff against a specification written with list quantifiers.
* **C05** A successful AddUser appends exactly one account and touches nothing else — functional post-condition of `add_user`.
* **C06** Rejected requests leave accounts, indexes and the file untouched — case analysis of every method: outcome Err and commit not reached -> state equal.
* **C07** Lookup indexes agree with the account list — refinement: index maps equal to maps computed from the account list.
* **C08** Every accepted account can be found again (fails for short names and addresses) — positive theorem under length/`@` guards; `_refuted` witnesses.
* **C09** Username and email must name the same account — direct lemma on each method.
* **C10** Operations for one account never modify another — frame lemma for every method, lifted to histories.
* **C11** Accounts are never removed, reordered or renamed — monotone history invariant (prefix relation on account list modulo mutable fields).
* **C12** Password authentication decision — iff characterisation of `authenticate_user`.
* **C13** A newly added user can log in with the password given — composition add_user;authenticate_user with bcrypt correctness hypothesis; negative part with bcrypt soundness.
* **C14** Wrong passwords are rejected — composition with bcrypt soundness hypothesis.
* **C15** Read operations change nothing — equality of world before/after (modulo cache) for each reader.
* **C16** Changing the password switches credentials — iff + composition.
* **C17** At most one active password per account — invariant over histories.
* **C18** Password history is bounded by the policy — invariant over histories, exact list equation, `_refuted` witness for the documented bound.
* **C19** Password length policy applies to the stored secret (violated by padding) — iff on lengths, `_refuted` witness.
* **C20** Default policy fills only unset limits — equational.
* **C21** Published username policy is enforced (only its length part is) — equation on published text via regex semantics, `_refuted` witness.
* **C22** A freshly issued API key identifies its owner — invariant: index + stored hash; composition over arbitrary later histories not deleting the key.
* **C23** API key lookup is sound — iff characterisation.
* **C24** The whole API key is needed (violated beyond 72 bytes) — theorem that tail is ignored under the 72-byte bcrypt law.
* **C25** Disabled API keys are refused (violated) — universally quantified violation theorem.
* **C26** A deleted API key stops working, others continue — composition.
* **C27** API key prefixes are unique and indexed — invariant.
* **C28** AddAPIKey terminates (violated on prefix collision) — termination iff prefix fresh.
* **C29** API key secrets have the documented shape and are not stored — lemma on `gen` over all streams.
* **C30** No duplicate public keys by type and fingerprint — invariant.
* **C31** The same key is a duplicate in every encoding (violated) — `_refuted` with symbolic ssh oracle.
* **C32** GetPublicKeys and GetAPIKeys return exactly the enabled keys of the requested usage — list equation `filter`.
* **C33** Delete operations remove exactly the named item — list equations.
* **C34** Key usage matches the key material (violated) — iff on dispatch, `_refuted` witness.
* **C35** TOTP codes are well formed — arithmetic over all HMAC outputs.
* **C36** TOTP acceptance window — iff against RFC 6238 spec.
* **C37** A correct code stays valid for a full period either side — corollary of C36 with lia.
* **C38** Stored MFA tokens have parameters within limits — case analysis.
* **C39** MFA secrets and comments are unique per account — invariant.
* **C40** A passcode is accepted once (violated) — universally quantified violation theorem.
* **C41** Registration checks the passcode one period in the past — corollary of C36.
* **C42** Floating point time-step computation is exact — Flocq proof about binary64 (uses the standard library's real axioms).
* **C43** WebAuthn authentication is sound — implication from success.
* **C44** A WebAuthn assertion cannot be replayed (violated) — replay theorem.
* **C45** Malformed registrations are rejected, not fatal (violated) — iff for panic.
* **C46** Authenticator data is decoded faithfully — bit-level equations.
* **C47** Only full-size curve coordinates make a key — iff.
* **C48** IdentifyUser reports the account or nobody — equations.
* **C49** The mfa challenge is issued exactly when a usable token exists (violated by disabled tokens) — iffs and `_refuted`.
* **C50** The database file round-trips — JSON text printer/parser round trip + struct codec round trip.
* **C51** Acknowledged changes survive a restart — C50 + Inv => loader succeeds.
* **C52** A crash during a write leaves the old or the new database (violated) — `_refuted` witness crash point.
* **C53** A torn write is always detected — prefix lemma on the JSON parser.
* **C54** A call that reports an error has no effect (violated on write failure) — universally quantified violation theorem + witness.
* **C55** Revision counts commits — equation per method.
* **C56** Copy leaves the primary file and path alone — equation.
* **C57** A database is opened only if it is consistent — loader soundness.
* **C58** Opening never crashes (violated by null entries) — panic iff null.
* **C59** The same path always names the same database (violated for '~') — `_refuted` witness + positive guard.
* **C60** Concurrent calls are linearizable — generic theorem for lock-structured programs, instantiated.
* **C61** Readers never observe a partially applied change — invariant of the interleaving semantics.
* **C62** Calls under the read lock do not write shared memory (violated) — `_refuted` witness schedule.
* **C63** Role parsing and printing — string induction.
* **C64** Role sets — list induction.
* **C65** Names parse in both orders — string lemmas.
* **C66** Email grammar — regex AST semantics vs grammar.
* **C67** Random strings have the requested length and alphabet — list lemma over streams.
* **C68** Generated user IDs are canonical version 4 UUIDs — finite byte sweep lifted.
* **C69** QR enrolment URIs encode the token faithfully — parser for the URI as spec, round trip.
* **C70** QR parameter validation — iff.
* **C71** Bundles report their true size — fold invariant.
* **C72** Errors keep their identity — iff.
* **C73** User metadata covers every account — list equation.
* **C74** Credit card associations — iff.
* **C75** Account revisions count modifications — equation per method.
* **C76** A restart preserves stored secrets (violated for texts that are not UTF-8) — equation: the reopened database is the old one with every undecodable byte replaced; `_refuted` witness for a TOTP secret.
* **C77** Calls in flight can always return (violated by a hanging AddAPIKey) — progress theorem over `Conc.v`; blocked-for-ever theorem for the hang.
* **C78** Direct calls on an account change only what they are about — case analysis over all methods in `Method.v`; `_refuted` witnesses for the exceptions.
* **C79** GetUser hands out the live account — composition of a direct AddPassword with AuthenticateUser; `_refuted` for the policy.
* **C80** Direct calls keep the lookup indexes exact (violated by AddEmailAddress and AddAPIKey) — the invariant `Inv` over mixed histories; universally quantified violation theorems.
* **C81** AddEmailAddress on an account — trichotomy.
* **C82** AddName on an account — trichotomy.
* **C83** AddRoles on an account — list induction.
* **C84** Disabling one item affects only that item — list equations and effect on login.
* **C85** NewPasswordWithOptions — iff for success, panic and each error.
* **C86** Accounts stay valid — iff and invariant.
* **C87** The published username policy means what it says and is accepted — `SpecPolicy.v` reads a pattern text and says which strings match it; iff for every policy; composition with the acceptance theorem of AddUser.
* **C88** The published password policy means what it says and is enforced (violated: only the length is enforced) — the same reader with lookaheads; `_refuted` witness.
* **C89** Every error reads as a finished sentence (violated by failed WebAuthn logins) — `Message.v` models `Error()`; relation `reads` in `SpecMessage.v`; case analysis over every error path; `_refuted` witness.
* **C90** Errors do not disclose secrets — a list of at most 18 errors computed from the disclosed part of the request contains every error.
* **C91** A failed login does not tell whether the account exists (violated) — iff and `_refuted` witness.
* **C92** Only AddMfaToken can panic and only AddAPIKey can fail to return — case analysis over every call.
* **C93** The database file has the documented layout — `SpecLayout.v` writes the members out without the codecs; the calendar is counted year by year and month by month; induction over years.
* **C94** WebAuthn messages mean what their JSON says — `SpecWebAuthn.v` states the meaning on the parsed tree; iff with the readers of `WebAuthn.v` field by field, induction over the members.
* **C95** No WebAuthn message can bring data into the database that a restart loses — every text the parser yields is UTF-8; discharges `register_typed` of C51, C76 and C80.
* **C96** A WebAuthn login proves a fresh assertion for this site (violated: the origin is never checked) — C43 on the level of texts; independence from the origin; `_refuted` witness with two origins.
* **C97** Numbers in WebAuthn messages are read as the nearest float64 — `SpecNumber.v` states the value of a literal on the real numbers and rounding with Flocq; exact integer arithmetic of `parse_float` against it.
* **C98** The struct tag check accepts exactly the compliant structs and its suggestions repair the others — `Tag.v` models internal/tag with strcase and `%q` as parameters; `SpecTag.v` states replacement, expected tags and complaints as relations; `_refuted` witness for a non-ASCII name.
* **C99** A registration stores exactly what was attested — `SpecRegister.v` fixes every field of the token as a relation to message, request and draws; equivalence with `new_mfa_token`; `_refuted` witness: a registration without coordinates.
* **C100** An answer about one account depends on nothing but that account — two reachable databases related by `SpecIsolation.v`; case analysis of every call.
* **C101** Disabled, locked or unconfirmed accounts cannot be used (violated: the status is never checked or set) — relation `same_but_status` between two databases; induction over histories for "never set" and "no lock-out"; `_refuted` witness: a file with a locked account.
* **C102** Passwords and API keys reach memory and file only as hashes (one-time-password secrets are stored in clear) — two executions with hash-equal secrets have equal effects (`SpecSecret.v`); `_refuted` witness: the file after a TOTP registration.
* **C103** Calls about different accounts commute — each call rewrites one account as a function of that account and its draws (`CommuteFacts.v`), and indexes by disjoint keys; `_refuted` witness: two password changes of one account.
* **C104** The times in a database are in order as long as the clock does not go back — invariant `db_in_order` (`SpecOrder.v`) kept by every call; `_refuted` witness: a clock that goes back.
* **C105** Deleting what was just added restores the account — composition of two calls (`UndoFacts.v`); `_refuted` witness: an ID drawn twice.
* **C106** What is read from a database file depends only on what it says — one decoder step per edit (`SpecRead.v`, `ReadFacts.v`), lifted through every persisted type; `_refuted` witness: two policies are merged.
* **C107** What a database file means — relational meaning of the parsed tree per persisted type (`SpecMeaning.v`), decoder split into one fold per field (`MeaningFacts.v`); name matching against letter-by-letter spelling (`SpellFacts.v`).
* **C108** Several databases on one file — a transition system of handles sharing the files, projected to the histories of one handle; the memory of a handle as a function of its own calls; the file after the last write by the reopening theorem of C80
* **C109** Indexes determined by the accounts — a rebuild function over the account list (`SpecIndex.v`), extensionality of finite maps with the consistency invariant
* **C110** What answers disclose — erasure of the stored secrets (`SpecReveal.v`), one relational lemma per call (`RevealFacts.v`), induction over the sequence of calls; `_refuted` witnesses for the three calls that hand out stored items
* **C111** Randomness kept — injectivity of the character choice and of the hexadecimal form, fixed bits computed for all 256 bytes; inverse construction for canonical UUIDs
* **C112** Number of accepted passcodes — enumeration of all digit strings (`SpecDraw.v`), the window of C36 and uniqueness of the code of a period
* **C113** Database files and messages are read as JSON says — an inductive grammar of JSON texts (`SpecJson.v`) that does not mention the parser; soundness by induction on the fuel, completeness by mutual induction on the grammar, escapes and UTF-8 decoding shown not to interfere
* **C114** Passcodes under the standard hashes — the hashes transcribed from the standards (`Hash.v`, checked on the published vectors), lengths by computation on the digest, equality of keys by case analysis; `_refuted` witness by running three calls
* **C115** The first failing check of an assertion — the list of checks as propositions with their errors (`SpecAssert.v`), one lemma per passed or failed check, determinism of what a message says
* **C116** The first failing check of every call — the checks of each call as propositions with their errors (`SpecRefuse.v`), one lemma per call that the outcome is the verdict of the list, combined over the calls
* **C117** The first defect of a database file — the checks of opening as a list (`SpecDefect.v`), induction over accounts, addresses and keys with the indexes described by what was seen before; `_refuted` witness: a file without policy and with two accounts of one name
* **C118** The calls that took effect determine which passwords and API keys work — refinement: an invariant relates each ledger entry to the account at the same position (name, address, the one active password, the keys with their secrets), preserved by every call that returns through the effect characterisation, whether its write succeeds or not, and by restarts through the file round trip.
* **C119** The calls that took effect determine what keys and second factors an account holds — the same histories as C118 with another observer (`SpecShelf.v`); an invariant relates the items to the lists of the account at the same position.
* **C120** Null elements of the lists that opening does not look at — a second decoder, opening and list walks with nil pointers (`Holes.v`); a simulation of the two decoders field by field, agreement of all calls on lists without nulls, induction over the walks for the panics; `_refuted` witness: a file that opens and makes IdentifyUser panic.
* **C121** What a call does in memory does not depend on the disk — two runs side by side with different files and different fates of the write (`TookFacts.v`); the errors of a refusal before the commit never wrap the error of a write, by the list of errors of every constructor (C91).
* **C122** The registrations that took effect determine which WebAuthn logins succeed and which passcodes are valid — the traces of C118 with a third ledger (`SpecRing.v`); invariant: the tokens of every account are, up to the cached key, those made from the registrations in order (`RingFacts.v`); then C43, C36 and C99 per token.
* **C123** A public key is stored as exactly what its text says — relations for the texts removed, for hexadecimal numerals and for the words of a line (`SpecPublic.v`), each proved equivalent to the function of the model (`PublicEntry.v`); origin by induction over the calls.
* **C124** The texts handed in determine the public keys returned and which further texts are accepted — the traces of C118 with a fourth ledger (`SpecKeyring.v`); invariant: the keys of every account are the entries said by the texts in order (`KeyringFacts.v`); then C32, C33 and C123.
* **C125** The calls that took effect determine who is listed and how — the traces of C118 with a fifth ledger (`SpecCensus.v`); invariant: every account is as its request described it, with the times and the number of the changes (`CensusFacts.v`); then C48 and C73.
* **C126** The API keys issued determine the API keys returned — the traces of C118 with a sixth ledger (`SpecGrant.v`); invariant: the keys of every account are the entries that stand for the keys issued, in order (`GrantFacts.v`); then C32.
* **C127** The registrations determine the second factors returned — the traces of C118 with a seventh ledger (`SpecFactor.v`); invariant: the tokens of every account are those described by the registrations, in order (`FactorFacts.v`); then C32, C99 and the invariant of the key caches (C43).
* **C128** The passwords set determine the passwords kept — the traces of C118 with an eighth ledger (`SpecDrawer.v`); invariant: the passwords of every account are the versions of the thirteen set last, and the policy is the default one (`DrawerFacts.v`).
* **C129** A database is what the calls that took effect make of it — histories with a log of the noted calls (`SpecReplay.v`); invariant: the database is a twin (equal up to cached keys) of the log replayed; a call in memory does not depend on the disk (C121), twins stay twins (C51), a restart gives a twin (`ReplayFacts.v`).
* **C130** A killed process loses no acknowledged change and brings back a prefix of its history — a transition relation with two logs (`SpecDurable.v`); invariant: the file is that of a logged history (C129) with the calls in the file, which are the first of those noted; restart by C51 (`DurableFacts.v`).
* **C131** A copy is a complete backup — the database bound to another path (`SpecBackup.v`); case analysis over the calls shows that memory and answers do not depend on the path, the rest as for a restart (`BackupFacts.v`).

## Print Assumptions

Under every theorem in `Properties*.v` there is a `Print Assumptions`.  All of them print
"Closed under the global context", except `C42_exact`, `C42_step`, `C42_bound_needed`, `C97_numbers`,
`C97_value` and `C97_integers`, which are about Flocq's float64 or real numbers and print axioms of Coq's
standard library (`C97_value` only the second and third)

    ClassicalDedekindReals.sig_not_dec
    ClassicalDedekindReals.sig_forall_dec
    FunctionalExtensionality.functional_extensionality_dep
    Classical_Prop.classic

The compiled libraries that get loaded also contain the sealed definitions `Coq.ssr.ssrunder.Under_rel.*`
and `Coq.Reals.Rdefinitions.RbaseSymbolsImpl.*`, `RinvImpl.*` of the standard library; no theorem here
lists them.  There are no other axioms, no `Admitted`, no module types or functors, and no disabled checks.
