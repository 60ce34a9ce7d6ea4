# Formal model of CTngV2: design

The Go source of jik18001/CTngV2 (pinned commit, `/repo`) is read as text.
`/verif/rocq/theories` contains an executable Gallina model of it, and theorems about that model.
Properties are listed in `properties.jsonl`, the theorems for each in `MANIFEST.json`, and edits of the model that break claims
(with the theorems that then fail) in `seeded/LOG.jsonl`.
In a log line without `failed_how` the list `failed` was observed: every proof that broke was replaced by an assumption, the build went on,
and the listed theorems are those whose `Print Assumptions` was then no longer closed.
In a line with `failed_how` it was inferred: the build stopped at the first failing lemma, and the listed theorems (at most twelve) are those
found to use that lemma by following names through the sources, which may include a theorem that only mentions a like-named lemma.
A line with an empty `failed` is an edit that survived; `tightened` names the theorem added for it, if a claim was broken.

## Layout

Model (definitions only, each citing the Go file and lines):

| file | models |
| --- | --- |
| `Bytes.v`, `Hex.v`, `Base64.v`, `Json.v` | Go strings, strconv, encoding/hex, encoding/base64, encoding/json (the parts the code uses) |
| `Clock.v` | the minute of the hour as text (util.GetCurrentPeriod) |
| `Types.v` | definition/Types.go |
| `Crypto.v` | crypto/crypto_config.go, rsa.go, bls.go, types.go: signature strings, signing, verification, aggregation |
| `CryptoIO.v` | crypto/crypto_IO.go, key maps of crypto/types.go, util.WriteData: configurations in files |
| `Verify.v` | definition/Verify.go |
| `Prog.v` | goroutines, locks and timers: programs made of atomic actions, run in one piece or interleaved |
| `Gossiper.v` | gossiper/*.go |
| `Network.v` | several gossipers and the posts between them, one handler at a time |
| `Overlap.v` | the same with handlers and timers interleaved at every atomic step |
| `Cert.v`, `CertPool.v` | the parts of x509 certificates the code looks at; crypto/certpool.go |
| `Merkle.v` | crypto/MerkleTree.go and the functions of github.com/txaty/go-merkletree it calls |
| `CTngExt.v` | CA/types.go: the CTng certificate extension |
| `Logger.v` | Logger/*.go |
| `Bitset.v`, `Revocation.v`, `CA.v` | github.com/bits-and-blooms/bitset (parts), CA/CRV.go, CA/*.go |
| `Monitor.v` | monitor/*.go |
| `Client.v` | client/*.go |
| `System.v` | the whole system: loggers, CAs, monitors, gossipers and clients and all messages between them |
| `Pem.v`, `Disk.v`, `Bundle.v` | encoding/pem, util/IO.go (certificates, keys, removal of directories), AppendCertsFromPEM of crypto/certpool.go |
| `JsonFile.v` | util/IO.go (JSON files, directories), the client's and the monitor's files while they are written, the path of an update request |
| `Sample.v` | CA/CRV.go: choice of the certificates of a mass revocation |
| `Schedule.v` | when the processes start and run their period tasks; random delays (util/helpers.go, Start* and PeriodicTask* functions) |
| `Extras.v` | Verifyprecert of Logger/Types.go, LoadOneStorage of monitor/types.go, FetchCertificate of client/client.go |
| `Gen.v` | Gen/Gen.go, Gen/IPmapping.go |
| `Locks.v`, `LockUse.v` | sync.RWMutex and sync.Mutex; which locks and maps the functions of gossiper, monitor, CA and logger use, in which order |
| `FineMonitor.v` | the monitor's handlers, queries, timers and task with every access to a storage as a step, in any interleaving |
| `FineLogger.v` | the logger's period tasks in pieces, interleaved with each other, submissions and requests |
| `FineCA.v` | the CA's period tasks, handlers of proofs and requests in pieces, in any interleaving |
| `Fine.v`, `FineGossiper.v` | the gossiper's handlers, timers and period task with their lock calls, one map access at a time |
| `FineNet.v` | networks of such gossipers, and the whole system with them |
| `Routes.v` | the route tables of loggers, CAs, monitors and gossipers, and the paths used by senders |

Specifications: `Spec*.v` contain the vocabulary of the theorem statements, written without the model's helpers where possible.
Proofs: `*Facts.v` (`LocksFacts.v`: a lock discipline and what follows from it), `*More.v`, `GWalk.v`, `Gossiper*.v`, `Network*.v`, `Duty.v`, `DutyMore.v`, `Credit*.v`, `Overlap*.v` except `Overlap.v`, `Detect*.v`, `Accuse*.v`, `System*.v` except `System.v`. Counterexamples and concrete instances: `Refute*.v`, `Toy.v`, `ToyFacts.v`.
`Props_*.v` contain only the property theorems, each closed by `exact lemma`, each followed by `Print Assumptions` and by
`Example`s that meet its hypotheses.

## Modelling decisions

* Go strings and byte slices are Coq `string` (lists of 8-bit characters). Go maps are std++ `gmap`. Map iteration order is
  unspecified in Go; results that depend on it are stated up to permutation or as set membership.
* A Go `panic` or `log.Fatal` is an explicit outcome, never a default value.
* Cryptographic primitives (RSA, BLS, SHA-256) are fields of a record `prims`. Theorems quantify over every such record.
  Where a law of a primitive is needed (signing verifies, aggregation is correct, signatures cannot be forged) it is a hypothesis of
  the theorem, and a concrete record meeting it is given (`toy`, `ideal`). Collision resistance is never assumed: theorems that need it
  return an explicit collision as an alternative.
* Signature strings are modelled concretely (JSON text with hex), because several properties turn on their syntax.
* Handlers are programs in a small monad whose steps are the lock-protected critical sections of the Go code. The same
  program is run in one piece (sequential semantics) and interleaved with others (concurrent semantics). `time.AfterFunc` and `go`
  create tasks the scheduler may start at any later time: this over-approximates every timing.
* Requests carry arbitrary objects: the network is fully adversarial unless a theorem says otherwise.
* A property that is false of the code is kept as stated. Its theorem `..._refuted` exhibits a counterexample that the code reaches, and
  `..._partial` theorems prove the strongest version found that holds. Its status in the manifest is `partial`.

## Per property

| id | model | how | status | remarks |
| --- | --- | --- | --- | --- |
| C01 | Verify.v | equivalence with the acceptance relation of SpecVerify.v, by cases on the type | proved | Equivalence with the acceptance rule of SpecVerify.v, irrelevance of all other fields, rejection of unknown types, and the only source of panics. |
| C02 | Verify.v, Crypto.v | codec round trip composed with correctness of the primitives | proved | For INIT, FRAG and FULL objects; the laws of the primitives (signing verifies, serialisation round-trips, aggregation correct and order independent) are hypotheses, met by the record toy. |
| C03 | Verify.v | refutation with ideal signatures (RefuteVerify.v); what the check implies, by inversion | partial | REFUTED: Verify does not compare the number of identities with Threshold; one fragment re-encoded as an aggregate is accepted. Proved: every registered identity listed signed; the claim holds when the list has Threshold distinct registered identities. |
| C04 | Verify.v | refutation with ideal signatures (RefuteVerify.v); what the check implies, by inversion | partial | REFUTED: the identity in the signature is not compared with payload 0. Proved: whoever is named in the signature signed; the claim holds if that identity equals payload 0. |
| C05 | Verify.v | refutation with ideal signatures (RefuteVerify.v); what the check implies, by inversion | partial | REFUTED: any single valid RSA signature, by anybody, convicts any entity. Proved: both signatures were made by the identities named in them. |
| C06 | Types.v | string lemmas; refutation by shifting a character | partial | REFUTED: fields are concatenated without separators. Proved for payloads with equal field lengths. |
| C07 | Types.v | case analysis; refutation for the printed form | proved | Also: the printed form of an identifier is ambiguous (refuted). |
| C08 | Gossiper.v, Prog.v | invariant over event lists and over interleavings without wipes; refutation by an explicit schedule | partial | REFUTED for a period change interleaved with a handler: WipeStorage rebuilds storage from a snapshot and loses an entry added meanwhile. Proved for all histories of whole requests, timers and period changes, and for all interleavings without the period change. |
| C09 | Gossiper.v | closed forms of handlers on an arbitrary state (GossiperStep.v) | partial | REFUTED at the HTTP handler: an oversized REV_INIT is cached and a REV_FRAG is stored and relayed under the empty entity before the blacklist test. Proved for Handle_Gossip_object, for signing timers, and for every other request. |
| C10 | Gossiper.v | computation on an arbitrary state | proved | For every state; the save/wipe task is run as one piece (see C08 for interleavings). |
| C11 | Gossiper.v, Prog.v | invariant kept by every atomic action under interference (GWalk.v), hence by all interleavings | proved | For every interleaving of requests, timers, ticks and period changes. |
| C12 | Gossiper.v | invariant over traces; refutation by computation | partial | REFUTED: fragments are counted unverified, and Handle_OBJ_FULL ignores the result of Store. Proved: every other object sent to the monitor or to gossipers was verified. |
| C13 | Gossiper.v, Prog.v | invariant kept by every atomic action under interference (GWalk.v), hence by all interleavings | proved | For every interleaving. |
| C14 | Gossiper.v, Prog.v | invariant kept by every atomic action under interference (GWalk.v), hence by all interleavings | proved | For every interleaving; ghost events record the returned values. |
| C15 | Gossiper.v | closed forms of handlers on an arbitrary state (GossiperStep.v) | proved |  |
| C16 | Gossiper.v | invariant over sequential histories (GossiperConflict.v); refutation by schedule or history | partial | REFUTED when two handlers are interleaved: both pass the test before either stores. Proved, with the exact new state and messages, for all histories of whole requests. |
| C17 | Gossiper.v, Prog.v | invariant kept by every atomic action under interference (GWalk.v), hence by all interleavings | partial | REFUTED under interleaving when copies with an empty Signer field are delivered. Proved for all interleavings if delivered statements of the entity have a non-empty Signer. |
| C18 | Gossiper.v | closed forms of handlers on an arbitrary state (GossiperStep.v) | proved | For every reachable state, positive threshold. A new statement with empty Signer is treated as conflicting (see C17). |
| C19 | Gossiper.v | round trip | proved |  |
| C20 | Gossiper.v, Prog.v | invariant kept by every atomic action under interference (GWalk.v), hence by all interleavings | proved | For every interleaving; the blacklist is read once, when the timer fires. |
| C21 | Gossiper.v | invariant over sequential histories (GossiperConflict.v); refutation by schedule or history | partial | REFUTED: statements of one entity that name different signers do not conflict, and both are signed. Proved for histories in which the Signer field is determined by the identifier. |
| C22 | Gossiper.v | recursion carries fuel; fuel three is never exhausted | proved | Recursion with fuel: fuel three gives the same result as any more, and running out of fuel is unreachable. |
| C23 | Gossiper.v | invariants (sequential and interleaved); refutations | partial | REFUTED: an RSA signature naming an unknown identity panics; a period change between two critical sections panics on valid objects. Proved: none of the two, no panic (whole requests with period changes; interleaved requests without). |
| C24 | Gossiper.v | closed form of aggregation (GossiperFrag.v); refutation by history | partial | REFUTED at a period boundary: the period is read from the clock when aggregating. Proved when the clock still shows the fragments' period. |
| C25 | Gossiper.v | non-interference, by walking the handlers (GossiperLocal.v) | partial | REFUTED at the HTTP handler for a REV_FRAG without cached payload (filed under the empty entity). Proved for Handle_Gossip_object in full, and for all other deliveries. |
| C26 | Crypto.v | parser/printer round trip by induction; refutation for quotes | partial | REFUTED for identities with quotes (injection exhibited). Proved for identities without quotes, backslashes and control characters; injectivity holds for all. |
| C27 | Crypto.v | parser/printer round trip by induction; refutation for quotes | proved | Identities of a fragment without quotes, backslashes and control characters; any identities for aggregates. |
| C28 | Crypto.v | permutation and sorting lemmas | proved | Order independence uses order independence of the BLS addition as hypothesis. |
| C29 | Json.v, Types.v | parser/printer round trip by induction | proved | The JSON model copies bytes above 0x7f verbatim, so the statement is about ASCII (and valid UTF-8) contents. |
| C30 | Hex.v, Base64.v, Bytes.v | induction | proved |  |
| C31 | CertPool.v, Logger.v | representation invariant over operation lists; refutations | proved | For every sequence of additions: contents are the first copies in order (two certificates count as copies if subject and encoding agree, which for the encodings-free certificates of loggers and CAs means the same subject); both lookups equal a search of that list, and key lookups stay right through updates that keep names. |
| C32 | CertPool.v, Logger.v | representation invariant over operation lists; refutations | partial | REFUTED twice: a second precertificate with the same subject is dropped (ParseTBSCertificate leaves Raw empty, so all encodings compare equal), and one arriving between building the tree and replacing the pool is in no tree. Proved: within a period every submitted subject verifies against the published root, and with different subjects the tree is over all submissions in order. |
| C33 | Merkle.v | induction over levels; collision extraction; refutations | proved | Any hash function, any number of leaves; also for the object and proofs the logger builds. |
| C34 | Merkle.v | induction over levels; collision extraction; refutations | partial | REFUTED: only the subject is hashed, so another certificate with the same subject is accepted (for every hash function); and inner nodes are accepted as leaves. Proved: with the right proof length the subject is a leaf or a collision between the strings hashed in the check and in the tree is exhibited; with any length the only further exceptions are subjects or leaves that contain hash values. |
| C35 | Logger.v | invariants over histories, case analysis on the configured mode; refutations | proved | Stability of a normal logger's answers, and for each mode the exact condition, over all histories from start-up. |
| C36 | Logger.v | invariants over histories, case analysis on the configured mode; refutations | partial | REFUTED: after minute 59 the head is stored under "60" and minute 0 has none; with less than two certificates the process dies. Proved otherwise: the head is available in the next minute, carries it (unpadded) and verifies. The inner tree head carries the minute of creation instead. |
| C37 | CA.v | induction over histories | partial | REFUTED: the CA's own certificate has identifier 1, as has the first certificate it issues. Proved: the certificates issued have exactly the identifiers 1..n, and every certificate in the pool or finally signed has subject, key and identifier of one issued. |
| C38 | CA.v, Revocation.v, Bitset.v | invariants with an explicit model of the shared bit vector; refutations | partial | REFUTED: after the first period end the "previous" vector is the same pointer as the current one, so later revocations are in no delta. Proved: the deltas contain exactly what was revoked up to the first period end, the vector everything; they agree if nothing is revoked later, as in the pinned program. |
| C39 | CA.v, Revocation.v, Bitset.v | invariants with an explicit model of the shared bit vector; refutations | partial | REFUTED: with a revocation after the first period end the check fails at a receiver that has applied everything. Proved if nothing is revoked later. |
| C40 | CTngExt.v | induction over updates | proved | Over all extensions Go can represent (sizes below 2^31, int and uint32 fields). |
| C41 | Monitor.v | invariants over histories of requests, replies and period tasks; refutations by computation | proved | Every table, every history, including replies, timers and the interleaved steps of the period task. |
| C42 | Monitor.v | invariants over histories of requests, replies and period tasks; refutations by computation | partial | REFUTED: an object delivered on the gossiper's URL is stored and published unverified. Proved: everything stored verified or was delivered there, so it holds if the gossiper delivers only verified objects. |
| C43 | Monitor.v | invariants over histories of requests, replies and period tasks; refutations by computation | partial | REFUTED: a proof that arrives after the update of its period is never published, even when gossiped again. Proved for an uninterrupted end of period: exact contents, each once; statements and proofs that arrive in time are published. |
| C44 | Monitor.v | invariants over histories of requests, replies and period tasks; refutations by computation | partial | REFUTED: the lookup uses period 0, which no gossiper-made conflict proof has; such entities are still queried and published. Proved: exactly which stored proofs stop queries and publication. |
| C45 | Monitor.v | invariants over histories of requests, replies and period tasks; refutations by computation | partial | REFUTED for minutes 0-9 (padded against unpadded period). Proved for a statement whose period is the padded minute, and for loggers' own statements from minute 10 on. |
| C46 | Client.v | equivalence with an independent acceptance rule, invariants over histories; refutations by computation | partial | REFUTED: one tree head signed by an identity without a key, or an issuer without a vector, makes the call panic even though another logger vouches. Proved: exactly when the call accepts and exactly when it rejects (the hash never returns the empty string). |
| C47 | Client.v | equivalence with an independent acceptance rule, invariants over histories; refutations by computation | partial | REFUTED: the vector of a CA is frozen by its first delta (proved for every history); an applied second delta is ignored, and the second delta of an honest CA is refused and locks the client. Proved: what the first delta revokes is rejected from then on, through restarts on saved files. |
| C48 | Client.v | equivalence with an independent acceptance rule, invariants over histories; refutations by computation | partial | REFUTED: the part before the failing object stays applied, and a mutex stays locked, so that no later update is ever applied (proved for every refused update). Proved: what a refused update changes comes from verified objects, and no vector or conviction is lost. |
| C49 | Client.v | equivalence with an independent acceptance rule, invariants over histories; refutations by computation | partial | REFUTED: a restart empties the conviction database, and the field that is looked up is not covered by the signature. Proved: kept through updates and saves, and certificates whose signer fields all name convicts are rejected. |
| C50 | Client.v | equivalence with an independent acceptance rule, invariants over histories; refutations by computation | partial | REFUTED: the type of the object is not checked, so that any tree head of a logger listed as an accusation convicts it. Proved: every conviction stems from a verified listed object, of type ACC_FULL or CON_INIT if the updates list only those. |
| C51 | Gen.v | arithmetic and string lemmas; refutations | partial | REFUTED beyond a thousand entities of a kind: Port_Postfix returns the empty string, all further entities share one URL. Proved: distinct identities, connections and ownership up to a thousand of each kind; logger-to-CA lists and sizes without a bound. |
| C52 | Gen.v | arithmetic and string lemmas; refutations | partial | REFUTED for the list of loggers of a CA (every logger gets the IP of the logger with the number of the CA) and the list of CAs of a logger (not mapped). Proved up to a thousand entities of each kind: identities, key tables, all other lists, connections and owners (owners only if monitor and gossiper share an IP, as in the template). |
| C53 | CryptoIO.v | round trips with key codecs as oracles | proved | The laws of the key encodings (RSA keys survive JSON, BLS keys survive serialisation) are hypotheses; integer fields must fit a Go int. |
| C54 | Network.v Overlap.v | invariant and weight function over all delivery orders of an honest network (NetworkFacts.v); duties and credits over all interleavings (Duty.v, OverlapNode.v, OverlapFacts.v) | partial | REFUTED: with overlapping handlers two copies of a fragment can fill the count at one gossiper, which then makes no fragment of its own, and two of three gossipers end without an aggregate (threshold 3). Proved in full, for all numbers of gossipers, sets of statements and orders of deliveries, timers and clock readings, with one handler at a time; with overlapping handlers, some gossiper gets an aggregate, and all do if no fragment is stored twice, or if the threshold is at most two (C111). Laws of BLS aggregation are hypotheses (met by toy). |
| C55 | Gossiper.v | invariant over sequential histories (GossiperConflict.v); refutation by schedule or history | partial | REFUTED: a statement with another Signer field displaces the first one, which is then accepted and relayed again. Proved for histories in which the Signer field is determined by the identifier. |
| C56 | Gossiper.v | closed form of aggregation (GossiperFrag.v); refutation by history | partial | REFUTED: junk fragments fill the bucket. Proved for a bucket that is empty and a current period without aggregate; laws of BLS aggregation are hypotheses (met by toy). |
| C57 | Logger.v | invariants over histories, case analysis on the configured mode; refutations | partial | REFUTED for equal key identifiers (sending stops) and unreachable CAs (the process dies). Proved for every history if key identifiers in the pool are non-empty and distinct and the issuers reachable. |
| C58 | Logger.v | invariants over histories, case analysis on the configured mode; refutations | proved | For every pool of at least two certificates. |
| C59 | Merkle.v | induction over levels; collision extraction; refutations | partial | REFUTED: repeating the last leaf of an odd list keeps the root. Proved for lists of the same length (the tree size is part of the signed head), with the collision exhibited among the strings hashed for the two trees. |
| C60 | CA.v | invariant over histories of whole handlers; invariant over interleavings of handlers for different certificates (CAPoiPar.v); refutation by interleaving two handlers | partial | REFUTED for two handlers running at once (the update is read-modify-write without a lock) and for a proof arriving before its tree head. Proved for handlers running one after the other, for every history (C60_sequential_partial), and for any number of handlers running at once, in every interleaving, whose proofs are for different certificates (C60_concurrent_partial). |
| C61 | CA.v, Revocation.v, Bitset.v | invariants with an explicit model of the shared bit vector; refutations | partial | REFUTED when the bit 1+OnlineDuration is already in the delta: then both objects are the same. Proved: they are evidence exactly otherwise; both verify. |
| C62 | CA.v, Revocation.v, Bitset.v | invariants with an explicit model of the shared bit vector; refutations | partial | REFUTED at minute 59 (filed under "60"). Proved for every other minute and every history. |
| C63 | CA.v | induction over histories | proved | For all histories from start-up, all modes and non-zero intervals. |
| C64 | Monitor.v | invariants over histories of requests, replies and period tasks; refutations by computation | proved |  |
| C65 | Monitor.v | invariants over histories of requests, replies and period tasks; refutations by computation | proved | For identities without reserved characters (plain_id), as configured. |
| C66 | Monitor.v | invariants over histories of requests, replies and period tasks; refutations by computation | proved |  |
| C67 | Monitor.v | invariants over histories of requests, replies and period tasks; refutations by computation | partial | REFUTED: a signature naming an identity without a key panics the process. Proved if all identities named in answers have keys. |
| C68 | Monitor.v | invariants over histories of requests, replies and period tasks; refutations by computation | partial | REFUTED: only the first delta is kept. Proved: the vector is the delta of some received revocation object of that CA, and never changes. |
| C69 | Monitor.v | invariants over histories of requests, replies and period tasks; refutations by computation | partial | REFUTED for every update: the body is base64 in a JSON string. Proved: the file decodes to the update, and taking off both wrappings gives the update of the period (C69_twice_decoded_partial). |
| C70 | Client.v | equivalence with an independent acceptance rule, invariants over histories; refutations by computation | partial | REFUTED for minutes 0-9: the head in the certificate has an unpadded period, the threshold-signed head a padded one. Proved from minute 10 on. |
| C71 | Client.v | equivalence with an independent acceptance rule, invariants over histories; refutations by computation | partial | REFUTED: any registered RSA key can sign a head for any logger. Proved: every recorded root stems from a verified object that names the logger and the period. Histories without restarts. |
| C72 | Client.v | equivalence with an independent acceptance rule, invariants over histories; refutations by computation | proved | The conviction file also reads back, although nothing reads it. White space of MarshalIndent and the order of keys: see C135. |
| C73 | Client.v | equivalence with an independent acceptance rule, invariants over histories; refutations by computation | partial | REFUTED: the minute of the hour is the key, so that the head of an hour later replaces the root. Proved: updates with no head for its keys and no proof against its loggers do not change the verdict. |
| C74 | Client.v | equivalence with an independent acceptance rule, invariants over histories; refutations by computation | partial | REFUTED: a signature of an unknown identity, or an unreadable revocation payload, panics. Proved when every identity named in the signatures has a key. |
| C75 | Client.v | equivalence with an independent acceptance rule, invariants over histories; refutations by computation | partial | REFUTED for all published heads: their payload is hexadecimal, not JSON. Proved for payloads that are JSON objects. |
| C76 | Client.v | equivalence with an independent acceptance rule, invariants over histories; refutations by computation | proved |  |
| C77 | CryptoIO.v | round trips with key codecs as oracles | partial | REFUTED: the verify-only reader drops the error of reading the file and returns an empty configuration with a nil error; a field of the wrong type is dropped silently by every reader. Proved: the full reader reports every file that is not JSON. |
| C78 | CryptoIO.v | round trips with key codecs as oracles | proved |  |
| C79 | CryptoIO.v | round trips with key codecs as oracles | proved |  |
| C80 | Gen.v | arithmetic and string lemmas; refutations | partial | REFUTED: the revocation delay is ignored, the merge delay is written twice. Proved: merge delay and number of certificates. |
| C81 | Gen.v | arithmetic and string lemmas; refutations | proved | Correctness of RSA and BLS signatures and key encodings are hypotheses. Fragments need at least two gossipers: key generation refuses a threshold below two. |
| C82 | Gen.v | arithmetic and string lemmas; refutations | partial | REFUTED: with an odd number of loggers the middle one is assigned twice. Proved: exactly when; and when generation panics. |
| C83 | Gen.v | arithmetic and string lemmas; refutations | proved |  |
| C84 | Network.v Overlap.v | invariant and weight function over all delivery orders of an honest network (NetworkFacts.v); duties and credits over all interleavings (Duty.v, OverlapNode.v, OverlapFacts.v) | partial | REFUTED in its second half: with overlapping handlers there can be fewer messages. The bound is proved for all interleavings (C87); the exact number with one handler at a time. |
| C85 | Network.v | instance of C54; refutations by explicit runs | partial | REFUTED: in optimisation mode fragments of REV statements below the limit lose their payload at every receiver, and fragments of large ones lose it if they overtake the statement. Proved with the mode off and statements and fragments below the limit. |
| C86 | Network.v | invariant and weight function over all delivery orders of an honest network (NetworkFacts.v) | partial | REFUTED: handlers of two copies of one fragment both pass the duplicate test and both store it. Proved for honest networks with one handler at a time. |
| C87 | Overlap.v | per-thread duties and credits, an invariant of all interleavings (Duty.v, OverlapNode.v, OverlapFacts.v) | proved | Every interleaving of the atomic steps of the handlers and signing timers of each gossiper, and every delivery order. |
| C88 | Overlap.v | per-thread duties and credits, an invariant of all interleavings (Duty.v, OverlapNode.v, OverlapFacts.v) | proved | Every interleaving of the atomic steps of the handlers and signing timers of each gossiper, and every delivery order. |
| C89 | Network.v | invariant over all runs: every gossiper that knows a version has told every other, or the post is on its way (DetectNode.v, DetectStep.v, DetectFacts.v) | partial | REFUTED: anybody can hand in one of the two statements again under another signer name and with its signature text spelled differently; the copy overwrites the stored statement everywhere, and the conflicting one is then accepted. (With overlapping handlers detection fails at one gossiper already, C16.) Proved for one handler at a time when nobody hands in other versions under other names, accusations of the same entity, or versions too large to be sent directly; any other objects may be handed in. |
| C90 | Network.v | invariant over all runs: the accusation fragments a gossiper holds have different signers, are threshold many exactly if the entity is blacklisted, and are known to or on their way to all others (AccuseNode.v, AccuseStep.v, AccuseFacts.v) | partial | REFUTED: fragments are stored unverified, so one made-up fragment of an accusation, handed in by anybody, ends in every aggregate and no aggregate verifies. Proved for one handler at a time when nobody hands in other objects made from accusations of the entity, conflict proofs about it, or second versions of its statements; objects about other entities are arbitrary. |
| C91 | Network.v | invariant over all runs: the accusation fragments a gossiper holds have different signers, are threshold many exactly if the entity is blacklisted, and are known to or on their way to all others (AccuseNode.v, AccuseStep.v, AccuseFacts.v) | partial | REFUTED: gossipers sign every accusation that carries a valid RSA signature of any known party, so one accusation handed to threshold gossipers is enough; and the duplicate test also compares a second signature that fragments do not use, so the same fragment under a changed second signature counts again. Proved under the conditions of C90 that threshold different gossipers were handed an accusation. (With overlapping handlers two copies of one fragment count twice, C86.) |
| C92 | System.v | invariant over all runs of the whole system: what every message, table and goroutine may contain about the entity (SystemNode.v, SystemFacts.v, SystemHonest.v) | proved | Full. The gossipers' handlers are interleaved at every atomic step; the handlers of the other entities are single steps (System.v). |
| C93 | System.v | invariant over all runs of the whole system: what every message, table and goroutine may contain about the entity (SystemNode.v, SystemFacts.v, SystemHonest.v) | partial | REFUTED: what is published in minute 59 is filed under minute 60, and a query in minute 0 gets an empty object; all monitors accuse the logger, and all gossipers blacklist it. Proved for queries in minute n + 1 after a publication in minute n, in any system and whatever the other entities do. |
| C94 | Overlap.v | invariant over all interleavings: until one is stored no version is on its way; the gossiper that stores the first one stores only its own, and every other version that arrives there leads to a proof (DutyMore.v, OverlapDetectNode.v, OverlapDetectNet.v) | partial | REFUTED: a handler looks for another version before it stores its own, without holding a lock in between; if this happens at every gossiper at the same time, each overwrites the other version and nobody notices, although both versions were handed to them. Proved for all interleavings when no gossiper is itself handed two versions (different gossipers may be), with the conditions of C89 on the other objects. |
| C95 | Pem.v, Disk.v | decoding encoded text, and every beginning of it, by lemmas about searching and cutting strings (PemFacts.v, DiskFacts.v); refutations by example | proved | PEM text, base64 and line breaks are modelled character by character; PKCS #8 encoding of keys is a parameter whose decoding inverts it. A read returns the whole file. |
| C96 | Pem.v, Disk.v | decoding encoded text, and every beginning of it, by lemmas about searching and cutting strings (PemFacts.v, DiskFacts.v); refutations by example | proved | Crash points are after every character written (pem.Encode writes sequentially). |
| C97 | Pem.v, Disk.v | decoding encoded text, and every beginning of it, by lemmas about searching and cutting strings (PemFacts.v, DiskFacts.v); refutations by example | partial | REFUTED: the file is emptied when it is opened, so an interruption loses the old certificate (C97_interrupted_refuted), and SaveKeyToDisk opens the file before it encodes the key, so that a key that cannot be encoded wipes out the old one (C97_failed_refuted). Proved: a certificate file that cannot be opened for writing stays as it was; see also C96. |
| C98 | Pem.v, Disk.v | decoding encoded text, and every beginning of it, by lemmas about searching and cutting strings (PemFacts.v, DiskFacts.v); refutations by example | partial | REFUTED: the type of the block is not looked at, so a private key is returned as a certificate. Proved: an error if there is no BEGIN marker. Malformed blocks are covered by C96 only for truncated text. |
| C99 | Pem.v, Bundle.v | induction over the blocks (BundleFacts.v) | proved | Comments without dashes, types without dash, colon and newline, any text without a BEGIN marker after the last block; x509.ParseCertificate is a parameter. The pool is any made by adding certificates. |
| C100 | Disk.v | induction over the depth and the listing (DiskFacts.v) | proved | Paths are lists of components; no symbolic links; nobody else changes the file system meanwhile. |
| C101 | Sample.v, Revocation.v | induction over the draws (SampleFacts.v) | proved | The number of bits, int(float64(totalBits) * density), is a parameter: floating point is not modelled. |
| C102 | Sample.v, Revocation.v | induction over the draws (SampleFacts.v) | partial | REFUTED: with a ratio above 1 the loop never ends (C102_refuted, for every sequence of draws), and the CA's periodic task hangs. Proved: it ends as soon as enough different numbers have been drawn. |
| C103 | System.v | every part of the system goes through a history of its own (SystemRuns.v, SystemDetect.v: induction over the history of the system); detection in the network (C94) is lifted, extended by the report to the owner, followed through the mail to the monitor, its update (C43) and the client (C47) | proved | For every fully connected system and every history of one period in which everything is delivered. C94 shows the race that occurs if one gossiper is given both versions; C90 and C91 show what accusations about the same entity do. |
| C104 | Schedule.v | closed form of the time of the k-th run, integer arithmetic; for C105 combined with the histories of logger and CA (ScheduleFacts.v) | partial | REFUTED: each timer is set relative to the previous run, so if timers are late by any amount, a minute is skipped sooner or later (C104_late_timers_refuted, for every start); and with an MMD that is not a multiple of 60 processes do not start at a full minute. Proved with MMD 60 while the delays add up to less than a minute (less a second or two). |
| C105 | Schedule.v | closed form of the time of the k-th run, integer arithmetic; for C105 combined with the histories of logger and CA (ScheduleFacts.v) | partial | REFUTED in the first minute of every hour, for every history. Proved in all other minutes while the timers' delays add up to less than 19 (18) seconds; the time of day is carried along the history. |
| C106 | Schedule.v | closed form of the time of the k-th run, integer arithmetic; for C105 combined with the histories of logger and CA (ScheduleFacts.v) | proved | MMD 60; the sum of waiting, delays and twice the difference of clocks is below a minute. |
| C107 | Schedule.v | induction over the random numbers (ScheduleFacts.v) | partial | REFUTED: with equal (or swapped) limits the loop never ends, so nothing is ever sent. Proved otherwise: it ends with the first random number below 1. Random numbers are non-negative rationals. |
| C108 | Extras.v | case analysis and induction over lists (ExtrasFacts.v); refutations by example | partial | REFUTED: the handler does not call the check, so a certificate signed by nobody is logged. Proved: the function meant for it, Verifyprecert, accepts exactly what it should, in particular everything an accepted CA issues. |
| C109 | Extras.v | case analysis and induction over lists (ExtrasFacts.v); refutations by example | partial | REFUTED: LoadOneStorage falls through to the error Mismatch on every path. Proved: its effect on the storages. |
| C110 | Extras.v | case analysis and induction over lists (ExtrasFacts.v); refutations by example | partial | REFUTED: it panics if the list is empty (the test is len == 0 && [0] != nil), and returns neither certificate nor error without TLS. Proved: it returns a certificate exactly if it is the first one presented. |
| C111 | Overlap.v | credits of goroutines bound the copies of each fragment; the first gossiper other than the signer to store a fragment stores it once (Credit.v, CreditNode.v, OverlapSmall.v) | proved | Neighbour lists without repetitions, as generated. A threshold of three is refuted by C54_overlapping_handlers_refuted. Laws of BLS aggregation are hypotheses (met by toy). |
| C112 | System.v | every object in the mail and in the network stems from what gossipers were told (invariant over histories of the system, SystemDeliver.v); convergence (C111) is lifted, followed through the report to the owner, the update file and the client | proved | Above two, the condition that no fragment is stored twice is needed, as shown by C54_overlapping_handlers_refuted. Assumed: the monitors' reports are not lost, nobody outside sends objects to monitors posing as a gossiper, clocks stay in the period, the client can use the statements (usable). Laws of BLS aggregation are hypotheses (met by toy). |
| C113 | System.v | every object in the mail and in the network stems from what gossipers were told (invariant over histories of the system, SystemDeliver.v); convergence (C111) is lifted, followed through the report to the owner, the update file and the client | proved | Hypotheses as C112, and that sha256 never returns the empty string; no head in the certificate makes the verification panic. |
| C114 | Gossiper.v, Logger.v, Revocation.v, Monitor.v | case analysis (ObjectsFacts.v) | proved |  |
| C115 | Overlap.v, Gossiper.v | invariant and duties of every handler at one gossiper, kept by every step of any interleaving (OverlapAccuseNode.v, with Duty.v and DutyMore.v), then an invariant over runs of the network and a counting argument at rest (OverlapAccuseNet.v) | partial | REFUTED: with threshold two and three gossipers, one of the two accusers has stored the other one's fragment twice, blacklists the entity itself and makes no fragment, and the third gossiper never learns. Proved for every interleaving in which the accusers have not stored a fragment twice; undisturbed as C90. Laws of BLS aggregation are hypotheses (met by toy). |
| C116 | Overlap.v, Gossiper.v | invariant and duties of every handler at one gossiper, kept by every step of any interleaving (OverlapAccuseNode.v, with Duty.v and DutyMore.v), then an invariant over runs of the network and a counting argument at rest (OverlapAccuseNet.v) | partial | REFUTED: one accusation handed to one gossiper, and nothing else: its fragment reaches another gossiper over two paths, is stored twice and aggregated with itself. Proved for every interleaving: threshold fragments are stored, all by gossipers that were handed an accusation. |
| C117 | Gossiper.v | a relational walk over all programs (GWalk.v) shows that only the end of a period changes the log and that the times change only to the current second (RecordFacts.v, ConvergeFacts.v); induction on the history | partial | REFUTED: an entry is replaced by the one of the same minute an hour later (C117_kept_refuted). C117_history_partial says exactly which entry there is after every history; C117_recorded what the end of a period does; C117_handlers that no handler changes an entry, for every interleaving. Traffic counters and Timerlist are not modelled. |
| C118 | Logger.v | the pool is shown to be the first copies of what was submitted since the last end of a period; induction on the list of proofs to send (StopsFacts.v) | proved | C118_stops_only for all histories, C118_stops_exactly as an equivalence if no key identifier is used twice (otherwise sending may end early without a stop). A body that is not a certificate ends the process too (log.Fatalf, see C32/C108) and is not an event here. |
| C119 | Gossiper.v | a relational walk over all programs (GWalk.v) shows that only the end of a period changes the log and that the times change only to the current second (RecordFacts.v, ConvergeFacts.v); induction on the history | partial | REFUTED: the times are never reset, so a period without convergence is recorded with the time of an earlier one (C119_stale_refuted). What holds: times change only to the current second (C119_current_partial), and do so when the last statement or aggregate arrives (C119_statements_partial, C119_finals_partial). |
| C120 | System.v | the gossipers' part of a history of the system is a history of the network (SystemRuns.v), to which C115 and C116 apply; messages and reports are followed until they arrive; then the update of the period (C103) with the list of accusations instead of proofs (SystemAccuse.v) | proved | The whole chain from the timers of the monitors to the clients. The proviso that no accuser stores a fragment twice cannot be dropped (C115_overlapping_refuted). Losses are excluded by messages_arrived and reports_arrived; which update contains the aggregate is fixed by g_period full = pad2 m. |
| C121 | System.v | invariant over all histories: every answer of the CA is an object it made at an earlier end of a period, for the right minute, from a vector that is in order; such an object passes Verify and VerifySRH at a monitor with the right record (SystemCA.v), so C92 applies; the run around the hour is computed (RefuteSystemCA.v) | partial | REFUTED: the object made in minute 59 is filed under minute 60, and a query in minute 0 gets an empty object; all monitors accuse the CA and all gossipers blacklist it. Proved for queries in minute n + 1 after a period that ended in minute n, in any system and whatever the other entities do, for all revocations. C121_unrecorded_accused shows that the condition on the records is needed: without it every such object sets off an accusation (see also C39_late_refuted). It assumes a hash without collisions and a key that accepts only what was signed. |
| C122 | BlsId.v | the hexadecimal text of a name is read back as its number in base 256 (induction over the name); numbers of names without leading zero byte determine the name | partial | REFUTED: a name and the same name after a zero byte have one identifier; names of 33 bytes or more (not beginning with zero) have none, and generating keys for them panics; the mapping back gives 32 bytes, so it is wrong for every other name. Proved: names not beginning with a zero byte have different identifiers; exactly which names have one; the outcome of the generation of keys for every list of names; all generated deployments up to 1000 gossipers are fine. What the BLS library does with hexadecimal text is taken from its documentation. |
| C123 | System.v | a pending timer stays in the state of the monitor until it fires, in every history of the system; firing sends the accusation; then C120 (SystemSilent.v) | proved | The whole chain from a bad answer to the clients. The provisos on losses and on fragments stored twice are those of C120. C123_query_ends and C123_down_no_answer: a query never just vanishes, and that of an entity that does not run fails. |
| C124 | System.v | a CA in the system goes through a history of a CA with the same revocations and period ends (ca_history), so C38 applies; the delivery is C112; what a client has recorded of a CA is kept by every event of the system (SystemRevoke.v) | proved | Later objects of a CA do not have this effect: see C47. Restarts of a client: C47, C72. |
| C125 | System.v | an invariant of the CA and one of the logger over the events of the system (ca_keeps, log_run), with C33/C57 for the tree and C60 for the extension (SystemIssue.v); the refutation is a run of a system with two CAs (RefuteSystemIssue.v) | partial | REFUTED: every CA names the subjects of its certificates "Testing Dummy 1", "Testing Dummy 2", ..., and a logger keeps one precertificate per subject, so of two CAs that issue in the same period the one whose precertificates arrive later gets no proof (C125_two_cas_refuted). Proved: in every history of the whole system in which the subject is new to the logger, keys differ, the issuers are running, the tree head arrives before the proof and neither the logger nor the CA changes the period in between, the signed certificate lists the published tree head with a valid proof (C125_included_partial, which also says that each message is really sent). |
| C126 | System.v | composition of C125 and C93 over one history (SystemAccept.v); example: a run of the small system (RefuteSystemAccept.v) | partial | Proved under the conditions of C125 (a subject new to the logger, different keys, the tree head arriving before the proof, no change of period in between) and of C93 (a period without losses that comes to rest); without them it is refuted by C125_two_cas_refuted and by the refutations of C60 and C93. The theorem composes the two over one history of the whole system; a run of the small system meets all hypotheses (C126_ex). |
| C127 | Locks.v, LockUse.v | a lock discipline (locks in the order of a rank, maps only under their lock) with an invariant over all interleavings that counts holders (LocksFacts.v); every function of the storage checked against it (LockUseFacts.v); refuted by schedules (RefuteLocks.v) | partial | REFUTED: the task at the end of a period ranges over the fragment maps without a lock and then overwrites the struct that contains the locks; so it can collide with a handler, end the process by making a handler unlock a lock that is no longer locked, and let two handlers into one critical section (C127_period_end_refuted). Proved: without that task, for any number of handlers and timers and every interleaving, no collision on any map, no misuse of locks, no deadlock, all goroutines can finish, and a critical section is not disturbed, which is what the atomic actions of Gossiper.v assume. |
| C128 | Locks.v, LockUse.v | as C127 | partial | REFUTED: the maps of new proofs and of revocation vectors are accessed without a lock or partly without, the checks for misbehaviour, the timers and the period task use no locks (C128_monitor_maps_refuted, five schedules). Proved: no misuse of locks, no deadlock, all goroutines can finish; receiving and storing objects never collides on the five maps the objects are kept in. |
| C129 | Locks.v, LockUse.v | as C127 | partial | REFUTED: receive_poi reads the map of tree heads without the lock receive_sth writes it under, and the period tasks use no locks for their maps (C129_ca_maps_refuted). Proved: no misuse of locks, no deadlock, all goroutines can finish; request handlers collide at most on the map of tree heads, and tree heads alone do not collide. |
| C130 | Locks.v, LockUse.v | as C127 | partial | REFUTED: publishing writes the maps of tree heads without the lock requests hold (C130_logger_maps_refuted). Proved: no misuse of locks, no deadlock, all goroutines can finish; requests never collide with each other, and adding precertificates never collides with anything, also while the logger publishes (which starts a new pool; in the model it is the same map). |
| C131 | Gossiper.v | closed form of the three handlers in every reachable state (Fetch.v); instances and copies with one hash (RefuteFetch.v) | partial | REFUTED in two ways: an object that arrives in a request without a Content-Length above the threshold (a chunked body) is announced but not cached, so no neighbour gets it (C131_uncached_refuted, for every state); and the hash is taken of the concatenated fields, so a gossiper that holds a copy with the payload split at another place does not ask (C131_same_hash_refuted). Proved: if the size is announced, the object is cached and announced, every gossiper whose cache has no object with this hash asks, and the answer is the object as long as it is cached. |
| C132 | Fine.v, FineGossiper.v | forward simulation: a goroutine inside a critical section is related to the atomic step it has not yet committed, stable as long as the tables whose locks it holds are unchanged; an invariant counts the holders of each lock (FineFacts.v); every function of the gossiper related to its atomic version (FineGossiperFacts.v); a lost fragment with the period task (RefuteFine.v) | partial | REFUTED: the task at the end of a period replaces maps and locks while a handler is inside a critical section; a second handler enters it, and a fragment that was counted is lost, which no run with uninterrupted critical sections does (C132_period_end_refuted). Proved: without that task, for every interleaving of single lock operations and map accesses, the state (with the trace of messages), the timers and the panics are those of a run of Gossiper.v in which critical sections are atomic; hence every theorem about reachable states or interleavings without the task carries over, three of which are spelled out. |
| C133 | Routes.v, System.v | invariant on the posts of one gossiper under every interleaving and on all mail of the system (RoutesFacts.v); the tables are searched path by path | proved | The behaviour of gorilla/mux with StrictSlash and of http.Client after a redirection is modelled in Routes.v from their documentation. |
| C134 | FineNet.v, FineGossiper.v, Overlap.v, System.v | simulation: the relation of FineFacts.v between goroutines, lifted to all gossipers and to the system; each fine step is matched by one coarse step or none (FineNetFacts.v) | proved | The task at the end of a period is excluded by the statement: with it the comparison fails (C132_period_end_refuted). C134_stored, C134_aggregates, C134_unharmed, C134_traffic and C134_normal_logger are consequences for networks and systems with interruptible critical sections; other theorems about Overlap.v and System.v carry over in the same way. |
| C135 | JsonFile.v, Client.v, CryptoIO.v | printing and parsing with white space (IndentFacts.v), invariant on the vectors of a client over its life (JsonFileFacts.v) | proved | The files are those of JsonFile.v (permissions are a parameter); no proper prefix matters here: the save is complete. |
| C136 | JsonFile.v, Client.v | no proper prefix of an indented object parses (JsonPrefix.v), cases over the states of a save; the fatal moments are exhibited for every client | partial | REFUTED: WriteData empties the file before writing. An interruption between the opening and the completion of the file of revocation vectors makes every later start end in log.Fatal until somebody repairs the file, and one during the writing of the tree heads makes the client start without tree heads, so that it accepts no certificate (C136_interrupted_refuted, for every client and every save; C136_fatal_moments). Proved: the client never starts with a mixture within one database: the heads are the old, none or the new, the vectors the old or the new. |
| C137 | JsonFile.v, Monitor.v | cases over the states of SaveStorage; prefixes do not parse (JsonPrefix.v) | proved | Periods contain no slash (those a monitor makes have none; what happens with a slash is C138). Creating directories and files is modelled step by step, writing character by character. |
| C138 | JsonFile.v | path resolution; refutation by computation | partial | REFUTED: the string becomes part of a path, and ../ leaves the directory of the monitor: a monitor without any update serves the update of another (C138_own_updates_refuted). Proved: with no slash in the string, the answer depends only on the monitor's own file for that period. |
| C139 | JsonFile.v, CryptoIO.v | cases over the states of a write; prefixes do not parse (JsonPrefix.v), and what the readers make of text that does not parse (CryptoIOFacts.v) | partial | REFUTED: a verify-only crypto configuration loads without an error and without any key in every state between the start and the end of writing (C139_verify_only_refuted). Proved for party configurations, generated configurations and complete crypto configurations (the latter if the empty string does not decode as a threshold key). |
| C140 | JsonFile.v, Client.v | induction over histories: where roots and vectors in memory and in the files come from (StoryFacts.v) | proved | That the client may instead not start at all, or start without tree heads, is C136; that convictions are forgotten at every restart is C49. |
| C141 | FineMonitor.v | invariants by induction over events: provenance of stored objects, goroutines and outputs; a count of pending accusations | proved | In the model with a step for every access to a storage. |
| C142 | FineMonitor.v | invariant on the loops of the task: what is not yet cleaned is still to be produced; refutation by computation | partial | REFUTED: a final statement that arrives after the task has cleaned the storages is published (C142_withheld_refuted). Proved: with the proof held, no update begun later has a statement of the entity, if no final statement of the entity is received meanwhile or on its way into the storages, whatever else interleaves. |
| C143 | FineMonitor.v | refutation for all vectors by a constructed schedule; invariant on goroutines about to record | partial | REFUTED: two timers of one CA can both find no vector and then both record theirs, so that any vector is replaced by any other (C143_replaced_refuted). Proved: it stays as it is if no timer that has already looked is about to record; and it always comes from a final statement of the CA that was received. |
| C144 | FineMonitor.v | invariants on goroutines that check before an accusation; refutation by computation | partial | REFUTED: the statement can arrive after the timer has looked for it, and the accusation is still sent (C144_in_store_refuted). Proved: it was missing when the timer looked; and with a conflict proof held no accusation is sent, unless the monitor has just looked for one. |
| C145 | FineMonitor.v, Monitor.v | simulation: solo runs of each goroutine; for the task an invariant that what remains to be done leads to the same end, and a measure (entries still to be met) | proved | The two models of the monitor (Monitor.v, one step for each handler; FineMonitor.v, one step for each access to a storage) agree on runs without overlap; the task for every order of map entries. The update is equal up to the order within its lists, which the code does not fix. |
| C146 | FineLogger.v, Logger.v | invariant by induction over events: what the pool, the storages and every running task hold, and what was posted; simulation for a task alone | proved | In the model with a step for every access to the pool and the storages and for every post; several tasks may run at once. |
| C147 | FineLogger.v | invariant on the one running task and the growing pool (submissions: FineLoggerLate.v); refutation by computation | partial | REFUTED: if a second task empties the pool while the first still sends proofs, the lookup of a certificate gives nil and the process dies (C147_overlap_refuted); and what is submitted while a task runs is thrown away when it ends (C147_late_refuted). Proved: with one task at a time, and one subject for each key identifier, every certificate in the pool at its start gets its proof, whatever is submitted or asked meanwhile, and the process survives; so a precertificate with a new subject that arrives while no task runs gets its proof from the next task (C147_submitted_partial). |
| C148 | FineLogger.v | induction over events; refutation by computation | partial | REFUTED: two tasks of one minute store different heads for the next minute, and two monitors get heads that convict the logger (C148_two_heads_refuted). Proved: the answer is the same while no task for that minute is about to store its head. |
| C149 | FineCA.v | invariant by induction over events: at most one issuing task, the counter and the identifiers; refutation by computation, for every configuration | partial | REFUTED: two period tasks that issue at the same time read the same counter, and two certificates with different keys get one identifier and one name, so revoking one revokes the other (C149_overlap_refuted). Proved: as long as a task starts only when no other one is still issuing, the identifiers are 1, 2, 3, ... whatever else goes on; and in every interleaving only signed certificates are posted, to configured loggers. |
| C150 | FineCA.v, CA.v | invariant by induction over events: what the storages and every running task hold; simulation for goroutines that run alone | proved | In the model with a step for every access to the counter, the pool and the storages and for every post; several tasks, handlers and requests may run at once. |
| C151 | FineCA.v | induction over events; refutations by computation and an invariant on deltas, for every configuration | partial | REFUTED: the timer of the second part of a task starts when its certificates have been sent, so a slow task and a fast next one can end in the same minute. The second one overwrites the revocation object of the first by one with an empty delta: two monitors that ask before and after it get objects that convict the CA (C151_two_objects_refuted), and if nobody asked before, the revocations of the first are in no answer ever (C151_lost_refuted). Proved: the answer is the same while no task for that minute is about to store its object. |
| C152 | FineCA.v, CTngExt.v, CertPool.v | invariant by induction over events: pool, its index by key identifier, stored heads and what every running handler holds; the lost proof by computation; entries stay, by induction over the continuation (FineCAKept.v) | partial | REFUTED: of two proofs for one certificate that are handled at once, one is lost, because the certificate is read before the lock is taken (C152_lost_refuted). Everything else holds in every interleaving: names, key and identifier are those of a signed certificate, entries are received proofs for the key with received, verified heads of the same logger or none, no logger twice (C152_sources_partial); and an entry stays unless the pool is replaced or a handler that read the certificate before it was made writes back (C152_kept_partial). A handler whose steps follow each other files its proof, unless the signer is already listed (C152_filed_partial). Assumed there: extensions below 2 GiB (encoding/asn1), 32-bit paths, fewer than 2^63-1 certificates. |
| C153 | FineCA.v, CA.v, CTngExt.v | invariant by induction over events: pool and running tasks hold nothing queued for signing, what was signed is well formed | proved | The encoders of crypto/x509 are parameters (what the standard extensions are, how fields are encoded); assumed: no standard extension has the CTng object identifier. |

## Trusted base

* The Coq 8.16.1 kernel, including `vm_compute` (used in counterexamples and examples).
* `Print Assumptions` stands under every theorem in `Props_*.v`; every one prints "Closed under the global context". No axiom is
  used. Loading std++ loads Coq's `ssr` library, whose module type `Coq.ssr.ssrunder.Under_rel` declares seven constants (`Under_rel`,
  `Under_rel_from_rel`, `Under_relE`, `Over_rel`, `over_rel`, `over_rel_done`, `under_rel_done`); the checker lists them as axioms of a loaded library, and no theorem depends on them.
* The definitions of std++ used in statements (`gmap`, `gset`, `NoDup`, `∈`, `Permutation`, ...).
* The reading of the Go code recorded in the comments of the definitions.
* The behaviour of third-party code as modelled from its documentation or source: go-merkletree (sorted pairs off, last leaf duplicated), bitset (growth, union and
  difference, JSON and binary forms), compress/gzip (decompression inverts compression), encoding/json (field matching, null, short arrays; strings are
  copied byte by byte, so replacement of invalid UTF-8 is not modelled; objects printed in field order, maps in key order), encoding/asn1 octet strings,
  x509 parsing and signing of the fields looked at, encoding/pem (Go 1.19), files and directories of the operating system, herumi/bls serialisation, JSON of RSA keys.

## Not modelled

* TCP/HTTP transport and TLS; HTTP status codes that nobody reads; logging, console output and measurements (`Timerlist`, message counters).
* The Go memory model below the level of critical sections: in the models of values an unsynchronised access is an atomic step. Which accesses to maps are synchronised, and
  where the Go runtime may abort the process because they are not, is the subject of `Locks.v` and `LockUse.v` (C127-C130), which do not know values; a handler of the gossiper is there any sequence of calls. `len(m)`, slices, counters and time stamps shared
  without locks are left out, and so are the moments within the assignment of a struct. For the gossiper `FineGossiper.v` (C132) combines both, values and locks; there a single access is atomic, and
  so are a read of the clock (period and time stamp together), the setting of a convergence time and the posting of an object to all neighbours. For the monitor `FineMonitor.v` (C141-C145) has every access to a storage as a step, without the locks, since each of its critical sections is one access; a range over a map is a sequence of steps there. `FineLogger.v` (C146-C148) does the same for the logger; adding a certificate to the pool is one step there, also for readers that do not hold the lock. `FineCA.v` (C149-C153) does it for the CA; deleting all tree heads, a mass revocation and an increment are one step each there.
* Wall-clock arithmetic outside `Schedule.v` (C104-C107): elsewhere clocks take arbitrary values at arbitrary times, and delays are arbitrary. Time zones and changes of the clock are modelled nowhere.
* x509/ASN.1 encodings, RSA, BLS and SHA-256 internals, key generation randomness (an arbitrary stream).
* Test harnesses, `network_test`, Docker and shell files, plotting of logs.

## Findings about the code

These are consequences of refuted properties, or were noticed while modelling.

* Signature strings are JSON texts with several spellings, so the same signature counts as different fragments; identities with quotes inject fields.
* The outer `Period` of an object is not signed: an old tree head can be replayed in a new period.
* A malformed body posted to a logger's precertificate endpoint ends the process.
* An honest CA that revokes in a later period produces a revocation object that clients refuse, after which a mutex stays locked.
* Period tasks that overlap (slow key generation or sending) make a CA issue two certificates with one revocation identifier; two that end in the same minute make an honest CA give out two revocation objects for one period, or none with its revocations in it. For a logger overlapping tasks end the process or give two heads for one period.
* `InitializeXContext` functions ignore errors of `ReadCryptoConfig`.
* `BLS_gen_all` uses the number of gossipers as threshold of the secret sharing and leaves empty maps for fewer than two gossipers.
* `Generateall` ignores the revocation delay; more than a thousand entities of one kind share a URL.
* The IP mapping leaves a logger's list of CAs local and gives the loggers of a CA wrong addresses.
* In optimisation mode, fragments of small revocation statements lose their payload at every receiver, and no aggregate is made; fragments of large ones lose it if they
  arrive before the statement.
* Two copies of one fragment handled at the same time are both stored, and an aggregate can consist of one signer.
* The two copies count twice: a gossiper that holds them makes no fragment of its own, and with threshold three others may never reach an aggregate.
* The signer field of an object is not signed: a copy under another name with a respelled signature overwrites a stored statement everywhere, after which a conflicting
  statement is not noticed.
* One made-up accusation fragment keeps a whole network from blacklisting anybody; one accusation handed to threshold gossipers, or one fragment handed in repeatedly with a
  changed second signature, blacklists an entity.
* A logger's tree head of minute 59 is filed under minute 60, so monitors that ask in minute 0 get an empty object and all accuse the logger, which is then blacklisted everywhere.
* Looking for a conflicting version and storing one's own are separate critical sections: two versions that arrive at the same time at every gossiper are never compared.
* A logger whose task is not over when the next one empties the pool dies looking up the certificate of its next proof; two tasks of one minute make a normal logger equivocate.
* Saving a certificate or key empties the file first; a crash, or a key that cannot be encoded, loses the old contents.
* `ReadCertificateFromDisk` does not look at the type of the block: it returns a private key as a certificate.
* A revocation ratio above 1 makes the CA's periodic task loop forever.
* Period timers are set relative to the end of the previous run, so delays add up and eventually a minute is skipped.
* Equal limits for the random latency make every send wait forever.
* `Verifyprecert` is never called: a logger logs whatever it is sent.
* A large revocation object posted with a chunked body is announced to all neighbours but never handed out.
* `WipeStorage` of the gossiper overwrites the locks of the storage: a handler that holds one then ends the process ("Unlock of unlocked RWMutex"), or shares its critical section. `Save` ranges over the fragment maps without a lock.
* Monitor, CA and logger access shared maps without locks in several places; two conflict proofs that arrive at once, or a tree head and an inclusion proof, can end the process.
* A client that is interrupted while it saves its databases may not start any more, or start without its tree heads.
* The period in a client's request for an update is used in a path: `../` leads to other directories.
* A verify-only crypto configuration that was not written completely loads without an error, and has no keys.
* Two timers of a monitor that record revocations of one CA can both find nothing recorded; the second then replaces the vector of the first.
* A tree head of a convicted logger that reaches a monitor while it makes an update is published; a statement that arrives just after the timer has looked does not stop the accusation.
* `LoadOneStorage` returns an error on every path; `FetchCertificate` panics on an empty certificate list.
