{"id": "C01", "title": "Verification accepts exactly what each object type requires", "statement": "Gossip_object.Verify returns nil if and only if: the type is STH_INIT/REV_INIT/ACC_INIT, signature 0 and payload 0 are non-empty, signature 0 parses as an RSA signature and it checks over payload0++payload1++payload2 under the key registered for the identity inside that signature; or the type is a FRAG type and the BLS fragment checks in the same way; or a FULL type and the aggregate checks against the keys of the identities listed in it; or CON_INIT and both RSA signatures check over payload 1 and payload 2 respectively. Every other type string is rejected. Fields not listed (period, signer, signers, timestamp, application, scheme) never change the verdict.", "quantifier": "every gossip object (all ten types, any other type string, any field contents), every crypto configuration, every behaviour of the RSA and BLS primitives", "why_tests_cant": "A test can only try some objects; the claim is an equivalence over all objects and all key maps.", "anchors": ["definition/Verify.go:Gossip_object.Verify", "definition/Verify.go:Verify_RSAPayload", "definition/Verify.go:Verify_PayloadFrag", "definition/Verify.go:Verify_PayloadThreshold", "definition/Verify.go:Verify_CON", "crypto/crypto_config.go:Verify"]}
{"id": "C02", "title": "What an honest party signs is accepted by every party holding its key", "statement": "An INIT object whose signature 0 is the string form of an RSA signature by entity E over the concatenated payload, a FRAG object made by Generate_Gossip_Object_FRAG, and a FULL object aggregated from fragments of one payload by distinct registered gossipers all verify at any party whose key maps contain the signers' keys.", "quantifier": "every payload, every signer identity made of ordinary URL characters, every list of at least Threshold fragments", "why_tests_cant": "Sign/serialise/parse/verify must compose for every payload and identity, not for the sampled ones.", "anchors": ["crypto/types.go:RSASig.String", "crypto/types.go:RSASigFromString", "gossiper/gen.go:Generate_Gossip_Object_FRAG", "gossiper/gen.go:Generate_Gossip_Object_FULL", "definition/Verify.go:Gossip_object.Verify"]}
{"id": "C03", "title": "A verified FULL object carries a threshold of signers", "statement": "If a FULL object verifies then at least Threshold distinct gossipers signed its payload.", "quantifier": "every FULL object and every crypto configuration, any behaviour of the network", "why_tests_cant": "An adversarial FULL object is not in any test corpus; the claim is about every object that verifies.", "anchors": ["definition/Verify.go:Verify_PayloadThreshold", "crypto/bls.go:ThresholdSig.Verify", "crypto/crypto_config.go:ThresholdVerify"]}
{"id": "C04", "title": "A verified INIT object was signed by the entity it is about", "statement": "If an STH_INIT or REV_INIT object verifies, the entity named in payload 0 (and in the signer field) signed that payload.", "quantifier": "every verified object, every signer, assuming the signature primitive cannot be forged", "why_tests_cant": "Requires reasoning about every object an adversary can compose from signatures it holds.", "anchors": ["definition/Verify.go:Verify_RSAPayload", "crypto/crypto_config.go:Verify"]}
{"id": "C05", "title": "A verified conflict proof convicts only a misbehaving entity", "statement": "If a CON_INIT object verifies, the entity in payload 0 signed two different statements for the same period and kind; an entity that signs at most one statement per period is never convicted.", "quantifier": "every CON_INIT object, every set of honestly signed statements, any third party composing objects", "why_tests_cant": "Soundness of a proof of misbehaviour ranges over all adversarial compositions.", "anchors": ["definition/Verify.go:Verify_CON", "gossiper/gen.go:Generate_CON_INIT", "gossiper/Interface.go:IsMalicious"]}
{"id": "C06", "title": "The signed message determines the payload", "statement": "Two objects whose signature covers the same bytes have the same three payload fields.", "quantifier": "every pair of payload triples", "why_tests_cant": "Injectivity of an encoding cannot be established by sampling.", "anchors": ["definition/Verify.go:Verify_RSAPayload", "definition/Verify.go:Verify_PayloadFrag", "gossiper/Interface.go:ComputeobjHash"]}
{"id": "C07", "title": "Gossip identifiers key distinct statements apart", "statement": "GetID maps objects with different period, type or entity to different identifiers, GetTargetType maps INIT to FRAG to FULL and nothing else to a known type, and the three stages never share an identifier.", "quantifier": "every gossip object", "why_tests_cant": "An equivalence over all objects.", "anchors": ["definition/Types.go:GetID", "definition/Types.go:GetTargetType", "definition/Types.go:Gossip_ID.String"]}
{"id": "C08", "title": "The permanent blacklist is permanent", "statement": "Once an entity is in a gossiper's permanent blacklist, it stays there through every later request, timer, period change, save and wipe.", "quantifier": "every history of events of one gossiper, of any length, handled one at a time; and every interleaving of concurrently running handlers", "why_tests_cant": "Requires all histories and all interleavings with the wipe.", "anchors": ["gossiper/Interface.go:InBlacklistPerm", "gossiper/Interface.go:Store_gossip_object", "gossiper/Interface.go:WipeStorage", "gossiper/gossiper_server.go:PeriodicTasks"]}
{"id": "C09", "title": "Nothing about a blacklisted entity is processed", "statement": "Handling any object whose payload 0 is blacklisted leaves every table unchanged and sends nothing to any gossiper or to the monitor; pending signing timers of that entity sign nothing.", "quantifier": "every object, every gossiper state in which the entity is blacklisted", "why_tests_cant": "Every reachable state and object type.", "anchors": ["gossiper/gossiper_server.go:Handle_Gossip_object", "gossiper/gossiper_server.go:Handle_STH_INIT", "gossiper/gossiper_server.go:Handle_OBJ_FULL"]}
{"id": "C10", "title": "The period wipe clears exactly the per-period tables", "statement": "After Save and WipeStorage every conflict proof and every blacklist entry is still present with the same contents and every other table (all INIT, FRAG, FULL and cached REV payloads) is empty.", "quantifier": "every gossiper state", "why_tests_cant": "All states.", "anchors": ["gossiper/Interface.go:WipeStorage", "gossiper/Interface.go:Save", "gossiper/Init.go:InitializeGossipObjectStorage"]}
{"id": "C11", "title": "Only verified objects enter the INIT, CON, FULL and payload tables", "statement": "In every reachable state each stored STH/REV/ACC/CON INIT object, each stored FULL object and each cached REV payload verifies under the gossiper's crypto configuration and is stored under its own identifier in the table of its own type.", "quantifier": "every history of arbitrary (including adversarial) requests, and every interleaving of the concurrent handlers, timers and wipes", "why_tests_cant": "An invariant over all reachable states of a concurrent program.", "anchors": ["gossiper/Interface.go:Store_gossip_object", "gossiper/Interface.go:SavePayload", "gossiper/Interface.go:DupCheckInLock"]}
{"id": "C12", "title": "Only verified fragments are counted and only verified FULL objects reach the monitor", "statement": "Each stored fragment verifies, and each FULL object sent to the monitor verifies.", "quantifier": "every history of requests, including adversarial ones", "why_tests_cant": "Adversarial fragment sequences.", "anchors": ["gossiper/Interface.go:Read_and_Store_If_Needed", "gossiper/gossiper_server.go:Handle_OBJ_FRAG", "gossiper/gossiper_server.go:Handle_OBJ_FULL", "gossiper/gossiper_server.go:Send_to_Monitor"]}
{"id": "C13", "title": "A fragment bucket never exceeds the threshold", "statement": "In every reachable state each identifier holds at most Threshold fragments, all carrying that identifier.", "quantifier": "every interleaving of any number of concurrent handlers, timers and wipes", "why_tests_cant": "The bound has to survive every schedule.", "anchors": ["gossiper/Interface.go:Read_and_Store_If_Needed", "gossiper/gossiper_server.go:Handle_OBJ_FRAG"]}
{"id": "C14", "title": "The threshold crossing is observed exactly once", "statement": "Between two wipes the values returned by Read_and_Store_If_Needed for one identifier are 0,1,2,...,Threshold-1 and then Threshold forever, so exactly one handler sees Threshold-1 and aggregates; the list it aggregates (with no wipe in between) has exactly Threshold fragments.", "quantifier": "every interleaving of any number of concurrent fragment handlers", "why_tests_cant": "A race property: quantifies over all schedules.", "anchors": ["gossiper/Interface.go:Read_and_Store_If_Needed", "gossiper/Interface.go:GetObjectList", "gossiper/gossiper_server.go:Handle_OBJ_FRAG"]}
{"id": "C15", "title": "Redelivery is idempotent", "statement": "Handling an object that is already stored (same identifier, same signatures) changes nothing and sends nothing, so gossip of one object dies out.", "quantifier": "every state, every object of every type, any number of redeliveries", "why_tests_cant": "All states and any repetition count.", "anchors": ["gossiper/gossiper_server.go:Handle_Gossip_object", "gossiper/Interface.go:IsDuplicate_G"]}
{"id": "C16", "title": "Conflicting statements are detected and published", "statement": "When a gossiper holds an STH_INIT/REV_INIT and then handles another one with the same identifier and signer field but a different signature, and both signatures check, then it stores a conflict proof for that entity, blacklists it, and sends the proof to every connected gossiper and to its monitor.", "quantifier": "every state holding a first statement, every second statement; sequential handling, and every interleaving of two handlers", "why_tests_cant": "All pairs of statements and all schedules (check-then-store race).", "anchors": ["gossiper/Interface.go:IsMalicious", "gossiper/gen.go:Generate_CON_INIT", "gossiper/gossiper_server.go:Handle_STH_INIT", "gossiper/gossiper_server.go:Handle_REV_INIT", "gossiper/gossiper_server.go:Handle_CON_INIT"]}
{"id": "C17", "title": "An entity that never equivocates is never blacklisted", "statement": "If no accusation object (INIT, FRAG or FULL) and no conflict proof about an entity is delivered, and every delivered STH/REV object of that entity with the same identifier carries the same signatures, the entity is not blacklisted.", "quantifier": "every history of deliveries", "why_tests_cant": "All histories.", "anchors": ["gossiper/Interface.go:IsMalicious", "gossiper/Interface.go:Store_gossip_object", "gossiper/gossiper_server.go:Handle_Gossip_object"]}
{"id": "C18", "title": "A newly accepted statement is relayed to every neighbour and the monitor exactly once", "statement": "Handling a new valid STH_INIT with a non-empty signer sends the object to each connected gossiper once and to the monitor once; a new valid REV_INIT sends to each neighbour once a notification carrying its hash (the object itself if its encoding is within the size threshold) and the object to the monitor; a new valid CON_INIT sends itself to all; an ACC_INIT is never relayed. A rejected or duplicate statement is not sent to anybody.", "quantifier": "every state, every statement, every neighbour list", "why_tests_cant": "All states and neighbour lists.", "anchors": ["gossiper/gossiper_server.go:Handle_STH_INIT", "gossiper/gossiper_server.go:Handle_REV_INIT", "gossiper/gossiper_server.go:Handle_CON_INIT", "gossiper/gossiper_server.go:Send_obj_to_Gossipers", "gossiper/gossiper_server.go:Send_to_Monitor"]}
{"id": "C19", "title": "Payload stripping is lossless when the payload is cached", "statement": "A REV fragment sent without payload and reconstructed at a receiver that cached the REV object with the same period, entity and payload is the original fragment; if nothing is cached the fragment loses its entity and is filed under the empty entity.", "quantifier": "every REV fragment, every receiver state", "why_tests_cant": "Round-trip law over all fragments and states.", "anchors": ["gossiper/gen.go:Remove_Payload", "gossiper/gen.go:ReconstructPayload", "gossiper/gossiper_server.go:Send_obj_to_Gossipers", "gossiper/gossiper_server.go:Gossip_object_handler", "gossiper/Interface.go:SavePayload"]}
{"id": "C20", "title": "A gossiper signs only what it accepted, and not after blacklisting", "statement": "Each fragment a gossiper originates carries the payload and period of an INIT object that it verified and stored, and no fragment is originated for an entity blacklisted at the moment the timer fires.", "quantifier": "every history of requests and timer firings, every interleaving", "why_tests_cant": "All histories and timings.", "anchors": ["gossiper/gossiper_server.go:Handle_STH_INIT", "gossiper/gossiper_server.go:Handle_REV_INIT", "gossiper/gossiper_server.go:Handle_ACC_INIT", "gossiper/gen.go:Generate_Gossip_Object_FRAG"]}
{"id": "C21", "title": "A gossiper signs at most one statement per entity, kind and period", "statement": "Between two wipes a gossiper never originates fragments over two different payloads for the same period, kind and entity.", "quantifier": "every history of requests and timer firings", "why_tests_cant": "Adversarial histories.", "anchors": ["gossiper/gossiper_server.go:Handle_STH_INIT", "gossiper/Interface.go:IsMalicious", "gossiper/Interface.go:Store_gossip_object"]}
{"id": "C22", "title": "Every handler call terminates", "statement": "Handle_Gossip_object terminates on every object in every state: the nesting of handler calls (INIT to CON, INIT to FRAG to FULL) never exceeds three.", "quantifier": "every object, every state", "why_tests_cant": "Termination is not testable.", "anchors": ["gossiper/gossiper_server.go:Handle_Gossip_object", "gossiper/gossiper_server.go:Handle_OBJ_FRAG", "definition/Types.go:GetTargetType"]}
{"id": "C23", "title": "A gossiper never crashes while handling objects", "statement": "No request, timer or wipe sequence makes the gossiper panic.", "quantifier": "every history handled one at a time, and every interleaving of handlers with the wipe", "why_tests_cant": "All histories and schedules.", "anchors": ["gossiper/gen.go:Generate_Gossip_Object_FULL", "crypto/bls.go:ThresholdAggregate", "gossiper/Interface.go:WipeStorage"]}
{"id": "C24", "title": "The aggregated object keeps the period of its fragments", "statement": "The FULL object a gossiper generates carries the period, entity and payload of the fragments it aggregates.", "quantifier": "every fragment list, every instant at which the threshold is reached", "why_tests_cant": "Depends on the clock at the time of the last fragment.", "anchors": ["gossiper/gen.go:Generate_Gossip_Object_FULL", "util/helpers.go:GetCurrentPeriod"]}
{"id": "C25", "title": "Handling an object touches only its own entity", "statement": "Handling any object about entity E leaves the stored objects, fragments, cached payloads and blacklist status of every other entity unchanged, and everything it sends is about E.", "quantifier": "every state, every object", "why_tests_cant": "Non-interference over all states.", "anchors": ["gossiper/gossiper_server.go:Handle_Gossip_object", "gossiper/Interface.go:Store_gossip_object", "gossiper/Interface.go:Read_and_Store_If_Needed"]}
{"id": "C26", "title": "RSA signature strings round-trip", "statement": "RSASigFromString(RSASig.String()) returns the same signature bytes and identity, and distinct signatures have distinct strings.", "quantifier": "every byte string as signature, every identity", "why_tests_cant": "A codec law over all inputs.", "anchors": ["crypto/types.go:RSASig.String", "crypto/types.go:RSASigFromString"]}
{"id": "C27", "title": "Fragment and threshold signature strings round-trip", "statement": "SigFragmentFromString and ThresholdSigFromString invert the String methods.", "quantifier": "every signature value, every identity, every list of identities", "why_tests_cant": "A codec law over all inputs.", "anchors": ["crypto/types.go:SigFragment.String", "crypto/types.go:SigFragmentFromString", "crypto/types.go:ThresholdSig.String", "crypto/types.go:ThresholdSigFromString"]}
{"id": "C28", "title": "Aggregation needs a threshold of fragments and does not depend on their order", "statement": "ThresholdAggregate fails exactly when fewer than Threshold fragments are given; otherwise the identities listed are exactly those of the fragments, sorted, and any permutation of the fragments gives the same result.", "quantifier": "every fragment list and threshold", "why_tests_cant": "Order independence over all permutations.", "anchors": ["crypto/bls.go:ThresholdAggregate", "crypto/types.go:CTngIDs"]}
{"id": "C29", "title": "Objects survive the wire", "statement": "Decoding the JSON encoding of a gossip object, an STH or a gossip notification yields the same value.", "quantifier": "every object with ASCII field contents, any number of signers", "why_tests_cant": "A codec law over all inputs.", "anchors": ["definition/Types.go:Gossip_object", "definition/Types.go:STH", "gossiper/gossiper_server.go:Gossip_object_handler", "gossiper/gossiper_server.go:Send_obj_to_Gossipers"]}
{"id": "C30", "title": "Hex, base64 and decimal text codecs round-trip", "statement": "hex.Decode inverts hex.EncodeToString, base64 decoding inverts encoding, Atoi inverts Itoa, as used for signatures, hashes, STH payloads, bit vectors and periods.", "quantifier": "every byte string, every integer", "why_tests_cant": "A codec law over all inputs.", "anchors": ["crypto/types.go:RSASig.String", "Logger/buildmerkle.go:BuildMerkleTreeFromCerts", "definition/Verify.go:ExtractRootHash", "util/helpers.go:GetCurrentPeriod"]}
{"id": "C31", "title": "The certificate pool is a faithful indexed set", "statement": "After any sequence of AddCert calls the pool contains each distinct certificate exactly once in insertion order, GetCertBySubjectKeyID returns a certificate with that key identifier which was added (the first one), and findPotentialParents returns exactly the pooled certificates whose subject key identifier is the authority key identifier, or if there are none those whose subject is the issuer name.", "quantifier": "every sequence of certificates", "why_tests_cant": "All insertion histories.", "anchors": ["crypto/certpool.go:AddCert", "crypto/certpool.go:contains", "crypto/certpool.go:GetCertBySubjectKeyID", "crypto/certpool.go:findPotentialParents"]}
{"id": "C32", "title": "A logger keeps every precertificate it receives", "statement": "Every precertificate posted to the logger in a period is in the tree of that period.", "quantifier": "every sequence of submissions", "why_tests_cant": "All submission histories.", "anchors": ["Logger/server.go:receive_pre_cert", "crypto/certpool.go:AddCert", "util/IO.go:ParseTBSCertificate"]}
{"id": "C33", "title": "Every certificate in the tree gets a proof that verifies", "statement": "For any list of at least two certificates, the proof of inclusion generated for position i verifies for certificate i against the root placed in the STH.", "quantifier": "every list of certificates of any length, every position, any hash function", "why_tests_cant": "Induction over tree sizes.", "anchors": ["crypto/MerkleTree.go:GenerateMerkleTree", "crypto/MerkleTree.go:VerifyPOI", "Logger/buildmerkle.go:BuildMerkleTreeFromCerts"]}
{"id": "C34", "title": "A verifying proof of inclusion implies membership", "statement": "If VerifyPOI accepts a certificate against a logger's root, that certificate is one of those the tree was built from, unless a hash collision is exhibited.", "quantifier": "every certificate, every proof, every tree", "why_tests_cant": "Soundness against every forged proof.", "anchors": ["crypto/MerkleTree.go:VerifyPOI", "crypto/MerkleTree.go:Serialize"]}
{"id": "C35", "title": "A normal logger never equivocates and a faulty one misbehaves exactly as configured", "statement": "Between two period tasks all responses of a normal logger to STH requests in one period are the same stored STH; each faulty mode deviates exactly on the requests its configuration names.", "quantifier": "every sequence of requests, every configuration", "why_tests_cant": "All request histories.", "anchors": ["Logger/server.go:requestSTH"]}
{"id": "C36", "title": "A logger always has an STH for the current period", "statement": "After the periodic task has run in a period, the STH for the next period is available when that period begins and carries that period.", "quantifier": "every minute of the hour, every set of certificates received", "why_tests_cant": "All periods and pools, including wrap-around and empty pools.", "anchors": ["Logger/server.go:PeriodicTask", "util/helpers.go:GetCurrentPeriod", "Logger/buildmerkle.go:BuildMerkleTreeFromCerts"]}
{"id": "C37", "title": "Revocation identifiers are unique", "statement": "All certificates a CA ever issues have pairwise different revocation identifiers, which stay with the certificate through logger updates and signing.", "quantifier": "every number of periods and certificates per period", "why_tests_cant": "All issuance histories.", "anchors": ["CA/ca.go:Genrate_Unsigned_PreCert", "CA/ca.go:Generate_Root_Certificate", "CA/types.go:UpdateCTngExtension"]}
{"id": "C38", "title": "Each published delta contains exactly the new revocations", "statement": "The union of all deltas a CA has published equals its current revocation vector, in every period.", "quantifier": "every sequence of revocations and period changes", "why_tests_cant": "All histories; depends on pointer aliasing across periods.", "anchors": ["CA/CRV.go:GetDeltaCRV", "CA/CRV.go:Revoke", "CA/server.go:PeriodicTask"]}
{"id": "C39", "title": "An honest CA's revocation object passes the SRH check", "statement": "The signed revocation hash in an honest CA's published revocation object verifies at every monitor and client that has applied all earlier deltas.", "quantifier": "every sequence of periods and revocations", "why_tests_cant": "All histories.", "anchors": ["CA/CRV.go:Generate_Revocation", "monitor/monitor.go:VerifySRH", "client/client.go:VerifySRH"]}
{"id": "C40", "title": "The CTng extension accumulates loggers without losing information", "statement": "Updating the extension of a precertificate keeps its RID and every logger already listed, adds the new logger unless one with the same signer is present, and is idempotent.", "quantifier": "every extension, every sequence of logger updates", "why_tests_cant": "All update histories.", "anchors": ["CA/types.go:UpdateCTngExtension", "CA/types.go:ParseCTngextension"]}
{"id": "C41", "title": "The monitor's stores hold each object under its own identifier and keep proofs of misbehaviour", "statement": "In every reachable state each object is stored in the table of its type under its identifier; accusation and conflict proofs are never removed.", "quantifier": "every history of received objects, queries and periodic tasks", "why_tests_cant": "All histories.", "anchors": ["monitor/types.go:StoreObject", "monitor/types.go:WipeStorage"]}
{"id": "C42", "title": "The monitor stores only verified objects", "statement": "Every FULL object and proof of misbehaviour in the monitor's storage verifies.", "quantifier": "every history of received objects", "why_tests_cant": "Adversarial histories.", "anchors": ["monitor/monitor.go:handle_gossip_from_gossiper", "monitor/monitor.go:Process_valid_object"]}
{"id": "C43", "title": "A client update contains exactly the current statements and new proofs", "statement": "A client update for a period contains exactly the STH_FULL and REV_FULL objects of that period and the proofs of misbehaviour received for it, each once; each proof received is published in some update.", "quantifier": "every history of received objects between periodic tasks", "why_tests_cant": "All histories and period boundaries.", "anchors": ["monitor/monitor.go:GenerateUpdate", "monitor/monitor.go:PeriodicTasks", "monitor/types.go:WipeStorage"]}
{"id": "C44", "title": "Statements of convicted entities are withheld and convicted entities are not queried", "statement": "Once the monitor holds a proof of misbehaviour for an entity it no longer queries it and removes its FULL statements before publishing an update.", "quantifier": "every monitor state containing a proof", "why_tests_cant": "All states.", "anchors": ["monitor/types.go:Clean_Conflicting_Object", "monitor/monitor.go:Check_entity_pom", "monitor/monitor.go:QueryLoggers"]}
{"id": "C45", "title": "A responsive entity is not accused", "statement": "If the monitor holds the entity's INIT statement for the current period when the accusation timer fires, no accusation is sent.", "quantifier": "every state, every minute of the hour, every entity", "why_tests_cant": "All periods.", "anchors": ["monitor/monitor.go:Wait_then_accuse", "monitor/monitor.go:AccuseEntity", "util/helpers.go:GetCurrentPeriod"]}
{"id": "C46", "title": "The client's verdict on a certificate is exactly the CTng rule", "statement": "VerifyCTngextension accepts a certificate if and only if at least one listed logger is not convicted, its STH verifies, its root equals the root recorded for that logger and period and the inclusion proof verifies, and the certificate's RID is not set in the issuer's revocation vector.", "quantifier": "every certificate, every client state", "why_tests_cant": "Equivalence over all certificates and states.", "anchors": ["client/client.go:VerifyCTngextension"]}
{"id": "C47", "title": "A revoked certificate is rejected after the update that revokes it", "statement": "After the client accepts an update whose delta contains a RID of a CA, every certificate of that CA with that RID is rejected from then on.", "quantifier": "every history of accepted updates", "why_tests_cant": "All update histories.", "anchors": ["client/client.go:HandleUpdate", "client/client.go:VerifyCTngextension"]}
{"id": "C48", "title": "A rejected update has no effect", "statement": "If HandleUpdate returns false the databases are unchanged and later updates can still be processed.", "quantifier": "every update, every client state, any number of later updates", "why_tests_cant": "Crash-point style property over every failing prefix.", "anchors": ["client/client.go:HandleUpdate"]}
{"id": "C49", "title": "Convictions are permanent at the client", "statement": "Once the client has recorded a proof of misbehaviour it keeps it, through later updates and through a restart, and certificates relying only on convicted loggers are rejected.", "quantifier": "every history of updates and restarts", "why_tests_cant": "All histories including restarts.", "anchors": ["client/client.go:HandleUpdate", "client/types.go:InitializeClientContext", "client/client.go:VerifyCTngextension"]}
{"id": "C50", "title": "The client records a conviction only on a threshold or conflict proof", "statement": "With verification on, an entity enters the client's conviction database only through a verified ACC_FULL or CON_INIT object.", "quantifier": "every update", "why_tests_cant": "Adversarial updates.", "anchors": ["client/client.go:HandleUpdate"]}
{"id": "C51", "title": "Generated configurations assign distinct identities", "statement": "Generateall gives every CA, logger, gossiper and monitor a different URL, every gossiper is connected to exactly all other gossipers, every monitor owns exactly one gossiper, and every logger serves all CAs.", "quantifier": "every number of CAs, loggers and monitors", "why_tests_cant": "All sizes.", "anchors": ["Gen/Gen.go:Port_Postfix", "Gen/Gen.go:Generate_all_list", "Gen/Gen.go:GenerateGossiper_private_config_map"]}
{"id": "C52", "title": "The IP mapping renames every entity consistently", "statement": "Mapping a local configuration to IPs replaces each local URL by the IP of the entity it names and keeps the port.", "quantifier": "every entity number and IP table", "why_tests_cant": "All sizes.", "anchors": ["Gen/IPmapping.go:Map_local_to_IP_crypto_config"]}
{"id": "C53", "title": "Stored crypto configurations load back unchanged", "statement": "Writing a CryptoConfig and reading it back gives the same configuration, and verify-only configurations contain no secret keys.", "quantifier": "every configuration", "why_tests_cant": "A round trip over all configurations.", "anchors": ["crypto/crypto_IO.go:NewStoredCryptoConfig", "crypto/crypto_IO.go:NewCryptoConfig", "crypto/crypto_IO.go:NewVerifyOnlyCryptoConfig"]}
{"id": "C54", "title": "The same statement gossiped to connected honest gossipers reaches a threshold signature everywhere", "statement": "In a fully connected network of honest gossipers (at least Threshold of them), once every message and timer has been delivered, a valid STH handed to one gossiper is stored by all, and each gossiper has produced the FULL object.", "quantifier": "every number of gossipers, every delivery order", "why_tests_cant": "All schedules of a distributed protocol.", "anchors": ["gossiper/gossiper_server.go:Handle_Gossip_object", "gossiper/gossiper_server.go:Send_obj_to_Gossipers"]}
{"id": "C55", "title": "A statement accepted in a period is not accepted again", "statement": "Delivering again, later in the same period, an STH_INIT or REV_INIT object that the gossiper has accepted before changes no table and sends nothing.", "quantifier": "every history of requests, timers and clock ticks without a period change, every accepted statement", "why_tests_cant": "All histories; the statement may have been displaced by others in between.", "anchors": ["gossiper/gossiper_server.go:Handle_Gossip_object", "gossiper/Interface.go:IsDuplicate", "gossiper/Interface.go:Store"]}
{"id": "C56", "title": "A threshold of honest fragments yields a verified aggregate", "statement": "Once a gossiper has received Threshold fragments over one payload signed by distinct registered gossipers, it stores a verifying FULL object over that payload and sends it to its monitor.", "quantifier": "every reachable state, every threshold, every set and order of honest fragments, other traffic in between", "why_tests_cant": "Liveness against adversarial traffic, for all thresholds.", "anchors": ["gossiper/gossiper_server.go:Handle_OBJ_FRAG", "gossiper/gen.go:Generate_Gossip_Object_FULL", "gossiper/Interface.go:Read_and_Store_If_Needed"]}
{"id": "C57", "title": "Every precertificate in the tree gets its inclusion proof delivered", "statement": "When the period task of a logger runs, every CA receives the tree head, and for every certificate in the tree its issuer receives a proof of inclusion that verifies against the root in that tree head.", "quantifier": "every submission history, every pool, every configuration of CAs", "why_tests_cant": "All pools and histories; sending stops at the first failure.", "anchors": ["Logger/server.go:Send_POIs_to_CAs", "Logger/server.go:PeriodicTask", "Logger/buildmerkle.go:BuildMerkleTreeFromCerts"]}
{"id": "C58", "title": "The two heads of an equivocating logger are always evidence against it", "statement": "The second tree head a faulty logger prepares for a period has the same identifier and signer as the genuine one and signs different content, so any gossiper that sees both can prove misbehaviour.", "quantifier": "every pool of at least two certificates, every clock reading", "why_tests_cant": "All pools and times.", "anchors": ["Logger/server.go:PeriodicTask", "Logger/buildmerkle.go:BuildMerkleTreeFromCerts"]}
{"id": "C59", "title": "A tree head determines the logged list", "statement": "Two lists of leaves with the same root are equal, unless a hash collision between the two tree computations is exhibited.", "quantifier": "every two lists of leaves, every hash function of fixed output length", "why_tests_cant": "All lists of all sizes.", "anchors": ["crypto/MerkleTree.go:GenerateMerkleTree", "definition/Types.go:STH"]}
{"id": "C60", "title": "Every proof of inclusion a CA receives ends up in the certificate", "statement": "After a CA has received proofs of inclusion for a precertificate in its pool, the certificate's CTng extension lists each of the sending loggers with its verified tree head and that proof, and nothing listed before is lost.", "quantifier": "every history of the CA, every list of received proofs, every interleaving of handlers", "why_tests_cant": "All orders and interleavings of requests.", "anchors": ["CA/server.go:receive_poi", "CA/server.go:receive_sth", "crypto/certpool.go:UpdateCertBySubjectKeyID"]}
{"id": "C61", "title": "The two revocation objects of an equivocating CA are always evidence against it", "statement": "The second revocation object a CA prepares for a period has the same identifier and signer as the genuine one, verifies, and its delta differs, so that any gossiper that sees both can prove misbehaviour.", "quantifier": "every history of revocations and periods", "why_tests_cant": "All histories; depends on which identifiers were revoked.", "anchors": ["CA/CRV.go:Generate_Revocation", "CA/server.go:PeriodicTask"]}
{"id": "C62", "title": "A CA always has a revocation object for the current period", "statement": "After the period task of a normal CA has run, every request in the next minute is answered with the revocation object made for it, which carries that minute.", "quantifier": "every history, every minute of the hour", "why_tests_cant": "All histories and times.", "anchors": ["CA/server.go:requestREV", "CA/server.go:PeriodicTask", "util/helpers.go:GetCurrentPeriod"]}
{"id": "C63", "title": "A faulty CA misbehaves exactly as configured", "statement": "Each faulty mode of a CA deviates exactly on the requests its configuration names; a normal CA always answers with the genuine object.", "quantifier": "every history, every mode and interval", "why_tests_cant": "All histories of requests and periods.", "anchors": ["CA/server.go:requestREV"]}
{"id": "C64", "title": "The monitor accuses only after a bad answer, and at most once per answer", "statement": "Every accusation a monitor sends names an entity that had answered one of its queries with nothing, with an object that does not verify, or with a revocation object whose hash does not check; it sends at most one accusation of an entity per answer.", "quantifier": "every history of the monitor, every entity", "why_tests_cant": "All histories, orders of timers and answers.", "anchors": ["monitor/monitor.go:QueryLoggers", "monitor/monitor.go:QueryAuthorities", "monitor/monitor.go:AccuseEntity", "monitor/monitor.go:Wait_then_accuse"]}
{"id": "C65", "title": "A monitor's accusation verifies everywhere", "statement": "Every accusation a monitor makes verifies at every entity that has the monitor's public key.", "quantifier": "every accused entity, every minute, every configuration", "why_tests_cant": "All entities and keys.", "anchors": ["monitor/monitor.go:AccuseEntity", "definition/Verify.go:Verify"]}
{"id": "C66", "title": "A monitor forwards only verified statements of known entities", "statement": "Whatever a monitor sends to its gossiper is an accusation of its own, or an STH_INIT or REV_INIT that verified and whose signer is a logger or CA of the configuration, received as an answer to a query.", "quantifier": "every history of the monitor", "why_tests_cant": "All histories and adversarial answers.", "anchors": ["monitor/monitor.go:Process_valid_object", "monitor/monitor.go:QueryLoggers"]}
{"id": "C67", "title": "No answer stops the monitor", "statement": "Whatever a queried logger or CA answers, the monitor keeps running.", "quantifier": "every state, every answer", "why_tests_cant": "All adversarial answers.", "anchors": ["monitor/monitor.go:QueryLoggers", "monitor/monitor.go:QueryAuthorities", "crypto/crypto_config.go:Verify"]}
{"id": "C68", "title": "The monitor's revocation vector of a CA is the union of the deltas received", "statement": "After the timers have run, the vector of a CA contains exactly the identifiers in the revocation deltas received from it.", "quantifier": "every history of revocation objects", "why_tests_cant": "All histories.", "anchors": ["monitor/types.go:StoreObject", "monitor/types.go:SaveStorage"]}
{"id": "C69", "title": "A client can decode what the monitor serves", "statement": "The answer of a monitor to an update request decodes to the update that was written for that period.", "quantifier": "every history of the monitor, every period", "why_tests_cant": "All updates.", "anchors": ["monitor/client-update-monitor.go:requestupdate", "monitor/client-update-monitor.go:PrepareClientUpdate", "client/client.go:FetchClientUpdate"]}
{"id": "C70", "title": "A certificate logged by an honest logger is accepted", "statement": "If a logger built a tree over a certificate, its tree head was threshold-signed and included in an update the client accepted, and the certificate carries the head and its proof, then the client accepts the certificate, provided the logger is not convicted and the certificate not revoked.", "quantifier": "every logger, certificate list, minute, update and client state", "why_tests_cant": "All trees, keys and minutes of the hour.", "anchors": ["client/client.go:VerifyCTngextension", "client/client.go:HandleUpdate", "Logger/buildmerkle.go:BuildMerkleTreeFromCerts"]}
{"id": "C71", "title": "A root recorded for a logger was signed by that logger or a threshold of gossipers", "statement": "With verification on, the root a client records for a logger and period was signed by that very logger, or by a threshold of gossipers, for that logger and period.", "quantifier": "every history of updates", "why_tests_cant": "Adversarial updates.", "anchors": ["client/client.go:HandleUpdate", "definition/Verify.go:Verify"]}
{"id": "C72", "title": "Saved client databases survive a restart", "statement": "A client that saves its databases and is started again has the same tree heads and revocation vectors as before, and a client can be restarted after any history.", "quantifier": "every history of updates, saves and restarts", "why_tests_cant": "All contents of the databases; every restart point.", "anchors": ["client/types.go:InitializeClientContext", "client/types.go:SaveSTHDatabase", "client/types.go:SaveCRVDatabase", "client/types.go:LoadCRVDatabase"]}
{"id": "C73", "title": "An accepted certificate stays accepted until it is revoked or its logger convicted", "statement": "Once the client accepts a certificate, later updates do not change that unless they revoke the certificate or convict a logger it relies on.", "quantifier": "every client state, every update", "why_tests_cant": "All later updates.", "anchors": ["client/client.go:HandleUpdate", "client/client.go:VerifyCTngextension"]}
{"id": "C74", "title": "No update and no certificate stops the client", "statement": "HandleUpdate and VerifyCTngextension return for every update and every certificate.", "quantifier": "every update, every certificate, every client state", "why_tests_cant": "All adversarial inputs.", "anchors": ["client/client.go:HandleUpdate", "client/client.go:VerifyCTngextension", "client/client.go:VerifySRH", "crypto/crypto_config.go:Verify"]}
{"id": "C75", "title": "The root hashes of tree heads can be listed", "statement": "GetRootHash returns the root hashes contained in a list of tree heads published by loggers, in order.", "quantifier": "every list of published tree heads", "why_tests_cant": "All lists.", "anchors": ["client/parser.go:GetRootHash"]}
{"id": "C76", "title": "An update the client accepts was verified in full", "statement": "If HandleUpdate with verification returns true, every object listed in the update verifies.", "quantifier": "every update, every client state", "why_tests_cant": "All updates.", "anchors": ["client/client.go:HandleUpdate"]}
{"id": "C77", "title": "A damaged crypto configuration is reported", "statement": "Reading a crypto configuration from a file that is not a valid configuration returns an error instead of a configuration with missing keys.", "quantifier": "every file, each of the three readers", "why_tests_cant": "All corruptions of a file.", "anchors": ["crypto/crypto_IO.go:ReadCryptoConfig", "crypto/crypto_IO.go:ReadVerifyOnlyCryptoConfig", "crypto/crypto_IO.go:ReadBasicCryptoConfig"]}
{"id": "C78", "title": "Configurations generated together interoperate", "statement": "What one entity of a generated set signs, alone or as a threshold fragment, every entity of the set accepts as coming from that entity; generation succeeds exactly for thresholds of at least two and sets the parameters asked for.", "quantifier": "every list of identities, every threshold, every message, all randomness", "why_tests_cant": "All sets of entities and messages.", "anchors": ["crypto/crypto_IO.go:GenerateEntityCryptoConfigs", "crypto/bls.go:GenerateThresholdKeypairs", "crypto/rsa.go:NewRSAPrivateKey"]}
{"id": "C79", "title": "Saved crypto configurations are found under their entity's name", "statement": "After the generated configurations are saved to a directory, reading the file named after an entity gives that entity's configuration, without error.", "quantifier": "every generated set, every directory and previous content of it", "why_tests_cant": "All identities, including ones that prefix each other or repeat.", "anchors": ["crypto/crypto_IO.go:SaveCryptoFiles", "util/IO.go:WriteData", "crypto/crypto_IO.go:ReadCryptoConfig"]}
{"id": "C80", "title": "Generated deployments have the periods asked for", "statement": "Generateall writes the maximum merge delay, the maximum revocation delay and the number of certificates it is called with into the configurations.", "quantifier": "all parameters", "why_tests_cant": "All parameters and sizes.", "anchors": ["Gen/Gen.go:Generateall", "Gen/Gen.go:GenerateCA_public_config"]}
{"id": "C81", "title": "Generated deployments interoperate", "statement": "What one CA, logger, monitor or gossiper of a generated deployment signs, all others accept as its signature; every gossiper's threshold fragments are accepted by all.", "quantifier": "all sizes, all randomness, every message", "why_tests_cant": "All sizes and pairs of entities.", "anchors": ["Gen/Gen.go:Generateall", "Gen/Gen.go:RSA_gen_all", "Gen/Gen.go:BLS_gen_all", "crypto/crypto_IO.go:ReadCryptoConfig"]}
{"id": "C82", "title": "Every CA gets two different loggers", "statement": "Generateall assigns to every CA two different loggers of the deployment and stops only if there are no loggers for it.", "quantifier": "all numbers of CAs and loggers", "why_tests_cant": "All sizes.", "anchors": ["Gen/Gen.go:GenerateCA_private_config_map"]}
{"id": "C83", "title": "A deployment mapped to IP addresses still interoperates", "statement": "After Map_all, what one entity signs all others accept as its signature under its new address, and so with the gossipers' fragments.", "quantifier": "all sizes up to a thousand per kind, all IP tables", "why_tests_cant": "All sizes, tables and pairs of entities.", "anchors": ["Gen/IPmapping.go:Map_all", "Gen/IPmapping.go:Map_local_to_IP_crypto_config"]}
{"id": "C84", "title": "Gossip traffic is proportional to the number of statements", "statement": "In a fully connected network of n honest gossipers with threshold T, the statements of a period cause at most n(1+(1+T)(n-1)) message deliveries and signing timers each, however often and wherever each is handed in, and exactly so many once nothing is on its way.", "quantifier": "every number of gossipers and statements, every delivery order", "why_tests_cant": "All schedules of a distributed protocol; a relay loop shows up only in particular orders.", "anchors": ["gossiper/gossiper_server.go:Handle_Gossip_object", "gossiper/gossiper_server.go:Send_obj_to_Gossipers", "gossiper/Interface.go:IsDuplicate"]}
{"id": "C85", "title": "Revocation statements reach a threshold signature everywhere too", "statement": "In a fully connected network of honest gossipers, a valid REV handed to one gossiper leads, once nothing is on its way, to a REV_FULL object at every gossiper, whatever its size and with or without optimisation mode.", "quantifier": "every number of gossipers, every size of statement, every delivery order", "why_tests_cant": "All schedules, sizes and modes; the loss happens only in combinations.", "anchors": ["gossiper/gossiper_server.go:Gossip_object_handler", "gossiper/gossiper_server.go:Send_obj_to_Gossipers", "gossiper/gen.go:ReconstructPayload"]}
{"id": "C86", "title": "An aggregate carries a threshold of different signers", "statement": "A FULL object a gossiper makes from fragments it received from honest gossipers names Threshold different signers.", "quantifier": "every interleaving of handlers", "why_tests_cant": "Depends on how handlers for copies of the same fragment interleave.", "anchors": ["gossiper/gossiper_server.go:Handle_OBJ_FRAG", "gossiper/Interface.go:IsDuplicate", "gossiper/Interface.go:Store"]}
{"id": "C87", "title": "Gossip traffic is bounded even when handlers overlap", "statement": "In a fully connected network of n honest gossipers with threshold T whose request handlers and timers run concurrently and interleave arbitrarily, the statements of a period still cause at most n(1+(1+T)(n-1)) message deliveries and signing timers each.", "quantifier": "every number of gossipers and statements, every delivery order, every interleaving of the handlers of each gossiper", "why_tests_cant": "All interleavings of concurrent handlers in a distributed protocol.", "anchors": ["gossiper/gossiper_server.go:Handle_Gossip_object", "gossiper/gossiper_server.go:Send_obj_to_Gossipers", "gossiper/Interface.go:IsDuplicate"]}
{"id": "C88", "title": "Statements reach every gossiper and monitor even when handlers overlap", "statement": "In a fully connected network of honest gossipers whose request handlers and timers run concurrently and interleave arbitrarily, the network can always come to rest; when it has, each valid statement handed to one of them is stored by all and has been sent to the monitor of each; and at no moment has a handler died or an entity been blacklisted.", "quantifier": "every number of gossipers and statements, every delivery order, every interleaving of the handlers of each gossiper", "why_tests_cant": "All interleavings of concurrent handlers in a distributed protocol.", "anchors": ["gossiper/gossiper_server.go:Handle_Gossip_object", "gossiper/gossiper_server.go:Send_obj_to_Gossipers", "gossiper/gossiper_server.go:Send_to_Monitor"]}
{"id": "C89", "title": "Whoever signs two conflicting statements is found out by everybody", "statement": "If in a fully connected network of gossipers two statements with the same identifier and signer but different signatures are handed in, at any two gossipers and in any order, then once no message is on its way every gossiper has blacklisted the signer and stores a proof of the conflict that verifies.", "quantifier": "every number of gossipers, every set of other objects, every delivery order", "why_tests_cant": "All schedules of a distributed protocol, and all objects third parties may send in between.", "anchors": ["gossiper/gossiper_server.go:Handle_Gossip_object", "gossiper/Interface.go:IsMalicious", "gossiper/Interface.go:IsDuplicate", "gossiper/gossiper_server.go:Send_obj_to_Gossipers"]}
{"id": "C90", "title": "An entity that enough gossipers accuse is blacklisted by all", "statement": "If in a fully connected network of honest gossipers with threshold T an accusation of an entity is handed to T different gossipers, then once no message is on its way every gossiper has blacklisted the entity, stores an aggregate of the accusations that verifies, and has sent it to its monitor.", "quantifier": "every number of gossipers and threshold, every choice of accusers, every set of other objects, every delivery order and clock", "why_tests_cant": "All schedules of a distributed protocol, and all objects third parties may send in between.", "anchors": ["gossiper/gossiper_server.go:Handle_ACC_INIT", "gossiper/gossiper_server.go:Handle_OBJ_FRAG", "gossiper/gossiper_server.go:Handle_OBJ_FULL", "gossiper/Interface.go:Store"]}
{"id": "C91", "title": "An entity is blacklisted for accusations only if enough parties accuse it", "statement": "No gossiper of a network with threshold T blacklists an entity about which no conflict is proved unless T different parties have accused it.", "quantifier": "every number of gossipers and threshold, every set of handed objects, every delivery order, every moment of a run", "why_tests_cant": "All histories of a distributed protocol; wrong counting shows only for particular repetitions.", "anchors": ["gossiper/gossiper_server.go:Handle_ACC_INIT", "gossiper/gossiper_server.go:Handle_OBJ_FRAG", "gossiper/Interface.go:IsDuplicate", "crypto/bls.go:ThresholdAggregate"]}
{"id": "C92", "title": "Only an entity that misbehaves is ever convicted", "statement": "In a whole system of loggers, CAs, monitors, gossipers and clients, an entity that answers every query of a monitor with an object that verifies, never shows two signatures under one identifier, and about which no outsider posts accusations, conflict proofs or objects in its name, is on no blacklist, in no monitor's table of misbehaviour proofs, in no client's, and not being accused, at any moment, whatever all other entities do.", "quantifier": "every system, every number and behaviour of the other entities, every order, loss and interleaving of messages and handlers", "why_tests_cant": "All histories of a distributed system with misbehaving participants.", "anchors": ["monitor/monitor.go:QueryLoggers", "monitor/monitor.go:QueryAuthorities", "monitor/monitor.go:AccuseEntity", "monitor/monitor.go:Wait_then_accuse", "gossiper/gossiper_server.go:Handle_Gossip_object", "client/client.go:HandleUpdate"]}
{"id": "C93", "title": "A normal logger is never convicted", "statement": "A logger running in normal mode that publishes once per period before it is queried for that period, with no messages to or from it lost and no outsider posting about it, is never accused, blacklisted, or held guilty by anybody.", "quantifier": "every system and history of it", "why_tests_cant": "All histories of the whole system, in particular every minute of the hour.", "anchors": ["Logger/server.go:PeriodicTask", "Logger/server.go:requestSTH", "monitor/monitor.go:QueryLoggers", "monitor/monitor.go:Wait_then_accuse", "Logger/server.go:GetCurrentPeriod"]}
{"id": "C94", "title": "Conflicts are found out however handlers overlap", "statement": "If two statements for one identifier by one signer, with different signatures, are handed to gossipers, then once everything has come to rest every gossiper blacklists the signer and holds a valid proof of the conflict, in whatever order the handlers running at the same time take their steps.", "quantifier": "every fully connected network of gossipers, every interleaving of the handlers, every order of deliveries and timers", "why_tests_cant": "All interleavings of handlers at all gossipers, of which there are unboundedly many.", "anchors": ["gossiper/gossiper_server.go:Handle_Gossip_object", "gossiper/Interface.go:Read_and_Store_If_Needed", "gossiper/Interface.go:Store_gossip_object", "gossiper/Interface.go:IsMalicious", "gossiper/gossiper_server.go:Send_obj_to_Gossipers"]}
{"id": "C95", "title": "What is saved to a file is read back", "statement": "A certificate saved by SaveCertificateToDisk is returned unchanged by ReadCertificateFromDisk, and a key saved by SaveKeyToDisk by ReadKeyFromDisk, whatever the file contained before; no other file changes; saving succeeds if the directory exists, the path is no directory and the file may be written.", "quantifier": "every certificate, key, path and state of the file system", "why_tests_cant": "All byte strings of all lengths, with all line breaks and paddings of their encoding.", "anchors": ["util/IO.go:SaveCertificateToDisk", "util/IO.go:ReadCertificateFromDisk", "util/IO.go:SaveKeyToDisk", "util/IO.go:ReadKeyFromDisk"]}
{"id": "C96", "title": "An interrupted save never leaves a wrong certificate", "statement": "Wherever SaveCertificateToDisk is interrupted, reading the file afterwards gives what it gave before, an error, or the new certificate, and all other files are as before.", "quantifier": "every certificate, every state of the file system, every point of interruption", "why_tests_cant": "There is a crash point after every character written.", "anchors": ["util/IO.go:SaveCertificateToDisk", "util/IO.go:ReadCertificateFromDisk"]}
{"id": "C97", "title": "A failed or interrupted save keeps the old contents", "statement": "If saving a certificate or key fails or is interrupted, what the file contained before can still be read.", "quantifier": "every certificate and key, every state of the file system, every point of interruption", "why_tests_cant": "There is a crash point after every character written, and errors of the operating system and of the encoder are hard to provoke.", "anchors": ["util/IO.go:SaveCertificateToDisk", "util/IO.go:SaveKeyToDisk"]}
{"id": "C98", "title": "Only certificates are read as certificates", "statement": "ReadCertificateFromDisk returns an error if the file contains something other than a certificate.", "quantifier": "every file", "why_tests_cant": "All contents of files.", "anchors": ["util/IO.go:ReadCertificateFromDisk"]}
{"id": "C99", "title": "A file of certificates fills the pool with exactly its certificates", "statement": "AppendCertsFromPEM adds to the pool exactly the certificates in the text that can be parsed, in their order and each once, skipping comments, other blocks and certificates that cannot be parsed, and reports whether there was one.", "quantifier": "every pool, every number and order of blocks of any types and lengths, every comments between them and text after them", "why_tests_cant": "All lists of blocks and all byte strings in them.", "anchors": ["crypto/certpool.go:AppendCertsFromPEM", "crypto/certpool.go:AddCert"]}
{"id": "C100", "title": "Cleaning up removes the storage directory and nothing else", "statement": "CleanUpGossiperStorage and CleanUpMonitorStorage (DeleteFilesAndDirectories) remove nothing outside the storage directory and change no file; if nil is returned the directory and everything in it is gone; nil is returned if the path is a directory and the operating system refuses nothing; a path that is not a directory is left alone.", "quantifier": "every directory tree of any depth and width, every order of listing, every pattern of refused operations", "why_tests_cant": "All trees, and all combinations of failing operations in them.", "anchors": ["util/IO.go:DeleteFilesAndDirectories", "gossiper/Interface.go:CleanUpGossiperStorage", "monitor/types.go:CleanUpMonitorStorage"]}
{"id": "C101", "title": "A mass revocation revokes the right number of certificates", "statement": "When MassRevoke returns, exactly numOnes different numbers below the length of the vector have been revoked in addition to those that were, and the length of the vector and the vector of the previous period are unchanged.", "quantifier": "every vector, every ratio, every sequence of random numbers", "why_tests_cant": "All sequences of random numbers, with all repetitions.", "anchors": ["CA/CRV.go:MassRevoke", "CA/CRV.go:GenerateRandomBitPositions"]}
{"id": "C102", "title": "A mass revocation comes to an end", "statement": "MassRevoke returns for every ratio as soon as the random numbers have taken enough different values.", "quantifier": "every ratio, every sequence of random numbers", "why_tests_cant": "An endless loop cannot be told from a long one by running it.", "anchors": ["CA/CRV.go:MassRevoke", "CA/CRV.go:GenerateRandomBitPositions", "CA/server.go:PeriodicTask"]}
{"id": "C103", "title": "A split view is found out by the whole system", "statement": "If two gossipers are given conflicting statements of a logger or CA in one period, each gossiper is given only one version, nobody accuses that logger or CA, and all messages arrive, then every gossiper blacklists it and holds a proof it accepts, the monitor of every gossiper has the proof, and every client that loads the update written by such a monitor at the end of the period has convicted the logger or CA, unless it refused the update or is waiting for a lock.", "quantifier": "every fully connected system of any size, every history of one period: all interleavings of gossipers' handlers with loggers, CAs, monitors, clients and outsiders' messages to them", "why_tests_cant": "All systems and all interleavings of all their parts.", "anchors": ["gossiper/gossiper_server.go:Handle_STH_INIT", "gossiper/gossiper_server.go:Handle_CON_INIT", "gossiper/gossiper_server.go:Send_to_Monitor", "monitor/monitor.go:handle_gossip_from_gossiper", "monitor/monitor.go:GenerateUpdate", "client/client.go:HandleUpdate"]}
{"id": "C104", "title": "Period tasks run exactly once in every minute", "statement": "After it has been started, the period task of every gossiper, monitor, logger and CA is run exactly once in every minute of the clock.", "quantifier": "every time of starting, every MMD, every number of periods, every delays of the timers", "why_tests_cant": "All start times and all delays of timers, over unboundedly many periods.", "anchors": ["gossiper/gossiper_server.go:PeriodicTasks", "gossiper/gossiper_server.go:StartGossiperServer", "monitor/monitor-server.go:StartMonitorServer", "monitor/monitor.go:PeriodicTasks", "Logger/server.go:StartLogger", "Logger/server.go:PeriodicTask", "CA/server.go:StartCA", "CA/server.go:PeriodicTask", "util/helpers.go:Getwaitingtime"]}
{"id": "C105", "title": "There is a tree head and a revocation object for every minute after the start", "statement": "Whenever a normal logger (CA) is started, in every later minute it answers requests with the tree head (revocation object) made at the end of the minute before, which carries the current minute.", "quantifier": "every time of starting, every history of requests, every delays of timers", "why_tests_cant": "All start times, all delays and all histories of requests between the runs.", "anchors": ["Logger/server.go:StartLogger", "Logger/server.go:PeriodicTask", "Logger/server.go:requestSTH", "CA/server.go:StartCA", "CA/server.go:PeriodicTask", "CA/server.go:requestREV"]}
{"id": "C106", "title": "A monitor that waits for the clocks asks in the right minute", "statement": "If the monitor waits for the largest difference between clocks before it asks, its queries reach every logger and CA in the minute (by their clock) in which the round began (by the monitor's clock); if it does not wait, queries to processes whose clock is behind arrive in the minute before.", "quantifier": "every time of starting, every difference of clocks, delay of timers and time of travel within the stated sum, every round", "why_tests_cant": "All clocks, delays and start times.", "anchors": ["monitor/monitor.go:PeriodicTasks", "monitor/monitor-server.go:StartMonitorServer"]}
{"id": "C107", "title": "Random delays end and stay within the limits", "statement": "The random delay put before sending is at least the lower and less than the upper limit, every value between can occur, and it is found after finitely many random numbers.", "quantifier": "every pair of limits, every sequence of random numbers", "why_tests_cant": "All sequences of random numbers; an endless loop cannot be told from a long one by running it.", "anchors": ["util/helpers.go:GetRandomLatency", "gossiper/types.go:ComputeRandomlatency"]}
{"id": "C108", "title": "A logger logs only precertificates signed by an accepted CA", "statement": "Every certificate in a logger's tree names as issuer a CA the logger accepts and carries a valid signature of that CA; precertificates issued by an accepted CA are not rejected.", "quantifier": "every precertificate, every history of submissions", "why_tests_cant": "All certificates anybody can submit, in any order.", "anchors": ["Logger/server.go:receive_pre_cert", "Logger/Types.go:Verifyprecert"]}
{"id": "C109", "title": "Stored objects load back into a monitor", "statement": "Loading a file of stored objects of one kind makes each of them available under its identifier, changes nothing else, and returns nil; a file that is missing or malformed has no effect and gives an error.", "quantifier": "every state of the monitor, every kind of object, every list of objects, every contents of the file", "why_tests_cant": "All lists of objects, with repeated identifiers.", "anchors": ["monitor/types.go:LoadOneStorage", "monitor/types.go:GetObject"]}
{"id": "C110", "title": "Fetching a certificate gives the first one presented or an error", "statement": "FetchCertificate returns the first certificate the site presents in the TLS handshake, and an error if there is none.", "quantifier": "every answer of a site", "why_tests_cant": "All answers of a site, including those no ordinary server gives.", "anchors": ["client/client.go:FetchCertificate"]}
{"id": "C111", "title": "With a threshold of two every gossiper gets an aggregate, however handlers overlap", "statement": "In a fully connected network of honest gossipers whose threshold is at most two, once nothing is on its way, every statement handed to one gossiper has a verified aggregate at every gossiper, and each gossiper has sent its aggregate to its monitor.", "quantifier": "every number of gossipers, every set of statements of one period, every interleaving of the steps of all handlers and signing timers, every order of deliveries and clock readings", "why_tests_cant": "All interleavings of all handlers of all gossipers; two handlers may store the same fragment twice, and whether this does harm depends on the whole history.", "anchors": ["gossiper/gossiper_server.go:Handle_Gossip_object", "gossiper/gossiper_server.go:Handle_OBJ_FRAG", "gossiper/gossiper_server.go:Handle_STH_INIT", "gossiper/gossiper_server.go:Handle_REV_INIT", "gossiper/Interface.go:Store_gossip_object"]}
{"id": "C112", "title": "What loggers and CAs publish reaches every monitor and client, however the parts of the system interleave", "statement": "In a period in which gossipers are told one version of each tree head and revocation object, and with a threshold of at most two or no fragment stored twice by overlapping handlers, once all is at rest every monitor has a threshold-signed aggregate of every statement told to any gossiper, with the same content and acceptable to anybody with the gossipers' keys; no monitor has evidence against anybody; and a client that loads a monitor's update of the period records every tree head and the vectors of the CAs new to it, and convicts nobody.", "quantifier": "every system (numbers of gossipers, monitors, loggers, CAs, clients), every history of the whole system: interleavings of handlers, deliveries, queries, publications, timers, submissions by outsiders", "why_tests_cant": "All histories of the whole distributed system; a test runs a few of them.", "anchors": ["gossiper/gossiper_server.go:Handle_Gossip_object", "monitor/monitor.go:handle_gossip_from_gossiper", "monitor/monitor.go:PeriodicTasks", "monitor/client-update-monitor.go:PrepareClientUpdate", "client/client.go:HandleUpdate"]}
{"id": "C113", "title": "A certificate with a delivered tree head is accepted", "statement": "After such a period, a client that loads the update of any monitor accepts every certificate that carries one of the delivered tree heads with a valid inclusion proof, unless its logger was convicted earlier or the issuer's vector (known earlier or delivered in this period) revokes it.", "quantifier": "every history of the whole system as in the previous property, every certificate, every earlier state of the client", "why_tests_cant": "All histories and all certificates; acceptance depends on every step from the gossip to the client's databases.", "anchors": ["client/client.go:VerifyCTngextension", "client/client.go:HandleUpdate", "monitor/client-update-monitor.go:PrepareClientUpdate"]}
{"id": "C114", "title": "Every object an entity makes has the documented form", "statement": "Fragments, aggregates, conflict proofs, tree heads, revocation objects and accusations carry the application, type, period, signer, list of signers, time and signature scheme of their kind, and their payload is about the entity and statement they were made for.", "quantifier": "every configuration, every statement, every list of fragments, certificates or bits, every clock reading", "why_tests_cant": "All inputs; one wrong field makes the object unusable for its receivers, who only see it after several steps of the protocol.", "anchors": ["gossiper/gen.go:Generate_Gossip_Object_FRAG", "gossiper/gen.go:Generate_Gossip_Object_FULL", "gossiper/gen.go:Generate_CON_INIT", "Logger/buildmerkle.go:BuildMerkleTreeFromCerts", "CA/CRV.go:Generate_Revocation", "monitor/monitor.go:AccuseEntity"]}
{"id": "C115", "title": "Accusations get through however the handlers of a gossiper interleave", "statement": "If in a fully connected network of honest gossipers with threshold T an accusation of an entity is handed to T different gossipers, then once everything has come to rest every gossiper has blacklisted the entity, stores an aggregate of the accusations that verifies, and has sent it to its monitor, although the requests served by one gossiper and its timers run at the same time.", "quantifier": "every number of gossipers and threshold, every choice of accusers, every set of other objects, every interleaving of the steps of all handlers and timers, delivery order and clock", "why_tests_cant": "All interleavings of all goroutines of all gossipers.", "anchors": ["gossiper/gossiper_server.go:Handle_ACC_INIT", "gossiper/gossiper_server.go:Handle_OBJ_FRAG", "gossiper/gossiper_server.go:Handle_OBJ_FULL", "gossiper/gossiper_server.go:handleRequests"]}
{"id": "C116", "title": "One accuser is counted once, however the handlers of a gossiper interleave", "statement": "A gossiper in a network of honest gossipers with threshold T blacklists an entity for accusations only if T different gossipers were handed one, although the requests served by one gossiper and its timers run at the same time.", "quantifier": "every number of gossipers and threshold, every choice of accusers, every set of other objects, every interleaving of the steps of all handlers and timers, delivery order and clock", "why_tests_cant": "All interleavings of all goroutines of all gossipers.", "anchors": ["gossiper/gossiper_server.go:Handle_OBJ_FRAG", "gossiper/Interface.go:IsDuplicate", "gossiper/Interface.go:Store", "crypto/bls.go:ThresholdAggregate"]}
{"id": "C117", "title": "The record of a period counts what there was", "statement": "When a period ends, the gossiper's log gets an entry for the period with the number of statements, fragments, aggregates and conflict proofs it holds and the number of blacklisted entities, if any of these is not zero; the entries of other periods and the objects in the entry do not change afterwards.", "quantifier": "every configuration, every history of events, every interleaving of handlers, every period", "why_tests_cant": "All histories; an entry can only be checked against everything that arrived before.", "anchors": ["gossiper/Interface.go:Save", "gossiper/Interface.go:countFragments", "gossiper/gossiper_server.go:PeriodicTasks"]}
{"id": "C118", "title": "Only publishing a tree head can stop a logger", "statement": "A logger survives every precertificate, every request and every end of a period; it stops exactly when it has to publish with fewer than two different certificates, or when a CA it has an inclusion proof for cannot be reached.", "quantifier": "every history of submissions, requests, publications and period ends, every set of reachable CAs, every kind of logger", "why_tests_cant": "All histories; a test sees one pool of certificates.", "anchors": ["Logger/server.go:PeriodicTask", "Logger/server.go:requestSTH", "Logger/server.go:receive_pre_cert", "Logger/server.go:Send_POIs_to_CAs"]}
{"id": "C119", "title": "A recorded convergence time is of its period", "statement": "The convergence times in the record of a period are the seconds of that period at which the last statement and the last aggregate of the period arrived.", "quantifier": "every configuration, every history of events", "why_tests_cant": "All histories; the times are kept from one period to the next.", "anchors": ["gossiper/Interface.go:Save", "gossiper/Interface.go:IsConvergent", "gossiper/Interface.go:IsInitConvergent", "gossiper/gossiper_server.go:Handle_OBJ_FULL"]}
{"id": "C120", "title": "An entity that enough monitors accuse is convicted by every gossiper, monitor and client", "statement": "If in one period the timers of the monitors of T different gossipers (T the threshold) make them accuse an entity, no message is lost and everything comes to rest, then every gossiper has blacklisted the entity and holds a verified aggregate of the accusations, the monitor it reports to holds one, and a client that loads the update such a monitor writes for the period refuses the update or convicts the entity. Conversely a gossiper that blacklists the entity for accusations holds T fragments, made by gossipers that an accusation reached. Provided the accusers did not store one fragment twice (see C115, C116).", "quantifier": "every system of loggers, CAs, monitors, gossipers and clients, every threshold, every history of one period, every interleaving of all handlers, every order of delivery", "why_tests_cant": "All histories of all processes together.", "anchors": ["monitor/monitor.go:AccuseEntity", "monitor/monitor.go:Wait_then_accuse", "gossiper/gossiper_server.go:Handle_ACC_INIT", "gossiper/gossiper_server.go:Handle_OBJ_FULL", "client/client.go:HandleUpdate"]}
{"id": "C121", "title": "A normal CA is never convicted", "statement": "A CA running in normal mode that makes one revocation object per period before it is queried for that period, with no query to it and no answer from it lost, with no outsider posting about it, and whose revocations the monitors have recorded when they get an object, is never accused, blacklisted, or held guilty by anybody. A monitor that has recorded something else - because it missed the first object, or because the CA has revoked something since - rejects the object and sets off an accusation.", "quantifier": "every system and history of it, every set of revocations", "why_tests_cant": "All histories of the whole system, in particular every minute of the hour and every vector of revocations.", "anchors": ["CA/server.go:PeriodicTask", "CA/server.go:requestREV", "CA/CRV.go:Generate_Revocation", "monitor/monitor.go:QueryAuthorities", "monitor/monitor.go:VerifySRH", "monitor/monitor.go:Wait_then_accuse"]}
{"id": "C122", "title": "Every entity has its own identifier in the threshold scheme", "statement": "The identifier of the threshold scheme derived from the name of an entity determines the name, exists for every name, and can be mapped back; so generating threshold keys for a list of different names gives every entity its own identifier and never stops the program.", "quantifier": "every name, every list of names, every threshold, every number of gossipers in a generated deployment", "why_tests_cant": "Injectivity and totality over all names cannot be sampled; the limit comes from the order of a group of 255 bits.", "anchors": ["crypto/types.go:BlsID", "crypto/types.go:CTngIDfromBlsID", "crypto/bls.go:GenerateThresholdKeypairs", "Gen/Gen.go:BLS_gen_all"]}
{"id": "C123", "title": "An entity that does not answer is convicted by everybody", "statement": "If the monitors of T different gossipers (T the threshold) get no good answer of a logger or CA in a period - no answer at all, one that does not verify, or a revocation object that does not go with what is recorded - and hear nothing else of it before their timers have fired, no message is lost and everything comes to rest, then every gossiper blacklists the entity and holds a verified aggregate of the accusations, and so do their monitors; and a client that loads the update such a monitor writes for the period refuses it or convicts the entity. Every query of a monitor ends with an answer or with the notice that there is none, also if messages are lost; for an entity that is not running it ends with that notice unless an answer is forged.", "quantifier": "every system of loggers, CAs, monitors, gossipers and clients, every threshold, every history of one period, every interleaving of all handlers and timers, every order of delivery", "why_tests_cant": "All histories of all processes together, with timers firing in any order.", "anchors": ["monitor/monitor.go:QueryLoggers", "monitor/monitor.go:QueryAuthorities", "monitor/monitor.go:Wait_then_accuse", "monitor/monitor.go:AccuseEntity", "gossiper/gossiper_server.go:Handle_ACC_INIT", "client/client.go:HandleUpdate"]}
{"id": "C124", "title": "A certificate whose revocation was delivered is never accepted again", "statement": "The first revocation object a CA makes revokes exactly the certificates the CA has revoked until then. When such an object is gossiped, no message is lost and everything comes to rest, then a client that had nothing of the CA and loads the update of the period from any monitor accepts none of the revoked certificates from then on, whatever anybody in the system does afterwards, as long as the client runs.", "quantifier": "every system of loggers, CAs, monitors, gossipers and clients, every set of revoked certificates, every interleaving up to the update and every later history, including misbehaviour and losses", "why_tests_cant": "All histories of all processes together, and all later histories.", "anchors": ["CA/server.go:PeriodicTask", "monitor/client-update-monitor.go:PrepareClientUpdate", "client/client.go:HandleUpdate", "client/client.go:VerifyCTngextension", "CA/CRV.go:Generate_Revocation"]}
{"id": "C125", "title": "A certificate a CA issues ends up with an inclusion proof", "statement": "When a CA issues certificates and sends them to its loggers, every logger publishes, and every message arrives in order, each certificate the CA finally signs carries for each logger the tree head the logger published and a proof that verifies against it, whatever else happens in the system in the meantime.", "quantifier": "every system of CAs and loggers, every history, every interleaving with all other events, every certificate", "why_tests_cant": "The property is about three processes and four kinds of messages, for all histories.", "anchors": ["CA/server.go:PeriodicTask", "CA/server.go:receive_sth", "CA/server.go:receive_poi", "CA/server.go:SignAllCerts", "Logger/server.go:receive_pre_cert", "Logger/server.go:PeriodicTask", "Logger/server.go:Send_POIs_to_CAs"]}
{"id": "C126", "title": "A certificate that was issued and logged is accepted by clients", "statement": "When a CA issues a certificate, its precertificate reaches a logger, the logger publishes, and its tree head and proof reach the CA, then the certificate the CA signs is accepted by every client that has loaded the update of any monitor for the period in which the tree head was gossiped, if that period came to rest with every message delivered and one version of each statement, the client has the logger's key and did not hold the logger convicted, and the certificate is not revoked.", "quantifier": "every system of loggers, CAs, monitors, gossipers and clients, every threshold, every history, every interleaving, every certificate", "why_tests_cant": "The property is about all six kinds of processes together, for all their histories.", "anchors": ["CA/server.go:PeriodicTask", "CA/server.go:SignAllCerts", "Logger/server.go:PeriodicTask", "gossiper/gossiper_server.go:Handle_STH_INIT", "monitor/client-update-monitor.go:PrepareClientUpdate", "client/client.go:HandleUpdate", "client/client.go:VerifyCTngextension"]}
{"id": "C127", "title": "A gossiper's goroutines do not get into each other's way", "statement": "Whatever requests arrive at a gossiper and whenever its timers and its period task run, no two goroutines access the same storage map at the same time with one of them changing it, no lock is released that is not held (either makes the Go runtime end the process), and the goroutines never wait for each other forever.", "quantifier": "every set of concurrent requests, timers and period tasks, every interleaving of their steps", "why_tests_cant": "Races appear only in particular schedules; all interleavings of unboundedly many goroutines are meant.", "anchors": ["gossiper/Interface.go:Store_gossip_object", "gossiper/Interface.go:Read_and_Store_If_Needed", "gossiper/Interface.go:IsInitConvergent", "gossiper/Interface.go:Save", "gossiper/Interface.go:WipeStorage", "gossiper/gossiper_server.go:PeriodicTasks", "gossiper/types.go:Gossip_object_storage"]}
{"id": "C128", "title": "A monitor's goroutines do not get into each other's way", "statement": "Whatever objects arrive at a monitor and whenever its queries, timers and period task run, no two goroutines access the same storage map at the same time with one of them changing it, no lock is released that is not held, and the goroutines never wait for each other forever.", "quantifier": "every set of concurrent requests, queries, timers and period tasks, every interleaving of their steps", "why_tests_cant": "Races appear only in particular schedules; all interleavings of unboundedly many goroutines are meant.", "anchors": ["monitor/types.go:GetObject", "monitor/types.go:StoreObject", "monitor/types.go:WipeStorage", "monitor/types.go:Clean_Conflicting_Object", "monitor/monitor.go:Check_entity_pom", "monitor/monitor.go:Wait_then_accuse", "monitor/monitor.go:VerifySRH", "monitor/monitor.go:GenerateUpdate"]}
{"id": "C129", "title": "A CA's goroutines do not get into each other's way", "statement": "Whatever tree heads, inclusion proofs and requests arrive at a CA and whenever its period tasks run, no two goroutines access the same map at the same time with one of them changing it, no lock is released that is not held, and the goroutines never wait for each other forever.", "quantifier": "every set of concurrent requests and period tasks, every interleaving of their steps", "why_tests_cant": "Races appear only in particular schedules; all interleavings of unboundedly many goroutines are meant.", "anchors": ["CA/server.go:receive_sth", "CA/server.go:receive_poi", "CA/server.go:requestREV", "CA/server.go:PeriodicTask", "CA/server.go:wipeSTHstorage", "crypto/certpool.go:AddCert"]}
{"id": "C130", "title": "A logger's goroutines do not get into each other's way", "statement": "Whatever precertificates and requests arrive at a logger and whenever it publishes, no two goroutines access the same map at the same time with one of them changing it, no lock is released that is not held, and the goroutines never wait for each other forever.", "quantifier": "every set of concurrent requests and publications, every interleaving of their steps", "why_tests_cant": "Races appear only in particular schedules; all interleavings of unboundedly many goroutines are meant.", "anchors": ["Logger/server.go:requestSTH", "Logger/server.go:receive_pre_cert", "Logger/server.go:PeriodicTask", "crypto/certpool.go:AddCert"]}
{"id": "C131", "title": "A large revocation object that is announced is fetched", "statement": "A new valid revocation object whose encoding exceeds the size threshold is announced to every neighbour by its hash; a neighbour that does not have it asks the announcing gossiper for it, and gets exactly that object; a neighbour that has it does not ask.", "quantifier": "every reachable state of both gossipers, every object, every size of request", "why_tests_cant": "The exchange of three messages is determined by two caches in arbitrary states; whether the hash identifies the object is a question about all objects.", "anchors": ["gossiper/gossiper_server.go:Gossip_object_handler", "gossiper/gossiper_server.go:Gossip_notification_handler", "gossiper/gossiper_server.go:Gossip_request_handler", "gossiper/gossiper_server.go:Send_obj_to_Gossipers", "gossiper/Interface.go:SavePayload", "gossiper/Interface.go:SearchPayload", "gossiper/Interface.go:GetREVrequested", "gossiper/Interface.go:ComputeobjHash"]}
{"id": "C132", "title": "A gossiper's critical sections act as single steps", "statement": "However the goroutines of a gossiper are switched, between any two lock operations or accesses to its maps, what it has stored, blacklisted and sent, its waiting timers and its panics are those of some run in which no critical section is interrupted.", "quantifier": "every set of concurrent requests, timers and clock changes, every interleaving of single accesses", "why_tests_cant": "It is a statement about every schedule of unboundedly many goroutines at the level of single map accesses; a test sees one schedule.", "anchors": ["gossiper/Interface.go:Store_gossip_object", "gossiper/Interface.go:Read_and_Store_If_Needed", "gossiper/Interface.go:IsDuplicate_G", "gossiper/Interface.go:IsConvergent", "gossiper/Interface.go:IsInitConvergent", "gossiper/Interface.go:WipeStorage", "gossiper/gossiper_server.go:Handle_Gossip_object", "gossiper/gossiper_server.go:Gossip_object_handler"]}
{"id": "C133", "title": "Messages reach the handlers they are meant for", "statement": "In every history of a whole system of loggers, CAs, monitors, gossipers and clients in which nobody outside sends anything, every message on its way (precertificates, tree heads, proofs of inclusion, queries, statements and accusations for gossipers, posts between gossipers, reports to monitors) is addressed to a path under which its receiver serves the handler for it; queries reach it by a redirection. The same holds of each gossiper and monitor alone, whatever it receives. A gossiper decides by its route table alone what it does with a post; every path for objects takes objects of every type, so aggregates are taken although they have no path of their own; a post to a path with a slash added is lost.", "quantifier": "every system, every history, every interleaving, every message, every path", "why_tests_cant": "What is sent depends on everything received before; all histories and all objects are quantified over.", "anchors": ["gossiper/gossiper_server.go:handleRequests", "gossiper/gossiper_server.go:Send_obj_to_Gossipers", "Logger/server.go:handleLoggerRequests", "CA/server.go:handleCARequests", "monitor/monitor-server.go:handleMonitorRequests", "monitor/monitor.go:Send_to_gossiper"]}
{"id": "C134", "title": "Within a period, overlapping at the level of single accesses changes nothing for the network and the system", "statement": "As long as no gossiper runs its task at the end of a period: however the goroutines of all gossipers are switched between any two lock operations or map accesses, the posts on their way and the state of every gossiper are those of a network in which critical sections are single steps, after the same requests, arrivals and clock changes in the same order; and in the whole system all loggers, CAs, monitors, clients and all mail are the same too, and every event outside the gossipers finds the rest of the system in the same state. So an honest network at rest has stored everything handed over, aggregated it unless a fragment was stored twice, convicted nobody and sent no more than the bound; and a logger that publishes every period and is asked in time is never convicted.", "quantifier": "every network and system, every interleaving of single accesses at all gossipers, every arrival order, loss and clock change", "why_tests_cant": "It compares every schedule of single accesses at several processes with schedules of atomic sections; no set of test runs covers them.", "anchors": ["gossiper/gossiper_server.go:Handle_Gossip_object", "gossiper/gossiper_server.go:Gossip_object_handler", "gossiper/gossiper_server.go:Gossip_notification_handler", "gossiper/gossiper_server.go:Gossip_request_handler", "gossiper/Interface.go:Store_gossip_object", "gossiper/Interface.go:IsDuplicate_G", "gossiper/gossiper_server.go:handleRequests"]}
{"id": "C135", "title": "What is kept in JSON files is read back", "statement": "A client that has saved its databases is started again with exactly the tree heads and revocation vectors it had, and the file of proofs of misbehaviour holds the proofs it had, whatever updates it handled and however often it was interrupted and restarted before; a JSON value written to a configuration file is loaded from it. This holds with the white space the encoder adds and for every order of the entries.", "quantifier": "every history of updates, saves, interruptions and restarts, every content of the databases, every order of entries, every JSON value", "why_tests_cant": "The contents are arbitrary strings and bit vectors of unbounded size, and the encoder's order of map entries is not under a test's control.", "anchors": ["util/IO.go:WriteData", "util/IO.go:ReadByte", "util/IO.go:LoadConfiguration", "client/types.go:SaveSTHDatabase", "client/types.go:SaveCRVDatabase", "client/types.go:SavePomDatabase", "client/types.go:InitializeClientContext"]}
{"id": "C136", "title": "A client interrupted while saving can be started again", "statement": "If a client is interrupted at any moment while it saves its databases, it can be started again, and its data are those saved before or the new ones.", "quantifier": "every history of a client, every moment of writing any of its files", "why_tests_cant": "It is about every crash point between any two characters written.", "anchors": ["util/IO.go:WriteData", "client/types.go:SaveSTHDatabase", "client/types.go:SaveCRVDatabase", "client/types.go:SavePomDatabase", "client/types.go:LoadSTHDatabase", "client/types.go:LoadCRVDatabase", "client/types.go:InitializeClientContext"]}
{"id": "C137", "title": "A client gets a whole update or none", "statement": "At whatever moment a client asks a monitor for the update of a period, also while the monitor is writing it or after the monitor was interrupted writing it, the answer is the one before, a failure, or the whole new update; updates of other periods are served as before; once the update is saved, it is served.", "quantifier": "every file system, every update, every moment of creating the directory and of writing the files, every period without a slash", "why_tests_cant": "It is about every point at which a request or a crash can fall between two characters written.", "anchors": ["monitor/types.go:SaveStorage", "monitor/client-update-monitor.go:PrepareClientUpdate", "monitor/client-update-monitor.go:requestupdate", "util/IO.go:CreateDir", "util/IO.go:CreateFile", "util/IO.go:WriteData", "util/IO.go:ReadByte"]}
{"id": "C138", "title": "A request for an update reads only the updates of the monitor asked", "statement": "Whatever string a client sends as the period, the monitor reads no file but its own update for that period.", "quantifier": "every file system, every string sent", "why_tests_cant": "It is about every string an outsider may send.", "anchors": ["monitor/client-update-monitor.go:PrepareClientUpdate", "monitor/client-update-monitor.go:requestupdate", "util/IO.go:ReadByte"]}
{"id": "C139", "title": "A configuration whose writing was interrupted is not loaded", "statement": "If writing a configuration file (of a party, by the generator, or a crypto configuration) is interrupted at any moment, loading it afterwards gives the old configuration, an error, or the whole new one.", "quantifier": "every configuration, every old content, every moment of writing", "why_tests_cant": "It is about every crash point; that no proper prefix of an encoded configuration is accepted is a statement about all configurations.", "anchors": ["util/IO.go:WriteData", "util/IO.go:LoadConfiguration", "Gen/Gen.go:write_config_to_file", "crypto/crypto_IO.go:SaveCryptoFiles", "crypto/crypto_IO.go:ReadCryptoConfig", "crypto/crypto_IO.go:ReadVerifyOnlyCryptoConfig"]}
{"id": "C140", "title": "Interruptions never make a client believe what no update told it", "statement": "Whatever updates a client handles with verification, however often it saves its databases, is interrupted at any moment of saving and is started again (beginning without files): every root it has recorded is that of a verified tree head for that logger and period in one of those updates; every revocation vector is that of a verified revocation object of that CA in one of them; so it accepts a certificate only if a verified tree head in some update covers it and a verified revocation object does not revoke it; and a certificate that was revoked for the client before an interruption is not accepted after it.", "quantifier": "every history of updates, saves, interruptions between any two characters, and restarts; every certificate", "why_tests_cant": "It is about every crash point in every history.", "anchors": ["client/types.go:SaveSTHDatabase", "client/types.go:SaveCRVDatabase", "client/types.go:InitializeClientContext", "client/types.go:LoadCRVDatabase", "client/client.go:HandleUpdate", "client/client.go:VerifyCTngextension", "util/IO.go:WriteData"]}
{"id": "C141", "title": "However a monitor's goroutines interleave, it stores, sends and publishes only what it should", "statement": "Whatever a monitor receives and however its handlers, queries, timers and tasks overlap: every object it stores was received, and is stored among those of its type under its own identifier; conflict and accusation proofs are never lost; it asks only the configured loggers and CAs; it sends its gossiper only its own accusations of entities that gave a bad answer (at most one for each answer), and verified first statements of known entities that came as answers; and every update it saves has only objects that were received, each in the list of its type and once.", "quantifier": "every history of objects, answers, timers and tasks; every interleaving of all goroutines at single accesses to the storages; every clock", "why_tests_cant": "It is about every schedule.", "anchors": ["monitor/monitor.go:Process_valid_object", "monitor/monitor.go:QueryLoggers", "monitor/monitor.go:QueryAuthorities", "monitor/monitor.go:AccuseEntity", "monitor/monitor.go:Wait_then_accuse", "monitor/monitor.go:Check_entity_pom", "monitor/monitor.go:GenerateUpdate", "monitor/types.go:StoreObject", "monitor/types.go:IsDuplicate", "monitor/types.go:WipeStorage", "monitor/types.go:Clean_Conflicting_Object"]}
{"id": "C142", "title": "However a monitor's goroutines interleave, an update has no statement of an entity convicted before", "statement": "If a monitor holds a conflict proof against an entity (with the period for which it looks) when the task that makes an update begins, the update has no tree head and no revocations of the entity, whatever happens during the task.", "quantifier": "every history before, every interleaving of the task with everything else", "why_tests_cant": "It is about every schedule.", "anchors": ["monitor/types.go:Clean_Conflicting_Object", "monitor/types.go:WipeStorage", "monitor/types.go:StoreObject", "monitor/monitor.go:GenerateUpdate"]}
{"id": "C143", "title": "However a monitor's timers interleave, a recorded revocation vector is not replaced", "statement": "Once a monitor has recorded the revocation vector of a CA, the vector stays as it is, whatever is received and however the timers that record vectors overlap; and it is what some final statement of that CA said that the monitor received.", "quantifier": "every history, every interleaving, every CA and vector", "why_tests_cant": "It is about every schedule of timers.", "anchors": ["monitor/types.go:StoreObject"]}
{"id": "C144", "title": "However a monitor's goroutines interleave, it accuses an entity only if the entity's statement is missing", "statement": "A monitor sends an accusation of an entity only if it has no statement of the entity for the minute, and not if it holds a conflict proof against the entity.", "quantifier": "every history, every interleaving at single accesses, every clock", "why_tests_cant": "It is about every schedule.", "anchors": ["monitor/monitor.go:Wait_then_accuse", "monitor/monitor.go:AccuseEntity", "monitor/monitor.go:Check_entity_pom"]}
{"id": "C145", "title": "A monitor does one thing at a time as if nothing else could happen, and its task always can end", "statement": "When a monitor handles a gossiped object, an answer, a query or a timer and nothing else happens meanwhile, its storages and what it sends are those of the sequential description of the handler (including when the process dies), so every sequential history is a possible one; its task, in whatever order it meets the entries of its maps, drops what convicted entities said and everything of another period, publishes in the directory of the minute exactly what is then stored, and can always end.", "quantifier": "every state, object, answer, timer and clock; every order in which entries of maps are met", "why_tests_cant": "The order of entries in a Go map is random, and the states are unbounded.", "anchors": ["monitor/monitor.go:Process_valid_object", "monitor/monitor.go:PeriodicTasks", "monitor/monitor.go:GenerateUpdate", "monitor/monitor.go:QueryLoggers", "monitor/monitor.go:QueryAuthorities", "monitor/monitor.go:Wait_then_accuse", "monitor/types.go:StoreObject", "monitor/types.go:WipeStorage", "monitor/types.go:Clean_Conflicting_Object"]}
{"id": "C146", "title": "However a logger's tasks interleave, its heads and proofs are of submitted certificates", "statement": "Whatever is submitted to a logger and however submissions, requests and several period tasks overlap: every head it posts goes to a configured CA and is its signed head of a tree over two or more different submitted certificates; every proof of inclusion it posts goes to the issuer of a certificate in such a tree, and verifies for that certificate against a root whose head was posted to every CA before; what a normal logger answers is an empty object or such a head for the minute asked about, and every CA was or is being sent the same head; a task that meets nothing else does what the sequential description says.", "quantifier": "every history of submissions, requests and tasks; every interleaving of tasks at single accesses and posts; every clock and reachability of CAs", "why_tests_cant": "It is about every schedule.", "anchors": ["Logger/server.go:PeriodicTask", "Logger/server.go:Send_POIs_to_CAs", "Logger/server.go:Send_STH_to_CA", "Logger/server.go:receive_pre_cert", "Logger/server.go:requestSTH", "Logger/buildmerkle.go:BuildMerkleTreeFromCerts"]}
{"id": "C147", "title": "However a logger's tasks interleave, every certificate in the pool gets its proof and the logger survives", "statement": "Every certificate in a logger's pool when a period task starts gets its proof of inclusion delivered to its issuer when the task is over, and with two certificates and reachable CAs the process survives, whatever else happens meanwhile. A precertificate that arrives, at whatever moment, gets its proof from that task or the next one.", "quantifier": "every history, every interleaving of submissions, requests and tasks", "why_tests_cant": "It is about every schedule; overlapping tasks need a slow network.", "anchors": ["Logger/server.go:PeriodicTask", "Logger/server.go:Send_POIs_to_CAs", "crypto/certpool.go:GetCertBySubjectKeyID"]}
{"id": "C148", "title": "However a normal logger's tasks interleave, it gives everybody the same head of a period", "statement": "Two answers of a normal logger about the same minute are the same, once it has a head for it.", "quantifier": "every history, every interleaving, every minute", "why_tests_cant": "It is about every schedule of the tasks and requests.", "anchors": ["Logger/server.go:PeriodicTask", "Logger/server.go:requestSTH"]}
{"id": "C149", "title": "However a CA's tasks interleave, its certificates have different revocation identifiers", "statement": "Every certificate a CA signs has another revocation identifier than all others it signs, and every certificate it posts to a logger is one that it signed and goes to a configured logger, whatever arrives and however its period tasks, handlers and requests overlap.", "quantifier": "every history of tasks, tree heads, proofs and requests; every interleaving at single accesses; all random draws", "why_tests_cant": "It is about every schedule; overlapping tasks need slow key generation or a slow network.", "anchors": ["CA/ca.go:Genrate_Unsigned_PreCert", "CA/ca.go:Generate_N_Signed_PreCert_with_priv", "CA/server.go:PeriodicTask", "CA/server.go:Send_Signed_PreCert_To_Loggers"]}
{"id": "C150", "title": "However a CA's tasks interleave, it answers only with its own revocation objects for the minute", "statement": "What a CA answers to a monitor is an empty object or its own revocation object for the minute of the answer, which verifies; that of a normal CA is signed over the revocation vector at some earlier moment, and its delta is that vector or empty. A task, the handler of a proof of inclusion and a request that meet nothing else do what the sequential description says.", "quantifier": "every history of tasks, tree heads, proofs, requests and revocations; every interleaving at single accesses; every clock", "why_tests_cant": "It is about every schedule.", "anchors": ["CA/server.go:PeriodicTask", "CA/server.go:requestREV", "CA/server.go:receive_poi", "CA/CRV.go:Generate_Revocation", "CA/CRV.go:GetDeltaCRV"]}
{"id": "C151", "title": "However a normal CA's tasks interleave, it gives everybody the same revocation object of a period and hides no revocation", "statement": "Two answers of a normal CA about the same minute are the same, once it has a revocation object for it; and a certificate that it has revoked is in the delta of an object it answers with.", "quantifier": "every history, every interleaving of tasks and requests", "why_tests_cant": "It is about every schedule; two tasks end in one minute only if the first one was slow to send its certificates.", "anchors": ["CA/server.go:PeriodicTask", "CA/server.go:requestREV", "CA/CRV.go:Generate_Revocation", "CA/CRV.go:MassRevoke"]}
{"id": "C152", "title": "However a CA's tasks and handlers interleave, its certificates carry only what was signed and received, and every received proof", "statement": "A certificate that a CA has in its pool, and the final certificate it signs for it, has the names, the key and the identifier of one it signed before. Each logger's entry in it is a proof of inclusion that the CA received for that key, together with a verified tree head that it received from the same logger or none, and no logger has two entries. Every proof received for a certificate in the pool is among the entries.", "quantifier": "every history, every interleaving of period tasks, tree heads and proofs", "why_tests_cant": "It is about every schedule; handlers of two proofs overlap only if both arrive within the time it takes to encode an extension.", "anchors": ["CA/server.go:receive_poi", "CA/server.go:receive_sth", "CA/server.go:PeriodicTask", "CA/types.go:UpdateCTngExtension"]}
{"id": "C153", "title": "Every certificate a CA signs is consistent, in its name and usable without knowing CTng", "statement": "The root certificate of a CA, every certificate it signs or posts to loggers and every final certificate has signed bytes that encode exactly its fields, the CA's signature over them and the CA as issuer. It has exactly one CTng extension, which is not critical, so that verifiers that do not know it may ignore it.", "quantifier": "every history, every interleaving of period tasks and handlers, every certificate", "why_tests_cant": "It is about every certificate in every schedule; tests look at one certificate.", "anchors": ["CA/ca.go:Genrate_Unsigned_PreCert", "CA/ca.go:Sign_certificate", "CA/types.go:UpdateforSigning", "CA/server.go:SignAllCerts", "CA/server.go:PeriodicTask"]}
