{"id": "C01", "title": "subset_of of any superior binds the resolved metadata", "statement": "If any statement above the leaf in a verified trust chain carries a subset_of policy S for a claim, and resolving the chain succeeds, then the resolved value of that claim, when present, is a list whose elements all belong to S.", "quantifier": "every chain length, every position of the restricting statement, every combination of policy operators at the other statements, every leaf metadata, every set iteration order", "why_tests_cant": "Chains can have any length and any mix of operators; tests only try two or three fixed policies.", "anchors": ["src/fedservice/entity/function/policy.py: combine_claim_policy, TrustChainPolicy.gather_policies, apply_policy, _policy", "src/fedservice/entity/function/policy_operator.py: SubsetOf"]}
{"id": "C02", "title": "one_of of any superior binds the resolved metadata", "statement": "If any statement above the leaf carries a one_of policy S for a claim and resolving succeeds, then the resolved value of that claim, when present, is one of the values in S.", "quantifier": "every chain, every position, every leaf metadata", "why_tests_cant": "Unbounded chains and value shapes (list-valued claims take a different branch).", "anchors": ["src/fedservice/entity/function/policy.py: combine_one_of, gather_policies", "src/fedservice/entity/function/policy_operator.py: OneOf"]}
{"id": "C03", "title": "superset_of of any superior binds the resolved metadata", "statement": "If any statement above the leaf carries a superset_of policy S for a claim and resolving succeeds, then every element of S is in the resolved value of the claim.", "quantifier": "every chain, every position, every leaf metadata", "why_tests_cant": "The combination rule acts on every pair of levels; a two-level test cannot show what the fold does.", "anchors": ["src/fedservice/entity/function/policy.py: combine_superset_of", "src/fedservice/entity/function/policy_operator.py: SupersetOf"]}
{"id": "C04", "title": "essential claims are present after resolution", "statement": "If any statement above the leaf marks a claim essential: true and resolving succeeds, the claim is present in the resolved metadata.", "quantifier": "every chain, every position, every policy at the other levels", "why_tests_cant": "Requires reasoning over the fold of combinations and every operator order.", "anchors": ["src/fedservice/entity/function/policy.py: do_essential, combine_claim_policy", "src/fedservice/entity/function/policy_operator.py: Essential"]}
{"id": "C05", "title": "value fixed by any superior is the resolved value", "statement": "If any statement above the leaf carries a value policy v for a claim and resolving succeeds, the resolved claim equals v, whatever the leaf and the other superiors say.", "quantifier": "every chain, every position, every leaf metadata", "why_tests_cant": "Interaction of value with every other operator at every other level.", "anchors": ["src/fedservice/entity/function/policy.py: do_value, combine_claim_policy", "src/fedservice/entity/function/policy_operator.py: Value"]}
{"id": "C06", "title": "default only fills in absent claims and a claim with a default ends up present", "statement": "A default policy never changes a claim the entity supplied; when nobody supplies the claim, and no superior changed it, the default of the chain is present in the resolved metadata; two superiors with different defaults, when no superior fixes the value, make resolution fail.", "quantifier": "every chain and leaf metadata", "why_tests_cant": "Unbounded chains; interplay with add/value/subset_of order.", "anchors": ["src/fedservice/entity/function/policy.py: do_default", "src/fedservice/entity/function/policy_operator.py: Default"]}
{"id": "C07", "title": "added values reach the resolved metadata", "statement": "If any statement above the leaf adds a value to a claim and resolving succeeds, the value is in the resolved claim.", "quantifier": "every chain, position and leaf metadata", "why_tests_cant": "The consistency checks cover only certain operator sets; tests exercise only those.", "anchors": ["src/fedservice/entity/function/policy.py: combine_add", "src/fedservice/entity/function/policy_operator.py: Add"]}
{"id": "C08", "title": "policies touch only the claims they name", "statement": "A claim that no policy of the chain mentions appears in the resolved metadata exactly as the entity (or, if it does not give one, the superior metadata) states it, and policies for one claim never influence another.", "quantifier": "every metadata policy, every metadata, every claim", "why_tests_cant": "Frame property over all claims.", "anchors": ["src/fedservice/entity/function/policy.py: apply_metadata_policy, apply_policy"]}
{"id": "C09", "title": "metadata stated by a superior prevails over the leaf's own", "statement": "If a superior statement gives a metadata value for a claim, the resolved metadata of the entity has that value even if the entity's own configuration says otherwise.", "quantifier": "every chain and leaf metadata", "why_tests_cant": "A universally quantified precedence rule.", "anchors": ["src/fedservice/entity/function/policy.py: apply_policy, combine_metadata"]}
{"id": "C10", "title": "contradicting superior metadata is rejected", "statement": "If two statements above the leaf give different metadata values for the same claim, resolution fails with an error; if resolution succeeds all stated values agree.", "quantifier": "every chain length and every pair of positions", "why_tests_cant": "Needs induction over the chain; tests use two statements.", "anchors": ["src/fedservice/entity/function/policy.py: combine_metadata, gather_policies"]}
{"id": "C11", "title": "a statement may not both fix and police a claim", "statement": "A statement above the leaf that carries both metadata and metadata_policy for the same claim makes resolution fail.", "quantifier": "every chain and every position of the offending statement", "why_tests_cant": "Position dependence (the first statement is handled by a different branch).", "anchors": ["src/fedservice/entity/function/policy.py: gather_policies"]}
{"id": "C12", "title": "combining a subordinate policy never loosens the superior's", "statement": "For each operator, the policy resulting from combining a superior and a subordinate claim policy is at least as strict as the superior's: allowed sets shrink, required sets do not shrink, essential is not switched off, value and default do not change, additions are kept.", "quantifier": "every pair of claim policies", "why_tests_cant": "All operator combinations and values.", "anchors": ["src/fedservice/entity/function/policy.py: combine_claim_policy"]}
{"id": "C13", "title": "applying the policy twice gives the same metadata", "statement": "Resolving the same trust chain again (the leaf statement is updated in place) yields the same claims and, per claim, the same set of values.", "quantifier": "every metadata policy and metadata", "why_tests_cant": "In-place mutation makes the second run start from another state.", "anchors": ["src/fedservice/entity/function/policy.py: apply_metadata_policy, apply_policy, __call__", "src/fedservice/entity/function/policy_operator.py: all operators"]}
{"id": "C14", "title": "policy combination does not depend on set iteration order", "statement": "Whether combining two claim policies succeeds, and which values the result contains, does not depend on the iteration order of Python sets (hash seed).", "quantifier": "every pair of claim policies, every two set iteration orders", "why_tests_cant": "A test runs under one hash seed.", "anchors": ["src/fedservice/entity/function/policy.py: combine_claim_policy"]}
{"id": "C15", "title": "diff2policy reproduces the new metadata", "statement": "Applying the policy computed by diff2policy(new, old) to old yields metadata whose claims listed in new equal new and whose other claims are unchanged.", "quantifier": "every pair of metadata dictionaries", "why_tests_cant": "Round-trip law.", "anchors": ["src/fedservice/entity/function/policy.py: diff2policy, apply_metadata_policy"]}
{"id": "C16", "title": "entity types are resolved independently", "statement": "When policy resolution of a chain succeeds the resolved metadata has exactly the entity types of the leaf statement, and the metadata of one type depends only on the parts of the statements for that type.", "quantifier": "every chain and set of entity types", "why_tests_cant": "Quantifies over all other types' content.", "anchors": ["src/fedservice/entity/function/policy.py: TrustChainPolicy.__call__, _policy"]}
{"id": "C17", "title": "more_specific is the domain-suffix preorder", "statement": "more_specific(a, b) holds exactly when a's dot separated labels, read from the right, agree with b's as far as b goes or up to b's first empty label from the right, which stands for anything; the relation is reflexive and transitive.", "quantifier": "every pair/triple of strings", "why_tests_cant": "Unbounded strings.", "anchors": ["src/fedservice/entity_statement/constraints.py: more_specific"]}
{"id": "C18", "title": "permitted naming constraint of the topmost superior binds the leaf", "statement": "If the topmost statement with a non-empty permitted list has permitted list P and the chain meets the restrictions, the leaf's subject is more specific than some element of P, whatever the statements below it declare.", "quantifier": "every chain length and every naming constraints below", "why_tests_cant": "Induction over chains with arbitrary updates.", "anchors": ["src/fedservice/entity_statement/constraints.py: update_specs, add_constraints, meets_restrictions, permitted"]}
{"id": "C19", "title": "excluded naming constraint binds the leaf", "statement": "If any statement above the leaf excludes a name space and the chain meets the restrictions, the leaf's subject is not in that name space.", "quantifier": "every chain and position", "why_tests_cant": "As C18; the interesting inputs are ones where lower statements carry constraints too.", "anchors": ["src/fedservice/entity_statement/constraints.py: update_specs, excluded, meets_restrictions"]}
{"id": "C20", "title": "max_path_length limits the chain length", "statement": "If a statement in the chain has max_path_length k, a chain with more than k intermediate statements below it does not meet the restrictions.", "quantifier": "every chain length and every k", "why_tests_cant": "Needs unbounded chains.", "anchors": ["src/fedservice/entity_statement/constraints.py: calculate_path_length, meets_restrictions"]}
{"id": "C21", "title": "every intermediate is subject to the naming constraints above it", "statement": "If a chain meets the restrictions, the subject of each statement below a statement with naming constraints satisfies these constraints.", "quantifier": "every chain and each position", "why_tests_cant": "Position dependent (statements without constraints take another branch).", "anchors": ["src/fedservice/entity_statement/constraints.py: meets_restrictions"]}
{"id": "C22", "title": "constraint evaluation is total", "statement": "For statements whose subjects are http(s) URLs, evaluating the restrictions of a chain returns True or False and does not raise.", "quantifier": "every chain of such statements", "why_tests_cant": "Absence of exceptions for all inputs.", "anchors": ["src/fedservice/entity_statement/constraints.py: add_constraints, remove_scheme, meets_restrictions"]}
{"id": "C23", "title": "only properly signed statements are accepted", "statement": "If verifying a chain succeeds, every statement in the verified chain is the payload of a JWS of the input list (in the same order) whose signature was made with a key that at the time was registered for the statement's issuer; registered keys are those held before the call or contained in the jwks of an earlier statement of the chain about that issuer.", "quantifier": "every token list, every initial key jar, every chain length", "why_tests_cant": "Unbounded chains and key sets.", "anchors": ["src/fedservice/entity/function/verifier.py: verify_trust_chain, trusted_anchor"]}
{"id": "C24", "title": "every key in the key jar is traceable to the initial keys", "statement": "After any history of chain verifications, successful or not, each key registered for an entity was there from the start or was vouched for by a token signed with a key traceable in the same way for its issuer.", "quantifier": "every history of verification calls on arbitrary token lists", "why_tests_cant": "Histories.", "anchors": ["src/fedservice/entity/function/verifier.py: verify_trust_chain"]}
{"id": "C25", "title": "verification never removes or replaces keys", "statement": "For every verification call, whatever its outcome, keys registered for an entity stay registered.", "quantifier": "every call and every key jar", "why_tests_cant": "All outcomes including exceptions.", "anchors": ["src/fedservice/entity/function/verifier.py: verify_trust_chain"]}
{"id": "C26", "title": "accepted chains start at a configured trust anchor", "statement": "In every history, a verified trust chain has a configured trust anchor as issuer of its first statement.", "quantifier": "every history of verification calls", "why_tests_cant": "The state grows across calls; a test on one call cannot see it.", "anchors": ["src/fedservice/entity/function/verifier.py: trusted_anchor, verify_trust_chain"]}
{"id": "C27", "title": "consecutive statements are linked", "statement": "In a verified chain the issuer of each statement is the subject of the preceding one.", "quantifier": "every accepted chain", "why_tests_cant": "All accepted token lists.", "anchors": ["src/fedservice/entity/function/verifier.py: verify_trust_chain"]}
{"id": "C28", "title": "trust chain expiry is the earliest expiry", "statement": "The exp of a trust chain is the minimum exp of its statements, and a chain with an expired statement is reported as expired.", "quantifier": "every chain", "why_tests_cant": "Unbounded chains and all integers.", "anchors": ["src/fedservice/entity/function/verifier.py: trust_chain_expires_at, __call__", "src/fedservice/entity_statement/statement.py: TrustChain.is_expired"]}
{"id": "C29", "title": "the trust chain object describes the verified chain", "statement": "anchor is the issuer of the first verified statement, iss_path lists the issuers leaf first and ends in the anchor, chain is the input list and an exception or None is the result exactly when verification did not succeed.", "quantifier": "every token list and key jar", "why_tests_cant": "All inputs.", "anchors": ["src/fedservice/entity/function/verifier.py: __call__"]}
{"id": "C30", "title": "a rejected chain has no effect", "statement": "If verifying a chain fails or the chain is rejected, later verifications behave as if it had not been attempted.", "quantifier": "every key jar and token list", "why_tests_cant": "Requires comparing all subsequent behaviours.", "anchors": ["src/fedservice/entity/function/verifier.py: verify_trust_chain"]}
{"id": "C31", "title": "tree2chains lists exactly the root-to-leaf paths", "statement": "tree2chains returns, in order and without loss or duplication, one chain for each path of the collected tree, with the statement nearest to the anchor first.", "quantifier": "every tree (any depth and branching)", "why_tests_cant": "Unbounded trees.", "anchors": ["src/fedservice/entity/function/__init__.py: tree2chains"]}
{"id": "C32", "title": "trust chain collection terminates", "statement": "Collection terminates for every federation, in particular when authority hints are acyclic, and reports loops instead of recursing forever.", "quantifier": "every federation topology", "why_tests_cant": "Unbounded topologies; non-termination cannot be observed by a test.", "anchors": ["src/fedservice/entity/function/trust_chain_collector.py: collect_tree, collect_branch"]}
{"id": "C33", "title": "collected branches follow authority hints", "statement": "Each branch of the collected tree is one of the authority hints of the entity below it and carries a statement obtained from that authority about that entity; nothing is collected above stop_at.", "quantifier": "every network behaviour and topology", "why_tests_cant": "All topologies and responses.", "anchors": ["src/fedservice/entity/function/trust_chain_collector.py: collect_tree, collect_branch"]}
{"id": "C34", "title": "cached entity statements are used only while fresh and save network traffic", "statement": "A cached subordinate statement is used only if its lifetime, reduced by the allowed delta, is not over; a second collection before that makes no fetch request and returns the same statement.", "quantifier": "every cache state, time and network", "why_tests_cant": "All times and cache histories.", "anchors": ["src/fedservice/entity/function/trust_chain_collector.py: _get_entity_statement"]}
{"id": "C35", "title": "cache keys identify the pair (authority, entity)", "statement": "Two different (authority, entity) pairs never share a cache entry, and a statement entry never clashes with an expiry entry.", "quantifier": "every two pairs of identifiers", "why_tests_cant": "All strings.", "anchors": ["src/fedservice/entity/function/trust_chain_collector.py: cache_key, time_key"]}
{"id": "C36", "title": "expired entity configurations are not used", "statement": "A cached entity configuration is not used once it has expired.", "quantifier": "every cache state and time", "why_tests_cant": "All times.", "anchors": ["src/fedservice/entity/function/trust_chain_collector.py: too_old, __call__"]}
{"id": "C37", "title": "the expiring cache behaves like a map with expiry", "statement": "For any sequence of stores, look-ups and deletions at non-decreasing times, a look-up returns the last value stored under the key if it has not expired (minus the delta) and None otherwise; entries under other keys are not affected.", "quantifier": "every operation sequence and every monotone clock", "why_tests_cant": "Histories.", "anchors": ["src/fedservice/entity_statement/cache.py: ESCache"]}
{"id": "C38", "title": "one trust chain per anchor, the shortest", "statement": "chains2dict maps each anchor occurring in the list to a chain of the list with that anchor, of minimal length, and contains no other anchor.", "quantifier": "every list of chains", "why_tests_cant": "Unbounded lists, ties.", "anchors": ["src/fedservice/entity_statement/statement.py: chains2dict"]}
{"id": "C39", "title": "saved trust chains can be retrieved", "statement": "After save_trust_chains, get_trust_chain returns for each anchor a saved chain of that entity; chains of other entities and anchors saved earlier are kept; for unknown entities None is returned.", "quantifier": "every history of saves", "why_tests_cant": "Histories.", "anchors": ["src/fedservice/__init__.py: save_trust_chains, get_trust_chain"]}
{"id": "C40", "title": "pick_trust_chain respects the anchor priority", "statement": "pick_trust_chain returns an element of a non-empty list; if some chain's anchor is in the priority list it returns the first chain with the anchor of best priority; an empty list raises.", "quantifier": "every list of chains and every priority list", "why_tests_cant": "All lists.", "anchors": ["src/fedservice/entity/__init__.py: FederationEntity.pick_trust_chain"]}
{"id": "C41", "title": "picking from stored chains respects the anchor priority", "statement": "pick_from_stored_trust_chains returns the stored chain of the anchor with the best priority.", "quantifier": "every store and priority list", "why_tests_cant": "All stores.", "anchors": ["src/fedservice/entity/__init__.py: pick_from_stored_trust_chains"]}
{"id": "C42", "title": "cached trust chains are not served after they expire", "statement": "get_trust_chains and get_verified_metadata do not return information from a trust chain whose exp has passed.", "quantifier": "every history of calls and clock", "why_tests_cant": "Histories over time.", "anchors": ["src/fedservice/entity/__init__.py: get_trust_chains, get_verified_metadata"]}
{"id": "C43", "title": "exporting a trust chain is repeatable", "statement": "export_chain returns the chain leaf first with the leaf's configuration first each time it is called.", "quantifier": "every chain and number of calls", "why_tests_cant": "Histories.", "anchors": ["src/fedservice/entity_statement/statement.py: TrustChain.export_chain"]}
{"id": "C44", "title": "an issued, unexpired trust mark is reported active (file store)", "statement": "After any history of issues and restarts, with one file per trust mark id, the status endpoint reports a trust mark id active for a subject exactly if a mark with this id was issued to it and has not expired.", "quantifier": "every history of issues and lookups at any time", "why_tests_cant": "Histories and time.", "anchors": ["src/fedservice/trust_mark_entity/__init__.py: FileDB", "src/fedservice/trust_mark_entity/server/trust_mark_status.py: process_request"]}
{"id": "C45", "title": "the default trust mark store behaves like a map", "statement": "After any history of issues, a lookup in the default (in memory) store returns True exactly for the issued trust marks.", "quantifier": "every history", "why_tests_cant": "Histories.", "anchors": ["src/fedservice/trust_mark_entity/__init__.py: SimpleDB"]}
{"id": "C46", "title": "trust mark listing is exactly the set of subjects", "statement": "With one file per trust mark id, the listing for an id in the file store contains each subject that received it exactly once, latest first, and no other.", "quantifier": "every history", "why_tests_cant": "Histories.", "anchors": ["src/fedservice/trust_mark_entity/__init__.py: FileDB.list"]}
{"id": "C47", "title": "trust mark dump/load is a round trip", "statement": "With one file per trust mark id, loading a dump into an empty store reproduces all lookups, listings and the dump itself; loading it into a store in use keeps what was found in the dumped store, and loading it again does not change any lookup.", "quantifier": "every store", "why_tests_cant": "All stores.", "anchors": ["src/fedservice/trust_mark_entity/__init__.py: FileDB.dump, load"]}
{"id": "C48", "title": "issued trust marks carry the right claims", "statement": "create_trust_mark for a known id yields a mark with the given id, subject, the current time as iat, exp = iat + configured lifetime (if configured), all specification claims, signed by the issuer, and records it; for an unknown id nothing is recorded and ValueError is raised.", "quantifier": "every specification, id, subject, extra claims, time", "why_tests_cant": "All inputs.", "anchors": ["src/fedservice/trust_mark_entity/entity.py: TrustMarkEntity.create_trust_mark"]}
{"id": "C49", "title": "only valid trust marks verify", "statement": "The trust mark verifier returns a mark only if it has not expired, its issuer has a verified trust chain to the given anchor and its signature was made with a key of the issuer; a mark with an invalid delegation is not accepted.", "quantifier": "every token, time, key jar, federation", "why_tests_cant": "All inputs.", "anchors": ["src/fedservice/entity/function/trust_mark_verifier.py: TrustMarkVerifier.__call__"]}
{"id": "C50", "title": "fetch answers only for known subordinates", "statement": "The fetch endpoint issues statements about the entity itself or about registered subordinates only; unknown subjects raise UnknownEntity; the statement's subject is the requested one and its issuer the entity.", "quantifier": "every request and subordinate store", "why_tests_cant": "All requests.", "anchors": ["src/fedservice/entity/server/fetch.py: Fetch.process_request"]}
{"id": "C51", "title": "fetch responses do not depend on earlier requests", "statement": "The content of a fetch response is a function of the configured subordinates and policies and the request; requests for one subordinate or from one client do not alter later responses.", "quantifier": "every history of requests", "why_tests_cant": "Histories.", "anchors": ["src/fedservice/entity/server/fetch.py: Fetch.process_request"]}
{"id": "C52", "title": "list returns exactly the matching subordinates", "statement": "The list endpoint returns without filter all subordinates and with filters exactly the subordinates that satisfy all given filters, each once.", "quantifier": "every subordinate store and request", "why_tests_cant": "All stores and requests.", "anchors": ["src/fedservice/entity/server/list.py: List.process_request"]}
{"id": "C53", "title": "critical extensions are understood or rejected", "statement": "Verification of an entity statement succeeds only if each extra claim listed as critical is known, and statements without unknown critical extensions are not rejected for that reason.", "quantifier": "every set of extra claims, crit list and known extensions", "why_tests_cant": "All sets.", "anchors": ["src/fedservice/message.py: EntityStatement.verify, Policy.verify"]}
{"id": "C54", "title": "automatic registration binds the client to its own chain", "statement": "A client registered automatically under an entity id has a verified trust chain whose leaf is that entity id.", "quantifier": "every request, provided trust chain and federation", "why_tests_cant": "All inputs including adversarial chains.", "anchors": ["src/fedservice/appserver/oauth2/authorization.py: do_automatic_registration", "src/fedservice/appserver/oidc/authorization.py"]}
{"id": "C55", "title": "client keys are imported from the most trusted source", "statement": "Keys for a client come from signed_jwks_uri, else jwks_uri, else jwks of the policy-applied metadata, from exactly one of them, and are registered only under the client's id.", "quantifier": "every metadata", "why_tests_cant": "All metadata.", "anchors": ["src/fedservice/appserver/__init__.py: import_client_keys", "src/fedservice/entity/utils.py: get_keys", "src/fedservice/utils.py: get_jwks"]}
{"id": "C56", "title": "registered redirect URIs are safe", "statement": "A registration succeeds only if every redirect URI is allowed for the application type: no fragment, https for web clients using implicit, custom scheme or loopback for native clients.", "quantifier": "every registration request", "why_tests_cant": "All URIs.", "anchors": ["src/fedservice/appserver/oauth2/registration.py: verify_redirect_uris"]}
{"id": "C57", "title": "a failed registration leaves no client entry", "statement": "If registration ends in an error response the client database is unchanged.", "quantifier": "every request and database", "why_tests_cant": "All failing inputs.", "anchors": ["src/fedservice/appserver/oauth2/registration.py: client_registration_setup"]}
{"id": "C58", "title": "file references in configuration are resolved", "statement": "load_values_from_file replaces every value of the form file:... anywhere in the configuration by the file's content and changes nothing else.", "quantifier": "every configuration (any nesting)", "why_tests_cant": "Unbounded nesting.", "anchors": ["src/fedservice/utils.py: load_values_from_file"]}
{"id": "C60", "title": "caching does not change what a collection finds", "statement": "In a federation whose documents do not change, a collector that has been used before finds the same tree (or fails in the same way) as a new one.", "quantifier": "every federation and every history of collections", "why_tests_cant": "Histories; all federations.", "anchors": ["src/fedservice/entity/function/trust_chain_collector.py: TrustChainCollector", "src/fedservice/entity_statement/cache.py: ESCache"]}
{"id": "C61", "title": "returned trust chains end in configured anchors", "statement": "Every trust chain get_verified_trust_chains returns has a configured trust anchor as its anchor.", "quantifier": "every federation, state and entity id", "why_tests_cant": "All federations, including hostile ones.", "anchors": ["src/fedservice/entity/function/__init__.py: get_verified_trust_chains", "src/fedservice/entity/function/verifier.py: TrustChainVerifier"]}
{"id": "C62", "title": "a bad trust chain does not hide the good ones", "statement": "If one of the collected chains of an entity verifies, get_verified_trust_chains returns it, whatever the other chains look like.", "quantifier": "every federation, state and entity id", "why_tests_cant": "All combinations of good and bad chains.", "anchors": ["src/fedservice/entity/function/__init__.py: get_verified_trust_chains, verify_trust_chains"]}
{"id": "C63", "title": "a trust chain for an entity is about that entity", "statement": "Every chain get_verified_trust_chains(id) returns ends with a statement whose subject is id.", "quantifier": "every federation, state and entity id", "why_tests_cant": "All federations and histories, including entities replaying documents of others.", "anchors": ["src/fedservice/entity/function/__init__.py: get_verified_trust_chains", "src/fedservice/entity/function/trust_chain_collector.py: TrustChainCollector.collect"]}
{"id": "C64", "title": "the status of a trust mark refers to that trust mark", "statement": "If a trust mark is sent to the status endpoint and reported active, this very mark was issued here and has not expired.", "quantifier": "every history, every token presented", "why_tests_cant": "All tokens, including expired and foreign ones.", "anchors": ["src/fedservice/trust_mark_entity/server/trust_mark_status.py: process_request", "src/fedservice/trust_mark_entity/entity.py: unpack_trust_mark"]}
{"id": "C65", "title": "a trust mark is only accepted for the entity it was issued to", "statement": "If the trust mark verifier is given the entity id a mark is presented for and accepts the mark, the subject of the mark is that entity.", "quantifier": "every token, trust anchor, entity id and state", "why_tests_cant": "All tokens that verify, including those of other entities.", "anchors": ["src/fedservice/entity/function/trust_mark_verifier.py: __call__", "src/fedservice/trust_mark_entity/entity.py: unpack_trust_mark"]}
{"id": "C66", "title": "verify_trust_mark returns valid and active marks, and None for all others", "statement": "FederationEntity.verify_trust_mark returns a mark only if it is valid for a trust anchor of its issuer and, when the issuer is asked, the issuer reports it active; for any other well formed mark whose issuer has a trust chain it returns None.", "quantifier": "every token, state and set of answers", "why_tests_cant": "All tokens and all answers of the network.", "anchors": ["src/fedservice/entity/__init__.py: verify_trust_mark"]}
{"id": "C67", "title": "a subordinate statement carries the subject's registered keys", "statement": "The jwks in a fetched statement about a subordinate are those registered for it, never others.", "quantifier": "every request, registration and policy", "why_tests_cant": "All registrations, also incomplete ones.", "anchors": ["src/fedservice/entity/server/fetch.py: Fetch.process_request", "src/fedservice/entity_statement/create.py: create_entity_statement"]}
{"id": "C68", "title": "a subordinate statement carries the superior's policies", "statement": "Every policy the superior has configured for an entity type of a registered subordinate, and for the subordinate itself, is in the statement about it.", "quantifier": "every combination of registered types and configured policies", "why_tests_cant": "All combinations.", "anchors": ["src/fedservice/entity/server/fetch.py: Fetch.process_request"]}
{"id": "C69", "title": "registration details are not published", "statement": "What is registered about a subordinate for internal use (its entity types, whether it is an intermediate) is not in the statement about it.", "quantifier": "every registration and policy", "why_tests_cant": "All registrations.", "anchors": ["src/fedservice/entity/server/fetch.py: Fetch.process_request", "src/fedservice/entity_statement/create.py: create_entity_statement"]}
{"id": "C70", "title": "every statement expires", "statement": "Each statement the fetch endpoint hands out has an expiration time in the future: the registered lifetime after it was made, a day by default.", "quantifier": "every time, request and registration", "why_tests_cant": "All registrations and times.", "anchors": ["src/fedservice/entity/server/fetch.py: Fetch.process_request", "src/fedservice/entity_statement/create.py: create_entity_statement"]}
{"id": "C71", "title": "list filters rely on configurations signed with registered keys", "statement": "When the list endpoint filters on trust marks, the configuration it judges a subordinate by is signed with a key registered for that subordinate.", "quantifier": "every set of subordinates, every answer of the network and every query", "why_tests_cant": "All tokens the network can return.", "anchors": ["src/fedservice/entity/server/list.py: collect_subordinates", "src/fedservice/entity/server/list.py: filter"]}
{"id": "C72", "title": "unknown critical policy operators are refused", "statement": "A statement that declares a policy operator critical which the verifier does not know is rejected, and one whose critical operators are all known is not rejected for them.", "quantifier": "every statement and set of known operators", "why_tests_cant": "All combinations of declared, used and known operators.", "anchors": ["src/fedservice/message.py: EntityStatement.verify", "src/fedservice/message.py: MetadataPolicy.verify"]}
{"id": "C73", "title": "a client is only registered with what the server supports", "statement": "Whatever a client is registered with under a claim for which the server publishes the values it supports is among those values and was asked for.", "quantifier": "every request, provider configuration and database", "why_tests_cant": "All requests and configurations.", "anchors": ["src/fedservice/appserver/oauth2/registration.py: match_claim", "src/fedservice/appserver/oauth2/registration.py: filter_client_request", "src/fedservice/appserver/oauth2/registration.py: client_registration_setup"]}
{"id": "C74", "title": "client id and client secret are the server's", "statement": "After a successful registration the client's entry has its identifier and the secret the server made for it.", "quantifier": "every request", "why_tests_cant": "All requests, including those that carry these claims.", "anchors": ["src/fedservice/appserver/oauth2/registration.py: client_registration_setup", "src/fedservice/appserver/oauth2/registration.py: do_client_registration"]}
{"id": "C75", "title": "a new client never replaces another", "statement": "Registering a client under a new identifier leaves all entries that were in the database as they were.", "quantifier": "every request, database and set of reserved identifiers", "why_tests_cant": "All databases.", "anchors": ["src/fedservice/appserver/oauth2/registration.py: client_registration_setup"]}
{"id": "C76", "title": "a registration is about one client", "statement": "Whatever the outcome of a registration, the entries and keys of all other clients stay the same.", "quantifier": "every request, database and key jar", "why_tests_cant": "All databases and outcomes.", "anchors": ["src/fedservice/appserver/oauth2/registration.py: step2_process_request"]}
{"id": "C77", "title": "the trust chains kept for an entity are about that entity", "statement": "After any request, the trust chains the federation entity has stored for an entity end with a statement about that entity.", "quantifier": "every state, request and provided trust chain", "why_tests_cant": "All provided chains, including valid chains of other entities.", "anchors": ["src/fedservice/appserver/oidc/authorization.py: do_automatic_registration", "src/fedservice/entity/__init__.py: store_trust_chains"]}
{"id": "C78", "title": "a client that is turned away leaves no keys", "statement": "If automatic registration does not succeed, the key jar of the server is as it was.", "quantifier": "every request and state", "why_tests_cant": "All outcomes.", "anchors": ["src/fedservice/appserver/oidc/authorization.py: do_automatic_registration", "src/fedservice/appserver/oauth2/authorization.py: do_automatic_registration", "src/fedservice/appserver/oauth2/pushed_authorization.py: do_automatic_registration"]}
{"id": "C79", "title": "a client that is turned away stays unknown, and one that was known stays known", "statement": "If automatic registration does not succeed, the client database is as it was.", "quantifier": "every request, database and failure", "why_tests_cant": "All failures, at each step of the registration, and all requests that follow.", "anchors": ["src/fedservice/appserver/oidc/authorization.py: client_authentication", "src/fedservice/appserver/oauth2/authorization.py: client_authentication", "src/fedservice/appserver/oauth2/pushed_authorization.py: client_authentication"]}
{"id": "C80", "title": "explicitly registered clients are not touched by automatic registration", "statement": "A client that is not marked as automatically registered keeps its entry and keys, and is let in, whatever authorization requests arrive in its name or in that of others.", "quantifier": "every history of requests at every endpoint", "why_tests_cant": "Histories of any length.", "anchors": ["src/fedservice/appserver/oidc/authorization.py: client_authentication", "src/fedservice/appserver/oauth2/authorization.py: client_authentication", "src/fedservice/appserver/oauth2/pushed_authorization.py: client_authentication"]}
{"id": "C81", "title": "an authorization request concerns only the client it names", "statement": "An authorization request in the name of one client changes neither the entry nor the keys of any other registered client.", "quantifier": "every request, database and key jar", "why_tests_cant": "All databases and outcomes.", "anchors": ["src/fedservice/appserver/oidc/authorization.py: client_authentication", "src/fedservice/appserver/oauth2/authorization.py: client_authentication", "src/fedservice/appserver/oauth2/pushed_authorization.py: client_authentication"]}
{"id": "C82", "title": "explicit registration respects the federation's policies", "statement": "The claims an explicitly registered client is stored with are those that the policies of its trust chain make of its metadata.", "quantifier": "every request, federation and policy", "why_tests_cant": "All federations and policies.", "anchors": ["src/fedservice/appserver/oidc/registration.py: process_request", "src/fedservice/appserver/oauth2/registration.py: process_request"]}
{"id": "C83", "title": "only the holder of an entity's key can register it explicitly", "statement": "If an explicit registration request is accepted, the key it is signed with can be traced to known keys over the statements of the trust chains collected for its subject.", "quantifier": "every request and federation", "why_tests_cant": "All signers, including those who make up keys for somebody else.", "anchors": ["src/fedservice/appserver/oidc/registration.py: process_request", "src/fedservice/appserver/oauth2/registration.py: process_request"]}
{"id": "C84", "title": "the resolver answers only for configured trust anchors", "statement": "A resolve request is answered only if the trust anchor it names is one of the trust anchors the resolver is configured with.", "quantifier": "every history of resolve requests, federation and state of the caches", "why_tests_cant": "Histories of any length; what is collected for one request stays for the next.", "anchors": ["src/fedservice/entity/server/resolve.py: process_request", "src/fedservice/entity/function/__init__.py: verify_trust_chains"]}
{"id": "C85", "title": "resolved metadata is the subject's, as the policies leave it", "statement": "The metadata in a resolve response is that of the subject, adjusted by the policies of a chain verified to the requested trust anchor, and restricted to the requested entity type.", "quantifier": "every request and federation", "why_tests_cant": "All federations, including entities that serve the configuration of others.", "anchors": ["src/fedservice/entity/server/resolve.py: process_request"]}
{"id": "C86", "title": "the trust chain in a resolve response is the verified one", "statement": "The trust chain in a resolve response consists of the signed statements the metadata was computed from, from the subject upwards.", "quantifier": "every request, federation and state of the caches", "why_tests_cant": "All states of the caches, and statements that are renewed while the request is handled.", "anchors": ["src/fedservice/entity/server/resolve.py: process_request", "src/fedservice/entity/function/trust_chain_collector.py: get_chain"]}
{"id": "C87", "title": "a resolve response does not outlive its trust chain", "statement": "The expiry time of a resolve response is not later than that of the trust chain it is derived from.", "quantifier": "every request and federation", "why_tests_cant": "All lifetimes of all statements in the chain.", "anchors": ["src/fedservice/entity/server/resolve.py: process_request", "src/fedservice/entity_statement/create.py: create_entity_statement"]}
{"id": "C88", "title": "a subject with a trust chain is resolved", "statement": "If the subject has a verified trust chain to the requested trust anchor and the requested metadata, the resolver answers; if it has none, the resolver does not make one up.", "quantifier": "every request and federation", "why_tests_cant": "All federations and states of the caches.", "anchors": ["src/fedservice/entity/server/resolve.py: process_request"]}
{"id": "C89", "title": "endpoints of a trust anchor come from a configuration it signed", "statement": "An endpoint used as that of a trust anchor comes from a currently valid configuration that is signed with a key known for that trust anchor.", "quantifier": "every served document and key jar", "why_tests_cant": "All documents that can be served, signed by anybody.", "anchors": ["src/fedservice/entity/function/trust_anchor.py: get_verified_trust_anchor_statement", "src/fedservice/entity/__init__.py: get_verified_endpoint"]}
{"id": "C90", "title": "the keys in a resolve response are the subject's", "statement": "If a resolve response carries keys they are the subject's.", "quantifier": "every request and federation", "why_tests_cant": "All federations.", "anchors": ["src/fedservice/entity/server/resolve.py: process_request", "src/fedservice/entity_statement/create.py: create_entity_statement"]}
{"id": "C91", "title": "endpoints of other entities come from verified metadata", "statement": "An endpoint used as that of an entity which is no trust anchor comes from the policy-adjusted metadata of a verified trust chain for it; without such a chain no endpoint is found, and the request does not fail.", "quantifier": "every federation and state", "why_tests_cant": "All federations and states.", "anchors": ["src/fedservice/entity/__init__.py: get_federation_entity_metadata", "src/fedservice/entity/function/__init__.py: get_entity_endpoint"]}
{"id": "C92", "title": "the trust chains of a well-run federation are all found", "statement": "In a federation of any shape without cycles, in which every entity publishes an unchanging, valid configuration and every superior answers for its subordinates with their keys, the verified trust chains of an entity are exactly those along its routes to trust anchors whose keys are known and whose constraints are met, each once and with the metadata the policies along it leave.", "quantifier": "every federation without cycles, every entity and every state of the caches", "why_tests_cant": "Federations of any depth and width, from any state of the caches and the key jar.", "anchors": ["src/fedservice/entity/function/__init__.py: get_verified_trust_chains", "src/fedservice/entity/function/__init__.py: collect_trust_chains", "src/fedservice/entity/function/verifier.py: __call__", "src/fedservice/entity/function/trust_chain_collector.py: __call__"]}
{"id": "C93", "title": "registration responses name a configured trust anchor", "statement": "A client only accepts a registration response that names one of its configured trust anchors, and only if a chain from the issuer of the response up to that anchor can be collected.", "quantifier": "every response, client, federation and state", "why_tests_cant": "Responses are arbitrary signed documents and the federation behind them is of any shape.", "anchors": ["src/fedservice/appclient/oidc/registration.py: parse_response", "src/fedservice/appclient/oauth2/registration.py: parse_response"]}
{"id": "C94", "title": "registration responses are authentic", "statement": "A registration response that a client accepts is signed with a key of its issuer that can be traced, over statements collected for the issuer and for the client, to keys the client had before; the response itself does not count.", "quantifier": "every response, client, federation, key jar and state", "why_tests_cant": "The key of the signature may come over any number of statements, several calls of the verifier after another.", "anchors": ["src/fedservice/appclient/oidc/registration.py: parse_federation_registration_response", "src/fedservice/appclient/oauth2/registration.py: parse_federation_registration_response"]}
{"id": "C95", "title": "registration responses are for the client that asked", "statement": "A client only accepts registration responses whose subject it is.", "quantifier": "every response, client, federation and state", "why_tests_cant": "The claim is about the responses of other OPs and to other clients, which tests do not replay.", "anchors": ["src/fedservice/appclient/oidc/registration.py: parse_federation_registration_response", "src/fedservice/appclient/oauth2/registration.py: parse_federation_registration_response"]}
{"id": "C96", "title": "expired registration responses are refused", "statement": "A client does not accept a registration response whose expiry time has passed.", "quantifier": "every response, clock, federation and state", "why_tests_cant": "Any clock and any expiry time.", "anchors": ["src/fedservice/appclient/oidc/registration.py: parse_federation_registration_response", "src/fedservice/entity/function/verifier.py: __call__"]}
{"id": "C97", "title": "the policies of the named anchor decide about the registration", "statement": "The metadata a client takes from a registration response is what is left of the metadata in the response after the policies of a collected chain from the client up to the trust anchor that the response names.", "quantifier": "every response, client, federation and state", "why_tests_cant": "Chains of any length with any policies.", "anchors": ["src/fedservice/appclient/oidc/registration.py: parse_federation_registration_response", "src/fedservice/entity/function/policy.py: __call__"]}
{"id": "C98", "title": "accepting a registration response leaves other keys alone", "statement": "Accepting a registration response does not change the keys the client holds for trust anchors, and adds keys for an entity only if statements collected about it say so.", "quantifier": "every response, client, federation, key jar and state", "why_tests_cant": "All entities in the key jar, over any number of collected statements.", "anchors": ["src/fedservice/appclient/oidc/registration.py: parse_federation_registration_response", "src/fedservice/entity/function/verifier.py: verify_trust_chain"]}
{"id": "C99", "title": "honest registration responses are accepted", "statement": "In a well-run federation, a client accepts the registration response of an OP that shares with it the trust anchor it names, whenever the policies on the way leave metadata for a client.", "quantifier": "every federation without cycles, every OP, client and response", "why_tests_cant": "Federations of any depth and width, from any state of the caches and the key jar.", "anchors": ["src/fedservice/appclient/oidc/registration.py: parse_federation_registration_response", "src/fedservice/entity/function/__init__.py: collect_trust_chains", "src/fedservice/entity/function/verifier.py: __call__"]}
{"id": "C100", "title": "client and OP agree about an explicit registration", "statement": "After an explicit registration the client holds the metadata the OP has stored about it.", "quantifier": "every registration request, OP, federation and state", "why_tests_cant": "Any metadata, any provider configuration and any policy.", "anchors": ["src/fedservice/appclient/oidc/registration.py: parse_federation_registration_response", "src/fedservice/appserver/oidc/registration.py: process_request"]}
{"id": "C101", "title": "provider metadata comes from a verified chain", "statement": "The metadata a client uses for an OP is that of a verified trust chain collected for the OP: the first chain to the anchor that comes first in the priority list, or the first chain when there is none to an anchor on the list.", "quantifier": "every federation, priority list and state", "why_tests_cant": "Any number of chains to any anchors in any order.", "anchors": ["src/fedservice/appclient/stand_alone_client_entity.py: _collect_metadata", "src/fedservice/appclient/stand_alone_client_entity.py: do_provider_info", "src/fedservice/entity/__init__.py: pick_trust_chain"]}
{"id": "C102", "title": "an OP brings keys for itself only", "statement": "When a client collects the metadata of an OP, the keys it holds for other issuers do not change.", "quantifier": "every federation, metadata and key jar", "why_tests_cant": "All issuers in the key jar and any metadata.", "anchors": ["src/fedservice/appclient/stand_alone_client_entity.py: _collect_metadata", "src/fedservice/appclient/stand_alone_client_entity.py: _import_keys"]}
{"id": "C103", "title": "authorization responses belong to the provider in use", "statement": "An authorization response is accepted only while the provider in use is the one for which the request with that state was made, whatever the client has done in between; responses with an unknown state are refused.", "quantifier": "every sequence of operations of a client between request and response", "why_tests_cant": "The sequence of operations is arbitrary.", "anchors": ["src/fedservice/appclient/stand_alone_client_entity.py: init_authorization", "src/fedservice/appclient/stand_alone_client_entity.py: finalize_auth"]}
{"id": "C104", "title": "explicit registration is asked for only if both sides support it", "statement": "A client asks an OP for explicit registration only if both of them support explicit registration.", "quantifier": "every set of registration types on both sides", "why_tests_cant": "All combinations of types.", "anchors": ["src/fedservice/appclient/stand_alone_client_entity.py: do_client_registration"]}
{"id": "C105", "title": "the registration type is decided on the metadata in use", "statement": "The registration types on which the client bases its decision are those in the provider metadata it uses.", "quantifier": "every federation, priority list and state", "why_tests_cant": "Any number of chains to any anchors, and chains remembered from before.", "anchors": ["src/fedservice/appclient/stand_alone_client_entity.py: pick_from_stored_trust_chains", "src/fedservice/appclient/stand_alone_client_entity.py: do_client_registration", "src/fedservice/appclient/stand_alone_client_entity.py: _collect_metadata"]}
{"id": "C106", "title": "unregistered clients authenticate their requests", "statement": "A client that is not registered only sends authorization requests that the OP can authenticate: with a signed request object or through pushed authorization.", "quantifier": "every configuration of client and OP", "why_tests_cant": "All configurations of endpoints and methods on both sides.", "anchors": ["src/fedservice/appclient/oidc/authorization.py: _automatic_registration", "src/fedservice/appclient/oauth2/authorization.py: _automatic_registration"]}
{"id": "C107", "title": "arguments of an authorization request are kept", "statement": "Automatic registration keeps the arguments that the caller passed for an authorization request, except for those it sets itself, and does not replace a client_id that was given.", "quantifier": "every configuration and all arguments", "why_tests_cant": "All arguments and configurations.", "anchors": ["src/fedservice/appclient/oidc/authorization.py: _automatic_registration", "src/fedservice/appclient/oidc/authorization.py: _use_pushed_authorization_endpoint", "src/fedservice/appclient/oauth2/authorization.py: _automatic_registration"]}
{"id": "C108", "title": "the URIs of a registered client were checked", "statement": "A client is only registered with request URIs without a query, a post logout redirect URI without a fragment, and policy, logo and terms of service URIs that fit its redirect URIs; the entry has them as they were asked for.", "quantifier": "every registration request and provider configuration", "why_tests_cant": "Any number of URIs, with any parser.", "anchors": ["src/fedservice/appserver/oauth2/registration.py: do_client_registration", "src/fedservice/appserver/oauth2/registration.py: verify_request_uris"]}
{"id": "C109", "title": "pushed authorization works between a client and an OP of this library", "statement": "A client can be configured to send its requests through pushed authorization to an OP that publishes the methods this library's OPs publish.", "quantifier": "every configuration of the client", "why_tests_cant": "The statement is about all configurations of the client.", "anchors": ["src/fedservice/appclient/oidc/authorization.py: _use_pushed_authorization_endpoint", "src/fedservice/entity/claims.py: OPClaims"]}
{"id": "C110", "title": "what a search finds was listed or says so itself", "statement": "Every identifier that FederationEntity.trawl returns was listed as being of the type by an entity the search came to, or is the subject of a configuration of such an entity that has metadata of the type. The search goes from the first entity to those that are listed as intermediates.", "quantifier": "every federation, state, depth and answer of a list endpoint", "why_tests_cant": "Answers of list endpoints are arbitrary, as is the depth of the tree.", "anchors": ["src/fedservice/entity/__init__.py: trawl", "src/fedservice/entity/client/list.py: List"]}
{"id": "C111", "title": "a search ends", "statement": "FederationEntity.trawl ends with an answer or an error, whatever the list endpoints say.", "quantifier": "every federation and state", "why_tests_cant": "Tests use federations that are trees.", "anchors": ["src/fedservice/entity/__init__.py: trawl"]}
{"id": "C112", "title": "a search finds everybody", "statement": "In a federation whose members keep giving the same answers, and in which nobody is listed below themselves, FederationEntity.trawl finds exactly the entities of the type that are the first entity itself, are listed as being of the type, or are found below a listed intermediate.", "quantifier": "every federation without cycles, every type", "why_tests_cant": "Trees of any depth and width.", "anchors": ["src/fedservice/entity/__init__.py: trawl"]}
{"id": "C113", "title": "a search changes the keys of the entities it is about", "statement": "When FederationEntity.trawl looks for the configuration of a subordinate that is not known, only keys of the subordinate change.", "quantifier": "every federation, key jar and answer of a superior", "why_tests_cant": "All entities in the key jar, all answers.", "anchors": ["src/fedservice/entity/__init__.py: trawl", "src/fedservice/entity/client/entity_statement.py: EntityStatement"]}
{"id": "C114", "title": "those named by the who endpoint qualify", "statement": "Every entity in an answer of the who endpoint has a verified trust chain whose metadata offers the type of credential asked for and, if a trust mark is asked for, a valid active mark of that kind about itself. Without a type of credential nobody is named.", "quantifier": "every request, federation and state", "why_tests_cant": "Federations, metadata and marks are arbitrary.", "anchors": ["src/fedservice/entity/server/who.py: process_request", "src/fedservice/entity/__init__.py: verify_trust_mark"]}
{"id": "C115", "title": "the who endpoint looks below trusted anchors", "statement": "Requests to the who endpoint without a trust anchor, or for one that is neither configured nor the entity itself, are refused without any effect. Everybody in an answer was found below an entity the anchor lists.", "quantifier": "every request, configuration, federation and state", "why_tests_cant": "All federations and all configurations of anchors.", "anchors": ["src/fedservice/entity/server/who.py: process_request"]}
{"id": "C116", "title": "the answer of the who endpoint is complete", "statement": "The answer of the who endpoint names all entities below the anchor that are of the type, offer the credential and have the mark; an entity that joins the federation does not keep others from being found.", "quantifier": "every federation without cycles, every request", "why_tests_cant": "Trees of any depth and width, any metadata and any marks.", "anchors": ["src/fedservice/entity/server/who.py: process_request", "src/fedservice/entity/__init__.py: trawl", "src/fedservice/entity/__init__.py: get_verified_metadata"]}
{"id": "C117", "title": "the answer does not depend on who gives it", "statement": "For a configured trust anchor, the answer of the who endpoint is the same whichever entity runs it.", "quantifier": "every federation, request, state and pair of entities", "why_tests_cant": "Tests run the endpoint in one entity.", "anchors": ["src/fedservice/entity/server/who.py: process_request", "src/fedservice/entity/__init__.py: trawl"]}
{"id": "C118", "title": "a published configuration is the entity's own and can be verified", "statement": "The document an entity serves at its well-known place names the entity as issuer and subject, contains its keys, its superiors and its metadata, expires after a day and passes the check for self-signed documents that trust chain collection does. It is published unless the trust marks cannot be had.", "quantifier": "every entity, whatever it is part of, at any time", "why_tests_cant": "Configurations, metadata and times are arbitrary.", "anchors": ["src/fedservice/entity/server/entity_configuration.py: EntityConfiguration.process_request", "src/fedservice/entity_statement/create.py: create_entity_statement", "src/fedservice/entity/function/trust_chain_collector.py: verify_self_signed_signature"]}
{"id": "C119", "title": "an entity publishes its trust marks", "statement": "The trust marks an entity is configured with, whether as a list, a file or something to call, are in the configuration it publishes.", "quantifier": "every entity and every way of giving trust marks", "why_tests_cant": "Each way of giving trust marks and each set of marks would have to be tried.", "anchors": ["src/fedservice/entity/server/entity_configuration.py: EntityConfiguration.process_request", "src/fedservice/entity/context.py: get_trust_marks"]}
{"id": "C120", "title": "an entity says the same about itself wherever it is asked", "statement": "The configuration an entity serves at its well-known place has the same claims as the answer of its fetch endpoint to requests about itself.", "quantifier": "every entity, time and request about itself", "why_tests_cant": "All entities and all requests.", "anchors": ["src/fedservice/entity/server/entity_configuration.py: EntityConfiguration.process_request", "src/fedservice/entity/server/fetch.py: process_request"]}
{"id": "C121", "title": "entities that run this library find each other's trust chains", "statement": "In a federation whose members all run this library, are registered with their superiors with the right keys and are not above themselves, the trust chains found for a member are exactly those of its paths to anchors whose keys are known, each once, with one statement per step. Errors come from policies only.", "quantifier": "every federation, of any size and shape, and every verifier state", "why_tests_cant": "Federations are arbitrary acyclic graphs; both the serving and the collecting side are involved.", "anchors": ["src/fedservice/entity/server/entity_configuration.py: EntityConfiguration.process_request", "src/fedservice/entity/server/fetch.py: process_request", "src/fedservice/entity/function/__init__.py: get_verified_trust_chains"]}
{"id": "C122", "title": "what a superior configures is what a verifier enforces", "statement": "In such a federation, if the chain of an entity passes a superior, and that superior has a policy for a type with which the next entity in the chain is registered, the metadata for that type arrived at meets the policy: a claim has the value the superior gave, or is within the subset it allowed.", "quantifier": "every federation, superior, policy, chain and order of iteration", "why_tests_cant": "The policy may be set anywhere in a chain of any length; registration, statement, chain verification and policy resolution all take part.", "anchors": ["src/fedservice/entity/server/fetch.py: process_request", "src/fedservice/entity/function/__init__.py: apply_policies", "src/fedservice/entity/function/policy.py: TrustChainPolicy"]}
{"id": "C123", "title": "an entity has the trust anchors it was given", "statement": "An entity's trust anchors are those it was made with and those it was given by add_trust_anchor; the keys in its key jar are its own, those of its trust anchors and those it was given. What other entities in the same process are given makes no difference.", "quantifier": "every sequence of making entities with any arguments and of adding or assigning trust anchors", "why_tests_cant": "The entities of a process share tables in defaults.py: histories of any length over any number of entities.", "anchors": ["src/fedservice/utils.py: make_federation_entity", "src/fedservice/entity/__init__.py: add_trust_anchor", "src/fedservice/entity/function/trust_chain_collector.py: TrustChainCollector.__init__", "src/fedservice/defaults.py: FEDERATION_ENTITY_FUNCTIONS"]}
{"id": "C124", "title": "the keys of the trust anchors of an entity are in its key jar", "statement": "For each trust anchor that an entity lists, the keys are in the entity's key jar, where trust chain verification looks for them.", "quantifier": "every such sequence and every entity", "why_tests_cant": "Histories of any length.", "anchors": ["src/fedservice/entity/__init__.py: trust_anchors, add_trust_anchor", "src/fedservice/utils.py: make_federation_entity", "src/fedservice/entity/function/trust_chain_collector.py: add_trust_anchor"]}
{"id": "C125", "title": "None means the default and [] means none", "statement": "For services, functions and endpoints alike: an argument that is not given stands for the default items, an empty list for no items.", "quantifier": "every call", "why_tests_cant": "All combinations of arguments.", "anchors": ["src/fedservice/utils.py: build_entity_config"]}
{"id": "C126", "title": "settings for an item reach the item", "statement": "What a caller puts in init_kwargs and item_args for an item of the entity is among the arguments of that item, item_args before init_kwargs; other arguments are as they were.", "quantifier": "every call, in every state of the process", "why_tests_cant": "Items, settings and earlier calls are arbitrary.", "anchors": ["src/fedservice/build_entity.py: add_services, add_endpoints, add_functions", "src/fedservice/utils.py: build_entity_config"]}
{"id": "C127", "title": "what an entity is made of does not depend on other entities", "statement": "The services, functions and endpoints of an entity, and their arguments, are the same whatever entities were made before in the same process.", "quantifier": "every call and every history", "why_tests_cant": "Histories of any length.", "anchors": ["src/fedservice/build_entity.py: add_services, add_endpoints, add_functions", "src/fedservice/defaults.py: federation_services, federation_endpoints, federation_functions"]}
{"id": "C128", "title": "the items asked for are there", "statement": "An entity has exactly the services, functions and endpoints that its maker asked for by name or by definition, and a definition that was given is the one that is used.", "quantifier": "every call, in every state of the process", "why_tests_cant": "Lists of names and definitions of any length.", "anchors": ["src/fedservice/defaults.py: federation_services, federation_endpoints, federation_functions", "src/fedservice/utils.py: build_entity_config"]}
{"id": "C129", "title": "a failed HTTP request is not taken for a success", "statement": "If a server answers with anything but a 2xx status then do_request raises or returns a message with an error, and the service context is not updated with the answer.", "quantifier": "every service, response and client (that of an RP and the federation client)", "why_tests_cant": "Statuses, content types and bodies are chosen by the other side.", "anchors": ["src/fedservice/appclient/__init__.py: get_response, service_request, parse_request_response", "src/fedservice/entity/client/__init__.py: get_response, service_request, parse_request_response"]}
{"id": "C130", "title": "the error that a server reports is the error that the client reports", "statement": "If a server refuses a request with a JSON body that has an error code then the message returned to the caller has that error code.", "quantifier": "every service, 4xx response and client", "why_tests_cant": "All response bodies and parsers.", "anchors": ["src/fedservice/appclient/__init__.py: parse_request_response, _parse_response", "src/fedservice/entity/client/__init__.py: get_response"]}
{"id": "C131", "title": "logins do not mix", "statement": "Whatever logins of other users are started, finished, refreshed, queried and closed in between: what the operations of one login (the operations with its state) return, and what the client knows of it afterwards, is what they return when they are run alone.", "quantifier": "every interleaving of operations of any number of logins, every server and clock", "why_tests_cant": "Interleavings of unboundedly many operations.", "anchors": ["src/fedservice/appclient/stand_alone_client_entity.py: init_authorization, finalize_auth, get_access_and_id_token, finalize, get_tokens, refresh_access_token, get_user_info, has_active_authentication, get_valid_access_token, clear_session"]}
{"id": "C132", "title": "a login returns its verified ID token", "statement": "If the library has verified an ID token in the course of a login then finalize returns an ID token; an ID token that is returned is one that the library has verified for this login; tokens can be asked for by state alone.", "quantifier": "every response type, authorization response, token endpoint and state of the client", "why_tests_cant": "Providers may put ID tokens in either response.", "anchors": ["src/fedservice/appclient/stand_alone_client_entity.py: get_access_and_id_token, finalize"]}
{"id": "C133", "title": "valid access tokens and active authentications", "statement": "get_valid_access_token returns the access token last obtained together with its own expiry, if it has not expired, and raises otherwise. After a login that returned an ID token, has_active_authentication is true until the ID token expires, and false from then on.", "quantifier": "every token response, time and state of the client", "why_tests_cant": "Times and lifetimes are arbitrary.", "anchors": ["src/fedservice/appclient/stand_alone_client_entity.py: get_valid_access_token, has_active_authentication, refresh_access_token, get_tokens"]}
{"id": "C134", "title": "an authorization request asks for what the client wants", "statement": "The response type of an authorization request is the caller's or, if the caller names none, the usual one of the client; the response comes in a mode that the client supports; the order of the words of a response type is irrelevant; if no redirect URI fits, the exception says so.", "quantifier": "every configuration and every set of arguments", "why_tests_cant": "All combinations of arguments and configured usage.", "anchors": ["src/fedservice/appclient/stand_alone_client_entity.py: _get_response_type, _get_response_mode, init_authorization"]}
{"id": "C135", "title": "a login ends with an error report or a result", "statement": "finalize reports the error of an authorization response; it returns the tokens once they have been obtained. Logging out at a provider for which there is no end_session service is reported as such.", "quantifier": "every response, client and state", "why_tests_cant": "Providers may leave optional parameters out.", "anchors": ["src/fedservice/appclient/stand_alone_client_entity.py: finalize, logout"]}
{"id": "C136", "title": "closed sessions and failed logins", "statement": "After clear_session no operation says that the user is logged in, hands out tokens of the session or completes its login, until a login of that name is started. An authorization response that is refused does not log the user in.", "quantifier": "every sequence of operations after clear_session; every refused response", "why_tests_cant": "Sequences of any length.", "anchors": ["src/fedservice/appclient/stand_alone_client_entity.py: clear_session, finalize_auth, has_active_authentication"]}
{"id": "C137", "title": "tokens come the way they were asked for", "statement": "If a client has asked for a code then the access token that finalize returns was obtained from the token endpoint.", "quantifier": "every authorization response", "why_tests_cant": "The authorization response passes through the browser; anybody can add parameters.", "anchors": ["src/fedservice/appclient/stand_alone_client_entity.py: finalize_auth, get_access_and_id_token"]}
{"id": "C138", "title": "a login is found again by its state and its nonce", "statement": "An authorization request carries the name of the session as its state; the session knows the issuer and the request; the nonce of the request is bound to the session. Other sessions are untouched.", "quantifier": "every set of arguments and state of the client", "why_tests_cant": "All arguments.", "anchors": ["src/fedservice/appclient/stand_alone_client_entity.py: init_authorization"]}
{"id": "C139", "title": "trust marks issued in a federation are accepted in it", "statement": "In a federation whose members all run this library, a trust mark that a member has issued and that has not expired is accepted by every member that knows the keys of an anchor above the issuer; asking the issuer for its status confirms it. Errors come from policies only.", "quantifier": "every federation, issuer, history of the issuer, mark and state of the verifier", "why_tests_cant": "Issuing, publishing, collection of chains, verification and the status endpoint take part.", "anchors": ["src/fedservice/trust_mark_entity/entity.py: create_trust_mark", "src/fedservice/entity/function/trust_mark_verifier.py: __call__, verify", "src/fedservice/entity/__init__.py: verify_trust_mark", "src/fedservice/trust_mark_entity/server/trust_mark_status.py: process_request"]}
{"id": "C140", "title": "resolvers answer for the members of a federation", "statement": "In a federation whose members all run this library, a resolver that knows the keys of the anchor answers a request about a member with the metadata that the policies along one of the member's paths to that anchor allow, and with the statements of that path. It refuses only if a policy fails, if no path leads to the anchor, or if the member has no metadata of the type asked for.", "quantifier": "every federation, member, anchor, entity type and state of a resolver that only talked to this federation", "why_tests_cant": "Publishing, collection, caches, verification and policies take part.", "anchors": ["src/fedservice/entity/server/resolve.py: process_request", "src/fedservice/entity/function/__init__.py: get_verified_trust_chains", "src/fedservice/entity/server/fetch.py: process_request", "src/fedservice/entity/server/entity_configuration.py: process_request"]}
{"id": "C141", "title": "a client that asks for what the server supports is registered", "statement": "A registration request with valid claims, acceptable URIs and usable keys is accepted. The client is stored with the values it asked for, cut down to those the server supports, and with its redirect URIs.", "quantifier": "every server configuration, request and state", "why_tests_cant": "Depends on the interplay of any set of claims with any list of supported values.", "anchors": ["src/fedservice/appserver/oauth2/registration.py: filter_client_request", "src/fedservice/appserver/oauth2/registration.py: match_claim", "src/fedservice/appserver/oauth2/registration.py: client_registration_setup", "src/fedservice/appserver/oauth2/registration.py: do_client_registration"]}
{"id": "C142", "title": "automatic registration of the members of a federation", "statement": "In a federation whose members all run this library, a server that knows the keys of an anchor above a client registers the client on its first request, without a trust chain from the client, with what the policies along one of its paths to an anchor make of its metadata and with the keys in it. A client without such a path is turned away and leaves nothing behind. This holds for OpenID Connect, OAuth2 and pushed authorization requests.", "quantifier": "every federation, client, server configuration and state of a server that only talked to this federation", "why_tests_cant": "Publishing, collection, verification, policies, registration and the client database take part.", "anchors": ["src/fedservice/appserver/oidc/authorization.py: do_automatic_registration", "src/fedservice/appserver/oauth2/authorization.py: do_automatic_registration", "src/fedservice/appserver/oauth2/pushed_authorization.py: do_automatic_registration", "src/fedservice/entity/function/__init__.py: get_verified_trust_chains", "src/fedservice/entity/server/fetch.py: process_request"]}
{"id": "C143", "title": "explicit registration between members of a federation", "statement": "In a federation whose members all run this library, an OP answers the registration request of a relying party that has a path to an anchor whose keys the OP knows, and stores the metadata the relying party published as far as it supports it. The relying party takes the answer if it trusts and knows the anchor, finds the OP below it, has one usable path to it, and the policies along that path leave some metadata; it then works with what the policies leave of the metadata in the answer.", "quantifier": "every federation, OP, relying party and states of the two that only talked to this federation", "why_tests_cant": "Both parties, publishing, collection, verification, policies and registration take part.", "anchors": ["src/fedservice/appserver/oidc/registration.py: process_request", "src/fedservice/appclient/oidc/registration.py: parse_federation_registration_response", "src/fedservice/entity/function/__init__.py: get_verified_trust_chains", "src/fedservice/entity/server/fetch.py: process_request"]}
{"id": "C144", "title": "statements from files", "statement": "An object that makes entity statements from files says about a subject what the files of the issuer about that subject say: identifiers, keys, metadata, policy, constraints and authority hints, with the arguments of the call coming first, signed with a key of the issuer. What it was asked before makes no difference, and it answers whenever there are keys of both.", "quantifier": "every content of the directories, issuer, subject, arguments and sequence of earlier calls", "why_tests_cant": "The key jar lives as long as the object; names of any form occur.", "anchors": ["src/fedservice/fetch_entity_statement/fs2.py: gather_info", "src/fedservice/fetch_entity_statement/fs2.py: load_jwks", "src/fedservice/fetch_entity_statement/__init__.py: create_entity_statement", "src/fedservice/entity_statement/create.py: create_entity_statement"]}
{"id": "C145", "title": "publishing statements from files", "statement": "A server that publishes from files answers requests for an entity configuration with a configuration by and about the entity asked that verifies with the keys in it, and requests for a statement with a statement by the entity asked about the subject asked for.", "quantifier": "every content of the directories and every URL", "why_tests_cant": "Directories and URLs are unbounded; tests compare with one set of directories.", "anchors": ["src/fedservice/fetch_entity_statement/fs2.py: FSPublisher", "src/fedservice/fetch_entity_statement/fs2.py: _create_entity_statement", "src/fedservice/fetch_entity_statement/fs2.py: _create_entity_configuration"]}
{"id": "C146", "title": "trust chains under attack", "statement": "Whatever an attacker who does not have the keys of the members of a federation answers to whatever request, and whatever was done before, all statements in the name of members in the trust chains that are found, verified from a request or kept were made by those members, and the metadata that are given for an entity or answered by a resolver come from such chains.", "quantifier": "every network, set of members, keys and statements, sequence of searches, lookups, provided chains and resolve requests, entity and iteration order", "why_tests_cant": "The network is arbitrary and changes between any two requests, so there are unboundedly many attacks; what is left behind by one operation is used by the next ones.", "anchors": ["src/fedservice/entity/function/trust_chain_collector.py: collect_tree", "src/fedservice/entity/function/trust_chain_collector.py: get_entity_statement", "src/fedservice/entity/function/verifier.py: verify_trust_chain", "src/fedservice/entity/function/__init__.py: verify_trust_chains", "src/fedservice/entity/function/__init__.py: get_verified_trust_chains", "src/fedservice/entity/server/resolve.py: process_request"]}
{"id": "C147", "title": "trust marks under attack", "statement": "Whatever an attacker who does not have the keys of the members of a federation answers to whatever request, and whatever was done before, a trust mark in the name of a member that is accepted, by the trust mark verifier or by verify_trust_mark, was issued by that member; if it is delegated, the delegation was made by the owner that the trust anchor has named.", "quantifier": "every network, set of members, keys and statements, trust mark, trust anchor, and sequence of searches, lookups, provided chains, resolve requests and trust mark checks", "why_tests_cant": "The network is arbitrary and changes between any two requests; keys that one check leaves behind are used by the next ones.", "anchors": ["src/fedservice/trust_mark_entity/__init__.py: TrustMarkVerifier.__call__", "src/fedservice/trust_mark_entity/__init__.py: TrustMarkVerifier.verify_delegation", "src/fedservice/entity/function/__init__.py: verify_trust_mark", "src/fedservice/entity/function/__init__.py: get_verified_trust_chains"]}
{"id": "C148", "title": "registrations under attack", "statement": "Whatever an attacker who does not have the keys of the members of a federation sends to a server or answers to its requests, all keys and redirect URIs that are kept for clients of the server come from metadata of trust chains that consist of statements made by members.", "quantifier": "every network, set of members, keys and statements, sequence of authorization requests with and without provided trust chains, explicit registration requests and other operations, and configuration", "why_tests_cant": "The network and the requests are arbitrary and unboundedly many; each request can change the keys, chains and clients the next ones are judged by.", "anchors": ["src/fedservice/appserver/oidc/authorization.py: Authorization.client_authentication", "src/fedservice/appserver/oauth2/authorization.py: Authorization.client_authentication", "src/fedservice/appserver/oauth2/pushed_authorization.py: PushedAuthorization.client_authentication", "src/fedservice/appserver/oauth2/registration.py: Registration.process_request", "src/fedservice/entity/function/__init__.py: get_verified_trust_chains"]}
{"id": "C149", "title": "relying parties under attack", "statement": "Whatever an attacker who does not have the keys of the members of a federation answers to whatever request, and whatever was done before, a registration response in the name of a member that a relying party accepts was made by that member; what the relying party learns about its provider, keys included, comes from trust chains that consist of statements made by members, and a login is completed only if that is about the issuer the user was sent to.", "quantifier": "every network, set of members, keys and statements, configuration, and sequence of searches, registration responses, authorization requests and collections of provider information", "why_tests_cant": "The network and the responses are arbitrary and unboundedly many; each changes the keys the next ones are judged by.", "anchors": ["src/fedservice/appclient/oidc/registration.py: parse_federation_registration_response", "src/fedservice/appclient/oauth2/registration.py: parse_federation_registration_response", "src/fedservice/appclient/stand_alone_client_entity.py: do_provider_info", "src/fedservice/appclient/stand_alone_client_entity.py: collect_metadata", "src/fedservice/appclient/stand_alone_client_entity.py: finalize_auth", "src/fedservice/entity/function/__init__.py: get_verified_trust_chains"]}
{"id": "C150", "title": "what the client asks for is what the server is asked for", "statement": "A request for an entity statement, a resolved entity, a list of subordinates, the holders or the status of a trust mark arrives at the endpoint it was made for, with exactly the arguments it was made with, whatever characters these have: no value can add, change or hide a parameter, and no two different requests for statements have the same URL.", "quantifier": "every endpoint and all strings as arguments", "why_tests_cant": "The strings are arbitrary; escaping is right for all of them or for none that matter.", "anchors": ["src/fedservice/entity/client/entity_statement.py: get_request_parameters", "src/fedservice/entity/client/list.py: get_request_parameters", "src/fedservice/entity/client/resolve.py: get_request_parameters", "src/fedservice/entity/client/trust_mark_list.py: get_request_parameters", "src/fedservice/entity/client/trust_mark_status.py: get_request_parameters"]}
{"id": "C151", "title": "the configuration of an entity is looked for where it is", "statement": "If an entity publishes its configuration at its identifier followed by /.well-known/openid-federation, asking for the configuration of that entity gives what it published there.", "quantifier": "every entity identifier and everything published elsewhere", "why_tests_cant": "The identifiers and what other entities publish are arbitrary; one other page can be enough to hide an entity.", "anchors": ["src/fedservice/entity/client/entity_configuration.py: construct_well_known_url", "src/fedservice/entity/client/entity_configuration.py: construct_tenant_well_known_url", "src/fedservice/entity/function/trust_chain_collector.py: get_entity_configuration"]}
{"id": "C152", "title": "the parts of an entity work with one federation entity and one key jar", "statement": "Every part of an entity, however deep, finds the one federation entity of the entity, and all parts that sign or verify use the same key jar.", "quantifier": "every tree of units with one federation entity, on its own or in a combo", "why_tests_cant": "Trees are of any depth and shape and keys may be configured at any of the units; the parts find each other at run time.", "anchors": ["src/fedservice/entity/utils.py: get_federation_entity", "src/fedservice/combo/__init__.py: get_attribute", "src/fedservice/entity/__init__.py: get_attribute", "src/fedservice/entity/client/__init__.py: get_attribute", "src/fedservice/entity/server/__init__.py: get_attribute", "src/fedservice/trust_mark_entity/entity.py: create_trust_mark", "src/fedservice/trust_mark_entity/entity.py: unpack_trust_mark"]}
{"id": "C153", "title": "the trust anchor in an authorization response is the one that was relied on", "statement": "Once a client has been let in through a trust chain, every authorization response to it names the trust anchor of a chain that was verified for that client, and changes nothing else in the response; nothing that happens for other clients changes what is named.", "quantifier": "every configuration, federation, request and history of other requests", "why_tests_cant": "The chain may have been stored long before the response is made and many other clients may have been served in between; there is one store for all of them.", "anchors": ["src/fedservice/appserver/oidc/authorization.py: extra_response_args", "src/fedservice/appserver/oauth2/authorization.py: extra_response_args", "src/fedservice/appserver/oauth2/pushed_authorization.py: extra_response_args", "src/fedservice/appserver/oidc/authorization.py: client_authentication"]}
{"id": "C154", "title": "the endpoints of an entity can be found", "statement": "Every endpoint an entity has is in its metadata under the name clients look for, with the URL it is served at, also if it is the endpoint of a trust mark entity that is part of the entity; a client that looks for the trust mark endpoint of an issuer uses the one in the verified metadata of that issuer.", "quantifier": "every set of endpoints and every combination of parts", "why_tests_cant": "Endpoints and parts are configured freely, and the metadata are put together from all of them.", "anchors": ["src/fedservice/entity/__init__.py: get_endpoint_claims", "src/fedservice/entity/__init__.py: get_metadata", "src/fedservice/trust_mark_entity/entity.py: get_metadata", "src/fedservice/combo/__init__.py: get_metadata", "src/fedservice/utils.py: make_federation_entity", "src/fedservice/entity/client/trust_mark.py: get_endpoint"]}
{"id": "C155", "title": "an entity says what it was configured to say", "statement": "Every claim a federation entity supports and is given a value for is in its metadata with that value, nothing else is, and asking for the preferences does not change the metadata.", "quantifier": "all preferences and endpoints", "why_tests_cant": "The claims are configured freely; each of them is said or silently dropped.", "anchors": ["src/fedservice/entity/claims.py: get_server_metadata", "src/fedservice/message.py: FederationEntity", "src/fedservice/entity/__init__.py: get_preferences"]}
{"id": "C156", "title": "a registration request says what the entity publishes", "statement": "Whoever publishes an entity configuration can ask to be registered, and the self-signed statement it sends has the same claims as the entity configuration apart from the time of expiry, which is that of its context; an OP of the same federation answers such a request and registers the sender.", "quantifier": "all superiors, trust marks, metadata, lifetimes and federations", "why_tests_cant": "Superiors and trust marks may be lists, files or callables, and the request and the configuration are put together by different code; the OP is another entity with its own view of the federation.", "anchors": ["src/fedservice/appclient/oidc/registration.py: create_entity_statement", "src/fedservice/appclient/oauth2/registration.py: create_entity_statement", "src/fedservice/entity/context.py: create_entity_statement", "src/fedservice/entity/server/entity_configuration.py: process_request", "src/fedservice/combo/__init__.py: get_metadata"]}
{"id": "C157", "title": "the configured priorities, trusted roots, lifetimes and trust marks are used", "statement": "The priorities, trusted roots, lifetime, superiors and trust marks an entity or one of its parts is configured with are those it works with: of several trust chains one is picked whose trust anchor comes first in the priority list or, without a list, whose trust anchor is the trusted root with the least identifier.", "quantifier": "all configurations and all sets of verified chains", "why_tests_cant": "The values pass through several constructors with defaults of their own; what is lost shows only in which chain is chosen or how long a statement is valid.", "anchors": ["src/fedservice/entity/context.py: FederationContext.__init__", "src/fedservice/entity/context.py: FederationServerContext.__init__", "src/fedservice/entity/client/__init__.py: FederationServiceContext.__init__", "src/fedservice/entity/__init__.py: FederationEntity.__init__", "src/fedservice/entity/__init__.py: pick_trust_chain"]}
{"id": "C158", "title": "a trust anchor publishes the trust mark issuers and owners it is given", "statement": "The issuers and the owners of trust marks a trust anchor is set up with are in its metadata, and a trust mark with a delegation by the owner passes the check against that metadata.", "quantifier": "all issuers, owners, endpoints and delegations", "why_tests_cant": "Setting up and checking happen in different entities; the check depends on what was published.", "anchors": ["src/fedservice/utils.py: make_federation_combo", "src/fedservice/entity/function/trust_mark_verifier.py: verify_delegation", "src/fedservice/entity/__init__.py: get_metadata"]}
{"id": "C159", "title": "a client or server part is what its name says", "statement": "A part of an entity that is named openid_relying_party, oauth_client, openid_provider or oauth_authorization_server, with nothing else to say what it is, is an OpenID Connect or OAuth2 client or server as the name says, and a client has the default services of its kind unless it is given others; a type that is given or configured goes before the name.", "quantifier": "all names, configurations, types and services", "why_tests_cant": "Types come from arguments, configuration and names in several orders with defaults in between; a test tries one combination.", "anchors": ["src/fedservice/appclient/__init__.py: ClientEntity.__init__", "src/fedservice/appserver/__init__.py: ServerEntity.__init__", "src/fedservice/combo/__init__.py: Combo.__init__"]}
{"id": "C160", "title": "every part is published under its name, servers with the entity as issuer", "statement": "What an entity publishes has exactly one set of metadata for every part that has metadata, under the name of the part; the metadata of a server name the identifier of the entity as issuer whatever its preferences say, and contain its endpoints and its preferences.", "quantifier": "all configurations, parts, endpoints and preferences", "why_tests_cant": "Metadata are put together from parts that overwrite one another; relying parties depend on the issuer being the entity identifier.", "anchors": ["src/fedservice/combo/__init__.py: get_metadata", "src/fedservice/appserver/__init__.py: get_metadata", "src/fedservice/appclient/__init__.py: get_metadata", "src/fedservice/entity/__init__.py: get_metadata"]}
{"id": "C161", "title": "statements made through a context say what they are asked to say, and otherwise what the context says", "statement": "A statement made through the context of an entity has the keys, metadata, policies, constraints, audience, superiors, trust marks and lifetime it is asked to have; where nothing is asked for it has the keys of the entity and the lifetime, trust marks and superiors of the context.", "quantifier": "all arguments and contexts", "why_tests_cant": "Arguments, defaults and what is found by reading files or calling functions are merged in one pass; empty values count as absent.", "anchors": ["src/fedservice/entity/context.py: create_entity_statement", "src/fedservice/entity_statement/create.py: create_entity_statement"]}
{"id": "C162", "title": "a relying party gets to know and can use every OP of its federation", "statement": "In a federation of entities that run this library, a relying party that knows no more than the identifier of an OP and the keys of a trust anchor above it gets the metadata of the OP as the policies on the way make them, along a path to the best anchor in its priorities; it knows the OP under its identifier, files the keys that are given there and only there, accepts its authorization responses, and registers in a way both of them support.", "quantifier": "all federations, policies, priorities, parts of the OP and registration types", "why_tests_cant": "The metadata pass through the OP's parts, its configuration, the policies of every superior and the client's own bookkeeping; a test has one federation.", "anchors": ["src/fedservice/appclient/stand_alone_client_entity.py: do_provider_info", "src/fedservice/appclient/stand_alone_client_entity.py: _collect_metadata", "src/fedservice/appclient/stand_alone_client_entity.py: do_client_registration", "src/fedservice/appserver/__init__.py: get_metadata", "src/fedservice/combo/__init__.py: get_metadata"]}
{"id": "C163", "title": "get_info reports the keys and types of the entity it is asked about", "statement": "What get_info prints for an entity comes from a configuration found at the entity's location that is about this entity and signed with a key in it: the keys, the entity types and whether it lists others are the published ones, and nothing else is in a subordinate entry.", "quantifier": "all networks, times, entities and options", "why_tests_cant": "The document fetched is whatever the network returns; tests use the entity's own document.", "anchors": ["dc4eu_federation/get_info.py: __main__", "setup_federation/get_info.py: __main__", "src/fedservice/entity/function/trust_chain_collector.py: get_entity_configuration", "src/fedservice/entity/function/__init__.py: verify_self_signed_signature"]}
{"id": "C164", "title": "entities registered with the set-up commands find each other", "statement": "Starting from entities that only have their own configuration, the commands (get_info -s piped into add_info for every superior and subordinate) succeed, the stores of the superiors hold exactly what the subordinates publish, and whoever then takes the keys of a trust anchor from get_info -t finds exactly one verified trust chain per path to that anchor, with the superiors' policies for the published types in it; the only thing that stands in the way is a conflict between policies.", "quantifier": "all federations, hierarchies, lists of commands and policies", "why_tests_cant": "The commands, the stores, the fetch endpoints, the collector and the verifier have to agree on formats; a test runs one federation.", "anchors": ["dc4eu_federation/get_info.py: __main__", "dc4eu_federation/add_info.py: __main__", "setup_federation/command.sh", "src/fedservice/entity/server/fetch.py: process_request", "src/fedservice/entity/function/trust_chain_collector.py: __call__"]}
{"id": "C165", "title": "the tree command shows the federation as it is", "statement": "In a federation of entities that run this library, tree shows exactly the entities without a list endpoint that are below the root, complains about exactly the registrations that the subordinate has no authority hint for, and with -c says that an entity has a valid trust chain if and only if it has a path to the root; where there are no complaints everything shown has one. On any network, what is shown has a configuration signed with a key in it and is on the lists of a chain of such entities.", "quantifier": "all federations, shapes of the tree and networks", "why_tests_cant": "The recursion follows list endpoints downwards while trust chains are built upwards; agreement between the two is a statement about all federations.", "anchors": ["script/tree.py: do_subordinates", "script/tree.py: find_trust_chain", "script/tree.py: __main__", "src/fedservice/entity/server/list.py: process_request"]}
{"id": "C166", "title": "the list endpoint lists what the set-up commands registered", "statement": "After entities were registered with the commands, the list endpoint of a superior returns all of them, the intermediates among them when asked for intermediates, and those that publish a type when asked for that type.", "quantifier": "all federations, lists of commands and types", "why_tests_cant": "Registration and listing are separate programs that share the names of fields.", "anchors": ["dc4eu_federation/get_info.py: __main__", "dc4eu_federation/add_info.py: __main__", "src/fedservice/entity/server/list.py: process_request"]}
{"id": "C167", "title": "the pages that serve entity configurations serve the same document", "statement": "For an entity, the page of trust anchors (a statement made by the context), the page of relying parties and the entity configuration endpoint publish documents with the same claims.", "quantifier": "all contexts, sources of trust marks and superiors, metadata and times", "why_tests_cant": "Each application has its own copy of the page; which sources are read when is only visible by comparing all of them.", "anchors": ["setup_federation/trust_anchor/views.py: wkof", "edu_federation/relying_party_explicit/views.py: wkof", "edu_federation/openid_provider/views.py: openid_federation", "src/fedservice/entity/server/entity_configuration.py: process_request", "src/fedservice/entity/context.py: create_entity_statement"]}
{"id": "C168", "title": "a federation that is reached over HTTP works whatever was requested before", "statement": "When entities that run this library are reached through their web pages, then whatever requests anybody made to any of the pages before and in between, a member finds exactly one verified trust chain per path to an anchor it knows; compared with a federation nobody asked anything before, results (anchors, metadata, expiry, paths, errors and keys learnt) are the same for every entity asked about. A page of a fetch endpoint has status 200 only with a signed statement that the entity made for that request, and requests change nothing but the superiors named in later statements.", "quantifier": "all federations, all sequences of requests with any method and URL, before every single request of the collector", "why_tests_cant": "The endpoints keep state that any request may change; tests run requests one at a time on fresh entities.", "anchors": ["setup_federation/trust_anchor/views.py: service_endpoint", "setup_federation/trust_anchor/views.py: do_response", "setup_federation/trust_anchor/views.py: fetch", "setup_federation/trust_anchor/views.py: wkof", "src/fedservice/entity/server/fetch.py: process_request", "src/fedservice/entity/client/entity_statement.py: get_request_parameters", "src/fedservice/entity/function/trust_chain_collector.py: __call__"]}
{"id": "C169", "title": "membership ends", "statement": "When a superior has stopped vouching for an entity and everything it ever said about the entity has expired, no trust chain that is returned from then on contains a statement of that superior about that entity; no returned trust chain rests on statements that have expired.", "quantifier": "all networks and clocks, all histories of collections with filled caches", "why_tests_cant": "Needs time to pass between collections on a federation that changes, and adversaries that keep what they once got.", "anchors": ["src/fedservice/entity/function/verifier.py: verify_trust_chain", "src/fedservice/entity/function/verifier.py: __call__", "src/fedservice/entity/function/trust_chain_collector.py: get_entity_statement", "src/fedservice/entity/function/trust_chain_collector.py: collect_tree", "src/fedservice/entity/function/__init__.py: get_verified_trust_chains"]}
{"id": "C170", "title": "a withdrawn key is not accepted any more", "statement": "When nobody says any more that a key belongs to an entity, and everything that said so has expired, no statement of that entity signed with the key is accepted in a trust chain.", "quantifier": "all networks and clocks, all histories of collections with filled caches", "why_tests_cant": "Keys are stolen and replaced over the lifetime of a process; tests start with fresh key jars.", "anchors": ["src/fedservice/entity/function/verifier.py: verify_trust_chain", "src/fedservice/entity/function/verifier.py: __call__", "src/fedservice/entity/function/trust_chain_collector.py: get_entity_statement", "src/fedservice/entity/function/trust_chain_collector.py: __call__"]}
{"id": "C171", "title": "who comes back after a long time sees the federation as it is now", "statement": "When everything that a process was told by a federation has expired, every later question about an entity gets the answer that a process with the same keys and empty caches would get at that moment: nothing that was cached shows through.", "quantifier": "all networks and clocks, all histories of questions before and all lists of questions afterwards", "why_tests_cant": "The caches fill over the lifetime of a process and the federation changes meanwhile; tests look at one collection on one network.", "anchors": ["src/fedservice/entity/function/trust_chain_collector.py: get_entity_statement", "src/fedservice/entity/function/trust_chain_collector.py: __call__", "src/fedservice/entity/function/trust_chain_collector.py: get_federation_fetch_endpoint", "src/fedservice/entity/__init__.py: get_trust_chains", "src/fedservice/entity/function/__init__.py: get_verified_trust_chains"]}
{"id": "C172", "title": "a federation keeps working as time passes", "statement": "In a federation of entities that run this library, whoever starts with the right keys and asks about members, as often and in whatever order and however much time passes in between, finds the trust chains of every member along all the ways up that end at an anchor they hold keys of and meet the constraints, and no others, each with the metadata that the policies along it make of the member's.", "quantifier": "all federations whose constraints can be evaluated, all clocks that do not go back, all histories of questions about members, all members asked about last", "why_tests_cant": "Documents are signed anew with later times at every request and expire one by one in the caches; a test runs within a second of its start.", "anchors": ["src/fedservice/entity/function/trust_chain_collector.py: collect_branch", "src/fedservice/entity/function/trust_chain_collector.py: collect_tree", "src/fedservice/entity/function/trust_chain_collector.py: get_entity_statement", "src/fedservice/entity_statement/cache.py: ESCache", "src/fedservice/entity_statement/create.py: create_entity_statement", "src/fedservice/entity/function/__init__.py: get_verified_trust_chains"]}
{"id": "C173", "title": "requests that fail leave no traces", "statement": "In a federation of entities that run this library, whatever requests failed before, whoever asks for the trust chains of a member finds all there are and no others, unless one of the requests made for this question fails; then an error says so. That holds too if chains found before are taken from the store.", "quantifier": "all federations whose constraints can be evaluated, all networks in which any request may fail at any time with 404, another status or no connection, all clocks that do not go back, all histories of questions about members", "why_tests_cant": "A request can fail at every place of the recursion and leave caches half filled; tests mock networks that work.", "anchors": ["src/fedservice/entity/function/trust_chain_collector.py: get_document", "src/fedservice/entity/function/trust_chain_collector.py: get_entity_configuration", "src/fedservice/entity/function/trust_chain_collector.py: get_entity_statement", "src/fedservice/entity/function/trust_chain_collector.py: collect_branch", "src/fedservice/entity/function/__init__.py: get_verified_trust_chains", "src/fedservice/entity/__init__.py: get_trust_chains"]}
{"id": "C174", "title": "whatever fails and however time passes, no wrong answer is given", "statement": "In a federation of entities that run this library, when the trust chains of a member are given they are exactly those along the ways up that end at an anchor the asker holds keys of and meet the constraints, with the metadata the policies along them make of the member's, whether collected now or taken from the store, whatever requests failed before or fail now and whatever the clock does; and verified metadata are those of such a chain, and are denied only if there is none.", "quantifier": "all federations whose constraints can be evaluated, all networks in which any request may fail at any time, all clocks, all histories of questions about members", "why_tests_cant": "An exception in the middle of a collection could leave a part of a tree that is later taken for the whole; that depends on where and when a request fails.", "anchors": ["src/fedservice/entity/function/trust_chain_collector.py: collect", "src/fedservice/entity/function/trust_chain_collector.py: collect_branch", "src/fedservice/entity/function/__init__.py: get_verified_trust_chains", "src/fedservice/entity/__init__.py: get_trust_chains", "src/fedservice/entity/__init__.py: get_verified_metadata"]}
{"id": "C175", "title": "whatever fails and however time passes, no client is stored with anything but its own metadata", "statement": "In a federation of entities that run this library, members knock at a server that registers clients automatically, in any order and any number of times, at any of the three endpoints, while requests fail and time passes. Every entry of the client database that was not there at the start has the claims that the policies along one of the ways from a member up to an anchor the server holds keys of make of the member's own metadata, and is stored under the member's name or has it as entity_id; or it is what a failed registration leaves behind, which has no claims. A member that is let in because it was registered just now has an entry of the first kind. The trust chains that are stored on the way stay right.", "quantifier": "all federations whose constraints can be evaluated, all networks in which any request may fail at any time, all clocks, all servers, all histories of questions and of clients knocking", "why_tests_cant": "A registration goes through collection, verification, policies, the store, the client database and the alias; an exception in between, an old entry or an old cache could leave a client with claims that nobody vouches for, depending on what failed when.", "anchors": ["src/fedservice/appserver/oidc/authorization.py: client_authentication", "src/fedservice/appserver/oidc/authorization.py: do_automatic_registration", "src/fedservice/appserver/oauth2/authorization.py: do_automatic_registration", "src/fedservice/appserver/oauth2/pushed_authorization.py: do_automatic_registration", "src/fedservice/appserver/oauth2/registration.py: client_registration_setup"]}
{"id": "C176", "title": "whatever fails and however time passes, a resolver gives no wrong answer", "statement": "In a federation of entities that run this library, a resolver is asked about members, for any trust anchors and entity types, and otherwise collects, stores and asks for trust chains, in any order, while requests fail and time passes. Every answer it gives names itself and the entity that was asked about, has what the policies along one of the entity's ways up to the anchor make of the entity's own metadata (of the type that was asked for), and has the configuration of the entity, the statements along that way and, if wanted, the configuration of the anchor; a statement may be missing, but none is another one. The resolver holds keys of the anchor. Its keys stay right, and the keys of the entities at the top stay as they were.", "quantifier": "all federations whose constraints can be evaluated, all networks in which any request may fail at any time, all clocks, all histories of questions and of resolve requests", "why_tests_cant": "The answer is put together from a collection up to an anchor named in the request, from verification, policies, and from caches that are read a second time after that; what is in the caches by then depends on what failed when, on earlier questions with other anchors, and on the time.", "anchors": ["src/fedservice/entity/server/resolve.py: process_request", "src/fedservice/entity/function/trust_chain_collector.py: get_chain", "src/fedservice/entity/function/trust_chain_collector.py: collect_tree"]}
{"id": "C177", "title": "whatever fails and however time passes, no trust mark is accepted that is not its issuer's", "statement": "In a federation of entities that run this library, somebody checks trust marks that name members as issuers, with or without asking the issuer, and otherwise collects, stores and asks for trust chains, in any order, while requests fail and time passes. A mark that is accepted is signed with a key that was held for its issuer at the start, or that the issuer or one of its superiors says is the issuer's. The issuer has a way up to an anchor whose keys were held at the start; the mark has the claims a mark must have and had not expired at a moment of the check; if the issuer was to be asked, the status endpoint in its metadata, as the policies on that way leave them, said that the mark is active. The keys that are held for members stay that way.", "quantifier": "all federations whose constraints can be evaluated, all networks in which any request may fail at any time, all clocks, all status endpoints, all histories of questions and of marks", "why_tests_cant": "Checking a mark collects chains twice, may collect the anchor's configuration again for a delegation, and may add keys of the issuer to the key jar; a forged mark would get through if keys got there after a failure, from an old cache or on behalf of another mark.", "anchors": ["src/fedservice/entity/__init__.py: FederationEntity.verify_trust_mark", "src/fedservice/entity/function/trust_mark_verifier.py: TrustMarkVerifier.__call__", "src/fedservice/entity/function/trust_mark_verifier.py: verify_delegation", "src/fedservice/entity/function/trust_chain_collector.py: get_metadata"]}
{"id": "C178", "title": "whatever fails and however time passes, a relying party believes nothing wrong about its OP", "statement": "In a federation of entities that run this library, a relying party that knows no more than the identifier of its OP asks for the metadata of the OP, sends users off, and otherwise collects, stores and asks for trust chains, in any order, while requests fail and time passes. It has learnt nothing, or has as provider information what the policies along one of the OP's ways up to an anchor it holds keys of make of what the OP says about itself. Every key it did not have before is filed for the OP and given in such metadata; every trust chain it stored runs along such a way. If it is said that the OP is known, it is; an authorization response is accepted only for a request made to this OP; and registration is chosen among the ways that the relying party and the OP both support, at the endpoint the OP names.", "quantifier": "all federations whose constraints can be evaluated, all networks in which any request may fail at any time, all clocks, all histories of questions, all priorities among anchors", "why_tests_cant": "Finding out about an OP stores chains, replaces the provider information and imports keys one after the other, and each step may be the last; a relying party that keeps a part of it from one attempt and the rest from another would trust what nobody said.", "anchors": ["src/fedservice/appclient/stand_alone_client_entity.py: collect_metadata", "src/fedservice/appclient/stand_alone_client_entity.py: do_provider_info", "src/fedservice/appclient/stand_alone_client_entity.py: finalize_auth", "src/fedservice/__init__.py: save_trust_chains"]}
{"id": "C179", "title": "whatever fails and whoever forges, a client takes only registration responses that were made for it", "statement": "In a federation of entities that run this library, a client receives registration responses, real and forged, and otherwise collects, stores and asks for trust chains, in any order, while requests fail and time passes. The forged ones may have any contents, as long as they name a member as their issuer and are not signed with a key that members publish, that superiors state, or that the client began with. Only responses that were made for the client are taken, from an OP with a way up to the anchor that the response names and whose keys lead back to those the client began with, and not after their end; and what is taken is what the policies along a way of the client up to that anchor leave of the response, when the constraints along it are met. The client never gets a key of an outsider, keeps the keys of the members, and the keys of entities with no superiors stay as they were.", "quantifier": "all federations, all networks in which any request may fail at any time, all clocks, all histories of responses and questions", "why_tests_cant": "A response adds the keys in it to the client's federation keys before anybody knows whether it is accepted; a forged response that leaves a key behind would make the next one acceptable, and only histories of several show it.", "anchors": ["src/fedservice/appclient/oidc/registration.py: parse_federation_registration_response", "src/fedservice/entity/function/verifier.py: verify_trust_chain", "src/fedservice/entity/function/trust_chain_collector.py: TrustChainCollector"]}
{"id": "C180", "title": "client and OP agree about a registration, whatever failed before and whoever forges", "statement": "In a federation of entities that run this library, a client receives registration responses, real and forged, and otherwise collects, stores and asks for trust chains, in any order, while requests fail and time passes. Real ones are the answers of OPs that run this library to requests that name the client as issuer and subject, wherever and whenever they are given and whatever the OP knew; forged ones are not signed with keys that members publish, superiors state, OPs sign with, or the client began with. Whenever the client takes a response, an OP gave it, the OP then had an entry for the client under the client's identifier, the response agrees with that entry in every claim that the OP passes on as it is (leaving out the keys, application_type and redirect_uris), and the client takes what the policies along a way up of its own leave of the response.", "quantifier": "all federations, all networks in which any request may fail at any time, all clocks, all OPs and their states, all histories of responses and questions", "why_tests_cant": "What the client believes and what the OP stored are in two programs; a test of either sees one of them, and the agreement must survive every history of failed requests and forged responses.", "anchors": ["src/fedservice/appserver/oidc/registration.py: Registration.process_request", "src/fedservice/appclient/oidc/registration.py: parse_federation_registration_response", "src/fedservice/entity/function/verifier.py: verify_trust_chain"]}
{"id": "C181", "title": "whatever failed before, a client that nothing is wrong with gets in as soon as nothing fails", "statement": "In a federation of entities that run this library, a server with automatic registration that started with the right keys has served clients and collected trust chains, in any order, while requests failed and time passed. A member with a usable way up and acceptable metadata that asks for something then, less than a day (less the collector's margin) after the start, is used: registered with what the policies along one of its ways up make of its metadata, as far as the server supports it, and with the keys in it, if it was not known or was registered automatically before, and as it is if it was registered otherwise. The only exception is that one of the requests made for it at that moment fails; then the caller is told so, and nobody else's registration is touched.", "quantifier": "all federations, all networks in which any request may fail at any time, all forward clocks, all histories of clients and questions, all members and flavours of the endpoint", "why_tests_cant": "What a failed attempt leaves behind (cached configurations, statements, keys, half-made client entries) decides about the next attempt; a test would have to try every request at which an attempt can stop, for every sequence of attempts.", "anchors": ["src/fedservice/appserver/oidc/authorization.py: Authorization.client_authentication", "src/fedservice/appserver/oauth2/authorization.py: Authorization.client_authentication", "src/fedservice/appserver/oauth2/pushed_authorization.py: PushedAuthorization.client_authentication", "src/fedservice/entity/function/trust_chain_collector.py: TrustChainCollector"]}
{"id": "C182", "title": "whatever failed before, a relying party gets to know its OP as soon as nothing fails", "statement": "In a federation of entities that run this library, a relying party that started with the right keys and the identifier of an OP has tried to find out about it, begun logins and used its federation part otherwise, in any order, while requests failed and time passed. When it tries again less than a day (less the collector's margin) after the start, and the OP has a usable way up and readable metadata along all such ways, it gets what the policies along one of these ways make of what the OP says, has all the keys given there under the OP's identifier, and accepts the OP's answers to the logins it begins then. The only exception is that one of the requests it makes at that moment fails; then it is told so, and still knows no more than the identifier.", "quantifier": "all federations, all networks in which any request may fail at any time, all forward clocks, all histories of attempts, logins and questions", "why_tests_cant": "A relying party keeps what it learnt and does not ask again; that no failed attempt leaves half of it behind, metadata without keys, say, needs every point at which an attempt can stop.", "anchors": ["src/fedservice/appclient/stand_alone_client_entity.py: collect_metadata", "src/fedservice/appclient/stand_alone_client_entity.py: do_provider_info", "src/fedservice/appclient/stand_alone_client_entity.py: finalize_auth"]}
{"id": "C183", "title": "whatever failed before, a registration response made for the client is taken as soon as nothing fails", "statement": "In a federation of entities that run this library, a client that started with the right keys has been given registration responses, real and forged ones, and used its federation part otherwise, in any order, while requests failed and time passed. When an OP in the federation has made a response for this client, naming a trust anchor at the top of the federation that the client trusts, and the client has one usable way up to it, whose policies leave some metadata, then the client that parses it before it expires and less than a day (less the collector's margin) after the start takes it, with exactly the metadata that these policies make of the response. The only exception is that one of the requests it makes at that moment fails; then it is told so.", "quantifier": "all federations, all networks in which any request may fail at any time, all forward clocks, all histories of responses and questions, all responses", "why_tests_cant": "Whether keys and statements left over from failed attempts and from forged responses can spoil a later good response depends on all of the history; a test tries a handful of histories.", "anchors": ["src/fedservice/appclient/oidc/registration.py: Registration.parse_response", "src/fedservice/entity/function/trust_chain_collector.py: TrustChainCollector", "src/fedservice/entity/function/__init__.py: verify_trust_chains"]}
{"id": "C184", "title": "whatever failed before, a resolver answers as soon as nothing fails", "statement": "In a federation of entities that run this library, a resolver that started with the right keys has resolved entities and collected trust chains, in any order, while requests failed and time passed. Asked about a member then, less than a day (less the collector's margin) after the start, it answers, if the member has a usable way to the anchor asked for, no policies on its usable ways are in conflict, and there is metadata of the kind asked for: with what the policies along a way to the anchor make of the metadata, and with a trust chain in which no statement is missing, from the configuration of the member up to the anchor (and the anchor's configuration, if that is wanted). The only exception is that one of the requests it makes at that moment fails; then the error is passed on.", "quantifier": "all federations, all networks in which any request may fail at any time, all forward clocks, all histories of questions and answers, all members, anchors and kinds of metadata", "why_tests_cant": "The chain in the answer is read from caches that other collections, stopped at any request, have filled, and entries leave the caches by being looked at when they are old; no set of test histories shows that an answered collection has put everything back.", "anchors": ["src/fedservice/entity/server/resolve.py: Resolve.process_request", "src/fedservice/entity/function/trust_chain_collector.py: TrustChainCollector.get_chain", "src/fedservice/entity_statement/cache.py: ESCache"]}
{"id": "C185", "title": "whatever failed before, a trust mark of a member of the federation is accepted as soon as nothing fails", "statement": "In a federation of entities that run this library, somebody who started with the right keys has checked trust marks, real and forged ones, and collected trust chains, in any order, while requests failed and time passed. A trust mark without delegation that a member has signed, that has the claims marks have to have and that does not expire meanwhile is then accepted, with its claims as they are, less than a day (less the collector's margin) after the start, if the issuer has a usable way up and no policies on such ways are in conflict, and, if the issuer is to be asked, if the policies leave its status endpoint alone and this says that the mark is active; for marks that an issuer with this library has issued and for its status endpoint that is so until the mark expires. The only exception is that one of the requests made at that moment fails; then the caller is told so.", "quantifier": "all federations, all networks in which any request may fail at any time, all forward clocks, all histories of checks and questions, all marks, all histories of the issuer", "why_tests_cant": "Forged marks and interrupted collections leave trust chains, configurations and keys behind; that these never make a good mark fail is about all histories, while a test starts with empty caches.", "anchors": ["src/fedservice/entity/__init__.py: FederationEntity.verify_trust_mark", "src/fedservice/entity/function/trust_mark_verifier.py: TrustMarkVerifier.__call__", "src/fedservice/entity/function/trust_chain_collector.py: TrustChainCollector"]}
{"id": "C186", "title": "whatever fails, an OP registers explicitly only subjects with a way up, and answers members as soon as nothing fails", "statement": "In a federation of entities that run this library, an OP that started with the right keys is asked for explicit registrations by anybody, with documents about members signed by anybody and saying anything, and clients come and trust chains are collected, in any order, while requests fail and time passes. Then every client in its database was there before, is what automatic registration stores for a member with a way up to somebody whose keys the OP had (C175), or is such a member, under its own name, with what a request about it said; and a request is answered only if its subject has such a way, with the end of such a way as trust anchor. A member that asks with an unexpired document that has what it publishes, for metadata the OP supports, is answered less than a day (less the collector's margin) after the start and stored with what it published; the only exception is that one of the requests made at that moment fails; then the caller is told so and all clients stay as they were.", "quantifier": "all federations, all networks in which any request may fail at any time, all forward clocks, all histories of explicit and automatic registrations and questions, all requests", "why_tests_cant": "Failed and forged requests leave configurations, statements, keys and half registrations behind; that none of them keeps a member out or lets anybody without a way up in is about all histories, while a test starts with an empty server.", "anchors": ["src/fedservice/appserver/oidc/registration.py: Registration.process_request", "src/fedservice/entity/function/__init__.py: get_verified_trust_chains", "src/fedservice/entity/function/trust_chain_collector.py: TrustChainCollector"]}
{"id": "C187", "title": "whatever fails and is forged, a relying party has its OP right, finds a way to register and has the answer it gets taken", "statement": "A relying party in a federation of entities that run this library starts with the identifier of its OP and the keys of those it trusts. It asks for the provider's metadata, begins logins, collects trust chains and is sent registration responses, real and forged, in any order, while requests fail and time passes. Then what it believes about the OP is what the OP publishes, adjusted along one of the OP's ways up; the keys it holds for the OP are those; it takes only responses made for it; and a login ends only with the OP it began with. Asking for the provider's metadata less than a day after the start gives it the OP's metadata and keys, and then, if the OP supports a type of registration that it can do, the way to register is found; the only exception is that one of the requests made at that moment fails, and then it is told so and knows what it knew. If it then asks the OP to be registered and none of the OP's requests fails meanwhile, the OP has it registered and answers; and if none of its own requests fails while it reads the answer, it takes it, until it expires.", "quantifier": "all federations, all networks of the relying party and of the OP in which any request may fail at any time, all forward clocks, all histories on both sides, all forged responses", "why_tests_cant": "Two parties with separate caches, key jars and clocks have to end up with one registration; whether something left by an earlier failure or forgery on one side prevents it depends on the whole history of both sides.", "anchors": ["src/fedservice/appclient/stand_alone_client_entity.py: do_provider_info", "src/fedservice/appclient/stand_alone_client_entity.py: finalize_auth", "src/fedservice/appclient/oidc/registration.py: parse_federation_registration_response", "src/fedservice/appserver/oidc/registration.py: Registration.process_request"]}
{"id": "C188", "title": "a trust mark issuer's two endpoints agree, and its listings have exactly the subjects that received a mark", "statement": "Asked about a subject and a trust mark id, the list endpoint of a trust mark issuer names the subject exactly if the status endpoint says that the mark is active, says not found exactly if that does, and raises what that raises. After any history of issues and restarts, the listing of a file store for one subject has that subject, once, if it received a mark with the id, and is empty otherwise. After any history of issues, the listing of a store in memory for an id has the one subject that received a mark with it, with that mark, and nothing if there is none; asked for one subject it says whether it is that one, and raises KeyError if no mark with the id was issued.", "quantifier": "all issuers, all file configurations with a file for every id, all histories of issues and restarts, all ids, subjects and times", "why_tests_cant": "Two endpoints read the same store by different paths and two kinds of store answer differently; that their answers agree after every history is not settled by trying a few.", "anchors": ["src/fedservice/trust_mark_entity/server/trust_mark_list.py: TrustMarkList.process_request", "src/fedservice/trust_mark_entity/server/trust_mark_status.py: TrustMarkStatus.process_request", "src/fedservice/trust_mark_entity/__init__.py: FileDB.list", "src/fedservice/trust_mark_entity/__init__.py: SimpleDB.list"]}
{"id": "C189", "title": "explicit registration with OAuth 2 works between members that run this library", "statement": "In a federation whose entities run this library, an authorization server answers a member that sends its entity configuration, has an OAuth 2 client as its only protocol role and a path up to an anchor whose keys the server knows, with the constraints on it met. The answer is from the server about the member, signed with the server's key, names the anchor at the end of such a path, and has the name of a newly registered client and no redirect URIs, keys or application type; the client is registered with what the policies along the path leave of its metadata, as far as the server supports it. A client with exactly one such path takes the answer before it expires if it trusts the anchor and the server is below it, and ends up with what the policies along its path leave of the metadata in the answer; a client with two such paths refuses it with SystemError, whatever is in it.", "quantifier": "all federations of entities that run this library, all hierarchies, policies and constraints, all caches and key jars with right keys, all iteration orders", "why_tests_cant": "The two sides collect chains in different ways and apply policies at different moments; that they meet for every federation is not settled by one test federation.", "anchors": ["src/fedservice/appserver/oauth2/registration.py: Registration.process_request", "src/fedservice/appclient/oauth2/registration.py: Registration.parse_federation_registration_response", "src/fedservice/entity/function/__init__.py: collect_trust_chains"]}
{"id": "C190", "title": "explicit registration with OAuth 2 while requests fail and time passes", "statement": "In a federation whose entities run this library, an authorization server whose requests fail at times, with any sequence of lookups, automatic registrations and requests for explicit registration behind it, answers a member that sends its entity configuration, made at whatever time and not expired, and registers it under a new name with what the policies along a path up to an anchor leave of its metadata; unless a request the server makes for it now fails, then the caller gets an error about that and the clients are as they were. Every client in the database was there before, came in by automatic registration as it should (C175), or has what the policies make of the metadata of a member with a path up that asked for it.", "quantifier": "all federations of entities that run this library, all hierarchies, policies and constraints, all sequences of calls, all patterns of failures, all clocks, less than a day after the beginning; requests with the configuration of a member, or not signed with a key in them", "why_tests_cant": "Caches, failures and the passing of time interact; a test exercises a few interleavings.", "anchors": ["src/fedservice/appserver/oauth2/registration.py: Registration.process_request", "src/fedservice/entity/function/__init__.py: collect_trust_chains", "src/fedservice/entity/function/trust_chain_collector.py: TrustChainCollector.collect_tree"]}
{"id": "C191", "title": "who is answered is who a trust chain was found for", "statement": "If a request for explicit registration is answered, the entity that the answer is about is the one that a trust chain was found for.", "quantifier": "all requests, whoever signed them, all states of the server, all answers of the network", "why_tests_cant": "Tests send requests whose issuer is their subject; what happens with others is not tried.", "anchors": ["src/fedservice/appserver/oauth2/registration.py: Registration.process_request", "src/fedservice/appserver/oidc/registration.py: Registration.process_request", "src/fedservice/entity/function/__init__.py: verify_self_signed_signature"]}
{"id": "C192", "title": "forged requests for registration do no harm to others", "statement": "In a federation whose entities run this library, anybody may send an authorization server requests for explicit registration with OAuth 2 that name a member as subject and as authority hints its superiors, superiors of others that have not registered it, or nobody that exists, with any issuer, signature, keys, metadata, constraints and policies, in any number and mixed with other use of the server, while its requests fail at times: the keys of the trust anchors stay what they were, the keys that are held for a member include its own, the stored trust chains are those of the federation, and a member that asks afterwards is answered and registered with what the policies leave of its metadata, unless a request of the server fails, of which the caller is told. Every client in the database was there before, came in by automatic registration as it should, or has what the policies above the member that is named leave of the metadata in a request that the constraints permit.", "quantifier": "all federations of entities that run this library, all hierarchies, policies and constraints, all sequences of calls and requests about members, all patterns of failures, all clocks, less than a day after the beginning for the answer", "why_tests_cant": "A test forges a few requests; that none of them, in whatever number and order, can get in the way of others takes an invariant.", "anchors": ["src/fedservice/appserver/oauth2/registration.py: Registration.process_request", "src/fedservice/entity/function/verifier.py: TrustChainVerifier.verify_trust_chain", "src/fedservice/entity/function/trust_chain_collector.py: TrustChainCollector.collect_tree"]}
{"id": "C193", "title": "only keys a superior has registered are held for a member", "statement": "After a request for explicit registration with OAuth 2 that names a member as subject, the keys that are held for members in the key jar were held before or are registered with one of the superiors of the member.", "quantifier": "all federations of entities that run this library, all requests about a member, whoever signed them, after all sequences of calls", "why_tests_cant": "The effect of a request on the key jar shows only in what is accepted later; tests look at the answer.", "anchors": ["src/fedservice/entity/function/verifier.py: TrustChainVerifier.verify_trust_chain", "src/fedservice/appserver/oauth2/registration.py: Registration.process_request"]}
{"id": "C194", "title": "where the keys that an authorization server holds for members come from", "statement": "In a federation whose entities run this library, whatever an authorization server is asked about members, by members or by forgers, in any number and order and while its requests fail at times: a key that it holds for a member was held from the beginning, is registered with a superior of the member, is published by the member, or was in a request for the registration of this member that was signed with one of the keys in it; for names that no member has, it holds what it held. If the requests were made by members, every key it holds for a member was held from the beginning or is one of those that the member and its superiors publish.", "quantifier": "all federations of entities that run this library, all sequences of calls and requests about members, all patterns of failures, all clocks", "why_tests_cant": "Keys pile up in one key jar over all uses of the server; a test sees the key jar after a few of them.", "anchors": ["src/fedservice/entity/function/verifier.py: TrustChainVerifier.verify_trust_chain", "src/fedservice/appserver/oauth2/registration.py: Registration.process_request", "src/fedservice/entity/function/trust_chain_collector.py: TrustChainCollector.__call__"]}
{"id": "C195", "title": "who has signed a request for registration that is answered", "statement": "In a federation whose entities run this library, whatever an authorization server has been asked about members before: if it answers a request for explicit registration with OAuth 2 that names a member as subject, the request is signed with a key of the one who is answered: one held for them from the beginning, or, if they are a member, one that a superior has registered, that the member publishes, or that came in an earlier request for the registration of that member. If all earlier requests were made by members, nobody gets an answer in the name of a member without a key of that member.", "quantifier": "all federations of entities that run this library, all sequences of calls and requests about members, all patterns of failures, all requests that name a member, whoever signed them", "why_tests_cant": "Which keys are trusted depends on everything that was asked before; a test checks single forged requests against a fresh server.", "anchors": ["src/fedservice/appserver/oauth2/registration.py: Registration.process_request", "src/fedservice/entity/function/verifier.py: TrustChainVerifier.verify_trust_chain", "src/fedservice/entity/function/__init__.py: verify_trust_chains"]}
{"id": "C196", "title": "explicit registration with OAuth 2 relies on a trust anchor", "statement": "If an authorization server answers a request for explicit registration with OAuth 2 that a member of its federation made for itself and signed with its own key, the trust anchor it relies on is one whose keys it held from the beginning, at the end of a way up from the member, and the metadata that is registered is what the policies along that way leave of the metadata in the request, the constraints along it permitting.", "quantifier": "all federations of entities that run this library, all sequences of calls by members before, all patterns of failures, all requests that a member can make", "why_tests_cant": "Tests send requests that name the right superiors, to a server that has not met the client before.", "anchors": ["src/fedservice/appserver/oauth2/registration.py: Registration.process_request", "src/fedservice/entity/function/trust_chain_collector.py: TrustChainCollector._get_entity_statement", "src/fedservice/entity/function/__init__.py: tree2chains", "src/fedservice/entity/function/policy.py: TrustChainPolicy.__call__"]}
{"id": "C197", "title": "requests for registration do not change the keys of trust anchors", "statement": "Whatever is sent to an authorization server as a request for explicit registration with OAuth 2, the keys it holds for those members of its federation that have no superiors stay what they were.", "quantifier": "all federations of entities that run this library, all sequences of calls by members before, all patterns of failures, all requests", "why_tests_cant": "The effect shows in the key jar, and only if the request is about a trust anchor; tests look at the answer to requests about clients.", "anchors": ["src/fedservice/entity/function/verifier.py: TrustChainVerifier.verify_trust_chain", "src/fedservice/entity/function/__init__.py: tree2chains", "src/fedservice/appserver/oauth2/registration.py: Registration.process_request"]}
{"id": "C198", "title": "automatic registration keeps the keys of clients apart", "statement": "However often members of a federation come to a server for automatic registration, whatever requests fail in between and however time passes: a public key the server holds under the name of a client was there before or is in what the policies along a usable way up leave of the metadata of that very member; under an identifier made for a client there are only keys out of such metadata of some member; a secret held under a name is the one generated for it. A member that is let in because it was registered just now can be recognised by each key in its metadata if these have a jwks claim and neither signed_jwks_uri nor jwks_uri, under its own name and under the identifier it was given.", "quantifier": "all federations of entities that run this library, all sequences of lookups and attempts by members, all three endpoints, all patterns of failures and clocks that do not run backwards", "why_tests_cant": "Tests register one client once while all requests succeed; whether keys of different clients mix needs all sequences.", "anchors": ["src/fedservice/appserver/oidc/authorization.py: Authorization.do_automatic_registration", "src/fedservice/appserver/oauth2/authorization.py: Authorization.do_automatic_registration", "src/fedservice/appserver/oauth2/pushed_authorization.py: PushedAuthorization.do_automatic_registration", "src/fedservice/entity/utils.py: get_keys", "src/fedservice/appserver/oidc/registration.py: Registration.process_request"]}
{"id": "C199", "title": "trust chains that clients bring with them", "statement": "A member of a federation that sends its own trust chain with an authorization request, its entity configuration and the statements along one of its ways up as they were handed out at some time, is registered with what the policies along that way leave of its metadata, without a single request being made, whatever failed or happened before; it is turned away if the server does not know the keys of the trust anchor or the constraints along the way are not met, or if a statement in the chain has expired. Nobody is ever given keys that are not in their own metadata.", "quantifier": "all federations of entities that run this library, all sequences of lookups and attempts with and without trust chains before, all ways up, all times the statements were made, all three endpoints", "why_tests_cant": "Tests use fresh chains in a federation in which everything can be reached, so neither the absence of requests nor the lack of a check of exp shows.", "anchors": ["src/fedservice/appserver/oidc/authorization.py: Authorization.do_automatic_registration", "src/fedservice/appserver/oauth2/authorization.py: Authorization.do_automatic_registration", "src/fedservice/appserver/oauth2/pushed_authorization.py: PushedAuthorization.do_automatic_registration", "src/fedservice/entity/function/__init__.py: verify_trust_chains", "src/fedservice/entity/function/verifier.py: TrustChainVerifier.__call__"]}
{"id": "C200", "title": "a trust mark issuer lists whom it finds", "statement": "TrustMarkEntity.list for a trust mark id has each subject that received a mark with the id once, the one that received it last first; a subject is in it exactly if list, asked for that subject, has just that subject, which is the case exactly if one of the marks it received has not expired. With a store in memory list gives the dictionary of the one mark with the id, or None if there is none, and asked for a subject it says whether it is that one, or raises KeyError.", "quantifier": "all issuers, all file configurations with a file for every id, all histories of issues and restarts, all times", "why_tests_cant": "That a mark has expired shows only when it is looked for after its time, with marks of others before and after it in the file.", "anchors": ["src/fedservice/trust_mark_entity/entity.py: TrustMarkEntity.list", "src/fedservice/trust_mark_entity/__init__.py: FileDB.list", "src/fedservice/trust_mark_entity/__init__.py: SimpleDB.list"]}
{"id": "C201", "title": "the answer to a registration request is a client information response", "statement": "What step2_process_request of the server's registration endpoint answers to a request that leaves the secret to the server is accepted by verify of OauthClientInformationResponse, the class of the endpoint's answers: it has the client's id, and if it has a secret it is the one made for that client and the answer says when it expires, which is client_secret_expires_in seconds from now.", "quantifier": "all requests, all configurations of the endpoint, with new or given ids, with or without secrets, all states of the server", "why_tests_cant": "Whether the time of expiry is there depends on the configuration of the endpoint, and what the receiver makes of its absence is code of another side.", "anchors": ["src/fedservice/message.py: OauthClientInformationResponse.verify", "src/fedservice/appserver/oauth2/registration.py: Registration.step2_process_request", "src/fedservice/appserver/oauth2/registration.py: Registration.add_client_secret", "src/fedservice/appserver/oauth2/registration.py: Registration.client_secret_expiration_time"]}
{"id": "C202", "title": "a login is finished with the provider it was started with, and says what the ID token says", "statement": "finalize succeeds without an error only if the issuer stored when the login was started is the issuer in the provider info, or the client's issuer if the provider info has none; an answer to a login with another provider raises ValueError and nothing is stored. A client without a userinfo endpoint returns as user information exactly the claims of the ID token that are user claims or that are not ID token claims. Afterwards the session is found by the subject of the ID token and, if the provider info says that back channel logout, or if it does not say anything about that, front channel logout needs session ids, by the session id; what other sessions are found by is what it was.", "quantifier": "all clients, all providers and what they answer, all states of the client, all response types", "why_tests_cant": "Which of two providers a login belongs to and which of the two kinds of logout is announced are combinations over sessions that a test of one login does not have.", "anchors": ["src/fedservice/appclient/stand_alone_client_entity.py: StandAloneClientEntity.finalize", "src/fedservice/appclient/stand_alone_client_entity.py: StandAloneClientEntity.finalize_auth", "src/fedservice/appclient/stand_alone_client_entity.py: StandAloneClientEntity.userinfo_in_id_token"]}
{"id": "C203", "title": "a trust chain says which policy was applied", "statement": "After TrustChainPolicy has been called on a verified chain without an entity type, combined_policy and metadata of the chain have exactly the types that the entity publishes metadata for: the one what gather_policies makes of the statements above the entity, the other what apply_policy makes of the published metadata and that policy. A call for one type changes nothing for other types, and if the entity has no metadata of that type no policy is recorded and the metadata is None. After any calls, failed ones included, a chain with metadata for a type has the policy gathered for it.", "quantifier": "all chains, all policies, all orders of sets, all sequences of calls", "why_tests_cant": "The metadata of the entity is changed in place while policies of several types are applied one after the other, and calls may fail between writing the one and the other.", "anchors": ["src/fedservice/entity/function/policy.py: TrustChainPolicy.__call__", "src/fedservice/entity/function/policy.py: TrustChainPolicy._policy", "src/fedservice/entity_statement/statement.py: TrustChain"]}
