# Formal model of rohe/fedservice in Rocq (Coq 8.16.1)

The code is a Python implementation of OpenID Federation. Everything below is about a
hand-written Gallina model of the source in `/repo/src/fedservice`; nothing is extracted from or
executed against the Python code. Each definition in a `*Model.v` file cites the file and lines it
mirrors; simplifications are stated in the same comment or in the header of the file.

## Trusted base

* Coq's kernel (8.16.1), no kernel check switched off, no plugin beyond those of the standard
  library.
* **Axioms: none.** Every theorem named in `MANIFEST.json` is followed by `Print Assumptions` in its
  file; the answer is "Closed under the global context" for each of them. `coqchk -o` lists seven
  constants of the standard library's `Coq.ssr.ssrunder` (`Under_rel.Under_rel`, `Under_rel_from_rel`,
  `Under_relE`, `over_rel`, `over_rel_done`, `under_rel_done`, `Over_rel`), which come with a
  loaded library file and are used by no theorem here.
* The model: that the definitions in `*Model.v` say what the Python code does. This was checked by
  reading only. What was left out is listed under "Not modelled".
* The assumptions about libraries under "Modelling conventions". Facts about libraries that a theorem needs
  are hypotheses of that theorem (for instance `keeps_id`, `fresh_ids`); they are never axioms.

## Layout (`rocq/theories`)

In each area: `*Model.v` (definitions only), `*Spec.v` (vocabulary of the statements, independent of the
model's helpers), `*Facts.v` (lemmas), `*Props.v` (the theorems, `Print Assumptions`, and beside each
theorem an `Example` that meets its hypotheses).

| file | models | properties |
| --- | --- | --- |
| `Py.v`, `PyFacts.v`, `StateM.v` | Python values, exceptions, dictionaries, sets; state with exceptions | |
| `Stmt.v` | schema of entity statements (`message.py`) | |
| `Policy*.v` | `entity/function/policy.py`, `policy_operator.py` | C01-C16 |
| `Constraints*.v` | `entity_statement/constraints.py` | C17-C22 |
| `Verifier*.v` | `entity/function/verifier.py`, `TrustChain` of `entity_statement/statement.py` | C23-C30 |
| `Tree*.v` | `tree2chains` of `entity/function/__init__.py` | C31 |
| `Collector*.v` | `entity/function/trust_chain_collector.py` | C32-C36, C60 |
| `Cache*.v` | `entity_statement/cache.py` | C37 |
| `Federation*.v`, `Chains*.v` | `entity/function/__init__.py`, chain stores and selection in `fedservice/__init__.py`, `statement.py`, `entity/__init__.py` | C38-C43, C61-C63 |
| `TrustMarkModel.v` | `trust_mark_entity/__init__.py`, `entity.py`, `server/` | C44-C48, C64 |
| `TrustMarkVerifier*.v` | `entity/function/trust_mark_verifier.py`, `verify_trust_mark`, `client/trust_mark_status.py` | C49, C65, C66 |
| `Fetch*.v` | `entity/server/fetch.py`, `entity_statement/create.py` | C50, C51, C67-C70 |
| `List*.v` | `entity/server/list.py` | C52, C71 |
| `Message*.v` | critical extensions in `message.py` | C53, C72 |
| `Config*.v` | configuration files in `utils.py` | C58 |
| `Registration*.v` | `appserver/oauth2/registration.py`, key import | C55-C57, C73-C76 |
| `Client*.v` | automatic registration (`appserver/oidc/authorization.py`, `oauth2/authorization.py`, `oauth2/pushed_authorization.py`), explicit registration (`oidc/registration.py`, `oauth2/registration.py`) | C54, C77-C83 |
| `Resolve*.v` | the resolve endpoint (`entity/server/resolve.py`), trust anchor statements (`function/trust_anchor.py`), endpoints of other entities (`entity/__init__.py` 285-302, `function/__init__.py` 164-176) | C84-C91 |
| `WellRun*.v` | federations in which everybody publishes what they should: routes, and the composition of collector, verifier and policy from the models above | C92 |
| `RegistrationUriProps.v` | the URIs of a client (`appserver/oauth2/registration.py`) | C108 |
| `RegistrationGrantProps.v` | requests that are granted (`appserver/oauth2/registration.py`) | C141 |
| `Rp*.v` | the relying party: registration responses (`appclient/oidc/registration.py`, `appclient/oauth2/registration.py`), provider metadata and the choice of registration (`appclient/stand_alone_client_entity.py` 52-196), the issuer check of `init_authorization`/`finalize_auth`, automatic registration (`appclient/oidc/authorization.py`, `appclient/oauth2/authorization.py`) | C93-C107, C109 |
| `Trawl*.v`, `Who*.v` | the search for entities of a type (`entity/__init__.py` 316-359), the client of the list endpoint and requests for statements through the client (`entity/client/`), the who endpoint (`entity/server/who.py`) | C110-C117 |
| `Publish*.v` | the entity configuration endpoint (`entity/server/entity_configuration.py`), what it takes from the context (`entity/context.py`), metadata of entities with several parts (`combo/__init__.py`), reading of statements (`message.py`), federations of entities that run these endpoints | C118-C122 |
| `Build*.v` | building entities (`build_entity.py`, `defaults.py`, `build_entity_config` and `make_federation_entity` of `utils.py`), trust anchors of several entities in one process | C123-C128 |
| `Http*.v` | HTTP responses as the clients treat them (`get_response`, `service_request`, `parse_request_response` of `ClientEntity` and `FederationClient`) | C129, C130 |
| `Session*.v` | logins of an RP (`stand_alone_client_entity.py`: authorization requests, responses, tokens, user information, sessions) | C131-C138 |
| `Live*.v` | compositions: federations of entities that run this library, seen from trust marks, resolvers and providers | C121, C139-C143 |
| `Files*.v` | entity statements kept in files and their publication (`fetch_entity_statement/`) | C144, C145 |
| `Attack*.v` | federations under attack: an attacker answers every request as it likes, without the keys of members | C146-C149 |
| `Url*.v` | the URLs the client makes (`entity/client/*.py`: queries, well-known URLs), urllib's quoting and parsing, what a server sees of them | C150-C151 |
| `Units*.v` | how the parts of an entity find each other: the federation entity (`entity/utils.py` 20-36), attributes and key jars (`combo/__init__.py`, `entity/__init__.py` 116-131, `entity/client/__init__.py` 175-180, `entity/server/__init__.py` 95-100) | C152 |
| `Response*.v` | the trust anchor named in authorization responses (`extra_response_args` of the three endpoints) | C153 |
| `Endpoints*.v` | endpoints and claims in the metadata of an entity (`entity/__init__.py` 156-176 and 254-266, `entity/claims.py` 91-107, `trust_mark_entity/entity.py` 131-142, `combo/__init__.py` 110-119), the trust mark client's search for the endpoint (`entity/client/trust_mark.py`) | C154-C155 |
| `Context*.v` | how contexts are made and what becomes of their configuration (`entity/context.py`, the constructors in `entity/__init__.py`, `entity/client/__init__.py`, `entity/server/__init__.py`, `utils.py` 256-266) | C157-C158 |
| `RequestProps.v` | the statements a relying party sends to be registered (`appclient/*/registration.py` create_entity_statement) | C156 |
| `Guise*.v` | client and server parts of an entity (`appclient/__init__.py`, `appserver/__init__.py`, `combo/__init__.py`, `defaults.py` 17-46) | C159-C160 |
| `StatementProps.v` | statements made through a context (`entity/context.py` create_entity_statement) | C161 |
| `LiveLoginProps.v` | a relying party and an OP of a federation of entities that run the library | C162 |
| `ScriptModel.v`, `ScriptProps.v` | the commands get_info, add_info, command.sh and tree | C163 |
| `SetupProps.v` | federations that are set up with the commands | C164 |
| `TreeScriptProps.v` | looking at a federation with tree | C165 |
| `ListSetupProps.v` | the list endpoint after set-up | C166 |
| `ViewModel.v`, `ViewProps.v` | the web pages of the applications: service_endpoint, do_response, entity configurations | C167 |
| `HintFacts.v`, `WebFacts.v`, `WebProps.v`, `TextKit.v` | networks that differ in the superiors named in statements; the federation behind its pages | C168 |
| `RevokeSpec.v`, `RevokeFacts.v`, `RevokeProps.v` | collections one after the other while the federation changes | C169, C170 |
| `StaleSpec.v`, `StaleFacts.v`, `StaleProps.v` | the same histories, compared with those of a newcomer | C171 |
| `MotionSpec.v`, `MotionFacts.v`, `MotionLive.v`, `MotionProps.v` | the same histories in federations of entities that run this library | C172 |
| `OutageProps.v`, `NeverWrongProps.v` | the same when requests fail | C173, C174 |
| `ClientsRightProps.v` | automatic registration while requests fail and time passes | C175 |
| `ResolverRightProps.v` | resolvers while requests fail and time passes | C176 |
| `MarksRightProps.v` | trust marks while requests fail and time passes | C177 |
| `RpRightProps.v` | relying parties while requests fail and time passes | C178 |
| `AnswersRightProps.v` | registration responses, some forged, while requests fail and time passes | C179 |
| `AgreementProps.v` | client and OP about a registration, while requests fail and time passes | C180 |
| `GetInProps.v` | clients get in when requests do not fail any more | C181 |
| `KnowsOpProps.v` | relying parties get to know their OP when requests do not fail any more | C182 |
| `TakenProps.v` | registration responses are taken when requests do not fail any more | C183 |
| `ResolvesProps.v` | resolvers answer when requests do not fail any more | C184 |
| `MarksTakenProps.v` | trust marks are accepted when requests do not fail any more | C185 |
| `ExplicitProps.v` | explicit registrations at an OP whose requests fail while time passes | C186 |
| `RelyingProps.v` | relying party and OP from discovery to the registration response, with failures and forgeries | C187 |
| `ListingProps.v` | what a trust mark issuer lists, and its two endpoints | C188 |
| `OauthModel.v` | appserver/oauth2/registration.py: the answer of an authorization server | C189 |
| `OauthProps.v` | explicit registration with OAuth 2 between members that run this library | C189 |
| `OauthOutageProps.v` | explicit registration with OAuth 2 while requests fail and time passes | C190 |
| `OwnNameProps.v` | who is answered when a client is registered explicitly | C191 |
| `ForgedProps.v` | forged requests for explicit registration with OAuth 2 | C192 |
| `PoisonProps.v` | whose keys are held for a member afterwards | C193 |
| `KeysGrowProps.v` | where the keys held for members come from | C194 |
| `AuthenticProps.v` | who has signed a request that is answered | C195 |
| `AnchorProps.v` | which trust anchor an answer relies on | C196 |
| `AnchorKeysProps.v` | requests and the keys of trust anchors | C197 |
| `ClientKeysProps.v` | the keys held for clients | C198 |
| `BroughtProps.v` | trust chains that clients bring | C199 |
| `MarkListModel.v`, `MarkListProps.v` | the lists of a trust mark entity | C200 |
| `InfoResponseModel.v`, `InfoResponseProps.v` | what the answers to registration requests have to be | C201 |
| `LoginEndProps.v` | what a finished login leaves and says | C202 |
| `CombinedModel.v`, `CombinedProps.v` | `combined_policy` of trust chains | C203 |
| `DelegatedProps.v` | trust marks with delegations, over a network that fails | C185 |

## Modelling conventions

* A Python value read from JSON is a `val`: null, bool, int, str, list, dict (association list).
  Floats and non-ASCII strings are not modelled. `==` follows Python (`True == 1`, dictionaries compare
  without order).
* A function that may raise returns `res A := Ok a | Err e`; with state, `M S A := S -> S * res A`, where the
  state survives an exception.
* `list(set)` has an order that depends on the hash seed. The model takes an `iter_order`, an
  arbitrary permutation for each call; theorems quantify over it.
* Statements are records whose fields have the JSON type the schema in `message.py` demands;
  ill-typed documents (which make the code raise TypeError or AttributeError somewhere) are not
  modelled except where the code explicitly distinguishes types. `iss` and `sub` are always present.
* Signatures are symbolic: a token is a payload plus the key that signed it; `verify_compact(keys)`
  succeeds iff the signing key is among `keys`. Which keys of an issuer are candidates (kid, alg,
  use), and whether a library call raises when an issuer has no keys, are arbitrary (`keyjar_lib`).
  Candidates are chosen key by key; the rule of cryptojwt that a token without kid is only checked if its issuer has exactly
  one key is not expressible this way.
* `JWT.unpack` also looks at nbf, iat and exp (cryptojwt tolerates 15 seconds), `verify_compact` does not. Whether unpack is
  content with a payload at some time is arbitrary (`lib_valid`, `up_valid`, `li_valid`); theorems that something is accepted
  assume that unexpired payloads pass, theorems on expired documents assume a tolerance `g`.
* `Message.verify` of idpyoidc's JsonWebToken checks presence and types of claims, not times.
* The network is an arbitrary function of the number of requests made so far, so documents may change between
  any two requests; time is a function of the same number.
* Recursion depth is an explicit fuel whose exhaustion is the exception `RecursionError`, which is
  what Python does.
* `KeyJar.import_jwks` and `add_url` append keys; `JWT.pack` sets `iss`, `iat` and, with a lifetime, `exp`, and
  signs with a key of the entity itself.

## Not modelled

* Tokens with `alg` none or a symmetric algorithm; payloads without `iss` or `sub` in chains; encryption.
* HTTP, URL syntax: a fetch URL is injective in endpoint, issuer and subject; the two well-known URLs of an entity are
  arbitrary functions of it. `urlparse`, `split_uri`, `verify_url` are arbitrary functions.
* idpyoidc: request and response schemas (an arbitrary predicate), client authentication after registration, cookies,
  sessions, the OP and RP services themselves. idpyoidc's own registration (called by `non_fed_process_request`) is
  taken to do what `step2_process_request` does.
* Logging, `cdb.sync`, missing access rights, files whose lines are not JSON.
* In the tree of superiors an expiry time found under a clashing cache key is treated as a value that is not a JWS.
* The list endpoint gets configurations from an arbitrary function rather than from the collector model.
* Delegations of trust marks are pairs of signer and issuer; the subordinates' store is a dictionary in which aliasing is
  modelled where the code relies on it (C51).
* Configuration loading returns new dictionaries; the partial effect of an exception on the old ones is not
  modelled. The server's and the federation entity's key jars are separate.
* Requests through the client (`entity/client/`): what idpyoidc's `Message.verify` requires of a statement is an arbitrary
  function of the entity asked and the statement; whether a parsed statement keeps its signed form is a parameter
  (`l_keeps`). List endpoints answer with a list of strings, an error, a redirect or not at all.
* Building entities: what the classes of services, functions and endpoints do when they are instantiated, apart from the
  trust anchors of the collector; configuration values are immutable except dictionaries with trust anchors and the items
  themselves; `make_federation_combo` does the same as `make_federation_entity` here.
* HTTP: headers other than the content type, key jars and request bodies handed to parsers; the parsers of idpyoidc's services
  are arbitrary functions of format and text.
* Logins: idpyoidc's cstate is modelled from its use (`get_set`, `update`, `set`, `remove_state`; unknown sessions raise or give
  `{}`, both are covered).  The services of idpyoidc are arbitrary functions of the record of the session; that they file the
  authorization request under its state, stamp `__expires_at` and file token responses is assumed.  The table of nonces, subjects
  and session identifiers is written; that idpyoidc compares nonces with it is part of `l_check`, a function of the record.
* Statements in files: keys stand for pairs, so private and public parts are not told apart; `JWT.pack` signs with a key the key
  jar has for the issuer; files do not change while an object is in use; URLs are taken apart by arbitrary functions.
* Attacks: signatures cannot be made without the key (symbolic); the attacker does not act between two steps that the code takes
  without asking the network; no process shares the state.
* URLs: control characters, brackets in hosts and NFKC checks of urllib; `Message.request` of idpyoidc is modelled from its use.
  In the collector, fetch requests are endpoint, issuer and subject (C150 shows that their URLs tell these apart); the two
  well-known URLs are arbitrary functions there, and those of the client in C151.
* Units: `get_attribute` of idpyoidc's classes is taken to be like that of FederationEntity.
* Commands: `make_federation_entity` gives an entity with empty caches; the files that add_info writes are dictionaries; shell
  redirection and JSON between get_info and add_info lose nothing; services are up when they are asked.
* Web pages: what flask does (routes, methods, 404, 405, 500), idpyoidc's `parse_request` and `do_response` of endpoints
  (arbitrary functions that do not change the entity), cookies, pages for people, and bodies that are not forms.

## How the properties are stated and proved

Each property is stated over all inputs, states and, where it concerns histories, all sequences of calls. If the statement
in `properties.jsonl` is false of the code, the file has the full statement as `Definition Cnn_full`, a theorem
`Cnn_..._refuted : ~ Cnn_full` with a concrete witness, and one or more `_partial` theorems with the strongest statement we
found to hold; the comment above each says what is missing. Such a property has status `partial` in
`MANIFEST.json`. Main techniques:

* policies: induction over the chain, with an invariant for each operator; algebraic laws of merging;
* constraints: induction over the chain and over strings;
* verification: the key jar is threaded through the loop; provenance of keys is an inductive predicate
  (`traceable`), histories by induction over the list of calls;
* collection: Hoare-style triples (`tri`) over an arbitrary network with caches as state, giving an inductive
  description (`grown`) of the tree; termination from a rank on hints;
* stores and caches: refinement of operation sequences to a set or timed map;
* registration: an inductive description of all the ways a registration can end (`reg_end`, `auto_end`), from which the
  theorems about entries, keys and other clients follow.

## Properties one by one

* **C01 subset_of of any superior binds the resolved metadata** (partial). Code: entity/function/policy.py: combine_claim_policy, TrustChainPolicy.gather_policies, apply_policy, _policy; entity/function/policy_operator.py: SubsetOf. Refuted in full: a value operator at another level overrides subset_of. Partial: holds for claims supplied as lists when value operators stay inside S. Theorems: `C01_subset_of_refuted`, `C01_subset_of_partial`.
* **C02 one_of of any superior binds the resolved metadata** (partial). Code: entity/function/policy.py: combine_one_of, gather_policies; entity/function/policy_operator.py: OneOf. Refuted in full: one_of is skipped for list-valued claims. Partial: holds for scalar claims when value operators stay inside S. Theorems: `C02_one_of_refuted`, `C02_one_of_partial`.
* **C03 superset_of of any superior binds the resolved metadata** (partial). Code: entity/function/policy.py: combine_superset_of; entity/function/policy_operator.py: SupersetOf. Refuted in full: superset_of policies of two levels are intersected. Partial: elements required at every level that has superset_of are present. Theorems: `C03_superset_of_refuted`, `C03_superset_of_partial`.
* **C04 essential claims are present after resolution** (proved). Code: entity/function/policy.py: do_essential, combine_claim_policy; entity/function/policy_operator.py: Essential. Proved for boolean essential operands (the JSON type of essential). Theorems: `C04_essential_present`.
* **C05 value fixed by any superior is the resolved value** (proved). Code: entity/function/policy.py: do_value, combine_claim_policy; entity/function/policy_operator.py: Value. Proved; equality is Python ==. Theorems: `C05_value_is_resolved`.
* **C06 default only fills in absent claims and a claim with a default ends up present** (proved). Code: entity/function/policy.py: do_default; entity/function/policy_operator.py: Default. Proved in four parts: keeps supplied values, operand irrelevant for a present claim, fills absent claims, different defaults rejected. Theorems: `C06_default_keeps_supplied`, `C06_default_operand_irrelevant`, `C06_default_fills`, `C06_different_defaults_rejected`.
* **C07 added values reach the resolved metadata** (partial). Code: entity/function/policy.py: combine_add; entity/function/policy_operator.py: Add. Refuted in full: a subset_of policy on the same claim can remove the added value. Partial otherwise. Theorems: `C07_add_refuted`, `C07_add_partial`.
* **C08 policies touch only the claims they name** (proved). Code: entity/function/policy.py: apply_metadata_policy, apply_policy. Proved. Theorems: `C08_untouched_claim`, `C08_claims_independent`.
* **C09 metadata stated by a superior prevails over the leaf's own** (partial). Code: entity/function/policy.py: apply_policy, combine_metadata. Refuted: the leaf's own value wins over metadata in superior statements. Partial: superior metadata used when the leaf is silent. Theorems: `C09_superior_metadata_refuted`, `C09_superior_metadata_partial`.
* **C10 contradicting superior metadata is rejected** (proved). Code: entity/function/policy.py: combine_metadata, gather_policies. Proved: resolution fails. Theorems: `C10_superior_metadata_agree`.
* **C11 a statement may not both fix and police a claim** (partial). Code: entity/function/policy.py: gather_policies. Refuted for the topmost statement, which is not checked. Partial: every other statement is. Theorems: `C11_overlap_refuted`, `C11_overlap_partial`.
* **C12 combining a subordinate policy never loosens the superior's** (partial). Code: entity/function/policy.py: combine_claim_policy. Refuted for superset_of (intersection). Partial: all other operators, and superset_of when only the superior has one. Theorems: `C12_combine_refuted`, `C12_combine_strict_partial`, `C12_value_kept`, `C12_default_kept`, `C12_add_kept`.
* **C13 applying the policy twice gives the same metadata** (partial). Code: entity/function/policy.py: apply_metadata_policy, apply_policy, __call__; entity/function/policy_operator.py: all operators. Refuted for add with a scalar operand. Partial: flat-list add operands, subset_of on list claims. Theorems: `C13_twice_refuted`, `C13_twice_partial`.
* **C14 policy combination does not depend on set iteration order** (proved). Code: entity/function/policy.py: combine_claim_policy. Proved for whole chains, not only for pairs of claim policies. Theorems: `C14_order_independent`.
* **C15 diff2policy reproduces the new metadata** (proved). Code: entity/function/policy.py: diff2policy, apply_metadata_policy. Proved. Theorems: `C15_diff2policy`.
* **C16 entity types are resolved independently** (proved). Code: entity/function/policy.py: TrustChainPolicy.__call__, _policy. Proved. Theorems: `C16_resolved_types`, `C16_types_independent`.
* **C17 more_specific is the domain-suffix preorder** (proved). Code: entity_statement/constraints.py: more_specific. Proved, with the host and domain forms and the error cases as separate theorems. Theorems: `C17_more_specific_is_name_space`, `C17_reflexive`, `C17_transitive`, `C17_errors`, `C17_host_form`, `C17_domain_form`.
* **C18 permitted naming constraint of the topmost superior binds the leaf** (proved). Code: entity_statement/constraints.py: update_specs, add_constraints, meets_restrictions, permitted. Proved. Theorems: `C18_topmost_permitted_binds_leaf`, `C18_narrowing_binds_leaf`, `C18_single_declaration_exact`.
* **C19 excluded naming constraint binds the leaf** (partial). Code: entity_statement/constraints.py: update_specs, excluded, meets_restrictions. Refuted: a lower statement that excludes something more specific lifts the exclusion above it. Partial: exclusions not narrowed below and not declared below another exclusion. Theorems: `C19_excluded_binds_leaf_refuted`, `C19_excluded_binds_leaf_partial`.
* **C20 max_path_length limits the chain length** (partial). Code: entity_statement/constraints.py: calculate_path_length, meets_restrictions. Refuted: a non-negative max_path_length never rejects a chain (proved as has_no_effect). Partial: negative values are rejected. Theorems: `C20_path_length_refuted`, `C20_path_length_partial`, `C20_path_length_has_no_effect`.
* **C21 every intermediate is subject to the naming constraints above it** (partial). Code: entity_statement/constraints.py: meets_restrictions. Refuted: an intermediate whose statement carries no constraints is not checked. Partial: intermediates with constraints, topmost lists. Theorems: `C21_intermediates_refuted`, `C21_intermediates_partial`.
* **C22 constraint evaluation is total** (partial). Code: entity_statement/constraints.py: add_constraints, remove_scheme, meets_restrictions. Refuted: KeyError when a statement leaves out a list a statement above gives. Partial: total when both lists are given. Theorems: `C22_total_refuted`, `C22_total_partial`, `C22_unconstrained_accepted`.
* **C23 only properly signed statements are accepted** (proved). Code: entity/function/verifier.py: verify_trust_chain, trusted_anchor. Proved, with an exact characterisation of the accepted chains. Theorems: `C23_only_properly_signed`, `C23_accepted_exactly`.
* **C24 every key in the key jar is traceable to the initial keys** (proved). Code: entity/function/verifier.py: verify_trust_chain. Proved. Theorems: `C24_keys_traceable`.
* **C25 verification never removes or replaces keys** (proved). Code: entity/function/verifier.py: verify_trust_chain. Proved for single calls and for histories of calls. Theorems: `C25_keys_stay`, `C25_keys_stay_over_histories`.
* **C26 accepted chains start at a configured trust anchor** (partial). Code: entity/function/verifier.py: trusted_anchor, verify_trust_chain. Refuted: after one chain through an intermediate has been verified, the intermediate is accepted as anchor. Partial: first call, and key traceability in every history. Theorems: `C26_first_issuer_configured_refuted`, `C26_first_issuer_configured_partial`.
* **C27 consecutive statements are linked** (partial). Code: entity/function/verifier.py: verify_trust_chain. Refuted: adjacent statements need not be linked. Partial: the issuer is an earlier subject or known before; exact for a single known anchor. Theorems: `C27_linked_refuted`, `C27_linked_partial`, `C27_single_anchor`.
* **C28 trust chain expiry is the earliest expiry** (partial). Code: entity/function/verifier.py: trust_chain_expires_at, __call__; entity_statement/statement.py: TrustChain.is_expired. Refuted for a negative exp (it is reset). Partial: non-negative exp values. Theorems: `C28_expiry_is_minimum_refuted`, `C28_expiry_is_minimum_partial`, `C28_expired_partial`.
* **C29 the trust chain object describes the verified chain** (proved). Code: entity/function/verifier.py: __call__. Proved in three parts. Theorems: `C29_trust_chain_describes_verified_chain`, `C29_trust_chain_exactly_when_verified`, `C29_none`.
* **C30 a rejected chain has no effect** (partial). Code: entity/function/verifier.py: verify_trust_chain. Refuted: keys of the statements before the offending one stay. Partial: no effect when the first statement fails; effect bounded otherwise. Theorems: `C30_rejected_without_effect_refuted`, `C30_rejected_without_effect_partial`, `C30_accepted_effect`.
* **C31 tree2chains lists exactly the root-to-leaf paths** (proved). Code: entity/function/__init__.py: tree2chains. Proved in four parts: soundness, completeness, order, orientation. Theorems: `C31_chains_are_paths`, `C31_one_chain_per_end`, `C31_order`, `C31_nearest_to_the_anchor_first`.
* **C32 trust chain collection terminates** (partial). Code: entity/function/trust_chain_collector.py: collect_tree, collect_branch. Refuted: two entities naming each other exhaust every recursion limit. Partial: terminates for every network if the followed hints decrease a rank. Theorems: `C32_terminates_refuted`, `C32_terminates_partial`.
* **C33 collected branches follow authority hints** (partial). Code: entity/function/trust_chain_collector.py: collect_tree, collect_branch. Refuted by cache key clashes of identifiers with '!'. Partial: identifiers without '!'. Theorems: `C33_branches_refuted`, `C33_branches_partial`.
* **C34 cached entity statements are used only while fresh and save network traffic** (proved). Code: entity/function/trust_chain_collector.py: _get_entity_statement. Proved for a single statement (use, refusal when stale, no request the second time) and for a whole second collection with an arbitrary network. Theorems: `C34_only_while_fresh`, `C34_second_time`, `C34_second_collection`.
* **C35 cache keys identify the pair (authority, entity)** (partial). Code: entity/function/trust_chain_collector.py: cache_key, time_key. Refuted with witnesses containing '!!'. Partial: authorities without '!'. Theorems: `C35_cache_keys_refuted`, `C35_cache_keys_partial`, `C35_own_entries`.
* **C36 expired entity configurations are not used** (partial). Code: entity/function/trust_chain_collector.py: too_old, __call__. Refuted: the configuration of the leaf is used for allowed_delta seconds after exp, and Messages are never checked. Partial: never later than exp + allowed_delta; authorities' configurations are dropped in time. Theorems: `C36_expired_configuration_refuted`, `C36_expired_configuration_partial`, `C36_authority_configuration`.
* **C37 the expiring cache behaves like a map with expiry** (partial). Code: entity_statement/cache.py: ESCache. Refuted: Message values never expire. Partial: refinement of a map with expiry for dicts over all histories; raw get; other values kept. Theorems: `C37_map_with_expiry_refuted`, `C37_map_with_expiry_partial`, `C37_raw_get`, `C37_non_dict_kept_forever`.
* **C38 one trust chain per anchor, the shortest** (proved). Code: entity_statement/statement.py: chains2dict. Proved. Theorems: `C38_shortest_per_anchor`, `C38_no_other_anchor`.
* **C39 saved trust chains can be retrieved** (partial). Code: __init__.py: save_trust_chains, get_trust_chain. Refuted: a list with chains of two entities is filed under one of them. Partial: lists about one entity each, over any history of saves. Theorems: `C39_saved_chains_retrievable_refuted`, `C39_saved_chains_retrievable_partial`, `C39_all_chains_of_entity`.
* **C40 pick_trust_chain respects the anchor priority** (proved). Code: entity/__init__.py: FederationEntity.pick_trust_chain. Proved. Theorems: `C40_by_priority`, `C40_otherwise_first`.
* **C41 picking from stored chains respects the anchor priority** (partial). Code: entity/__init__.py: pick_from_stored_trust_chains. Refuted: the loop returns the first stored chain whatever the priority. Partial: exactly what is returned. Theorems: `C41_stored_priority_refuted`, `C41_stored_priority_partial`.
* **C42 cached trust chains are not served after they expire** (partial). Code: entity/__init__.py: get_trust_chains, get_verified_metadata. Refuted: nothing looks at exp of a stored chain (C42_kept_for_ever). Partial: what is returned was the outcome of verification for that entity, in this or an earlier call. Theorems: `C42_not_after_expiry_refuted`, `C42_not_after_expiry_partial`, `C42_metadata_partial`, `C42_kept_for_ever`.
* **C43 exporting a trust chain is repeatable** (partial). Code: entity_statement/statement.py: TrustChain.export_chain. Refuted: export_chain reverses the stored list in place. Partial: calls alternate between the two orders, nothing else changes. Theorems: `C43_export_repeatable_refuted`, `C43_export_repeatable_partial`.
* **C44 an issued, unexpired trust mark is reported active (file store)** (partial). Code: trust_mark_entity/__init__.py: FileDB; trust_mark_entity/server/trust_mark_status.py: process_request. Refuted: an expired mark of another subject later in the file ends the search. Partial: what is active was issued and has not expired; the converse holds when no mark is issued with its own expiry time and the clock does not go back. Theorems: `C44_active_refuted`, `C44_active_was_issued`, `C44_active_partial`.
* **C45 the default trust mark store behaves like a map** (partial). Code: trust_mark_entity/__init__.py: SimpleDB. Refuted: SimpleDB.add for an id that has a mark raises AttributeError, so the second mark of an id is never recorded. Partial: lookups find exactly the marks whose issue succeeded; expiry is not looked at. Theorems: `C45_memory_store_refuted`, `C45_memory_store_partial`, `C45_one_mark_per_id`.
* **C46 trust mark listing is exactly the set of subjects** (proved). Code: trust_mark_entity/__init__.py: FileDB.list. File store with one file per id. Theorems: `C46_listing`.
* **C47 trust mark dump/load is a round trip** (proved). Code: trust_mark_entity/__init__.py: FileDB.dump, load. File store with one file per id; listings after loading twice for string subjects. Theorems: `C47_round_trip`, `C47_load_into_used_store`, `C47_listing_twice`.
* **C48 issued trust marks carry the right claims** (partial). Code: trust_mark_entity/entity.py: TrustMarkEntity.create_trust_mark. Refuted: issuing fails for the second mark of an id in the memory store. Partial: file store with a file for the id, or memory store without the id; further arguments take precedence over the specification and over exp, while iss and iat are always the issuer and the time of signing. Theorems: `C48_claims_refuted`, `C48_claims_partial`, `C48_unknown_id`, `C48_self_signed`.
* **C49 only valid trust marks verify** (partial). Code: entity/function/trust_mark_verifier.py: TrustMarkVerifier.__call__. Refuted in full: a delegation is not looked at when the trust anchor does not list the trust mark id. Partial: an accepted mark has not expired, its issuer has a verified chain to the anchor, its signer was vouched for by statements presented in the run or was held before. Delegations are checked if the anchor lists the id; valid marks are accepted. Theorems: `C49_valid_mark_refuted`, `C49_valid_mark_partial`, `C49_delegation`, `C49_valid_marks_accepted`, `C49_delegated_marks_accepted`.
* **C50 fetch answers only for known subordinates** (partial). Code: entity/server/fetch.py: Fetch.process_request. Refuted in full: the requester can name any issuer, and iss = sub = X is answered with the entity's own statement. Partial: the full statement for requests that name no other issuer; unknown subjects are rejected and well-formed registrations answered. Theorems: `C50_known_subjects_refuted`, `C50_wanted_subject_refuted`, `C50_known_subjects_partial`, `C50_subjects`, `C50_unknown_rejected`, `C50_known_answered`.
* **C51 fetch responses do not depend on earlier requests** (partial). Code: entity/server/fetch.py: Fetch.process_request. Refuted: the first request fixes the authority hints of a subordinate registered without. Partial: equal responses if hints are registered or no other issuer was named; always equal but for authority_hints. Theorems: `C51_history_refuted`, `C51_history_partial`, `C51_all_but_hints`.
* **C52 list returns exactly the matching subordinates** (partial). Code: entity/server/list.py: List.process_request. Refuted as stated: the filters are alternatives (a subordinate matching any of them is listed), the entity type filter is dropped when a trust mark filter is present, and a query with only switched-off or unknown filters gets an empty list. Proved: no filter lists everybody, and what exactly each query returns. Theorems: `C52_all_filters_refuted`, `C52_entity_types_refuted`, `C52_no_filter`, `C52_matching_partial`, `C52_union`.
* **C53 critical extensions are understood or rejected** (partial). Code: message.py: EntityStatement.verify, Policy.verify. Refuted: when the caller knows no extension at all, every statement with crit and an extension claim is rejected even if none of its claims is critical. Proved: unknown critical claims never pass; characterisation for callers with known extensions. Theorems: `C53_crit_refuted`, `C53_no_unknown_critical`, `C53_crit_partial`, `C53_nothing_critical`, `C53_exceptions`.
* **C54 automatic registration binds the client to its own chain** (partial). Code: appserver/oauth2/authorization.py: do_automatic_registration; appserver/oidc/authorization.py. Refuted for all three endpoints: a client can provide the valid chain of another entity and is registered with that entity's metadata and keys. Proved: a registered client's claims come from a verified chain with policies applied, and that chain is the client's own if what it provides (or publishes) is about itself. Theorems: `C54_own_chain_refuted`, `C54_own_chain_partial`, `C54_some_chain`.
* **C55 client keys are imported from the most trusted source** (partial). Code: appserver/__init__.py: import_client_keys; entity/utils.py: get_keys; utils.py: get_jwks. Refuted: keys behind a signed_jwks_uri are never imported. Proved: otherwise exactly the best source is imported, only under the client's id; with a signed_jwks_uri there is no fallback. get_keys and get_jwks need a side condition (some source; no empty source). Theorems: `C55_signed_refuted`, `C55_source_partial`, `C55_get_keys_partial`, `C55_get_jwks_partial`, `C55_no_fallback`, `C55_failed_import`.
* **C56 registered redirect URIs are safe** (partial). Code: appserver/oauth2/registration.py: verify_redirect_uris. Refuted: fragments in the redirect URIs of native clients are not looked at. Proved: everything else, and that the URIs are stored one by one. Theorems: `C56_redirect_uris_refuted`, `C56_redirect_uris_partial`, `C56_stored`.
* **C57 a failed registration leaves no client entry** (partial). Code: appserver/oauth2/registration.py: client_registration_setup. Refuted: the entry is written before the request is checked and stays. Proved: keys unchanged, only that client's entry changes, and it holds nothing the client asked for. Theorems: `C57_entry_left_refuted`, `C57_entry_left_partial`, `C57_malformed`.
* **C58 file references in configuration are resolved** (partial). Code: utils.py: load_values_from_file. Refuted: file references in lists are never resolved (utils.py tests val, not v). Proved for every configuration without strings in lists, with the exact set of places that are resolved. Theorems: `C58_references_refuted`, `C58_references_partial`, `C58_places`, `C58_nothing_else`, `C58_succeeds`.
* **C60 caching does not change what a collection finds** (partial). Code: entity/function/trust_chain_collector.py: TrustChainCollector; entity_statement/cache.py: ESCache. Refuted: a configuration without exp is accepted the first time and raises KeyError the second time. Partial: federations of fresh documents and identifiers without '!'. Theorems: `C60_caching_transparent_refuted`, `C60_caching_transparent_partial`.
* **C61 returned trust chains end in configured anchors** (partial). Code: entity/function/__init__.py: get_verified_trust_chains; entity/function/verifier.py: TrustChainVerifier. Refuted: keys learned from one chain can serve as the anchor of the next. Partial: in general the anchor's key can be traced to known keys; in honest federations the anchor is one whose keys were known and is reached along authority hints. Theorems: `C61_anchors_configured_refuted`, `C61_anchors_configured_partial`, `C61_honest_federation`.
* **C62 a bad trust chain does not hide the good ones** (partial). Code: entity/function/__init__.py: get_verified_trust_chains, verify_trust_chains. Refuted: a bad signature in one chain raises and the others are lost. Partial: when the call returns, all chains that verify are returned. Theorems: `C62_bad_chain_harmless_refuted`, `C62_bad_chain_harmless_partial`.
* **C63 a trust chain for an entity is about that entity** (partial). Code: entity/function/__init__.py: get_verified_trust_chains; entity/function/trust_chain_collector.py: TrustChainCollector.collect. Refuted: an entity answering with another entity's configuration gets a chain about that entity once its keys are known. Partial: honest federations. Theorems: `C63_about_the_entity_refuted`, `C63_about_the_entity_partial`.
* **C64 the status of a trust mark refers to that trust mark** (partial). Code: trust_mark_entity/server/trust_mark_status.py: process_request; trust_mark_entity/entity.py: unpack_trust_mark. Refuted in full: an expired mark is reported active if its subject has a newer mark with the same id (within the 15 seconds that JWT.unpack tolerates), and a mark of another issuer is reported active. Partial: signed with a key held for the named issuer, not expired longer ago than the library tolerates, and some unexpired mark with its id was issued to its subject. Own unexpired marks are reported active. Theorems: `C64_this_very_mark_refuted`, `C64_issued_here_refuted`, `C64_this_very_mark_partial`, `C64_own_mark_active`.
* **C65 a trust mark is only accepted for the entity it was issued to** (partial). Code: entity/function/trust_mark_verifier.py: __call__; trust_mark_entity/entity.py: unpack_trust_mark. Refuted: the verifier function ignores entity_id. Partial: iss, sub and id are present so a caller can compare; unpack_trust_mark does compare. Theorems: `C65_own_mark_refuted`, `C65_own_mark_partial`, `C65_unpack_compares`.
* **C66 verify_trust_mark returns valid and active marks, and None for all others** (partial). Code: entity/__init__.py: verify_trust_mark. Refuted: an invalid mark raises TypeError when the issuer is asked. Partial: returned marks are valid and, when asked, reported active; composed with the file store, a mark with that id was issued to the subject and is unexpired. Theorems: `C66_verify_trust_mark_refuted`, `C66_verify_trust_mark_partial`, `C66_active_at_the_issuer`.
* **C67 a subordinate statement carries the subject's registered keys** (partial). Code: entity/server/fetch.py: Fetch.process_request; entity_statement/create.py: create_entity_statement. Refuted: without registered jwks the superior's own keys are stated. Partial: registered keys are stated, whatever issuer is named. Theorems: `C67_registered_keys_refuted`, `C67_registered_keys_partial`.
* **C68 a subordinate statement carries the superior's policies** (partial). Code: entity/server/fetch.py: Fetch.process_request. Refuted: a policy for the entity itself hides those for its types. Partial: without such a policy all type policies are stated; the entity's own policy is. Theorems: `C68_policies_refuted`, `C68_policies_partial`, `C68_own_policy`.
* **C69 registration details are not published** (partial). Code: entity/server/fetch.py: Fetch.process_request; entity_statement/create.py: create_entity_statement. Refuted: entity_type and intermediate are published, entity_types too if the entity has its own policy. Partial: otherwise entity_types is not. Theorems: `C69_internal_refuted`, `C69_internal_partial`.
* **C70 every statement expires** (partial). Code: entity/server/fetch.py: Fetch.process_request; entity_statement/create.py: create_entity_statement. Refuted: lifetime 0 makes a statement without exp. Partial: positive or unregistered lifetimes. Theorems: `C70_expires_refuted`, `C70_expires_partial`.
* **C71 list filters rely on configurations signed with registered keys** (partial). Code: entity/server/list.py: collect_subordinates; entity/server/list.py: filter. Refuted: all subordinates' keys are put in one key jar and the issuer in the token picks the keys, so one subordinate can sign for another. Proved: the signer's key is registered for some subordinate, and for honest issuers for that very one. Theorems: `C71_own_keys_refuted`, `C71_registered_keys_partial`, `C71_own_issuer`.
* **C72 unknown critical policy operators are refused** (partial). Code: message.py: EntityStatement.verify; message.py: MetadataPolicy.verify. Refuted: when the verifier knows no extra operator, a policy that uses an extra operator is refused as soon as metadata_policy_crit is present, even if the operator is not in it. Proved: unknown critical operators never pass, and the exact condition otherwise. Theorems: `C72_policy_crit_refuted`, `C72_no_unknown_operator`, `C72_policy_crit_partial`.
* **C73 a client is only registered with what the server supports** (proved). Code: appserver/oauth2/registration.py: match_claim; appserver/oauth2/registration.py: filter_client_request; appserver/oauth2/registration.py: client_registration_setup. Proved for claims with a published list of values. Theorems: `C73_only_supported`.
* **C74 client id and client secret are the server's** (partial). Code: appserver/oauth2/registration.py: client_registration_setup; appserver/oauth2/registration.py: do_client_registration. Refuted: a client_secret claim in the request replaces the server's secret. Proved: the identifier always, the secret when the request has no such claim, and the key jar always gets the server's secret. Theorems: `C74_secret_refuted`, `C74_secret_partial`.
* **C75 a new client never replaces another** (partial). Code: appserver/oauth2/registration.py: client_registration_setup. Refuted: when the caller reserves identifiers the registered ones are not avoided. Proved without reserved identifiers. Theorems: `C75_new_client_refuted`, `C75_new_client_partial`.
* **C76 a registration is about one client** (proved). Code: appserver/oauth2/registration.py: step2_process_request. Proved. Theorems: `C76_only_this_client`.
* **C77 the trust chains kept for an entity are about that entity** (partial). Code: appserver/oidc/authorization.py: do_automatic_registration; entity/__init__.py: store_trust_chains. Refuted (OIDC): a provided chain is stored under the requesting client's id. Proved when the chain is the client's own; other entities' chains stay, and the OAuth 2 endpoints store none. Theorems: `C77_stored_chains_refuted`, `C77_stored_chains_partial`, `C77_others`.
* **C78 a client that is turned away leaves no keys** (partial). Code: appserver/oidc/authorization.py: do_automatic_registration; appserver/oauth2/authorization.py: do_automatic_registration; appserver/oauth2/pushed_authorization.py: do_automatic_registration. Refuted: keys are imported before registration is attempted. Proved: only public keys, only for the client in question, are ever added. Theorems: `C78_keys_left_refuted`, `C78_keys_left_partial`.
* **C79 a client that is turned away stays unknown, and one that was known stays known** (partial). Code: appserver/oidc/authorization.py: client_authentication; appserver/oauth2/authorization.py: client_authentication; appserver/oauth2/pushed_authorization.py: client_authentication. Refuted: the entry made first stays, so the second request of a refused client gets in; and a broken chain sent in the name of an automatically registered client removes it (OIDC). Proved: nothing else changes. Theorems: `C79_turned_away_refuted`, `C79_second_try_refuted`, `C79_removed_refuted`, `C79_turned_away_partial`.
* **C80 explicitly registered clients are not touched by automatic registration** (proved). Code: appserver/oidc/authorization.py: client_authentication; appserver/oauth2/authorization.py: client_authentication; appserver/oauth2/pushed_authorization.py: client_authentication. Proved for any sequence of requests, with a client id generator that avoids registered ids. Theorems: `C80_explicit_stays`.
* **C81 an authorization request concerns only the client it names** (proved). Code: appserver/oidc/authorization.py: client_authentication; appserver/oauth2/authorization.py: client_authentication; appserver/oauth2/pushed_authorization.py: client_authentication. Proved, with a client id generator that avoids registered ids. Theorems: `C81_other_clients`.
* **C82 explicit registration respects the federation's policies** (partial). Code: appserver/oidc/registration.py: process_request; appserver/oauth2/registration.py: process_request. Refuted for OpenID Connect, which registers the metadata of the request. Proved for OAuth 2. Theorems: `C82_policies_refuted`, `C82_policies_oauth`, `C82_policies_partial`.
* **C83 only the holder of an entity's key can register it explicitly** (partial). Code: appserver/oidc/registration.py: process_request; appserver/oauth2/registration.py: process_request. Refuted for OpenID Connect, where the request is only checked with its own keys. Proved for OAuth 2. Theorems: `C83_holder_refuted`, `C83_holder_partial`, `C83_holder_oauth`.
* **C84 the resolver answers only for configured trust anchors** (partial). Code: entity/server/resolve.py: process_request; entity/function/__init__.py: verify_trust_chains. Refuted: after a request for the configured anchor, an intermediate whose keys were collected is accepted as trust anchor, so that the anchor's own policy is skipped. Partial: the key of the anchor can be traced to keys known at the start over collected statements, for any history. With honest entities the anchor's keys were known before the request. Theorems: `C84_configured_anchors_refuted`, `C84_configured_anchors_partial`, `C84_honest_federation`.
* **C85 resolved metadata is the subject's, as the policies leave it** (partial). Code: entity/server/resolve.py: process_request. Refuted: an entity can serve the configuration of another. Partial: the metadata is that of a verified chain to the requested anchor. With honest entities it is the subject's. Theorems: `C85_metadata_of_subject_refuted`, `C85_metadata_of_subject_partial`, `C85_honest_federation`.
* **C86 the trust chain in a resolve response is the verified one** (partial). Code: entity/server/resolve.py: process_request; entity/function/trust_chain_collector.py: get_chain. Refuted: the chain in the response is looked up again in the caches, where a statement may have been renewed. Partial: in a static federation with fresh statements. Theorems: `C86_verified_chain_refuted`, `C86_verified_chain_partial`.
* **C87 a resolve response does not outlive its trust chain** (partial). Code: entity/server/resolve.py: process_request; entity_statement/create.py: create_entity_statement. Refuted: every response is valid for a day, whatever the chain. Partial: the values of iss, sub, iat and exp. Theorems: `C87_lifetime_refuted`, `C87_lifetime_partial`.
* **C88 a subject with a trust chain is resolved** (partial). Code: entity/server/resolve.py: process_request. Refuted: a configuration that is about to expire is no longer cached and the request fails with a TypeError. Partial: in a static federation with fresh statements. Also proved: without a verified chain to the anchor there is no answer. Theorems: `C88_answers_refuted`, `C88_answers_partial`, `C88_no_chain_no_answer`.
* **C89 endpoints of a trust anchor come from a configuration it signed** (partial). Code: entity/function/trust_anchor.py: get_verified_trust_anchor_statement; entity/__init__.py: get_verified_endpoint. Refuted: the keys are chosen by the issuer that the served document names, and the expiry time is not checked. Partial: the document is signed with a known key of the issuer it names. Theorems: `C89_anchor_endpoint_refuted`, `C89_anchor_endpoint_partial`.
* **C90 the keys in a resolve response are the subject's** (partial). Code: entity/server/resolve.py: process_request; entity_statement/create.py: create_entity_statement. Refuted: the keys are always those of the resolver. Partial: exactly that. Theorems: `C90_subject_keys_refuted`, `C90_subject_keys_partial`.
* **C91 endpoints of other entities come from verified metadata** (partial). Code: entity/__init__.py: get_federation_entity_metadata; entity/function/__init__.py: get_entity_endpoint. Refuted: if there is no verified chain the request fails with an IndexError. Partial: an endpoint that is found is that of a verified chain. Theorems: `C91_other_endpoint_refuted`, `C91_other_endpoint_partial`, `C91_first_chain`, `C91_stored_chain`.
* **C92 the trust chains of a well-run federation are all found** (proved). Code: entity/function/__init__.py: get_verified_trust_chains; entity/function/__init__.py: collect_trust_chains; entity/function/verifier.py: __call__; entity/function/trust_chain_collector.py: __call__. Full, under the conditions stated in WellRunSpec.v: the served documents do not change and are not about to expire, identifiers contain no '!', everybody publishes a configuration, superiors know the keys of their subordinates, key jar entries that exist are right, and constraints can be evaluated (C21 shows that they may raise).  An error is returned only if the policies of such a route raise it. Theorems: `C92_exactly_the_routes`.
* **C93 registration responses name a configured trust anchor** (proved). Code: appclient/oidc/registration.py: parse_response; appclient/oauth2/registration.py: parse_response. Full, for both kinds of clients. Theorems: `C93_configured_anchor`, `C93_configured_anchor_oauth`.
* **C94 registration responses are authentic** (partial). Code: appclient/oidc/registration.py: parse_federation_registration_response; appclient/oauth2/registration.py: parse_federation_registration_response. Full for OpenID Connect.  For OAuth2 it is false: after the check of the self signed response nothing relates its key to the issuer, so anybody can answer in the name of an OP (C94_authentic_oauth_refuted); what is left is that the response is signed with a key it contains. Theorems: `C94_authentic`, `C94_authentic_oauth_refuted`, `C94_self_signed_oauth_partial`.
* **C95 registration responses are for the client that asked** (partial). Code: appclient/oidc/registration.py: parse_federation_registration_response; appclient/oauth2/registration.py: parse_federation_registration_response. False for both kinds of clients: neither sub nor aud of the response is compared with the client. Theorems: `C95_other_client_refuted`, `C95_other_client_oauth_refuted`.
* **C96 expired registration responses are refused** (partial). Code: appclient/oidc/registration.py: parse_federation_registration_response; entity/function/verifier.py: __call__. Refuted in full: the code does not compare the expiry time of the response with the clock, JWT.unpack does so with a tolerance (15 seconds in cryptojwt); a response that has just expired is accepted. Partial: for a library with tolerance g, no response is accepted g seconds or more after it expired (both protocols), and with OpenID Connect a response without expiry time is refused. Theorems: `C96_expired_refuted`, `C96_expired_oauth_refuted`, `C96_expired_partial`, `C96_some_expiry_partial`.
* **C97 the policies of the named anchor decide about the registration** (partial). Code: appclient/oidc/registration.py: parse_federation_registration_response; entity/function/policy.py: __call__. False: the chains may end below or beside the named anchor, because collecting stops at the anchor but does not require it.  Proved for a collected chain, whatever its anchor. Theorems: `C97_policies_of_named_anchor_refuted`, `C97_policies_applied_partial`.
* **C98 accepting a registration response leaves other keys alone** (partial). Code: appclient/oidc/registration.py: parse_federation_registration_response; entity/function/verifier.py: verify_trust_chain. Both parts are false: a response about a trust anchor, signed by an OP, adds the OP's key to the keys of the anchor.  Proved: all keys can be traced over the collected statements and the response, entities none of them is about keep their keys, and no key is lost. Theorems: `C98_anchor_keys_refuted`, `C98_own_keys_refuted`, `C98_keys_partial`.
* **C99 honest registration responses are accepted** (partial). Code: appclient/oidc/registration.py: parse_federation_registration_response; entity/function/__init__.py: collect_trust_chains; entity/function/verifier.py: __call__. False for clients with several routes to known anchors: 'should only be one chain' raises SystemError, also when the other chains end elsewhere (witness).  Proved for clients with one route. Theorems: `C99_honest_answer_partial`, `C99_honest_answer_refuted`.
* **C100 client and OP agree about an explicit registration** (partial). Code: appclient/oidc/registration.py: parse_federation_registration_response; appserver/oidc/registration.py: process_request. False: the client applies the policies to the response, the OP stored the metadata before (witness).  Proved: the response tells the client what was stored. Theorems: `C100_same_metadata_refuted`, `C100_told_partial`.
* **C101 provider metadata comes from a verified chain** (proved). Code: appclient/stand_alone_client_entity.py: _collect_metadata; appclient/stand_alone_client_entity.py: do_provider_info; entity/__init__.py: pick_trust_chain. Full. Theorems: `C101_from_verified_chain`, `C101_provider_info`.
* **C102 an OP brings keys for itself only** (partial). Code: appclient/stand_alone_client_entity.py: _collect_metadata; appclient/stand_alone_client_entity.py: _import_keys. False: the keys are filed under the issuer claim in the metadata, which is not compared with the entity the metadata was collected for.  Proved: only the keys of that issuer change; the keys given by jwks_uri, otherwise those in jwks, are added to them. Theorems: `C102_keys_of_issuer_refuted`, `C102_keys_of_issuer_partial`.
* **C103 authorization responses belong to the provider in use** (proved). Code: appclient/stand_alone_client_entity.py: init_authorization; appclient/stand_alone_client_entity.py: finalize_auth. Full; the model covers the issuer check.  That the response was sent by the OP is not checked here (parameter iss). Theorems: `C103_same_provider`, `C103_unknown_state`.
* **C104 explicit registration is asked for only if both sides support it** (partial). Code: appclient/stand_alone_client_entity.py: do_client_registration. False for clients and OPs with registration types of their own.  Proved with all cases for clients that know automatic and explicit. Theorems: `C104_explicit_if_common_refuted`, `C104_explicit_if_common_partial`.
* **C105 the registration type is decided on the metadata in use** (partial). Code: appclient/stand_alone_client_entity.py: pick_from_stored_trust_chains; appclient/stand_alone_client_entity.py: do_client_registration; appclient/stand_alone_client_entity.py: _collect_metadata. False: pick_from_stored_trust_chains ignores the priority list (C41), _collect_metadata does not.  Proved for one chain. Theorems: `C105_decided_on_metadata_in_use_refuted`, `C105_decided_on_metadata_in_use_partial`.
* **C106 unregistered clients authenticate their requests** (partial). Code: appclient/oidc/authorization.py: _automatic_registration; appclient/oauth2/authorization.py: _automatic_registration. False if the OP lists only endpoints the client is not configured for: then a plain request is sent.  Proved if there is an endpoint in common; without methods on the side of the OP nothing is sent. Theorems: `C106_authenticated_refuted`, `C106_authenticated_partial`.
* **C107 arguments of an authorization request are kept** (partial). Code: appclient/oidc/authorization.py: _automatic_registration; appclient/oidc/authorization.py: _use_pushed_authorization_endpoint; appclient/oauth2/authorization.py: _automatic_registration. False for pushed authorization, where post_args becomes None.  Proved otherwise. Theorems: `C107_arguments_kept_refuted`, `C107_arguments_kept_partial`.
* **C108 the URIs of a registered client were checked** (proved). Code: appserver/oauth2/registration.py: do_client_registration; appserver/oauth2/registration.py: verify_request_uris. Full, relative to the functions of idpyoidc that parse and compare URIs. Theorems: `C108_uris_checked`.
* **C109 pushed authorization works between a client and an OP of this library** (partial). Code: appclient/oidc/authorization.py: _use_pushed_authorization_endpoint; entity/claims.py: OPClaims. False: the client looks for pushed_authorization_endpoint, the OPs list pushed_authorization_request_endpoint, and a client configured with that name raises AttributeError; no configuration works.  Proved for OPs that list the name the client looks for. Theorems: `C109_pushed_with_own_op_refuted`, `C109_pushed_with_own_op_partial`.
* **C110 what a search finds was listed or says so itself** (partial). Code: entity/__init__.py: trawl; entity/client/list.py: List. False: the keys of an error message or of a redirect are taken for identifiers, because the answer is iterated without looking at what it is (witness: a list endpoint that is out of order makes 'error' an entity of the type).  Proved with these words as the only exception. Theorems: `C110_listed_refuted`, `C110_listed_partial`.
* **C111 a search ends** (partial). Code: entity/__init__.py: trawl. False: an intermediate that lists itself is searched again and again until the recursion limit.  Proved: if the entities the search comes to can be ranked, any depth greater than the rank of the first gives the same outcome. Theorems: `C111_ends_refuted`, `C111_ends_partial`.
* **C112 a search finds everybody** (partial). Code: entity/__init__.py: trawl. False: an entity without metadata of the type federation_entity, such as an OP that lists none, ends the search with KeyError (witness).  Proved if everybody in the search has such metadata, from any state in which the answers are what they are. Theorems: `C112_found_refuted`, `C112_found_partial`.
* **C113 a search changes the keys of the entities it is about** (partial). Code: entity/__init__.py: trawl; entity/client/entity_statement.py: EntityStatement. False: the keys in the superior's statement go to the subject it names, which is not compared with the subordinate, so an intermediate can add keys for the trust anchor (witness).  Proved: only keys of that subject change, keys are only added, and the statement was the superior's answer, signed with a key held for its issuer and accepted by the library. Theorems: `C113_keys_refuted`, `C113_keys_partial`.
* **C114 those named by the who endpoint qualify** (partial). Code: entity/server/who.py: process_request; entity/__init__.py: verify_trust_mark. False only as to whom the mark is about: the subject of the mark is not compared with the entity (witness: a credential issuer showing the mark of somebody else).  Everything else is proved; also that the answer 'Couldn't collect Trust Chains' is never given, and that without a mark nobody is named twice. Theorems: `C114_qualified_refuted`, `C114_qualified_partial`, `C114_answers`.
* **C115 the who endpoint looks below trusted anchors** (proved). Code: entity/server/who.py: process_request. Full; identifiers in answers that are not lists are accounted for as in C110. Theorems: `C115_anchor`.
* **C116 the answer of the who endpoint is complete** (partial). Code: entity/server/who.py: process_request; entity/__init__.py: trawl; entity/__init__.py: get_verified_metadata. False: one listed entity that cannot be reached, has no metadata or describes its credentials in another way makes the whole request fail (witness), as does a mark that is not valid.  Proved for federations in which this does not happen: the answer names exactly those it should. Theorems: `C116_complete_refuted`, `C116_complete_partial`.
* **C117 the answer does not depend on who gives it** (partial). Code: entity/server/who.py: process_request; entity/__init__.py: trawl. False: trawl is called with the entity itself as superior, also when another anchor was asked for, so entities below that anchor are only found if they are known already (witness).  Proved if the configurations of the entities the anchor lists are known. Theorems: `C117_who_asks_refuted`, `C117_who_asks_partial`.
* **C118 a published configuration is the entity's own and can be verified** (proved). Code: entity/server/entity_configuration.py: EntityConfiguration.process_request; entity_statement/create.py: create_entity_statement; entity/function/trust_chain_collector.py: verify_self_signed_signature. Full, for documents that can be read back (claims of the types message.py wants) and a signing key among the published ones, at times at which JWT.unpack is content with the times in the document. Theorems: `C118_configuration`, `C118_always`.
* **C119 an entity publishes its trust marks** (partial). Code: entity/server/entity_configuration.py: EntityConfiguration.process_request; entity/context.py: get_trust_marks. False: if the marks are in a file, the name of the file is published instead (witness); get_trust_marks, which would read it, is only called if the attribute is callable.  Proved for all other ways. Theorems: `C119_marks_refuted`, `C119_marks_partial`.
* **C120 an entity says the same about itself wherever it is asked** (partial). Code: entity/server/entity_configuration.py: EntityConfiguration.process_request; entity/server/fetch.py: process_request. False: the fetch endpoint publishes the metadata of the federation entity only, not of the whole (witness), and no trust marks.  Proved: all other claims agree, and the metadata agrees for an entity that is not part of anything. Theorems: `C120_same_refuted`, `C120_same_partial`.
* **C121 entities that run this library find each other's trust chains** (proved). Code: entity/server/entity_configuration.py: EntityConfiguration.process_request; entity/server/fetch.py: process_request; entity/function/__init__.py: get_verified_trust_chains. Full, as a composition of the models of the serving side (entity configuration and fetch endpoints) and of the collecting side (C92); C121_constraints is for registrations with constraints that can be evaluated (C22).  The network is the endpoints of the members; a registration has keys and what the endpoint can work with (C50), lifetimes exceed the allowed skew.  Endpoints are URLs without query and fragment, and are asked with the URLs the client makes (C150). Theorems: `C121_constraints`, `C121_found`.
* **C122 what a superior configures is what a verifier enforces** (partial). Code: entity/server/fetch.py: process_request; entity/function/__init__.py: apply_policies; entity/function/policy.py: TrustChainPolicy. False: a policy for the subordinate itself, even an empty one, switches the policies for its types off (witness).  Proved for all other subordinates: 'value' without further conditions, subset_of under those of C01. Theorems: `C122_enforced_refuted`, `C122_enforced_partial`, `C122_subset_partial`.
* **C123 an entity has the trust anchors it was given** (partial). Code: utils.py: make_federation_entity; entity/__init__.py: add_trust_anchor; entity/function/trust_chain_collector.py: TrustChainCollector.__init__; defaults.py: FEDERATION_ENTITY_FUNCTIONS. False: entities made without trust anchors share the dictionary in FEDERATION_ENTITY_FUNCTIONS, so an anchor added to one is an anchor of all of them (witness); and its keys get into the key jar of every entity made later, even one with its own trust anchors (witness).  Proved: the anchors are right for an entity made with a non-empty dictionary of its own, whatever others do; the keys too if all entities made earlier had their own. Theorems: `C123_anchors_refuted`, `C123_anchors_partial`, `C123_keys_refuted`, `C123_keys_partial`.
* **C124 the keys of the trust anchors of an entity are in its key jar** (partial). Code: entity/__init__.py: trust_anchors, add_trust_anchor; utils.py: make_federation_entity; entity/function/trust_chain_collector.py: add_trust_anchor. False: assigning to trust_anchors imports no keys (witness), and an anchor that comes through the shared default dictionary has its keys in one key jar only (witness).  Proved for an entity with a dictionary of its own to which nobody assigns. Theorems: `C124_keys_of_anchors_refuted`, `C124_shared_refuted`, `C124_keys_of_anchors_partial`.
* **C125 None means the default and [] means none** (partial). Code: utils.py: build_entity_config. False both ways: the code tests services == [] for all three parts, so [] for endpoints means the default (witness) and [] for services takes the functions away that were not mentioned (witness).  Proved: exactly when a part is left out, and that it otherwise has the default items. Theorems: `C125_empty_refuted`, `C125_default_refuted`, `C125_default_or_none_partial`.
* **C126 settings for an item reach the item** (partial). Code: build_entity.py: add_services, add_endpoints, add_functions; utils.py: build_entity_config. False: item_args are ignored for services and functions (witness).  Proved: init_kwargs for all parts, item_args for endpoints, and that nothing else changes. Theorems: `C126_settings_refuted`, `C126_settings_partial`.
* **C127 what an entity is made of does not depend on other entities** (partial). Code: build_entity.py: add_services, add_endpoints, add_functions; defaults.py: federation_services, federation_endpoints, federation_functions. False: settings for default items are written into the module's tables and stay (witness).  Proved for histories without settings; names and classes never change. Theorems: `C127_independent_refuted`, `C127_independent_partial`, `C127_classes_stay`.
* **C128 the items asked for are there** (partial). Code: defaults.py: federation_services, federation_endpoints, federation_functions; utils.py: build_entity_config. False: unknown services are left out, and if nothing remains the default ones are used (witness); of a dictionary of functions only the names are used (witness).  Proved for endpoints and functions by name, for known services, and for definitions of services and endpoints. Theorems: `C128_asked_refuted`, `C128_asked_partial`, `C128_definitions_refuted`, `C128_definitions_partial`.
* **C129 a failed HTTP request is not taken for a success** (partial). Code: appclient/__init__.py: get_response, service_request, parse_request_response; entity/client/__init__.py: get_response, service_request, parse_request_response. False: a redirect is handed to update_service_context as the response (witness for both clients); and a 4xx response whose content type is the name of a format ("json") is parsed as the successful response (witness, client of an RP).  Proved for all other failures, and that successes are passed on as parsed. Theorems: `C129_failed_refuted`, `C129_failed_partial`, `C129_content_type_refuted`, `C129_success`.
* **C130 the error that a server reports is the error that the client reports** (partial). Code: appclient/__init__.py: parse_request_response, _parse_response; entity/client/__init__.py: get_response. False for both clients: the client of an RP looks for a parser for the media type, finds none and reports the whole body as the error (witness); the federation client reports "System error" (witness).  Proved: what exactly is reported; the body is in it. Theorems: `C130_error_code_refuted`, `C130_federation_refuted`, `C130_error_text_partial`.
* **C131 logins do not mix** (proved). Code: appclient/stand_alone_client_entity.py: init_authorization, finalize_auth, get_access_and_id_token, finalize, get_tokens, refresh_access_token, get_user_info, has_active_authentication, get_valid_access_token, clear_session. Proved for all interleavings.  Hypothesis on idpyoidc: parsing an authorization response keeps its state; its checks look at the record of the session. Theorems: `C131_logins_do_not_mix`.
* **C132 a login returns its verified ID token** (partial). Code: appclient/stand_alone_client_entity.py: get_access_and_id_token, finalize. False: for "code id_token" an ID token in the authorization response is ignored (witness); by state alone the implicit response types are a TypeError (witness).  Proved: ID tokens that are returned were verified in this login; by state alone works for the code types. Theorems: `C132_id_token_refuted`, `C132_id_token_partial`, `C132_by_state_refuted`, `C132_by_state_partial`.
* **C133 valid access tokens and active authentications** (partial). Code: appclient/stand_alone_client_entity.py: get_valid_access_token, has_active_authentication, refresh_access_token, get_tokens. False: a token that comes without a lifetime gets the expiry of the one before (witness).  Proved if it comes with one or there was none before; the part on active authentications is proved. Theorems: `C133_valid_refuted`, `C133_valid_partial`, `C133_active`.
* **C134 an authorization request asks for what the client wants** (partial). Code: appclient/stand_alone_client_entity.py: _get_response_type, _get_response_mode, init_authorization. False: with any arguments but no response type the request has the response type None (witness); the order of words matters if a mode is asked for (witness); exceptions other than KeyError become a TypeError because of "except [..]" (witness).  Proved: the type if the caller names one or gives no arguments; the mode. Theorems: `C134_type_refuted`, `C134_type_partial`, `C134_mode`, `C134_order_refuted`, `C134_exception_refuted`.
* **C135 a login ends with an error report or a result** (partial). Code: appclient/stand_alone_client_entity.py: finalize, logout. False: an error without a state is a KeyError (witness), an access token without ID token and user information too (witness), logout without a service is an AttributeError (witness).  Proved: errors with a state; logins with an ID token. Theorems: `C135_error_refuted`, `C135_error_partial`, `C135_completes_refuted`, `C135_completes_partial`, `C135_logout_refuted`.
* **C136 closed sessions and failed logins** (partial). Code: appclient/stand_alone_client_entity.py: clear_session, finalize_auth, has_active_authentication. Clearing is proved (hypothesis: idpyoidc makes no refresh request for an unknown session).  False for refused responses: the response is filed before update_service_context checks it (witness).  Proved if nothing is refused at that point. Theorems: `C136_closed`, `C136_failed_refuted`, `C136_failed_partial`.
* **C137 tokens come the way they were asked for** (partial). Code: appclient/stand_alone_client_entity.py: finalize_auth, get_access_and_id_token. False: the parameters of the response overwrite those of the request in the session, and the response type is looked up there afterwards; a response with response_type=token and an access token of somebody's choice is accepted (witness).  Proved for responses without a response type. Theorems: `C137_code_refuted`, `C137_code_partial`.
* **C138 a login is found again by its state and its nonce** (partial). Code: appclient/stand_alone_client_entity.py: init_authorization. False for the nonce: one given by the caller is sent, but the one that was drawn is bound (witness).  Proved without a nonce of the caller; the rest is proved. Theorems: `C138_nonce_refuted`, `C138_nonce_partial`, `C138_state`.
* **C139 trust marks issued in a federation are accepted in it** (proved). Code: trust_mark_entity/entity.py: create_trust_mark; entity/function/trust_mark_verifier.py: __call__, verify; entity/__init__.py: verify_trust_mark; trust_mark_entity/server/trust_mark_status.py: process_request. Full for the file store of marks and histories as in C44; the policies along the issuer's paths leave its status endpoint alone (otherwise it cannot be asked). Theorems: `C139_accepted`, `C139_issued`.
* **C140 resolvers answer for the members of a federation** (proved). Code: entity/server/resolve.py: process_request; entity/function/__init__.py: get_verified_trust_chains; entity/server/fetch.py: process_request; entity/server/entity_configuration.py: process_request. Full for federations with constraints that can be evaluated (C22) and states of the resolver reached in this federation. Theorems: `C140_resolved`.
* **C141 a client that asks for what the server supports is registered** (partial). Code: appserver/oauth2/registration.py: filter_client_request; appserver/oauth2/registration.py: match_claim; appserver/oauth2/registration.py: client_registration_setup; appserver/oauth2/registration.py: do_client_registration. Refuted in full: a request for a signing algorithm of ID Tokens or user info fails with a KeyError, answered as an error, if the server has no preference for that claim. Proved for requests that only name algorithms the server has preferences for. Theorems: `C141_granted_partial`, `C141_granted_refuted`.
* **C142 automatic registration of the members of a federation** (proved). Code: appserver/oidc/authorization.py: do_automatic_registration; appserver/oauth2/authorization.py: do_automatic_registration; appserver/oauth2/pushed_authorization.py: do_automatic_registration; entity/function/__init__.py: get_verified_trust_chains; entity/server/fetch.py: process_request. Full for federations with constraints that can be evaluated (C22), clients whose adjusted metadata passes C141, and states of the server reached in this federation. Theorems: `C142_registered`, `C142_unreachable`.
* **C143 explicit registration between members of a federation** (proved). Code: appserver/oidc/registration.py: process_request; appclient/oidc/registration.py: parse_federation_registration_response; entity/function/__init__.py: get_verified_trust_chains; entity/server/fetch.py: process_request. Full for OpenID Connect, relying parties that publish metadata of one application type (C141), and states of both parties reached in this federation. Answers to relying parties with several usable paths are refused (C99). The request is any self-signed statement about the relying party with the metadata it publishes that has not expired; C156 shows that the library's own requests are such. Theorems: `C143_answered`, `C143_round_trip`.
* **C144 statements from files** (partial). Code: fetch_entity_statement/fs2.py: gather_info; fetch_entity_statement/fs2.py: load_jwks; fetch_entity_statement/__init__.py: create_entity_statement; entity_statement/create.py: create_entity_statement. Refuted in full: a host name that begins with https becomes the subject as it is instead of the identifier of the entity; for a quoted identifier the keys are loaded under the identifier and looked for under another name, so that the statement has none, and a later statement about the same entity by its host name gets the keys of the quoted directory (`C144_mixed`). Proved for other hosts, on objects that were not asked about quoted identifiers. Theorems: `C144_files_partial`, `C144_known_answered`, `C144_host_refuted`, `C144_quoted_refuted`.
* **C145 publishing statements from files** (partial). Code: fetch_entity_statement/fs2.py: FSPublisher; fetch_entity_statement/fs2.py: _create_entity_statement; fetch_entity_statement/fs2.py: _create_entity_configuration. Refuted in full: issuer and subject are exchanged in the call, so the answer to a request for a statement is a statement by the subject about the entity asked, from the subject's files (`C145_fetch_partial`). Configurations are as they should be. Theorems: `C145_configuration`, `C145_fetch_partial`, `C145_fetch_refuted`.
* **C146 trust chains under attack** (partial). Code: entity/function/trust_chain_collector.py: collect_tree; entity/function/trust_chain_collector.py: get_entity_statement; entity/function/verifier.py: verify_trust_chain; entity/function/__init__.py: verify_trust_chains; entity/function/__init__.py: get_verified_trust_chains; entity/server/resolve.py: process_request. Refuted in full: an entity that is registered with the trust anchor, but is not honest, can make a statement about the trust anchor with keys of its own; they go to the key jar for good, and later statements in the name of the anchor signed with them are accepted (`C146_insider_refuted`; cf. C15). Proved if nobody with a key that members vouch for says anything wrong about keys of members (`C146_genuine_partial`, `C146_metadata_partial`, `C146_resolver_partial`), in particular if all participants are members and the attacker only controls the network (`C146_network_attacker`). That the chains found for an entity are about that entity is refuted even then: the attacker can answer with the configuration of, and the statement about, another member (`C146_swapped_refuted`). Theorems: `C146_insider_refuted`, `C146_genuine_partial`, `C146_network_attacker`, `C146_swapped_refuted`, `C146_metadata_partial`, `C146_resolver_partial`.
* **C147 trust marks under attack** (partial). Code: trust_mark_entity/__init__.py: TrustMarkVerifier.__call__; trust_mark_entity/__init__.py: TrustMarkVerifier.verify_delegation; entity/function/__init__.py: verify_trust_mark; entity/function/__init__.py: get_verified_trust_chains. Refuted in full: the owners of trust marks are taken from a configuration of the trust anchor that is not verified against the keys of the anchor, so that a participant can present a delegation by an owner of its own making (`C147_delegation_refuted`). Proved otherwise if nobody with a key that members vouch for says anything wrong about keys of members and no key is shared by a member and another participant (`C147_issued_partial`; the chains found between checks are as in C146: `C147_chains_partial`). Trawling for configurations is not among the operations: it keeps configurations that are not self-signed. Answers of status endpoints are not signed and not among the operations. Theorems: `C147_delegation_refuted`, `C147_issued_partial`, `C147_chains_partial`.
* **C148 registrations under attack** (partial). Code: appserver/oidc/authorization.py: Authorization.client_authentication; appserver/oauth2/authorization.py: Authorization.client_authentication; appserver/oauth2/pushed_authorization.py: PushedAuthorization.client_authentication; appserver/oauth2/registration.py: Registration.process_request; entity/function/__init__.py: get_verified_trust_chains. Refuted in full: explicit OpenID Connect registration takes the metadata from the request, whose signature is checked with the keys inside only; the trust chains that are collected for its subject are not compared with it (cf. C82, C83). So anybody can register a member with keys and redirect URIs of their own (`C148_stolen_refuted`). Proved without explicit OpenID Connect registration, if nobody with a key that members vouch for says anything wrong about keys of members (`C148_genuine_partial`), in particular if all participants are members (`C148_closed_partial`). Which client a chain is about is not part of this (cf. C54, `C146_swapped_refuted`). Theorems: `C148_stolen_refuted`, `C148_genuine_partial`, `C148_closed_partial`.
* **C149 relying parties under attack** (partial). Code: appclient/oidc/registration.py: parse_federation_registration_response; appclient/oauth2/registration.py: parse_federation_registration_response; appclient/stand_alone_client_entity.py: do_provider_info; appclient/stand_alone_client_entity.py: collect_metadata; appclient/stand_alone_client_entity.py: finalize_auth; entity/function/__init__.py: get_verified_trust_chains. Refuted in full: nothing relates the key of an OAuth2 registration response to its issuer (`C149_oauth_refuted`; cf. C94). Proved for OpenID Connect responses, provider information and logins, if nobody with a key that members vouch for says anything wrong about keys of members (`C149_oidc_partial`, `C149_provider_partial`, `C149_login_partial`). A response has the client as its subject and the keys of the OP, which become keys of the client for those who verify it (C98): the keys of OPs count as keys of their clients here. Theorems: `C149_oauth_refuted`, `C149_oidc_partial`, `C149_provider_partial`, `C149_login_partial`.
* **C150 what the client asks for is what the server is asked for** (partial). Code: entity/client/entity_statement.py: get_request_parameters; entity/client/list.py: get_request_parameters; entity/client/resolve.py: get_request_parameters; entity/client/trust_mark_list.py: get_request_parameters; entity/client/trust_mark_status.py: get_request_parameters. Refuted in full: the clients of the list and trust mark endpoints append `?` and the query even if the endpoint has a query already (`C150_query_refuted`), and a status request with a trust mark goes to the issuer's identifier, not to its status endpoint (`C150_status_refuted`). Proved for all endpoints without a fragment for fetch and resolve requests, and for those without a query for the others (`C150_fetch_partial`, `C150_resolve_partial`, `C150_list_partial`, `C150_marks_partial`); `C150_distinct_partial` shows what `CollectorModel` takes for granted: different fetch requests have different URLs. Theorems: `C150_query_refuted`, `C150_fetch_partial`, `C150_distinct_partial`, `C150_resolve_partial`, `C150_list_partial`, `C150_marks_partial`, `C150_status_refuted`.
* **C151 the configuration of an entity is looked for where it is** (partial). Code: entity/client/entity_configuration.py: construct_well_known_url; entity/client/entity_configuration.py: construct_tenant_well_known_url; entity/function/trust_chain_collector.py: get_entity_configuration. Refuted in full: the path of the identifier is dropped at first, so entities that share a host are asked for at the same place (`C151_shared`) and whatever is published for the host is taken (`C151_shadowed`, `C151_refuted`); an identifier that ends in a slash after a path is not found either. Proved for identifiers without a path, and for those with a path if there is no page for the host (`C151_sites_partial`, `C151_tenants_partial`). Theorems: `C151_shared`, `C151_shadowed`, `C151_sites_partial`, `C151_tenants_partial`, `C151_refuted`.
* **C152 the parts of an entity work with one federation entity and one key jar** (partial). Code: entity/utils.py: get_federation_entity; combo/__init__.py: get_attribute; entity/__init__.py: get_attribute; entity/client/__init__.py: get_attribute; entity/server/__init__.py: get_attribute; trust_mark_entity/entity.py: create_trust_mark; trust_mark_entity/entity.py: unpack_trust_mark. Refuted in full: if the combo has keys as well, a trust mark issuer that is a part of the combo signs with the keys of the federation entity and reads with those of the combo (`C152_refuted`); if only the combo has keys, whoever takes `keyjar` of the federation entity gets none (`C152_combo`). Proved: every part finds the federation entity (`C152_reach_partial`, `C152_topmost_partial`); there is one key jar if the federation entity has keys and the combo has none (`C152_keys_partial`), which is how `build_entity.py` and the tests configure entities. Theorems: `C152_reach_partial`, `C152_topmost_partial`, `C152_keys_partial`, `C152_refuted`, `C152_combo`.
* **C153 the trust anchor in an authorization response is the one that was relied on** (partial). Code: appserver/oidc/authorization.py: extra_response_args; appserver/oauth2/authorization.py: extra_response_args; appserver/oauth2/pushed_authorization.py: extra_response_args; appserver/oidc/authorization.py: client_authentication. Refuted in full: the OAuth2 endpoints do not store the chains they rely on, and with `new_client_id` the chains are stored under the entity identifier while the response looks for the new one, so no trust anchor is named (`C153_named_refuted`); explicit registration does not store the chains where the response looks for them (`C153_explicit_refuted`, `C153_explicit_partial`). Proved for OIDC clients that keep their identifier: the anchor is that of the first chain and is named whatever is done for others later (`C153_named_partial`). `C153_verified`: whatever the history, an anchor that is named for a client is that of a chain verified for that client. Theorems: `C153_named_refuted`, `C153_named_partial`, `C153_verified`, `C153_explicit_refuted`, `C153_explicit_partial`.
* **C154 the endpoints of an entity can be found** (partial). Code: entity/__init__.py: get_endpoint_claims; entity/__init__.py: get_metadata; trust_mark_entity/entity.py: get_metadata; combo/__init__.py: get_metadata; utils.py: make_federation_entity; entity/client/trust_mark.py: get_endpoint. Refuted in full: a trust mark entity publishes its endpoints under `trust_mark_entity` and names clients do not look for (`C154_issuer_refuted`; what it does publish there: `C154_issuer_partial`), and as a part of a combo its `get_metadata` cannot take the `entity_type` it is given, so the combo has no metadata at all (`C154_combo_refuted`). Proved: all endpoints of a federation entity are published (`C154_found`), also those it has taken over from a trust mark entity (`C154_adopted`); so they are in the metadata of a combo without a trust mark entity (`C154_combo_partial`); the client takes the trust mark endpoint from the first stored or verified chain of the issuer (`C154_client`) and asks for no mark without its identifier (`C154_request`). Theorems: `C154_found`, `C154_adopted`, `C154_issuer_refuted`, `C154_issuer_partial`, `C154_request`, `C154_combo_refuted`, `C154_combo_partial`, `C154_client`.
* **C155 an entity says what it was configured to say** (partial). Code: entity/claims.py: get_server_metadata; message.py: FederationEntity; entity/__init__.py: get_preferences. Refuted in full: `policy_uri` and `logo_uri` can be given but are not in the schema (which has `policy_url`), so they are never said (`C155_claims_refuted`); `get_preferences` writes the endpoints into the preferences, so an endpoint that is taken away later is still published (`C155_asking_refuted`). Proved for all other claims (`C155_claims_partial`) and as long as the endpoints stay the same (`C155_asking_partial`). Theorems: `C155_claims_refuted`, `C155_claims_partial`, `C155_asking_refuted`, `C155_asking_partial`.
* **C156 a registration request says what the entity publishes** (partial). Code: appclient/oidc/registration.py: create_entity_statement; appclient/oauth2/registration.py: create_entity_statement; entity/context.py: create_entity_statement; entity/server/entity_configuration.py: process_request; combo/__init__.py: get_metadata. Refuted in full: trust marks that are found by calling something are published, but the OIDC client puts the callable itself into the statement, which cannot be serialised (`C156_oidc_refuted`); of trust marks in a file the OAuth2 client sends the content while the entity publishes the name of the file, and superiors in a file that lists none are sent as the name of the file (`C156_oauth_refuted`). Proved when superiors and trust marks are at hand, for OAuth2 also if the marks are found by a call (`C156_oidc_partial`, `C156_oauth_partial`); in a federation of entities running the library the OP answers the request and registers the sender (`C156_answered_partial`, which uses C143). `C156_oauth_partial` also says that the request has the metadata of the client and of the other parts. Theorems: `C156_oidc_refuted`, `C156_oauth_refuted`, `C156_oidc_partial`, `C156_oauth_partial`, `C156_answered_partial`.
* **C157 the configured priorities, trusted roots, lifetimes and trust marks are used** (partial). Code: entity/context.py: FederationContext.__init__; entity/context.py: FederationServerContext.__init__; entity/client/__init__.py: FederationServiceContext.__init__; entity/__init__.py: FederationEntity.__init__; entity/__init__.py: pick_trust_chain. Refuted in full: `FederationEntity` takes any keyword argument and passes no priorities, trusted roots, lifetime or trust marks on to its context, so it always takes the first chain (`C157_entity_refuted`, `C157_entity_partial` says what it works with); the client and server parts ignore the lifetime of their configuration, and the server part its trust marks (`C157_parts_refuted`; `C157_parts_partial` for the rest). Proved for `FederationContext` itself: priorities (`C157_priority`), trusted roots in ascending order (`C157_roots`). Theorems: `C157_priority`, `C157_roots`, `C157_entity_refuted`, `C157_entity_partial`, `C157_parts_refuted`, `C157_parts_partial`.
* **C158 a trust anchor publishes the trust mark issuers and owners it is given** (partial). Code: utils.py: make_federation_combo; entity/function/trust_mark_verifier.py: verify_delegation; entity/__init__.py: get_metadata. Refuted in full: `make_federation_combo` stores them as attributes of the context nobody reads; every trust mark with a delegation then makes the verifier fail with KeyError (`C158_refuted`). Proved if they are given as preferences (`C158_preferences_partial`). Theorems: `C158_refuted`, `C158_preferences_partial`.
* **C159 a client or server part is what its name says** (partial). Code: appclient/__init__.py: ClientEntity.__init__; appserver/__init__.py: ServerEntity.__init__; combo/__init__.py: Combo.__init__. Refuted in full: an oauth_client without services cannot be made, because the default services are chosen by the argument `client_type` instead of the type that was found (`C159_client_refuted`). `C159_client_partial` says exactly what is made and when nothing is made; `C159_named_partial` is the property for all other named clients; `C159_server` for servers. Theorems: `C159_client_refuted`, `C159_client_partial`, `C159_named_partial`, `C159_server`.
* **C160 every part is published under its name, servers with the entity as issuer** (proved). Code: combo/__init__.py: get_metadata; appserver/__init__.py: get_metadata; appclient/__init__.py: get_metadata; entity/__init__.py: get_metadata. The issuer needs a metadata schema that has the claim `issuer`, as those of idpyoidc have. Theorems: `C160_published`, `C160_server_claims`.
* **C161 statements made through a context say what they are asked to say, and otherwise what the context says** (partial). Code: entity/context.py: create_entity_statement; entity_statement/create.py: create_entity_statement. Refuted in full: superiors that are listed in a file are published as the name of the file (`C161_refuted`). Proved for all other contexts (`C161_partial`). Theorems: `C161_refuted`, `C161_partial`.
* **C162 a relying party gets to know and can use every OP of its federation** (proved). Code: appclient/stand_alone_client_entity.py: do_provider_info; appclient/stand_alone_client_entity.py: _collect_metadata; appclient/stand_alone_client_entity.py: do_client_registration; appserver/__init__.py: get_metadata; combo/__init__.py: get_metadata. `C162_known` needs that nobody above the OP has a policy for the issuer and that the keys in the metadata can be read; `C162_registration` that the OP supports the same registration types along every path and that no chains of it are remembered (C105 says what happens otherwise). Theorems: `C162_known`, `C162_registration`.
* **C163 get_info reports the keys and types of the entity it is asked about** (partial). Code: dc4eu_federation/get_info.py: __main__; setup_federation/get_info.py: __main__; entity/function/trust_chain_collector.py: get_entity_configuration; entity/function/__init__.py: verify_self_signed_signature. Refuted in full: the configuration found at the location of an entity need not be about that entity; get_info files the keys of whoever it is about under the identifier it was asked about (`C163_own_refuted`). `C163_signed_partial`: apart from the subject everything holds. Theorems: `C163_own_refuted`, `C163_signed_partial`.
* **C164 entities registered with the set-up commands find each other** (proved). Code: dc4eu_federation/get_info.py: __main__; dc4eu_federation/add_info.py: __main__; setup_federation/command.sh; entity/server/fetch.py: process_request; entity/function/trust_chain_collector.py: __call__. `C164_set_up` needs that subordinates publish a federation_entity part (get_info raises KeyError otherwise), that superiors publish their fetch endpoint, and that policies are dictionaries as deep as they should be; superiors that were registered before (not by a command) may stay. `C164_chains` also needs that nobody was registered with constraints before. Theorems: `C164_set_up`, `C164_chains`, `C164_policies`.
* **C165 the tree command shows the federation as it is** (proved). Code: script/tree.py: do_subordinates; script/tree.py: find_trust_chain; script/tree.py: __main__; entity/server/list.py: process_request. `C165_tree` and `C165_checked` need that everybody on the tree publishes a federation_entity part and has authority hints (do_subordinates raises KeyError otherwise), and that the lists have no cycle (it would recurse for ever). An entity that has a list endpoint but no subordinates is not shown. Theorems: `C165_tree`, `C165_checked`, `C165_seen`.
* **C166 the list endpoint lists what the set-up commands registered** (partial). Code: dc4eu_federation/get_info.py: __main__; dc4eu_federation/add_info.py: __main__; entity/server/list.py: process_request. Refuted in full: get_info writes entity_types, the list endpoint reads entity_type; once one entity is registered, every request by type ends in a KeyError (`C166_by_type_refuted`, `C166_type_fails_partial`). `C166_lists_partial`: without a type the lists are right. The assumption of C112 that list endpoints answer requests by type is therefore not met by superiors set up with the commands; C52 has the same disagreement for the endpoint alone. Theorems: `C166_type_fails_partial`, `C166_by_type_refuted`, `C166_lists_partial`.
* **C167 the pages that serve entity configurations serve the same document** (partial). Code: setup_federation/trust_anchor/views.py: wkof; edu_federation/relying_party_explicit/views.py: wkof; edu_federation/openid_provider/views.py: openid_federation; entity/server/entity_configuration.py: process_request; entity/context.py: create_entity_statement. Refuted in full: of trust marks in a file the page of trust anchors publishes the marks, the endpoint the name of the file (C119); of a file with an empty list of superiors the page publishes the name of the file as authority_hints, the endpoint nothing (`C167_refuted`). `C167_partial`: for all other sources the documents have the same claims; `C167_party` is for relying parties, whose page shows the metadata of one of their clients. Theorems: `C167_refuted`, `C167_partial`, `C167_party`.
* **C168 a federation that is reached over HTTP works whatever was requested before** (proved). Code: setup_federation/trust_anchor/views.py: service_endpoint; setup_federation/trust_anchor/views.py: do_response; setup_federation/trust_anchor/views.py: fetch; setup_federation/trust_anchor/views.py: wkof; entity/server/fetch.py: process_request; entity/client/entity_statement.py: get_request_parameters; entity/function/trust_chain_collector.py: __call__. `C168_found` and `C168_same` need that idpyoidc's parse_request hands iss and sub on and its do_response puts the text into the body (record web_works), that nobody's fetch endpoint is at a place that ends with the well-known path, and that which keys a token can be checked with does not depend on the authority_hints in it. The trust marks and superiors of entities with the page of trust anchors are as in C167_partial. `C168_page` and `C168_traffic` need none of that. The names of superiors in statements can be set by anybody (C51); they have no effect on chains. Theorems: `C168_page`, `C168_traffic`, `C168_same`, `C168_found`.
* **C169 membership ends** (partial). Code: entity/function/verifier.py: verify_trust_chain; entity/function/verifier.py: __call__; entity/function/trust_chain_collector.py: get_entity_statement; entity/function/trust_chain_collector.py: collect_tree; entity/function/__init__.py: get_verified_trust_chains. Refuted in full: nothing compares the exp of a fetched statement with the clock, neither the collector nor the verifier, and a statement is taken from whoever hands it out. An entity that was let go names a host of its own as superior, the host hands out the last statement of the trust anchor, and the chain is accepted for ever, with an exp in the past (`C169_removed_refuted`, `C169_in_time_refuted`). `C169_removed_partial`: where fetch endpoints hand out statements of their own only, a superior is out of all chains as soon as what it said before is within allowed_delta of its expiry, whatever the caches contain. `C169_recent_partial`: on any network, each statement above the leaf came during the call or was kept and is not about to expire; `C169_in_time_partial`: so it is enough that servers hand out nothing that has expired. Chains that are stored (C42) are returned for ever all the same; identifiers do not contain the separator of the cache (C35). Theorems: `C169_removed_refuted`, `C169_in_time_refuted`, `C169_removed_partial`, `C169_recent_partial`, `C169_in_time_partial`.
* **C170 a withdrawn key is not accepted any more** (partial). Code: entity/function/verifier.py: verify_trust_chain; entity/function/verifier.py: __call__; entity/function/trust_chain_collector.py: get_entity_statement; entity/function/trust_chain_collector.py: __call__. Refuted in full: verification adds keys to the key jar and never takes one out (C25), so who collected while the stolen key was in use accepts it for ever (`C170_withdrawn_refuted`; `C170_kept` is for all keys and histories). `C170_restarted_partial`: who starts again with a key jar without the key does not accept it on any network, even with the old caches; there allowed_delta counts on top of the lifetimes, because configurations are used until then (C36). Theorems: `C170_withdrawn_refuted`, `C170_restarted_partial`, `C170_kept`.
* **C171 who comes back after a long time sees the federation as it is now** (partial). Code: entity/function/trust_chain_collector.py: get_entity_statement; entity/function/trust_chain_collector.py: __call__; entity/function/trust_chain_collector.py: get_federation_fetch_endpoint; entity/__init__.py: get_trust_chains; entity/function/__init__.py: get_verified_trust_chains. Refuted in full: get_trust_chains returns stored chains for ever (`C171_stored_refuted`, see C42), and a configuration that was once published without exp makes every later look at that entity raise KeyError, also after the entity has corrected it (`C171_undated_refuted`, see C60). `C171_like_new_partial`: otherwise, for all histories and all later lists of questions (with chains asked only of entities of which none were stored), the answers are those of a newcomer with the same keys. The proof relates the two runs step by step: entries of the caches that are over are as good as absent. Theorems: `C171_stored_refuted`, `C171_undated_refuted`, `C171_like_new_partial`.
* **C172 a federation keeps working as time passes** (partial). Code: entity/function/trust_chain_collector.py: collect_branch; entity/function/trust_chain_collector.py: collect_tree; entity/function/trust_chain_collector.py: get_entity_statement; entity_statement/cache.py: ESCache; entity_statement/create.py: create_entity_statement; entity/function/__init__.py: get_verified_trust_chains. Refuted in full: collect_branch reads self.config_cache[authority] after it has the statement about the entity; if that statement is still good in the cache while the authority's configuration there is within 300 s of its end, the cache removes the configuration and gives None, and collect_tree raises TypeError (`C172_keeps_working_refuted`). It happens with default lifetimes: rp is looked up through im at 0, rq through im at 40000 s, and from 86100 s to 126100 s every look at rq raises TypeError, unless a look at something else fetches im's configuration again. `C172_keeps_working_partial`: for all histories, every answer is the right one or this TypeError, and the TypeError never occurs in the first day (less 300 s) of a process. The proof relates the run to one in which time stands still: documents agree but for their times, and an invariant says that every cached statement was accompanied by a cached configuration. Theorems: `C172_keeps_working_refuted`, `C172_keeps_working_partial`.
* **C173 requests that fail leave no traces** (partial). Code: entity/function/trust_chain_collector.py: get_document; entity/function/trust_chain_collector.py: get_entity_configuration; entity/function/trust_chain_collector.py: get_entity_statement; entity/function/trust_chain_collector.py: collect_branch; entity/function/__init__.py: get_verified_trust_chains; entity/__init__.py: get_trust_chains. Refuted in full: the TypeError of C172 occurs without any failure (`C173_no_traces_refuted`). `C173_no_traces_partial`: for all networks that fail as they like and all histories, every answer is the right one, or an exception of get_document while a request made for this very question failed, or the TypeError of C172, never in the first day of a process. `C173_no_traces_in_the_store_partial`: the same for get_trust_chains, so what is kept in the store is right. Assumed: where another member lives at the second well-known address of an identifier, the one at the first does not answer 404 (otherwise the wrong configuration would be taken). Theorems: `C173_no_traces_refuted`, `C173_no_traces_partial`, `C173_no_traces_in_the_store_partial`.
* **C174 whatever fails and however time passes, no wrong answer is given** (proved). Code: entity/function/trust_chain_collector.py: collect; entity/function/trust_chain_collector.py: collect_branch; entity/function/__init__.py: get_verified_trust_chains; entity/__init__.py: get_trust_chains; entity/__init__.py: get_verified_metadata. Proved (`C174_never_wrong`) for get_verified_trust_chains, get_trust_chains and get_verified_metadata after any history; the clock need not even go forwards. What exceptions there are is C172 and C173. The assumption on neighbouring addresses is that of C173; a single request takes less than a day. Theorems: `C174_never_wrong`.
* **C175 whatever fails and however time passes, no client is stored with anything but its own metadata** (proved). Code: appserver/oidc/authorization.py: client_authentication; appserver/oidc/authorization.py: do_automatic_registration; appserver/oauth2/authorization.py: do_automatic_registration; appserver/oauth2/pushed_authorization.py: do_automatic_registration; appserver/oauth2/registration.py: client_registration_setup. Proved (`C175_only_right_clients`, `C175_let_in`) for clients that send no trust chain along (with one, C54). Claims that the server matches with what it supports or checks (C73, C56) are not covered by `stored_from`; the keys of the clients are not covered (C142 for those). The server's answer has to keep client_id, as everywhere in C54. Theorems: `C175_only_right_clients`, `C175_let_in`.
* **C176 whatever fails and however time passes, a resolver gives no wrong answer** (proved). Code: entity/server/resolve.py: process_request; entity/function/trust_chain_collector.py: get_chain; entity/function/trust_chain_collector.py: collect_tree. Proved (`C176_resolver_right`, `C176_keys`). Which questions are answered is C140 for a federation in which nothing fails; the missing statements are those that have been taken out of the cache between collection and reading. The keys of an intermediate that came with a chain count as held (C24, C140). Theorems: `C176_resolver_right`, `C176_keys`.
* **C177 whatever fails and however time passes, no trust mark is accepted that is not its issuer's** (proved). Code: entity/__init__.py: FederationEntity.verify_trust_mark; entity/function/trust_mark_verifier.py: TrustMarkVerifier.__call__; entity/function/trust_mark_verifier.py: verify_delegation; entity/function/trust_chain_collector.py: get_metadata. Proved (`C177_genuine`, `C177_keys`). Marks with a delegation are included; what a delegation says is not part of the conclusion (C49 for that, where it is refuted that the delegation is always checked). Marks that name issuers outside the federation are not covered. That genuine marks are accepted when nothing fails is C139. Theorems: `C177_genuine`, `C177_keys`.
* **C178 whatever fails and however time passes, a relying party believes nothing wrong about its OP** (proved). Code: appclient/stand_alone_client_entity.py: collect_metadata; appclient/stand_alone_client_entity.py: do_provider_info; appclient/stand_alone_client_entity.py: finalize_auth; __init__.py: save_trust_chains. Proved (`C178_only_right_metadata`, `C178_known`, `C178_login`, `C178_choice`). Hypothesis: the metadata of the OP that such ways lead to name it as issuer (`calls_itself`; `op_calls_itself` shows this for OPs made by this library when no policy is about the issuer, and C102 shows what happens otherwise). That the metadata are found when nothing fails is C162. Theorems: `C178_only_right_metadata`, `C178_known`, `C178_login`, `C178_choice`.
* **C179 whatever fails and whoever forges, a client takes only registration responses that were made for it** (proved). Code: appclient/oidc/registration.py: parse_federation_registration_response; entity/function/verifier.py: verify_trust_chain; entity/function/trust_chain_collector.py: TrustChainCollector. Proved (`C179_only_right_answers`, `C179_keys`). The constraints need not be evaluable. An OP that a constraint excludes can still answer: its chains are collected and their signatures matter, whether they are accepted does not. Answers of members who do not do as they should are C98, and those made for other clients C95. That an honest answer is taken when nothing fails is C143. Theorems: `C179_only_right_answers`, `C179_keys`.
* **C180 client and OP agree about a registration, whatever failed before and whoever forges** (proved). Code: appserver/oidc/registration.py: Registration.process_request; appclient/oidc/registration.py: parse_federation_registration_response; entity/function/verifier.py: verify_trust_chain. Proved (`C180_agreement`), on C179 for the client and C100 for the OP. Requests whose issuer is not their subject are left out: the OP answers to the issuer and stores under the subject without comparing them (C83). The OPs are any that run the library's answering code: what matters is that the keys they answer with are none of the forgers'. Theorems: `C180_agreement`.
* **C181 whatever failed before, a client that nothing is wrong with gets in as soon as nothing fails** (proved). Code: appserver/oidc/authorization.py: Authorization.client_authentication; appserver/oauth2/authorization.py: Authorization.client_authentication; appserver/oauth2/pushed_authorization.py: PushedAuthorization.client_authentication; entity/function/trust_chain_collector.py: TrustChainCollector. Proved (`C181_gets_in`). That a day after the start cached configurations without entries for their statements can raise a TypeError is C172. An automatic registration is dropped before the client is registered anew, so that a failing request costs the client the entry it had (only its own); it gets a new one as soon as nothing fails. Theorems: `C181_gets_in`.
* **C182 whatever failed before, a relying party gets to know its OP as soon as nothing fails** (proved). Code: appclient/stand_alone_client_entity.py: collect_metadata; appclient/stand_alone_client_entity.py: do_provider_info; appclient/stand_alone_client_entity.py: finalize_auth. Proved (`C182_gets_to_know`). That the metadata keep the issuer of the OP is proved for OPs that run this library in C162 (`op_calls_itself`). That nothing wrong is believed meanwhile is C178. Theorems: `C182_gets_to_know`.
* **C183 whatever failed before, a registration response made for the client is taken as soon as nothing fails** (proved). Code: appclient/oidc/registration.py: Registration.parse_response; entity/function/trust_chain_collector.py: TrustChainCollector; entity/function/__init__.py: verify_trust_chains. Proved (`C183_taken`). Only real responses are taken meanwhile: C179. An anchor with superiors of its own is left out, because what the client knows of its keys changes with what it has seen; for an empty metadata see C99. Theorems: `C183_taken`.
* **C184 whatever failed before, a resolver answers as soon as nothing fails** (proved). Code: entity/server/resolve.py: Resolve.process_request; entity/function/trust_chain_collector.py: TrustChainCollector.get_chain; entity_statement/cache.py: ESCache. Proved (`C184_resolves`). Unlike in C176, where a statement may be missing in an answer given long after the start, no statement is missing here. The keys the resolver has (which decide which ways are usable) are those of the moment; for anchors without superiors they are those it began with (`C176_keys`). Theorems: `C184_resolves`.
* **C185 whatever failed before, a trust mark of a member of the federation is accepted as soon as nothing fails** (proved). Code: entity/__init__.py: FederationEntity.verify_trust_mark; entity/function/trust_mark_verifier.py: TrustMarkVerifier.__call__; entity/function/trust_chain_collector.py: TrustChainCollector. Proved (`C185_accepted`, and from the issue of the mark on `C185_issued`). That no forged mark is accepted meanwhile is C177. Marks with a delegation are in `C185_delegated`, which asks in addition that every trust anchor the issuer has a usable way to publishes `trust_mark_issuers`, and either does not list the id (there or in `trust_mark_owners`) or names the owner who signed the delegation. Theorems: `C185_delegated`, `C185_accepted`, `C185_issued`.
* **C186 whatever fails, an OP registers explicitly only subjects with a way up, and answers members as soon as nothing fails** (proved). Code: appserver/oidc/registration.py: Registration.process_request; entity/function/__init__.py: get_verified_trust_chains; entity/function/trust_chain_collector.py: TrustChainCollector. Proved (`C186_only_asked_for`, `C186_only_members`, `C186_answered`). What a request says need not be what its subject published: anybody can ask in the name of a member (C82, C83, and the third request in `C186_ex`). That clients take such answers is C183. Theorems: `C186_only_asked_for`, `C186_only_members`, `C186_answered`.
* **C187 whatever fails and is forged, a relying party has its OP right, finds a way to register and has the answer it gets taken** (proved). Code: appclient/stand_alone_client_entity.py: do_provider_info; appclient/stand_alone_client_entity.py: finalize_auth; appclient/oidc/registration.py: parse_federation_registration_response; appserver/oidc/registration.py: Registration.process_request. Proved (`C187_right`, `C187_chooses`, `C187_registered`). Joins C178, C179, C182, C183 and C186: turns and responses are mixed in one history of the relying party, and the response is one that the OP made out of its own history. Theorems: `C187_right`, `C187_chooses`, `C187_registered`.
* **C188 a trust mark issuer's two endpoints agree, and its listings have exactly the subjects that received a mark** (proved). Code: trust_mark_entity/server/trust_mark_list.py: TrustMarkList.process_request; trust_mark_entity/server/trust_mark_status.py: TrustMarkStatus.process_request; trust_mark_entity/__init__.py: FileDB.list; trust_mark_entity/__init__.py: SimpleDB.list. Proved (`C188_same_as_status`, `C188_subject`, `C188_memory`). The answer that names a subject is {"foo": sub} in the code. Which marks the status endpoint finds active is C44 and C45; the list of all subjects is C46. Theorems: `C188_same_as_status`, `C188_subject`, `C188_memory`.
* **C189 explicit registration with OAuth 2 works between members that run this library** (proved). Code: appserver/oauth2/registration.py: Registration.process_request; appclient/oauth2/registration.py: Registration.parse_federation_registration_response; entity/function/__init__.py: collect_trust_chains. Proved (`C189_answered`, `C189_taken`, `C189_several`, `C189_round_trip`). The request is the member's entity configuration; the claim aud of request and answer is not modelled. The server collects from the configuration in the request and stores what the policies leave (C82); the client applies its policies to the answer a second time. A client with several usable paths refuses every answer (SystemError in oauth2/registration.py:172-173), even if the anchor that the server chose is at the end of one of them; this is `C189_several`. Theorems: `C189_answered`, `C189_taken`, `C189_several`, `C189_round_trip`.
* **C190 explicit registration with OAuth 2 while requests fail and time passes** (proved). Code: appserver/oauth2/registration.py: Registration.process_request; entity/function/__init__.py: collect_trust_chains; entity/function/trust_chain_collector.py: TrustChainCollector.collect_tree. Proved (`C190_answered`, `C190_only_asked_for`). Requests in the history are entity configurations of members of any age, or documents that are not signed with a key in them; forged requests are the matter of C192, C83 and C148. The limit of a day is that of C173: cached configurations expire after it. Theorems: `C190_only_asked_for`, `C190_answered`.
* **C191 who is answered is who a trust chain was found for** (partial). Code: appserver/oauth2/registration.py: Registration.process_request; appserver/oidc/registration.py: Registration.process_request; entity/function/__init__.py: verify_self_signed_signature. Refuted in full for both kinds (`C191_oauth_refuted`, `C191_oidc_refuted`): the trust chain is collected for the claim sub of the request, the answer is about the claim iss, and nothing compares the two (oauth2/registration.py:63-92, oidc/registration.py:38-82 in appserver). With OAuth 2 somebody who has left the federation, but whose keys the server still has, gets a client by naming a member as subject. Partial: with OAuth 2 the keys of whoever is answered were known before or given in a statement collected (`C191_oauth_partial`); with OpenID Connect there is a chain for the subject, nothing more (`C191_oidc_partial`). Theorems: `C191_oauth_refuted`, `C191_oidc_refuted`, `C191_oauth_partial`, `C191_oidc_partial`.
* **C192 forged requests for registration do no harm to others** (proved). Code: appserver/oauth2/registration.py: Registration.process_request; entity/function/verifier.py: TrustChainVerifier.verify_trust_chain; entity/function/trust_chain_collector.py: TrustChainCollector.collect_tree. Proved (`C192_no_harm`, `C192_answered`). Requests may name superiors of the member they are about, superiors of others that have not registered it, and names nobody lives under; those that name others are not covered; with them it is false (C196, C197). That a forged request can put keys of its own under the name of the member is C193, that it can be answered is C191. Theorems: `C192_no_harm`, `C192_answered`.
* **C193 only keys a superior has registered are held for a member** (partial). Code: entity/function/verifier.py: TrustChainVerifier.verify_trust_chain; appserver/oauth2/registration.py: Registration.process_request. Refuted (`C193_keys_added_refuted`): the verifier adds the keys in the last statement of a chain to those of its subject like those of any other (verifier.py:73-96), and with OAuth 2 the last statement is the request (oauth2/registration.py:67-71), which need not be issued by its subject (C191). Somebody whose keys are still in the key jar puts them under the name of a member and is then taken for that member (`C193_ex`). Partial: nothing else is added, and only under the name that the request gives as its subject (`C193_keys_added_partial`). Theorems: `C193_keys_added_partial`, `C193_keys_added_refuted`.
* **C194 where the keys that an authorization server holds for members come from** (proved). Code: entity/function/verifier.py: TrustChainVerifier.verify_trust_chain; appserver/oauth2/registration.py: Registration.process_request; entity/function/trust_chain_collector.py: TrustChainCollector.__call__. Proved (`C194_where_from`, `C194_honest`). Requests may name superiors of the member they are about, superiors of others that have not registered it, and names nobody lives under; those that name others are not covered, as in C192. The last of the four origins is the one that C193 is about. Theorems: `C194_where_from`, `C194_honest`.
* **C195 who has signed a request for registration that is answered** (proved). Code: appserver/oauth2/registration.py: Registration.process_request; entity/function/verifier.py: TrustChainVerifier.verify_trust_chain; entity/function/__init__.py: verify_trust_chains. Proved (`C195_signed`, `C195_honest`): as long as the signature of the request has not been checked, only keys registered with superiors are added to the key jar. The one who is answered is the issuer of the request, not its subject (C191). That a key from an earlier forged request is among those accepted is C193; `C195_ex` shows the request that is refused before and answered after it. Theorems: `C195_signed`, `C195_honest`.
* **C196 explicit registration with OAuth 2 relies on a trust anchor** (partial). Code: appserver/oauth2/registration.py: Registration.process_request; entity/function/trust_chain_collector.py: TrustChainCollector._get_entity_statement; entity/function/__init__.py: tree2chains; entity/function/policy.py: TrustChainPolicy.__call__. Refuted (`C196_trust_anchor_refuted`): an authority hint to an entity without a fetch endpoint gives an empty branch (trust_chain_collector.py:286-288), an empty branch gives an empty chain (function/__init__.py:45-47), and the request is verified as a chain of its own if the keys of its issuer are known, as they are after a first registration. Of such a chain the metadata under the entity type '' is used, without policies (policy.py:384-386), and nothing compares the anchor with the configured trust anchors. Partial: it holds for requests that name superiors of their subject, superiors of others that have not registered it, and names nobody lives under, whoever makes them and whatever was asked before (`C196_trust_anchor_partial`). Theorems: `C196_trust_anchor_refuted`, `C196_trust_anchor_partial`.
* **C197 requests for registration do not change the keys of trust anchors** (partial). Code: entity/function/verifier.py: TrustChainVerifier.verify_trust_chain; entity/function/__init__.py: tree2chains; appserver/oauth2/registration.py: Registration.process_request. Refuted (`C197_anchor_keys_refuted`): with the empty chain of C196 a request is verified alone, and the keys in it are added to those of its subject (verifier.py:73-96), which can be a trust anchor. A member whose keys are known adds a key to those of the trust anchor and makes trust chains for anybody (`C197_ex`); the request itself ends in an error. Partial: it holds for the requests of `C196_trust_anchor_partial` (`C197_anchor_keys_partial`). Theorems: `C197_anchor_keys_refuted`, `C197_anchor_keys_partial`.
* **C198 automatic registration keeps the keys of clients apart** (proved). Code: appserver/oidc/authorization.py: Authorization.do_automatic_registration; appserver/oauth2/authorization.py: Authorization.do_automatic_registration; appserver/oauth2/pushed_authorization.py: PushedAuthorization.do_automatic_registration; entity/utils.py: get_keys; appserver/oidc/registration.py: Registration.process_request. Proved by an invariant over all visits, beside that of C175 (`C198_only_right_keys`, `C198_own_keys`), and a case analysis of the registration (`C198_has_keys`). Assumed: importing an absent JWKS gives no keys, the claims jwks, jwks_uri and client_id are not matched against what the server supports, identifiers made for clients are not names of members (`C198_own_keys` only). Clients that send trust chains of their own and explicit registration are not among the visits; for these see C148 and C192. Theorems: `C198_only_right_keys`, `C198_own_keys`, `C198_has_keys`.
* **C199 trust chains that clients bring with them** (partial). Code: appserver/oidc/authorization.py: Authorization.do_automatic_registration; appserver/oauth2/authorization.py: Authorization.do_automatic_registration; appserver/oauth2/pushed_authorization.py: PushedAuthorization.do_automatic_registration; entity/function/__init__.py: verify_trust_chains; entity/function/verifier.py: TrustChainVerifier.__call__. Refuted (`C199_expired_refuted`): neither verify_trust_chain nor the callers compare exp with the time (verifier.py:43-103 computes the expiration of the chain only), so a client gets in with a chain that has expired, for instance after it left the federation. Partial: everything else (`C199_brought_partial`), and nobody is stored with anything but their own metadata in histories in which members bring their own trust chains (`C199_only_right_clients`) or given any keys but their own (`C199_only_right_keys`). Chains of other entities are the subject of C54 and C148. Theorems: `C199_brought_partial`, `C199_only_right_clients`, `C199_only_right_keys`, `C199_expired_refuted`.
* **C200 a trust mark issuer lists whom it finds** (partial). Code: trust_mark_entity/entity.py: TrustMarkEntity.list; trust_mark_entity/__init__.py: FileDB.list; trust_mark_entity/__init__.py: SimpleDB.list. Refuted (`C200_expired_refuted`): FileDB.list does not look at exp, FileDB.find does, so the holder of a mark that has expired is in the list although it is not found when asked for. Partial: whoever is found is in the list, and found means that a mark has not expired (`C200_listed_partial`; the latter, as in C44, in histories in order of time without expiry times of their own). Where nothing is found list gives None rather than an empty list. Theorems: `C200_expired_refuted`, `C200_listed_partial`, `C200_memory`.
* **C201 the answer to a registration request is a client information response** (partial). Code: message.py: OauthClientInformationResponse.verify; appserver/oauth2/registration.py: Registration.step2_process_request; appserver/oauth2/registration.py: Registration.add_client_secret; appserver/oauth2/registration.py: Registration.client_secret_expiration_time. Refuted (`C201_lasting_refuted`): where client_secret_expires is False the server leaves client_secret_expires_at out rather than saying 0, and its answer is not accepted by verify of the class of its answers. Partial (`C201_information_partial`): accepted if there is no secret, or if secrets expire; never otherwise. What idpyoidc's Message.verify looks at apart from the required id is taken to be fine (an arbitrary function that accepts the answer), and comb_uri is taken to leave the three claims alone. Theorems: `C201_lasting_refuted`, `C201_information_partial`.
* **C202 a login is finished with the provider it was started with, and says what the ID token says** (proved). Code: appclient/stand_alone_client_entity.py: StandAloneClientEntity.finalize; appclient/stand_alone_client_entity.py: StandAloneClientEntity.finalize_auth; appclient/stand_alone_client_entity.py: StandAloneClientEntity.userinfo_in_id_token. An answer without an issuer in the record counts as None (`C202_issuer`, second disjunct). What ID tokens and their claims are is idpyoidc's (lists of claims in the environment); the claims of the ID token are taken to have one value each (`C202_userinfo`). Theorems: `C202_issuer`, `C202_other_issuer`, `C202_userinfo`, `C202_bound`.
* **C203 a trust chain says which policy was applied** (proved). Code: entity/function/policy.py: TrustChainPolicy.__call__; entity/function/policy.py: TrustChainPolicy._policy; entity_statement/statement.py: TrustChain. The model with combined_policy does what the one of C01-C16 does (`record_call_same`). A policy that the metadata violates is in combined_policy although it was not applied (`C203_ex`); there is no metadata then. Aliasing between the recorded policy and the statements is not modelled. Theorems: `C203_all`, `C203_one`, `C203_always`.

## Where code and property disagree

Each line is a theorem `Cnn_..._refuted` with a witness.

* C01 (subset_of of any superior binds the resolved metadata): a value operator at another level overrides subset_of. `C01_subset_of_refuted`.
* C02 (one_of of any superior binds the resolved metadata): one_of is skipped for list-valued claims. `C02_one_of_refuted`.
* C03 (superset_of of any superior binds the resolved metadata): superset_of policies of two levels are intersected. `C03_superset_of_refuted`.
* C07 (added values reach the resolved metadata): a subset_of policy on the same claim can remove the added value. `C07_add_refuted`.
* C09 (metadata stated by a superior prevails over the leaf's own): the leaf's own value wins over metadata in superior statements. `C09_superior_metadata_refuted`.
* C11 (a statement may not both fix and police a claim): for the topmost statement, which is not checked. `C11_overlap_refuted`.
* C12 (combining a subordinate policy never loosens the superior's): for superset_of (intersection). `C12_combine_refuted`.
* C13 (applying the policy twice gives the same metadata): for add with a scalar operand. `C13_twice_refuted`.
* C19 (excluded naming constraint binds the leaf): a lower statement that excludes something more specific lifts the exclusion above it. `C19_excluded_binds_leaf_refuted`.
* C20 (max_path_length limits the chain length): a non-negative max_path_length never rejects a chain (proved as has_no_effect). `C20_path_length_refuted`.
* C21 (every intermediate is subject to the naming constraints above it): an intermediate whose statement carries no constraints is not checked. `C21_intermediates_refuted`.
* C22 (constraint evaluation is total): KeyError when a statement leaves out a list a statement above gives. `C22_total_refuted`.
* C26 (accepted chains start at a configured trust anchor): after one chain through an intermediate has been verified, the intermediate is accepted as anchor. `C26_first_issuer_configured_refuted`.
* C27 (consecutive statements are linked): adjacent statements need not be linked. `C27_linked_refuted`.
* C28 (trust chain expiry is the earliest expiry): for a negative exp (it is reset). `C28_expiry_is_minimum_refuted`.
* C30 (a rejected chain has no effect): keys of the statements before the offending one stay. `C30_rejected_without_effect_refuted`.
* C32 (trust chain collection terminates): two entities naming each other exhaust every recursion limit. `C32_terminates_refuted`.
* C33 (collected branches follow authority hints): by cache key clashes of identifiers with '!'. `C33_branches_refuted`.
* C35 (cache keys identify the pair (authority, entity)): with witnesses containing '!!'. `C35_cache_keys_refuted`.
* C36 (expired entity configurations are not used): the configuration of the leaf is used for allowed_delta seconds after exp, and Messages are never checked. `C36_expired_configuration_refuted`.
* C37 (the expiring cache behaves like a map with expiry): Message values never expire. `C37_map_with_expiry_refuted`.
* C39 (saved trust chains can be retrieved): a list with chains of two entities is filed under one of them. `C39_saved_chains_retrievable_refuted`.
* C41 (picking from stored chains respects the anchor priority): the loop returns the first stored chain whatever the priority. `C41_stored_priority_refuted`.
* C42 (cached trust chains are not served after they expire): nothing looks at exp of a stored chain (C42_kept_for_ever). `C42_not_after_expiry_refuted`.
* C43 (exporting a trust chain is repeatable): export_chain reverses the stored list in place. `C43_export_repeatable_refuted`.
* C44 (an issued, unexpired trust mark is reported active (file store)): an expired mark of another subject later in the file ends the search. `C44_active_refuted`.
* C45 (the default trust mark store behaves like a map): SimpleDB.add for an id that has a mark raises AttributeError, so the second mark of an id is never recorded. `C45_memory_store_refuted`.
* C48 (issued trust marks carry the right claims): issuing fails for the second mark of an id in the memory store. `C48_claims_refuted`.
* C49 (only valid trust marks verify): a delegation is not looked at when the trust anchor does not list the trust mark id. `C49_valid_mark_refuted`.
* C50 (fetch answers only for known subordinates): the requester can name any issuer, and iss = sub = X is answered with the entity's own statement. `C50_known_subjects_refuted`, `C50_wanted_subject_refuted`.
* C51 (fetch responses do not depend on earlier requests): the first request fixes the authority hints of a subordinate registered without. `C51_history_refuted`.
* C52 (list returns exactly the matching subordinates): the filters are alternatives (a subordinate matching any of them is listed), the entity type filter is dropped when a trust mark filter is present, and a query with only switched-off or unknown filters gets an empty list. `C52_all_filters_refuted`, `C52_entity_types_refuted`.
* C53 (critical extensions are understood or rejected): when the caller knows no extension at all, every statement with crit and an extension claim is rejected even if none of its claims is critical. `C53_crit_refuted`.
* C54 (automatic registration binds the client to its own chain): for all three endpoints: a client can provide the valid chain of another entity and is registered with that entity's metadata and keys. `C54_own_chain_refuted`.
* C55 (client keys are imported from the most trusted source): keys behind a signed_jwks_uri are never imported. `C55_signed_refuted`.
* C56 (registered redirect URIs are safe): fragments in the redirect URIs of native clients are not looked at. `C56_redirect_uris_refuted`.
* C57 (a failed registration leaves no client entry): the entry is written before the request is checked and stays. `C57_entry_left_refuted`.
* C58 (file references in configuration are resolved): file references in lists are never resolved (utils.py tests val, not v). `C58_references_refuted`.
* C60 (caching does not change what a collection finds): a configuration without exp is accepted the first time and raises KeyError the second time. `C60_caching_transparent_refuted`.
* C61 (returned trust chains end in configured anchors): keys learned from one chain can serve as the anchor of the next. `C61_anchors_configured_refuted`.
* C62 (a bad trust chain does not hide the good ones): a bad signature in one chain raises and the others are lost. `C62_bad_chain_harmless_refuted`.
* C63 (a trust chain for an entity is about that entity): an entity answering with another entity's configuration gets a chain about that entity once its keys are known. `C63_about_the_entity_refuted`.
* C64 (the status of a trust mark refers to that trust mark): an expired mark is reported active if its subject has a newer mark with the same id (within the 15 seconds that JWT.unpack tolerates), and a mark of another issuer is reported active. `C64_this_very_mark_refuted`, `C64_issued_here_refuted`.
* C65 (a trust mark is only accepted for the entity it was issued to): the verifier function ignores entity_id. `C65_own_mark_refuted`.
* C66 (verify_trust_mark returns valid and active marks, and None for all others): an invalid mark raises TypeError when the issuer is asked. `C66_verify_trust_mark_refuted`.
* C67 (a subordinate statement carries the subject's registered keys): without registered jwks the superior's own keys are stated. `C67_registered_keys_refuted`.
* C68 (a subordinate statement carries the superior's policies): a policy for the entity itself hides those for its types. `C68_policies_refuted`.
* C69 (registration details are not published): entity_type and intermediate are published, entity_types too if the entity has its own policy. `C69_internal_refuted`.
* C70 (every statement expires): lifetime 0 makes a statement without exp. `C70_expires_refuted`.
* C71 (list filters rely on configurations signed with registered keys): all subordinates' keys are put in one key jar and the issuer in the token picks the keys, so one subordinate can sign for another. `C71_own_keys_refuted`.
* C72 (unknown critical policy operators are refused): when the verifier knows no extra operator, a policy that uses an extra operator is refused as soon as metadata_policy_crit is present, even if the operator is not in it. `C72_policy_crit_refuted`.
* C74 (client id and client secret are the server's): a client_secret claim in the request replaces the server's secret. `C74_secret_refuted`.
* C75 (a new client never replaces another): when the caller reserves identifiers the registered ones are not avoided. `C75_new_client_refuted`.
* C77 (the trust chains kept for an entity are about that entity): (OIDC): a provided chain is stored under the requesting client's id. `C77_stored_chains_refuted`.
* C78 (a client that is turned away leaves no keys): keys are imported before registration is attempted. `C78_keys_left_refuted`.
* C79 (a client that is turned away stays unknown, and one that was known stays known): the entry made first stays, so the second request of a refused client gets in; and a broken chain sent in the name of an automatically registered client removes it (OIDC). `C79_turned_away_refuted`, `C79_second_try_refuted`, `C79_removed_refuted`.
* C82 (explicit registration respects the federation's policies): for OpenID Connect, which registers the metadata of the request. `C82_policies_refuted`.
* C83 (only the holder of an entity's key can register it explicitly): for OpenID Connect, where the request is only checked with its own keys. `C83_holder_refuted`.
* C84 (the resolver answers only for configured trust anchors): after a request for the configured anchor, an intermediate whose keys were collected is accepted as trust anchor, so that the anchor's own policy is skipped. `C84_configured_anchors_refuted`.
* C85 (resolved metadata is the subject's, as the policies leave it): an entity can serve the configuration of another. `C85_metadata_of_subject_refuted`.
* C86 (the trust chain in a resolve response is the verified one): the chain in the response is looked up again in the caches, where a statement may have been renewed. `C86_verified_chain_refuted`.
* C87 (a resolve response does not outlive its trust chain): every response is valid for a day, whatever the chain. `C87_lifetime_refuted`.
* C88 (a subject with a trust chain is resolved): a configuration that is about to expire is no longer cached and the request fails with a TypeError. `C88_answers_refuted`.
* C89 (endpoints of a trust anchor come from a configuration it signed): the keys are chosen by the issuer that the served document names, and the expiry time is not checked. `C89_anchor_endpoint_refuted`.
* C90 (the keys in a resolve response are the subject's): the keys are always those of the resolver. `C90_subject_keys_refuted`.
* C91 (endpoints of other entities come from verified metadata): if there is no verified chain the request fails with an IndexError. `C91_other_endpoint_refuted`.
* C94 (registration responses are authentic): Full for OpenID Connect.  For OAuth2 it is false: after the check of the self signed response nothing relates its key to the issuer, so anybody can answer in the name of an OP (C94_authentic_oauth_refuted); what is left is that the response is signed with a key it contains. `C94_authentic_oauth_refuted`.
* C95 (registration responses are for the client that asked): False for both kinds of clients: neither sub nor aud of the response is compared with the client. `C95_other_client_refuted`, `C95_other_client_oauth_refuted`.
* C96 (expired registration responses are refused): the code does not compare the expiry time of the response with the clock, JWT.unpack does so with a tolerance (15 seconds in cryptojwt); a response that has just expired is accepted. `C96_expired_refuted`, `C96_expired_oauth_refuted`.
* C97 (the policies of the named anchor decide about the registration): False: the chains may end below or beside the named anchor, because collecting stops at the anchor but does not require it. `C97_policies_of_named_anchor_refuted`.
* C98 (accepting a registration response leaves other keys alone): Both parts are false: a response about a trust anchor, signed by an OP, adds the OP's key to the keys of the anchor. `C98_anchor_keys_refuted`, `C98_own_keys_refuted`.
* C99 (honest registration responses are accepted): False for clients with several routes to known anchors: 'should only be one chain' raises SystemError, also when the other chains end elsewhere (witness). `C99_honest_answer_refuted`.
* C100 (client and OP agree about an explicit registration): False: the client applies the policies to the response, the OP stored the metadata before (witness). `C100_same_metadata_refuted`.
* C102 (an OP brings keys for itself only): False: the keys are filed under the issuer claim in the metadata, which is not compared with the entity the metadata was collected for. `C102_keys_of_issuer_refuted`.
* C104 (explicit registration is asked for only if both sides support it): False for clients and OPs with registration types of their own. `C104_explicit_if_common_refuted`.
* C105 (the registration type is decided on the metadata in use): False: pick_from_stored_trust_chains ignores the priority list (C41), _collect_metadata does not. `C105_decided_on_metadata_in_use_refuted`.
* C106 (unregistered clients authenticate their requests): False if the OP lists only endpoints the client is not configured for: then a plain request is sent. `C106_authenticated_refuted`.
* C107 (arguments of an authorization request are kept): False for pushed authorization, where post_args becomes None. `C107_arguments_kept_refuted`.
* C109 (pushed authorization works between a client and an OP of this library): False: the client looks for pushed_authorization_endpoint, the OPs list pushed_authorization_request_endpoint, and a client configured with that name raises AttributeError; no configuration works. `C109_pushed_with_own_op_refuted`.
* C110 (what a search finds was listed or says so itself): False: the keys of an error message or of a redirect are taken for identifiers, because the answer is iterated without looking at what it is (witness: a list endpoint that is out of order makes 'error' an entity of the type). `C110_listed_refuted`.
* C111 (a search ends): False: an intermediate that lists itself is searched again and again until the recursion limit. `C111_ends_refuted`.
* C112 (a search finds everybody): False: an entity without metadata of the type federation_entity, such as an OP that lists none, ends the search with KeyError (witness). `C112_found_refuted`.
* C113 (a search changes the keys of the entities it is about): False: the keys in the superior's statement go to the subject it names, which is not compared with the subordinate, so an intermediate can add keys for the trust anchor (witness). `C113_keys_refuted`.
* C114 (those named by the who endpoint qualify): False only as to whom the mark is about: the subject of the mark is not compared with the entity (witness: a credential issuer showing the mark of somebody else).  Everything else is proved; also that the answer 'Couldn't collect Trust Chains' is never given, and that without a mark nobody is named twice. `C114_qualified_refuted`.
* C116 (the answer of the who endpoint is complete): False: one listed entity that cannot be reached, has no metadata or describes its credentials in another way makes the whole request fail (witness), as does a mark that is not valid. `C116_complete_refuted`.
* C117 (the answer does not depend on who gives it): False: trawl is called with the entity itself as superior, also when another anchor was asked for, so entities below that anchor are only found if they are known already (witness). `C117_who_asks_refuted`.
* C119 (an entity publishes its trust marks): False: if the marks are in a file, the name of the file is published instead (witness); get_trust_marks, which would read it, is only called if the attribute is callable. `C119_marks_refuted`.
* C120 (an entity says the same about itself wherever it is asked): False: the fetch endpoint publishes the metadata of the federation entity only, not of the whole (witness), and no trust marks. `C120_same_refuted`.
* C122 (what a superior configures is what a verifier enforces): False: a policy for the subordinate itself, even an empty one, switches the policies for its types off (witness). `C122_enforced_refuted`.
* C123 (an entity has the trust anchors it was given): False: entities made without trust anchors share the dictionary in FEDERATION_ENTITY_FUNCTIONS, so an anchor added to one is an anchor of all of them (witness); and its keys get into the key jar of every entity made later, even one with its own trust anchors (witness). `C123_anchors_refuted`, `C123_keys_refuted`.
* C124 (the keys of the trust anchors of an entity are in its key jar): False: assigning to trust_anchors imports no keys (witness), and an anchor that comes through the shared default dictionary has its keys in one key jar only (witness). `C124_keys_of_anchors_refuted`, `C124_shared_refuted`.
* C125 (None means the default and [] means none): False both ways: the code tests services == [] for all three parts, so [] for endpoints means the default (witness) and [] for services takes the functions away that were not mentioned (witness). `C125_empty_refuted`, `C125_default_refuted`.
* C126 (settings for an item reach the item): False: item_args are ignored for services and functions (witness). `C126_settings_refuted`.
* C127 (what an entity is made of does not depend on other entities): False: settings for default items are written into the module's tables and stay (witness). `C127_independent_refuted`.
* C128 (the items asked for are there): False: unknown services are left out, and if nothing remains the default ones are used (witness); of a dictionary of functions only the names are used (witness). `C128_asked_refuted`, `C128_definitions_refuted`.
* C129 (a failed HTTP request is not taken for a success): False: a redirect is handed to update_service_context as the response (witness for both clients); and a 4xx response whose content type is the name of a format ("json") is parsed as the successful response (witness, client of an RP). `C129_failed_refuted`, `C129_content_type_refuted`.
* C130 (the error that a server reports is the error that the client reports): False for both clients: the client of an RP looks for a parser for the media type, finds none and reports the whole body as the error (witness); the federation client reports "System error" (witness). `C130_error_code_refuted`, `C130_federation_refuted`.
* C132 (a login returns its verified ID token): False: for "code id_token" an ID token in the authorization response is ignored (witness); by state alone the implicit response types are a TypeError (witness). `C132_id_token_refuted`, `C132_by_state_refuted`.
* C133 (valid access tokens and active authentications): False: a token that comes without a lifetime gets the expiry of the one before (witness). `C133_valid_refuted`.
* C134 (an authorization request asks for what the client wants): False: with any arguments but no response type the request has the response type None (witness); the order of words matters if a mode is asked for (witness); exceptions other than KeyError become a TypeError because of "except [..]" (witness). `C134_type_refuted`, `C134_order_refuted`, `C134_exception_refuted`.
* C135 (a login ends with an error report or a result): False: an error without a state is a KeyError (witness), an access token without ID token and user information too (witness), logout without a service is an AttributeError (witness). `C135_error_refuted`, `C135_completes_refuted`, `C135_logout_refuted`.
* C136 (closed sessions and failed logins): Clearing is proved (hypothesis: idpyoidc makes no refresh request for an unknown session).  False for refused responses: the response is filed before update_service_context checks it (witness). `C136_failed_refuted`.
* C137 (tokens come the way they were asked for): False: the parameters of the response overwrite those of the request in the session, and the response type is looked up there afterwards; a response with response_type=token and an access token of somebody's choice is accepted (witness). `C137_code_refuted`.
* C138 (a login is found again by its state and its nonce): False for the nonce: one given by the caller is sent, but the one that was drawn is bound (witness). `C138_nonce_refuted`.
* C141 (a client that asks for what the server supports is registered): a request for a signing algorithm of ID Tokens or user info fails with a KeyError, answered as an error, if the server has no preference for that claim. `C141_granted_refuted`.
* C144 (statements from files): a host name that begins with https becomes the subject as it is instead of the identifier of the entity; for a quoted identifier the keys are loaded under the identifier and looked for under another name, so that the statement has none, and a later statement about the same entity by its host name gets the keys of the quoted directory (`C144_mixed`). `C144_host_refuted`, `C144_quoted_refuted`.
* C145 (publishing statements from files): issuer and subject are exchanged in the call, so the answer to a request for a statement is a statement by the subject about the entity asked, from the subject's files (`C145_fetch_partial`). Configurations are as they should be. `C145_fetch_refuted`.
* C146 (trust chains under attack): an entity that is registered with the trust anchor, but is not honest, can make a statement about the trust anchor with keys of its own; they go to the key jar for good, and later statements in the name of the anchor signed with them are accepted (`C146_insider_refuted`; cf. C15). `C146_insider_refuted`, `C146_swapped_refuted`.
* C147 (trust marks under attack): the owners of trust marks are taken from a configuration of the trust anchor that is not verified against the keys of the anchor, so that a participant can present a delegation by an owner of its own making (`C147_delegation_refuted`). `C147_delegation_refuted`.
* C148 (registrations under attack): explicit OpenID Connect registration takes the metadata from the request, whose signature is checked with the keys inside only; the trust chains that are collected for its subject are not compared with it (cf. C82, C83). So anybody can register a member with keys and redirect URIs of their own (`C148_stolen_refuted`). `C148_stolen_refuted`.
* C149 (relying parties under attack): nothing relates the key of an OAuth2 registration response to its issuer (`C149_oauth_refuted`; cf. C94). `C149_oauth_refuted`.
* C150 (what the client asks for is what the server is asked for): the clients of the list and trust mark endpoints append `?` and the query even if the endpoint has a query already (`C150_query_refuted`), and a status request with a trust mark goes to the issuer's identifier, not to its status endpoint (`C150_status_refuted`). `C150_query_refuted`, `C150_status_refuted`.
* C151 (the configuration of an entity is looked for where it is): the path of the identifier is dropped at first, so entities that share a host are asked for at the same place (`C151_shared`) and whatever is published for the host is taken (`C151_shadowed`, `C151_refuted`); an identifier that ends in a slash after a path is not found either. `C151_refuted`.
* C152 (the parts of an entity work with one federation entity and one key jar): if the combo has keys as well, a trust mark issuer that is a part of the combo signs with the keys of the federation entity and reads with those of the combo (`C152_refuted`); if only the combo has keys, whoever takes `keyjar` of the federation entity gets none (`C152_combo`). `C152_refuted`.
* C153 (the trust anchor in an authorization response is the one that was relied on): the OAuth2 endpoints do not store the chains they rely on, and with `new_client_id` the chains are stored under the entity identifier while the response looks for the new one, so no trust anchor is named (`C153_named_refuted`); explicit registration does not store the chains where the response looks for them (`C153_explicit_refuted`, `C153_explicit_partial`). `C153_named_refuted`, `C153_explicit_refuted`.
* C154 (the endpoints of an entity can be found): a trust mark entity publishes its endpoints under `trust_mark_entity` and names clients do not look for (`C154_issuer_refuted`; what it does publish there: `C154_issuer_partial`), and as a part of a combo its `get_metadata` cannot take the `entity_type` it is given, so the combo has no metadata at all (`C154_combo_refuted`). `C154_issuer_refuted`, `C154_combo_refuted`.
* C155 (an entity says what it was configured to say): `policy_uri` and `logo_uri` can be given but are not in the schema (which has `policy_url`), so they are never said (`C155_claims_refuted`); `get_preferences` writes the endpoints into the preferences, so an endpoint that is taken away later is still published (`C155_asking_refuted`). `C155_claims_refuted`, `C155_asking_refuted`.
* C156 (a registration request says what the entity publishes): trust marks that are found by calling something are published, but the OIDC client puts the callable itself into the statement, which cannot be serialised (`C156_oidc_refuted`); of trust marks in a file the OAuth2 client sends the content while the entity publishes the name of the file, and superiors in a file that lists none are sent as the name of the file (`C156_oauth_refuted`). `C156_oidc_refuted`, `C156_oauth_refuted`.
* C157 (the configured priorities, trusted roots, lifetimes and trust marks are used): `FederationEntity` takes any keyword argument and passes no priorities, trusted roots, lifetime or trust marks on to its context, so it always takes the first chain (`C157_entity_refuted`, `C157_entity_partial` says what it works with); the client and server parts ignore the lifetime of their configuration, and the server part its trust marks (`C157_parts_refuted`; `C157_parts_partial` for the rest). `C157_entity_refuted`, `C157_parts_refuted`.
* C158 (a trust anchor publishes the trust mark issuers and owners it is given): `make_federation_combo` stores them as attributes of the context nobody reads; every trust mark with a delegation then makes the verifier fail with KeyError (`C158_refuted`). `C158_refuted`.
* C159 (a client or server part is what its name says): an oauth_client without services cannot be made, because the default services are chosen by the argument `client_type` instead of the type that was found (`C159_client_refuted`). `C159_client_partial` says exactly what is made and when nothing is made; `C159_named_partial` is the property for all other named clients; `C159_server` for servers. `C159_client_refuted`.
* C161 (statements made through a context say what they are asked to say, and otherwise what the context says): superiors that are listed in a file are published as the name of the file (`C161_refuted`). `C161_refuted`.
* C163 (get_info reports the keys and types of the entity it is asked about): the configuration found at the location of an entity need not be about that entity; get_info files the keys of whoever it is about under the identifier it was asked about (`C163_own_refuted`). `C163_signed_partial`: apart from the subject everything holds. `C163_own_refuted`.
* C166 (the list endpoint lists what the set-up commands registered): get_info writes entity_types, the list endpoint reads entity_type; once one entity is registered, every request by type ends in a KeyError (`C166_by_type_refuted`, `C166_type_fails_partial`). `C166_lists_partial`: without a type the lists are right. The assumption of C112 that list endpoints answer requests by type is therefore not met by superiors set up with the commands; C52 has the same disagreement for the endpoint alone. `C166_by_type_refuted`.
* C167 (the pages that serve entity configurations serve the same document): of trust marks in a file the page of trust anchors publishes the marks, the endpoint the name of the file (C119); of a file with an empty list of superiors the page publishes the name of the file as authority_hints, the endpoint nothing (`C167_refuted`). `C167_partial`: for all other sources the documents have the same claims; `C167_party` is for relying parties, whose page shows the metadata of one of their clients. `C167_refuted`.
* C169 (membership ends): nothing compares the exp of a fetched statement with the clock, neither the collector nor the verifier, and a statement is taken from whoever hands it out. An entity that was let go names a host of its own as superior, the host hands out the last statement of the trust anchor, and the chain is accepted for ever, with an exp in the past (`C169_removed_refuted`, `C169_in_time_refuted`). `C169_removed_partial`: where fetch endpoints hand out statements of their own only, a superior is out of all chains as soon as what it said before is within allowed_delta of its expiry, whatever the caches contain. `C169_recent_partial`: on any network, each statement above the leaf came during the call or was kept and is not about to expire; `C169_in_time_partial`: so it is enough that servers hand out nothing that has expired. Chains that are stored (C42) are returned for ever all the same; identifiers do not contain the separator of the cache (C35). `C169_removed_refuted`, `C169_in_time_refuted`.
* C170 (a withdrawn key is not accepted any more): verification adds keys to the key jar and never takes one out (C25), so who collected while the stolen key was in use accepts it for ever (`C170_withdrawn_refuted`; `C170_kept` is for all keys and histories). `C170_restarted_partial`: who starts again with a key jar without the key does not accept it on any network, even with the old caches; there allowed_delta counts on top of the lifetimes, because configurations are used until then (C36). `C170_withdrawn_refuted`.
* C171 (who comes back after a long time sees the federation as it is now): get_trust_chains returns stored chains for ever (`C171_stored_refuted`, see C42), and a configuration that was once published without exp makes every later look at that entity raise KeyError, also after the entity has corrected it (`C171_undated_refuted`, see C60). `C171_like_new_partial`: otherwise, for all histories and all later lists of questions (with chains asked only of entities of which none were stored), the answers are those of a newcomer with the same keys. The proof relates the two runs step by step: entries of the caches that are over are as good as absent. `C171_stored_refuted`, `C171_undated_refuted`.
* C172 (a federation keeps working as time passes): collect_branch reads self.config_cache[authority] after it has the statement about the entity; if that statement is still good in the cache while the authority's configuration there is within 300 s of its end, the cache removes the configuration and gives None, and collect_tree raises TypeError (`C172_keeps_working_refuted`). It happens with default lifetimes: rp is looked up through im at 0, rq through im at 40000 s, and from 86100 s to 126100 s every look at rq raises TypeError, unless a look at something else fetches im's configuration again. `C172_keeps_working_partial`: for all histories, every answer is the right one or this TypeError, and the TypeError never occurs in the first day (less 300 s) of a process. The proof relates the run to one in which time stands still: documents agree but for their times, and an invariant says that every cached statement was accompanied by a cached configuration. `C172_keeps_working_refuted`.
* C173 (requests that fail leave no traces): the TypeError of C172 occurs without any failure (`C173_no_traces_refuted`). `C173_no_traces_partial`: for all networks that fail as they like and all histories, every answer is the right one, or an exception of get_document while a request made for this very question failed, or the TypeError of C172, never in the first day of a process. `C173_no_traces_in_the_store_partial`: the same for get_trust_chains, so what is kept in the store is right. Assumed: where another member lives at the second well-known address of an identifier, the one at the first does not answer 404 (otherwise the wrong configuration would be taken). `C173_no_traces_refuted`.
* C191 (who is answered is who a trust chain was found for): for both kinds (`C191_oauth_refuted`, `C191_oidc_refuted`): the trust chain is collected for the claim sub of the request, the answer is about the claim iss, and nothing compares the two (oauth2/registration.py:63-92, oidc/registration.py:38-82 in appserver). With OAuth 2 somebody who has left the federation, but whose keys the server still has, gets a client by naming a member as subject. `C191_oauth_refuted`, `C191_oidc_refuted`.
* C193 (only keys a superior has registered are held for a member): (`C193_keys_added_refuted`): the verifier adds the keys in the last statement of a chain to those of its subject like those of any other (verifier.py:73-96), and with OAuth 2 the last statement is the request (oauth2/registration.py:67-71), which need not be issued by its subject (C191). Somebody whose keys are still in the key jar puts them under the name of a member and is then taken for that member (`C193_ex`). `C193_keys_added_refuted`.
* C196 (explicit registration with OAuth 2 relies on a trust anchor): (`C196_trust_anchor_refuted`): an authority hint to an entity without a fetch endpoint gives an empty branch (trust_chain_collector.py:286-288), an empty branch gives an empty chain (function/__init__.py:45-47), and the request is verified as a chain of its own if the keys of its issuer are known, as they are after a first registration. Of such a chain the metadata under the entity type '' is used, without policies (policy.py:384-386), and nothing compares the anchor with the configured trust anchors. `C196_trust_anchor_refuted`.
* C197 (requests for registration do not change the keys of trust anchors): (`C197_anchor_keys_refuted`): with the empty chain of C196 a request is verified alone, and the keys in it are added to those of its subject (verifier.py:73-96), which can be a trust anchor. A member whose keys are known adds a key to those of the trust anchor and makes trust chains for anybody (`C197_ex`); the request itself ends in an error. `C197_anchor_keys_refuted`.
* C199 (trust chains that clients bring with them): (`C199_expired_refuted`): neither verify_trust_chain nor the callers compare exp with the time (verifier.py:43-103 computes the expiration of the chain only), so a client gets in with a chain that has expired, for instance after it left the federation. `C199_expired_refuted`.
* C200 (a trust mark issuer lists whom it finds): (`C200_expired_refuted`): FileDB.list does not look at exp, FileDB.find does, so the holder of a mark that has expired is in the list although it is not found when asked for. `C200_expired_refuted`.
* C201 (the answer to a registration request is a client information response): (`C201_lasting_refuted`): where client_secret_expires is False the server leaves client_secret_expires_at out rather than saying 0, and its answer is not accepted by verify of the class of its answers. `C201_lasting_refuted`.

Also seen, without a property of its own: the chain verifier never calls `EntityStatement.verify`, so critical
extensions are not enforced when a chain is verified (C53 and C72 are about `EntityStatement.verify` only).
In the applications: `finalize` of edu_federation/relying_party_explicit uses `trust_chain[op]` both as a dictionary and as a
chain, which is an AttributeError; `check_session_iframe` of the OP compares the client id with the whole client database, so
it always answers with an error; a HEAD request to an endpoint is parsed as if it were a POST, without arguments.

## Testing the theorems

`seeded/LOG.jsonl` has one line per wrong program: the definition that was edited in a scratch copy, the edit, the claim
it should break, the theorems that no longer hold (found by `Print Assumptions` after admitting whatever no longer
compiles) and the theorems that were added or tightened when an edit went unnoticed.
