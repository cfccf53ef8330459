{
 "claims": [
  {
   "property": "C01",
   "status": "partial",
   "theorems": [
    "C01_subset_of_refuted",
    "C01_subset_of_partial"
   ],
   "note": "Refuted in full: a value operator at another level overrides subset_of. Partial: holds for claims supplied as lists when value operators stay inside S."
  },
  {
   "property": "C02",
   "status": "partial",
   "theorems": [
    "C02_one_of_refuted",
    "C02_one_of_partial"
   ],
   "note": "Refuted in full: one_of is skipped for list-valued claims. Partial: holds for scalar claims when value operators stay inside S."
  },
  {
   "property": "C03",
   "status": "partial",
   "theorems": [
    "C03_superset_of_refuted",
    "C03_superset_of_partial"
   ],
   "note": "Refuted in full: superset_of policies of two levels are intersected. Partial: elements required at every level that has superset_of are present."
  },
  {
   "property": "C04",
   "status": "proved",
   "theorems": [
    "C04_essential_present"
   ],
   "note": "Proved for boolean essential operands (the JSON type of essential)."
  },
  {
   "property": "C05",
   "status": "proved",
   "theorems": [
    "C05_value_is_resolved"
   ],
   "note": "Proved; equality is Python ==."
  },
  {
   "property": "C06",
   "status": "proved",
   "theorems": [
    "C06_default_keeps_supplied",
    "C06_default_operand_irrelevant",
    "C06_default_fills",
    "C06_different_defaults_rejected"
   ],
   "note": "Proved in four parts: keeps supplied values, operand irrelevant for a present claim, fills absent claims, different defaults rejected."
  },
  {
   "property": "C07",
   "status": "partial",
   "theorems": [
    "C07_add_refuted",
    "C07_add_partial"
   ],
   "note": "Refuted in full: a subset_of policy on the same claim can remove the added value. Partial otherwise."
  },
  {
   "property": "C08",
   "status": "proved",
   "theorems": [
    "C08_untouched_claim",
    "C08_claims_independent"
   ],
   "note": "Proved."
  },
  {
   "property": "C09",
   "status": "partial",
   "theorems": [
    "C09_superior_metadata_refuted",
    "C09_superior_metadata_partial"
   ],
   "note": "Refuted: the leaf's own value wins over metadata in superior statements. Partial: superior metadata used when the leaf is silent."
  },
  {
   "property": "C10",
   "status": "proved",
   "theorems": [
    "C10_superior_metadata_agree"
   ],
   "note": "Proved: resolution fails."
  },
  {
   "property": "C11",
   "status": "partial",
   "theorems": [
    "C11_overlap_refuted",
    "C11_overlap_partial"
   ],
   "note": "Refuted for the topmost statement, which is not checked. Partial: every other statement is."
  },
  {
   "property": "C12",
   "status": "partial",
   "theorems": [
    "C12_combine_refuted",
    "C12_combine_strict_partial",
    "C12_value_kept",
    "C12_default_kept",
    "C12_add_kept"
   ],
   "note": "Refuted for superset_of (intersection). Partial: all other operators, and superset_of when only the superior has one."
  },
  {
   "property": "C13",
   "status": "partial",
   "theorems": [
    "C13_twice_refuted",
    "C13_twice_partial"
   ],
   "note": "Refuted for add with a scalar operand. Partial: flat-list add operands, subset_of on list claims."
  },
  {
   "property": "C14",
   "status": "proved",
   "theorems": [
    "C14_order_independent"
   ],
   "note": "Proved for whole chains, not only for pairs of claim policies."
  },
  {
   "property": "C15",
   "status": "proved",
   "theorems": [
    "C15_diff2policy"
   ],
   "note": "Proved."
  },
  {
   "property": "C16",
   "status": "proved",
   "theorems": [
    "C16_resolved_types",
    "C16_types_independent"
   ],
   "note": "Proved."
  },
  {
   "property": "C17",
   "status": "proved",
   "theorems": [
    "C17_more_specific_is_name_space",
    "C17_reflexive",
    "C17_transitive",
    "C17_errors",
    "C17_host_form",
    "C17_domain_form"
   ],
   "note": "Proved, with the host and domain forms and the error cases as separate theorems."
  },
  {
   "property": "C18",
   "status": "proved",
   "theorems": [
    "C18_topmost_permitted_binds_leaf",
    "C18_narrowing_binds_leaf",
    "C18_single_declaration_exact"
   ],
   "note": "Proved."
  },
  {
   "property": "C19",
   "status": "partial",
   "theorems": [
    "C19_excluded_binds_leaf_refuted",
    "C19_excluded_binds_leaf_partial"
   ],
   "note": "Refuted: a lower statement that excludes something more specific lifts the exclusion above it. Partial: exclusions not narrowed below and not declared below another exclusion."
  },
  {
   "property": "C20",
   "status": "partial",
   "theorems": [
    "C20_path_length_refuted",
    "C20_path_length_partial",
    "C20_path_length_has_no_effect"
   ],
   "note": "Refuted: a non-negative max_path_length never rejects a chain (proved as has_no_effect). Partial: negative values are rejected."
  },
  {
   "property": "C21",
   "status": "partial",
   "theorems": [
    "C21_intermediates_refuted",
    "C21_intermediates_partial"
   ],
   "note": "Refuted: an intermediate whose statement carries no constraints is not checked. Partial: intermediates with constraints, topmost lists."
  },
  {
   "property": "C22",
   "status": "partial",
   "theorems": [
    "C22_total_refuted",
    "C22_total_partial",
    "C22_unconstrained_accepted"
   ],
   "note": "Refuted: KeyError when a statement leaves out a list a statement above gives. Partial: total when both lists are given."
  },
  {
   "property": "C23",
   "status": "proved",
   "theorems": [
    "C23_only_properly_signed",
    "C23_accepted_exactly"
   ],
   "note": "Proved, with an exact characterisation of the accepted chains."
  },
  {
   "property": "C24",
   "status": "proved",
   "theorems": [
    "C24_keys_traceable"
   ],
   "note": "Proved."
  },
  {
   "property": "C25",
   "status": "proved",
   "theorems": [
    "C25_keys_stay",
    "C25_keys_stay_over_histories"
   ],
   "note": "Proved for single calls and for histories of calls."
  },
  {
   "property": "C26",
   "status": "partial",
   "theorems": [
    "C26_first_issuer_configured_refuted",
    "C26_first_issuer_configured_partial"
   ],
   "note": "Refuted: after one chain through an intermediate has been verified, the intermediate is accepted as anchor. Partial: first call, and key traceability in every history."
  },
  {
   "property": "C27",
   "status": "partial",
   "theorems": [
    "C27_linked_refuted",
    "C27_linked_partial",
    "C27_single_anchor"
   ],
   "note": "Refuted: adjacent statements need not be linked. Partial: the issuer is an earlier subject or known before; exact for a single known anchor."
  },
  {
   "property": "C28",
   "status": "partial",
   "theorems": [
    "C28_expiry_is_minimum_refuted",
    "C28_expiry_is_minimum_partial",
    "C28_expired_partial"
   ],
   "note": "Refuted for a negative exp (it is reset). Partial: non-negative exp values."
  },
  {
   "property": "C29",
   "status": "proved",
   "theorems": [
    "C29_trust_chain_describes_verified_chain",
    "C29_trust_chain_exactly_when_verified",
    "C29_none"
   ],
   "note": "Proved in three parts."
  },
  {
   "property": "C30",
   "status": "partial",
   "theorems": [
    "C30_rejected_without_effect_refuted",
    "C30_rejected_without_effect_partial",
    "C30_accepted_effect"
   ],
   "note": "Refuted: keys of the statements before the offending one stay. Partial: no effect when the first statement fails; effect bounded otherwise."
  },
  {
   "property": "C31",
   "status": "proved",
   "theorems": [
    "C31_chains_are_paths",
    "C31_one_chain_per_end",
    "C31_order",
    "C31_nearest_to_the_anchor_first"
   ],
   "note": "Proved in four parts: soundness, completeness, order, orientation."
  },
  {
   "property": "C32",
   "status": "partial",
   "theorems": [
    "C32_terminates_refuted",
    "C32_terminates_partial"
   ],
   "note": "Refuted: two entities naming each other exhaust every recursion limit. Partial: terminates for every network if the followed hints decrease a rank."
  },
  {
   "property": "C33",
   "status": "partial",
   "theorems": [
    "C33_branches_refuted",
    "C33_branches_partial"
   ],
   "note": "Refuted by cache key clashes of identifiers with '!'. Partial: identifiers without '!'."
  },
  {
   "property": "C34",
   "status": "proved",
   "theorems": [
    "C34_only_while_fresh",
    "C34_second_time",
    "C34_second_collection"
   ],
   "note": "Proved for a single statement (use, refusal when stale, no request the second time) and for a whole second collection with an arbitrary network."
  },
  {
   "property": "C35",
   "status": "partial",
   "theorems": [
    "C35_cache_keys_refuted",
    "C35_cache_keys_partial",
    "C35_own_entries"
   ],
   "note": "Refuted with witnesses containing '!!'. Partial: authorities without '!'."
  },
  {
   "property": "C36",
   "status": "partial",
   "theorems": [
    "C36_expired_configuration_refuted",
    "C36_expired_configuration_partial",
    "C36_authority_configuration"
   ],
   "note": "Refuted: the configuration of the leaf is used for allowed_delta seconds after exp, and Messages are never checked. Partial: never later than exp + allowed_delta; authorities' configurations are dropped in time."
  },
  {
   "property": "C37",
   "status": "partial",
   "theorems": [
    "C37_map_with_expiry_refuted",
    "C37_map_with_expiry_partial",
    "C37_raw_get",
    "C37_non_dict_kept_forever"
   ],
   "note": "Refuted: Message values never expire. Partial: refinement of a map with expiry for dicts over all histories; raw get; other values kept."
  },
  {
   "property": "C38",
   "status": "proved",
   "theorems": [
    "C38_shortest_per_anchor",
    "C38_no_other_anchor"
   ],
   "note": "Proved."
  },
  {
   "property": "C39",
   "status": "partial",
   "theorems": [
    "C39_saved_chains_retrievable_refuted",
    "C39_saved_chains_retrievable_partial",
    "C39_all_chains_of_entity"
   ],
   "note": "Refuted: a list with chains of two entities is filed under one of them. Partial: lists about one entity each, over any history of saves."
  },
  {
   "property": "C40",
   "status": "proved",
   "theorems": [
    "C40_by_priority",
    "C40_otherwise_first"
   ],
   "note": "Proved."
  },
  {
   "property": "C41",
   "status": "partial",
   "theorems": [
    "C41_stored_priority_refuted",
    "C41_stored_priority_partial"
   ],
   "note": "Refuted: the loop returns the first stored chain whatever the priority. Partial: exactly what is returned."
  },
  {
   "property": "C42",
   "status": "partial",
   "theorems": [
    "C42_not_after_expiry_refuted",
    "C42_not_after_expiry_partial",
    "C42_metadata_partial",
    "C42_kept_for_ever"
   ],
   "note": "Refuted: nothing looks at exp of a stored chain (C42_kept_for_ever). Partial: what is returned was the outcome of verification for that entity, in this or an earlier call."
  },
  {
   "property": "C43",
   "status": "partial",
   "theorems": [
    "C43_export_repeatable_refuted",
    "C43_export_repeatable_partial"
   ],
   "note": "Refuted: export_chain reverses the stored list in place. Partial: calls alternate between the two orders, nothing else changes."
  },
  {
   "property": "C44",
   "status": "partial",
   "theorems": [
    "C44_active_refuted",
    "C44_active_was_issued",
    "C44_active_partial"
   ],
   "note": "Refuted: an expired mark of another subject later in the file ends the search. Partial: what is active was issued and has not expired; the converse holds when no mark is issued with its own expiry time and the clock does not go back."
  },
  {
   "property": "C45",
   "status": "partial",
   "theorems": [
    "C45_memory_store_refuted",
    "C45_memory_store_partial",
    "C45_one_mark_per_id"
   ],
   "note": "Refuted: SimpleDB.add for an id that has a mark raises AttributeError, so the second mark of an id is never recorded. Partial: lookups find exactly the marks whose issue succeeded; expiry is not looked at."
  },
  {
   "property": "C46",
   "status": "proved",
   "theorems": [
    "C46_listing"
   ],
   "note": "File store with one file per id."
  },
  {
   "property": "C47",
   "status": "proved",
   "theorems": [
    "C47_round_trip",
    "C47_load_into_used_store",
    "C47_listing_twice"
   ],
   "note": "File store with one file per id; listings after loading twice for string subjects."
  },
  {
   "property": "C48",
   "status": "partial",
   "theorems": [
    "C48_claims_refuted",
    "C48_claims_partial",
    "C48_unknown_id",
    "C48_self_signed"
   ],
   "note": "Refuted: issuing fails for the second mark of an id in the memory store. Partial: file store with a file for the id, or memory store without the id; further arguments take precedence over the specification and over exp, while iss and iat are always the issuer and the time of signing."
  },
  {
   "property": "C49",
   "status": "partial",
   "theorems": [
    "C49_valid_mark_refuted",
    "C49_valid_mark_partial",
    "C49_delegation",
    "C49_valid_marks_accepted",
    "C49_delegated_marks_accepted"
   ],
   "note": "Refuted in full: a delegation is not looked at when the trust anchor does not list the trust mark id. Partial: an accepted mark has not expired, its issuer has a verified chain to the anchor, its signer was vouched for by statements presented in the run or was held before. Delegations are checked if the anchor lists the id; valid marks are accepted."
  },
  {
   "property": "C50",
   "status": "partial",
   "theorems": [
    "C50_known_subjects_refuted",
    "C50_wanted_subject_refuted",
    "C50_known_subjects_partial",
    "C50_subjects",
    "C50_unknown_rejected",
    "C50_known_answered"
   ],
   "note": "Refuted in full: the requester can name any issuer, and iss = sub = X is answered with the entity's own statement. Partial: the full statement for requests that name no other issuer; unknown subjects are rejected and well-formed registrations answered."
  },
  {
   "property": "C51",
   "status": "partial",
   "theorems": [
    "C51_history_refuted",
    "C51_history_partial",
    "C51_all_but_hints"
   ],
   "note": "Refuted: the first request fixes the authority hints of a subordinate registered without. Partial: equal responses if hints are registered or no other issuer was named; always equal but for authority_hints."
  },
  {
   "property": "C52",
   "status": "partial",
   "theorems": [
    "C52_all_filters_refuted",
    "C52_entity_types_refuted",
    "C52_no_filter",
    "C52_matching_partial",
    "C52_union"
   ],
   "note": "Refuted as stated: the filters are alternatives (a subordinate matching any of them is listed), the entity type filter is dropped when a trust mark filter is present, and a query with only switched-off or unknown filters gets an empty list. Proved: no filter lists everybody, and what exactly each query returns."
  },
  {
   "property": "C53",
   "status": "partial",
   "theorems": [
    "C53_crit_refuted",
    "C53_no_unknown_critical",
    "C53_crit_partial",
    "C53_nothing_critical",
    "C53_exceptions"
   ],
   "note": "Refuted: when the caller knows no extension at all, every statement with crit and an extension claim is rejected even if none of its claims is critical. Proved: unknown critical claims never pass; characterisation for callers with known extensions."
  },
  {
   "property": "C54",
   "status": "partial",
   "theorems": [
    "C54_own_chain_refuted",
    "C54_own_chain_partial",
    "C54_some_chain"
   ],
   "note": "Refuted for all three endpoints: a client can provide the valid chain of another entity and is registered with that entity's metadata and keys. Proved: a registered client's claims come from a verified chain with policies applied, and that chain is the client's own if what it provides (or publishes) is about itself."
  },
  {
   "property": "C55",
   "status": "partial",
   "theorems": [
    "C55_signed_refuted",
    "C55_source_partial",
    "C55_get_keys_partial",
    "C55_get_jwks_partial",
    "C55_no_fallback",
    "C55_failed_import"
   ],
   "note": "Refuted: keys behind a signed_jwks_uri are never imported. Proved: otherwise exactly the best source is imported, only under the client's id; with a signed_jwks_uri there is no fallback. get_keys and get_jwks need a side condition (some source; no empty source)."
  },
  {
   "property": "C56",
   "status": "partial",
   "theorems": [
    "C56_redirect_uris_refuted",
    "C56_redirect_uris_partial",
    "C56_stored"
   ],
   "note": "Refuted: fragments in the redirect URIs of native clients are not looked at. Proved: everything else, and that the URIs are stored one by one."
  },
  {
   "property": "C57",
   "status": "partial",
   "theorems": [
    "C57_entry_left_refuted",
    "C57_entry_left_partial",
    "C57_malformed"
   ],
   "note": "Refuted: the entry is written before the request is checked and stays. Proved: keys unchanged, only that client's entry changes, and it holds nothing the client asked for."
  },
  {
   "property": "C58",
   "status": "partial",
   "theorems": [
    "C58_references_refuted",
    "C58_references_partial",
    "C58_places",
    "C58_nothing_else",
    "C58_succeeds"
   ],
   "note": "Refuted: file references in lists are never resolved (utils.py tests val, not v). Proved for every configuration without strings in lists, with the exact set of places that are resolved."
  },
  {
   "property": "C60",
   "status": "partial",
   "theorems": [
    "C60_caching_transparent_refuted",
    "C60_caching_transparent_partial"
   ],
   "note": "Refuted: a configuration without exp is accepted the first time and raises KeyError the second time. Partial: federations of fresh documents and identifiers without '!'."
  },
  {
   "property": "C61",
   "status": "partial",
   "theorems": [
    "C61_anchors_configured_refuted",
    "C61_anchors_configured_partial",
    "C61_honest_federation"
   ],
   "note": "Refuted: keys learned from one chain can serve as the anchor of the next. Partial: in general the anchor's key can be traced to known keys; in honest federations the anchor is one whose keys were known and is reached along authority hints."
  },
  {
   "property": "C62",
   "status": "partial",
   "theorems": [
    "C62_bad_chain_harmless_refuted",
    "C62_bad_chain_harmless_partial"
   ],
   "note": "Refuted: a bad signature in one chain raises and the others are lost. Partial: when the call returns, all chains that verify are returned."
  },
  {
   "property": "C63",
   "status": "partial",
   "theorems": [
    "C63_about_the_entity_refuted",
    "C63_about_the_entity_partial"
   ],
   "note": "Refuted: an entity answering with another entity's configuration gets a chain about that entity once its keys are known. Partial: honest federations."
  },
  {
   "property": "C64",
   "status": "partial",
   "theorems": [
    "C64_this_very_mark_refuted",
    "C64_issued_here_refuted",
    "C64_this_very_mark_partial",
    "C64_own_mark_active"
   ],
   "note": "Refuted in full: an expired mark is reported active if its subject has a newer mark with the same id (within the 15 seconds that JWT.unpack tolerates), and a mark of another issuer is reported active. Partial: signed with a key held for the named issuer, not expired longer ago than the library tolerates, and some unexpired mark with its id was issued to its subject. Own unexpired marks are reported active."
  },
  {
   "property": "C65",
   "status": "partial",
   "theorems": [
    "C65_own_mark_refuted",
    "C65_own_mark_partial",
    "C65_unpack_compares"
   ],
   "note": "Refuted: the verifier function ignores entity_id. Partial: iss, sub and id are present so a caller can compare; unpack_trust_mark does compare."
  },
  {
   "property": "C66",
   "status": "partial",
   "theorems": [
    "C66_verify_trust_mark_refuted",
    "C66_verify_trust_mark_partial",
    "C66_active_at_the_issuer"
   ],
   "note": "Refuted: an invalid mark raises TypeError when the issuer is asked. Partial: returned marks are valid and, when asked, reported active; composed with the file store, a mark with that id was issued to the subject and is unexpired."
  },
  {
   "property": "C67",
   "status": "partial",
   "theorems": [
    "C67_registered_keys_refuted",
    "C67_registered_keys_partial"
   ],
   "note": "Refuted: without registered jwks the superior's own keys are stated. Partial: registered keys are stated, whatever issuer is named."
  },
  {
   "property": "C68",
   "status": "partial",
   "theorems": [
    "C68_policies_refuted",
    "C68_policies_partial",
    "C68_own_policy"
   ],
   "note": "Refuted: a policy for the entity itself hides those for its types. Partial: without such a policy all type policies are stated; the entity's own policy is."
  },
  {
   "property": "C69",
   "status": "partial",
   "theorems": [
    "C69_internal_refuted",
    "C69_internal_partial"
   ],
   "note": "Refuted: entity_type and intermediate are published, entity_types too if the entity has its own policy. Partial: otherwise entity_types is not."
  },
  {
   "property": "C70",
   "status": "partial",
   "theorems": [
    "C70_expires_refuted",
    "C70_expires_partial"
   ],
   "note": "Refuted: lifetime 0 makes a statement without exp. Partial: positive or unregistered lifetimes."
  },
  {
   "property": "C71",
   "status": "partial",
   "theorems": [
    "C71_own_keys_refuted",
    "C71_registered_keys_partial",
    "C71_own_issuer"
   ],
   "note": "Refuted: all subordinates' keys are put in one key jar and the issuer in the token picks the keys, so one subordinate can sign for another. Proved: the signer's key is registered for some subordinate, and for honest issuers for that very one."
  },
  {
   "property": "C72",
   "status": "partial",
   "theorems": [
    "C72_policy_crit_refuted",
    "C72_no_unknown_operator",
    "C72_policy_crit_partial"
   ],
   "note": "Refuted: when the verifier knows no extra operator, a policy that uses an extra operator is refused as soon as metadata_policy_crit is present, even if the operator is not in it. Proved: unknown critical operators never pass, and the exact condition otherwise."
  },
  {
   "property": "C73",
   "status": "proved",
   "theorems": [
    "C73_only_supported"
   ],
   "note": "Proved for claims with a published list of values."
  },
  {
   "property": "C74",
   "status": "partial",
   "theorems": [
    "C74_secret_refuted",
    "C74_secret_partial"
   ],
   "note": "Refuted: a client_secret claim in the request replaces the server's secret. Proved: the identifier always, the secret when the request has no such claim, and the key jar always gets the server's secret."
  },
  {
   "property": "C75",
   "status": "partial",
   "theorems": [
    "C75_new_client_refuted",
    "C75_new_client_partial"
   ],
   "note": "Refuted: when the caller reserves identifiers the registered ones are not avoided. Proved without reserved identifiers."
  },
  {
   "property": "C76",
   "status": "proved",
   "theorems": [
    "C76_only_this_client"
   ],
   "note": "Proved."
  },
  {
   "property": "C77",
   "status": "partial",
   "theorems": [
    "C77_stored_chains_refuted",
    "C77_stored_chains_partial",
    "C77_others"
   ],
   "note": "Refuted (OIDC): a provided chain is stored under the requesting client's id. Proved when the chain is the client's own; other entities' chains stay, and the OAuth 2 endpoints store none."
  },
  {
   "property": "C78",
   "status": "partial",
   "theorems": [
    "C78_keys_left_refuted",
    "C78_keys_left_partial"
   ],
   "note": "Refuted: keys are imported before registration is attempted. Proved: only public keys, only for the client in question, are ever added."
  },
  {
   "property": "C79",
   "status": "partial",
   "theorems": [
    "C79_turned_away_refuted",
    "C79_second_try_refuted",
    "C79_removed_refuted",
    "C79_turned_away_partial"
   ],
   "note": "Refuted: the entry made first stays, so the second request of a refused client gets in; and a broken chain sent in the name of an automatically registered client removes it (OIDC). Proved: nothing else changes."
  },
  {
   "property": "C80",
   "status": "proved",
   "theorems": [
    "C80_explicit_stays"
   ],
   "note": "Proved for any sequence of requests, with a client id generator that avoids registered ids."
  },
  {
   "property": "C81",
   "status": "proved",
   "theorems": [
    "C81_other_clients"
   ],
   "note": "Proved, with a client id generator that avoids registered ids."
  },
  {
   "property": "C82",
   "status": "partial",
   "theorems": [
    "C82_policies_refuted",
    "C82_policies_oauth",
    "C82_policies_partial"
   ],
   "note": "Refuted for OpenID Connect, which registers the metadata of the request. Proved for OAuth 2."
  },
  {
   "property": "C83",
   "status": "partial",
   "theorems": [
    "C83_holder_refuted",
    "C83_holder_partial",
    "C83_holder_oauth"
   ],
   "note": "Refuted for OpenID Connect, where the request is only checked with its own keys. Proved for OAuth 2."
  },
  {
   "property": "C84",
   "status": "partial",
   "theorems": [
    "C84_configured_anchors_refuted",
    "C84_configured_anchors_partial",
    "C84_honest_federation"
   ],
   "note": "Refuted: after a request for the configured anchor, an intermediate whose keys were collected is accepted as trust anchor, so that the anchor's own policy is skipped. Partial: the key of the anchor can be traced to keys known at the start over collected statements, for any history. With honest entities the anchor's keys were known before the request."
  },
  {
   "property": "C85",
   "status": "partial",
   "theorems": [
    "C85_metadata_of_subject_refuted",
    "C85_metadata_of_subject_partial",
    "C85_honest_federation"
   ],
   "note": "Refuted: an entity can serve the configuration of another. Partial: the metadata is that of a verified chain to the requested anchor. With honest entities it is the subject's."
  },
  {
   "property": "C86",
   "status": "partial",
   "theorems": [
    "C86_verified_chain_refuted",
    "C86_verified_chain_partial"
   ],
   "note": "Refuted: the chain in the response is looked up again in the caches, where a statement may have been renewed. Partial: in a static federation with fresh statements."
  },
  {
   "property": "C87",
   "status": "partial",
   "theorems": [
    "C87_lifetime_refuted",
    "C87_lifetime_partial"
   ],
   "note": "Refuted: every response is valid for a day, whatever the chain. Partial: the values of iss, sub, iat and exp."
  },
  {
   "property": "C88",
   "status": "partial",
   "theorems": [
    "C88_answers_refuted",
    "C88_answers_partial",
    "C88_no_chain_no_answer"
   ],
   "note": "Refuted: a configuration that is about to expire is no longer cached and the request fails with a TypeError. Partial: in a static federation with fresh statements. Also proved: without a verified chain to the anchor there is no answer."
  },
  {
   "property": "C89",
   "status": "partial",
   "theorems": [
    "C89_anchor_endpoint_refuted",
    "C89_anchor_endpoint_partial"
   ],
   "note": "Refuted: the keys are chosen by the issuer that the served document names, and the expiry time is not checked. Partial: the document is signed with a known key of the issuer it names."
  },
  {
   "property": "C90",
   "status": "partial",
   "theorems": [
    "C90_subject_keys_refuted",
    "C90_subject_keys_partial"
   ],
   "note": "Refuted: the keys are always those of the resolver. Partial: exactly that."
  },
  {
   "property": "C91",
   "status": "partial",
   "theorems": [
    "C91_other_endpoint_refuted",
    "C91_other_endpoint_partial",
    "C91_first_chain",
    "C91_stored_chain"
   ],
   "note": "Refuted: if there is no verified chain the request fails with an IndexError. Partial: an endpoint that is found is that of a verified chain."
  },
  {
   "property": "C92",
   "status": "proved",
   "theorems": [
    "C92_exactly_the_routes"
   ],
   "note": "Full, under the conditions stated in WellRunSpec.v: the served documents do not change and are not about to expire, identifiers contain no '!', everybody publishes a configuration, superiors know the keys of their subordinates, key jar entries that exist are right, and constraints can be evaluated (C21 shows that they may raise).  An error is returned only if the policies of such a route raise it."
  },
  {
   "property": "C93",
   "status": "proved",
   "theorems": [
    "C93_configured_anchor",
    "C93_configured_anchor_oauth"
   ],
   "note": "Full, for both kinds of clients."
  },
  {
   "property": "C94",
   "status": "partial",
   "theorems": [
    "C94_authentic",
    "C94_authentic_oauth_refuted",
    "C94_self_signed_oauth_partial"
   ],
   "note": "Full for OpenID Connect.  For OAuth2 it is false: after the check of the self signed response nothing relates its key to the issuer, so anybody can answer in the name of an OP (C94_authentic_oauth_refuted); what is left is that the response is signed with a key it contains."
  },
  {
   "property": "C95",
   "status": "partial",
   "theorems": [
    "C95_other_client_refuted",
    "C95_other_client_oauth_refuted"
   ],
   "note": "False for both kinds of clients: neither sub nor aud of the response is compared with the client."
  },
  {
   "property": "C96",
   "status": "partial",
   "theorems": [
    "C96_expired_refuted",
    "C96_expired_oauth_refuted",
    "C96_expired_partial",
    "C96_some_expiry_partial"
   ],
   "note": "Refuted in full: the code does not compare the expiry time of the response with the clock, JWT.unpack does so with a tolerance (15 seconds in cryptojwt); a response that has just expired is accepted. Partial: for a library with tolerance g, no response is accepted g seconds or more after it expired (both protocols), and with OpenID Connect a response without expiry time is refused."
  },
  {
   "property": "C97",
   "status": "partial",
   "theorems": [
    "C97_policies_of_named_anchor_refuted",
    "C97_policies_applied_partial"
   ],
   "note": "False: the chains may end below or beside the named anchor, because collecting stops at the anchor but does not require it.  Proved for a collected chain, whatever its anchor."
  },
  {
   "property": "C98",
   "status": "partial",
   "theorems": [
    "C98_anchor_keys_refuted",
    "C98_own_keys_refuted",
    "C98_keys_partial"
   ],
   "note": "Both parts are false: a response about a trust anchor, signed by an OP, adds the OP's key to the keys of the anchor.  Proved: all keys can be traced over the collected statements and the response, entities none of them is about keep their keys, and no key is lost."
  },
  {
   "property": "C99",
   "status": "partial",
   "theorems": [
    "C99_honest_answer_partial",
    "C99_honest_answer_refuted"
   ],
   "note": "False for clients with several routes to known anchors: 'should only be one chain' raises SystemError, also when the other chains end elsewhere (witness).  Proved for clients with one route."
  },
  {
   "property": "C100",
   "status": "partial",
   "theorems": [
    "C100_same_metadata_refuted",
    "C100_told_partial"
   ],
   "note": "False: the client applies the policies to the response, the OP stored the metadata before (witness).  Proved: the response tells the client what was stored."
  },
  {
   "property": "C101",
   "status": "proved",
   "theorems": [
    "C101_from_verified_chain",
    "C101_provider_info"
   ],
   "note": "Full."
  },
  {
   "property": "C102",
   "status": "partial",
   "theorems": [
    "C102_keys_of_issuer_refuted",
    "C102_keys_of_issuer_partial"
   ],
   "note": "False: the keys are filed under the issuer claim in the metadata, which is not compared with the entity the metadata was collected for.  Proved: only the keys of that issuer change; the keys given by jwks_uri, otherwise those in jwks, are added to them."
  },
  {
   "property": "C103",
   "status": "proved",
   "theorems": [
    "C103_same_provider",
    "C103_unknown_state"
   ],
   "note": "Full; the model covers the issuer check.  That the response was sent by the OP is not checked here (parameter iss)."
  },
  {
   "property": "C104",
   "status": "partial",
   "theorems": [
    "C104_explicit_if_common_refuted",
    "C104_explicit_if_common_partial"
   ],
   "note": "False for clients and OPs with registration types of their own.  Proved with all cases for clients that know automatic and explicit."
  },
  {
   "property": "C105",
   "status": "partial",
   "theorems": [
    "C105_decided_on_metadata_in_use_refuted",
    "C105_decided_on_metadata_in_use_partial"
   ],
   "note": "False: pick_from_stored_trust_chains ignores the priority list (C41), _collect_metadata does not.  Proved for one chain."
  },
  {
   "property": "C106",
   "status": "partial",
   "theorems": [
    "C106_authenticated_refuted",
    "C106_authenticated_partial"
   ],
   "note": "False if the OP lists only endpoints the client is not configured for: then a plain request is sent.  Proved if there is an endpoint in common; without methods on the side of the OP nothing is sent."
  },
  {
   "property": "C107",
   "status": "partial",
   "theorems": [
    "C107_arguments_kept_refuted",
    "C107_arguments_kept_partial"
   ],
   "note": "False for pushed authorization, where post_args becomes None.  Proved otherwise."
  },
  {
   "property": "C108",
   "status": "proved",
   "theorems": [
    "C108_uris_checked"
   ],
   "note": "Full, relative to the functions of idpyoidc that parse and compare URIs."
  },
  {
   "property": "C109",
   "status": "partial",
   "theorems": [
    "C109_pushed_with_own_op_refuted",
    "C109_pushed_with_own_op_partial"
   ],
   "note": "False: the client looks for pushed_authorization_endpoint, the OPs list pushed_authorization_request_endpoint, and a client configured with that name raises AttributeError; no configuration works.  Proved for OPs that list the name the client looks for."
  },
  {
   "property": "C110",
   "status": "partial",
   "theorems": [
    "C110_listed_refuted",
    "C110_listed_partial"
   ],
   "note": "False: the keys of an error message or of a redirect are taken for identifiers, because the answer is iterated without looking at what it is (witness: a list endpoint that is out of order makes 'error' an entity of the type).  Proved with these words as the only exception."
  },
  {
   "property": "C111",
   "status": "partial",
   "theorems": [
    "C111_ends_refuted",
    "C111_ends_partial"
   ],
   "note": "False: an intermediate that lists itself is searched again and again until the recursion limit.  Proved: if the entities the search comes to can be ranked, any depth greater than the rank of the first gives the same outcome."
  },
  {
   "property": "C112",
   "status": "partial",
   "theorems": [
    "C112_found_refuted",
    "C112_found_partial"
   ],
   "note": "False: an entity without metadata of the type federation_entity, such as an OP that lists none, ends the search with KeyError (witness).  Proved if everybody in the search has such metadata, from any state in which the answers are what they are."
  },
  {
   "property": "C113",
   "status": "partial",
   "theorems": [
    "C113_keys_refuted",
    "C113_keys_partial"
   ],
   "note": "False: the keys in the superior's statement go to the subject it names, which is not compared with the subordinate, so an intermediate can add keys for the trust anchor (witness).  Proved: only keys of that subject change, keys are only added, and the statement was the superior's answer, signed with a key held for its issuer and accepted by the library."
  },
  {
   "property": "C114",
   "status": "partial",
   "theorems": [
    "C114_qualified_refuted",
    "C114_qualified_partial",
    "C114_answers"
   ],
   "note": "False only as to whom the mark is about: the subject of the mark is not compared with the entity (witness: a credential issuer showing the mark of somebody else).  Everything else is proved; also that the answer 'Couldn't collect Trust Chains' is never given, and that without a mark nobody is named twice."
  },
  {
   "property": "C115",
   "status": "proved",
   "theorems": [
    "C115_anchor"
   ],
   "note": "Full; identifiers in answers that are not lists are accounted for as in C110."
  },
  {
   "property": "C116",
   "status": "partial",
   "theorems": [
    "C116_complete_refuted",
    "C116_complete_partial"
   ],
   "note": "False: one listed entity that cannot be reached, has no metadata or describes its credentials in another way makes the whole request fail (witness), as does a mark that is not valid.  Proved for federations in which this does not happen: the answer names exactly those it should."
  },
  {
   "property": "C117",
   "status": "partial",
   "theorems": [
    "C117_who_asks_refuted",
    "C117_who_asks_partial"
   ],
   "note": "False: trawl is called with the entity itself as superior, also when another anchor was asked for, so entities below that anchor are only found if they are known already (witness).  Proved if the configurations of the entities the anchor lists are known."
  },
  {
   "property": "C118",
   "status": "proved",
   "theorems": [
    "C118_configuration",
    "C118_always"
   ],
   "note": "Full, for documents that can be read back (claims of the types message.py wants) and a signing key among the published ones, at times at which JWT.unpack is content with the times in the document."
  },
  {
   "property": "C119",
   "status": "partial",
   "theorems": [
    "C119_marks_refuted",
    "C119_marks_partial"
   ],
   "note": "False: if the marks are in a file, the name of the file is published instead (witness); get_trust_marks, which would read it, is only called if the attribute is callable.  Proved for all other ways."
  },
  {
   "property": "C120",
   "status": "partial",
   "theorems": [
    "C120_same_refuted",
    "C120_same_partial"
   ],
   "note": "False: the fetch endpoint publishes the metadata of the federation entity only, not of the whole (witness), and no trust marks.  Proved: all other claims agree, and the metadata agrees for an entity that is not part of anything."
  },
  {
   "property": "C121",
   "status": "proved",
   "theorems": [
    "C121_constraints",
    "C121_found"
   ],
   "note": "Full, as a composition of the models of the serving side (entity configuration and fetch endpoints) and of the collecting side (C92); C121_constraints is for registrations with constraints that can be evaluated (C22).  The network is the endpoints of the members; a registration has keys and what the endpoint can work with (C50), lifetimes exceed the allowed skew.  Endpoints are URLs without query and fragment, and are asked with the URLs the client makes (C150)."
  },
  {
   "property": "C122",
   "status": "partial",
   "theorems": [
    "C122_enforced_refuted",
    "C122_enforced_partial",
    "C122_subset_partial"
   ],
   "note": "False: a policy for the subordinate itself, even an empty one, switches the policies for its types off (witness).  Proved for all other subordinates: 'value' without further conditions, subset_of under those of C01."
  },
  {
   "property": "C123",
   "status": "partial",
   "theorems": [
    "C123_anchors_refuted",
    "C123_anchors_partial",
    "C123_keys_refuted",
    "C123_keys_partial"
   ],
   "note": "False: entities made without trust anchors share the dictionary in FEDERATION_ENTITY_FUNCTIONS, so an anchor added to one is an anchor of all of them (witness); and its keys get into the key jar of every entity made later, even one with its own trust anchors (witness).  Proved: the anchors are right for an entity made with a non-empty dictionary of its own, whatever others do; the keys too if all entities made earlier had their own."
  },
  {
   "property": "C124",
   "status": "partial",
   "theorems": [
    "C124_keys_of_anchors_refuted",
    "C124_shared_refuted",
    "C124_keys_of_anchors_partial"
   ],
   "note": "False: assigning to trust_anchors imports no keys (witness), and an anchor that comes through the shared default dictionary has its keys in one key jar only (witness).  Proved for an entity with a dictionary of its own to which nobody assigns."
  },
  {
   "property": "C125",
   "status": "partial",
   "theorems": [
    "C125_empty_refuted",
    "C125_default_refuted",
    "C125_default_or_none_partial"
   ],
   "note": "False both ways: the code tests services == [] for all three parts, so [] for endpoints means the default (witness) and [] for services takes the functions away that were not mentioned (witness).  Proved: exactly when a part is left out, and that it otherwise has the default items."
  },
  {
   "property": "C126",
   "status": "partial",
   "theorems": [
    "C126_settings_refuted",
    "C126_settings_partial"
   ],
   "note": "False: item_args are ignored for services and functions (witness).  Proved: init_kwargs for all parts, item_args for endpoints, and that nothing else changes."
  },
  {
   "property": "C127",
   "status": "partial",
   "theorems": [
    "C127_independent_refuted",
    "C127_independent_partial",
    "C127_classes_stay"
   ],
   "note": "False: settings for default items are written into the module's tables and stay (witness).  Proved for histories without settings; names and classes never change."
  },
  {
   "property": "C128",
   "status": "partial",
   "theorems": [
    "C128_asked_refuted",
    "C128_asked_partial",
    "C128_definitions_refuted",
    "C128_definitions_partial"
   ],
   "note": "False: unknown services are left out, and if nothing remains the default ones are used (witness); of a dictionary of functions only the names are used (witness).  Proved for endpoints and functions by name, for known services, and for definitions of services and endpoints."
  },
  {
   "property": "C129",
   "status": "partial",
   "theorems": [
    "C129_failed_refuted",
    "C129_failed_partial",
    "C129_content_type_refuted",
    "C129_success"
   ],
   "note": "False: a redirect is handed to update_service_context as the response (witness for both clients); and a 4xx response whose content type is the name of a format (\"json\") is parsed as the successful response (witness, client of an RP).  Proved for all other failures, and that successes are passed on as parsed."
  },
  {
   "property": "C130",
   "status": "partial",
   "theorems": [
    "C130_error_code_refuted",
    "C130_federation_refuted",
    "C130_error_text_partial"
   ],
   "note": "False for both clients: the client of an RP looks for a parser for the media type, finds none and reports the whole body as the error (witness); the federation client reports \"System error\" (witness).  Proved: what exactly is reported; the body is in it."
  },
  {
   "property": "C131",
   "status": "proved",
   "theorems": [
    "C131_logins_do_not_mix"
   ],
   "note": "Proved for all interleavings.  Hypothesis on idpyoidc: parsing an authorization response keeps its state; its checks look at the record of the session."
  },
  {
   "property": "C132",
   "status": "partial",
   "theorems": [
    "C132_id_token_refuted",
    "C132_id_token_partial",
    "C132_by_state_refuted",
    "C132_by_state_partial"
   ],
   "note": "False: for \"code id_token\" an ID token in the authorization response is ignored (witness); by state alone the implicit response types are a TypeError (witness).  Proved: ID tokens that are returned were verified in this login; by state alone works for the code types."
  },
  {
   "property": "C133",
   "status": "partial",
   "theorems": [
    "C133_valid_refuted",
    "C133_valid_partial",
    "C133_active"
   ],
   "note": "False: a token that comes without a lifetime gets the expiry of the one before (witness).  Proved if it comes with one or there was none before; the part on active authentications is proved."
  },
  {
   "property": "C134",
   "status": "partial",
   "theorems": [
    "C134_type_refuted",
    "C134_type_partial",
    "C134_mode",
    "C134_order_refuted",
    "C134_exception_refuted"
   ],
   "note": "False: with any arguments but no response type the request has the response type None (witness); the order of words matters if a mode is asked for (witness); exceptions other than KeyError become a TypeError because of \"except [..]\" (witness).  Proved: the type if the caller names one or gives no arguments; the mode."
  },
  {
   "property": "C135",
   "status": "partial",
   "theorems": [
    "C135_error_refuted",
    "C135_error_partial",
    "C135_completes_refuted",
    "C135_completes_partial",
    "C135_logout_refuted"
   ],
   "note": "False: an error without a state is a KeyError (witness), an access token without ID token and user information too (witness), logout without a service is an AttributeError (witness).  Proved: errors with a state; logins with an ID token."
  },
  {
   "property": "C136",
   "status": "partial",
   "theorems": [
    "C136_closed",
    "C136_failed_refuted",
    "C136_failed_partial"
   ],
   "note": "Clearing is proved (hypothesis: idpyoidc makes no refresh request for an unknown session).  False for refused responses: the response is filed before update_service_context checks it (witness).  Proved if nothing is refused at that point."
  },
  {
   "property": "C137",
   "status": "partial",
   "theorems": [
    "C137_code_refuted",
    "C137_code_partial"
   ],
   "note": "False: the parameters of the response overwrite those of the request in the session, and the response type is looked up there afterwards; a response with response_type=token and an access token of somebody's choice is accepted (witness).  Proved for responses without a response type."
  },
  {
   "property": "C138",
   "status": "partial",
   "theorems": [
    "C138_nonce_refuted",
    "C138_nonce_partial",
    "C138_state"
   ],
   "note": "False for the nonce: one given by the caller is sent, but the one that was drawn is bound (witness).  Proved without a nonce of the caller; the rest is proved."
  },
  {
   "property": "C139",
   "status": "proved",
   "theorems": [
    "C139_accepted",
    "C139_issued"
   ],
   "note": "Full for the file store of marks and histories as in C44; the policies along the issuer's paths leave its status endpoint alone (otherwise it cannot be asked)."
  },
  {
   "property": "C140",
   "status": "proved",
   "theorems": [
    "C140_resolved"
   ],
   "note": "Full for federations with constraints that can be evaluated (C22) and states of the resolver reached in this federation."
  },
  {
   "property": "C141",
   "status": "partial",
   "theorems": [
    "C141_granted_partial",
    "C141_granted_refuted"
   ],
   "note": "Refuted in full: a request for a signing algorithm of ID Tokens or user info fails with a KeyError, answered as an error, if the server has no preference for that claim. Proved for requests that only name algorithms the server has preferences for."
  },
  {
   "property": "C142",
   "status": "proved",
   "theorems": [
    "C142_registered",
    "C142_unreachable"
   ],
   "note": "Full for federations with constraints that can be evaluated (C22), clients whose adjusted metadata passes C141, and states of the server reached in this federation."
  },
  {
   "property": "C143",
   "status": "proved",
   "theorems": [
    "C143_answered",
    "C143_round_trip"
   ],
   "note": "Full for OpenID Connect, relying parties that publish metadata of one application type (C141), and states of both parties reached in this federation. Answers to relying parties with several usable paths are refused (C99). The request is any self-signed statement about the relying party with the metadata it publishes that has not expired; C156 shows that the library's own requests are such."
  },
  {
   "property": "C144",
   "status": "partial",
   "theorems": [
    "C144_files_partial",
    "C144_known_answered",
    "C144_host_refuted",
    "C144_quoted_refuted"
   ],
   "note": "Refuted in full: a host name that begins with https becomes the subject as it is instead of the identifier of the entity; for a quoted identifier the keys are loaded under the identifier and looked for under another name, so that the statement has none, and a later statement about the same entity by its host name gets the keys of the quoted directory (`C144_mixed`). Proved for other hosts, on objects that were not asked about quoted identifiers."
  },
  {
   "property": "C145",
   "status": "partial",
   "theorems": [
    "C145_configuration",
    "C145_fetch_partial",
    "C145_fetch_refuted"
   ],
   "note": "Refuted in full: issuer and subject are exchanged in the call, so the answer to a request for a statement is a statement by the subject about the entity asked, from the subject's files (`C145_fetch_partial`). Configurations are as they should be."
  },
  {
   "property": "C146",
   "status": "partial",
   "theorems": [
    "C146_insider_refuted",
    "C146_genuine_partial",
    "C146_network_attacker",
    "C146_swapped_refuted",
    "C146_metadata_partial",
    "C146_resolver_partial"
   ],
   "note": "Refuted in full: an entity that is registered with the trust anchor, but is not honest, can make a statement about the trust anchor with keys of its own; they go to the key jar for good, and later statements in the name of the anchor signed with them are accepted (`C146_insider_refuted`; cf. C15). Proved if nobody with a key that members vouch for says anything wrong about keys of members (`C146_genuine_partial`, `C146_metadata_partial`, `C146_resolver_partial`), in particular if all participants are members and the attacker only controls the network (`C146_network_attacker`). That the chains found for an entity are about that entity is refuted even then: the attacker can answer with the configuration of, and the statement about, another member (`C146_swapped_refuted`)."
  },
  {
   "property": "C147",
   "status": "partial",
   "theorems": [
    "C147_delegation_refuted",
    "C147_issued_partial",
    "C147_chains_partial"
   ],
   "note": "Refuted in full: the owners of trust marks are taken from a configuration of the trust anchor that is not verified against the keys of the anchor, so that a participant can present a delegation by an owner of its own making (`C147_delegation_refuted`). Proved otherwise if nobody with a key that members vouch for says anything wrong about keys of members and no key is shared by a member and another participant (`C147_issued_partial`; the chains found between checks are as in C146: `C147_chains_partial`). Trawling for configurations is not among the operations: it keeps configurations that are not self-signed. Answers of status endpoints are not signed and not among the operations."
  },
  {
   "property": "C148",
   "status": "partial",
   "theorems": [
    "C148_stolen_refuted",
    "C148_genuine_partial",
    "C148_closed_partial"
   ],
   "note": "Refuted in full: explicit OpenID Connect registration takes the metadata from the request, whose signature is checked with the keys inside only; the trust chains that are collected for its subject are not compared with it (cf. C82, C83). So anybody can register a member with keys and redirect URIs of their own (`C148_stolen_refuted`). Proved without explicit OpenID Connect registration, if nobody with a key that members vouch for says anything wrong about keys of members (`C148_genuine_partial`), in particular if all participants are members (`C148_closed_partial`). Which client a chain is about is not part of this (cf. C54, `C146_swapped_refuted`)."
  },
  {
   "property": "C149",
   "status": "partial",
   "theorems": [
    "C149_oauth_refuted",
    "C149_oidc_partial",
    "C149_provider_partial",
    "C149_login_partial"
   ],
   "note": "Refuted in full: nothing relates the key of an OAuth2 registration response to its issuer (`C149_oauth_refuted`; cf. C94). Proved for OpenID Connect responses, provider information and logins, if nobody with a key that members vouch for says anything wrong about keys of members (`C149_oidc_partial`, `C149_provider_partial`, `C149_login_partial`). A response has the client as its subject and the keys of the OP, which become keys of the client for those who verify it (C98): the keys of OPs count as keys of their clients here."
  },
  {
   "property": "C150",
   "status": "partial",
   "theorems": [
    "C150_query_refuted",
    "C150_fetch_partial",
    "C150_distinct_partial",
    "C150_resolve_partial",
    "C150_list_partial",
    "C150_marks_partial",
    "C150_status_refuted"
   ],
   "note": "Refuted in full: the clients of the list and trust mark endpoints append `?` and the query even if the endpoint has a query already (`C150_query_refuted`), and a status request with a trust mark goes to the issuer's identifier, not to its status endpoint (`C150_status_refuted`). Proved for all endpoints without a fragment for fetch and resolve requests, and for those without a query for the others (`C150_fetch_partial`, `C150_resolve_partial`, `C150_list_partial`, `C150_marks_partial`); `C150_distinct_partial` shows what `CollectorModel` takes for granted: different fetch requests have different URLs."
  },
  {
   "property": "C151",
   "status": "partial",
   "theorems": [
    "C151_shared",
    "C151_shadowed",
    "C151_sites_partial",
    "C151_tenants_partial",
    "C151_refuted"
   ],
   "note": "Refuted in full: the path of the identifier is dropped at first, so entities that share a host are asked for at the same place (`C151_shared`) and whatever is published for the host is taken (`C151_shadowed`, `C151_refuted`); an identifier that ends in a slash after a path is not found either. Proved for identifiers without a path, and for those with a path if there is no page for the host (`C151_sites_partial`, `C151_tenants_partial`)."
  },
  {
   "property": "C152",
   "status": "partial",
   "theorems": [
    "C152_reach_partial",
    "C152_topmost_partial",
    "C152_keys_partial",
    "C152_refuted",
    "C152_combo"
   ],
   "note": "Refuted in full: if the combo has keys as well, a trust mark issuer that is a part of the combo signs with the keys of the federation entity and reads with those of the combo (`C152_refuted`); if only the combo has keys, whoever takes `keyjar` of the federation entity gets none (`C152_combo`). Proved: every part finds the federation entity (`C152_reach_partial`, `C152_topmost_partial`); there is one key jar if the federation entity has keys and the combo has none (`C152_keys_partial`), which is how `build_entity.py` and the tests configure entities."
  },
  {
   "property": "C153",
   "status": "partial",
   "theorems": [
    "C153_named_refuted",
    "C153_named_partial",
    "C153_verified",
    "C153_explicit_refuted",
    "C153_explicit_partial"
   ],
   "note": "Refuted in full: the OAuth2 endpoints do not store the chains they rely on, and with `new_client_id` the chains are stored under the entity identifier while the response looks for the new one, so no trust anchor is named (`C153_named_refuted`); explicit registration does not store the chains where the response looks for them (`C153_explicit_refuted`, `C153_explicit_partial`). Proved for OIDC clients that keep their identifier: the anchor is that of the first chain and is named whatever is done for others later (`C153_named_partial`). `C153_verified`: whatever the history, an anchor that is named for a client is that of a chain verified for that client."
  },
  {
   "property": "C154",
   "status": "partial",
   "theorems": [
    "C154_found",
    "C154_adopted",
    "C154_issuer_refuted",
    "C154_issuer_partial",
    "C154_request",
    "C154_combo_refuted",
    "C154_combo_partial",
    "C154_client"
   ],
   "note": "Refuted in full: a trust mark entity publishes its endpoints under `trust_mark_entity` and names clients do not look for (`C154_issuer_refuted`; what it does publish there: `C154_issuer_partial`), and as a part of a combo its `get_metadata` cannot take the `entity_type` it is given, so the combo has no metadata at all (`C154_combo_refuted`). Proved: all endpoints of a federation entity are published (`C154_found`), also those it has taken over from a trust mark entity (`C154_adopted`); so they are in the metadata of a combo without a trust mark entity (`C154_combo_partial`); the client takes the trust mark endpoint from the first stored or verified chain of the issuer (`C154_client`) and asks for no mark without its identifier (`C154_request`)."
  },
  {
   "property": "C155",
   "status": "partial",
   "theorems": [
    "C155_claims_refuted",
    "C155_claims_partial",
    "C155_asking_refuted",
    "C155_asking_partial"
   ],
   "note": "Refuted in full: `policy_uri` and `logo_uri` can be given but are not in the schema (which has `policy_url`), so they are never said (`C155_claims_refuted`); `get_preferences` writes the endpoints into the preferences, so an endpoint that is taken away later is still published (`C155_asking_refuted`). Proved for all other claims (`C155_claims_partial`) and as long as the endpoints stay the same (`C155_asking_partial`)."
  },
  {
   "property": "C156",
   "status": "partial",
   "theorems": [
    "C156_oidc_refuted",
    "C156_oauth_refuted",
    "C156_oidc_partial",
    "C156_oauth_partial",
    "C156_answered_partial"
   ],
   "note": "Refuted in full: trust marks that are found by calling something are published, but the OIDC client puts the callable itself into the statement, which cannot be serialised (`C156_oidc_refuted`); of trust marks in a file the OAuth2 client sends the content while the entity publishes the name of the file, and superiors in a file that lists none are sent as the name of the file (`C156_oauth_refuted`). Proved when superiors and trust marks are at hand, for OAuth2 also if the marks are found by a call (`C156_oidc_partial`, `C156_oauth_partial`); in a federation of entities running the library the OP answers the request and registers the sender (`C156_answered_partial`, which uses C143). `C156_oauth_partial` also says that the request has the metadata of the client and of the other parts."
  },
  {
   "property": "C157",
   "status": "partial",
   "theorems": [
    "C157_priority",
    "C157_roots",
    "C157_entity_refuted",
    "C157_entity_partial",
    "C157_parts_refuted",
    "C157_parts_partial"
   ],
   "note": "Refuted in full: `FederationEntity` takes any keyword argument and passes no priorities, trusted roots, lifetime or trust marks on to its context, so it always takes the first chain (`C157_entity_refuted`, `C157_entity_partial` says what it works with); the client and server parts ignore the lifetime of their configuration, and the server part its trust marks (`C157_parts_refuted`; `C157_parts_partial` for the rest). Proved for `FederationContext` itself: priorities (`C157_priority`), trusted roots in ascending order (`C157_roots`)."
  },
  {
   "property": "C158",
   "status": "partial",
   "theorems": [
    "C158_refuted",
    "C158_preferences_partial"
   ],
   "note": "Refuted in full: `make_federation_combo` stores them as attributes of the context nobody reads; every trust mark with a delegation then makes the verifier fail with KeyError (`C158_refuted`). Proved if they are given as preferences (`C158_preferences_partial`)."
  },
  {
   "property": "C159",
   "status": "partial",
   "theorems": [
    "C159_client_refuted",
    "C159_client_partial",
    "C159_named_partial",
    "C159_server"
   ],
   "note": "Refuted in full: an oauth_client without services cannot be made, because the default services are chosen by the argument `client_type` instead of the type that was found (`C159_client_refuted`). `C159_client_partial` says exactly what is made and when nothing is made; `C159_named_partial` is the property for all other named clients; `C159_server` for servers."
  },
  {
   "property": "C160",
   "status": "proved",
   "theorems": [
    "C160_published",
    "C160_server_claims"
   ],
   "note": "The issuer needs a metadata schema that has the claim `issuer`, as those of idpyoidc have."
  },
  {
   "property": "C161",
   "status": "partial",
   "theorems": [
    "C161_refuted",
    "C161_partial"
   ],
   "note": "Refuted in full: superiors that are listed in a file are published as the name of the file (`C161_refuted`). Proved for all other contexts (`C161_partial`)."
  },
  {
   "property": "C162",
   "status": "proved",
   "theorems": [
    "C162_known",
    "C162_registration"
   ],
   "note": "`C162_known` needs that nobody above the OP has a policy for the issuer and that the keys in the metadata can be read; `C162_registration` that the OP supports the same registration types along every path and that no chains of it are remembered (C105 says what happens otherwise)."
  },
  {
   "property": "C163",
   "status": "partial",
   "theorems": [
    "C163_own_refuted",
    "C163_signed_partial"
   ],
   "note": "Refuted in full: the configuration found at the location of an entity need not be about that entity; get_info files the keys of whoever it is about under the identifier it was asked about (`C163_own_refuted`). `C163_signed_partial`: apart from the subject everything holds."
  },
  {
   "property": "C164",
   "status": "proved",
   "theorems": [
    "C164_set_up",
    "C164_chains",
    "C164_policies"
   ],
   "note": "`C164_set_up` needs that subordinates publish a federation_entity part (get_info raises KeyError otherwise), that superiors publish their fetch endpoint, and that policies are dictionaries as deep as they should be; superiors that were registered before (not by a command) may stay. `C164_chains` also needs that nobody was registered with constraints before."
  },
  {
   "property": "C165",
   "status": "proved",
   "theorems": [
    "C165_tree",
    "C165_checked",
    "C165_seen"
   ],
   "note": "`C165_tree` and `C165_checked` need that everybody on the tree publishes a federation_entity part and has authority hints (do_subordinates raises KeyError otherwise), and that the lists have no cycle (it would recurse for ever). An entity that has a list endpoint but no subordinates is not shown."
  },
  {
   "property": "C166",
   "status": "partial",
   "theorems": [
    "C166_type_fails_partial",
    "C166_by_type_refuted",
    "C166_lists_partial"
   ],
   "note": "Refuted in full: get_info writes entity_types, the list endpoint reads entity_type; once one entity is registered, every request by type ends in a KeyError (`C166_by_type_refuted`, `C166_type_fails_partial`). `C166_lists_partial`: without a type the lists are right. The assumption of C112 that list endpoints answer requests by type is therefore not met by superiors set up with the commands; C52 has the same disagreement for the endpoint alone."
  },
  {
   "property": "C167",
   "status": "partial",
   "theorems": [
    "C167_refuted",
    "C167_partial",
    "C167_party"
   ],
   "note": "Refuted in full: of trust marks in a file the page of trust anchors publishes the marks, the endpoint the name of the file (C119); of a file with an empty list of superiors the page publishes the name of the file as authority_hints, the endpoint nothing (`C167_refuted`). `C167_partial`: for all other sources the documents have the same claims; `C167_party` is for relying parties, whose page shows the metadata of one of their clients."
  },
  {
   "property": "C168",
   "status": "proved",
   "theorems": [
    "C168_page",
    "C168_traffic",
    "C168_same",
    "C168_found"
   ],
   "note": "`C168_found` and `C168_same` need that idpyoidc's parse_request hands iss and sub on and its do_response puts the text into the body (record web_works), that nobody's fetch endpoint is at a place that ends with the well-known path, and that which keys a token can be checked with does not depend on the authority_hints in it. The trust marks and superiors of entities with the page of trust anchors are as in C167_partial. `C168_page` and `C168_traffic` need none of that. The names of superiors in statements can be set by anybody (C51); they have no effect on chains."
  },
  {
   "property": "C169",
   "status": "partial",
   "theorems": [
    "C169_removed_refuted",
    "C169_in_time_refuted",
    "C169_removed_partial",
    "C169_recent_partial",
    "C169_in_time_partial"
   ],
   "note": "Refuted in full: nothing compares the exp of a fetched statement with the clock, neither the collector nor the verifier, and a statement is taken from whoever hands it out. An entity that was let go names a host of its own as superior, the host hands out the last statement of the trust anchor, and the chain is accepted for ever, with an exp in the past (`C169_removed_refuted`, `C169_in_time_refuted`). `C169_removed_partial`: where fetch endpoints hand out statements of their own only, a superior is out of all chains as soon as what it said before is within allowed_delta of its expiry, whatever the caches contain. `C169_recent_partial`: on any network, each statement above the leaf came during the call or was kept and is not about to expire; `C169_in_time_partial`: so it is enough that servers hand out nothing that has expired. Chains that are stored (C42) are returned for ever all the same; identifiers do not contain the separator of the cache (C35)."
  },
  {
   "property": "C170",
   "status": "partial",
   "theorems": [
    "C170_withdrawn_refuted",
    "C170_restarted_partial",
    "C170_kept"
   ],
   "note": "Refuted in full: verification adds keys to the key jar and never takes one out (C25), so who collected while the stolen key was in use accepts it for ever (`C170_withdrawn_refuted`; `C170_kept` is for all keys and histories). `C170_restarted_partial`: who starts again with a key jar without the key does not accept it on any network, even with the old caches; there allowed_delta counts on top of the lifetimes, because configurations are used until then (C36)."
  },
  {
   "property": "C171",
   "status": "partial",
   "theorems": [
    "C171_stored_refuted",
    "C171_undated_refuted",
    "C171_like_new_partial"
   ],
   "note": "Refuted in full: get_trust_chains returns stored chains for ever (`C171_stored_refuted`, see C42), and a configuration that was once published without exp makes every later look at that entity raise KeyError, also after the entity has corrected it (`C171_undated_refuted`, see C60). `C171_like_new_partial`: otherwise, for all histories and all later lists of questions (with chains asked only of entities of which none were stored), the answers are those of a newcomer with the same keys. The proof relates the two runs step by step: entries of the caches that are over are as good as absent."
  },
  {
   "property": "C172",
   "status": "partial",
   "theorems": [
    "C172_keeps_working_refuted",
    "C172_keeps_working_partial"
   ],
   "note": "Refuted in full: collect_branch reads self.config_cache[authority] after it has the statement about the entity; if that statement is still good in the cache while the authority's configuration there is within 300 s of its end, the cache removes the configuration and gives None, and collect_tree raises TypeError (`C172_keeps_working_refuted`). It happens with default lifetimes: rp is looked up through im at 0, rq through im at 40000 s, and from 86100 s to 126100 s every look at rq raises TypeError, unless a look at something else fetches im's configuration again. `C172_keeps_working_partial`: for all histories, every answer is the right one or this TypeError, and the TypeError never occurs in the first day (less 300 s) of a process. The proof relates the run to one in which time stands still: documents agree but for their times, and an invariant says that every cached statement was accompanied by a cached configuration."
  },
  {
   "property": "C173",
   "status": "partial",
   "theorems": [
    "C173_no_traces_refuted",
    "C173_no_traces_partial",
    "C173_no_traces_in_the_store_partial"
   ],
   "note": "Refuted in full: the TypeError of C172 occurs without any failure (`C173_no_traces_refuted`). `C173_no_traces_partial`: for all networks that fail as they like and all histories, every answer is the right one, or an exception of get_document while a request made for this very question failed, or the TypeError of C172, never in the first day of a process. `C173_no_traces_in_the_store_partial`: the same for get_trust_chains, so what is kept in the store is right. Assumed: where another member lives at the second well-known address of an identifier, the one at the first does not answer 404 (otherwise the wrong configuration would be taken)."
  },
  {
   "property": "C174",
   "status": "proved",
   "theorems": [
    "C174_never_wrong"
   ],
   "note": "Proved (`C174_never_wrong`) for get_verified_trust_chains, get_trust_chains and get_verified_metadata after any history; the clock need not even go forwards. What exceptions there are is C172 and C173. The assumption on neighbouring addresses is that of C173; a single request takes less than a day."
  },
  {
   "property": "C175",
   "status": "proved",
   "theorems": [
    "C175_only_right_clients",
    "C175_let_in"
   ],
   "note": "Proved (`C175_only_right_clients`, `C175_let_in`) for clients that send no trust chain along (with one, C54). Claims that the server matches with what it supports or checks (C73, C56) are not covered by `stored_from`; the keys of the clients are not covered (C142 for those). The server's answer has to keep client_id, as everywhere in C54."
  },
  {
   "property": "C176",
   "status": "proved",
   "theorems": [
    "C176_resolver_right",
    "C176_keys"
   ],
   "note": "Proved (`C176_resolver_right`, `C176_keys`). Which questions are answered is C140 for a federation in which nothing fails; the missing statements are those that have been taken out of the cache between collection and reading. The keys of an intermediate that came with a chain count as held (C24, C140)."
  },
  {
   "property": "C177",
   "status": "proved",
   "theorems": [
    "C177_genuine",
    "C177_keys"
   ],
   "note": "Proved (`C177_genuine`, `C177_keys`). Marks with a delegation are included; what a delegation says is not part of the conclusion (C49 for that, where it is refuted that the delegation is always checked). Marks that name issuers outside the federation are not covered. That genuine marks are accepted when nothing fails is C139."
  },
  {
   "property": "C178",
   "status": "proved",
   "theorems": [
    "C178_only_right_metadata",
    "C178_known",
    "C178_login",
    "C178_choice"
   ],
   "note": "Proved (`C178_only_right_metadata`, `C178_known`, `C178_login`, `C178_choice`). Hypothesis: the metadata of the OP that such ways lead to name it as issuer (`calls_itself`; `op_calls_itself` shows this for OPs made by this library when no policy is about the issuer, and C102 shows what happens otherwise). That the metadata are found when nothing fails is C162."
  },
  {
   "property": "C179",
   "status": "proved",
   "theorems": [
    "C179_only_right_answers",
    "C179_keys"
   ],
   "note": "Proved (`C179_only_right_answers`, `C179_keys`). The constraints need not be evaluable. An OP that a constraint excludes can still answer: its chains are collected and their signatures matter, whether they are accepted does not. Answers of members who do not do as they should are C98, and those made for other clients C95. That an honest answer is taken when nothing fails is C143."
  },
  {
   "property": "C180",
   "status": "proved",
   "theorems": [
    "C180_agreement"
   ],
   "note": "Proved (`C180_agreement`), on C179 for the client and C100 for the OP. Requests whose issuer is not their subject are left out: the OP answers to the issuer and stores under the subject without comparing them (C83). The OPs are any that run the library's answering code: what matters is that the keys they answer with are none of the forgers'."
  },
  {
   "property": "C181",
   "status": "proved",
   "theorems": [
    "C181_gets_in"
   ],
   "note": "Proved (`C181_gets_in`). That a day after the start cached configurations without entries for their statements can raise a TypeError is C172. An automatic registration is dropped before the client is registered anew, so that a failing request costs the client the entry it had (only its own); it gets a new one as soon as nothing fails."
  },
  {
   "property": "C182",
   "status": "proved",
   "theorems": [
    "C182_gets_to_know"
   ],
   "note": "Proved (`C182_gets_to_know`). That the metadata keep the issuer of the OP is proved for OPs that run this library in C162 (`op_calls_itself`). That nothing wrong is believed meanwhile is C178."
  },
  {
   "property": "C183",
   "status": "proved",
   "theorems": [
    "C183_taken"
   ],
   "note": "Proved (`C183_taken`). Only real responses are taken meanwhile: C179. An anchor with superiors of its own is left out, because what the client knows of its keys changes with what it has seen; for an empty metadata see C99."
  },
  {
   "property": "C184",
   "status": "proved",
   "theorems": [
    "C184_resolves"
   ],
   "note": "Proved (`C184_resolves`). Unlike in C176, where a statement may be missing in an answer given long after the start, no statement is missing here. The keys the resolver has (which decide which ways are usable) are those of the moment; for anchors without superiors they are those it began with (`C176_keys`)."
  },
  {
   "property": "C185",
   "status": "proved",
   "theorems": [
    "C185_delegated",
    "C185_accepted",
    "C185_issued"
   ],
   "note": "Proved (`C185_accepted`, and from the issue of the mark on `C185_issued`). That no forged mark is accepted meanwhile is C177. Marks with a delegation are in `C185_delegated`, which asks in addition that every trust anchor the issuer has a usable way to publishes `trust_mark_issuers`, and either does not list the id (there or in `trust_mark_owners`) or names the owner who signed the delegation."
  },
  {
   "property": "C186",
   "status": "proved",
   "theorems": [
    "C186_only_asked_for",
    "C186_only_members",
    "C186_answered"
   ],
   "note": "Proved (`C186_only_asked_for`, `C186_only_members`, `C186_answered`). What a request says need not be what its subject published: anybody can ask in the name of a member (C82, C83, and the third request in `C186_ex`). That clients take such answers is C183."
  },
  {
   "property": "C187",
   "status": "proved",
   "theorems": [
    "C187_right",
    "C187_chooses",
    "C187_registered"
   ],
   "note": "Proved (`C187_right`, `C187_chooses`, `C187_registered`). Joins C178, C179, C182, C183 and C186: turns and responses are mixed in one history of the relying party, and the response is one that the OP made out of its own history."
  },
  {
   "property": "C188",
   "status": "proved",
   "theorems": [
    "C188_same_as_status",
    "C188_subject",
    "C188_memory"
   ],
   "note": "Proved (`C188_same_as_status`, `C188_subject`, `C188_memory`). The answer that names a subject is {\"foo\": sub} in the code. Which marks the status endpoint finds active is C44 and C45; the list of all subjects is C46."
  },
  {
   "property": "C189",
   "status": "proved",
   "theorems": [
    "C189_answered",
    "C189_taken",
    "C189_several",
    "C189_round_trip"
   ],
   "note": "Proved (`C189_answered`, `C189_taken`, `C189_several`, `C189_round_trip`). The request is the member's entity configuration; the claim aud of request and answer is not modelled. The server collects from the configuration in the request and stores what the policies leave (C82); the client applies its policies to the answer a second time. A client with several usable paths refuses every answer (SystemError in oauth2/registration.py:172-173), even if the anchor that the server chose is at the end of one of them; this is `C189_several`."
  },
  {
   "property": "C190",
   "status": "proved",
   "theorems": [
    "C190_only_asked_for",
    "C190_answered"
   ],
   "note": "Proved (`C190_answered`, `C190_only_asked_for`). Requests in the history are entity configurations of members of any age, or documents that are not signed with a key in them; forged requests are the matter of C192, C83 and C148. The limit of a day is that of C173: cached configurations expire after it."
  },
  {
   "property": "C191",
   "status": "partial",
   "theorems": [
    "C191_oauth_refuted",
    "C191_oidc_refuted",
    "C191_oauth_partial",
    "C191_oidc_partial"
   ],
   "note": "Refuted in full for both kinds (`C191_oauth_refuted`, `C191_oidc_refuted`): the trust chain is collected for the claim sub of the request, the answer is about the claim iss, and nothing compares the two (oauth2/registration.py:63-92, oidc/registration.py:38-82 in appserver). With OAuth 2 somebody who has left the federation, but whose keys the server still has, gets a client by naming a member as subject. Partial: with OAuth 2 the keys of whoever is answered were known before or given in a statement collected (`C191_oauth_partial`); with OpenID Connect there is a chain for the subject, nothing more (`C191_oidc_partial`)."
  },
  {
   "property": "C192",
   "status": "proved",
   "theorems": [
    "C192_no_harm",
    "C192_answered"
   ],
   "note": "Proved (`C192_no_harm`, `C192_answered`). Requests may name superiors of the member they are about, superiors of others that have not registered it, and names nobody lives under; those that name others are not covered; with them it is false (C196, C197). That a forged request can put keys of its own under the name of the member is C193, that it can be answered is C191."
  },
  {
   "property": "C193",
   "status": "partial",
   "theorems": [
    "C193_keys_added_partial",
    "C193_keys_added_refuted"
   ],
   "note": "Refuted (`C193_keys_added_refuted`): the verifier adds the keys in the last statement of a chain to those of its subject like those of any other (verifier.py:73-96), and with OAuth 2 the last statement is the request (oauth2/registration.py:67-71), which need not be issued by its subject (C191). Somebody whose keys are still in the key jar puts them under the name of a member and is then taken for that member (`C193_ex`). Partial: nothing else is added, and only under the name that the request gives as its subject (`C193_keys_added_partial`)."
  },
  {
   "property": "C194",
   "status": "proved",
   "theorems": [
    "C194_where_from",
    "C194_honest"
   ],
   "note": "Proved (`C194_where_from`, `C194_honest`). Requests may name superiors of the member they are about, superiors of others that have not registered it, and names nobody lives under; those that name others are not covered, as in C192. The last of the four origins is the one that C193 is about."
  },
  {
   "property": "C195",
   "status": "proved",
   "theorems": [
    "C195_signed",
    "C195_honest"
   ],
   "note": "Proved (`C195_signed`, `C195_honest`): as long as the signature of the request has not been checked, only keys registered with superiors are added to the key jar. The one who is answered is the issuer of the request, not its subject (C191). That a key from an earlier forged request is among those accepted is C193; `C195_ex` shows the request that is refused before and answered after it."
  },
  {
   "property": "C196",
   "status": "partial",
   "theorems": [
    "C196_trust_anchor_refuted",
    "C196_trust_anchor_partial"
   ],
   "note": "Refuted (`C196_trust_anchor_refuted`): an authority hint to an entity without a fetch endpoint gives an empty branch (trust_chain_collector.py:286-288), an empty branch gives an empty chain (function/__init__.py:45-47), and the request is verified as a chain of its own if the keys of its issuer are known, as they are after a first registration. Of such a chain the metadata under the entity type '' is used, without policies (policy.py:384-386), and nothing compares the anchor with the configured trust anchors. Partial: it holds for requests that name superiors of their subject, superiors of others that have not registered it, and names nobody lives under, whoever makes them and whatever was asked before (`C196_trust_anchor_partial`)."
  },
  {
   "property": "C197",
   "status": "partial",
   "theorems": [
    "C197_anchor_keys_refuted",
    "C197_anchor_keys_partial"
   ],
   "note": "Refuted (`C197_anchor_keys_refuted`): with the empty chain of C196 a request is verified alone, and the keys in it are added to those of its subject (verifier.py:73-96), which can be a trust anchor. A member whose keys are known adds a key to those of the trust anchor and makes trust chains for anybody (`C197_ex`); the request itself ends in an error. Partial: it holds for the requests of `C196_trust_anchor_partial` (`C197_anchor_keys_partial`)."
  },
  {
   "property": "C198",
   "status": "proved",
   "theorems": [
    "C198_only_right_keys",
    "C198_own_keys",
    "C198_has_keys"
   ],
   "note": "Proved by an invariant over all visits, beside that of C175 (`C198_only_right_keys`, `C198_own_keys`), and a case analysis of the registration (`C198_has_keys`). Assumed: importing an absent JWKS gives no keys, the claims jwks, jwks_uri and client_id are not matched against what the server supports, identifiers made for clients are not names of members (`C198_own_keys` only). Clients that send trust chains of their own and explicit registration are not among the visits; for these see C148 and C192."
  },
  {
   "property": "C199",
   "status": "partial",
   "theorems": [
    "C199_brought_partial",
    "C199_only_right_clients",
    "C199_only_right_keys",
    "C199_expired_refuted"
   ],
   "note": "Refuted (`C199_expired_refuted`): neither verify_trust_chain nor the callers compare exp with the time (verifier.py:43-103 computes the expiration of the chain only), so a client gets in with a chain that has expired, for instance after it left the federation. Partial: everything else (`C199_brought_partial`), and nobody is stored with anything but their own metadata in histories in which members bring their own trust chains (`C199_only_right_clients`) or given any keys but their own (`C199_only_right_keys`). Chains of other entities are the subject of C54 and C148."
  },
  {
   "property": "C200",
   "status": "partial",
   "theorems": [
    "C200_expired_refuted",
    "C200_listed_partial",
    "C200_memory"
   ],
   "note": "Refuted (`C200_expired_refuted`): FileDB.list does not look at exp, FileDB.find does, so the holder of a mark that has expired is in the list although it is not found when asked for. Partial: whoever is found is in the list, and found means that a mark has not expired (`C200_listed_partial`; the latter, as in C44, in histories in order of time without expiry times of their own). Where nothing is found list gives None rather than an empty list."
  },
  {
   "property": "C201",
   "status": "partial",
   "theorems": [
    "C201_lasting_refuted",
    "C201_information_partial"
   ],
   "note": "Refuted (`C201_lasting_refuted`): where client_secret_expires is False the server leaves client_secret_expires_at out rather than saying 0, and its answer is not accepted by verify of the class of its answers. Partial (`C201_information_partial`): accepted if there is no secret, or if secrets expire; never otherwise. What idpyoidc's Message.verify looks at apart from the required id is taken to be fine (an arbitrary function that accepts the answer), and comb_uri is taken to leave the three claims alone."
  },
  {
   "property": "C202",
   "status": "proved",
   "theorems": [
    "C202_issuer",
    "C202_other_issuer",
    "C202_userinfo",
    "C202_bound"
   ],
   "note": "An answer without an issuer in the record counts as None (`C202_issuer`, second disjunct). What ID tokens and their claims are is idpyoidc's (lists of claims in the environment); the claims of the ID token are taken to have one value each (`C202_userinfo`)."
  },
  {
   "property": "C203",
   "status": "proved",
   "theorems": [
    "C203_all",
    "C203_one",
    "C203_always"
   ],
   "note": "The model with combined_policy does what the one of C01-C16 does (`record_call_same`). A policy that the metadata violates is in combined_policy although it was not applied (`C203_ex`); there is no metadata then. Aliasing between the recorded policy and the statements is not modelled."
  }
 ]
}