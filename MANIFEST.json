{
 "claims": [
  {
   "property": "C01",
   "status": "proved",
   "theorems": [
    "C01_token_active_iff_live",
    "C01_grant_active_iff_live",
    "C01_dead_token_stays_dead",
    "C01_dead_grant_stays_dead"
   ],
   "note": "Equivalence per record, and permanence over all later histories."
  },
  {
   "property": "C02",
   "status": "proved",
   "theorems": [
    "C02_code_redeemed_at_most_once"
   ],
   "note": ""
  },
  {
   "property": "C03",
   "status": "proved",
   "theorems": [
    "C03_replay_refused",
    "C03_replay_revokes_descendants",
    "C03_replay_revokes_oauth2_refuted"
   ],
   "note": "Exactly the descendants are revoked at the OpenID Connect endpoint. The plain OAuth2 endpoint refuses the replay but revokes nothing (C03_replay_revokes_oauth2_refuted)."
  },
  {
   "property": "C04",
   "status": "proved",
   "theorems": [
    "C04_recursive_revocation_exact",
    "C04_revoke_dependent_exact",
    "C04_single_revocation_exact",
    "C04_revoke_all_exact",
    "C04_revocation_of_long_chains_refuted",
    "C04_revoke_token_call",
    "C04_revoke_unknown_token",
    "C04_revocation_lasts"
   ],
   "note": "Exact on every forest whose depth is below the recursion limit; the refuted theorem records what happens above it."
  },
  {
   "property": "C05",
   "status": "proved",
   "theorems": [
    "C05_minting_guard",
    "C05_no_minting_otherwise",
    "C05_minting_succeeds"
   ],
   "note": ""
  },
  {
   "property": "C06",
   "status": "proved",
   "theorems": [
    "C06_minting_keeps_forest",
    "C06_scope_walk_ends",
    "C06_reachable_forest",
    "C06_reachable_scope_walk_ends"
   ],
   "note": "Every reachable grant is a forest; walks end within the recursion limit."
  },
  {
   "property": "C07",
   "status": "proved",
   "theorems": [
    "C07_token_scope_within_grant",
    "C07_answer_scope_within_grant",
    "C07_refresh_scope_checked",
    "C07_narrowed_token_refuted",
    "C07_id_token_scope_refuted"
   ],
   "note": "Scopes of codes, access and refresh tokens and of answers stay within the grant. Refuted for ID tokens made at the authorization endpoint, and the refresh check compares with the parent of the refresh token, so that a narrowed token can be widened again (C07_..._refuted)."
  },
  {
   "property": "C08",
   "status": "proved",
   "theorems": [
    "C08_tokens_go_to_their_client",
    "C08_one_owner"
   ],
   "note": ""
  },
  {
   "property": "C09",
   "status": "proved",
   "theorems": [
    "C09_redirect_uri_bound",
    "C09_mismatch_changes_no_token"
   ],
   "note": ""
  },
  {
   "property": "C10",
   "status": "proved",
   "theorems": [
    "C10_store_grant",
    "C10_store_client",
    "C10_store_user",
    "C10_store_again",
    "C10_reading_changes_nothing",
    "C10_change_is_local",
    "C10_parents_exist",
    "C10_children_exist",
    "C10_create_session",
    "C10_store_over_parent_refuted"
   ],
   "note": "Every store a server can build (storing users, clients, grants, storing again, aliases, deletion, flush, changes in place). Paths are those of user ids with ids that can be told apart in a key. Refuted beside it: storing a fresh record over a parent hides its children (the server does not do this: create_session stores parents only when absent)."
  },
  {
   "property": "C11",
   "status": "proved",
   "theorems": [
    "C11_session_key_roundtrip",
    "C11_session_keys_unambiguous",
    "C11_session_keys_collide_refuted"
   ],
   "note": "Exact condition for the round trip; the collision theorem records that identifiers containing ;; are ambiguous."
  },
  {
   "property": "C12",
   "status": "proved",
   "theorems": [
    "C12_lv_roundtrip",
    "C12_lv_unpack_of_pack",
    "C12_lv_pack_injective"
   ],
   "note": ""
  },
  {
   "property": "C13",
   "status": "proved",
   "theorems": [
    "C13_session_id_roundtrip",
    "C13_bad_session_id_is_ValueError",
    "C13_only_authentic_session_ids",
    "C13_whole_blocks"
   ],
   "note": ""
  },
  {
   "property": "C14",
   "status": "proved",
   "theorems": [
    "C14_remove_session_exact",
    "C14_remove_session_frame_refuted"
   ],
   "note": "For client ids that are not user ids; refuted otherwise (C14_remove_session_frame_refuted)."
  },
  {
   "property": "C15",
   "status": "proved",
   "theorems": [
    "C15_revoked_session_final",
    "C15_reports_revoked",
    "C15_answers_revoked",
    "C15_others_unaffected",
    "C15_new_login_refuted",
    "C15_removed_refuted",
    "C15_revoke_client_session_complete"
   ],
   "note": "Complete, confined and final over all later histories; the client session reports itself revoked as long as no session is removed (C15_removed_refuted shows why: a removed session is forgotten). C15_new_login_refuted: revoking does not lock the client out of a later log-in."
  },
  {
   "property": "C16",
   "status": "proved",
   "theorems": [
    "C16_revoked_grant_final",
    "C16_revoke_grant_call"
   ],
   "note": ""
  },
  {
   "property": "C17",
   "status": "proved",
   "theorems": [
    "C17_opaque_token_reports_session_and_class",
    "C17_opaque_token_refused_by_other_class",
    "C17_opaque_token_refused_under_other_key",
    "C17_opaque_token_expires_exactly",
    "C17_opaque_token_with_class_argument_refuted"
   ],
   "note": "For the classes the provider configures; refuted variant: an explicit token_class argument."
  },
  {
   "property": "C18",
   "status": "proved",
   "theorems": [
    "C18_jwt_accepted_only_if_verified_right_class_and_live",
    "C18_jwt_minted_is_accepted_until_expiry",
    "C18_jwt_refused_by_other_class",
    "C18_jwt_class_confusion_refuted",
    "C18_jwt_zero_lifetime_refuted"
   ],
   "note": "Refuted variants: a user claim named ttype, a zero life time."
  },
  {
   "property": "C19",
   "status": "proved",
   "theorems": [
    "C19_first_accepting_handler_answers",
    "C19_unknown_exactly_when_all_refuse",
    "C19_refusal_never_hides_a_later_handler",
    "C19_other_exceptions_come_from_a_handler",
    "C19_expired_jwt_is_unknown_refuted"
   ],
   "note": "Refuted variant: an expired JWT lets ToOld escape."
  },
  {
   "property": "C20",
   "status": "proved",
   "theorems": [
    "C20_field_by_field",
    "C20_no_client",
    "C20_asking_changes_nothing",
    "C20_no_leak",
    "C20_rules_of_histories",
    "C20_answer_is_a_copy_refuted",
    "C20_get_usage_rules_no_leak_refuted"
   ],
   "note": "On dicts in memory, with their sharing. Recorded beside it: the answer can be the client's own dict, and get_usage_rules writes into DEFAULT_USAGE (two _refuted theorems)."
  },
  {
   "property": "C21",
   "status": "proved",
   "theorems": [
    "C21_rotated_refresh_token_is_dead"
   ],
   "note": ""
  },
  {
   "property": "C22",
   "status": "proved",
   "theorems": [
    "C22_grant_type_refused",
    "C22_refresh_token_allowed"
   ],
   "note": ""
  },
  {
   "property": "C23",
   "status": "proved",
   "theorems": [
    "C23_verifier_matches_challenge"
   ],
   "note": ""
  },
  {
   "property": "C24",
   "status": "proved",
   "theorems": [
    "C24_missing_challenge_refused",
    "C24_unsupported_method_refused",
    "C24_accepted_request",
    "C24_configured_methods",
    "C24_essential_in_histories",
    "C24_method_without_challenge_refuted"
   ],
   "note": ""
  },
  {
   "property": "C25",
   "status": "proved",
   "theorems": [
    "C25_claims_match_exact",
    "C25_values_as_string_refuted"
   ],
   "note": "For specifications whose 'values' is a list; refuted for a string."
  },
  {
   "property": "C26",
   "status": "proved",
   "theorems": [
    "C26_claims_asked_for",
    "C26_released_claims_match",
    "C26_request_restriction_prevails",
    "C26_token_payload",
    "C26_configured_elsewhere_refuted"
   ],
   "note": "Claims of a release point, released user claims, token payloads. Refuted relative to the written configuration: lists of always-added claims are extended in place."
  },
  {
   "property": "C27",
   "status": "proved",
   "theorems": [
    "C27_scopes_to_claims_exact",
    "C27_scopes_add_no_restriction",
    "C27_filter_scopes_exact",
    "C27_unknown_scopes_denied",
    "C27_disallowed_scope_refused",
    "C27_empty_mapping_refuted"
   ],
   "note": "Refuted for an empty client mapping, which falls back to the standard one."
  },
  {
   "property": "C28",
   "status": "proved",
   "theorems": [
    "C28_active_only_if_live",
    "C28_live_is_not_inactive",
    "C28_revoked_grant_refuted",
    "C28_expired_grant_refuted",
    "C28_response",
    "C28_response_sub_refuted"
   ],
   "note": "Also the converse for live tokens, and the members of the response (C28_response). Recorded beside it: revoking the grant does not make its tokens inactive (C28_revoked_grant_refuted), nor does its expiry (C28_expired_grant_refuted); user claims take the place of members about the token (C28_response_sub_refuted)."
  },
  {
   "property": "C29",
   "status": "proved",
   "theorems": [
    "C29_userinfo_needs_live_token"
   ],
   "note": ""
  },
  {
   "property": "C30",
   "status": "proved",
   "theorems": [
    "C30_secret_needed",
    "C30_method_allowed",
    "C30_client_in_force",
    "C30_wrong_secret_refused",
    "C30_right_secret_accepted",
    "C30_wrong_secret_refused_everywhere_refuted",
    "C30_attributed_client_registered_refuted"
   ],
   "note": "Sound and complete for client_secret_basic and client_secret_post. Recorded beside it: with 'none' configured too a wrong secret falls through to unauthenticated attribution, and an endpoint without methods believes the client id of the request (two _refuted theorems)."
  },
  {
   "property": "C31",
   "status": "proved",
   "theorems": [
    "C31_accepted_once",
    "C31_assertion_checked",
    "C31_once_without_jti_refuted",
    "C31_request_param_audience_refuted",
    "C31_fresh_jti_accepted_refuted"
   ],
   "note": "Histories of attempts at any endpoints. Recorded beside it: without a jti there is no replay protection, request_param checks no audience, and the issuer:jti key can collide between clients (three _refuted theorems)."
  },
  {
   "property": "C32",
   "status": "proved",
   "theorems": [
    "C32_round_trip",
    "C32_accepted_iff",
    "C32_parsed_is_vouched",
    "C32_other_number_of_parts",
    "C32_only_what_was_made",
    "C32_time_stamp_bound_refuted",
    "C32_round_trip_every_value_refuted",
    "C32_round_trip_bar_refuted",
    "C32_forged_cookie_skipped_refuted",
    "C32_no_key_refuted"
   ],
   "note": "Round trip for every list of cookies in the three modes under the stated conditions on separators; acceptance characterised exactly; with unforgeable primitives only issued contents are accepted. The refuted theorems record where the round trip, the binding of the time stamp and the skipping of forged cookies fail."
  },
  {
   "property": "C33",
   "status": "proved",
   "theorems": [
    "C33_accepted_leads_to_registered",
    "C33_registered_accepted",
    "C33_request_redirect",
    "C33_direct_request_unchanged",
    "C33_answer_goes_there",
    "C33_get_uri",
    "C33_query_exact_refuted",
    "C33_decoded_differs_refuted",
    "C33_second_query_refuted",
    "C33_sender_refuted"
   ],
   "note": "All strings and registrations; urlsplit and parse_qs are modelled (Python 3.9). Refuted variants: parameters without value pass, the raw and not the decoded URI is used, of two registrations with the same base only the first is accepted, and a pushed request is checked for the client that pushed it."
  },
  {
   "property": "C34",
   "status": "proved",
   "theorems": [
    "C34_response_type",
    "C34_response_type_exact",
    "C34_response_mode",
    "C34_other_client_refuted"
   ],
   "note": "Refuted variant: with a request object naming another client, the sender's registration is what counts. response_modes_supported is never consulted by the code."
  },
  {
   "property": "C35",
   "status": "proved",
   "theorems": [
    "C35_used_at_most_once",
    "C35_stands_for_the_pushed_request",
    "C35_unknown_refused",
    "C35_bound_to_client_refuted"
   ],
   "note": "All histories of pushes and uses, uuid values distinct. Refuted variant: not bound to the pushing client. The advertised life time is not enforced by the code (the store has no times)."
  },
  {
   "property": "C36",
   "status": "proved",
   "theorems": [
    "C36_prompt_login",
    "C36_none_nobody",
    "C36_none_page",
    "C36_continues",
    "C36_none_refuted",
    "C36_max_age_renewed_refuted",
    "C36_max_age_ignored_refuted",
    "C36_id_token_hint_refuted",
    "C36_basic_password",
    "C36_basic_user",
    "C36_basic_cookie_refuted",
    "C36_disguise_refuted"
   ],
   "note": "Page-based log-in (user/password method) for the positive theorems; prompt=login for any method. The stronger readings are refuted by theorems with concrete runs."
  },
  {
   "property": "C37",
   "status": "proved",
   "theorems": [
    "C37_first_class_with_a_method",
    "C37_default",
    "C37_endpoint",
    "C37_single_method_refuted",
    "C37_other_claims_refuted",
    "C37_given_class_refuted",
    "C37_reused_key_refuted"
   ],
   "note": "All histories of registrations and removals in which a key is not re-used while in use. Refuted variants: a single method is used for any class; ID-token claims without acr break the choice; a class given by the caller; re-used keys."
  },
  {
   "property": "C38",
   "status": "proved",
   "theorems": [
    "C38_accepted",
    "C38_others_kept",
    "C38_history",
    "C38_plain_accepted",
    "C38_http_refuted",
    "C38_no_host_refuted",
    "C38_native_refuted",
    "C38_attributes_refuted",
    "C38_refused_leaves_client_refuted"
   ],
   "note": "Redirect URI rules on the text of the URI, preferences, record isolation and histories; plain https registrations succeed. The refuted theorems list what the rules let through: http for code-only web clients, URIs without host, native URIs with any scheme, fragment or bracketed host, client-chosen secret and scopes, and the client left behind by a refused registration."
  },
  {
   "property": "C39",
   "status": "proved",
   "theorems": [
    "C39_own_record",
    "C39_reads_back",
    "C39_needs_token",
    "C39_one_client",
    "C39_open_refuted",
    "C39_own_token_refuted"
   ],
   "note": "For the shipped configuration (bearer token in the header). Refuted: with no authentication method anyone reads any record; a client that names its own token is told one that opens nothing."
  },
  {
   "property": "C40",
   "status": "proved",
   "theorems": [
    "C40_confirmed",
    "C40_mismatch_refused",
    "C40_no_session_refused",
    "C40_changes_nothing",
    "C40_fitting_accepted",
    "C40_other_client_refuted",
    "C40_registered_refused_refuted"
   ],
   "note": "For all requests, cookies, registrations and session stores. Findings: C40_other_client_refuted (a client_id parameter overrides the session's client in the URI check) and C40_registered_refused_refuted (a post-logout URI stored by dynamic registration is never found by this check, the keys differ). The hint's own signature check is oidcmsg's and enters as verified claims."
  },
  {
   "property": "C41",
   "status": "proved",
   "theorems": [
    "C41_single_final",
    "C41_single_reported",
    "C41_single_confined",
    "C41_all_final",
    "C41_all_reported",
    "C41_all_confined",
    "C41_everywhere_refuted",
    "C41_own_session_refuted"
   ],
   "note": "Single-client and everywhere log-out, with frame, completeness of the messages and finality over later histories. Refuted stronger readings: log-out from everywhere skips clients without a log-out address (C41_everywhere_refuted) and even the calling session when its client has no ID token (C41_own_session_refuted). Delivery of back-channel messages is not modelled."
  },
  {
   "property": "C42",
   "status": "proved",
   "theorems": [
    "C42_login_response",
    "C42_direct_response"
   ],
   "note": "For every response to an authorization, after a log-in page or directly, from any history: code, access token and ID token are present exactly as asked, are new tokens of one grant of the authenticated user and the client; state, scopes and expires_in are what they should be; the ID token carries issuer, audience, subject, nonce, c_hash and at_hash of the same response. ID token handler assumed to be the ID token class for the last part."
  },
  {
   "property": "C43",
   "status": "proved",
   "theorems": [
    "C43_public",
    "C43_pairwise",
    "C43_stable_across_restarts",
    "C43_public_function",
    "C43_pairwise_function",
    "C43_sector_of_client_refuted",
    "C43_concatenation_refuted",
    "C43_public_and_pairwise_refuted",
    "C43_no_salt_refuted"
   ],
   "note": "Proved for userinfo answers in all histories (C43_public, C43_pairwise) and for the functions of every configured kind, including the salt file across any number of restarts. sha256 is a parameter; the conclusion names a collision instead of assuming there is none. Limits shown as refuted theorems: the sector comes from the request, so it does not separate clients; user and sector are concatenated; public and pairwise identifiers share a domain; without a configured salt identifiers change at restart. The registered subject_type is never used."
  },
  {
   "property": "C44",
   "status": "proved",
   "theorems": [
    "C44_proof_checked",
    "C44_proof_accepted",
    "C44_confirms_signing_key",
    "C44_code_answer_type",
    "C44_refresh_answer_type",
    "C44_payload_names_key",
    "C44_dpop_client_auth_never",
    "C44_type_and_algorithm_refuted",
    "C44_signing_key_refuted",
    "C44_proof_required_refuted",
    "C44_proof_at_userinfo_refuted"
   ],
   "note": "Refuted beside it: type and algorithm of the proof are not checked, the payload can name another key than the signing one, no proof is needed without HTTP information, and userinfo accepts a bound token without proof. The add-on's client authentication method never succeeds."
  },
  {
   "property": "C45",
   "status": "proved",
   "theorems": [
    "C45_advertised_is_supported",
    "C45_default_is_not_weak",
    "C45_unsupported_is_refused",
    "C45_fixed_refuted",
    "C45_weak_refuted",
    "C45_dpop_refuted",
    "C45_served_as_made",
    "C45_served_for_other_names_refuted"
   ],
   "note": "Whole path from configuration to provider_info is modelled. Refuted variants show that capabilities, configured weak algorithms and the DPoP list are not checked."
  },
  {
   "property": "C46",
   "status": "proved",
   "theorems": [
    "C46_backed_by_authorization"
   ],
   "note": ""
  },
  {
   "property": "C47",
   "status": "proved",
   "theorems": [
    "C47_token_response"
   ],
   "note": "ID token contents for the id_token handler of the model; the rest for all configurations."
  },
  {
   "property": "C48",
   "status": "proved",
   "theorems": [
    "C48_allowed_scopes",
    "C48_allowed_response",
    "C48_allowed_report",
    "C48_filtered_refuted"
   ],
   "note": "Proved for providers that deny unknown scopes; C48_filtered_refuted shows what happens otherwise."
  },
  {
   "property": "C49",
   "status": "proved",
   "theorems": [
    "C49_endpoint_answer",
    "C49_url_answer",
    "C49_form_answer",
    "C49_no_store",
    "C49_one_content_type",
    "C49_login_required",
    "C49_form_refuted",
    "C49_fragment_refuted",
    "C49_login_mode_refuted"
   ],
   "note": "URL and form delivery proved; three ways in which the code falls short are the _refuted theorems."
  },
  {
   "property": "C50",
   "status": "proved",
   "theorems": [
    "C50_userinfo_packed",
    "C50_encryption_refuted"
   ],
   "note": "Signing and encryption themselves are the JWT library's; the theorem says which it is asked for."
  },
  {
   "property": "C51",
   "status": "proved",
   "theorems": [
    "C51_restart_keeps_sessions",
    "C51_saved_again",
    "C51_restart_same_answers",
    "C51_grant_id_not_saved",
    "C51_removal_leaves_grant_refuted"
   ],
   "note": "Saving and restoring the session manager is an operation of every history, so C01-C50 range over restarts too. The _refuted theorem and C51_grant_id_not_saved record what a restart or a removal does not do."
  },
  {
   "property": "C52",
   "status": "proved",
   "theorems": [
    "C52_token_life_times",
    "C52_rules_of_the_client",
    "C52_negative_life_time",
    "C52_default_life_times",
    "C52_grant_life_time",
    "C52_grants_expire",
    "C52_dead_grant_gives_nothing",
    "C52_refresh_token_usable_refuted",
    "C52_client_rules_refuted"
   ],
   "note": "Invariant of every token and grant of every history. The default configuration's refresh tokens are dead on arrival (proved), a client's own rules do not govern copied grants (refuted)."
  },
  {
   "property": "C53",
   "status": "proved",
   "theorems": [
    "C53_userinfo_claims",
    "C53_introspection_claims"
   ],
   "note": "Upper and lower bound, over histories, for userinfo and introspection. For dicts without double keys; the lower bound is for the AuthzHandling class (not Implicit). ID tokens and JWT access tokens: see C26, per call."
  },
  {
   "property": "C54",
   "status": "proved",
   "theorems": [
    "C54_uninterrupted",
    "C54_histories_are_schedules",
    "C54_tokens_go_to_their_client",
    "C54_redirect_uri_bound",
    "C54_answer_scope_within_grant",
    "C54_refresh_only_if_allowed",
    "C54_reached_states",
    "C54_revoked_grant_is_final",
    "C54_dead_token_stays_dead",
    "C54_dead_grant_stays_dead",
    "C54_code_once_unless_overlapping",
    "C54_rotated_once_unless_overlapping",
    "C54_code_once_if_configuration_changes",
    "C54_code_once_refuted",
    "C54_rotated_once_refuted"
   ],
   "note": "All schedules of threads for the processing of token requests, with the configuration changing at any time (not the keys, random numbers, subject identifiers and grant rules); each action of a thread and every other call is atomic. The two _refuted theorems show that a code and a rotated refresh token can be used twice by overlapping requests."
  },
  {
   "property": "C55",
   "status": "proved",
   "theorems": [
    "C55_methods_as_configured",
    "C55_text_refused",
    "C55_authentication_demanded",
    "C55_switched_off",
    "C55_default_methods",
    "C55_no_methods_no_authentication",
    "C55_token_endpoint_authenticates_refuted",
    "C55_audience"
   ],
   "note": "The set-up of methods is proved equivalent to a relation between items and methods; what the methods mean for requests is over the model of client authentication (C30, C31). import_module is a parameter."
  },
  {
   "property": "C56",
   "status": "proved",
   "theorems": [
    "C56_value_or_default",
    "C56_parameters",
    "C56_keys_and_templates",
    "C56_others_dropped",
    "C56_given_is_kept_refuted",
    "C56_opaque_handler",
    "C56_jwt_handler",
    "C56_id_token_handler",
    "C56_only_the_specified",
    "C56_a_key_for_each_opaque",
    "C56_kinds_kept_apart",
    "C56_default_handlers",
    "C56_default_provider_handlers",
    "C56_named_opaque_class_refuted",
    "C56_zero_lifetime_refuted"
   ],
   "note": "Whole loop of EntityConfiguration.__init__ and whole factory; init_key_jar, Base.format and abspath are parameters. Refuted variants for empty values, dropped members, a named opaque class and lifetime 0."
  },
  {
   "property": "C57",
   "status": "proved",
   "theorems": [
    "C57_metadata_agrees",
    "C57_claims_advertised",
    "C57_custom_scopes_allowed",
    "C57_custom_scopes_release",
    "C57_custom_scopes_advertised",
    "C57_configured_mapping_kept_refuted",
    "C57_allowed_scopes_kept_refuted"
   ],
   "note": "Over the mapping theorem of C27. Refuted: a configured mapping and configured allowed scopes do not survive the add-on."
  },
  {
   "property": "C58",
   "status": "proved",
   "theorems": [
    "C58_wire_is_history",
    "C58_refused_changes_nothing",
    "C58_answer_has_request",
    "C58_tokens_need_credentials",
    "C58_no_secret_no_tokens",
    "C58_assertion_accepted_once",
    "C58_claims_need_bearer_token",
    "C58_introspection_needs_credentials",
    "C58_methods_are_enough_refuted",
    "C58_introspects_own_tokens_refuted"
   ],
   "note": "Client authentication composed with histories. Refuted: methods without none are enough (bearer_header accepts any text); introspection is limited to own tokens."
  },
  {
   "property": "C59",
   "status": "proved",
   "theorems": [
    "C59_login_response",
    "C59_direct_response",
    "C59_token_response",
    "C59_no_trace_of_others_refuted",
    "C59_sid_for_logout_only_refuted"
   ],
   "note": "all responses of the authorization endpoint and the token endpoint in any history; the claims part assumes that dictionaries have no duplicate keys (proper_dicts), as Python's have none; two findings as _refuted"
  },
  {
   "property": "C60",
   "status": "proved",
   "theorems": [
    "C60_tokens_confined",
    "C60_only_registered_uris",
    "C60_response_has_owner",
    "C60_code_redeemed_where_sent",
    "C60_pushed_by_its_client",
    "C60_pushes_need_the_secret"
   ],
   "note": "Every token of a client's grants leaves in an authorization response to a redirect URI of that client or in a token response to an authenticated request of that client; with secret-based methods and nobody showing the secret only the former. Codes are redeemed with the URI they were sent to."
  },
  {
   "property": "C61",
   "status": "proved",
   "theorems": [
    "C61_added",
    "C61_errors_and_forms",
    "C61_setup",
    "C61_elsewhere",
    "C61_unknown_attribute",
    "C61_form_refuted",
    "C61_keys_refuted"
   ],
   "note": "The round trip goes through the model of urllib.parse. Refuted for forms; the keys for introspection and token responses cannot be configured."
  },
  {
   "property": "C62",
   "status": "proved",
   "theorems": [
    "C62_own_log_in",
    "C62_stranger",
    "C62_after_revocation",
    "C62_after_log_out",
    "C62_sends_back",
    "C62_same_histories",
    "C62_every_grant"
   ],
   "note": "Browsers that send cookies they were given get responses only for users that logged in with them; log-in page otherwise; nothing after revocation or log-out until a new log-in. The log-out theorem assumes that no session of the user with the client was removed from the store before (the revocation theorem does not)."
  },
  {
   "property": "C63",
   "status": "proved",
   "theorems": [
    "C63_state_fits",
    "C63_when_told",
    "C63_one_client",
    "C63_until_next",
    "C63_log_out_noticed",
    "C63_still_logged_in_refuted",
    "C63_front_channel_refuted"
   ],
   "note": "Model of the session-management cookie and session_state on top of the browsers of C62. C63_until_next is an equivalence over whole histories. Two refuted theorems: logging in at a second client changes the first client's state; a log-out with front-channel frames leaves it unchanged (example application)."
  },
  {
   "property": "C64",
   "status": "proved",
   "theorems": [
    "C64_password",
    "C64_token",
    "C64_response",
    "C64_own_form",
    "C64_every_grant",
    "C64_tokens",
    "C64_userinfo",
    "C64_same_browser_refuted",
    "C64_once_refuted",
    "C64_hinted_user_refuted"
   ],
   "note": "Full. That the form comes from the browser that was shown the page, that a form is answered once, and that the user of a login hint is the one who logs in, are refuted (C64_same_browser_refuted, C64_once_refuted, C64_hinted_user_refuted)."
  },
  {
   "property": "C65",
   "status": "proved",
   "theorems": [
    "C65_grants",
    "C65_tokens",
    "C65_uses",
    "C65_live_until_ended"
   ],
   "note": "Grants and tokens are revoked, and tokens are counted as used, only by calls meant to do that; access tokens that no call is meant to end stay live until they expire. Session ids given to the revocation functions are assumed to name a session if they can be read."
  },
  {
   "property": "C66",
   "status": "proved",
   "theorems": [
    "C66_code_request_succeeds",
    "C66_parsed_request_answered",
    "C66_refresh_request_succeeds",
    "C66_opaque_tokens_recognised"
   ],
   "note": "Codes: both stages, and the second alone; refresh tokens: both stages. Exact content of the answers."
  },
  {
   "property": "C67",
   "status": "proved",
   "theorems": [
    "C67_userinfo_answers",
    "C67_introspection_answers",
    "C67_honoured_until_ended"
   ],
   "note": "Userinfo and introspection."
  },
  {
   "property": "C68",
   "status": "proved",
   "theorems": [
    "C68_login_succeeds",
    "C68_known_user_succeeds",
    "C68_single_sign_on_succeeds",
    "C68_login_leads_to_tokens"
   ],
   "note": "Histories as in C01-C09. The response type is code; the user's name is not itself text that decrypts to a session id."
  },
  {
   "property": "C69",
   "status": "proved",
   "theorems": [
    "C69_lookup_lasts",
    "C69_code_until_ended",
    "C69_refresh_until_ended",
    "C69_access_until_ended",
    "C69_login_code_survives",
    "C69_signed_on_until_ended",
    "C69_single_sign_on_until_ended"
   ],
   "note": "Histories as in C01-C09. The user's name is not itself text that decrypts to a session id; deletions of sessions after the issue are excluded."
  }
 ]
}