{"id": "C01", "title": "A token is usable exactly while it is live", "statement": "A token or grant reports itself active at a given time if and only if it has not been revoked, its usage counter is below its maximum (when it has one), the time is not before its not-before mark (when it has one) and not after its expiry (when it has one). Once it has been revoked, used up or has expired, no sequence of later session operations (with a clock that does not go backwards) makes it active again.", "quantifier": "all tokens, all times, all sequences of later operations", "why_tests_cant": "Unit tests sample a handful of timestamps and never a whole later history; the claim is an equivalence over all times plus a monotonicity claim over histories.", "anchors": ["src/oidcop/session/token.py:Item.is_active", "src/oidcop/session/token.py:Item.max_usage_reached", "src/oidcop/session/token.py:AuthorizationCode.set_defaults"]}
{"id": "C02", "title": "An authorization code is redeemed at most once", "statement": "However token requests, refreshes, revocations, logouts, new authorizations and deletions are interleaved - including a second request for the same code being parsed before the first one is processed - at most one token response is ever produced for one authorization code.", "quantifier": "all histories and all interleavings of the parse and process phases of requests, at all times", "why_tests_cant": "The number of interleavings is unbounded; tests only try the plain replay after a finished redemption.", "anchors": ["src/oidcop/oauth2/token.py:AccessTokenHelper", "src/oidcop/oidc/token.py:AccessTokenHelper", "src/oidcop/session/grant.py:Grant.mint_token"]}
{"id": "C03", "title": "Replaying a code at the OIDC token endpoint kills everything derived from it", "statement": "If an authorization code that has already been redeemed is presented again, the request is refused with invalid_grant and every token that was minted from that code, directly or through any chain of refreshes, is revoked; tokens not derived from the code, and everything else in the session store, are left as they were.", "quantifier": "all reachable session states, all derivation trees of any depth, all codes", "why_tests_cant": "Derivation trees are unbounded; tests try one level.", "anchors": ["src/oidcop/oidc/token.py:AccessTokenHelper.post_parse_request", "src/oidcop/session/grant.py:Grant.revoke_token"]}
{"id": "C04", "title": "Recursive revocation is exact", "statement": "Revoking a token recursively marks the token and all tokens transitively minted from it as revoked, and no other token; revoking it non-recursively marks only that token; revoking with no selector marks all tokens of the grant. Nothing but the revoked flag changes. This holds for chains shorter than the interpreter's recursion limit; a longer chain makes the revocation fail half way (recorded as a finding).", "quantifier": "all grants reachable by minting, all tokens, all depths", "why_tests_cant": "Exactness (nothing missed, nothing extra) over unbounded trees is out of reach of examples.", "anchors": ["src/oidcop/session/grant.py:Grant.revoke_token", "src/oidcop/session/manager.py:SessionManager.revoke_token", "src/oidcop/session/manager.py:SessionManager._revoke_dependent"]}
{"id": "C05", "title": "Tokens are minted only from live, permitting parents", "statement": "A token is minted only while its grant is active and, when minted from another token, only if that token is active and its usage rules list the new token's class; in every other case nothing is added to the grant.", "quantifier": "all grants, all parent tokens, all token classes, all times", "why_tests_cant": "Universal over states of grant and parent; tests fix one configuration each.", "anchors": ["src/oidcop/session/grant.py:Grant.mint_token", "src/oidcop/session/token.py:SessionToken.supports_minting"]}
{"id": "C06", "title": "Token derivation is a forest, so chain walks end", "statement": "In every reachable session the parent of a token was issued earlier in the same grant, so looking up the scope a token inherits, and revoking a token with its descendants, always terminates and never exhausts the stack because of a cycle.", "quantifier": "all reachable grants", "why_tests_cant": "Termination over all histories cannot be tested.", "anchors": ["src/oidcop/session/grant.py:Grant.find_scope", "src/oidcop/session/grant.py:Grant.revoke_token", "src/oidcop/session/grant.py:Grant.mint_token"]}
{"id": "C07", "title": "Scope never grows beyond what the grant holds", "statement": "Every code, access token and refresh token ever issued from a grant through the authorization and token endpoints, along any chain of code redemption and refreshes with any requested scopes, carries only scopes of the grant, which are those the authorization was for, and so does every token response; a refresh asking for anything outside the scope its parent chain carries is refused. (ID tokens from the authorization endpoint carry the requested scope even when policy fixes a smaller one, and a refresh token narrowed once can be widened again: both recorded as findings.)", "quantifier": "all histories, all requested scope lists, all refresh-chain lengths", "why_tests_cant": "Unbounded refresh chains and all scope lists.", "anchors": ["src/oidcop/oidc/token.py:RefreshTokenHelper", "src/oidcop/oauth2/token.py:RefreshTokenHelper", "src/oidcop/session/grant.py:Grant.find_scope"]}
{"id": "C08", "title": "Tokens are only handed to the client they belong to", "statement": "A token request (code or refresh token) succeeds only if the client named in the request is the client whose session the code or refresh token belongs to; the newly minted tokens belong to that same user, client and grant.", "quantifier": "all session states, all requests, all clients", "why_tests_cant": "Quantifies over all states and all pairs of clients.", "anchors": ["src/oidcop/oauth2/token.py:AccessTokenHelper.process_request", "src/oidcop/oidc/token.py:AccessTokenHelper.process_request", "src/oidcop/oauth2/token.py:RefreshTokenHelper.process_request", "src/oidcop/oidc/token.py:RefreshTokenHelper.process_request"]}
{"id": "C09", "title": "Code redemption is bound to the redirect URI of the authorization request", "statement": "If the authorization request carried a redirect_uri, redeeming its code succeeds only when the token request carries exactly the same string; on mismatch no token is minted and the code stays unused.", "quantifier": "all requests, all session states", "why_tests_cant": "Universal over strings and states; frame condition included.", "anchors": ["src/oidcop/oauth2/token.py:AccessTokenHelper.process_request", "src/oidcop/oidc/token.py:AccessTokenHelper.process_request"]}
{"id": "C10", "title": "The session store behaves like a tree keyed by user, client and grant", "statement": "Storing a value under a path and reading paths back behaves like a map from (user), (user, client) and (user, client, grant) to values: a read returns the last value stored under exactly that path, storing under one path never changes what another path returns, and parents of a stored path exist. Sessions of different users, clients or grants never bleed into each other.", "quantifier": "all sequences of stores and reads, all identifiers not containing the separator", "why_tests_cant": "Needs all operation sequences and all identifier strings; tests use two or three fixed names.", "anchors": ["src/oidcop/session/database.py:Database.set", "src/oidcop/session/database.py:Database.get", "src/oidcop/session/database.py:Database.session_key"]}
{"id": "C11", "title": "Session keys pack and unpack faithfully", "statement": "Packing a list of identifiers into a session key and unpacking it returns the same list exactly when no identifier contains the separator and no identifier but the last ends in the separator's first character; two different identifier triples of that kind never share a key.", "quantifier": "all lists of identifiers", "why_tests_cant": "Quantifies over all strings; the failing corner cases are never tried by tests.", "anchors": ["src/oidcop/session/database.py:Database.session_key", "src/oidcop/session/database.py:Database.unpack_session_key", "src/oidcop/constant.py:DIVIDER"]}
{"id": "C12", "title": "Length-value packing round-trips", "statement": "Unpacking a packed list of strings returns the same list exactly when the last string does not end in white space; in particular separators, digits and colons inside the values are harmless.", "quantifier": "all lists of strings", "why_tests_cant": "All strings, including adversarial ones with digits and colons.", "anchors": ["src/oidcop/util.py:lv_pack", "src/oidcop/util.py:lv_unpack"]}
{"id": "C13", "title": "Session identifiers decode to what they were made from", "statement": "Decrypting an encrypted session identifier returns exactly the user, client and grant it was created from, for all identifiers that are well-formed; a string that is not a valid ciphertext raises ValueError and nothing else.", "quantifier": "all identifier triples, all strings", "why_tests_cant": "All strings; needs the codec and padding facts for all lengths.", "anchors": ["src/oidcop/session/database.py:Database.encrypted_session_id", "src/oidcop/session/database.py:Database.decrypt_session_id", "src/oidcop/util.py:Crypt"]}
{"id": "C14", "title": "Deleting a session removes that session and nothing else", "statement": "Removing the session of one (user, client, grant) makes that grant unreachable and leaves every other user's, client's and grant's session readable as before. This is for client ids that are not user ids as well: the code stores a left-over entry under the bare client id (recorded as a finding).", "quantifier": "all store states reachable by storing sessions, all paths", "why_tests_cant": "Frame condition over all other paths, states with many siblings.", "anchors": ["src/oidcop/session/database.py:Database.delete", "src/oidcop/session/manager.py:SessionManager.remove_session"]}
{"id": "C15", "title": "Revoking a client session is complete and final", "statement": "After a client session is revoked, the client session and every grant under it report themselves revoked, in every later state, so that no token can be minted from any of them again; other clients' and users' sessions are unaffected.", "quantifier": "all reachable states, all later histories", "why_tests_cant": "A statement about all later histories.", "anchors": ["src/oidcop/session/manager.py:SessionManager.revoke_client_session", "src/oidcop/session/info.py:SessionInfo.revoke"]}
{"id": "C16", "title": "A revoked grant mints nothing, for ever", "statement": "After a grant has been revoked, no later sequence of operations adds a token to it.", "quantifier": "all reachable states, all later histories", "why_tests_cant": "A statement about all later histories.", "anchors": ["src/oidcop/session/manager.py:SessionManager.revoke_grant", "src/oidcop/session/grant.py:Grant.mint_token"]}
{"id": "C17", "title": "Opaque tokens reveal exactly their session and class to the right handler", "statement": "A token minted by the opaque-token handler of one class is recognised by that handler, which reports the session id it was minted for and its class; handlers of other classes refuse it even if they share the key; it expires exactly after the handler's lifetime (never, for a negative lifetime).", "quantifier": "all session ids, classes, lifetimes, random values, times", "why_tests_cant": "All strings and times; depends on the packing round trip for all session ids.", "anchors": ["src/oidcop/token/__init__.py:DefaultToken", "src/oidcop/token/__init__.py:is_expired"]}
{"id": "C18", "title": "JWT access tokens are only accepted for their class and life time", "statement": "A JWT token is accepted by a handler only if the signature verifies, it is of the handler's class and has not expired; the reported session is the one it was minted for. This is for payloads whose user claims do not use the server's own claim names, and life times other than zero (both recorded as findings).", "quantifier": "all payloads, classes, times", "why_tests_cant": "Universal over payloads and times.", "anchors": ["src/oidcop/token/jwt_token.py:JWTToken.info", "src/oidcop/token/jwt_token.py:JWTToken.__call__"]}
{"id": "C19", "title": "Token look-up tries handlers in order and only then says unknown", "statement": "Looking up a token yields the information of the first handler, in configured order, that accepts it; it raises UnknownToken only if every handler refuses it, and refusals of one handler never hide a later one. The exception is an expired JWT: its handler's ToOld ends the search (recorded as a finding).", "quantifier": "all handler lists, all tokens", "why_tests_cant": "All handler behaviours and orders.", "anchors": ["src/oidcop/token/handler.py:TokenHandler.get_handler", "src/oidcop/token/handler.py:TokenHandler.info"]}
{"id": "C20", "title": "Usage rules: client settings override global ones, field by field", "statement": "The usage rules for a client are, for every token class and every field, the client's value if it has one, else the global one; an explicitly empty client entry clears the class; a client without own rules gets the global rules; asking for one client's rules never changes those of another.", "quantifier": "all rule tables, all clients, all token classes", "why_tests_cant": "All combinations of tables; the merge also must not leak between calls.", "anchors": ["src/oidcop/authz/__init__.py:AuthzHandling.usage_rules", "src/oidcop/session/grant.py:get_usage_rules"]}
{"id": "C21", "title": "A rotated refresh token is dead", "statement": "With refresh-token rotation switched on, a refresh token that has produced a response never produces another one, in any later history.", "quantifier": "all later histories", "why_tests_cant": "All later histories.", "anchors": ["src/oidcop/oidc/token.py:RefreshTokenHelper.process_request", "src/oidcop/oauth2/token.py:RefreshTokenHelper.process_request"]}
{"id": "C22", "title": "Clients only use grant types they may use", "statement": "A token request whose grant type is not among the client's supported grant types, or has no handler, is refused before any session state is touched; a refresh token is handed out on code redemption only if the client's (or provider's) supported grant types include refresh_token.", "quantifier": "all clients, all requests", "why_tests_cant": "All configurations.", "anchors": ["src/oidcop/oauth2/token.py:Token._post_parse_request", "src/oidcop/oidc/token.py:AccessTokenHelper.process_request"]}
{"id": "C23", "title": "PKCE binds the code to the verifier", "statement": "If an authorization request carried a code challenge, its code can be redeemed only by a request whose code_verifier transforms, under the challenge method of that request, to the stored challenge.", "quantifier": "all histories of calls, all verifiers, all supported methods", "why_tests_cant": "All strings.", "anchors": ["src/oidcop/oidc/add_on/pkce.py:post_token_parse", "src/oidcop/oidc/add_on/pkce.py:post_authn_parse", "src/oidcop/oidc/add_on/pkce.py:verify_code_challenge"]}
{"id": "C24", "title": "Essential PKCE cannot be skipped", "statement": "With PKCE essential (by the client's own setting, else the provider's), an authorization request without a code challenge is refused, as is one whose challenge method is not configured; an accepted request is the request sent, with method plain filled in if it named none, and if it carries a challenge its method is one of those configured, which are among plain, S256, S384 and S512. In every history no code of such a client is redeemed without a matching verifier. (The method of an accepted request without a challenge is not checked.)", "quantifier": "all requests, all configurations, all histories", "why_tests_cant": "All combinations of fields and configurations.", "anchors": ["src/oidcop/oidc/add_on/pkce.py:post_authn_parse"]}
{"id": "C25", "title": "A claim value is released only if it matches the request", "statement": "A user attribute matches a claims-request specification only if the specification is empty, or the attribute equals its value / is among its values; a specification that only says essential (true or false) accepts any value. This is for specifications in which 'values' is a list, as the standard has it (a string is recorded as a finding).", "quantifier": "all claim values and specifications", "why_tests_cant": "All specifications.", "anchors": ["src/oidcop/session/claims.py:claims_match"]}
{"id": "C26", "title": "No user claim leaves the server that was not asked for and allowed", "statement": "The user claims put in a userinfo response, ID token, access token or introspection answer are among those (a) requested by the claims parameter for that release point, (b) mapped from the scopes in use when claims by scope are switched on, or (c) configured for that release point or client; each released claim exists for the user and matches its restriction.", "quantifier": "all requests, configurations, scopes and user databases", "why_tests_cant": "All combinations of request, configuration and user data.", "anchors": ["src/oidcop/session/claims.py:ClaimsInterface.get_claims", "src/oidcop/session/claims.py:ClaimsInterface.get_user_claims", "src/oidcop/scopes.py:convert_scopes2claims"]}
{"id": "C27", "title": "Only allowed scopes are mapped to claims", "statement": "A scope contributes claims only if it is allowed for the client (its own list if it has one, else the provider's) and defined in the mapping; custom mappings of a client replace the standard ones; with unknown scopes denied, a request containing a disallowed scope is refused. An empty mapping of a client counts as none (recorded as a finding).", "quantifier": "all scope lists, mappings and clients", "why_tests_cant": "All combinations.", "anchors": ["src/oidcop/scopes.py:convert_scopes2claims", "src/oidcop/scopes.py:Scopes", "src/oidcop/oauth2/authorization.py:check_unknown_scopes_policy"]}
{"id": "C28", "title": "Introspection says active only for live tokens", "statement": "Introspection answers active=true only for a token that is known, belongs to a session, and is an active access or refresh token; for all others the answer is active=false and discloses nothing else. The members of the answer are those of the token and its grant, but for user claims of the same name, which take their place.", "quantifier": "all tokens, all session states, all times", "why_tests_cant": "All states and times.", "anchors": ["src/oidcop/oauth2/introspection.py:Introspection._introspect", "src/oidcop/oauth2/introspection.py:Introspection.process_request"]}
{"id": "C29", "title": "Userinfo needs a live access token and a valid login", "statement": "The userinfo endpoint returns claims only for an access token that is active in its session and whose authentication is still valid at that time (offline access makes no difference); the claims are those of the session's user, restricted to those granted for userinfo, plus the session's subject as sub and possibly the acr of the login.", "quantifier": "all session states, all times", "why_tests_cant": "All states and times.", "anchors": ["src/oidcop/oidc/userinfo.py:UserInfo.process_request", "src/oidcop/oidc/userinfo.py:UserInfo.parse_request"]}
{"id": "C30", "title": "Client authentication is sound", "statement": "A request is attributed to a client by a secret-based method only if it carries that client's current secret, the client exists and its secret has not expired; methods the endpoint does not allow are never used. An endpoint that allows secret-based methods only refuses every request without a right secret, and accepts one with it.", "quantifier": "all requests, client databases, times, method configurations", "why_tests_cant": "All combinations; fall-through between methods hides holes from tests.", "anchors": ["src/oidcop/client_authn.py:verify_client", "src/oidcop/client_authn.py:ClientSecretBasic", "src/oidcop/client_authn.py:ClientSecretPost", "src/oidcop/client_authn.py:valid_client_info"]}
{"id": "C31", "title": "A client assertion is accepted once", "statement": "A client-authentication JWT (private_key_jwt, client_secret_jwt) with a given non-empty jti from a given issuer is accepted at most once in any history, and only if it is addressed to the endpoint, verifies, and is signed with a permitted algorithm: a symmetric one under the client's secret for client_secret_jwt, any other for private_key_jwt.", "quantifier": "all histories of authentication attempts", "why_tests_cant": "Replay protection is a statement about histories.", "anchors": ["src/oidcop/client_authn.py:JWSAuthnMethod.verify"]}
{"id": "C32", "title": "Cookies are authentic", "statement": "A cookie value made by the cookie handler is parsed back to the same payload, type and time stamp; a value whose signature or authentication tag does not verify under the handler's keys, or has an unknown number of parts, is never parsed to a payload.", "quantifier": "all payloads, all strings presented as cookies", "why_tests_cant": "All strings, including adversarial ones.", "anchors": ["src/oidcop/cookie_handler.py:CookieHandler._sign_enc_payload", "src/oidcop/cookie_handler.py:CookieHandler._ver_dec_content", "src/oidcop/cookie_handler.py:CookieHandler.parse_cookie"]}
{"id": "C33", "title": "Redirects go only to registered URIs", "statement": "An authorization request is accepted only if its redirect_uri, percent-decoded, is one registered for the client the request names: scheme (up to case), host, port and path are equal and the query carries the same parameters with the same values as the registered one. Registered URIs are accepted. The answer is sent only to such a URI.", "quantifier": "all URIs and registrations", "why_tests_cant": "All strings; open-redirect holes live in corner cases.", "anchors": ["src/oidcop/oauth2/authorization.py:verify_uri", "src/oidcop/oauth2/authorization.py:get_uri"]}
{"id": "C34", "title": "Only registered response types are honoured", "statement": "An authorization request is processed only if its response type, as an unordered set of words, is one registered for the client ('code' if none is registered). A response with an access token or an ID token is never put into the query of the redirect, and a response mode that is asked for is the one used, or the answer is an error.", "quantifier": "all requests, all registrations", "why_tests_cant": "All combinations.", "anchors": ["src/oidcop/oauth2/authorization.py:Authorization.verify_response_type", "src/oidcop/oauth2/authorization.py:Authorization.response_mode"]}
{"id": "C35", "title": "A pushed authorization request can be used once", "statement": "A request_uri handed out by the pushed-authorization endpoint stands for exactly the request that was pushed, can be used at most once in any history, and an unknown one is refused.", "quantifier": "all histories of pushes and uses", "why_tests_cant": "Histories.", "anchors": ["src/oidcop/oauth2/pushed_authorization.py:PushedAuthorization.process_request", "src/oidcop/oauth2/authorization.py:Authorization._do_request_uri"]}
{"id": "C36", "title": "Prompt, max_age and identity hints are obeyed", "statement": "With prompt=login an existing log-in is never reused. With prompt=none and nobody logged in the answer is login_required, and a log-in page is shown only if the user agent has a live grant whose log-in has expired. A response without a log-in page goes to a user whom a valid session cookie names, who has a live grant with an unexpired log-in at that client; the cookie is not older than a non-zero max_age, and a login hint is the mail address or phone number of that user. With HTTP Basic there is a response only if the header holds the password of a user, and without cookies it is one for that user. What fails is stated as refuted: prompt=none can start a log-in after expiry, every response renews the time that max_age is compared with, max_age=0 and upm_answer=true switch the check off, id_token_hint is not looked at, HTTP Basic users are overridden by the cookie, and a user id that decodes as JSON is taken for another user.", "quantifier": "all requests, all cookies and session states", "why_tests_cant": "All combinations of prompt, cookie and session state.", "anchors": ["src/oidcop/oauth2/authorization.py:Authorization.setup_auth", "src/oidcop/user_authn/user.py:UserAuthnMethod.authenticated_as", "src/oidcop/user_authn/user.py:BasicAuthn.authenticated_as"]}
{"id": "C37", "title": "The authentication method picked satisfies the request", "statement": "When a request asks for authentication context classes and the server has several methods, the method used is the first one registered for the first requested class that has any, and no method is used if there is none; when no class is asked for, or there is only one method, the oldest registered method is used.", "quantifier": "all method tables, all requests", "why_tests_cant": "All tables.", "anchors": ["src/oidcop/user_authn/authn_context.py:AuthnBroker", "src/oidcop/user_authn/authn_context.py:pick_auth"]}
{"id": "C38", "title": "Dynamic registration admits only sane redirect URIs and metadata", "statement": "A registration is accepted only if every redirect URI satisfies the rules for its application type (other than native: http or https with no fragment after a '#', and https for a web client unless it registers the response type code alone; native: a scheme other than http and https, or http at a loopback host, where the host of an authority with brackets is not relied on), and every registered preference is one the provider lists. It gets a new client id and changes no other client's record, and so does a refused registration, whose record has no redirect URIs.", "quantifier": "all registration requests, all histories of registrations", "why_tests_cant": "All URIs and metadata combinations.", "anchors": ["src/oidcop/oidc/registration.py:Registration.verify_redirect_uris", "src/oidcop/oidc/registration.py:Registration.match_client_request"]}
{"id": "C39", "title": "Registration access tokens open only their own client's record", "statement": "Reading a registration returns the record of the client the presented registration access token was issued to, and only if the requested client id is that client.", "quantifier": "all tokens and clients, all registration histories", "why_tests_cant": "Histories of registrations.", "anchors": ["src/oidcop/oidc/read_registration.py:RegistrationRead", "src/oidcop/oidc/registration.py:Registration.add_registration_api"]}
{"id": "C40", "title": "Logout redirects only to registered URIs and for the right client", "statement": "The end-session endpoint redirects to a post-logout URI only if an ID-token hint is given and the URI is registered for the client the request names, or, if it names none, for the client of the session; it refuses when the ID-token hint and the session cookie do not belong together (audience or subject), or when no authentic cookie names an existing session. It ends no session by itself: it hands out a signed confirmation naming exactly the cookie's session and that URI. (Relying on the session's client alone would be wrong: a client_id in the request replaces it.)", "quantifier": "all requests, cookies and registrations", "why_tests_cant": "All combinations.", "anchors": ["src/oidcop/oidc/session.py:Session.process_request", "src/oidcop/oidc/session.py:Session.parse_request"]}
{"id": "C41", "title": "Logging out ends the sessions that were told to end", "statement": "After a single-client logout the client's session for that user is revoked; after logout from everywhere every client session that was notified is revoked; no other user's session changes.", "quantifier": "all reachable session states", "why_tests_cant": "Frame and completeness over all states.", "anchors": ["src/oidcop/oidc/session.py:Session.logout_all_clients", "src/oidcop/oidc/session.py:Session.logout_from_client", "src/oidcop/oidc/session.py:Session.clean_sessions"]}
{"id": "C42", "title": "The authorization response carries exactly what was asked", "statement": "The authorization response contains a code, an access token and an ID token exactly as the response type asks for, each minted in the session of the authenticated user; the ID token's hashes refer to the code and token of the same response. It repeats the state of the request, names exactly those requested scopes that the client may have, and says of the access token in it how long it will live; a response of the type none says nothing but the state.", "quantifier": "all response types, all states", "why_tests_cant": "All response-type combinations and states.", "anchors": ["src/oidcop/oauth2/authorization.py:Authorization.create_authn_response", "src/oidcop/oauth2/authorization.py:Authorization.mint_token"]}
{"id": "C43", "title": "Subject identifiers are stable and separated", "statement": "With public identifiers and a configured salt, userinfo tells every client the same subject for the same user, also after restarts, and different subjects for different users unless the hash collides. With the pairwise function in use the subject depends on exactly the user and the sector named in the authorization request, and subjects of different user/sector pairs differ unless the hash collides or the two texts cannot be told apart (user and sector are concatenated).", "quantifier": "all users, sectors and salts", "why_tests_cant": "All strings; ambiguity of concatenation shows only on adversarial inputs.", "anchors": ["src/oidcop/session/manager.py:public_id", "src/oidcop/session/manager.py:pairwise_id", "src/oidcop/session/manager.py:SessionManager.create_grant"]}
{"id": "C44", "title": "DPoP-bound tokens need a matching proof", "statement": "With the DPoP add-on, a token request that comes with HTTP information is accepted only with a proof that verifies under the key in its own header and was made for this URL and method; the tokens are then of type DPoP and name the confirmed key, which is the signing key unless the payload names another; every such proof is accepted. (That type and algorithm are checked, that a proof is always needed, and that a bound token needs one at userinfo, is refuted.)", "quantifier": "all proofs and requests", "why_tests_cant": "All combinations of header and payload fields.", "anchors": ["src/oidcop/oauth2/add_on/dpop.py:post_parse_request", "src/oidcop/oauth2/add_on/dpop.py:DPoPProof"]}
{"id": "C45", "title": "Advertised algorithms are supported algorithms", "statement": "Provider metadata built from the shipped endpoint classes and ID token handler lists, for signatures, key encryption and content encryption, only algorithms the crypto library supports, unless the configuration fixes the attribute under capabilities; without configuration the lists are exactly the supported algorithms minus the weak ones (none, RSA1_5); an endpoint or handler configured with an unsupported algorithm keeps the provider from starting. The document served at the discovery endpoint is the one made at start.", "quantifier": "all configurations", "why_tests_cant": "All configurations.", "anchors": ["src/oidcop/construct.py:construct_endpoint_info", "src/oidcop/construct.py:assign_algorithms"]}
{"id": "C46", "title": "Every response is backed by an earlier authorization", "statement": "Whenever the token endpoint returns an access token for a code or a refresh token, that code or refresh token was issued earlier in the same history, in a session created for the same user and client by an authorization; strings never issued are never accepted.", "quantifier": "all histories, all presented strings", "why_tests_cant": "Provenance over histories, all strings.", "anchors": ["src/oidcop/oauth2/token.py", "src/oidcop/oidc/token.py", "src/oidcop/session/manager.py:SessionManager.get_session_info_by_token"]}
{"id": "C47", "title": "A token response tells the truth about its tokens", "statement": "Whenever the token endpoint answers with tokens, the answer is about one grant, given by one user to the client that sent the request, and the code or refresh token presented belongs to that grant. The access token in the answer was made just now from the token presented; expires_in, token_type and scope in the answer are those of that access token. An ID token in the answer was made from the token presented as well, is addressed to that client, is about that user and carries the nonce of the authorization request the grant came from. Just before the call that grant was live, and no token of the answer had been in any grant.", "quantifier": "all configurations, all histories of calls, all token requests", "why_tests_cant": "Relates every answer to the state reached by an arbitrary history; tests look at a few answers.", "anchors": ["src/oidcop/oauth2/token.py:AccessTokenHelper.process_request", "src/oidcop/oauth2/token.py:RefreshTokenHelper.process_request", "src/oidcop/oauth2/token.py:TokenEndpointHelper._mint_token", "src/oidcop/oidc/token.py:AccessTokenHelper.process_request", "src/oidcop/oidc/token.py:RefreshTokenHelper.process_request", "src/oidcop/session/grant.py:Grant.mint_token"]}
{"id": "C48", "title": "A client gets only scopes it may have", "statement": "If the provider denies unknown scopes, and its own grant policy names none that a client may not have, then no code, access token or refresh token of a client ever has a scope the client may not have, and no token response names one. Without deny_unknown_scopes this does not hold: the authorization response names only the allowed scopes, but the code and the tokens got with it have the others too.", "quantifier": "all configurations, all histories of calls, all requested scopes", "why_tests_cant": "Ranges over all scope lists and all later uses of the tokens.", "anchors": ["src/oidcop/scopes.py:Scopes.filter_scopes", "src/oidcop/scopes.py:Scopes.get_allowed_scopes", "src/oidcop/oauth2/authorization.py:check_unknown_scopes_policy", "src/oidcop/oauth2/authorization.py:Authorization.create_authn_response", "src/oidcop/authz/__init__.py:AuthzHandling.__call__"]}
{"id": "C49", "title": "A response reaches the client unchanged, where the response mode says", "statement": "Whatever the state, the code and the tokens are made of, the redirect that the authorization endpoint answers with leads to the page of the client's redirect URI; there the client reads, in the query or in the fragment as the response mode calls for, its state, the code, the tokens, the issuer and its own identifier exactly as they were, no other value and no error, and the query its URI had before. A form posts exactly those fields to the redirect URI. Error responses are delivered in the same way. No response may be stored by caches, and every response says exactly one content type. What does not hold: the form escapes nothing, so a state with a quotation mark injects markup into the provider's page; a redirect URI ending in # moves a code from the query into the fragment; with a response mode given, the error login_required is not sent to the client's redirect URI.", "quantifier": "all states, parameters, redirect URIs without #, response modes and endpoint configurations", "why_tests_cant": "Ranges over all texts of parameters and URIs; a round trip through quoting and URL splitting.", "anchors": ["src/oidcop/endpoint.py:Endpoint.do_response", "src/oidcop/endpoint.py:fragment_encoding", "src/oidcop/endpoint.py:set_content_type", "src/oidcop/oauth2/authorization.py:inputs", "src/oidcop/oauth2/authorization.py:FORM_POST", "src/oidcop/oauth2/authorization.py:Authorization.response_mode", "src/oidcop/oauth2/authorization.py:Authorization._login_required_error"]}
{"id": "C50", "title": "Userinfo responses are protected as the client registered", "statement": "The claims an access token opens are packed for the client that the token was issued to: signed with the algorithm that client registered if it registered one, encrypted with the pair of algorithms it registered if it registered both, with no other algorithm, and not cacheable. A client that registered only the key encryption algorithm gets its claims in the clear, although the content encryption has a default.", "quantifier": "all client registrations, tokens and histories of calls", "why_tests_cant": "Ranges over all registrations and all histories that lead to the token.", "anchors": ["src/oidcop/oidc/userinfo.py:UserInfo.do_response", "src/oidcop/oidc/userinfo.py:UserInfo.process_request"]}
{"id": "C51", "title": "A restart of the provider changes nothing", "statement": "At any point of any history the session manager can be saved and restored. Afterwards every key of the session database leads to the same record, every grant has the same tokens with the same counts of use and the same revocations, every path is found or refused as before, introspection and userinfo answer every token at every time as they would have done, and saving again gives the same text. A code that was redeemed before the restart is not redeemed after it, and what was revoked stays revoked. What does not hold: a grant's own identifier is not saved; a removed session leaves its grant with all tokens in the database and in the saved text, under the session id.", "quantifier": "all histories of calls, with restarts at any points, all tokens and all times", "why_tests_cant": "Ranges over every state a history can lead to and over every point at which the process can stop.", "anchors": ["src/oidcop/session/token.py:Item.parameter", "src/oidcop/session/token.py:SessionToken.parameter", "src/oidcop/session/grant.py:Grant.parameter", "src/oidcop/session/grant.py:Grant.special_load_dump", "src/oidcop/session/info.py:SessionInfo.parameter", "src/oidcop/session/database.py:Database.parameter", "src/oidcop/session/manager.py:SessionManager.remove_session"]}
{"id": "C52", "title": "Tokens live as long as the usage rules say", "statement": "In every history every token expires exactly as many seconds after the call that issued it as the usage rules of its grant say for its class; 0 or nothing means never, and without a rule the token endpoint gives half an hour and the authorization endpoint no limit. If usage rules are configured for all clients, the rules of every grant with tokens are these merged with the client's own. If a life time of grants is configured, the grant behind every code or token of the authorization endpoint expires that long after the response, and every grant with tokens that long after some call. Once a grant has expired or been revoked, no token request that presents one of its codes or refresh tokens is answered any more. A refresh token whose rule has a negative life time is never accepted. The default configuration has such a rule: with it codes never expire, and refresh tokens have expired when they are handed out. What does not hold: if there are only rules of the client's own, a second authorization in the same session is not governed by them.", "quantifier": "all histories of calls, configurations of usage rules, grants and tokens", "why_tests_cant": "Ranges over all rules and over every history that leads to a token, including the second authorization of a session and restarts.", "anchors": ["src/oidcop/oauth2/token.py:TokenEndpointHelper._mint_token", "src/oidcop/oauth2/authorization.py:Authorization.mint_token", "src/oidcop/authz/__init__.py:AuthzHandling.__call__", "src/oidcop/configure.py:OP_DEFAULT_CONFIG", "src/oidcop/oauth2/authorization.py:Authorization.setup_auth", "src/oidcop/session/token.py:Item.is_active"]}
{"id": "C53", "title": "User claims are released only if authorized, and all that are asked for", "statement": "In every history, a user claim in a userinfo or introspection answer is an attribute of the user whose grant the token belongs to, and it was asked for in the claims parameter of that grant's request, or stands for a scope that was authorized and that the client may have, or was configured for the release point for all or for this client when the provider was started; if the request restricts its value, the value matches. Conversely every claim that the request asks for by its claims parameter or, where claims by scope are switched on, by an authorized scope, and that the user has with a matching value, is in the answer. The member sub is the subject id of the grant, acr the way the user logged in.", "quantifier": "all histories of calls, configurations, requests, users, clients and claims", "why_tests_cant": "The claims are computed at authorization, stored with the grant, and used at another endpoint after any number of other calls, restarts and authorizations, which also change the stored settings of the clients.", "anchors": ["src/oidcop/session/claims.py:ClaimsInterface.get_claims_all_usage", "src/oidcop/session/claims.py:ClaimsInterface.get_claims_from_request", "src/oidcop/session/claims.py:ClaimsInterface.get_user_claims", "src/oidcop/authz/__init__.py:AuthzHandling.__call__", "src/oidcop/oidc/userinfo.py:UserInfo.process_request", "src/oidcop/oauth2/introspection.py:Introspection.process_request"]}
{"id": "C54", "title": "Token requests processed by threads at the same time", "statement": "A provider may process any number of token requests at the same time, each in a thread whose actions alternate in any order with those of the others, with other calls and with changes of the configuration such as clients that are changed or deleted. A thread that is not interrupted does what the call does. In every schedule tokens go only to the client of the grant and descend from the presented token, the redirect URI of the code is that of the request, the scope of an answer stays within the grant, a refresh token is given for a code only if a configuration in force allows it, token values occur once, tokens form a forest, dead tokens and grants stay dead and a revoked grant gets no further token even from threads that had already begun. A code, or a refresh token of a client with rotation, is used twice only if the two requests were processed at the same time; the two can then both succeed.", "quantifier": "all schedules of any number of threads, calls and configuration changes, all clocks and requests", "why_tests_cant": "A test runs one interleaving; there is no bound on the number of threads or on where they are interrupted.", "anchors": ["src/oidcop/oauth2/token.py:AccessTokenHelper.process_request", "src/oidcop/oauth2/token.py:RefreshTokenHelper.process_request", "src/oidcop/oauth2/token.py:Token.process_request", "src/oidcop/oidc/token.py:AccessTokenHelper.process_request", "src/oidcop/oidc/token.py:RefreshTokenHelper.process_request", "src/oidcop/session/grant.py:Grant.mint_token"]}
{"id": "C55", "title": "Endpoints authenticate clients by the configured methods", "statement": "An endpoint configured with a list of client authentication methods has exactly the methods the items name (a standard name, none in any case, or a class path), and the provider does not start if an item names nothing. If no item says none, a request gets through only when the client authenticated by a named method. An empty list switches authentication off. Without configuration the userinfo endpoint takes bearer tokens and every other shipped endpoint does no client authentication, so the token endpoint takes the client's word for who it is. The audience of a client assertion is the URL of the endpoint, at userinfo also the issuer.", "quantifier": "all configured values, class paths, default capabilities, client databases, requests and clocks", "why_tests_cant": "All configurations and all requests; a test fixes one list of methods.", "anchors": ["src/oidcop/client_authn.py:client_auth_setup", "src/oidcop/endpoint.py:Endpoint.__init__", "src/oidcop/server.py:Server.__init__", "src/oidcop/endpoint.py:Endpoint.allowed_target_uris", "src/oidcop/util.py:modsplit"]}
{"id": "C56", "title": "Configuration values, defaults and token handlers", "statement": "Every parameter of the configuration has the value given, or the default if nothing or an empty value is given; anything else is dropped. From the token handler arguments the provider makes one handler for each kind of token that is specified and no other, with the class, lifetime, algorithm and issuer asked for or the documented defaults; opaque handlers get a key each; an opaque token of one kind is recognised by its own handler and refused as any other kind, whatever the keys. The defaults give codes of 600 s, access tokens of 3600 s and refresh tokens of 86400 s.", "quantifier": "all configurations, key jars, sessions and clocks", "why_tests_cant": "All configurations; a test has one.", "anchors": ["src/oidcop/configure.py:EntityConfiguration.__init__", "src/oidcop/configure.py:OP_DEFAULT_CONFIG", "src/oidcop/token/handler.py:factory", "src/oidcop/token/handler.py:init_token_handler", "src/oidcop/endpoint_context.py:get_token_handler_args"]}
{"id": "C57", "title": "Advertised scopes, allowed scopes and custom scopes", "statement": "Unless the capabilities say otherwise the advertised scopes are those a client without own scopes may use, and the advertised claims are exactly those it gets for them. After the custom scopes add-on a scope is allowed and advertised exactly if it was advertised before or is custom; a custom scope releases exactly its claims, and any other advertised scope its standard claims. A mapping configured by the operator is lost.", "quantifier": "all mappings, custom scopes, clients without own settings and requested scopes", "why_tests_cant": "All mappings and all requests.", "anchors": ["src/oidcop/oidc/add_on/custom_scopes.py:add_custom_scopes", "src/oidcop/scopes.py:Scopes.__init__", "src/oidcop/endpoint_context.py:EndpointContext.create_providerinfo"]}
{"id": "C58", "title": "Tokens, claims and introspection go to authenticated requests", "statement": "Over the wire every token answer belongs to an earlier token request that passed client authentication at the token endpoint and was attributed to the client of the grant the tokens come from. Where only client_secret and JWT methods are configured, that request showed the client's registered secret or an assertion issued by it; a client whose secret nobody shows never has tokens handed out. An assertion with a jti is accepted once over all endpoints. User claims need a request bearing a live access token; introspection data need a request accepted by a configured method. A refused request changes nothing.", "quantifier": "all histories of calls at the endpoints with any credentials, all configurations of methods, all clients", "why_tests_cant": "All interleavings of requests with all credentials, and all configurations.", "anchors": ["src/oidcop/endpoint.py:Endpoint.parse_request", "src/oidcop/endpoint.py:Endpoint.client_authentication", "src/oidcop/client_authn.py:verify_client", "src/oidcop/oidc/userinfo.py:UserInfo.parse_request", "src/oidcop/oauth2/token.py:Token._post_parse_request"]}
{"id": "C59", "title": "What signed tokens say", "statement": "In every history, every ID token handed out is signed with the algorithm due to the client, expires the configured time after it was made, and states the time and the class of the authentication recorded in the grant. Its session identifier is that of a session of that user with that client (only for a client without log-out address can an attribute of the user called sid stand in its place). Besides the protocol's own members it carries only attributes of that user, with their stored values, that were asked for in the request, come with a scope the request could be granted, or are in the provider's or client's lists, and that meet the request's value constraints; claims asked for by the request that meet the constraints are present. Signed access tokens likewise.", "quantifier": "all histories of calls, all requests, clients, users, handlers and claim settings, all three endpoints that hand out tokens", "why_tests_cant": "Claims come from six sources combined over all histories, and one source is changed by earlier requests.", "anchors": ["src/oidcop/token/id_token.py:IDToken.payload", "src/oidcop/token/id_token.py:IDToken.sign_encrypt", "src/oidcop/token/jwt_token.py:JWTToken.__call__", "src/oidcop/session/claims.py:ClaimsInterface.get_claims_from_request", "src/oidcop/session/claims.py:ClaimsInterface._client_claims", "src/oidcop/session/grant.py:Grant.payload_arguments"]}
{"id": "C60", "title": "Tokens reach their client only", "statement": "A code, access token, refresh token or ID token of a grant leaves the provider in two ways only: in an authorization response sent to a redirect URI registered for the client of the grant, or in a token response to a request that passed client authentication at the token endpoint and was attributed to that client. So where the token endpoint asks for the secret, the tokens of a client whose secret nobody shows go to its registered redirect URIs and nowhere else, whatever authorization requests, pushed requests, log-in pages and codes others send. A code is redeemed only by a request that names the URI the code was sent to, from the client that may use that URI. What is handed out for a reference to a pushed request is in a grant of the client that pushed it, with a push that passed client authentication.", "quantifier": "all histories of calls at the authorization, pushed-authorization, log-in, token, introspection, userinfo and logout interfaces with any credentials, all client databases with well-formed redirect URIs, all configurations of methods", "why_tests_cant": "All interleavings of requests by any number of honest and dishonest parties; a test can only try particular attacks.", "anchors": ["src/oidcop/endpoint.py:Endpoint.parse_request", "src/oidcop/oauth2/authorization.py:Authorization.parse_request", "src/oidcop/oauth2/authorization.py:get_uri", "src/oidcop/oauth2/authorization.py:verify_uri", "src/oidcop/oauth2/authorization.py:Authorization.post_authentication", "src/oidcop/oauth2/pushed_authorization.py:PushedAuthorization.process_request", "src/oidcop/oauth2/token.py:AccessTokenHelper.post_parse_request"]}
{"id": "C61", "title": "Extra response arguments", "statement": "With the extra-arguments add-on, every answer of the authorization endpoint that goes to the redirect URI's query or fragment says each configured argument with the value of the provider's attribute and, under all other names, exactly what it says without the add-on. Error answers are unchanged. The set-up accepts exactly the configurations that name existing endpoints. (The code does not do this for the form_post response mode, and no provider of the package's endpoints can be configured to extend introspection or token responses, although the add-on has keys for them; both are recorded as refutations.)", "quantifier": "all configurations, attribute values, sets of endpoints, requests and answers, redirect URIs without fragment", "why_tests_cant": "A test fixes one configuration and one answer; the claim is about all names and values, including those that need quoting, and about arguments that collide with standard ones.", "anchors": ["src/oidcop/oauth2/add_on/extra_args.py:pre_construct", "src/oidcop/oauth2/add_on/extra_args.py:add_support", "src/oidcop/endpoint.py:Endpoint.do_pre_construct", "src/oidcop/endpoint.py:Endpoint.construct", "src/oidcop/endpoint.py:Endpoint.do_response"]}
{"id": "C62", "title": "A browser gets responses only for users who logged in with it", "statement": "In every history in which browsers send only cookies they were given: when the authorization endpoint answers a request with a response, without showing the log-in page, that response is for a user who logged in earlier with the same browser at the same client. A browser with which nobody has logged in at the client gets the log-in page or login_required. Once a user's sessions with a client are revoked, or the user has logged out, no browser gets a response for that user at that client, whatever cookies it kept, until the user logs in with that browser again. Every grant is for a user who logged in for a request of the same client.", "quantifier": "all providers, users, clients, browsers, all histories of log-ins, visits and other calls, all requests and cookies", "why_tests_cant": "A test follows one browser through one log-in; the claim is about every interleaving of browsers, users and clients, with log-outs, revocations, restarts and removed sessions in between, and about every set of cookies sent.", "anchors": ["src/oidcop/user_authn/user.py:UserAuthnMethod.cookie_info", "src/oidcop/user_authn/user.py:UserAuthnMethod.authenticated_as", "src/oidcop/oauth2/authorization.py:Authorization.setup_auth", "src/oidcop/oauth2/authorization.py:Authorization.authz_part2", "src/oidcop/oauth2/authorization.py:Authorization.create_session", "src/oidcop/endpoint_context.py:EndpointContext.new_cookie", "src/oidcop/session/database.py:Database.encrypted_session_id", "src/oidcop/cookie_handler.py:CookieHandler.parse_cookie"]}
{"id": "C63", "title": "The session state told to a client changes exactly when the browser's session cookie does", "statement": "Where the provider offers the session-management frame, every authorization response that is not an error and not sent as a form carries a session_state, and sets a cookie. The state fits the client that asked, the origin of the address that the response goes to, and that cookie, and no other client, origin or cookie. When the client later has the state compared, the answer is 'unchanged' as long as the browser has got no further response from the provider and has not logged out, and 'changed' from then on. After a log-out (without front-channel frames) every state told in that browser, to any client, is 'changed', and the browser has no session cookie.", "quantifier": "all providers, hash functions without collisions, clients, browsers, addresses, salts, and all histories of log-ins, visits, log-outs and other calls", "why_tests_cant": "A test compares one state with one cookie; the claim is about every sequence of responses and log-outs in any number of browsers, and about all texts that could be confused when they are joined before hashing.", "anchors": ["src/oidcop/cookie_handler.py:compute_session_state", "src/oidcop/oauth2/authorization.py:Authorization.authz_part2", "src/oidcop/endpoint_context.py:EndpointContext.new_cookie", "src/oidcop/oidc/session.py:Session.kill_cookies", "example/flask_op/views.py:rp_logout"]}
{"id": "C64", "title": "The log-in form logs in the user whose password it holds, for the request of a page the provider showed", "statement": "A form is answered only if it holds the name of a user of the password file, this user's password, and the token of a log-in page that the provider has shown; any other form is refused and changes nothing. The response is one to the authorization request for which that page was shown (same client, state, nonce, scopes and response types), whatever else the form says, and it is for the user whose password was given. Later responses without a log-in page go only to a browser with which the user's password was given, on a page for a request of the same client. Nobody gets anything otherwise: for every user and client with a grant, the user's password was sent on a page for a request of that client; likewise for every user for whom the token endpoint hands out tokens or about whom the userinfo endpoint tells claims, on a page for the client that gets them.", "quantifier": "all providers, password files, users, clients, requests, browsers, forms, and all histories of visits, forms and other calls", "why_tests_cant": "A test sends one form for one request; the claim is about every order of pages, forms and visits of any number of browsers and users, with any mixture of names, passwords and tokens in the forms.", "anchors": ["src/oidcop/user_authn/user.py:UserPassJinja2", "src/oidcop/user_authn/user.py:create_signed_jwt", "src/oidcop/user_authn/user.py:UserAuthnMethod.unpack_token", "src/oidcop/oauth2/authorization.py:Authorization.setup_auth", "src/oidcop/oauth2/authorization.py:authn_args_gather", "example/flask_op/views.py:verify"]}
{"id": "C65", "title": "Nothing is ended or spent without a cause", "statement": "A grant is revoked only by a call meant to end it: the revocation of that very grant, the revocation of the session of its user with its client, log-out of its user from its client, or log-out of its user everywhere. A token is revoked only by a call meant to end it: its own revocation or the recursive revocation of a token it was made from, its use as a refresh token by a client whose refresh tokens are for one use, or the presentation of the code it was made from when that code had been spent before. A token counts as used only if a token request that presents it, as a code or as a refresh token, was processed. So an access token that none of these calls concerns is live, in a live grant, until one of the two expires, whatever happened to other users, clients, grants and tokens.", "quantifier": "all providers, all histories of calls (including failing ones), all grants and tokens, all times", "why_tests_cant": "A test that revokes one thing looks at a few others; the claim is that no call of any history, also one that fails half-way, ends the authorization of an uninvolved user, client or grant.", "anchors": ["src/oidcop/session/manager.py:SessionManager.revoke_token", "src/oidcop/session/manager.py:SessionManager.revoke_client_session", "src/oidcop/session/manager.py:SessionManager.revoke_grant", "src/oidcop/session/grant.py:Grant.revoke_token", "src/oidcop/oidc/session.py:Session.clean_sessions", "src/oidcop/oidc/session.py:Session.logout_all_clients", "src/oidcop/oauth2/token.py:AccessTokenHelper", "src/oidcop/oauth2/token.py:RefreshTokenHelper", "src/oidcop/oidc/token.py:AccessTokenHelper"]}
{"id": "C66", "title": "A valid request for tokens is answered", "statement": "A client that presents a live authorization code of a live grant of its own, with the redirect URI of the authorization request and, where a code challenge was given, the matching verifier, gets its tokens, whatever happened before: the first stage of the token endpoint accepts the request and the second stage answers it. The answer names the scope of the grant and holds an access token; it holds a refresh token exactly if one is wanted (asked for by the application, or by the scope offline_access at an OpenID Connect provider), the code's rules allow it and the client may use refresh tokens; it holds an ID token exactly if the provider is an OpenID Connect provider, the request asked for openid and the code's rules allow it. An accepted request that waits for its second stage is still answered later, as long as the code and the grant are live then. The same holds for a client that presents a live refresh token of a live grant of its own, with its client id and a scope within what the chain above the token carries (or no scope): the answer names the scope asked for or, without one, that of the chain above, and holds an access token, a new refresh token exactly if one is wanted and the token's rules allow it, and an ID token exactly if the provider is an OpenID Connect provider, the scope holds openid and the token's rules allow it.", "quantifier": "all providers in working order, all histories of calls, all users, clients, grants, codes, refresh tokens, requests and times", "why_tests_cant": "Tests redeem codes in a few states of one provider. Whether some earlier calls (of other users and clients, failed requests, log-outs, revocations, restarts) or some configuration can leave the provider in a state in which a valid request fails or raises an exception is a question about all histories.", "anchors": ["src/oidcop/oauth2/token.py: AccessTokenHelper and RefreshTokenHelper (process_request, post_parse_request), TokenEndpointHelper._mint_token, Token.process_request", "src/oidcop/oidc/token.py: AccessTokenHelper, RefreshTokenHelper", "src/oidcop/session/grant.py: Grant.mint_token, payload_arguments", "src/oidcop/session/claims.py: ClaimsInterface.get_claims, get_user_claims", "src/oidcop/oidc/add_on/pkce.py: post_token_parse"]}
{"id": "C67", "title": "Live tokens are honoured", "statement": "Whatever happened before, the userinfo endpoint answers a request with a live access token whose log-in is still valid with the claims for its client, and introspection calls a live access or refresh token active; neither fails or raises an exception. So an access token that no call was meant to end is honoured until it, its grant or the log-in expires.", "quantifier": "all providers with user information, all histories of calls, all grants, tokens and times", "why_tests_cant": "Tests ask about fresh tokens in a few states of one provider. That no history of calls (refreshes, revocations of other tokens, log-outs of other clients, restarts) makes the endpoints fail for a token that is live is a statement about all histories.", "anchors": ["src/oidcop/oidc/userinfo.py: UserInfo.process_request", "src/oidcop/oauth2/introspection.py: Introspection.process_request, _introspect", "src/oidcop/session/claims.py: ClaimsInterface.get_user_claims", "src/oidcop/session/grant.py: Grant.add_acr_value, find_scope"]}
{"id": "C68", "title": "A log-in for a valid request is answered with a code, which can be redeemed", "statement": "Whatever happened before, a user who logs in for a valid authorization request of a registered client for a code is answered with an authorization response that carries a code, the state of the request and no other token, for the client's redirection URI and in the response mode of the request; the code is recorded in a grant for that user and that request. The same holds for a user whom the authentication method knows already, and for a user with a live session with the client, whether the request is a new one or the same again (single sign-on). The client that presents the code of a log-in while it lasts, with the redirection URI and the PKCE verifier that are due, gets all the tokens that are due. None of these calls fails or raises an exception.", "quantifier": "all providers that hand out codes, all histories of calls, all users, clients, valid requests for a code and times", "why_tests_cant": "Tests log in a few users in a fresh provider. That no history of calls (earlier sessions, revocations, removals of users, a flushed database, restarts) leaves a record that makes a later log-in fail is a statement about all histories.", "anchors": ["src/oidcop/oauth2/authorization.py: Authorization.process_request, authz_part2, post_authentication, create_authn_response", "src/oidcop/session/manager.py: SessionManager.create_session, create_grant", "src/oidcop/session/database.py: Database.set, get", "src/oidcop/authz/__init__.py: AuthzHandling.__call__", "src/oidcop/oidc/token.py: AccessTokenHelper.process_request"]}
{"id": "C69", "title": "What is issued can be used until it is ended", "statement": "An authorization code, a refresh token or an access token that the provider recognised once can be used after any further calls by anybody, restarts among them: the code can be redeemed until it is spent, the refresh token exchanged, the access token presented at the userinfo and introspection endpoints, until the token or its grant expires or a call is made that is meant to end one of them (its revocation, a log-out of this user from this client, the reuse of its code) or sessions are deleted. In particular the code with which a log-in is answered can be redeemed after whatever else happened. In the same sense a user who is signed on with a client stays signed on.", "quantifier": "all providers, all histories of calls before and after the issue, all users, clients, grants, tokens and times", "why_tests_cant": "Tests use a token right after it was issued. That no interleaving with the calls of other users and clients, with log-outs elsewhere and with restarts loses the session of a token is a statement about all histories.", "anchors": ["src/oidcop/session/database.py: Database.set, get", "src/oidcop/session/manager.py: SessionManager.get_session_info_by_token", "src/oidcop/oidc/token.py: AccessTokenHelper, RefreshTokenHelper", "src/oidcop/oidc/userinfo.py: UserInfo.process_request", "src/oidcop/oauth2/introspection.py: Introspection.process_request"]}
