# Formal model of oidc-op in Rocq (Coq 8.16.1)

## Layout

* `rocq/theories/M_*.v` - the model. Executable, total Gallina; no proofs. Every definition cites the
  file and lines of `/repo` it models, and says where it simplifies.
* `rocq/theories/S_*.v` - small specifications, written without the model's helpers.
* `rocq/theories/L_*.v` - lemmas and proofs.
* `rocq/theories/P_*.v` - the property theorems only: statement, `exact lemma.`, `Print Assumptions`, and
  beside each an `Example` showing a concrete case that meets the hypotheses.
* `properties.jsonl`, `MANIFEST.json` - properties and the theorems that settle them.
* `seeded/LOG.jsonl` - wrong programs tried against the theorems.

## Modelling decisions

* Only Coq's standard library is used. No axioms.
* Exceptions are values (`res A := Ok a | Raise e`). Effects made before an exception stay, as in
  Python: effectful code lives in a state-and-exception monad `M A := state -> res A * state`.
* Python objects that are shared and mutated in place (session records and grants in the session
  store) live in an explicit heap; the store maps keys to heap locations, so aliasing is modelled.
* Python dicts are association lists in insertion order. Strings are Coq strings (8-bit characters; no
  modelled function depends on the range of code points beyond white space and ASCII delimiters).
* Integers are `Z`. The clock is an explicit argument of each call (one reading per call).
* Random values and uuids come from a counter in the state through injective functions given as
  parameters. Cryptography (Fernet, JWS, SHA-256, base64) is a record of functions with explicitly stated
  laws; no law is an axiom, each theorem that needs one names it as a hypothesis, and a toy instance shows
  the laws are satisfiable.
* Recursions that could loop in Python (`find_scope`, `revoke_token`) carry fuel, and running out is
  the distinct outcome `Raise RecursionError`, as in Python.

## Trusted base

* **Coq 8.16.1's kernel** (and `coqchk`, which re-checks the compiled files). Everything is built with
  the flags `coq_makefile` gives by default. No plugin beyond those of the standard distribution.
* **Print Assumptions**: under every property theorem there is a `Print Assumptions`; each prints
  `Closed under the global context`, that is, no axiom at all.
* `coqchk` over the compiled files lists seven axioms of Coq's own standard library, all in
  `Coq.ssr.ssrunder.Under_rel` (`Under_rel`, `Under_rel_from_rel`, `Under_relE`, `Over_rel`, `over_rel`,
  `over_rel_done`, `under_rel_done`). They are the parameters of a sealed standard-library module that is
  loaded along with `Lia` and friends; no theorem here depends on them.
* **The model.** That the Gallina definitions say what the Python text says was checked by reading. The
  citations in the comments are there so that it can be checked again.
* **The laws of the libraries** that theorems take as hypotheses (listed below).

## Assumptions that theorems take as hypotheses

| name | where | what it says |
|---|---|---|
| `laws` | S_History | Fernet and base64 decode what they encode; text that base64 accepts holds no `;;` (Python's base64 is lenient: it skips characters outside its alphabet); uuids are distinct, not empty, free of `;;` and of white space at the end; a token value is made once (the random part differs) and is not empty and has no blank. |
| `good_id` | S_Store / S_History | user ids and client ids are not empty, hold no `;;` and do not end with `;` |
| `proper` | S_History | calls with such ids; a session that the user agent's cookie names belongs to the user it names (proved of the cookie code for the log-in page, `page_user` in L_Authn, from `usual`) |
| `usual` | S_Authn | the cookies at the authorization endpoint name users with such ids, which are not the base64 form of a JSON object (`C36_disguise_refuted` says what happens otherwise) |
| `cookie_laws` | S_Cookie | MAC and AEAD accept what they made, base64 decodes what it encodes and uses no bar |
| `reg_laws` | S_Registration | the parsed registration request is a dict; random strings are distinct and not empty |
| `jws_correct` etc. | S_Jws, S_Handler | a JWS opens to the payload that was signed |

Each record of laws has an instance in the development (`hex_env`, `hex_clib`, the toy JWS), used by the
examples, so no theorem is vacuous because of its laws.

## What is modelled

| source | model | notes |
|---|---|---|
| `session/token.py`, `session/grant.py` | M_Grant, M_Types | Item, SessionToken, Grant: all methods; (de)serialisation in M_Dump |
| `session/database.py`, `session/manager.py`, `session/info.py` | M_Codec, M_Session, M_Subject | keys, encrypted ids, set/get/delete, create_session, create_grant, revocation, look-up, removal, flush |
| the `parameter` tables and special functions of `session/token.py`, `grant.py`, `info.py`, `database.py` | M_Dump | saving and restoring of the session manager, as one more call in a history; what is assumed of oidcmsg's ImpExp is in the header of M_Dump |
| `session/claims.py`, `scopes.py` | M_Claims | the whole of both |
| `token/__init__.py`, `token/handler.py`, `token/jwt_token.py`, `token/id_token.py` | M_Handler, M_Env | opaque, JWT and ID token handlers; the key jar and encryption of ID tokens are not modelled |
| `authz/__init__.py` | M_Authz, M_Rules | AuthzHandling; usage rules also with object sharing |
| `oauth2/token.py`, `oidc/token.py` | M_TokenEP | both endpoints, code and refresh helper, parse and process as separate steps |
| the same, run by threads | M_Threads | `process_request` of both helpers as a sequence of actions; any number of threads, any order of their actions, of other calls and of changes of the configuration |
| `oidc/add_on/pkce.py` | M_PKCE | whole |
| `oauth2/add_on/dpop.py` | M_DPoP | whole |
| `client_authn.py`, `endpoint.py` (client authentication) | M_ClientAuthn | all methods, jti store |
| `oauth2/authorization.py`, `oidc/authorization.py` | M_AuthzEP, M_Redirect, M_Uri, M_Authn | parse (request objects, request_uri, PAR, redirect URI check, response types) and process (authentication, session creation, response) |
| `oauth2/pushed_authorization.py` | M_Redirect | whole |
| `oauth2/introspection.py`, `oidc/userinfo.py` | M_Info, M_Response | process_request, and do_response of userinfo up to the JWT library |
| `endpoint.py` (do_response), FORM_POST | M_Response | whole; `to_urlencoded` and `request` of oidcmsg as described there |
| `oauth2/add_on/extra_args.py`, `endpoint.py` (do_pre_construct, construct) | M_Extra | whole; attributes that are texts, numbers or lists of texts |
| `user_authn/user.py` (verify pages), `oauth2/authorization.py`, `session/manager.py`, seen from browsers | M_Browser | who holds which session cookie: log-ins, returning visits and all other calls in one history; built on M_Authn and M_History |
| `cookie_handler.py` (`compute_session_state`), `oauth2/authorization.py` 907-948, `oidc/session.py` (`kill_cookies`), `example/flask_op/views.py` (`rp_logout`) | M_Sman | session management: the cookie of each browser, the state told to clients. Left out: the time in the cookie's payload (any time), error answers in the form response mode, the page of the frame itself |
| `user_authn/user.py` (`UserPassJinja2`, `create_signed_jwt`, `unpack_token`), `oauth2/authorization.py` (`authn_args_gather`), `example/flask_op/views.py` (`verify`) | M_Form | the log-in page, the signed token in its form, and the form when it comes back. Signing, verifying and the urlencoded form of requests are parameters. Left out: the HTML template |
| `oidc/session.py` | M_EndSession, M_Logout | end-session endpoint and log-out; not the HTTP delivery of back-channel messages |
| `oidc/registration.py`, `oidc/read_registration.py` | M_Registration | whole, metadata checks of oidcmsg as a parameter |
| `cookie_handler.py` | M_Cookie | whole, over MAC/AEAD parameters |
| `user_authn/authn_context.py`, `user_authn/user.py`, `login_hint.py`, `user_info/__init__.py` | M_Broker, M_Authn | picking a method, authenticated_as, cookies, hints; not the HTML pages |
| `construct.py`, `server.py`, `endpoint_context.py`, `util.py` | M_Meta, M_Subject, M_Codec, M_Uri | provider information, subject functions, lv packing |
| `configure.py`, set-up in `endpoint.py`, `server.py`, `client_authn.py`, `token/handler.py`, `scopes.py`; `oidc/add_on/custom_scopes.py`, `oidc/provider_config.py` | M_Setup | EntityConfiguration and OPConfiguration with their defaults, client authentication methods of endpoints, the token handler factory, scopes; the key jar is a parameter, `Base` of oidcmsg as described there |
| `endpoint.py` (parse_request), `oidc/userinfo.py` (parse_request, get_client_id_from_token), `oauth2/authorization.py` (parse_request, get_uri), `oauth2/pushed_authorization.py` | M_Wire | client authentication and parsing in front of the calls of M_History, with the jti store and the pushed requests; `req.verify` of oidcmsg (with its request objects) and the reading of message members are parameters; parsing and processing are one call, except at the token endpoint. The log-in page may continue with any request: its token is verified with any key of the key jar |

## What is not modelled

* The web framework and the HTML templates; `oidc/discovery.py` (a placeholder, says the code), `ExchangeGrant` of
  `session/grant.py` (nothing uses it); `logging.py`, `utils.py`, `template_handler.py`,
  and in `configure.py` the reading of files and the logging set-up.
* The libraries `oidcmsg` and `cryptojwt`: parsing, verification and serialisation of messages, JWS, JWE
  and key handling enter as parameters or as already verified data. Where a function of a library decides
  an outcome the comment of the definition says what is assumed of it.
* Saving and restoring of anything but sessions (M_Dump) and the salt file (C43).
* Concurrency inside a call, except in the processing of token requests (M_Threads, C54): all other calls are
  atomic, and so is each action of a thread (a look-up, a reading of the grant, one `_mint_token`, the storing of
  the grant, `register_usage`, `revoke`). Parse and process of token requests are separate calls everywhere, so
  two requests may interleave between them.
* The configuration (clients, users, settings) is fixed within a history of M_History; registration has its own
  histories. In the schedules of M_Threads (C54) it changes at any time, except for the keys, the random numbers, the
  subject identifiers and the functions that give a grant its scope and rules; a schedule without threads is a
  history with changing configuration.
* Logging, and everything that only affects logs.
* `urllib.parse` is modelled as of Python 3.9 (M_Uri).

## Findings

A property that the code does not have is recorded as a theorem named `..._refuted`: an existence proof
with a concrete run of the model. The manifest lists them with the property. The more serious ones:

* C36: `prompt=none` can show a log-in page; `max_age` is compared with the time of the cookie, which
  every response renews, is ignored when 0, and can be switched off with `upm_answer=true`;
  `id_token_hint` is never consulted (misspelt key); with HTTP Basic the cookie's user wins over the
  authenticated one; a user id that is base64 of JSON is replaced by the decoded one.
* C40: a `client_id` parameter at the end-session endpoint replaces the client of the session in the
  check of the post-logout URI; C41: log-out from everywhere skips clients without log-out address.
* C28, C15: revoking a grant does not make its tokens inactive at introspection; a revoked client session
  does not hinder a later log-in.
* C03: only the OpenID Connect token endpoint revokes on replay. C07: a narrowed refresh token can be
  widened again.
* C30, C31, C39: an endpoint without client authentication methods believes the `client_id` of the request.
* C33, C34, C35: a pushed request is bound neither to the client that pushed it nor to its life time, and
  its redirect URI and response type are checked for the pusher's registration.
* C38: a registration request can set any attribute of the client record, such as its allowed scopes; a
  refused registration leaves the client record behind.
* C44: proofs of possession are not checked for type and algorithm; userinfo accepts DPoP-bound tokens as
  bearer tokens.
* C48: the scopes a client may not have are left out of the authorization response only: without
  `deny_unknown_scopes` the code and the tokens have them.
* C49: the form of the response mode form_post escapes nothing (a `state` can inject a script); a redirect URI
  that ends in `#` moves a code into the fragment; `login_required` with a response mode goes to the URL `?error=...`
  without host instead of the client. C50: a client that registers only the key encryption algorithm for userinfo
  gets plain JSON.
* C11, C14, C43: `;;` in identifiers, client ids equal to user ids, and concatenation of user and sector
  make session keys or subject identifiers collide.
* C51: the `id` of a grant is not among its saved attributes, so a grant that was restored has a new one, and the
  session id that the token endpoint then puts in its cookie (`oauth2/token.py` 476-483) names a grant that is not
  in the database (`C51_grant_id_not_saved`). `remove_session` does not remove the second entry of the grant, which
  the token and authorization endpoints made under the session id: the grant with its tokens stays in the database
  and in what is saved (`C51_removal_leaves_grant_refuted`). Not modelled: `flush` generates a new key, so session
  ids made before it are unreadable afterwards.
* C52: the default usage rules (`configure.py` 45-66, 241-262) give refresh tokens `expires_in: -1`, which is taken
  as a number of seconds: every refresh token has expired a second before it is issued
  (`C52_default_life_times`, `C52_negative_life_time`, `C52_refresh_token_usable_refuted`). Codes never expire
  with these rules. A client's own `token_usage_rules` do not govern the second authorization of a session if no
  rules are configured for all clients (`C52_client_rules_refuted`).
  A token request for a grant that has expired passes the first stage and then ends with an AttributeError
  (`oauth2/token.py` 87-88 on the None of `grant.py` 274) rather than an error response (`C52_dead_example`);
  introspection goes on to call the grant's refresh token active (`C28_expired_grant_refuted`).
* C28: the introspection endpoint writes the user claims over the members about the token (`introspection.py` 124):
  a user attribute called `sub`, `client_id`, `scope`, `exp`, ... that the client asks for with the claims parameter
  takes the place of the true value (`C28_response_sub_refuted`).
* C64: the token in the log-in form is not bound to the browser that was shown the page
  (`C64_same_browser_refuted`: log-in cross-site request forgery), can be used again, for other users, and never expires
  (`C64_once_refuted`), and does not bind the user that the request's login hint names
  (`C64_hinted_user_refuted`: `as_user` is put in the token and never read again).
* C63: the session state of a client changes although the user stays logged in: every response sets a new
  session-management cookie, so logging in at a second client, with the same browser, changes the state of the first
  one (`C63_still_logged_in_refuted`). Logging out from a client with a front-channel log-out address leaves all
  states unchanged, since the example application takes the cookies away only if there are no frames to show
  (`C63_front_channel_refuted`). Responses in the form_post mode tell no state (`C63_when_told`). Remark without a
  theorem: cookies are httponly unless configured otherwise, so the script of the frame cannot read the cookie.
* C61: the extra-arguments add-on does not reach answers in the form_post mode, and its keys `accesstoken`,
  `token_introspection` and `token_exchange` are not names of endpoints, so set-up refuses them
  (`C61_form_refuted`, `C61_keys_refuted`).
* C54: nothing makes the check and the use of a code one step: two threads that process requests for the same code
  at the same time both answer with tokens (`C54_code_once_refuted`), and two threads can both use a refresh token
  that is rotated (`C54_rotated_once_refuted`). Of the sequential guarantees C02 and C46 this is all that is lost:
  two answers for one code need overlapping processing (`C54_code_once_unless_overlapping`), and without threads a
  code is redeemed once also if the configuration changes (`C54_code_once_if_configuration_changes`).
* C55: a token, introspection or registration endpoint for which no `client_authn_method` is configured does no client
  authentication at all: of the shipped endpoints only userinfo has default methods, and an endpoint without methods
  accepts every request as that of the client it names (`C55_default_methods`, `C55_no_methods_no_authentication`,
  `C55_token_endpoint_authenticates_refuted`).
* C56: an empty value in the configuration does not switch a default off, and `allowed_scopes` (like `scopes_handler`,
  `symkey` and other members the code reads) is not among the parameters, so it is dropped by `OPConfiguration`
  (`C56_given_is_kept_refuted`). Naming the class `oidcop.token.DefaultToken` without `kwargs` raises a TypeError though
  a key was made for it (`C56_named_opaque_class_refuted`), and `lifetime: 0` is ignored (`C56_zero_lifetime_refuted`).
* C57: the custom scopes add-on starts from the standard mapping: scopes the operator configured with
  `scopes_to_claims` stay advertised and allowed and release nothing (`C57_configured_mapping_kept_refuted`); and it
  allows every advertised scope, also those not allowed before (`C57_allowed_scopes_kept_refuted`).
* C58: the method `bearer_header` at the token endpoint accepts any text after `Bearer ` and leaves the client open;
  the `client_id` of the request is then believed (`C58_methods_are_enough_refuted`).
* C58: introspection does not compare the asking client with the client of the token
  (`C58_introspects_own_tokens_refuted`).
* C59: `ClaimsInterface._client_claims` extends the client's own list of ID token claims in place with its userinfo
  list when an ID token is all that is asked for. Every later ID token of that client, also in the code flow, then
  carries the userinfo claims (`C59_no_trace_of_others_refuted`).
* C59: `IDToken.payload` puts `sid` in before asking whether it should, so every client gets session ids
  (`C59_sid_for_logout_only_refuted`). Callers never ask for encryption, so `id_token_encrypted_response_alg` has no
  effect, and the life time in the usage rules does not apply to ID tokens.
* C45: the provider configuration endpoint would replace the URL of an endpoint by a relative path if the endpoint were
  registered under a name like `token_endpoint`; none that ships is (`C45_served_as_made`,
  `C45_served_for_other_names_refuted`).

## Plan per property

| id | what is modelled and how it is proved |
|---|---|
| C01 | Item/SessionToken as records; `is_active` branch by branch. Equivalence with a declarative predicate; monotonicity along any operation history of the session machine. |
| C02 | Token endpoint (parse and process as separate steps of a machine with pending requests) over the session store. Invariant: a successful response leaves the code used, a used code gives no response, a removed grant id never comes back. Induction over histories. |
| C03 | `post_parse_request` (OIDC) on a grant with a well-founded derivation relation; result compared with the inductive `descends` relation. |
| C04 | `revoke_token` (grant and manager), both recursive walks, compared with `descends`; the effect of the manager's call at every point of every history, and that it lasts. |
| C05 | `mint_token` branch by branch; success characterised. |
| C06 | Invariant of reachable grants: `based_on` refers to an earlier token; fuel equal to the number of tokens is always enough. |
| C07 | Invariant: every token scope is a subset of the grant scope. Parse and process of refresh. |
| C08 | Success of `process_request` implies the client equality; frame on the store. |
| C09 | Same function; redirect_uri comparison; store unchanged on mismatch. |
| C10 | `Database.set/get` over heap and string keys, refined to a path-indexed map, for separator-free identifiers. |
| C11 | `join`/`split` on strings; exact characterisation. |
| C12 | `lv_pack`/`lv_unpack` with Python's `strip`, `split(':',1)`, `int`, slicing. |
| C13 | `encrypted_session_id`/`decrypt_session_id` over a Fernet parameter. |
| C14 | `Database.delete` branch by branch, including its odd branches; frame theorem for the branch used by `remove_session`, refutations for the others. |
| C15 | `revoke_client_session`; invariant that revoked flags stay. |
| C16 | `revoke_grant` and its effect at every point of every history; induction over histories. |
| C17 | `DefaultToken.__call__/info/is_expired`. |
| C18 | `JWTToken.__call__/info/is_expired` over a JWS parameter. |
| C19 | `get_handler` loop. |
| C20 | `usage_rules` merge loops. |
| C21 | Refresh `process_request` with rotation; induction over histories. |
| C22 | `_post_parse_request`, `process_request`. |
| C23 | PKCE add-on over a hash parameter. |
| C24 | PKCE add-on. |
| C25 | `claims_match` loop over specification fields. |
| C26 | `ClaimsInterface.get_claims` etc. branch by branch, upper-bound theorem. |
| C27 | `scopes.py`. |
| C28 | Introspection endpoint over the session store; the reported scope, audience and type are those of the token. |
| C29 | Userinfo endpoint over the session store. |
| C30 | `verify_client` loop over methods. |
| C31 | `JWSAuthnMethod.verify` with jti store; induction over histories. |
| C32 | Cookie handler over MAC/AEAD parameters. |
| C33 | `verify_uri` over a parsed-URI parameter. |
| C34 | `verify_response_type`, `response_mode`. |
| C35 | PAR store machine; histories. |
| C36 | `setup_auth`, `authenticated_as` decision functions. |
| C37 | `AuthnBroker`, `pick_auth`. |
| C38 | `verify_redirect_uris`, `match_client_request`. |
| C39 | Registration access token map; histories. |
| C40 | `Session.process_request`/`parse_request`. |
| C41 | Logout functions over the session store. |
| C42 | `create_authn_response`. |
| C43 | `public_id`, `pairwise_id` over a collision-free hash parameter. |
| C44 | DPoP add-on. |
| C45 | `construct.py`. |
| C46 | Provenance invariant of the session machine; induction over histories. The call that made the grant is one authorization, for the grant's request and by the grant's user (L_Origin). |
| C47 | Both token helpers over the session store; what the minted tokens carry is followed through `_mint_token`. |
| C48 | Invariant: the scope of every token lies in the scope of the request, which was screened. |
| C49 | `do_response`, the form page and the URL-encoding; round trip against the model of `urllib.parse` and against a small HTML reader. |
| C50 | `UserInfo.do_response` after `process_request` in a history. |
| C51 | A restart is a call in every history: dump and load at the level of attributes, a simulation between the heaps before and after. All history theorems (C01-C50) thereby range over restarts at any point. |
| C52 | `_mint_token` of the token endpoint, `mint_token` of the authorization endpoint, AuthzHandling; invariant of all tokens of a history by a generic induction over the calls (L_Pass). |
| C53 | `get_claims_all_usage` in AuthzHandling, `get_user_claims` at userinfo and introspection; invariant of the claims stored in every grant of a history: upper bound (authorized) and lower bound (asked for). |
| C54 | The processing of token requests as programs of atomic actions; a rely-guarantee logic whose rely is that grants and tokens only move forward; the theorems of C01, C06-C09, C21, C22 for every interleaving and every change of the configuration; refutation of C02 and C46 by a race. |
| C55 | client_auth_setup and the choice of methods; equivalence with a relation between configured items and methods; what no methods, the method "none" and a list without "none" mean for a request, over M_ClientAuthn. |
| C56 | The loop of EntityConfiguration.__init__ with the default configuration as data; the token handler factory; equivalences with small relations for values, lifetimes and keys; tokens of one opaque handler at another, over C17. |
| C57 | The scopes handler at start and after the custom scopes add-on, over the mapping theorem of C27; refutations for configured mappings. |
| C58 | World = provider and jti store; every call is refused without effect or is one step of M_History (projection), so the history theorems apply; parsed requests are traced back to the authentication that let them in. |
| C59 | Per-step logic that also keeps an invariant on the clients' claim lists (each list only grows by the client's own userinfo list); payload lemmas for IDToken and JWTToken; the three kinds of response each end in `signed_as_due` of S_IdToken. |
| C60 | The same world with authorization, pushed-authorization and log-in calls whose redirect URIs go through M_Redirect. Each authorization response is traced to its request (C42 gives the grant, C33 the URI), the grant to the final state (permanence), and one owner per token (C08) joins it with the token responses of C58. |
| C61 | The add-on as a function on response arguments, run where `construct` runs, and its set-up as a function on the endpoints of a provider; the answer is read back through the round trip of C49. |
| C62 | Histories in which each authorization comes from a browser with a jar of the cookies it got. Invariant: every cookie in a jar reads as a session of a user who logged in with that browser. A browser may send anything from which the provider reads no more than from its own cookies (so: any subset of them, and any garbage). The laws assumed of JSON: a cookie value reads back, and its text does not end in a colon. A new grant comes from a log-in, or from a visit with a cookie of an earlier log-in. |
| C63 | The session-management cookie and the state computed from it, on top of the browsers of C62, with the log-out page of the example application. The hash is a parameter: no dots in its output, no collisions. The check of the provider's frame is specified from the OpenID text. By induction on histories: a browser's cookie is the last one it was given; cookie values start with the time they were made. |
| C64 | The log-in page on top of the browsers of C62: pages are shown with a token that holds the request, and forms come with a token, a name and a password. Assumed: a token unpacks to what was packed; nobody makes a token that verifies except the provider, so such a token was in a page that was shown; a request survives being written as a query; the users have proper ids. Every history with forms is one of browsers (C62), in which each log-in is a form with the right password; with the provenance of grants (L_Origin) this gives the claims about grants, tokens and userinfo. |
| C65 | The histories of C01–C09. `S_Cause.v` says which calls are meant to end a grant or a token. One theorem each for revoked grants, revoked tokens and spent tokens: in every reachable state there is, for each of them, an earlier call of the history that was meant to do it. Proved by showing, for every function of the model and also for its failing runs, which of the three kinds of change it can make (none, for most of them). The fourth theorem turns this round: an access token that no call was meant to end is live until it or its grant expires. Assumed: client ids contain no separator, and session ids that the application gives to revoke_grant and revoke_client_session, if readable, name a user, a client and possibly a grant (session ids that the provider made always do). |
| C66 | The histories of C01–C09. `S_Answer.v` says what a provider in working order is, what a right request is and what has to be in the answer. Proved with a total-correctness triple (`succeeds` in `L_Answer.v`): each step of parsing, minting and storing is shown to succeed and to leave the grant where it can be found. Conditions: there are handlers that can sign; the client is registered; user attributes do not have the names session_id, usage_rules, token_class or ttype; claims requests are well formed (a "values" member that is not a list raises TypeError in the code); the provider recognises its own access tokens (proved for the usual set-up with opaque tokens, C66_opaque_tokens_recognised); the user id is not itself readable as a session id; the grant holds fewer tokens than the recursion limit; at an OpenID Connect provider the authorization request had a scope. The model of the code's rules must allow access tokens: without one, Token.process_request raises KeyError. |
| C67 | The converse of C28 and C29, for the histories of C01–C09: the look-up succeeds (`leads_to`), the release of claims is total for well-formed claims requests, and the search for an inherited scope ends within the recursion limit because the chain of tokens is a forest. Composed with C65: access tokens are honoured until they expire or are ended. |
| C68 | Completeness of the authorization endpoint, for the histories of C01–C09: an invariant of all calls (`L_Records.v`) says that what is stored under a user's and under a client's key is a record and never a grant and that no record lists an empty subordinate; then every step of `authz_part2` is followed to its answer. It excludes user names that are themselves text that decrypts to a session id, and response types other than `code`. Single sign-on covers both a new request, which gets a new grant, and the same request again, which gets another code of the old one (up to the recursion limit). The last theorem composes it with C66 (`L_Flow.v`): what the log-in leaves behind meets the hypotheses of C66, given that the configuration lets codes be exchanged and recognises its own codes. |
| C69 | Composition of C65, C66, C67 and C68 with a new invariant (`L_Found.v`): calls other than deletions lose no key of the session database and take no name from a record, and with the records' invariant of C15 (`L_Lasting.v`) and the uniqueness of grant ids this keeps every session where it is found. Signed tokens are read only until the time they state; the theorems ask that the text is read alike at both times. User names that decrypt to a session id are excluded. |
