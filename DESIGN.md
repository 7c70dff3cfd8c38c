# Formal model of JWTConnect-Python-OidcRP in Rocq (Coq 8.16.1)

## Approach
Shallow, executable Gallina models of the library's functions, branch by branch, with Python
exceptions as values (`res A := Ok a | Err exn`).  Mutable state is threaded explicitly
(`M A := ctx -> res A * ctx`) and an exception does not roll state back.  Everything outside the
library (clock, random strings, hash, MAC, cipher, JWT signing/unpacking, HTTP, file system) is a
function *parameter* of the model, hence universally quantified in every theorem; the few facts
assumed about them are visible hypotheses of the theorem (and are shown to be satisfiable by an
example instance next to it).  Stdlib only.

Files (`rocq/theories`):
* `Base.v` (+`BaseP.v`) – strings, ordered dictionaries, values, exceptions, monad
* `Json.v` (+`JsonP.v`) – json.dumps / json.loads on values, round trip
* `Msg.v` – the behaviour of oidcmsg's Message class the code relies on
* per area: `M_*.v` model (no proofs; every definition cites file and lines of `/repo/src/oidcrp`),
  `S_*.v` specification vocabulary that does not mention the model's helpers where that is possible,
  `P_*.v` proofs, `T_*.v` only the property theorems (`exact lemma`), their `Print Assumptions` and
  the non-vacuity examples (`ex_Cnn_*`).
* `Ex.v` – the concrete clients, providers and sessions the examples run.

A property the code violates is not weakened silently: the statement in `properties.jsonl` says what
holds, names the deviation, and a theorem `Cnn_..._refuted` proves the deviation by exhibiting a
concrete run of the model that violates the natural statement.  (`_refuted` theorems are about
closed programs; they are counterexamples, not proofs of the property.)

## Plan per property
| id | what is modelled | how proved |
|---|---|---|
| C01 | StateInterface over a dict string->string holding real JSON text | refinement to an abstract map, induction over operation lists; JSON round-trip theorem; lifted to all histories of API calls (P_Trace) |
| C02 | same | frame lemmas on dict updates |
| C03 | KEY_PATTERN formatting | injectivity of prefix/suffix wrapping, last-binding induction |
| C04 | remove_state | conditional theorem + `_refuted` witnesses for the cases the code gets wrong |
| C05 | create_state guard | conditional theorem, `_refuted` witness |
| C06 | (multiple_)extend_request_args | fold lemma against a lookup spec |
| C07 | finalize_auth over a handler with several clients | case analysis, history invariant |
| C08 | state2issuer loop | list induction |
| C09, C47 | client_setup / setup / begin | frame invariants over all histories; `_refuted` witness |
| C10, C42 | init_authorization | symbolic execution of the construct pipeline |
| C11 | update_service_context / post_parse_response | case analysis |
| C12 | get_access_and_id_token | set-equality on words, table spec |
| C13 | get_tokens, oauth_pre_construct | execution + frame, history invariant |
| C14 | PKCE add-on, hash oracle | invariant over interleavings |
| C15, C16 | token selection with clock | maximum lemma |
| C17 | userinfo post_parse | history invariant, `_refuted` |
| C18, C19 | logout | execution, history invariant |
| C20–C25 | client_auth, cookie, base64, quote_plus | codec round trips, MAC/cipher contracts |
| C26, C38 | response parsing / status classification | case analysis, `_refuted` |
| C27–C29 | provider info, endpoints, preferences | case analysis, list lemmas |
| C30–C32, C39, C45 | registration, callback URIs | permutation lemmas |
| C33 | WebFinger | string and list induction |
| C34 | URL/body building | urlencode/JSON round trip |
| C35, C49, C50 | filename_from_webname, add_path, modsplit | string lemmas, `_refuted` |
| C36, C37 | DPoP, PAR | invariant over histories / case analysis |
| C40 | refresh | history invariant, `_refuted` |
| C41 | request construction | dict lemmas |
| C43, C44 | rp_handler session functions | execution, `_refuted` |
| C46 | HTTPLib | induction over calls, `_refuted` |
| C48 | request objects by value and by reference, file system | execution, `_refuted` |
| C51 | gather_verify_arguments + contract of verify | history invariant over all calls, `_refuted` |
| C52 | histories around one login (init_authorization … finalize) | provenance of nonce bindings over all histories, session item reads (P_Login.v) |
| C53 | aggregated claims in the user info answer, `fetch_distributed_claims` with its request log | induction over sources and claim names, `_refuted` |
| C54 | the two client credentials services through `do_request` | request on the wire for all peers, store effects, composition token→refresh, `_refuted` |
| C55 | `get_sign_alg`, `get_enc_alg_enc`, `_do_jwt` and the JSON fallback; the JWT library as an oracle that is told how to unpack | non-interference: same result for any two libraries that agree on the permitted uses; `_refuted` |
| C56 | `Service.__init__`'s handling of the configuration, as a transformation of the service model | equations between configured and plain service |
| C57 | the pre-construct method of check_session/check_id | newest item with an ID Token, `_refuted` |
| C58 | `lower_or_upper`, `get_http_params`, RPConfiguration's attributes | case analysis over all configurations, `_refuted` |
| C59 | backchannel_logout with its verification arguments, over histories of calls | provenance of index entries (strengthened write sets in P_Trace), persistence of index entries, `_refuted` |
| C60 | all calls on a client, their answers, the session a call is about | two-run simulation (relation between the store of the interleaved run and that of the session alone), induction over schedules, `_refuted` |
| C61 | finalize as a sequence of store writes, stopped after any of them; sequences of attempts | two-run simulation on stores that differ in what an attempt writes (P_SimK.v instantiated a second time), `_refuted` for the limits |
| C62 | the handler's functions with the service objects as parameters; plain OAuth2, GitHub and LinkedIn service sets (M_OAuth.v) | request and response specifications, store-operation traces of histories, `_refuted` for providers without a subject |
| C63 | the calls of the handler as programs of steps (free monad), a pool of threads and a scheduler (M_Conc.v) | two-run simulation lifted from calls to steps (P_SimK), induction over schedules, write sets of the steps, `_refuted` for clear_session during a call |
| C64 | init_services, gather_constructors, Entity's lookups, do_add_ons and the three add_support functions; kwargs dictionaries as heap locations; the classes of the package as a table (M_Services.v) | induction over definitions, invariance of the result under what other clients write into the configuration, `_refuted` |
| C65 | the whole Set-Cookie header (M_CookieHdr.v: Morsel's output, name check, attributes); RFC 6265's reader as specification | character invariants of the quoted value, equality of what is read; `_refuted` |
| C66 | rndstr/unreserved over CPython's Mersenne Twister, word by word (M_Random.v) | induction; injectivity of the tempering function (linear over GF(2)) gives functional dependence of later values on earlier ones |
| C67 | verify_header, get_value_type, replace, set_param, create_context (M_Util.v); str.format is a parameter | case analysis, induction over lists, `_refuted` |
| C68 | the key jar through set-up: import_keys, the handler's keys, discovery, listed keys, registration (M_Keys.v, M_Provider.v, M_Registration.v); sources of keys, not key material; KeyJar.load as the tests of the repository count on it | induction over lists, provenance, `_refuted` |
| C69 | reading of the Cookie header: http.cookies' pattern and parser, cookie_parts, get_cookie_value (M_CookieIn.v); RFC 6265 header in S_CookieIn.v; the model of the parser was compared with Python's on 3200 random texts | lemmas on the matcher, induction over the list of cookies, `_refuted` |
| C70 | all calls on a handler with several clients, the client that carries a call out, what the caller gets back | the calls that reach the client as a history of that client, the two-run simulation of C60 for it, equality of the routing in both handlers from C08's lemmas, induction over histories, `_refuted` |
| C71 | the single assignments and deletions of each store operation, operations cut after any of them; lives of a process whose threads are stopped anywhere, restarted with the database left behind (M_Crash.v) | refinement of C01 kept by cut operations, idempotence of the abstract operations, write sets of the steps of C63 and its two-run simulation, induction over lives, `_refuted` |
| C72 | the pages of example/flask_rp/views.py over the handler, with a session per browser (M_Flask.v) | every visit is at most one handler call, so C08/C40 (P_Route) apply; invariant over visits; `_refuted` |
| C73 | where HTTP requests go, as non-interference: the same answers and states with any two HTTP peers that agree on the allowed requests (S_Traffic.v) | per service, call, handler call, history and set-up; `P_Traffic`, `P_Traffic2`.  Not covered: fetching keys from `jwks_uri` (inside the verification oracle), fetching distributed claims (C53, never done by the handler), clients of OAuth2 services (C62); HTTPLib turns redirects off (C46) |
| C74 | composition of C09, C29, C30, C42, C73 over the model of `begin` and of histories of steps (S_Dyn.v: what is published, registered and known) | `P_Dyn` (one set-up from an issuer), `T_Dyn` (frame: no step changes what a client knows of its provider); the first-visit hypothesis names the issuer only; with a request object or a query in the published endpoint the conjuncts on the query say nothing |
| C75 | S_Honest.v says what an honest provider is (what its token endpoint accepts and answers, its UserInfo endpoint, the claims); the client is the composed model of `finalize` over any histories before and after the login was begun | `P_Honest` (front channel), `P_Honest2` (the token request is one that redeems the code: grant type, code, redirect URI, secret, PKCE verifier), `P_Honest3` (answers are read and stored, UserInfo request and answer), `P_Honest4` (the login is unchanged by what happens in between, nonce, subject); rules out programs that refuse too much. Verification of messages is an oracle: honest answers pass it. Not covered: response types other than `code`, private_key_jwt and client_secret_jwt, distributed claims |
| C76 | S_Begin.v says what it takes to begin a login (`set_up`, `fair_args`); the client is the composed model of `init_authorization` over any history, the provider of S_Honest.v, with its conditions on the URL only | `P_Begin` (`login_begins`: no step of the request's construction can fail; totality of the constructors and of the store), `P_Begin2` (`url_and_store`: what the URL says is what was stored); then C75. Not covered: request objects (C35, C48-C50), endpoints with a query (the query is then the provider's business), response types other than `code` in the second part |
| C77 | S_After.v says what calls spare a login's tokens, what the token of an answer is until it expires, and what an honest token endpoint makes of a refresh request; the client is the composed model over any history before the login, `finalize`, and any sparing history after it | `P_After`: `after_login` (which items the login left and that nothing overwrote them, from the write traces of P_Trace), `token_still`, `active_still`, `user_info_still` (P_Honest3), `refresh_request_ok` and `refresh_stage` (no step of the refresh can fail; the form redeems the stored refresh token), `refreshed`. Two refuted parts: a refresh without a new ID Token loses the login's ID Token, and with it the check of the user. Not covered: response types with tokens in the front channel; default bearer authentication of refreshes (C21) |
| C78 | S_Whole.v says when a call at the handler leaves a login alone (`elsewhere`) and spares its tokens (`hspares`); the handler is the composed model with any number of clients (M_Handler, S_Route, S_Multi) | `P_Whole`: `client_history` (induction over handler calls: what a client has been through is the list of the calls routed to it, each routed in a state reached by a prefix); then C76 and C77 for that list, with `route_sound` for clears of other providers' keys and `route_known` for finding the login by its key. Same limits as C76 and C77 |
| C79 | S_Bye.v says when a client can log users out and what a logout request is; client and handler as in C77 and C78, then `logout` (M_Service, M_Handler) and any calls without another logout or clearing | `P_Bye`: `logout_total` (no step of the request construction can fail: the hint is the stored raw ID Token, the URI one of a list of texts), `logout_stays` (what calls write to the logout-state key, from the write traces of P_Trace, and exactly what a logout writes); the handler theorem reuses `at_handler` of T_Whole. Not covered: an endpoint with a query of its own (C45 covers what is sent then) |

No property of the list was found impossible to express; every claim in MANIFEST.json is `proved`.

## Trusted base
* **Coq's kernel** (8.16.1), with no kernel check switched off; no `Axiom`, `Parameter`, `Admitted`,
  module types, functors, plugins or native code.  `vm_compute` is used in closed examples
  (kernel-checked conversion).
* **Print Assumptions** is run after every property theorem in the `T_*.v` files: every one answers
  *Closed under the global context*.  No axiom of the standard library is used.  (A dependency scan may
  list ssreflect's `Under_rel`: that module is merely loaded by tactics, no theorem rests on it.)
* **The model is the code.**  The model was written by reading `/repo` as text (the code could not be
  run), so the correspondence model/code is by inspection; each definition cites the lines.
* **Python semantics**: dictionaries as association lists in insertion order with unique keys, strings
  as byte strings, exceptions as values with the state at the time of the raise kept; integers
  unbounded; no floats; `time_sans_frac` etc. read one clock value per call.  Except in C63 calls on a
  handler are sequential, in any order (histories = lists of calls).  In C63 threads are switched before
  and after HTTP requests, before an answer is stored and between the statements of the handler's
  methods, and not within the construction of one request, the verification of one response, or one
  read or write of the store.  In C71 the store operations are cut between any two assignments to the
  database; at the level of the handler the process dies between two such steps.
* **Third-party libraries**, not in /repo, described from their documentation:
  * `oidcmsg.Message` (`Msg.v`, `M_Service.v`): construction with defaults, to_/from_dict, JSON,
    urlencoded; which parameters are declared, required and space separated (`M_Ctx.v`); type checks of
    declared parameters are not modelled.  `verify()` is a parameter of each service
    (`s_vrf : ctx -> msg -> res msg`): theorems hold for every verification function; C51 and C18 state
    what they need of it as a hypothesis.
  * `cryptojwt`: signing, unpacking, key jars: parameters.  `alg2keytype`, `SIGNER_ALGS`: tables.
  * `urllib.parse` (quote_plus, urlencode, parse_qs, urlsplit, urlunsplit), `base64`, `json`,
    `http.cookies` quoting: modelled concretely (simplifications below); round trips are theorems.
  * `cryptography` (HMAC-SHA1, AES-GCM), `hashlib`, `requests`, `secrets/rndstr`: parameters.

## What is modelled and what is not (paths under src/oidcrp)
| file | modelled | not modelled |
|---|---|---|
| state_interface.py | all of StateInterface (M_State) | InMemoryStateDataBase's pickling-free dict is the dict itself; other database back ends |
| service_context.py | attributes, construction (M_Setup), callback/redirect/request URI generation (M_Registration, M_ReqObj), filename_from_webname (M_ReqObj), get_sign_alg, get_enc_alg_enc (M_Service), import_keys and the key jar (M_Keys) | reading keys from files and URLs |
| service.py | gather_request_args, method_args, do_pre/post_construct, construct, init_authentication_method, construct_request, get_endpoint, get_authn_header, get_request_parameters, get_urlinfo, parse_response, post_parse, get_conf_attr, gather_verify_arguments, init_services, gather_constructors (M_Services) | the JWT library behind `_do_jwt` is an oracle; logging |
| oauth2/__init__.py | Client.do_request, service_request, get_response, parse_request_response, dynamic_provider_info_discovery | constructor wiring (in M_Setup), set_client_id |
| oauth2/authorization, access_token, refresh_access_token, utils, provider_info_discovery | all | – |
| oauth2/add_on/pkce, dpop, pushed_authorization | all (M_Token, M_AddOn) | – |
| oauth2/client_credentials/* | both services (M_CC.v) | – |
| oidc/authorization | all, incl. request objects by value/reference (M_Authz, M_Token, M_ReqObj) | – |
| oidc/access_token, refresh_access_token, userinfo, end_session, registration, read_registration, provider_info_discovery, webfinger, utils | all | – |
| oidc/__init__.py | RP wiring, IDT2REG table, fetch_distributed_claims (M_Claims) | – |
| oidc/check_session, check_id | both (M_Config) | – |
| client_auth.py | all eight methods, JWT assertions, valid_service_context, factory table | logging |
| cookie.py | make_cookie with all attributes (M_CookieHdr), parsing of the Cookie header (M_CookieIn), parse_cookie, CookieDealer, verify/sign | `expire='now'`; values of attributes in a Cookie header |
| http.py, util.py (cookie jar parts) | HTTPLib.__call__, set_cookie (M_Http) | cookie header building from the jar (`_cookies`, never used by the call path) |
| util.py | get_http_url, get_http_body, modsplit, add_path, cookie setting, lower_or_upper, get_http_params (M_Config), rndstr, unreserved (M_Random), verify_header, get_value_type, replace, set_param, create_context (M_Util), importer, do_add_ons (M_Services) | load_yaml_config, load_configuration, YAML and JSON file loading, TLS itself |
| rp_handler.py | client_setup, setup, state2issuer, session functions, init_authorization, begin, finalize*, get_*, refresh, logout, close, clear_session, backchannel_logout, has_active_authentication, get_valid_access_token, the keys of `__init__` (M_Keys) | the other attributes set in `__init__` |
| provider/github, linkedin | all | – (`verify` of the message classes is the verification oracle) |
| example/flask_rp/views.py | /rp, the callbacks, logout, session_iframe, session_change, session_logout, back- and front-channel logout (M_Flask) | logins by user identifier, templates, session cookies (a session per browser), a provider whose client is not set up yet |
| configure.py, logging.py, defaults.py, exception.py, entity.py, service_factory.py | constants, exception classes, service lookup by name, RPConfiguration's attributes (M_Config) | configuration file loading, logging set-up |

### Simplifications (also in the comments of the definitions)
* JSON: no floats; bytes >= 128 kept as they are instead of `\uXXXX`-escaped.
* urlsplit keeps scheme, host and path in one piece and does not lower-case the scheme.
* base64 decoding is strict (CPython skips foreign characters; modelled only where parse_cookie uses it).
* A configuration member of an unexpected type counts as absent; preference lists are lists.
* Except in C56, services are configured without http_method, request_body_type, response_body_type,
  default_authn_method, msg_type, response_cls and error_msg (C56_no_settings: then `configured` is the
  identity; C56 says what the first four change).
* Members of a message class's c_param: names, required, list-valued; no type checks.
* Random strings and the clock are values handed to the call: uniqueness, where needed, is a hypothesis.
* Partial effects lost when an exception is raised in the middle of one pure computation (e.g. the
  empty list assigned in match_preferences before a TypeError, hash2issuer) are noted at the definition.

## Findings (deviations proved as `_refuted` theorems unless marked °, which are observations from reading)
* State store: sessions without index values cannot be removed (TypeError); replaced nonces keep
  resolving; removing one of two sessions of a subject unbinds the other (C04); create_state refuses only
  one of the four index shapes (C05).
* Login by user identifier or by an issuer spelled with a trailing slash replaces the client and loses
  pending sessions (C09); a shared 'behaviour' dictionary couples clients (C47).
* 'openid' is searched as substring in a text scope; construct() outside init_authorization adds no nonce
  for 'token id_token' (C42).
* 4xx answers without 'error' are verified and stored like successes (C26, C38); 3xx answers come back raw.
* Refresh: stored over the token answer, so an answer without refresh_token loses the old one (C40);
  refreshed ID Tokens are verified without the registered algorithms and skew (C51); default bearer
  authentication sends the client secret in the body (C21).
* Refresh, ID Token: an answer without an ID Token, which a provider may give, replaces the stored one: from then on
  has_active_authentication is false at any time, and user info about another user is accepted, since there is no
  ID Token to compare it with (C77).
* Aggregated and distributed claims may overwrite `sub` after the subject check (C17, C53); get_user_info without token never
  succeeds (C44).
* Client credentials: tokens obtained without a state cannot be refreshed (C54).
* A JWT answer marked as JSON is unpacked without restriction of algorithms (C55).
* client_secret_jwt: RS256 by default, caller's algorithm ignored at the token endpoint, KeyError after some
  registrations (C23); Basic header is base64url (C20); bearer_body ignores refresh tokens (C22).
* Cookies: name not authenticated, payload/time stamp boundary ambiguous, InvalidTag not caught (C24).
* 'issuer_mismatch': False allows mismatches (C27); list-valued preferences without overlap are no error (C29).
* 'code id_token' gets no callback; caller's redirect URIs cannot be selected (C32).
* WebFinger: 'HTTP://' links accepted; host-less query URLs (C33).  PUT requests carry no parameters (C34).
* filename_from_webname: look-alike hosts; the provider chooses the request object's file (C35, C48).
* DPoP/PAR/HTTPLib: see C36, C37, C46.
* ° finalize on an error response without state raises KeyError; put_state_in_post_args' result is
  discarded; config 'verify_args' is not what gather_verify_arguments reads; generate_request_uris sets
  redirect_uris; backchannel_logout catches only three exception classes; do_request drops behaviour_args.
* check_session and check_id requests get the verified claims instead of the signed ID Token, and have no
  endpoint (C57); upper-case HTTPC_PARAMS is ignored (C58).
* After a user logged in twice, clear_session of the older session makes back-channel logout of the newer
  one raise KeyError (C59).
* A nonce shared by two sessions (fixed in request_args) makes the earlier login fail; clear_session of the
  earlier session of a user raises KeyError after the later one was cleared (C60).
* Nothing records that an authorization response was used: finalize with the same response again gives
  the same login, unless the provider refuses the code (C61).
* A client made of the github or linkedin services can never finish a login: `finalize`
  needs an ID Token or a `sub` in the user info, and neither provider sends one
  (KeyError 'sub', after the tokens and user info have been stored) (C62).
* The GitHub user info request has the access token in its URL, where it ends up in
  logs (C62).
* With OAuth2 response classes a token answer may carry `__verified_id_token` as a plain
  JSON member; the handler takes it for a verified ID Token (C62).
* `behaviour_args` containing `state` make the OAuth2 authorization service file the
  request under that session instead of the new one (C62).
* clear_session during a call that waits for the network: the call then re-creates the session, with its
  access token (C63).
* Two service definitions of one service name (authorization code and client credentials) silently give one
  service; PKCE is silently left out if a service is missing; making a client writes into the configuration (C64).
* **Session keys, nonces, PKCE verifiers and generated cookie seeds come from the Mersenne Twister**:
  util.py's `import SystemRandom as rnd` names a class as if it were a module, always fails, and falls back to
  `random` (C66).  The theorems show dependence on whole words of the generator; a session key shows 6 bits of
  each word, so that an attacker needs more values and linear algebra, which is not modelled.
* Cookies: ttl=0 means no expiry, no SameSite (C65); ° reading a cookie does not look at its age.
* verify_header compares media types as prefixes; replace() can delete a setting (C67).
* A client of a handler loses its configured secret and keys from its key jar: `_context.keyjar.load(...)` replaces them by
  the handler's, so client_secret_jwt fails; keys the handler would publish by value never reach the clients (C68).
* Whether a dealer's cookie is found depends on the cookies of others in the header: a first cookie named like an attribute or
  without a name, or a value with a bare quotation mark before it, hides it, and '@' in a foreign name raises CookieError (C69).
* C71: `remove_state` deletes the session before the values that lead to it: if the process dies in
  between, the nonce, `sub` and `sid` lead to a session that does not exist, and calling it again raises
  KeyError, so they can never be removed.  `store_x2state` writes the index before the reference: a value
  bound when the process dies in between survives the removal of its session.
* C72: in the example application a login is not bound to the browser that began it (login CSRF); a failing callback replaces the browser's state; back-/front-channel logout pages use an attribute that clients do not have and never end a session; `/session_change` calls a method that services do not have; the page after a logout is looked up among redirect URIs only.

## Testing the theorems against wrong programs
`seeded/LOG.jsonl` has one line per seeded bug: definition, edit, claim, lemmas that stopped proving
(`first_broken`), property theorems that rest on them and so no longer prove, and what was tightened.
Survivors led to tighter theorems for C20, C25 and C41; an audit of the statements led to
specification tables independent of the model for C22–C24, C26, C28, C29, C33, C34 and C40.
