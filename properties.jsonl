{"id": "C01", "title": "Session items read back as stored, last write wins", "statement": "After any history of session creations, item stores and index stores on one state database, reading item type t of session k returns exactly the item most recently stored under (k,t) since k was last created or removed, and raises KeyError when there is none; the issuer of k is the one given to the latest creation of k. In other words the JSON-serialised store behaves like an abstract map session -> (issuer, item type -> item).", "quantifier": "every finite sequence of create/store/bind/remove operations with arbitrary issuers, keys, item types and JSON-like items", "why_tests_cant": "the history is unbounded and items pass through a JSON encoding/decoding on every store of any sibling item; tests only see a few short histories", "anchors": ["src/oidcrp/state_interface.py:StateInterface.get_state", "src/oidcrp/state_interface.py:StateInterface.store_item", "src/oidcrp/state_interface.py:StateInterface.get_item", "src/oidcrp/state_interface.py:StateInterface.get_iss", "src/oidcrp/state_interface.py:StateInterface.create_state"]}
{"id": "C02", "title": "Sessions do not interfere", "statement": "Storing an item in session k, creating k or binding an index value to k never changes what any other session k' returns for any item type or issuer, nor what another index value resolves to.", "quantifier": "all databases, all pairs of distinct RP-generated session keys, all items and index values", "why_tests_cant": "frame property over all other keys of an arbitrary database", "anchors": ["src/oidcrp/state_interface.py:StateInterface.store_item", "src/oidcrp/state_interface.py:StateInterface.store_x2state", "src/oidcrp/state_interface.py:StateInterface.create_state"]}
{"id": "C03", "title": "Index lookups are exact", "statement": "Looking up a session by nonce, logout state, session id or subject id returns the session most recently bound to exactly that kind and value; an unbound value raises KeyError; a value bound as one kind is never found as another kind; and index entries never collide with session entries whose key is alphanumeric (as generated by the library).", "quantifier": "all databases and all string values of the four kinds", "why_tests_cant": "needs injectivity of four key patterns over all strings, which sampling cannot show", "anchors": ["src/oidcrp/state_interface.py:KEY_PATTERN", "src/oidcrp/state_interface.py:StateInterface.store_x2state", "src/oidcrp/state_interface.py:StateInterface.get_state_by_x"]}
{"id": "C04", "title": "Removing a session removes it and only it", "statement": "remove_state(k), for a session that has at least one index value and whose index values (one per kind) were bound to no other session: afterwards k is unknown, no nonce / logout state / sid / sub resolves to k any more, and every other session and index value is unchanged. (Deviations of the code, proved: a session without index values cannot be removed without TypeError; a nonce replaced by a later one of the same session still resolves to the removed session; removing one of two sessions of the same subject makes the other unfindable by subject, and removing that one then raises KeyError.)", "quantifier": "all databases reachable by library operations, all sessions", "why_tests_cant": "depends on the history of index bindings made for k and for other sessions sharing a value", "anchors": ["src/oidcrp/state_interface.py:StateInterface.remove_state", "src/oidcrp/state_interface.py:StateInterface.store_x2state"]}
{"id": "C05", "title": "Caller-chosen session keys cannot shadow index entries", "statement": "create_state rejects every caller-supplied key of the shape '__x__' (the shape of nonce entries) without effect; a session whose key has none of the four index shapes is an entry distinct from every index entry the library can write, so that C01-C04 hold for it. (Deviation of the code, proved: keys of the three other shapes are accepted, and a later login of the subject destroys such a session.)", "quantifier": "all caller supplied keys and all index kinds/values", "why_tests_cant": "collision freedom for all strings", "anchors": ["src/oidcrp/state_interface.py:StateInterface.create_state", "src/oidcrp/state_interface.py:KEY_PATTERN"]}
{"id": "C06", "title": "Request arguments are filled from the session with fixed precedence", "statement": "Filling request arguments from stored items touches only the requested parameters; the value used is the verified form of the claim if present (unless the original is asked for), from the last item type in the list that has it; missing items or parameters leave the argument as it was.", "quantifier": "all argument dictionaries, parameter lists, item-type lists and stored sessions", "why_tests_cant": "quantifies over all orderings of item types and parameters", "anchors": ["src/oidcrp/state_interface.py:StateInterface.extend_request_args", "src/oidcrp/state_interface.py:StateInterface.multiple_extend_request_args"]}
{"id": "C07", "title": "Authorization response is accepted only for a known session of that issuer", "statement": "finalize_auth stores an authorization response only when the response carries no error, its state is a known session of the client that is registered for the issuer it was received from, and the issuer recorded for that session equals that issuer; unknown state raises KeyError, issuer mismatch raises ValueError, and in every failing or error case no database of any client changes.", "quantifier": "all handler states, all issuers and all authorization responses", "why_tests_cant": "security property over all attacker supplied state/issuer/response combinations", "anchors": ["src/oidcrp/rp_handler.py:RPHandler.finalize_auth"]}
{"id": "C08", "title": "Session key routes to the client that created it", "statement": "state2issuer(k) returns the issuer of a client whose database contains session k, and None exactly when no client knows k; a client fetched from a session key is the client registered under that issuer, KeyError otherwise.", "quantifier": "all handler states (any number of clients and sessions) and all session keys", "why_tests_cant": "unbounded number of clients and sessions", "anchors": ["src/oidcrp/rp_handler.py:RPHandler.state2issuer", "src/oidcrp/rp_handler.py:RPHandler.get_client_from_session_key"]}
{"id": "C09", "title": "Starting a new login keeps logins in flight", "statement": "client_setup/begin for an issuer that has a client reuses it unchanged; a setup that fails leaves every client and session in place and adds none; a setup that succeeds touches no client but the one filed under the key it returns. From an empty handler on, the key of a begun session keeps leading to the client that began it, which still has the session, through any history of setups, logins, refreshes, logouts and clearings of other sessions, as long as no setup files a new client over an existing one or under a key that is not its issuer; discovery files a client under its own issuer, which is the configured one up to a trailing slash. (Deviation of the code, proved: a login by user identifier, or by an issuer name with a superfluous slash, does file a new client over the existing one and loses its pending sessions.)", "quantifier": "all handler configurations, all worlds (HTTP answers, random strings, clocks), all interleavings of setups and other calls with pending sessions", "why_tests_cant": "needs two or more logins interleaved with different naming of the issuer, and all outcomes of discovery and registration", "anchors": ["src/oidcrp/rp_handler.py:RPHandler.client_setup", "src/oidcrp/rp_handler.py:RPHandler.begin", "src/oidcrp/rp_handler.py:RPHandler.init_client", "src/oidcrp/rp_handler.py:RPHandler.do_provider_info", "src/oidcrp/rp_handler.py:RPHandler.do_webfinger"]}
{"id": "C10", "title": "Every authorization request has a state and a nonce that are bound to each other", "statement": "init_authorization returns the state it put in the request; the request contains a nonce and that state; the session stores the request; and the nonce generated for the request resolves to that state.", "quantifier": "all client contexts, behaviours, request arguments and databases", "why_tests_cant": "must hold for any caller-supplied arguments and any existing sessions", "anchors": ["src/oidcrp/rp_handler.py:RPHandler.init_authorization", "src/oidcrp/oidc/authorization.py:Authorization.set_state"]}
{"id": "C11", "title": "ID Token nonce must belong to the session", "statement": "A token response whose verified ID Token carries a nonce that is unknown or is bound to another session is rejected with ParameterError/ValueError and leaves the database unchanged; when accepted, the stored response is the received one with __expires_at set to now+expires_in when expires_in is present, and the subject resolves to the session.", "quantifier": "all databases, sessions and token responses", "why_tests_cant": "replay/mix-up protection against all tokens, not sampled ones", "anchors": ["src/oidcrp/oidc/access_token.py:AccessToken.update_service_context", "src/oidcrp/oidc/authorization.py:Authorization.post_parse_response"]}
{"id": "C12", "title": "Tokens are taken from the response that the flow prescribes", "statement": "For each response type the access token and verified ID Token returned by get_access_and_id_token come from the response this table names, irrespective of the order and repetition of words in the response type: 'code' and 'code id_token': both from the token endpoint; 'id_token': the ID Token from the front channel and no access token; 'token' and 'code token': the access token from the front channel and no ID Token; 'id_token token' and 'code id_token token': both from the front channel. A value without source is None; the token endpoint is asked exactly when the table names it, and its answer is stored. (For 'code token' and the 'code id_token' types OpenID Connect would have the client also redeem the code or check the front-channel ID Token; the code does not.)", "quantifier": "all word sequences of response types, authorization responses and token endpoint outcomes", "why_tests_cant": "all permutations and all response contents", "anchors": ["src/oidcrp/rp_handler.py:RPHandler.get_access_and_id_token"]}
{"id": "C13", "title": "Token request replays the session's own code and redirect URI", "statement": "The access-token request made for session k carries the code from the authorization response of k, the redirect_uri of the authorization request of k and state k, whatever other sessions exist; an error answer raises OidcServiceError and stores nothing.", "quantifier": "all databases, all sessions, all interleavings of other sessions' operations", "why_tests_cant": "session mix-up for arbitrary interleavings", "anchors": ["src/oidcrp/rp_handler.py:RPHandler.get_tokens", "src/oidcrp/oauth2/access_token.py:AccessToken.oauth_pre_construct"]}
{"id": "C14", "title": "PKCE verifier matches the challenge of the same session", "statement": "With the PKCE add-on, the code_verifier sent in the token request for session k is the one whose transform was sent as code_challenge in the authorization request of k; verifiers have the configured length and only unreserved characters; an unsupported method raises Unsupported.", "quantifier": "all interleavings of authorization/token requests of any number of sessions, all lengths and methods", "why_tests_cant": "interleavings and hash oracle are unbounded", "anchors": ["src/oidcrp/oauth2/add_on/pkce.py:add_code_challenge", "src/oidcrp/oauth2/add_on/pkce.py:add_code_verifier"]}
{"id": "C15", "title": "get_valid_access_token never returns an expired token", "statement": "get_valid_access_token returns a token stored in the session that either never expires or expires strictly after now (the latest expiring one), and raises OidcServiceError when there is none; a non-expiring token of the most recent kind is preferred.", "quantifier": "all sessions and all points in time", "why_tests_cant": "time and all combinations of stored responses", "anchors": ["src/oidcrp/rp_handler.py:RPHandler.get_valid_access_token"]}
{"id": "C16", "title": "Active authentication means unexpired ID Token of the last response", "statement": "has_active_authentication is true iff the verified ID Token of the last stored response among authorization, token and refresh responses that has one has exp > now.", "quantifier": "all sessions and all points in time", "why_tests_cant": "all combinations of stored responses and times", "anchors": ["src/oidcrp/rp_handler.py:RPHandler.has_active_authentication"]}
{"id": "C17", "title": "User info belongs to the authenticated subject", "statement": "After any history, when the session's last stored ID Token has subject s: a user info answer whose verified form does not have sub = s stores nothing and is not returned (ValueError, or KeyError when there is no sub), and what is returned and stored for the session has sub = s unless the answer names 'sub' among the claims to be fetched from other claim sources; other sessions are unchanged. (Deviation of the code, proved: an aggregated claim source overwrites sub after the check.)", "quantifier": "all user info responses including aggregated and distributed claims, all sessions", "why_tests_cant": "token substitution by any provider response", "anchors": ["src/oidcrp/oidc/userinfo.py:UserInfo.post_parse_response"]}
{"id": "C18", "title": "Back-channel logout only for verified logout tokens and only the right session", "statement": "backchannel_logout returns a session key only if the logout token verified, and that session is the one last bound to the token's sub (or sid when there is no sub) in that client; otherwise MessageException / KeyError and no state changes.", "quantifier": "all requests, verification outcomes and databases", "why_tests_cant": "all tokens and histories", "anchors": ["src/oidcrp/rp_handler.py:backchannel_logout"]}
{"id": "C19", "title": "RP-initiated logout carries the session's ID Token and a bound logout state", "statement": "The end-session request of session k has id_token_hint equal to the original (signed) ID Token last stored for k and a state that resolves to k as logout state; post_logout_redirect_uri is taken from configuration unless given by the caller.", "quantifier": "all sessions, all databases, all caller arguments", "why_tests_cant": "all histories of token/refresh responses", "anchors": ["src/oidcrp/oidc/end_session.py:EndSession"]}
{"id": "C20", "title": "HTTP Basic client credentials decode to exactly the configured id and secret", "statement": "The Authorization header built by client_secret_basic is 'Basic ' followed by a base64url text that decodes to the form-encoded client_id and secret joined by ':', from which both are recovered exactly; distinct credentials give distinct headers; other headers and body members are untouched; a code grant request names the client. (Deviation of the code, proved: the text is base64url, which a standard base64 decoder rejects for some credentials.)", "quantifier": "all client ids and secrets (any byte strings)", "why_tests_cant": "round trip over all strings including ':', '%', non-ASCII", "anchors": ["src/oidcrp/client_auth.py:ClientSecretBasic.construct"]}
{"id": "C21", "title": "The client secret never travels in the body unless client_secret_post is used", "statement": "After client_secret_basic, client_secret_jwt or private_key_jwt authentication the request body holds no client_secret; bearer authentication neither adds nor removes one; client_secret_post puts exactly the client_id and the caller's or configured secret there, or raises AuthnFailure when there is none. (Deviation of the code, proved: a refresh with its default bearer authentication sends the configured secret in the body, where request construction put it.)", "quantifier": "all requests, services and contexts", "why_tests_cant": "all argument combinations", "anchors": ["src/oidcrp/client_auth.py:ClientSecretBasic", "src/oidcrp/client_auth.py:ClientSecretPost", "src/oidcrp/client_auth.py:JWSAuthnMethod.construct"]}
{"id": "C22", "title": "Bearer token selection", "statement": "bearer_header sends as Bearer token the token of the request (which is then removed from the body), else the caller's argument, else the newest token stored in the session; when none exists an exception is raised and nothing is sent; the receiver-side parser recovers exactly the token that was sent. (Deviation of the code, proved: bearer_body never uses a refresh token that is in the request.)", "quantifier": "all requests, kwargs and sessions", "why_tests_cant": "all argument combinations", "anchors": ["src/oidcrp/client_auth.py:find_token", "src/oidcrp/client_auth.py:BearerHeader.construct", "src/oidcrp/client_auth.py:bearer_auth"]}
{"id": "C23", "title": "JWT client assertions name the client and the right audience", "statement": "A client assertion the library makes has iss = sub = client_id, its audience is the token endpoint for token_endpoint authentication and the provider's issuer otherwise, it expires 'lifetime' seconds (default 600) after it was issued, has a fresh jti, and is signed with keys of the client of the key type of the algorithm; the request gets the jwt-bearer assertion type and loses client_secret. (Deviations of the code, proved: at the token endpoint client_secret_jwt is signed with RS256 by default and the caller's algorithm is ignored; after a registration whose response does not repeat the signing algorithm no assertion can be made.)", "quantifier": "all contexts, services, endpoints, algorithms", "why_tests_cant": "all configuration combinations", "anchors": ["src/oidcrp/client_auth.py:JWSAuthnMethod"]}
{"id": "C24", "title": "Signed cookies cannot be altered", "statement": "A signed or encrypted cookie made by make_cookie is read back by parse_cookie to the same payload and timestamp, and what the cookie dealer created it reads back as the same value, time and type (value without '::', not ending in ':', and without '|' when only signed); a signed cookie with any other signature raises InvalidCookieSign; whatever cookie is presented, the value, time and type the dealer returns are those of one cookie it created, for a MAC and cipher that are not forged. (Deviations of the code, proved: the cookie's name is not authenticated, nor is the boundary between payload and time stamp in parse_cookie; a tampered encrypted cookie raises the cipher's InvalidTag; values with separators do not read back.)", "quantifier": "all payloads, names, keys, timestamps, tampered cookie texts", "why_tests_cant": "adversarial inputs", "anchors": ["src/oidcrp/cookie.py:make_cookie", "src/oidcrp/cookie.py:parse_cookie", "src/oidcrp/cookie.py:CookieDealer"]}
{"id": "C25", "title": "Base64 and form encodings are lossless", "statement": "The base64 / base64url / quote_plus encodings used for cookies, credentials, PKCE and DPoP decode to the original bytes for every byte string and use only their alphabet.", "quantifier": "all byte strings", "why_tests_cant": "round trip over all lengths and bytes", "anchors": ["src/oidcrp/cookie.py:make_cookie", "src/oidcrp/client_auth.py:ClientSecretBasic.construct", "src/oidcrp/oauth2/add_on/pkce.py:add_code_challenge"]}
{"id": "C26", "title": "Error responses never change the session", "statement": "A request to a provider changes the client only after its answer verified; an answer with an error member, a failed parse or verification, or any exception before the update leaves the client as it was before the request; the update is made with the verified message only. (Deviation of the code, proved: a 4xx answer without an 'error' member is verified and stored like a success.)", "quantifier": "all HTTP responses, services and databases", "why_tests_cant": "all HTTP status/content combinations", "anchors": ["src/oidcrp/oauth2/__init__.py:Client.service_request", "src/oidcrp/oauth2/__init__.py:Client.parse_request_response", "src/oidcrp/service.py:Service.parse_response"]}
{"id": "C27", "title": "Provider metadata is taken over only from the configured issuer", "statement": "Provider information is stored only if its issuer equals the configured issuer up to one trailing slash, or the configuration has an 'issuer_mismatch' entry under 'allow'; otherwise OidcServiceError is raised and the client is unchanged. In every case the client's own issuer stays the configured one up to that slash, and new keys are filed under that name only. After discovery the stored information is the old one, a verified answer from the well-known URL, or the placeholder for a redirect answer. (Deviation of the code, proved: 'issuer_mismatch': False allows mismatches.)", "quantifier": "all provider responses and contexts", "why_tests_cant": "all issuer strings", "anchors": ["src/oidcrp/oauth2/provider_info_discovery.py:ProviderInfoDiscovery._verify_issuer", "src/oidcrp/oauth2/provider_info_discovery.py:ProviderInfoDiscovery._update_service_context"]}
{"id": "C28", "title": "Requests go to the endpoint the provider published", "statement": "A request goes to the endpoint configured for the service, else to the one the provider information has under the service's endpoint name; without either no request is made. After discovery every service without a configured endpoint uses the published one; configured provider information is used for every service it names. The discovery URL is the issuer without trailing slash followed by the well-known path, and discovery asks only there.", "quantifier": "all issuers, provider infos and service configurations", "why_tests_cant": "all strings/configurations", "anchors": ["src/oidcrp/service.py:Service.get_endpoint", "src/oidcrp/oauth2/provider_info_discovery.py:ProviderInfoDiscovery.get_endpoint"]}
{"id": "C29", "title": "Negotiated behaviour is supported by both sides", "statement": "After a successful negotiation each preference in the negotiation table has: for single-valued settings the first preferred value the provider supports (published, else default); for list-valued ones exactly the preferred values it supports, possibly none. ConfigurationError is raised exactly when a single-valued preference has no supported value and was not set before. (Deviations of the code, proved: no overlap in a list-valued setting is no error; a part of the default's name passes as supported; an unsupported value set earlier survives.)", "quantifier": "all preferences, provider infos and defaults", "why_tests_cant": "all lists", "anchors": ["src/oidcrp/oidc/provider_info_discovery.py:ProviderInfoDiscovery.match_preferences"]}
{"id": "C30", "title": "Response types map to the right grant types regardless of word order", "statement": "response_types_to_grant_types yields exactly the grant types that some standard response type of the list needs, each once, independent of word order, list order and repetition; other response types contribute nothing. A registration request's grant_types are these for its own response_types.", "quantifier": "all lists of response types", "why_tests_cant": "all permutations", "anchors": ["src/oidcrp/oidc/registration.py:response_types_to_grant_types"]}
{"id": "C31", "title": "Keys are published by value or by reference, never both", "statement": "A registration request never carries both jwks and jwks_uri, as built and as sent; a known jwks_uri is what is published, even over a jwks of the caller; without any jwks_uri the keys are published by value, the caller's if given.", "quantifier": "all contexts and configurations", "why_tests_cant": "all configurations", "anchors": ["src/oidcrp/oidc/registration.py:add_jwks_uri_or_jwks", "src/oidcrp/service.py:Service.gather_request_args"]}
{"id": "C32", "title": "Callback URIs are issuer specific and usable", "statement": "The callback URIs the library makes are the RP's base URL, a slash, a path without slashes, a slash and the issuer's hash; different issuers have none in common unless the hash collides; each response type the client is configured with (except 'code id_token') and form_post, when configured, gets a callback that is registered and that redirect URI selection finds. (Deviations of the code, proved: 'code id_token' gets no callback; redirect URIs given by the caller for registration are registered but cannot be selected.)", "quantifier": "all issuers, base urls, behaviours", "why_tests_cant": "all strings/configurations", "anchors": ["src/oidcrp/oidc/registration.py:create_callbacks", "src/oidcrp/oidc/registration.py:add_callbacks", "src/oidcrp/oauth2/utils.py:pick_redirect_uri"]}
{"id": "C33", "title": "WebFinger issuer discovery accepts only the issuer relation over https", "statement": "Whatever the resource identifier, the WebFinger query is sent over https to the well-known path of a host named in the identifier, with the OpenID issuer relation and the resource as only parameters, and the resource is derived from acct:, http(s):, user@host, host:port and bare-host identifiers as specified; XRIs, empty and host-less identifiers are refused. The issuer adopted is the href of the first link with the issuer relation, an 'http://' link only when http links are allowed; every failure leaves the client unchanged. (Deviations of the code, proved: any href that does not literally begin with 'http://' is accepted, e.g. 'HTTP://'; '?q' or 'user@' give a query URL without host; an answer without issuer link makes the login go on with the issuer left by the previous login.)", "quantifier": "all JRD documents and resource identifiers", "why_tests_cant": "all documents", "anchors": ["src/oidcrp/oidc/webfinger.py:WebFinger"]}
{"id": "C34", "title": "HTTP request construction puts parameters where the method demands", "statement": "For GET and DELETE all parameters are in the URL's query (decoding it gives exactly the request's parameters, those in the endpoint's own query winning), base and fragment of the endpoint are kept and there is no body; for POST the URL is the bare endpoint, the content type is declared, and the form or JSON body decodes to the request; a required parameter is never missing from a form body. (Deviation of the code, proved: a PUT request carries its parameters neither in the URL nor in a body.)", "quantifier": "all requests, endpoints, methods and content types", "why_tests_cant": "all strings", "anchors": ["src/oidcrp/util.py:get_http_url", "src/oidcrp/util.py:get_http_body", "src/oidcrp/service.py:Service.get_request_parameters"]}
{"id": "C35", "title": "Web names determine file names", "statement": "filename_from_webname rejects exactly the web names that do not begin with the base URL; base + '/' + name has file name 'name'; two web names with one file name are equal or differ only in the slash after the base; the request URIs the library makes for different issuers have different files. (Deviations of the code, proved: with and without that slash the file is the same; a look-alike host 'https://rp.example.evil.org' is not outside the base 'https://rp.example'; any absolute path has a web name.)", "quantifier": "all base urls and web names", "why_tests_cant": "injectivity over all strings", "anchors": ["src/oidcrp/service_context.py:ServiceContext.filename_from_webname"]}
{"id": "C36", "title": "DPoP proofs bind method and URL and reuse the session key", "statement": "Every request of a service with DPoP by a client that has (or then gets) a DPoP key carries a proof signed with that key whose htm/htu are the request's method and the provider's published endpoint, which is the request's URL for a POST by a service without configured endpoint; the key once made never changes and is made for the first allowed algorithm the provider supports; the receiver accepts the proof and reads method, URL and key off it; any accepted proof is signed with the key in its own header, with an algorithm other than none, and has every member. (Deviations of the code, proved: a provider that does not publish DPoP algorithms makes every request fail with KeyError; without a common algorithm requests go out without proof; a service with a configured endpoint has the published one in its proof; a proof under a symmetric key is accepted.)", "quantifier": "all request sequences", "why_tests_cant": "all histories of requests", "anchors": ["src/oidcrp/oauth2/add_on/dpop.py:dpop_header", "src/oidcrp/oauth2/add_on/dpop.py:DPoPProof"]}
{"id": "C37", "title": "Pushed authorization requests keep parameters off the front channel", "statement": "When the pushed-authorization endpoint answers 200, the request that goes through the browser holds the provider's request_uri and nothing else, except, with merge rule 'lax', the parameters its message class requires; the pushed body holds the whole request, form encoded or as an object signed over all of it; the push itself changes nothing stored. (Deviations of the code, proved: any other status is ignored and the whole request goes through the browser; with the default 'strict' rule no URL can be made from what is left, because client_id is missing.)", "quantifier": "all requests and all PAR endpoint answers", "why_tests_cant": "all HTTP outcomes", "anchors": ["src/oidcrp/oauth2/add_on/pushed_authorization.py:push_authorization"]}
{"id": "C38", "title": "HTTP status classification", "statement": "parse_request_response returns a message only for the success statuses 200-206, verified or carrying an error member, and for 4xx, marked with the status; 302 and 303 give back the raw answer; 500 raises ParseError and every other status OidcServiceError. (Deviation of the code, proved: a 4xx answer without an error member comes back as a non-error message.)", "quantifier": "all status codes, content types and bodies", "why_tests_cant": "all integers and bodies", "anchors": ["src/oidcrp/oauth2/__init__.py:Client.parse_request_response"]}
{"id": "C39", "title": "Redirect URI selection precedence", "statement": "pick_redirect_uri returns the caller's redirect_uri if given, else the first registered redirect URI, else the callback for the response mode and type (form_post, code or implicit), else raises MissingRequiredAttribute; it never invents a URI.", "quantifier": "all contexts and request arguments", "why_tests_cant": "all configurations", "anchors": ["src/oidcrp/oauth2/utils.py:pick_redirect_uri"]}
{"id": "C40", "title": "Refreshing tokens uses and keeps the session's refresh token", "statement": "After any history, every HTTP request a refresh of session k makes carries the refresh token of k's last token answer; a failing refresh stores nothing; a successful one stores the verified answer, with its expiry time, as k's token answer and leaves other sessions alone. (Deviation of the code, proved: an answer without a new refresh token, which the standard allows, loses the old one so that the next refresh cannot be made.)", "quantifier": "all sessions and refresh responses", "why_tests_cant": "all sequences of refresh responses", "anchors": ["src/oidcrp/oauth2/refresh_access_token.py:RefreshAccessToken", "src/oidcrp/rp_handler.py:RPHandler.refresh_access_token"]}
{"id": "C41", "title": "Caller arguments override configuration when building requests", "statement": "In a constructed request each declared parameter has the caller's value if given, else the first usable (not empty) of: the client's own attribute, the service's configured request arguments, the registration arguments, the service's defaults, the negotiated behaviour; undeclared values never leak in; the finished message holds these values, and the message class's default where there is none.", "quantifier": "all request arguments, service configurations and contexts", "why_tests_cant": "all dictionaries", "anchors": ["src/oidcrp/service.py:Service.gather_request_args", "src/oidcrp/service.py:Service.construct"]}
{"id": "C42", "title": "OpenID scope is always present in authorization requests made by the handler", "statement": "An authorization request made by init_authorization whose scopes are a list has 'openid' among them, in the stored request and in the URL, and otherwise exactly the chosen scopes. (Deviations of the code, proved: a scope given as text is only searched for the substring 'openid'; a request constructed by the service itself takes the configured scope as it is and has no nonce for the response type 'token id_token'.)", "quantifier": "all request arguments and behaviours", "why_tests_cant": "all response type/scope combinations", "anchors": ["src/oidcrp/oidc/authorization.py:Authorization.oidc_pre_construct", "src/oidcrp/oidc/authorization.py:Authorization.oidc_post_construct"]}
{"id": "C43", "title": "Clearing or logging out of a session", "statement": "clear_session removes exactly that session from its client: no client knows the key any more, later lookups raise KeyError, other clients are untouched and the client's other sessions and settings are as before; logout and close build the end-session request at the session's own client and leave the other clients alone; without an end_session service AttributeError is raised and nothing changes.", "quantifier": "all handler states", "why_tests_cant": "all histories", "anchors": ["src/oidcrp/rp_handler.py:RPHandler.clear_session", "src/oidcrp/rp_handler.py:RPHandler.close"]}
{"id": "C44", "title": "User info is retrieved with the given token", "statement": "Every HTTP request get_user_info makes when given an access token carries exactly this token, as a Bearer header, to the published endpoint. (Deviation of the code, proved: without a token argument the call never succeeds, whatever valid token the session holds.)", "quantifier": "all sessions", "why_tests_cant": "all sessions", "anchors": ["src/oidcrp/rp_handler.py:RPHandler.get_user_info"]}
{"id": "C45", "title": "Registration response is adopted completely", "statement": "An accepted registration response is kept whole (with the standard's default authentication method), its client_id, secret with expiry and key, and registration access token are adopted, absent optional members leave what was there, and nothing else changes; an error answer or exception leaves the credentials; a client that has an identity does not register again; the registration is read at the URI and with the token the provider gave, and not at all without a token. (Deviation of the code, proved: the redirect URIs and the authentication method the provider registered are not used.)", "quantifier": "all registration responses", "why_tests_cant": "all messages", "anchors": ["src/oidcrp/oidc/registration.py:Registration.update_service_context"]}
{"id": "C46", "title": "Arguments and cookies of HTTP requests", "statement": "Each HTTP call is made with the caller's arguments, else the configured ones, else without following redirects, and no call's arguments leak into another; certificates are verified unless the configuration says otherwise; a cookie set by an answer is kept in the jar with its value unquoted and its attributes. (Deviations of the code, proved: the jar's cookies are never sent; the request callback is never called; a cookie with Max-Age 0 is kept.)", "quantifier": "all arguments and jars", "why_tests_cant": "all argument dictionaries", "anchors": ["src/oidcrp/http.py:HTTPLib.__call__"]}
{"id": "C47", "title": "Clients of different providers do not share behaviour", "statement": "Setting up a client, successfully or not, leaves the behaviour (negotiated settings) of every other client as it was, provided the two are not made from one configuration that has a 'behaviour' of its own. (Deviation of the code, proved: with such a shared default configuration the negotiation with one provider rewrites what was negotiated with another.)", "quantifier": "all histories of setups and calls, all configurations and provider answers", "why_tests_cant": "aliasing of a configuration dictionary between objects shows only in particular orders of setups", "anchors": ["src/oidcrp/rp_handler.py:RPHandler.init_client", "src/oidcrp/service_context.py:ServiceContext.__init__", "src/oidcrp/oidc/provider_info_discovery.py:ProviderInfoDiscovery.match_preferences"]}
{"id": "C48", "title": "Request objects cover the whole request", "statement": "When an authorization request is sent by value or by reference, the request object is signed over the complete request as stored in the session, by the client, for the provider, with the algorithm the caller, else the configuration, else RS256 prescribes; outside the object only the required parameters are sent, with the same values. By reference, the object is found in the file the sent URL stands for and no other file changes; without a registered request URI an unused file is taken. Encryption, when an algorithm is set, is never skipped. (Deviations of the code, proved: with an encryption algorithm configured no request object can be made; a second login replaces the object of the first under a registered URL; the provider's registration response chooses the file, at any path.)", "quantifier": "all requests, contexts, algorithm settings, file systems and random names", "why_tests_cant": "needs the relation of signed, stored and sent request for every argument combination", "anchors": ["src/oidcrp/oidc/authorization.py:Authorization.construct_request_parameter", "src/oidcrp/oidc/authorization.py:Authorization.store_request_on_file", "src/oidcrp/oidc/utils.py:construct_request_uri", "src/oidcrp/oidc/utils.py:request_object_encryption"]}
{"id": "C49", "title": "Joined URLs have exactly one slash at the joint", "statement": "add_path(url, path) is url without its last slash, one slash, and path without its first slash; slashes at the joint do not matter.", "quantifier": "all urls and paths", "why_tests_cant": "all strings", "anchors": ["src/oidcrp/util.py:add_path"]}
{"id": "C50", "title": "Importable names are split into module and attribute", "statement": "modsplit splits 'a.b.C' into ('a.b','C') and 'm:attr' into ('m','attr') for all names, and refuses names with neither separator or with two colons with ValueError.", "quantifier": "all names", "why_tests_cant": "all strings and numbers of parts", "anchors": ["src/oidcrp/util.py:modsplit"]}
{"id": "C51", "title": "ID Tokens are believed only after verification against the client's own provider", "statement": "After any history of calls on a client, every verified ID Token found in the session store, and every ID Token that finalize hands to the application, was unpacked with signature verification on, names the client's issuer, is meant for the client's client_id, was not expired (within the configured clock skew, default 15 s), and was unpacked with exactly the algorithms the client registered for ID Tokens. (Deviation of the code, proved: a refreshed ID Token is verified without the registered algorithms, so one signed with another algorithm, or not at all, is stored as verified.) Assumes that the libraries' verify method checks the arguments it is given, and that 'verify_args' are not configured.", "quantifier": "all histories of API calls with arbitrary peers, clocks, keys and responses; all registration responses and configurations without verify_args", "why_tests_cant": "the attacker chooses every message; absence of an unverified path is a statement about all calls and histories", "anchors": ["src/oidcrp/oidc/authorization.py:Authorization.gather_verify_arguments", "src/oidcrp/oidc/access_token.py:AccessToken.gather_verify_arguments", "src/oidcrp/service.py:Service.gather_verify_arguments", "src/oidcrp/service.py:Service.parse_response", "src/oidcrp/rp_handler.py:RPHandler.finalize", "src/oidcrp/rp_handler.py:RPHandler.finalize_auth", "src/oidcrp/rp_handler.py:RPHandler.get_tokens", "src/oidcrp/rp_handler.py:RPHandler.refresh_access_token"]}
{"id": "C52", "title": "A completed login is bound to its own request", "statement": "Whatever other logins, responses, refreshes and logouts a client handles before and during a login, and whatever the provider and the browser send: the ID Token claims that finalizing the login returns carry the nonce of that login's own authorization request (the one in the URL the user was sent to), and the user info returned is about the subject of that ID Token. An ID Token or authorization code answer made for another login is not accepted. (Exception: user info whose claim sources are to provide sub itself.)", "quantifier": "all histories of API calls before and during the login, with arbitrary peers; all responses of browser, token and user info endpoints", "why_tests_cant": "mix-up and replay need an interleaving of logins that no test enumerates", "anchors": ["src/oidcrp/rp_handler.py:RPHandler.init_authorization", "src/oidcrp/rp_handler.py:RPHandler.finalize", "src/oidcrp/rp_handler.py:RPHandler.finalize_auth", "src/oidcrp/rp_handler.py:RPHandler.get_access_and_id_token", "src/oidcrp/rp_handler.py:RPHandler.get_user_info", "src/oidcrp/oidc/access_token.py:AccessToken.update_service_context", "src/oidcrp/oidc/authorization.py:Authorization.post_parse_response"]}
{"id": "C53", "title": "Claims from other sources come from the source they are assigned to", "statement": "In the user info that get_user_info returns and stores, a claim that _claim_names assigns to an aggregated (signed, by value) source has the value in that source's signed claims, and every other claim is as the verified answer has it. fetch_distributed_claims asks the sources with an endpoint in order, each once, by GET, with that source's own access token, else the application's token for that endpoint, else none; it changes only claims assigned to a source and only to what that source answered with status 200, also when it fails midway; any other status stops it with FetchException. (Deviation of the code, proved: a source may be asked for sub itself, so that the user info ends up being about somebody else.)", "quantifier": "all user info answers, source descriptions, HTTP peers, callbacks and aggregated tokens; all prior histories", "why_tests_cant": "any number of sources in any order, failing anywhere", "anchors": ["src/oidcrp/oidc/userinfo.py:UserInfo.post_parse_response", "src/oidcrp/oidc/__init__.py:RP.fetch_distributed_claims", "src/oidcrp/client_auth.py:BearerHeader.construct"]}
{"id": "C54", "title": "The client credentials grant", "statement": "Every token request of the client credentials services is posted to the provider's token endpoint with grant type client_credentials, the client authenticated by HTTP Basic with its own credentials and these nowhere else in the request; an accepted answer, stamped with its time of expiry, becomes the token response of the given state and nothing else changes, while failures and error answers store nothing. Refreshing the same state sends exactly the refresh token of that answer, as bearer token and nowhere else, and no client credentials. (Deviation of the code, proved: without a state the tokens are stored under the empty key and looked for under 'cc', so that they can never be refreshed.)", "quantifier": "all contexts, request arguments, configurations, states, peers and answers", "why_tests_cant": "all argument combinations and peers", "anchors": ["src/oidcrp/oauth2/client_credentials/cc_access_token.py:CCAccessToken", "src/oidcrp/oauth2/client_credentials/cc_refresh_access_token.py:CCRefreshAccessToken", "src/oidcrp/oauth2/__init__.py:Client.do_request"]}
{"id": "C55", "title": "Signed and encrypted user info is unpacked only with the algorithms in force", "statement": "get_user_info unpacks an answer marked as a JWT with exactly the signing algorithm, encryption algorithm and content encryption the client has set for user info, else those the provider publishes, for the client itself as recipient, and in no other way; what is returned and stored are the claims so unpacked; an answer that cannot be unpacked so is refused and nothing is stored. (Deviation of the code, proved: a JWT marked as JSON is deserialised without any restriction of algorithms.)", "quantifier": "all contexts, tokens, answers, and behaviours of the JWT library", "why_tests_cant": "holds for every answer and every library behaviour", "anchors": ["src/oidcrp/service.py:Service._do_jwt", "src/oidcrp/service.py:Service.parse_response", "src/oidcrp/service_context.py:ServiceContext.get_sign_alg", "src/oidcrp/service_context.py:ServiceContext.get_enc_alg_enc", "src/oidcrp/rp_handler.py:RPHandler.get_user_info"]}
{"id": "C56", "title": "Service settings: caller, then configuration, then class", "statement": "The HTTP method, body type and authentication method of a request, and the expected format of its answer, are those the caller asks for, else those configured for the service, else the service's own; for the token services a registered authentication method goes before a configured one; an empty configured authentication method means no authentication. Apart from that, configuring them changes nothing in requests and answers.", "quantifier": "all services, configurations, requests and answers", "why_tests_cant": "every combination of caller's, configured and built-in values", "anchors": ["src/oidcrp/service.py:Service.__init__", "src/oidcrp/service.py:Service.get_request_parameters", "src/oidcrp/oauth2/__init__.py:Client.do_request", "src/oidcrp/oidc/access_token.py:AccessToken.get_authn_method"]}
{"id": "C57", "title": "Session management requests carry the session's ID Token", "statement": "The check_session and check_id requests made for a session carry that session's newest ID Token and nothing the caller did not give, change nothing, and cannot be made for an unknown session. (Deviations of the code, proved: after a login with a verified ID Token the dictionary of its claims is put there instead of the signed token; the requests cannot be sent, since the services have no endpoint name.)", "quantifier": "all sessions, arguments and stores", "why_tests_cant": "all stored histories", "anchors": ["src/oidcrp/oidc/check_session.py:CheckSession.oidc_pre_construct", "src/oidcrp/oidc/check_id.py:CheckID.oidc_pre_construct"]}
{"id": "C58", "title": "Configuration is read in either spelling and is safe by default", "statement": "Each setting of an RPConfiguration is the value given in lower case, else in upper case; without a hash seed a fresh random one is used; without arguments for HTTP calls certificates are verified, and the arguments made by get_http_params switch verification off only if the configuration says so and carry the configured client certificate. (Deviation of the code, proved: HTTP arguments given in upper case are ignored.)", "quantifier": "all configurations", "why_tests_cant": "all combinations of present, absent and empty values", "anchors": ["src/oidcrp/configure.py:RPConfiguration", "src/oidcrp/util.py:lower_or_upper", "src/oidcrp/util.py:get_http_params"]}
{"id": "C59", "title": "Back-channel logout ends the session of the user it names", "statement": "The session that backchannel_logout returns for a request is one about which the provider told this client, in an earlier call of this client, that its user is the one the logout token names: by subject (in a believable ID Token, or in the user info of a login without ID Token) or, if the token has no subject, by session id. The logout token was unpacked with the algorithm registered for ID Tokens (RS256 if none), names the client's issuer and is meant for the client. Conversely a verified logout token that names the user of a completed login finds a session of that user, as long as no session is cleared. (Deviation of the code, proved: clearing an older session of the same user makes the newer one unreachable for logout tokens.)", "quantifier": "all histories of calls before and after the login, all logout requests, all providers", "why_tests_cant": "the history of logins and the content of the logout token are unbounded", "anchors": ["src/oidcrp/rp_handler.py:backchannel_logout", "src/oidcrp/rp_handler.py:RPHandler.finalize", "src/oidcrp/oidc/access_token.py:AccessToken.update_service_context"]}
{"id": "C60", "title": "Sessions do not disturb one another", "statement": "Handling several users at once is safe: every call made for one session (init_authorization, finalize, finalize_auth, get_access_and_id_token, refresh_access_token, get_user_info, logout) answers exactly as it would if the calls of the other sessions had not been made, whatever these are and however they are interleaved with it; if it fails in one case it fails in the other. What the client then reads about the session (stored requests and responses, issuer, has_active_authentication, get_valid_access_token) is the same too. (Deviations of the code, proved: this needs nonces that no other session uses, so a nonce fixed in the configuration or by the caller breaks it; and clear_session raises KeyError for the earlier of two sessions of a user if the later one is cleared first.)", "quantifier": "all schedules (interleavings) of calls of any number of sessions, all peers, all session keys", "why_tests_cant": "the number of interleavings is unbounded; a test runs one schedule", "anchors": ["src/oidcrp/rp_handler.py:RPHandler", "src/oidcrp/state_interface.py:StateInterface", "src/oidcrp/oidc/access_token.py:AccessToken.update_service_context"]}
{"id": "C61", "title": "An attempt to complete a login can fail, or stop anywhere, and be repeated", "statement": "finalize (or its parts finalize_auth and get_user_info) can fail at any point (an endpoint is down, an answer is refused, the issuer is wrong) or be stopped by a crash after any number of its writes to the session store, and finalize then still answers for that session as if the attempts had not been made; after a login, the stored requests and responses (except fetched user info), the issuer, has_active_authentication, get_valid_access_token and the nonces of the session read as if there had been one attempt only. (Deviations of the code, proved: nothing remembers that a response was used, so the same response gives the same login again; and after an attempt that also collected the tokens of the token endpoint, a login without them is left with an access token it did not get.)", "quantifier": "all histories before, all sequences of attempts with any responses and peers, all crash points between the writes to the store", "why_tests_cant": "crash points and sequences of failures are unbounded, and each needs a peer that fails in the right place", "anchors": ["src/oidcrp/rp_handler.py:RPHandler.finalize", "src/oidcrp/rp_handler.py:RPHandler.finalize_auth", "src/oidcrp/rp_handler.py:RPHandler.get_access_and_id_token", "src/oidcrp/rp_handler.py:RPHandler.get_user_info", "src/oidcrp/state_interface.py:StateInterface"]}
{"id": "C62", "title": "Logins with plain OAuth2, GitHub and LinkedIn services are bound to their session too", "statement": "With the OAuth2 services (also those of the github and linkedin modules) init_authorization begins a session whose key and redirect URI are in the URL, with the scopes chosen and no others and, with PKCE, the challenge of the verifier drawn; a response is accepted only for a session begun by an earlier request to that issuer; after any calls in between, the token request carries the code, redirect URI and verifier of its own session; answers are stored in that session only, tokens with the time they expire; a finished login's subject leads back to its session. The access token is sent to the user info endpoint in an Authorization header, by a GitHub client in the URL. (Deviations of the code, proved: with a provider that gives neither ID Token nor 'sub', which is so for GitHub and LinkedIn, finalize never finishes a login; a token answer that has '__verified_id_token' as a plain parameter is believed unless verification removes it; behaviour_args with 'state' file the request under another session.)", "quantifier": "all providers, histories of calls, requests, responses and answers", "why_tests_cant": "histories and provider answers are unbounded", "anchors": ["src/oidcrp/oauth2/authorization.py:Authorization", "src/oidcrp/oauth2/access_token.py:AccessToken", "src/oidcrp/provider/github.py:UserInfo", "src/oidcrp/provider/linkedin.py:UserInfo", "src/oidcrp/rp_handler.py:RPHandler.finalize", "src/oidcrp/rp_handler.py:RPHandler.init_authorization"]}
{"id": "C63", "title": "Threads of other sessions may run at any point, also while a call waits for the network", "statement": "When several threads of an application use one client at the same time, and the scheduler switches between them before and after HTTP requests, before an answer is stored and between the steps of a call, each thread that works on a session comes as far and answers the same as if only the threads of that session had moved; calls of a session that follow one another answer as in the sequential history of these calls alone, although threads of other sessions ran in the middle of them; what is read about the session is the same at any moment; no call waits for another. (Deviation of the code, proved: a call that waits for the network while its session is cleared puts its answer into the cleared session, so that the access token is there again after clear_session has returned; no sequential order of the two calls has this outcome.)", "quantifier": "all schedules of any number of threads, with switches in the middle of calls; all peers; all session keys", "why_tests_cant": "the schedules are unbounded, and tests run without control over thread switches", "anchors": ["src/oidcrp/rp_handler.py:RPHandler", "src/oidcrp/oauth2/__init__.py:Client.do_request", "src/oidcrp/oauth2/__init__.py:Client.service_request", "src/oidcrp/oauth2/__init__.py:Client.get_response", "src/oidcrp/state_interface.py:StateInterface"]}
{"id": "C64", "title": "A client has exactly the services its configuration defines, for itself", "statement": "The service a client knows under a name is the one described by the last definition whose class has that name: its class and configuration, the functions of the class followed by the configured ones in their order, bound to this client and its authentication factory; under any other name there is none; definitions that are all usable give a client; without definitions a client has the default services of its kind. The services of a client do not depend on the clients made before from the same configuration. A service found by endpoint name is the first with that endpoint. The PKCE, DPoP and pushed authorization add-ons add their functions at the end of the services they are for and touch no other; PKCE and pushed authorization may be configured in either order. (Deviations of the code, proved: making a client writes references to it into the configuration; two definitions whose classes have the same service name give one service, so a client cannot have both the authorization code and the client credentials grant; PKCE for a client that lacks a service is dropped without an error.)", "quantifier": "all configurations, classes, import tables and sequences of clients made from shared configurations", "why_tests_cant": "configurations and the order of client set-ups are unbounded", "anchors": ["src/oidcrp/service.py:init_services", "src/oidcrp/service.py:gather_constructors", "src/oidcrp/service.py:Service.__init__", "src/oidcrp/entity.py:Entity", "src/oidcrp/util.py:do_add_ons", "src/oidcrp/oauth2/add_on/pkce.py:add_support", "src/oidcrp/oauth2/add_on/dpop.py:add_support", "src/oidcrp/oauth2/add_on/pushed_authorization.py:add_support"]}
{"id": "C65", "title": "The cookies given out carry exactly the attributes asked for", "statement": "Whatever the payload of a cookie, a user agent that reads the Set-Cookie header (RFC 6265) finds one cookie of the given name and exactly the attributes asked for, in one line: nothing in the payload can add or change an attribute or a header. Every cookie of a CookieDealer is Secure and HttpOnly, has the server's domain and path, goes stale after the given number of minutes (the dealer's if none is given) and reads back; delete_cookie gives a cookie of the same name, domain and path that is stale already. (Deviations of the code, proved: a lifetime of 0 minutes means no expiry; cookies of a CookieDealer never have SameSite; a domain or path with ';' is written as it is.)", "quantifier": "all payloads, names, keys, attributes and times", "why_tests_cant": "payloads are unbounded", "anchors": ["src/oidcrp/cookie.py:make_cookie", "src/oidcrp/cookie.py:CookieDealer.create_cookie", "src/oidcrp/cookie.py:CookieDealer.delete_cookie"]}
{"id": "C66", "title": "Random values have their form, but can be predicted", "statement": "A value of rndstr or unreserved has the length asked for, consists of letters and digits, each as likely as any other, and needs no escaping in a URL; so session keys have the form the other properties need and PKCE verifiers that of RFC 7636. (Deviation of the code, proved: 'import SystemRandom as rnd' fails on every system, so that session keys, nonces, PKCE verifiers and generated cookie seeds come from the Mersenne Twister of the module random: each word it gives out is determined by three earlier ones, and 624 successive words determine every later session key, nonce and verifier.)", "quantifier": "all states of the generator and all lengths", "why_tests_cant": "holds for every state of the generator; statistical tests cannot show predictability", "anchors": ["src/oidcrp/util.py:rndstr", "src/oidcrp/util.py:unreserved", "src/oidcrp/defaults.py:BASECHR", "src/oidcrp/state_interface.py:StateInterface.create_state", "src/oidcrp/rp_handler.py:RPHandler.init_authorization"]}
{"id": "C67", "title": "Answer formats, configuration parameters and the server's TLS context", "statement": "verify_header gives the expected format if the content type is one of that format, a JWT where a signed answer comes instead of JSON, what the content type says if nothing is expected, and refuses everything else. replace and set_param take the setting in lower case, else in upper case, fill its placeholders and touch no other setting. create_context makes a TLS context only with certificate and key, and asks clients for certificates exactly as 'verify_user' says, refusing unknown values. (Deviations of the code, proved: media types are compared as case-sensitive prefixes; get_value_type ignores the content type if nothing is expected; replace with arguments deletes a text setting given in upper case that has no placeholder.)", "quantifier": "all content types, formats, configurations and formatting functions", "why_tests_cant": "all combinations of settings and content types", "anchors": ["src/oidcrp/util.py:verify_header", "src/oidcrp/util.py:get_value_type", "src/oidcrp/util.py:replace", "src/oidcrp/util.py:set_param", "src/oidcrp/util.py:create_context"]}
{"id": "C68", "title": "Keys are held only for those they belong to", "statement": "Every key in the key jar of a client that has been set up was there before, or was published by its provider and is filed under a spelling of the issuer the client is to talk to, or was listed by the administrator, or is one of the client's own keys filed under the identity it got, or is the secret it got: a provider cannot give a client keys of anybody else, nor keys the client would sign with (but its secret). No key is lost in a set-up; published and listed keys are used, import_keys adds exactly the keys of its specification, lists that are not understood are refused. A handler publishes its keys by reference or by value, not both. (Deviations of the code, proved: a client made by a handler has exactly the handler's keys, so that a secret or keys in the client's own configuration are not among its keys and client_secret_jwt always fails for it; and keys the handler would publish by value never reach its clients, so that they register without keys.)", "quantifier": "all configurations, provider answers, registrations, jars and owners", "why_tests_cant": "configurations and answers are unbounded, and a key filed under the wrong owner shows only when somebody forges a signature with it", "anchors": ["src/oidcrp/service_context.py:ServiceContext.import_keys", "src/oidcrp/service_context.py:ServiceContext.__init__", "src/oidcrp/rp_handler.py:RPHandler.__init__", "src/oidcrp/rp_handler.py:RPHandler.init_client", "src/oidcrp/rp_handler.py:RPHandler.do_provider_info", "src/oidcrp/oauth2/provider_info_discovery.py:ProviderInfoDiscovery._update_service_context", "src/oidcrp/oidc/registration.py:Registration.update_service_context"]}
{"id": "C69", "title": "A cookie that was set comes back", "statement": "A Cookie header with the cookies of any number of parties, all as RFC 6265 has them, is read as those cookies: each name gives its last value, and no other name any. The cookie of a CookieDealer, whatever its value and type, signed or encrypted, sent back among such cookies, gives get_cookie_value the value, time and type it was created with; so does the value of the Set-Cookie header itself. Whatever text is presented as the header, what the dealer returns is one of the cookies it created. (Deviations of the code, proved: the dealer finds nothing if the first cookie is named like an attribute such as 'path', or has no name, or if a value with a bare quotation mark, such as JSON, comes before its own; a cookie of somebody else with '@' in its name makes reading raise an exception; a dealer's cookie whose name starts with '$' is set and never found again.)", "quantifier": "all lists of cookies, values, types, keys, times and header texts", "why_tests_cant": "headers mix the cookies of any number of parties", "anchors": ["src/oidcrp/cookie.py:cookie_parts", "src/oidcrp/cookie.py:parse_cookie", "src/oidcrp/cookie.py:CookieDealer.get_cookie_value", "src/oidcrp/cookie.py:CookieDealer.create_cookie"]}
{"id": "C70", "title": "A login at a handler with many providers goes as if its provider were the only one", "statement": "Whatever calls are made on a handler for other providers and for other logins at the same provider, in any order between the calls of one login (beginning it, completing it, getting and refreshing tokens, user info, logout), each call of that login answers as it would in a handler that has only that provider and only that login, and afterwards the handler says the same about it: which provider it is at, whether the user is logged in, the access token, the stored requests and responses. A call changes no client but the one that carries it out, none at all when the session key is unknown, and depends on no other client; no client appears or goes away. (Deviation, proved: if the same session key is drawn for two providers, calls with the key go to the one that comes first in the handler; the keys are random.)", "quantifier": "all handlers, providers, session keys, worlds and histories of API calls", "why_tests_cant": "the interleavings of logins at different providers are unbounded", "anchors": ["src/oidcrp/rp_handler.py:RPHandler.state2issuer", "src/oidcrp/rp_handler.py:RPHandler.get_client_from_session_key", "src/oidcrp/rp_handler.py:RPHandler.begin", "src/oidcrp/rp_handler.py:RPHandler.finalize", "src/oidcrp/rp_handler.py:RPHandler.get_access_and_id_token", "src/oidcrp/rp_handler.py:RPHandler.refresh_access_token", "src/oidcrp/rp_handler.py:RPHandler.get_user_info", "src/oidcrp/rp_handler.py:RPHandler.logout", "src/oidcrp/rp_handler.py:RPHandler.close"]}
{"id": "C71", "title": "A crash leaves no half-written session", "statement": "If the process dies between any two writes to the session database and is started again with the database as it is, then every session reads back as if each operation (create, store, bind a value, remove) had been done completely or not at all; a value leads only to a session it was bound to, and to the last one as long as nothing is removed; other sessions and values are untouched; and doing an interrupted create, store or bind again gives a database nobody can tell from one without the crash. For the application: however often the process dies with whatever threads in the middle of calls, a session that is found was begun by one of its calls, an authorization response that is accepted answers a request that was begun and comes from that issuer, a nonce leads to the session of its request and a logout state to that of its logout; and the interrupted calls of other sessions do not matter for a session: in each life its threads come as far and answer the same as if only they had run. (Deviations of the code, proved: a removal that was interrupted cannot be done again, so that the nonce and other values of a removed session lead to it for ever; and a bind interrupted between its two writes leaves such a value even when the session is removed later without an error.)", "quantifier": "all databases, histories of operations, crash points, sequences of lives, threads and schedules", "why_tests_cant": "crash points and what follows them cannot be enumerated by tests, and the code has no test for any", "anchors": ["src/oidcrp/state_interface.py:StateInterface.create_state", "src/oidcrp/state_interface.py:StateInterface.store_item", "src/oidcrp/state_interface.py:StateInterface.store_x2state", "src/oidcrp/state_interface.py:StateInterface.remove_state", "src/oidcrp/rp_handler.py:RPHandler"]}
{"id": "C72", "title": "The pages of the example application keep users apart", "statement": "Whatever browsers visit the pages of the example application in whatever order: its handler goes through calls of its API only, each made by one visit (begin by the first page, finalize by a callback, logout by the logout page for the session of that browser). The page with a user is shown for a callback only, whose state was begun by an earlier visit for the provider the callback belongs to, and shows what finalize answered; a callback with any other state changes nothing and shows no user. No visit changes the session of another browser; the state in a browser's session is that of the last callback it made for a known client, and the logout page ends that login, at the provider where it was begun. (Deviations of the code, proved: a login is not tied to the browser that began it, so a browser sent to the callback of somebody else's login is logged in as that user; a callback that fails still replaces the state of the browser, which then cannot log out; back- and front-channel logouts never end a session and never succeed; the page for a changed session always fails; the page after a logout fails for the address registered for it.)", "quantifier": "all applications, browsers and sequences of visits", "why_tests_cant": "visits of any number of browsers interleave without bound", "anchors": ["example/flask_rp/views.py:rp", "example/flask_rp/views.py:get_rp", "example/flask_rp/views.py:finalize", "example/flask_rp/views.py:authz_cb", "example/flask_rp/views.py:repost_fragment", "example/flask_rp/views.py:logout", "example/flask_rp/views.py:backchannel_logout", "example/flask_rp/views.py:frontchannel_logout", "example/flask_rp/views.py:session_change", "example/flask_rp/views.py:session_logout"]}
{"id": "C73", "title": "A client's HTTP requests go to its own provider's endpoints only", "statement": "Whatever the caller, the authorization response or any HTTP answer says, in every state: a token request or refresh is a POST to the token endpoint the client's provider has published, and a UserInfo request a GET at its UserInfo endpoint (up to query and fragment); finalizing a login makes only these; beginning a login, reading an authorization response, logging out and clearing a session make none, and a client whose provider has published no endpoint makes none. So at a handler with many clients a call sends nothing to any provider but that of the client that carries it out, over any history, and the addresses stay those published when the client was made. Setting a client up (or beginning a login at a provider unknown so far) asks the WebFinger URL of the user, if no issuer is given; the well-known URL of the configured, given or WebFinger-linked issuer, if no provider information is configured; and the registration endpoint in the verified metadata, if no client identifier is configured; and nothing else. Stated as: two HTTP peers that answer those requests alike cannot be told apart by answer or state.", "quantifier": "all clients, handlers, states, worlds, calls, histories and pairs of HTTP peers", "why_tests_cant": "a request to a wrong place (code, secret or token leak) can depend on any state and any answer; and absence of requests cannot be tested", "anchors": ["src/oidcrp/rp_handler.py:RPHandler.finalize", "src/oidcrp/rp_handler.py:RPHandler.get_access_and_id_token", "src/oidcrp/rp_handler.py:RPHandler.refresh_access_token", "src/oidcrp/rp_handler.py:RPHandler.get_user_info", "src/oidcrp/rp_handler.py:RPHandler.client_setup", "src/oidcrp/rp_handler.py:RPHandler.begin", "src/oidcrp/service.py:Service.get_endpoint", "src/oidcrp/service.py:Service.get_request_parameters", "src/oidcrp/oauth2/__init__.py:Client.do_request", "src/oidcrp/oauth2/provider_info_discovery.py:ProviderInfoDiscovery.get_endpoint", "src/oidcrp/oidc/webfinger.py:WebFinger.query"]}
{"id": "C74", "title": "Logging in at a provider known only by its issuer, end to end", "statement": "An application that knows nothing of a provider but its issuer (the configuration names no provider information, no other issuer is allowed and no discovery address is set) begins a login there after any steps, and then makes any steps that do not begin that login again or clear it. If the login begins, the provider published metadata under the well-known URL of that issuer, verified, naming that issuer (up to a slash), such that: the user is sent to the authorization endpoint in that metadata; with a request in plain parameters, the URL carries the state of the login and the client identifier, which is the configured one or else the one the registration endpoint in that metadata gave; from then on the state leads to the client filed under the issuer in the metadata; and no later call about the login (finalizing, token requests, refreshes, UserInfo requests, logging out) makes a request to anything but the token endpoint and the UserInfo endpoint in that metadata, as in C73.", "quantifier": "all applications, histories before and after, worlds, responses and calls", "why_tests_cant": "discovery, registration, state and endpoints are tested one by one; that they are tied to one issuer needs every history and every answer of the network", "anchors": ["src/oidcrp/rp_handler.py:RPHandler.begin", "src/oidcrp/rp_handler.py:RPHandler.client_setup", "src/oidcrp/rp_handler.py:RPHandler.do_provider_info", "src/oidcrp/rp_handler.py:RPHandler.do_client_registration", "src/oidcrp/rp_handler.py:RPHandler.init_authorization", "src/oidcrp/rp_handler.py:RPHandler.finalize", "src/oidcrp/oauth2/provider_info_discovery.py:ProviderInfoDiscovery.get_endpoint", "src/oidcrp/oidc/registration.py:Registration.update_service_context"]}
{"id": "C75", "title": "An honest code-flow login completes", "statement": "Whatever a client did before a code-flow login was begun, and whatever it does between then and its response (other logins at the same provider, in any state, with whatever responses and peers; but the login is not cleared): if the provider is honest, finalize does not fail but gives the user information, the session key, the access token and the ID Token claims of that login. Honest means: the response carries the state and a code and passes verification; the token endpoint answers a request that redeems this code, with the redirect URI of the request, the client's secret by HTTP Basic or in the form, and, with PKCE, a verifier whose transform is the challenge of the request, by an access token and an ID Token that passes verification and has the nonce of the login; the UserInfo endpoint answers a request with that token by claims about the same user. So the token request the client makes is one such a provider accepts, the UserInfo request too, and no check of the client refuses an honest answer. The user information shown has every claim the provider gave (but empty ones). The nonce is known as that of the login unless another login was begun with the same nonce or logins were cleared meanwhile.", "quantifier": "all clients with or without PKCE and UserInfo, histories before and in between, honest providers, users and claims", "why_tests_cant": "soundness tests never notice a client that refuses too much in some history; and the honest answers are unbounded", "anchors": ["src/oidcrp/rp_handler.py:RPHandler.init_authorization", "src/oidcrp/rp_handler.py:RPHandler.finalize", "src/oidcrp/rp_handler.py:RPHandler.finalize_auth", "src/oidcrp/rp_handler.py:RPHandler.get_access_and_id_token", "src/oidcrp/rp_handler.py:RPHandler.get_access_token", "src/oidcrp/rp_handler.py:RPHandler.get_user_info", "src/oidcrp/oidc/access_token.py:AccessToken", "src/oidcrp/oauth2/access_token.py:AccessToken", "src/oidcrp/oidc/userinfo.py:UserInfo", "src/oidcrp/client_auth.py:ClientSecretBasic", "src/oidcrp/client_auth.py:ClientSecretPost", "src/oidcrp/client_auth.py:BearerHeader", "src/oidcrp/oauth2/add_on/pkce.py:add_code_verifier"]}
{"id": "C76", "title": "A client that is set up can begin a login, and its URL leads to the user", "statement": "Whatever calls were made before, a client that knows its provider, its identifier, its redirect URIs and default response type and scope (and, with PKCE, has a method the code supports) begins a login: init_authorization does not fail but gives a URL and the new state. With an authorization endpoint without a query of its own and a request in plain parameters, the URL of a code-flow login says the state, a redirect URI, a nonce and, with PKCE, a challenge and its method. A provider that has seen nothing but this URL, and answers honestly according to it (as in C75: a code for that state, tokens for a request with that redirect URI and a verifier that fits that challenge, an ID Token with that nonce), gets the user logged in, whatever other logins were begun, completed or refused at that provider meanwhile.", "quantifier": "all clients, histories, arguments, configurations and honest providers", "why_tests_cant": "that nothing set before makes a login impossible, and that URL, store and token request agree, ranges over all histories and configurations", "anchors": ["src/oidcrp/rp_handler.py:RPHandler.begin", "src/oidcrp/rp_handler.py:RPHandler.init_authorization", "src/oidcrp/rp_handler.py:RPHandler.finalize", "src/oidcrp/oidc/authorization.py:Authorization", "src/oidcrp/oauth2/authorization.py:Authorization", "src/oidcrp/oauth2/utils.py:pick_redirect_uri", "src/oidcrp/oauth2/utils.py:set_state_parameter", "src/oidcrp/oauth2/add_on/pkce.py:add_code_challenge", "src/oidcrp/service.py:Service.gather_request_arguments"]}
{"id": "C77", "title": "A completed login stays usable", "statement": "Whatever a client did before a code-flow login, and whatever it does after the login was completed (other logins, with whatever peers; user info and logout for this one; but its tokens are not fetched again, refreshed or cleared): get_valid_access_token gives the token of the login exactly until it expires (expires_in after it was received; forever without), and then says that there is none; has_active_authentication is true exactly until the ID Token expires; at an honest provider get_user_info gives the user's claims again, and refresh_access_token succeeds: the request redeems the login's refresh token with the client's secret (by client_secret_basic or client_secret_post, as registered), the answer is given, and from then on the new token is the valid one until it expires, and the user is logged in until the new ID Token expires. Deviations, proved: when the provider sends no new ID Token with the refresh, the user counts as logged out at once, at any time; and the check that the user info is about the user of the login is then lost: claims about another user are accepted.", "quantifier": "all clients, histories before and after, providers, times, tokens and claims", "why_tests_cant": "what is left of a login after any further history, and at every time, ranges over all calls and answers", "anchors": ["src/oidcrp/rp_handler.py:RPHandler.get_valid_access_token", "src/oidcrp/rp_handler.py:RPHandler.has_active_authentication", "src/oidcrp/rp_handler.py:RPHandler.get_user_info", "src/oidcrp/rp_handler.py:RPHandler.refresh_access_token", "src/oidcrp/oauth2/refresh_access_token.py:RefreshAccessToken", "src/oidcrp/oidc/refresh_access_token.py:RefreshAccessToken", "src/oidcrp/oidc/access_token.py:AccessToken.update_service_context", "src/oidcrp/state_interface.py:StateInterface.multiple_extend_request_args"]}
{"id": "C78", "title": "An honest login completes and is kept at a handler with many providers", "statement": "Whatever was done at a handler for whatever providers, a login begins at a provider whose client is set up; and if that provider is honest (as in C76: it acts on what the URL of the login says), finalize gives the user, the session key, the access token and the ID Token claims, whatever is done meanwhile for the other providers, who may answer anything, and for other logins at the same provider (a login at another provider may also be cleared). Afterwards, whatever is done for other providers and other logins, the session key alone leads to the provider of the login; get_valid_access_token with it gives the token exactly until it expires, has_active_authentication is true exactly until the ID Token expires, get_user_info gives the user's claims again, and refresh_access_token succeeds at an honest provider and makes the new token the one the handler gives. The session key is drawn for this provider only, and the nonce for no other login at it.", "quantifier": "all handlers, providers, histories before, in between and after, users, tokens, claims and times", "why_tests_cant": "any provider of many may interfere, in any interleaving", "anchors": ["src/oidcrp/rp_handler.py:RPHandler.begin", "src/oidcrp/rp_handler.py:RPHandler.init_authorization", "src/oidcrp/rp_handler.py:RPHandler.finalize", "src/oidcrp/rp_handler.py:RPHandler.state2issuer", "src/oidcrp/rp_handler.py:RPHandler.get_client_from_session_key", "src/oidcrp/rp_handler.py:RPHandler.get_valid_access_token", "src/oidcrp/rp_handler.py:RPHandler.has_active_authentication", "src/oidcrp/rp_handler.py:RPHandler.get_user_info", "src/oidcrp/rp_handler.py:RPHandler.refresh_access_token"]}
{"id": "C79", "title": "After a completed login the user can log out", "statement": "In the situation of C77, and at a handler with many providers in that of C78: when a login was completed and its provider has published an end-session endpoint, logout does not fail, whatever was done before the login and after it (other logins, and calls for this login that do not fetch its tokens again, refresh or clear them). It gives a redirect (GET, no body) to that endpoint with the ID Token the user logged in with as id_token_hint and a new logout state, and the address to come back to that was asked for, if one was. The logout state leads back to the login, through other logins and logouts too, until one draws the same logout state or a session is removed at that client. At a handler the session key alone is enough, for logout and for close; clients of other providers stay as they are. Assumes an endpoint without a query of its own, configured addresses that are lists of texts, and a logout state that is not empty.", "quantifier": "all clients, handlers, histories before and after, addresses and logout states", "why_tests_cant": "that nothing done before or after a login makes the logout fail or use another user's ID Token ranges over all histories", "anchors": ["src/oidcrp/rp_handler.py:RPHandler.logout", "src/oidcrp/rp_handler.py:RPHandler.close", "src/oidcrp/oidc/end_session.py:EndSession", "src/oidcrp/state_interface.py:StateInterface.store_logout_state2state", "src/oidcrp/state_interface.py:StateInterface.get_state_by_logout_state"]}
