import json
P=[]
def p(id,title,statement,quant,why,anchors):
    P.append(dict(id=id,title=title,statement=statement,quantifier=quant,why_tests_cant=why,anchors=anchors))
SI="src/oidcrp/state_interface.py:"
RP="src/oidcrp/rp_handler.py:"
p("C01","Session items read back as stored, last write wins",
"After any history of session creations, item stores and index stores on one state database, reading item type t of session k returns exactly the item most recently stored under (k,t) since k was last created or removed, and raises KeyError when there is none; the issuer of k is the one given to the latest creation of k. In other words the JSON-serialised store behaves like an abstract map session -> (issuer, item type -> item).",
"every finite sequence of create/store/bind/remove operations with arbitrary issuers, keys, item types and JSON-like items",
"the history is unbounded and items pass through a JSON encoding/decoding on every store of any sibling item; tests only see a few short histories",
[SI+"StateInterface.get_state",SI+"StateInterface.store_item",SI+"StateInterface.get_item",SI+"StateInterface.get_iss",SI+"StateInterface.create_state"])
p("C02","Sessions do not interfere",
"Storing an item in session k, creating k or binding an index value to k never changes what any other session k' returns for any item type or issuer, nor what another index value resolves to.",
"all databases, all pairs of distinct RP-generated session keys, all items and index values",
"frame property over all other keys of an arbitrary database",
[SI+"StateInterface.store_item",SI+"StateInterface.store_x2state",SI+"StateInterface.create_state"])
p("C03","Index lookups are exact",
"Looking up a session by nonce, logout state, session id or subject id returns the session most recently bound to exactly that kind and value; an unbound value raises KeyError; a value bound as one kind is never found as another kind; and index entries never collide with session entries whose key is alphanumeric (as generated by the library).",
"all databases and all string values of the four kinds",
"needs injectivity of four key patterns over all strings, which sampling cannot show",
[SI+"KEY_PATTERN",SI+"StateInterface.store_x2state",SI+"StateInterface.get_state_by_x"])
p("C04","Removing a session removes it and only it",
"After remove_state(k): k is unknown, no nonce / logout state / sid / sub bound to k resolves to k any more, and every other session and its index values are unchanged.",
"all databases reachable by library operations, all sessions",
"depends on the history of index bindings made for k and for other sessions sharing a value",
[SI+"StateInterface.remove_state",SI+"StateInterface.store_x2state"])
p("C05","Caller-chosen session keys cannot shadow index entries",
"create_state either rejects a caller-supplied key or the key denotes an entry distinct from every index entry the library can write.",
"all caller supplied keys and all index kinds/values",
"collision freedom for all strings",
[SI+"StateInterface.create_state",SI+"KEY_PATTERN"])
p("C06","Request arguments are filled from the session with fixed precedence",
"Filling request arguments from stored items touches only the requested parameters; the value used is the verified form of the claim if present (unless the original is asked for), from the last item type in the list that has it; missing items or parameters leave the argument as it was.",
"all argument dictionaries, parameter lists, item-type lists and stored sessions",
"quantifies over all orderings of item types and parameters",
[SI+"StateInterface.extend_request_args",SI+"StateInterface.multiple_extend_request_args"])
p("C07","Authorization response is accepted only for a known session of that issuer",
"finalize_auth stores an authorization response only when the response carries no error, its state is a known session of the client that is registered for the issuer it was received from, and the issuer recorded for that session equals that issuer; unknown state raises KeyError, issuer mismatch raises ValueError, and in every failing or error case no database of any client changes.",
"all handler states, all issuers and all authorization responses",
"security property over all attacker supplied state/issuer/response combinations",
[RP+"RPHandler.finalize_auth"])
p("C08","Session key routes to the client that created it",
"state2issuer(k) returns the issuer of a client whose database contains session k, and None exactly when no client knows k; a client fetched from a session key is the client registered under that issuer, KeyError otherwise.",
"all handler states (any number of clients and sessions) and all session keys",
"unbounded number of clients and sessions",
[RP+"RPHandler.state2issuer",RP+"RPHandler.get_client_from_session_key"])
p("C09","Starting a new login keeps logins in flight",
"client_setup/begin for an issuer that has a client reuses it unchanged; a setup that fails leaves every client and session in place and adds none; a setup that succeeds touches no client but the one filed under the key it returns. From an empty handler on, the key of a begun session keeps leading to the client that began it, which still has the session, through any history of setups, logins, refreshes, logouts and clearings of other sessions, as long as no setup files a new client over an existing one or under a key that is not its issuer; discovery files a client under its own issuer, which is the configured one up to a trailing slash. (Deviation of the code, proved: a login by user identifier, or by an issuer name with a superfluous slash, does file a new client over the existing one and loses its pending sessions.)",
"all handler configurations, all worlds (HTTP answers, random strings, clocks), all interleavings of setups and other calls with pending sessions",
"needs two or more logins interleaved with different naming of the issuer, and all outcomes of discovery and registration",
[RP+"RPHandler.client_setup",RP+"RPHandler.begin",RP+"RPHandler.init_client",RP+"RPHandler.do_provider_info",RP+"RPHandler.do_webfinger"])
p("C10","Every authorization request has a state and a nonce that are bound to each other",
"init_authorization returns the state it put in the request; the request contains a nonce and that state; the session stores the request; and the nonce generated for the request resolves to that state.",
"all client contexts, behaviours, request arguments and databases",
"must hold for any caller-supplied arguments and any existing sessions",
[RP+"RPHandler.init_authorization","src/oidcrp/oidc/authorization.py:Authorization.set_state"])
p("C11","ID Token nonce must belong to the session",
"A token response whose verified ID Token carries a nonce that is unknown or is bound to another session is rejected with ParameterError/ValueError and leaves the database unchanged; when accepted, the stored response is the received one with __expires_at set to now+expires_in when expires_in is present, and the subject resolves to the session.",
"all databases, sessions and token responses",
"replay/mix-up protection against all tokens, not sampled ones",
["src/oidcrp/oidc/access_token.py:AccessToken.update_service_context","src/oidcrp/oidc/authorization.py:Authorization.post_parse_response"])
p("C12","Tokens are taken from the response that the flow prescribes",
"For each response type the access token and verified ID Token returned by get_access_and_id_token come from the front-channel or token-endpoint response exactly as the OpenID Connect flow table prescribes, irrespective of the order of words in the response type.",
"all word sequences of response types, authorization responses and token endpoint outcomes",
"all permutations and all response contents",
[RP+"RPHandler.get_access_and_id_token"])
p("C13","Token request replays the session's own code and redirect URI",
"The access-token request made for session k carries the code from the authorization response of k, the redirect_uri of the authorization request of k and state k, whatever other sessions exist; an error answer raises OidcServiceError and stores nothing.",
"all databases, all sessions, all interleavings of other sessions' operations",
"session mix-up for arbitrary interleavings",
[RP+"RPHandler.get_tokens","src/oidcrp/oauth2/access_token.py:AccessToken.oauth_pre_construct"])
p("C14","PKCE verifier matches the challenge of the same session",
"With the PKCE add-on, the code_verifier sent in the token request for session k is the one whose transform was sent as code_challenge in the authorization request of k; verifiers have the configured length and only unreserved characters; an unsupported method raises Unsupported.",
"all interleavings of authorization/token requests of any number of sessions, all lengths and methods",
"interleavings and hash oracle are unbounded",
["src/oidcrp/oauth2/add_on/pkce.py:add_code_challenge","src/oidcrp/oauth2/add_on/pkce.py:add_code_verifier"])
p("C15","get_valid_access_token never returns an expired token",
"get_valid_access_token returns a token stored in the session that either never expires or expires strictly after now (the latest expiring one), and raises OidcServiceError when there is none; a non-expiring token of the most recent kind is preferred.",
"all sessions and all points in time",
"time and all combinations of stored responses",
[RP+"RPHandler.get_valid_access_token"])
p("C16","Active authentication means unexpired ID Token of the last response",
"has_active_authentication is true iff the verified ID Token of the last stored response among authorization, token and refresh responses that has one has exp > now.",
"all sessions and all points in time",
"all combinations of stored responses and times",
[RP+"RPHandler.has_active_authentication"])
p("C17","User info belongs to the authenticated subject",
"A user info response accepted for a session whose stored ID Token has subject s has sub = s; otherwise ValueError is raised and nothing is stored.",
"all user info responses including aggregated and distributed claims, all sessions",
"token substitution by any provider response",
["src/oidcrp/oidc/userinfo.py:UserInfo.post_parse_response"])
p("C18","Back-channel logout only for verified logout tokens and only the right session",
"backchannel_logout returns a session key only if the logout token verified, and that session is the one last bound to the token's sub (or sid when there is no sub) in that client; otherwise MessageException / KeyError and no state changes.",
"all requests, verification outcomes and databases",
"all tokens and histories",
["src/oidcrp/rp_handler.py:backchannel_logout"])
p("C19","RP-initiated logout carries the session's ID Token and a bound logout state",
"The end-session request of session k has id_token_hint equal to the original (signed) ID Token last stored for k and a state that resolves to k as logout state; post_logout_redirect_uri is taken from configuration unless given by the caller.",
"all sessions, all databases, all caller arguments",
"all histories of token/refresh responses",
["src/oidcrp/oidc/end_session.py:EndSession"])
p("C20","HTTP Basic client credentials decode to exactly the configured id and secret",
"The Authorization header built by client_secret_basic is 'Basic ' followed by a base64url text that decodes to the form-encoded client_id and secret joined by ':' and from which both are recovered exactly; distinct credentials give distinct headers.",
"all client ids and secrets (any byte strings)",
"round trip over all strings including ':', '%', non-ASCII",
["src/oidcrp/client_auth.py:ClientSecretBasic.construct"])
p("C21","The client secret never travels in the body unless client_secret_post is used",
"After client_secret_basic, bearer_header, client_secret_jwt or private_key_jwt authentication the request body holds no client_secret; client_secret_post puts exactly client_id and the caller's or configured secret there or raises AuthnFailure.",
"all requests, services and contexts",
"all argument combinations",
["src/oidcrp/client_auth.py:ClientSecretBasic","src/oidcrp/client_auth.py:ClientSecretPost","src/oidcrp/client_auth.py:JWSAuthnMethod.construct"])
p("C22","Bearer token selection",
"bearer_header sends as Bearer token the access_token of the request (which is then removed from the body), else the caller's argument, else the newest token stored in the session; when none exists KeyError is raised and nothing is sent; the receiver-side parser recovers exactly the token that was sent.",
"all requests, kwargs and sessions",
"all argument combinations",
["src/oidcrp/client_auth.py:find_token","src/oidcrp/client_auth.py:BearerHeader.construct","src/oidcrp/client_auth.py:bearer_auth"])
p("C23","JWT client assertions name the client and the right audience",
"The assertion has iss = sub = client_id, the audience is the token endpoint for token_endpoint authentication and the provider issuer otherwise, it expires lifetime seconds after it was issued, and it is signed with an allowed algorithm for the method; the request gets the jwt-bearer assertion type and loses client_secret.",
"all contexts, services, endpoints, algorithms",
"all configuration combinations",
["src/oidcrp/client_auth.py:JWSAuthnMethod"])
p("C24","Signed cookies cannot be altered",
"A signed or encrypted cookie made by make_cookie is read back by parse_cookie to the same payload and timestamp, and what the cookie dealer created it reads back as the same value, time and type (value without '::', not ending in ':', and without '|' when only signed); a signed cookie with any other signature raises InvalidCookieSign; whatever cookie is presented, the value, time and type the dealer returns are those of one cookie it created, for a MAC and cipher that are not forged. (Deviations of the code, proved: the cookie's name is not authenticated, nor is the boundary between payload and time stamp in parse_cookie; a tampered encrypted cookie raises the cipher's InvalidTag; values with separators do not read back.)",
"all payloads, names, keys, timestamps, tampered cookie texts",
"adversarial inputs",
["src/oidcrp/cookie.py:make_cookie","src/oidcrp/cookie.py:parse_cookie","src/oidcrp/cookie.py:CookieDealer"])
p("C25","Base64 and form encodings are lossless",
"The base64 / base64url / quote_plus encodings used for cookies, credentials, PKCE and DPoP decode to the original bytes for every byte string and use only their alphabet.",
"all byte strings",
"round trip over all lengths and bytes",
["src/oidcrp/cookie.py:make_cookie","src/oidcrp/client_auth.py:ClientSecretBasic.construct","src/oidcrp/oauth2/add_on/pkce.py:add_code_challenge"])
p("C26","Error responses never change the session",
"service_request updates the service context only with a verified, non-error response; any error response or exception leaves the state database as it was before parsing.",
"all HTTP responses, services and databases",
"all HTTP status/content combinations",
["src/oidcrp/oauth2/__init__.py:Client.service_request","src/oidcrp/oauth2/__init__.py:Client.parse_request_response","src/oidcrp/service.py:Service.parse_response"])
p("C27","Provider metadata is taken over only from the configured issuer",
"Provider information is stored only if its issuer equals the configured issuer up to one trailing slash, or issuer mismatch is explicitly allowed; otherwise OidcServiceError is raised and the context is unchanged.",
"all provider responses and contexts",
"all issuer strings",
["src/oidcrp/oauth2/provider_info_discovery.py:ProviderInfoDiscovery._verify_issuer","src/oidcrp/oauth2/provider_info_discovery.py:ProviderInfoDiscovery._update_service_context"])
p("C28","Requests go to the endpoint the provider published",
"After provider info is in place the endpoint a service uses is its configured endpoint, else the provider's published value for its endpoint name, and the discovery URL is the issuer without trailing slash followed by the well-known path.",
"all issuers, provider infos and service configurations",
"all strings/configurations",
["src/oidcrp/service.py:Service.get_endpoint","src/oidcrp/oauth2/provider_info_discovery.py:ProviderInfoDiscovery.get_endpoint"])
p("C29","Negotiated behaviour is supported by both sides",
"Every value match_preferences chooses is both one of the client's preferences and supported by the provider (published or default); if there is no such value ConfigurationError is raised.",
"all preferences, provider infos and defaults",
"all lists",
["src/oidcrp/oidc/provider_info_discovery.py:ProviderInfoDiscovery.match_preferences"])
p("C30","Response types map to the right grant types regardless of word order",
"response_types_to_grant_types yields the union of grant types prescribed for each response type, independent of word order and duplicates; unknown response types raise ValueError.",
"all lists of response types",
"all permutations",
["src/oidcrp/oidc/registration.py:response_types_to_grant_types"])
p("C31","Keys are published by value or by reference, never both",
"A registration request never gets both jwks and jwks_uri from the library.",
"all contexts and configurations",
"all configurations",
["src/oidcrp/oidc/registration.py:add_jwks_uri_or_jwks","src/oidcrp/service.py:Service.gather_request_args"])
p("C32","Callback URIs are issuer specific and usable",
"create_callbacks gives different issuers different callback URIs (up to hash collision) under the RP's base URL with exactly one separating slash; every response type the client is configured with gets a callback that redirect URI selection finds.",
"all issuers, base urls, behaviours",
"all strings/configurations",
["src/oidcrp/oidc/registration.py:create_callbacks","src/oidcrp/oidc/registration.py:add_callbacks","src/oidcrp/oauth2/utils.py:pick_redirect_uri"])
p("C33","WebFinger issuer discovery accepts only the issuer relation over https",
"WebFinger picks the first link whose rel is the OpenID issuer relation and refuses a non-https href unless http links are allowed; the query is always sent over https to the resource's host.",
"all JRD documents and resource identifiers",
"all documents",
["src/oidcrp/oidc/webfinger.py:WebFinger"])
p("C34","HTTP request construction puts parameters where the method demands",
"For GET/DELETE the parameters are in the URL query, for POST/PUT they are in the body and the URL is the bare endpoint; JSON and form bodies decode to the request.",
"all requests, endpoints, methods and content types",
"all strings",
["src/oidcrp/util.py:get_http_url","src/oidcrp/util.py:get_http_body","src/oidcrp/service.py:Service.get_request_parameters"])
p("C35","Web names and file names correspond one to one",
"filename_from_webname maps distinct URLs under the base to distinct file names and rejects URLs outside the base.",
"all base urls and web names",
"injectivity over all strings",
["src/oidcrp/service_context.py:ServiceContext.filename_from_webname"])
p("C36","DPoP proofs bind method and URL and reuse the session key",
"Each DPoP header is a proof whose htm/htu are the method and endpoint of that request, signed with the client's DPoP key which once created never changes; verification rejects alg none/symmetric and missing members.",
"all request sequences",
"all histories of requests",
["src/oidcrp/oauth2/add_on/dpop.py:dpop_header","src/oidcrp/oauth2/add_on/dpop.py:DPoPProof"])
p("C37","Pushed authorization requests keep parameters off the front channel",
"After push_authorization the front-channel request carries only request_uri and client id, never the pushed parameters.",
"all requests and all PAR endpoint answers",
"all HTTP outcomes",
["src/oidcrp/oauth2/add_on/pushed_authorization.py:push_authorization"])
p("C38","HTTP status classification",
"parse_request_response returns a verified success message only for 2xx-class success answers; 4xx answers yield an error message, 5xx raise.",
"all status codes, content types and bodies",
"all integers and bodies",
["src/oidcrp/oauth2/__init__.py:Client.parse_request_response"])
p("C39","Redirect URI selection precedence",
"pick_redirect_uri returns the caller's redirect_uri if given, otherwise the callback registered for the response type/mode, otherwise the first registered redirect URI; it never invents a URI.",
"all contexts and request arguments",
"all configurations",
["src/oidcrp/oauth2/utils.py:pick_redirect_uri"])
p("C40","Refreshing tokens uses and keeps the session's refresh token",
"The refresh request for session k carries the refresh token last received for k, and after a successful refresh a refresh token remains available.",
"all sessions and refresh responses",
"all sequences of refresh responses",
["src/oidcrp/oauth2/refresh_access_token.py:RefreshAccessToken",RP+"RPHandler.refresh_access_token"])
p("C41","Caller arguments override configuration when building requests",
"In a constructed request each declared parameter has the caller's value if given, else the service's configured default, else the value from the client configuration; undeclared context values never leak in; explicit overrides and deletions of None hold.",
"all request arguments, service configurations and contexts",
"all dictionaries",
["src/oidcrp/service.py:Service.gather_request_args","src/oidcrp/service.py:Service.construct"])
p("C42","Scope and nonce are always present in OIDC authorization requests",
"An OIDC authorization request always has 'openid' among its scopes; and when an ID Token is returned from the authorization endpoint it has a nonce.",
"all request arguments and behaviours",
"all response type/scope combinations",
["src/oidcrp/oidc/authorization.py:Authorization.oidc_pre_construct","src/oidcrp/oidc/authorization.py:Authorization.oidc_post_construct"])
p("C43","Clearing or logging out of a session",
"clear_session removes exactly that session from its client so that later lookups of it raise; close/logout returns an end-session request for that session only.",
"all handler states",
"all histories",
[RP+"RPHandler.clear_session",RP+"RPHandler.close"])
p("C44","user info retrieval by session",
"get_user_info(state) without an explicit token uses a valid access token of that session.",
"all sessions",
"all sessions",
[RP+"RPHandler.get_user_info"])
p("C45","Registration response is adopted completely",
"After a registration response the context uses the returned client_id, secret, redirect URIs and registration token; absent optional members leave defaults.",
"all registration responses",
"all messages",
["src/oidcrp/oidc/registration.py:Registration.update_service_context"])
p("C46","Requests are sent with the cookies of the client's cookie jar",
"A HTTP request made through the library's HTTP layer carries the cookies stored in its cookie jar and the caller's extra arguments, and does not follow redirects unless asked.",
"all arguments and jars",
"all argument dictionaries",
["src/oidcrp/http.py:HTTPLib.__call__"])
p("C47","Clients of different providers do not share behaviour",
"Setting up a client, successfully or not, leaves the behaviour (negotiated settings) of every other client as it was, provided the two are not made from one configuration that has a 'behaviour' of its own. (Deviation of the code, proved: with such a shared default configuration the negotiation with one provider rewrites what was negotiated with another.)",
"all histories of setups and calls, all configurations and provider answers",
"aliasing of a configuration dictionary between objects shows only in particular orders of setups",
[RP+"RPHandler.init_client","src/oidcrp/service_context.py:ServiceContext.__init__","src/oidcrp/oidc/provider_info_discovery.py:ProviderInfoDiscovery.match_preferences"])
import os,sys
sys.path.insert(0,os.path.dirname(os.path.abspath(__file__)))
from statements import S,T,N
for x in P:
    x['statement']=S.get(x['id'],x['statement']); x['title']=T.get(x['id'],x['title'])
for n in N: p(*n)
open('/verif/properties.jsonl','w').write(''.join(json.dumps(x)+'\n' for x in P))
