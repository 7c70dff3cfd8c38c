(** The token request made for a session. *)
From Verif Require Import Base BaseP Json JsonP Msg M_State S_State P_State M_Ctx M_Codec M_Authz M_ClientAuth
  M_Service M_Token M_Handler S_Service S_Token S_Handler P_Ctx P_Authz P_Codec P_ClientAuth P_Service P_Wire P_Token P_Handler P_Flow.

Lemma is_token_svc W cl : is_token_service (cl_pkce cl) (token_svc W cl).
Proof. unfold token_svc. destruct (cl_pkce cl); [apply token_service_pkce|apply token_service_plain]. Qed.
Lemma token_svc_fields W cl : s_http_method (token_svc W cl) = "POST" /\ s_req_type (token_svc W cl) = "urlencoded" /\
  s_extra (token_svc W cl) = [] /\ s_endpoint (token_svc W cl) = "" /\ s_endpoint_name (token_svc W cl) = "token_endpoint" /\
  s_name (token_svc W cl) = "accesstoken" /\ s_post_parse (token_svc W cl) = pass /\ s_resp_type (token_svc W cl) = "json" /\
  s_rcls (token_svc W cl) = cTokenResponse /\ s_update (token_svc W cl) = oidc_token_update (e_now W) /\
  s_redirect (token_svc W cl) = Some TypeError /\ s_vrf (token_svc W cl) = e_vrf W "accesstoken".
Proof. unfold token_svc. destruct (cl_pkce cl); repeat split. Qed.

Definition tok_args (c : ctx) (st : string) (code ru : val) : dict val :=
  [("code", code); ("state", VStr st); ("redirect_uri", ru); ("grant_type", VStr "authorization_code");
   ("client_id", VStr (client_id c)); ("client_secret", VStr (client_secret c))].
Lemma tok_args_NoDup c st code ru : NoDup (dkeys (tok_args c st code ru)).
Proof. cbn. repeat (constructor; [cbn; intuition discriminate|]). constructor. Qed.
Lemma get_tokens_inv W cl st c r c' : get_tokens W cl st c = (r, c') ->
  (exists e, r = Err e /\ c' = c) \/
  exists ar rq code ru am, get_item (sdb c) cAuthzResponse "auth_response" st = Ok ar /\
    get_item (sdb c) cAuthzRequest "auth_request" st = Ok rq /\ dget "code" ar = Some code /\ dget "redirect_uri" rq = Some ru /\
    client_authn_method c = Ok am /\ has_service cl "accesstoken" = true /\
    exists r1, do_request (e_authn W) (e_http W) (e_jwt W) (token_svc W cl) "" (tok_args c st code ru) am [("state", VStr st)] c = (r1, c') /\
      r = match r1 with Ok x => if is_error_response x then Err OidcServiceError else Ok x | Err e => Err e end.
Proof.
  intros H. unfold get_tokens in H.
  destruct (get_item (sdb c) cAuthzResponse "auth_response" st) as [ar|]; [|injection H as <- <-; left; eauto]. cbn [rbind] in H.
  destruct (get_item (sdb c) cAuthzRequest "auth_request" st) as [rq|]; [|injection H as <- <-; left; eauto]. cbn [rbind] in H.
  unfold dict_get in H. destruct (dget "code" ar) as [code|] eqn:Ec; [|injection H as <- <-; left; eauto]. cbn [rbind] in H.
  destruct (dget "redirect_uri" rq) as [ru|] eqn:Er; [|injection H as <- <-; left; eauto]. cbn [rbind] in H.
  destruct (client_authn_method c) as [am|]; [|injection H as <- <-; left; eauto]. cbn [rbind] in H.
  unfold bind, do_request_named in H. destruct (token_svc_fields W cl) as (_ & _ & _ & _ & _ & TN & _). rewrite TN in H.
  destruct (has_service cl "accesstoken"); [|unfold raise in H; injection H as <- <-; left; eauto].
  right. exists ar, rq, code, ru, am. repeat (split; [first [reflexivity|assumption]|]).
  fold (tok_args c st code ru) in H.
  destruct (do_request (e_authn W) (e_http W) (e_jwt W) (token_svc W cl) "" (tok_args c st code ru) am [("state", VStr st)] c) as [r1 c1].
  exists r1. destruct r1 as [x|e]; [|injection H as <- <-; auto].
  unfold raise, ret in H. destruct (is_error_response x); injection H as <- <-; auto.
Qed.

Lemma token_params W cl st c code ru am i c1 ep : st <> "" -> code <> "" -> ru <> "" ->
  dget "token_endpoint" (provider_info c) = Some (VStr ep) ->
  get_request_parameters (e_authn W) (token_svc W cl) (tok_args c st (VStr code) (VStr ru)) "" "" am [("state", VStr st)] c = (Ok i, c1) ->
  c1 = c /\
  token_wire st code ru ep
    (fun txt => cl_pkce cl = true -> forall it v, get_item (sdb c) cMessage "pkce" st = Ok it ->
       dget "code_verifier" it = Some (VStr v) -> v <> "" -> form_has txt "code_verifier" v)
    (i_url i) (i_method i) (i_body i) (i_headers i).
Proof.
  intros Hs Hc Hr Hep H. destruct (token_svc_fields W cl) as (T1 & T2 & T3 & T4 & T5 & T6 & _).
  destruct (post_form _ _ _ _ _ _ _ _ T1 T2 T3 H) as (req0 & txt & P1 & P2 & P3 & P4 & P5 & P6 & _ & P8).
  destruct (token_construct _ _ _ _ _ _ _ (is_token_svc W cl) (tok_args_NoDup c st (VStr code) (VStr ru)) P1) as (-> & N & G & PK).
  assert (SK : forall v, v <> "" -> skipped (VStr v) = false) by (intros [|]; easy).
  split; [reflexivity|]. split; [|split; [exact P2|]].
  { cbn [dget] in P8. unfold get_endpoint in P8. rewrite T4, T5 in P8. cbn [String.eqb eqs] in P8. unfold dict_get in P8.
    change (if "state" =?s "endpoint" then Some (VStr st) else None) with (@None val) in P8. cbv iota in P8.
    rewrite Hep in P8. congruence. }
  exists txt. split; [exact P3|].
  assert (F : forall p v, ~ In p authn_params -> p <> "code_verifier" -> dget p (tok_args c st (VStr code) (VStr ru)) = Some (VStr v) -> v <> "" -> form_has txt p v).
  { intros p v A B C D. apply (P6 (P4 N)); [|assumption]. rewrite P5 by assumption. apply G; auto. }
  assert (NI : forall p, mem_str p authn_params = false -> ~ In p authn_params) by (intros p A B; apply mem_str_In in B; congruence).
  split; [apply F; [now apply NI|discriminate|reflexivity|discriminate]|].
  split; [apply F; [now apply NI|discriminate|reflexivity|assumption]|].
  split; [apply F; [now apply NI|discriminate|reflexivity|assumption]|].
  split; [apply F; [now apply NI|discriminate|reflexivity|assumption]|].
  intros Hp it v Hi Hv Hne. destruct (PK Hp st eq_refl Hs) as (it' & v' & A & B & C). rewrite Hi in A. injection A as <-.
  rewrite Hv in B. injection B as <-. apply (P6 (P4 N)); [|assumption]. rewrite P5; [assumption|now apply NI].
Qed.
Lemma token_sends W cl st c ar rq code ru ep : st <> "" -> code <> "" -> ru <> "" ->
  get_item (sdb c) cAuthzResponse "auth_response" st = Ok ar -> dget "code" ar = Some (VStr code) ->
  get_item (sdb c) cAuthzRequest "auth_request" st = Ok rq -> dget "redirect_uri" rq = Some (VStr ru) ->
  dget "token_endpoint" (provider_info c) = Some (VStr ep) ->
  only_sends (fun http => get_tokens (with_http W http) cl st) c
    (token_wire st code ru ep (fun txt => cl_pkce cl = true -> forall it v, get_item (sdb c) cMessage "pkce" st = Ok it ->
       dget "code_verifier" it = Some (VStr v) -> v <> "" -> form_has txt "code_verifier" v)).
Proof.
  intros Hs Hc Hr A1 A2 A3 A4 Hep http1 http2 HP. unfold get_tokens. rewrite A1, A3. cbn [rbind]. unfold dict_get. rewrite A2, A4. cbn [rbind].
  destruct (client_authn_method c) as [am|]; [|reflexivity]. cbn [rbind]. unfold bind, do_request_named.
  change (token_svc (with_http W http1) cl) with (token_svc W cl). change (token_svc (with_http W http2) cl) with (token_svc W cl).
  destruct (has_service cl (s_name (token_svc W cl))); [|reflexivity].
  cbn [e_authn e_http e_jwt with_http].
  fold (tok_args c st (VStr code) (VStr ru)).
  assert (X : do_request (e_authn W) http1 (e_jwt W) (token_svc W cl) "" (tok_args c st (VStr code) (VStr ru)) am [("state", VStr st)] c =
              do_request (e_authn W) http2 (e_jwt W) (token_svc W cl) "" (tok_args c st (VStr code) (VStr ru)) am [("state", VStr st)] c).
  { eapply (do_request_sends (e_authn W) (e_jwt W) (token_svc W cl)); [|exact HP]. intros i c1 Hi. eapply token_params; eauto. }
  now rewrite X.
Qed.

(** error answers *)
Lemma token_reads_only W cl : reads_only (s_post_parse (token_svc W cl)).
Proof. destruct (token_svc_fields W cl) as (_ & _ & _ & _ & _ & _ & -> & _). intros m st c r c' H. now injection H as _ <-. Qed.
Lemma error_answer W cl u m b h st c resp : json_error resp -> e_http W u m b h = Ok resp ->
  exists x, service_request (e_http W) (e_jwt W) (token_svc W cl) u m b "json" h st c = (Ok (RMsg x), c) /\ dhas "error" x = true.
Proof.
  intros (S1 & S2 & S3 & d & msg & J & M & Er) Hh. destruct (token_svc_fields W cl) as (_ & _ & _ & _ & _ & _ & _ & TR & TC & _).
  assert (ME : msg <> []) by (intros ->; discriminate).
  assert (DM : get_deserialization_method resp = "json") by (unfold get_deserialization_method; rewrite S3; reflexivity).
  assert (PR : forall x, parse_response (e_jwt W) (token_svc W cl) (h_text resp) "json" x c = (Ok msg, c)).
  { intros x. unfold parse_response, bind, lift, do_response, msg_from_json. cbn [String.eqb eqs Ascii.eqb Bool.eqb mem_str existsb orb].
    rewrite TC. unfold msg_new in M. rewrite J, M. unfold is_error_message. rewrite Er. unfold ret. destruct msg; [easy|reflexivity]. }
  assert (GR : exists x, dhas "error" x = true /\ get_response (e_http W) (e_jwt W) (token_svc W cl) u m b "json" h
                 (match st with Some x => x | None => "" end) c = (Ok (RMsg x), c)).
  { unfold get_response. rewrite Hh.
    replace ((300 <=? h_status resp) && (h_status resp <? 400))%Z with false by (symmetry; rewrite andb_false_iff, Z.leb_gt, Z.ltb_ge; lia).
    cbn [String.eqb eqs Ascii.eqb Bool.eqb]. rewrite !andb_false_r. unfold parse_request_response. rewrite DM.
    destruct (zmem (h_status resp) SUCCESSFUL) eqn:Ez.
    - cbn [mem_str existsb orb String.eqb eqs Ascii.eqb Bool.eqb]. unfold bind. rewrite PR. exists msg. auto.
    - destruct S2 as [S2|S2].
      { exfalso. assert (Y : zmem (h_status resp) SUCCESSFUL = true)
          by (apply existsb_exists; exists (h_status resp); split; [exact S2|apply Z.eqb_refl]).
        rewrite Ez in Y. discriminate Y. }
      assert (Z1 : zmem (h_status resp) [302; 303]%Z = false).
      { unfold zmem. cbn [existsb]. rewrite !(proj2 (Z.eqb_neq _ _)) by lia. reflexivity. }
      rewrite Z1. rewrite (proj2 (Z.eqb_neq _ _)) by lia.
      replace ((400 <=? h_status resp) && (h_status resp <? 500))%Z with true by (symmetry; rewrite andb_true_iff, Z.leb_le, Z.ltb_lt; lia).
      cbn [String.eqb eqs Ascii.eqb Bool.eqb]. rewrite PR. eexists. split; [|reflexivity]. rewrite dhas_dset, Er. apply orb_true_r. }
  destruct GR as (x & X1 & X2). exists x. split; [|exact X1]. unfold service_request, bind. rewrite X2. unfold has_error. rewrite X1. reflexivity.
Qed.

Lemma token_error W cl st c http' r c1 resp : get_tokens (with_http W http') cl st c = (Ok r, c1) ->
  json_error resp -> (forall u m b h, e_http W u m b h = Ok resp) -> get_tokens W cl st c = (Err OidcServiceError, c).
Proof.
  intros H1 Hj Hall. destruct (get_tokens_inv _ _ _ _ _ _ H1) as [(e & He & _)|(ar & rq & code & ru & am & A1 & A2 & A3 & A4 & A5 & A6 & r1 & A7 & A8)]; [discriminate|].
  apply do_request_inv in A7. destruct A7 as [(e & B1 & B2)|(i & c2 & B1 & B2)]; [subst r1; discriminate|].
  destruct (token_svc_fields W cl) as (T1 & T2 & T3 & _ & _ & TN & _ & TR & _).
  destruct (post_form _ _ _ _ _ _ _ _ T1 T2 T3 B1) as (req0 & txt & P1 & _).
  destruct (token_construct _ _ _ _ _ _ _ (is_token_svc W cl) (tok_args_NoDup c st code ru) P1) as (-> & _).
  unfold get_tokens. rewrite A1, A2. cbn [rbind]. unfold dict_get. rewrite A3, A4. cbn [rbind]. rewrite A5. cbn [rbind].
  unfold bind, do_request_named. rewrite TN, A6. fold (tok_args c st code ru).
  unfold do_request, bind. change (token_svc (with_http W http') cl) with (token_svc W cl) in B1. cbn [with_http e_authn] in B1. rewrite B1.
  change (if "" =?s "" then s_resp_type (token_svc W cl) else "") with (s_resp_type (token_svc W cl)). rewrite TR.
  destruct (error_answer W cl (i_url i) (i_method i) (i_body i) (i_headers i) (Some (match dget "state" [("state", VStr st)] with Some (VStr x) => x | _ => "" end)) c resp Hj (Hall _ _ _ _)) as (x & X1 & X2).
  rewrite X1. unfold is_error_response, has_error. rewrite X2. reflexivity.
Qed.

(** acceptance *)
Lemma get_tokens_accepts K W cl st c m c' : key_family K -> K st -> get_tokens W cl st c = (Ok (RMsg m), c') ->
  exists resp raw u mt b h, e_http W u mt b h = Ok resp /\ dhas "error" raw = false /\
    (exists m0, e_vrf W "accesstoken" c m0 = Ok raw \/ exists v z, e_vrf W "accesstoken" c m0 = Ok v /\ raw = dset "status_code" z v) /\
    oidc_token_update (e_now W) raw st c = (Ok m, c').
Proof.
  intros HK Hk H. destruct (get_tokens_inv _ _ _ _ _ _ H) as [(e & He & _)|(ar & rq & code & ru & am & A1 & A2 & A3 & A4 & A5 & A6 & r1 & A7 & A8)]; [discriminate|].
  apply do_request_inv in A7. destruct A7 as [(e & B1 & B2)|(i & c2 & B1 & B2)]; [subst r1; discriminate|].
  destruct (token_svc_fields W cl) as (T1 & T2 & T3 & _ & _ & TN & TP & TR & _ & TU & _ & TV).
  destruct (post_form _ _ _ _ _ _ _ _ T1 T2 T3 B1) as (req0 & txt & P1 & _).
  destruct (token_construct _ _ _ _ _ _ _ (is_token_svc W cl) (tok_args_NoDup c st code ru) P1) as (-> & _).
  destruct (service_request_spec _ _ _ _ _ _ _ _ _ _ _ _ (token_reads_only W cl) B2) as [[-> B3]|(resp & raw & C1 & C2 & C3 & r0 & C4 & C5)].
  - destruct r1 as [[x|x|x]|]; try discriminate.
    + cbn [is_error_response has_error] in A8. rewrite B3 in A8. discriminate.
    + destruct (is_error_response (RText x)); discriminate.
  - rewrite TU in C4. subst r1. destruct r0 as [x|]; [|discriminate].
    unfold is_error_response in A8. destruct (has_error (RMsg x)); [discriminate|]. injection A8 as <-. exists resp, raw. do 4 eexists. split; [exact C1|]. split; [exact C2|]. split; [|exact C4].
    unfold accepted in C3. rewrite TP, TV in C3. unfold pass, ret in C3. destruct C3 as [[_ (m0 & v & s & D1 & D2 & D3)]|[_ (m1 & (m0 & v & s & D1 & D2 & D3) & D4)]].
    + injection D3 as ->. exists m0. auto.
    + injection D3 as ->. exists m0. right. eauto.
Qed.
