-Q theories Verif
theories/Base.v
theories/BaseP.v
theories/Json.v
theories/JsonP.v
theories/Msg.v
theories/M_State.v
theories/S_State.v
theories/P_State.v
theories/T_State.v
theories/M_Ctx.v
theories/M_Authz.v
theories/P_Ctx.v
theories/P_Authz.v
theories/M_Codec.v
theories/S_Codec.v
theories/P_Codec.v
theories/M_ClientAuth.v
theories/S_ClientAuth.v
theories/P_ClientAuth.v
theories/T_Authz.v
theories/T_Codec.v
theories/T_ClientAuth.v
theories/M_Service.v
theories/M_Token.v
theories/S_Service.v
theories/P_Service.v
theories/T_Service.v
theories/M_Handler.v
theories/P_Wire.v
theories/S_Token.v
theories/P_Token.v
theories/S_Handler.v
theories/S_Flow.v
theories/P_Handler.v
theories/P_Flow.v
theories/P_Token2.v
theories/Ex.v
theories/S_Trace.v
theories/P_Trace.v
theories/P_Flow2.v
theories/P_Handler2.v
theories/P_Handler3.v
theories/S_Route.v
theories/P_Route.v
theories/P_Handler4.v
theories/T_Flow.v
theories/T_Handler.v
theories/M_Provider.v
theories/S_Provider.v
theories/P_Provider.v
theories/T_Provider.v
theories/M_Registration.v
theories/S_Registration.v
theories/P_Registration.v
theories/T_Registration.v
theories/M_WebFinger.v
theories/S_WebFinger.v
theories/P_WebFinger.v
theories/T_WebFinger.v
theories/M_Setup.v
theories/S_Setup.v
theories/P_Setup.v
theories/T_Setup.v
theories/M_Cookie.v
theories/S_Cookie.v
theories/P_Cookie.v
theories/T_Cookie.v
theories/M_Http.v
theories/T_Http.v
theories/M_AddOn.v
theories/S_AddOn.v
theories/P_AddOn.v
theories/T_AddOn.v
theories/M_ReqObj.v
theories/T_ReqObj.v
theories/T_AuthReq.v
theories/M_Verify.v
theories/S_Verify.v
theories/P_Verify.v
theories/T_Verify.v
theories/S_Login.v
theories/P_Login.v
theories/T_Login.v
theories/M_Claims.v
theories/S_Claims.v
theories/P_Claims.v
theories/T_Claims.v
theories/M_CC.v
theories/S_CC.v
theories/P_CC.v
theories/T_CC.v
theories/S_Answer.v
theories/P_Answer.v
theories/T_Answer.v
theories/M_Config.v
theories/S_Config.v
theories/T_Config.v
theories/S_Logout.v
theories/P_Logout.v
theories/T_Logout.v
theories/S_Sched.v
theories/P_Sim.v
theories/P_SimK.v
theories/P_Sched.v
theories/T_Sched.v
theories/S_Retry.v
theories/P_Retry.v
theories/T_Retry.v
theories/M_OAuth.v
theories/S_OAuth.v
theories/P_OAuth.v
theories/P_OAuth2.v
theories/P_OAuth3.v
theories/T_OAuth.v
theories/M_Conc.v
theories/S_Conc.v
theories/P_Conc.v
theories/T_Conc.v
theories/M_Services.v
theories/S_Services.v
theories/P_Services.v
theories/T_Services.v
theories/M_CookieHdr.v
theories/S_CookieHdr.v
theories/T_CookieHdr.v
theories/M_Random.v
theories/T_Random.v
theories/M_Util.v
theories/T_Util.v
theories/M_Keys.v
theories/S_Keys.v
theories/P_Keys.v
theories/T_Keys.v
theories/M_CookieIn.v
theories/S_CookieIn.v
theories/P_CookieIn.v
theories/T_CookieIn.v
theories/S_Multi.v
theories/P_Multi.v
theories/T_Multi.v
theories/M_Crash.v
theories/S_Crash.v
theories/P_Crash.v
theories/T_Crash.v
theories/M_Flask.v
theories/S_Flask.v
theories/P_Flask.v
theories/T_Flask.v
theories/S_Traffic.v
theories/P_Traffic.v
theories/P_Traffic2.v
theories/T_Traffic.v
theories/S_Dyn.v
theories/P_Dyn.v
theories/T_Dyn.v
theories/S_Honest.v
theories/P_Honest.v
theories/P_Honest2.v
theories/P_Honest3.v
theories/P_Honest4.v
theories/T_Honest.v
theories/S_Begin.v
theories/P_Begin.v
theories/P_Begin2.v
theories/T_Begin.v
theories/S_After.v
theories/P_After.v
theories/T_After.v
theories/S_Whole.v
theories/P_Whole.v
theories/T_Whole.v
theories/S_Bye.v
theories/P_Bye.v
theories/T_Bye.v
