-Q theories Verif

theories/M_Base.v
theories/M_Codec.v
theories/L_Base.v
theories/S_Codec.v
theories/L_Codec.v
theories/P_Codec.v
theories/M_Types.v
theories/M_Grant.v
theories/S_Grant.v
theories/L_Grant.v
theories/P_Grant.v
theories/M_Env.v
theories/M_Session.v
theories/M_Claims.v
theories/M_Handler.v
theories/M_Authz.v
theories/M_TokenEP.v
theories/M_PKCE.v
theories/M_ClientAuthn.v
theories/S_ClientAuthn.v
theories/L_Split.v
theories/L_ClientAuthn.v
theories/M_AuthzEP.v
theories/M_Info.v
theories/M_IntroResp.v
theories/M_Logout.v
theories/M_Dump.v
theories/M_History.v
theories/S_History.v
theories/L_Hist1.v
theories/L_Dump.v
theories/L_Hist2.v
theories/L_Hist3.v
theories/L_Hist4.v
theories/L_Hist5.v
theories/L_Hist6.v
theories/L_Hist7.v
theories/L_Hist8.v
theories/L_Emit.v
theories/L_Hist9.v
theories/L_Origin.v
theories/L_Hist10.v
theories/L_Hist11.v
theories/S_PKCE.v
theories/L_PKCE.v
theories/P_PKCE.v
theories/P_ClientAuthn.v
theories/M_Rules.v
theories/S_Rules.v
theories/L_Rules.v
theories/P_Rules.v
theories/M_DPoP.v
theories/S_DPoP.v
theories/L_DPoP.v
theories/P_DPoP.v
theories/L_Info.v
theories/S_Hex.v
theories/L_Hex.v
theories/L_Monad.v
theories/S_Toy.v
theories/S_Claims.v
theories/L_Claims.v
theories/S_Store.v
theories/L_Store.v
theories/L_Store2.v
theories/L_Store3.v
theories/L_Claims2.v
theories/P_Store.v
theories/P_Claims.v
theories/S_Handler.v
theories/L_Handler.v
theories/S_Jws.v
theories/L_Jws.v
theories/P_Handler.v
theories/P_History.v
theories/P_Info.v
theories/L_Split2.v
theories/M_Cookie.v
theories/S_Cookie.v
theories/L_Cookie.v
theories/P_Cookie.v
theories/M_Uri.v
theories/M_Redirect.v
theories/S_Redirect.v
theories/L_Uri.v
theories/L_Redirect.v
theories/L_Par.v
theories/S_Resp.v
theories/L_Resp.v
theories/P_Redirect.v
theories/M_Broker.v
theories/S_Broker.v
theories/L_Broker.v
theories/P_Broker.v
theories/M_Subject.v
theories/S_Subject.v
theories/L_Subject.v
theories/L_Subject2.v
theories/P_Subject.v
theories/M_Meta.v
theories/S_Meta.v
theories/L_Meta.v
theories/P_Meta.v
theories/M_Registration.v
theories/S_Registration.v
theories/S_Restart.v
theories/L_Restart.v
theories/P_Restart.v
theories/L_Registration.v
theories/L_Registration2.v
theories/L_Registration3.v
theories/P_Registration.v
theories/M_EndSession.v
theories/S_EndSession.v
theories/L_EndSession.v
theories/P_EndSession.v
theories/S_Logout.v
theories/L_Logout.v
theories/L_Lasting.v
theories/L_Logout2.v
theories/P_Logout.v
theories/S_AuthzResp.v
theories/L_AuthzResp.v
theories/P_AuthzResp.v
theories/S_TokenResp.v
theories/L_TokenResp.v
theories/P_TokenResp.v
theories/S_Revoke.v
theories/L_Revoke.v
theories/P_Revoke.v
theories/M_Authn.v
theories/S_Authn.v
theories/L_Authn.v
theories/P_Authn.v
theories/M_Response.v
theories/S_Response.v
theories/L_Response.v
theories/L_UserinfoResp.v
theories/P_Response.v
theories/L_Pass.v
theories/S_Lifetime.v
theories/L_Lifetime.v
theories/P_Lifetime.v
theories/S_Release.v
theories/L_Release.v
theories/P_Release.v
theories/M_Threads.v
theories/S_Threads.v
theories/L_Threads1.v
theories/L_Threads2.v
theories/L_Threads3.v
theories/L_Threads4.v
theories/P_Threads.v
theories/M_Setup.v
theories/S_Setup.v
theories/L_Setup.v
theories/L_Setup2.v
theories/P_Setup.v
theories/M_Wire.v
theories/S_Wire.v
theories/L_Wire.v
theories/P_Wire.v
theories/S_IdToken.v
theories/L_Spec2.v
theories/L_IdToken.v
theories/L_IdToken2.v
theories/P_IdToken.v
theories/L_Front.v
theories/L_Push.v
theories/P_Front.v
theories/M_Extra.v
theories/S_Extra.v
theories/L_Extra.v
theories/P_Extra.v
theories/M_Browser.v
theories/S_Browser.v
theories/L_Browser.v
theories/P_Browser.v
theories/M_Sman.v
theories/S_Sman.v
theories/L_Sman.v
theories/P_Sman.v
theories/M_Form.v
theories/S_Form.v
theories/L_Form.v
theories/P_Form.v
theories/S_Cause.v
theories/L_Cause.v
theories/L_Cause2.v
theories/P_Cause.v
theories/S_Answer.v
theories/L_Answer.v
theories/P_Answer.v
theories/L_Honour.v
theories/L_Honour2.v
theories/P_Honour.v
theories/S_Login.v
theories/L_Records.v
theories/L_Login.v
theories/L_Flow.v
theories/P_Login.v
theories/S_Last.v
theories/L_Found.v
theories/L_Until.v
theories/P_Until.v
