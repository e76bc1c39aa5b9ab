-Q theories Verif
theories/Base.v
theories/M_Slots.v
theories/P_Slots.v
theories/M_ObjectStore.v
theories/S_ObjectStore.v
theories/P_ObjectStore.v
theories/S_Handles.v
theories/P_Handles.v
theories/C_Handles.v
theories/M_StoreConc.v
theories/P_StoreConc.v
theories/P_StoreConc2.v
theories/P_StoreConc3.v
theories/M_Locks.v
theories/P_Locks.v
theories/C_Sharing.v
theories/M_Memory.v
theories/S_Bytes.v
theories/P_Bytes.v
theories/C_Bytes.v
theories/M_Rights.v
theories/S_Rights.v
theories/P_Rights.v
theories/C_Rights.v
theories/M_Svp.v
theories/S_Svp.v
theories/P_Svp.v
theories/C_Svp.v
theories/M_Prog.v
theories/M_ApiKey.v
theories/M_ApiCipher.v
theories/M_ApiMac.v
theories/M_ApiSvp.v
theories/M_Api.v
theories/S_Api.v
theories/P_Prog.v
theories/P_ApiGuard.v
theories/P_ApiAccount.v
theories/P_ApiAccountA.v
theories/P_ApiAccountB.v
theories/P_ApiAccountC.v
theories/P_ApiAccountD.v
theories/P_ApiAccountE.v
theories/M_World.v
theories/S_World.v
theories/P_WorldReach.v
theories/P_Api.v
theories/P_ApiRuns.v
theories/C_Api.v
theories/M_Cenc.v
theories/S_Cenc.v
theories/P_Cenc.v
theories/P_CencApi.v
theories/P_CencBad.v
theories/C_Cenc.v
theories/M_KeyStore.v
theories/S_KeyStore.v
theories/P_KeyStore.v
theories/C_KeyStore.v
theories/M_Mac.v
theories/S_Mac.v
theories/P_Mac.v
theories/C_Mac.v
theories/M_Kdf.v
theories/S_Kdf.v
theories/P_Kdf.v
theories/C_Kdf.v
theories/M_Unwrap.v
theories/S_Unwrap.v
theories/P_Unwrap.v
theories/C_Unwrap.v
theories/M_Marshal.v
theories/S_Marshal.v
theories/P_Marshal.v
theories/P_Marshal2.v
theories/P_Marshal3.v
theories/C_Marshal.v
theories/M_Client.v
theories/S_Client.v
theories/P_Client.v
theories/P_Client2.v
theories/P_Client3.v
theories/P_Client4.v
theories/P_Client5.v
theories/P_Client6.v
theories/P_Client7.v
theories/C_Client.v
theories/M_Cipher.v
theories/S_Cipher.v
theories/P_Cipher.v
theories/P_Cipher2.v
theories/C_Cipher.v
theories/M_Json.v
theories/S_Json.v
theories/P_Json.v
theories/M_TypeJ.v
theories/C_Json.v
theories/S_TypeJ.v
theories/P_TypeJ.v
theories/P_TypeJ2.v
theories/P_TypeJ3.v
theories/C_TypeJ.v
theories/M_Soc.v
theories/S_Soc.v
theories/P_Soc.v
theories/P_Soc2.v
theories/P_Soc3.v
theories/P_Soc4.v
theories/P_Soc5.v
theories/C_Soc.v
theories/M_Asym.v
theories/S_Asym.v
theories/P_Asym.v
theories/P_Asym2.v
theories/C_Asym.v
theories/M_Provider.v
theories/S_Provider.v
theories/P_Provider.v
theories/P_Provider2.v
theories/P_Provider3.v
theories/P_Provider4.v
theories/P_Provider5.v
theories/C_Provider.v
theories/S_System.v
theories/P_Birth.v
theories/P_WorldBirth.v
theories/P_World.v
theories/P_WorldRuns.v
theories/C_World.v
theories/P_Accounts.v
theories/S_Safe.v
theories/P_Safe.v
theories/P_Safe2.v
theories/P_Safe3.v
theories/P_Safe4.v
theories/P_Safe5.v
theories/P_SafeRuns.v
theories/C_Safe.v
theories/S_Progress.v
theories/P_Progress.v
theories/P_ProgressRuns.v
theories/C_Progress.v
theories/M_ProvSign.v
theories/S_ProvSign.v
theories/P_ProvSign.v
theories/P_ProvSignRuns.v
theories/C_ProvSign.v
theories/M_ProvAsym.v
theories/S_ProvAsym.v
theories/P_ProvAsym.v
theories/P_ProvAsymRuns.v
theories/C_ProvAsym.v
theories/M_ProvKeys.v
theories/S_ProvKeys.v
theories/P_ProvKeys.v
theories/P_ProvKeys2.v
theories/P_ProvKeysRuns.v
theories/C_ProvKeys.v
theories/M_ProvKdf.v
theories/S_ProvKdf.v
theories/P_ProvKdf.v
theories/P_ProvKdf2.v
theories/P_ProvKdf3.v
theories/P_ProvKdfRuns.v
theories/C_ProvKdf.v
theories/M_ClientSamples.v
theories/S_ClientSamples.v
theories/P_ClientSamples.v
theories/C_ClientSamples.v
theories/M_ProvDigest.v
theories/S_ProvDigest.v
theories/P_ProvDigest.v
theories/C_ProvDigest.v
theories/M_EngCipher.v
theories/S_EngCipher.v
theories/P_EngCipher.v
theories/P_EngCipher2.v
theories/P_EngCipher3.v
theories/P_EngCipher4.v
theories/P_EngCipher5.v
theories/C_EngCipher.v
theories/M_EngThreads.v
theories/S_EngThreads.v
theories/P_EngThreads.v
theories/P_EngThreads2.v
theories/P_EngThreads3.v
theories/C_EngThreads.v
theories/M_EngMac.v
theories/S_EngMac.v
theories/P_EngMac.v
theories/P_EngMac2.v
theories/C_EngMac.v
theories/M_EngPkey.v
theories/S_EngPkey.v
theories/P_EngPkey.v
theories/P_EngPkey2.v
theories/C_EngPkey.v
theories/M_RootKey.v
theories/S_RootKey.v
theories/P_RootKey.v
theories/C_RootKey.v
theories/M_Session.v
theories/S_Session.v
theories/P_Session.v
theories/P_Session2.v
theories/P_Session3.v
theories/C_Session.v
theories/M_Provision.v
theories/S_Provision.v
theories/P_Provision.v
theories/C_Provision.v
theories/M_ProvGen.v
theories/S_ProvGen.v
theories/P_ProvGen.v
theories/C_ProvGen.v
theories/M_ProvMac.v
theories/S_ProvMac.v
theories/P_ProvMac.v
theories/P_ProvMac2.v
theories/C_ProvMac.v
theories/M_SvpMem.v
theories/S_SvpMem.v
theories/P_SvpMem.v
theories/C_SvpMem.v
theories/M_EngKey.v
theories/S_EngKey.v
theories/P_EngKey.v
theories/C_EngKey.v
theories/M_ProvExch.v
theories/S_ProvExch.v
theories/P_ProvExch.v
theories/C_ProvExch.v
theories/M_ProvLoad.v
theories/S_ProvLoad.v
theories/P_ProvLoad.v
theories/C_ProvLoad.v
theories/M_Info.v
theories/S_Info.v
theories/P_Info.v
theories/C_Info.v
theories/M_ClientMem.v
theories/S_ClientMem.v
theories/P_ClientMem.v
theories/C_ClientMem.v
theories/M_Widths.v
theories/S_Widths.v
theories/P_Widths.v
theories/C_Widths.v
theories/M_Random.v
theories/S_Random.v
theories/P_Random.v
theories/C_Random.v
