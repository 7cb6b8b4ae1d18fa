-Q theories Verif
theories/Base.v
theories/Spec_Tcg.v
theories/M_TcgToken.v
theories/M_Buffer.v
theories/Spec_Buffer.v
theories/M_TcgCommand.v
theories/Spec_TcgCommand.v
theories/Spec_TcgClient.v
theories/P_TcgToken.v
theories/P_Buffer.v
theories/P_TcgCommand.v
theories/P_TcgComplete.v
theories/P_TcgProps.v
theories/P_BufferProps.v
theories/Prop_Tcg.v
theories/Prop_Buffer.v
theories/Ex_Tcg.v
theories/M_TcgDevice.v
theories/M_TcgSession.v
theories/Spec_TcgSession.v
theories/P_TcgDevice.v
theories/Prop_TcgDevice.v
theories/P_TcgSession.v
theories/Prop_TcgSession.v
theories/Ex_TcgSession.v
theories/M_Struc.v
theories/M_Layouts.v
theories/M_Ata.v
theories/M_DriveHandle.v
theories/Spec_Drive.v
theories/P_Struc.v
theories/P_Discovery.v
theories/P_DriveHandle.v
theories/Prop_Drive.v
theories/Ex_Drive.v
theories/M_AtaUtil.v
theories/Spec_Identity.v
theories/P_Identity.v
theories/Prop_Identity.v
theories/Ex_Identity.v
theories/M_Cdb.v
theories/M_SgDriver.v
theories/Spec_Sg.v
theories/P_Sg.v
theories/Prop_Sg.v
theories/Ex_Sg.v
theories/M_NvmeLinux.v
theories/Spec_NvmeLinux.v
theories/P_NvmeLinux.v
theories/Prop_NvmeLinux.v
theories/M_SgHandle.v
theories/Prop_SgHandle.v
theories/Ex_NvmeLinux.v
theories/M_Strings.v
theories/M_Utf8.v
theories/M_LinuxInfo.v
theories/M_LinuxFactory.v
theories/Spec_LinuxFactory.v
theories/P_Strings.v
theories/P_LinuxFactory.v
theories/Prop_LinuxFactory.v
theories/P_LinuxEnum.v
theories/P_Trim.v
theories/Prop_LinuxEnum.v
theories/Ex_LinuxFactory.v
theories/M_LinuxVolume.v
theories/Spec_LinuxVolume.v
theories/P_LinuxVolume.v
theories/Prop_LinuxVolume.v
theories/Ex_LinuxVolume.v
theories/M_WinPass.v
theories/Spec_WinPass.v
theories/P_WinPass.v
theories/Prop_WinPass.v
theories/Ex_WinPass.v
theories/M_WinNvme.v
theories/Spec_WinNvme.v
theories/P_WinNvme.v
theories/Prop_WinNvme.v
theories/Prop_WinDrive.v
theories/Ex_WinNvme.v
theories/M_WinInfo.v
theories/M_WinFactory.v
theories/Spec_WinInfo.v
theories/P_WinInfo.v
theories/Prop_WinInfo.v
theories/Spec_WinFactory.v
theories/P_WinFactory.v
theories/Prop_WinFactory.v
theories/Ex_WinInfo.v
theories/M_WinEnum.v
theories/Spec_WinEnum.v
theories/P_WinEnum.v
theories/Prop_WinEnum.v
theories/Ex_WinEnum.v
theories/M_TcgOnDrive.v
theories/Spec_TcgOnDrive.v
theories/P_TcgOnDrive.v
theories/Prop_TcgOnDrive.v
theories/Ex_TcgOnDrive.v
theories/P_TcgOnWin.v
theories/Prop_TcgOnWin.v
theories/Ex_TcgOnWin.v
theories/M_LinuxSystem.v
theories/Spec_LinuxSystem.v
theories/P_LinuxSystem.v
theories/Prop_LinuxSystem.v
theories/Prop_LinuxTcg.v
theories/Ex_LinuxSystem.v
theories/M_TcgTables.v
theories/Spec_TcgTrust.v
theories/P_TcgTrust.v
theories/Prop_TcgTrust.v
theories/Ex_TcgTrust.v
theories/Spec_WinSystem.v
theories/P_WinSystem.v
theories/Prop_WinSystem.v
theories/Prop_WinTcg.v
theories/Ex_WinSystem.v
theories/M_Concurrent.v
theories/Spec_Concurrent.v
theories/P_Concurrent.v
theories/Prop_Concurrent.v
theories/Ex_Concurrent.v
theories/M_Exchange.v
theories/Spec_Exchange.v
theories/P_Exchange.v
theories/Prop_Exchange.v
theories/Ex_Exchange.v
theories/Prop_TcgEnds.v
theories/Ex_TcgEnds.v
theories/M_Rediscovery.v
theories/Spec_Rediscovery.v
theories/P_Rediscovery.v
theories/Prop_Rediscovery.v
theories/Ex_Rediscovery.v
theories/Prop_LinuxListing.v
theories/Ex_LinuxListing.v
theories/Spec_WinOpen.v
theories/Prop_WinOpen.v
theories/Spec_WinListing.v
theories/Prop_WinListing.v
theories/Ex_WinListing.v
theories/Spec_Inspect.v
theories/P_Inspect.v
theories/Spec_InspectWin.v
theories/P_InspectWin.v
theories/Prop_Inspect.v
theories/Ex_Inspect.v
theories/Spec_LinuxSata.v
theories/Prop_LinuxSataTcg.v
theories/Ex_LinuxSata.v
theories/Spec_Steady.v
theories/P_Steady.v
theories/Prop_Steady.v
theories/Ex_Steady.v
theories/Spec_SteadyWin.v
theories/P_SteadyWin.v
theories/Prop_SteadyWin.v
theories/Ex_SteadyWin.v
theories/Spec_Health.v
theories/Prop_Health.v
theories/Ex_Health.v
theories/M_Develop.v
theories/Prop_Develop.v
theories/Ex_Develop.v
theories/M_DevelopWin.v
theories/Prop_DevelopWin.v
theories/Ex_DevelopWin.v
theories/Spec_HealthWin.v
theories/Prop_HealthWin.v
theories/Ex_HealthWin.v
theories/M_LinuxMachine.v
theories/Spec_LinuxMachine.v
theories/P_LinuxMachine.v
theories/Prop_LinuxMachine.v
theories/Ex_LinuxMachine.v
theories/M_WinMachine.v
theories/Spec_WinMachine.v
theories/P_WinMachine.v
theories/P_WinMachine2.v
theories/P_WinMachine3.v
theories/Prop_WinMachine.v
theories/Ex_WinMachine.v
theories/Spec_Alone.v
theories/P_Alone.v
theories/P_Alone2.v
theories/P_Alone3.v
theories/P_Alone4.v
theories/P_Alone5.v
theories/P_Alone6.v
theories/P_Alone7.v
theories/Prop_Alone.v
theories/Ex_Alone.v
theories/P_AloneWin.v
theories/P_AloneWin2.v
theories/Spec_AloneWin.v
theories/P_AloneWin3.v
theories/Prop_AloneWin.v
theories/Ex_AloneWin.v
theories/M_ErrorText.v
theories/Spec_ErrorText.v
theories/P_ErrorText.v
theories/P_ErrorText2.v
theories/Prop_ErrorText.v
theories/Ex_ErrorText.v
theories/Spec_Work.v
theories/P_Work.v
theories/P_Work2.v
theories/Prop_Work.v
theories/Ex_Work.v
theories/Spec_WorkWin.v
theories/P_WorkWin.v
theories/P_WorkWin2.v
theories/Prop_WorkWin.v
theories/Ex_WorkWin.v
theories/M_Utf16.v
theories/Spec_Utf16.v
theories/P_Utf16.v
theories/P_Utf16Ascii.v
theories/Spec_WinNames.v
theories/P_WinNames.v
theories/Prop_WinNames.v
theories/Ex_WinNames.v
theories/M_LogPages.v
theories/Spec_LogPages.v
theories/Prop_LogPages.v
theories/Ex_LogPages.v
theories/M_BasicCalls.v
theories/Spec_Ledger.v
theories/P_Ledger.v
theories/Prop_Ledger.v
theories/Ex_Ledger.v
theories/Spec_LedgerWin.v
theories/P_LedgerWin.v
theories/Prop_LedgerWin.v
theories/Ex_LedgerWin.v
theories/Spec_Sha1.v
theories/M_Sha1.v
theories/P_Sha1.v
theories/Prop_Sha1.v
theories/Ex_Sha1.v
theories/P_Password.v
theories/Prop_Password.v
theories/Prop_PasswordWin.v
theories/Ex_Password.v
theories/Ex_PasswordWin.v
theories/Inst_Tcg.v
theories/Inst_Linux.v
theories/Inst_Win.v
theories/Spec_Challenge.v
theories/P_Challenge.v
theories/Prop_Challenge.v
theories/Ex_Challenge.v
theories/M_TcgProgram.v
theories/Spec_OneSession.v
theories/P_OneSession.v
theories/Prop_OneSession.v
theories/Ex_OneSession.v
theories/Spec_Conform.v
theories/P_Conform.v
theories/Prop_Conform.v
theories/Ex_Conform.v
theories/Spec_NvmeConform.v
theories/P_NvmeConform.v
theories/Prop_NvmeConform.v
theories/Ex_NvmeConform.v
theories/Spec_SataConform.v
theories/P_SataConform.v
theories/Prop_SataConform.v
theories/Ex_SataConform.v
theories/Spec_WinConform.v
theories/P_WinConform.v
theories/Prop_WinConform.v
theories/Ex_WinConform.v
theories/Spec_Verdict.v
theories/Prop_Verdict.v
theories/Ex_Verdict.v
theories/Spec_VerdictSata.v
theories/Prop_VerdictSata.v
theories/Ex_VerdictSata.v
theories/Spec_VerdictWin.v
theories/Prop_VerdictWin.v
theories/Ex_VerdictWin.v
theories/Spec_SidConform.v
theories/Prop_SidConform.v
theories/Prop_SidWin.v
theories/Ex_SidConform.v
theories/Spec_TableConform.v
theories/Prop_TableConform.v
theories/Prop_TableDrive.v
theories/Spec_TableWin.v
theories/Prop_TableWin.v
theories/Ex_TableConform.v
theories/Inst_Health.v
theories/Inst_Drivers.v
theories/Ex_BookSata.v
theories/Ex_BookWin.v
theories/Spec_Deaf.v
theories/P_Deaf.v
theories/Prop_Deaf.v
theories/Ex_Deaf.v
theories/Inst_Deaf.v
theories/Inst_Tcg3.v
theories/P_TcgLocal.v
theories/Spec_TcgAlone.v
theories/P_TcgAlone.v
theories/Prop_TcgAlone.v
theories/Prop_TcgAloneWin.v
theories/Ex_TcgAlone.v
theories/Ex_TcgAloneWin.v
theories/P_Apart.v
theories/Spec_Apart.v
theories/P_ApartRun.v
theories/P_ApartElse.v
theories/Prop_Apart.v
theories/Ex_Apart.v
