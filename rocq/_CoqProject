-Q theories Verif
theories/Go.v
theories/Layout.v
theories/GoProofs.v
theories/SpecLayout.v
theories/LayoutProofs.v
theories/LeafProofs.v
theories/StructProofs.v
theories/PropsLayout.v
theories/KeyFmt.v
theories/Bolt.v
theories/Store.v
theories/KeyProofs.v
theories/PropsKey.v
theories/StoreProofs.v
theories/SpecStore.v
theories/RangeProofs.v
theories/PropsStore.v
theories/PropsRange.v
theories/Session.v
theories/PropsSession.v
theories/Crc.v
theories/PropsCrc.v
theories/Uuid.v
theories/PropsUuid.v
theories/ToString.v
theories/PropsText.v
theories/ParseBuf.v
theories/PropsParse.v
theories/IoUtil.v
theories/PropsIo.v
theories/RangeItems.v
theories/Path.v
theories/MkIndex.v
theories/PropsPath.v
theories/Conc.v
theories/PropsConc.v
theories/Recon.v
theories/PropsRecon.v
theories/PropsReconAny.v
theories/PropsReconEx.v
theories/PropsReconFault.v
theories/Identify.v
theories/PropsIdentify.v
theories/PropsSamples.v
theories/F64Proofs.v
theories/PropsGuess.v
theories/PropsEntropy.v
theories/Fs.v
theories/Recover.v
theories/RecoverProofs.v
theories/SpecFs.v
theories/PathProofs.v
theories/PropsRecoverPaths.v
theories/FsProofs.v
theories/PropsRecoverSafe.v
theories/PropsRecoverDfs.v
theories/SpecContent.v
theories/PropsRecoverFile.v
theories/PropsRecoverErr.v
theories/PropsRecoverLink.v
theories/PropsRecoverEx.v
theories/SpecTree.v
theories/TreeProofs.v
theories/TreeRun.v
theories/TreeFull.v
theories/PropsTree.v
theories/PropsTreeEx.v
theories/PropsRecoverApart.v
theories/Rescue.v
theories/PropsRescueRead.v
theories/PropsRescueNode.v
theories/SpecMount.v
theories/PropsMount.v
theories/Ls.v
theories/PropsLs.v
theories/PropsLsEx.v
theories/SpecDisk.v
theories/DiskProofs.v
theories/PropsDest.v
theories/PropsDisk.v
theories/PropsDiskEx.v
theories/PropsLsDisk.v
theories/PropsLsDiskEx.v
theories/PropsIdentifyAll.v
theories/PropsIdentifyEx.v
theories/PropsMountDisk.v
theories/PropsMountEx.v
theories/PropsAgain.v
theories/PropsMountErr.v
theories/SpecDamage.v
theories/TreeLegible.v
theories/TreeDamage.v
theories/PropsDamage.v
theories/PropsDamageEx.v
theories/PropsLossEx.v
theories/SpecLoss.v
theories/LossProofs.v
theories/PropsLoss.v
theories/PropsLossDisk.v
theories/PropsLossDiskEx.v
theories/SpecNames.v
theories/PropsNames.v
theories/PropsRestart.v
theories/PropsAlarm.v
theories/PropsSizes.v
theories/SpecMountLoss.v
theories/PropsMountLoss.v
theories/PropsMountLossDisk.v
theories/PropsMountLossEx.v
theories/SpecMountAny.v
theories/PropsMountAny.v
theories/PropsMountAnyDisk.v
theories/PropsMountAnyEx.v
theories/SpecSurvive.v
theories/Forward.v
theories/PropsSurvive.v
theories/PropsSurviveEx.v
theories/PropsMountSurvive.v
theories/PropsMountSurviveEx.v
theories/SpecAgree.v
theories/PropsAgree.v
theories/PropsAgreeEx.v
theories/ReconCmd.v
theories/PropsAppend.v
theories/PropsAppendEx.v
theories/Cli.v
theories/SpecCli.v
theories/PropsCli.v
theories/PropsWork.v
theories/PropsWork2.v
theories/PropsCliEx.v
theories/SpecVolume.v
theories/VolumeProofs.v
theories/VolumeLs.v
theories/PropsVolume.v
theories/SpecMkfs.v
theories/MkfsProofs.v
theories/MkfsImage.v
theories/PropsMkfs.v
theories/PropsMkfsEx.v
theories/MountTop.v
theories/PropsMountTop.v
theories/PropsMountTopEx.v
theories/SpecGen.v
theories/GenProofs.v
theories/PropsGen.v
theories/PropsGenEx.v
theories/PropsCliDest.v
theories/PropsXattr.v
theories/PropsXattrEx.v
theories/PropsLayout2.v
theories/Tabwriter.v
theories/SpecTab.v
theories/TabProofs.v
theories/PropsPrint.v
theories/PropsPrintLs.v
theories/PropsReport.v
theories/PropsPrintEx.v
theories/PropsGenLs.v
theories/PropsGenLsEx.v
theories/Time.v
theories/SpecTime.v
theories/TimeCycle.v
theories/PropsTime.v
theories/Fraction.v
theories/PropsFraction.v
theories/PropsFractionEx.v
theories/Fixed.v
theories/PropsFixed.v
theories/PropsFixedReport.v
theories/PropsLinkClobber.v
theories/PropsFixedSorted.v
theories/Stdout.v
theories/PropsStdout.v
theories/RecoverSays.v
theories/PropsRecoverSays.v
theories/PropsSaysAll.v
theories/PropsSaysSub.v
theories/PropsSaysWhere.v
theories/PropsSaysEx.v
