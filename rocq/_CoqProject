-Q theories Verif
theories/Base.v
theories/Utf.v
theories/Types.v
theories/Handlers.v
theories/Device.v
theories/Protocol.v
theories/Urb.v
theories/Hid.v
theories/Cdc.v
theories/Util.v
theories/HostHandlers.v
theories/HostEnum.v
theories/Server.v
theories/Conn.v
theories/Sys.v
theories/Lemmas.v
theories/SpecText.v
theories/SpecWire.v
theories/CodecProofs.v
theories/CodecProofs2.v
theories/TextProofs.v
theories/ReplyProofs.v
theories/PropsCodec.v
theories/SpecConn.v
theories/ConnProofs.v
theories/SubmitProofs.v
theories/SpecDesc.v
theories/DescProofs.v
theories/SpecNames.v
theories/PoolProofs.v
theories/SpecTransfer.v
theories/TransferProofs.v
theories/SpecUrb.v
theories/UrbProofs.v
theories/Examples.v
theories/PropsConn.v
theories/PropsDesc.v
theories/SpecHandlers.v
theories/HandlerProofs.v
theories/PropsHandlers.v
theories/SpecHost.v
theories/HostProofs.v
theories/PropsHost.v
theories/SysProofs.v
theories/LockProofs.v
theories/SpecSys.v
theories/DevProofs.v
theories/SysFacts.v
theories/ConcProofs.v
theories/LiveProofs.v
theories/SpecLin.v
theories/LinProofs.v
theories/PropsSys.v
theories/Net.v
theories/SpecNet.v
theories/NetProofs.v
theories/SpecServed.v
theories/WireProofs.v
theories/PropsNet.v
theories/SpecIso.v
theories/IsoProofs.v
theories/PropsIso.v
theories/SpecSession.v
theories/SessionProofs.v
theories/PropsSession.v
theories/Fine.v
theories/SpecFine.v
theories/FineProofs.v
theories/PropsFine.v
theories/SpecFair.v
theories/FairProofs.v
theories/PropsFair.v
theories/PropsGone.v
theories/PropsAttach.v
theories/SpecReal.v
theories/RealProofs.v
theories/PropsReal.v
theories/PropsPolls.v
theories/SpecSize.v
theories/PropsSize.v
theories/SpecBuild.v
theories/BuildProofs.v
theories/PropsBuild.v
theories/Cancel.v
theories/SpecCancel.v
theories/CancelProofs.v
theories/PropsCancel.v
theories/SpecSlow.v
theories/PropsSlow.v
theories/SpecDup.v
theories/DupProofs.v
theories/PropsDup.v
theories/Accept.v
theories/PropsAccept.v
theories/PropsSpeed.v
theories/NetLive.v
theories/PropsNetLive.v
theories/Prog.v
theories/SpecProg.v
theories/ProgProofs.v
theories/PropsProg.v
theories/SpecChecks.v
theories/ChecksProofs.v
theories/PropsChecks.v
theories/SpecCodes.v
theories/PropsCodes.v
theories/Workers.v
theories/SpecWorkers.v
theories/PropsWorkers.v
theories/SpecReport.v
theories/PropsReport.v
theories/SpecLinux.v
theories/LinuxProofs.v
theories/PropsLinux.v
theories/PropsLinuxRest.v
theories/SpecAttached.v
theories/AttachedProofs.v
theories/PropsAttached.v
theories/HostProg.v
theories/SpecHostProg.v
theories/HostProgProofs.v
theories/PropsHostProg.v
theories/SpecConform.v
theories/PropsConform.v
theories/SpecDriver.v
theories/DriverProofs.v
theories/PropsDriver.v
theories/SpecNusb.v
theories/NusbProofs.v
theories/PropsNusb.v
theories/SpecStable.v
theories/PropsStable.v
theories/RepoTests.v
