-Q theories Verif
theories/Py.v
theories/Stream.v
theories/Version.v
theories/PyFacts.v
theories/Utf8Facts.v
theories/StreamFacts.v
theories/StreamFacts2.v
theories/Frame.v
theories/Proto.v
theories/Messages.v
theories/Rest.v
theories/Routes.v
theories/Settings.v
theories/Floats.v
theories/Host.v
theories/Process.v
theories/Samples.v
theories/Spec.v
theories/SpecFacts.v
theories/PropsStream.v
theories/VersionFacts.v
theories/PropsVersion.v
theories/FrameFacts.v
theories/PropsFrame.v
theories/ProtoFacts.v
theories/MsgFacts.v
theories/PropsMessages.v
theories/RestFacts.v
theories/PropsRest.v
theories/RouteFacts.v
theories/PropsRoutes.v
theories/SettingsFacts.v
theories/DecimalFacts.v
theories/PropsSettings.v
theories/TextFacts.v
theories/PropsText.v
theories/FloatFacts.v
theories/RoundFacts.v
theories/PropsFloats.v
theories/Wire.v
theories/WireFacts.v
theories/WireFacts2.v
theories/WireFacts3.v
theories/WireFacts4.v
theories/WireFacts5.v
theories/PbFacts.v
theories/HostSpec.v
theories/HostFacts.v
theories/PropsHost.v
theories/PropsAnswer.v
theories/PropsSamples.v
theories/PropsHistory.v
theories/PropsWire.v
theories/PropsSession.v
theories/Address.v
theories/PropsNode.v
theories/PropsMemory.v
theories/PropsReaders.v
theories/PropsDelivery.v
theories/PropsTail.v
theories/PropsLife.v
theories/PropsProcess.v
theories/PropsStatus.v
theories/Link.v
theories/PropsLink.v
theories/PropsErrors.v
theories/Vectors.v
theories/Objects.v
theories/Log.v
theories/PropsLog.v
theories/PropsSent.v
theories/PropsWarn.v
theories/Reuse.v
theories/PropsReuse.v
theories/PropsFallback.v
theories/PropsObjects.v
theories/Handlers.v
theories/PropsHandlers.v
theories/Track.v
theories/PropsTrack.v
theories/PropsSeen.v
theories/PropsTold.v
theories/PropsZero.v
theories/PropsAlert.v
theories/PropsShared.v
theories/PropsCut.v
theories/PropsCutSettings.v
theories/PropsAgain.v
theories/PropsAnnounce.v
theories/Escape.v
theories/PropsEscape.v
theories/Peer.v
theories/PropsPeer.v
theories/PropsRestart.v
theories/Held.v
theories/PropsHeld.v
theories/SizeFacts.v
theories/PropsLength.v
theories/Half.v
theories/PropsHalf.v
theories/PropsHalfMore.v
theories/HalfSettings.v
theories/PropsHalfSettings.v
