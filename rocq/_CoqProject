-Q theories Verif
theories/Arch2560.v
theories/Arch328p.v
theories/ArchLib.v
theories/ArchTest.v
theories/Asdf.v
theories/Avr.v
theories/Base.v
theories/Buffer.v
theories/BufferProofs.v
theories/BufferSpec.v
theories/Client.v
theories/ClientRef.v
theories/Config.v
theories/Custom.v
theories/CustomRef.v
theories/CustomSpec.v
theories/CustomSystem.v
theories/CustomTime.v
theories/DevProofs.v
theories/DevSpec.v
theories/Devices.v
theories/Frames.v
theories/Hook.v
theories/Host.v
theories/Jitter.v
theories/KeyRef.v
theories/KeySpec.v
theories/KeymapData.v
theories/Lib.v
theories/Modifiers.v
theories/Obs.v
theories/PinSpec.v
theories/PropAllCalls.v
theories/PropAnyConnector.v
theories/PropAnyHands.v
theories/PropAnyPace.v
theories/PropAnyRest.v
theories/PropAnyTime.v
theories/PropApply.v
theories/PropArch2560.v
theories/PropArch328.v
theories/PropArchTest.v
theories/PropBoard.v
theories/PropBounce.v
theories/PropBufConfig.v
theories/PropBuffer.v
theories/PropBufferAll.v
theories/PropCaps.v
theories/PropClient.v
theories/PropClock.v
theories/PropConfig.v
theories/PropConnector.v
theories/PropCustom.v
theories/PropDead.v
theories/PropDeaf.v
theories/PropDebounce.v
theories/PropDevices.v
theories/PropEndToEnd.v
theories/PropEvents.v
theories/PropExact.v
theories/PropFatal.v
theories/PropFlow.v
theories/PropHands.v
theories/PropHold.v
theories/PropHolds.v
theories/PropHost.v
theories/PropHost2560.v
theories/PropHost328.v
theories/PropInert.v
theories/PropInit.v
theories/PropJitter.v
theories/PropKeymaps.v
theories/PropKeysOut.v
theories/PropLamps.v
theories/PropLatency.v
theories/PropLeds.v
theories/PropLegends.v
theories/PropModLeds.v
theories/PropModState.v
theories/PropModifiers.v
theories/PropNoLoss.v
theories/PropOnce.v
theories/PropOsi.v
theories/PropOutputs.v
theories/PropPhysical.v
theories/PropPins.v
theories/PropPins2560.v
theories/PropPins328.v
theories/PropPress.v
theories/PropPulse.v
theories/PropQueues.v
theories/PropRate.v
theories/PropReach.v
theories/PropRef.v
theories/PropRepeat.v
theories/PropRepeatKey.v
theories/PropRepeatMode.v
theories/PropResponse.v
theories/PropRestTime.v
theories/PropRestart.v
theories/PropRmw.v
theories/PropRollTime.v
theories/PropRollover.v
theories/PropSameKeys.v
theories/PropScanBounds.v
theories/PropSession.v
theories/PropSpeak.v
theories/PropStray.v
theories/PropSubset.v
theories/PropSwitch.v
theories/PropSync.v
theories/PropSystem.v
theories/PropTells.v
theories/PropText.v
theories/PropTick.v
theories/PropTimed.v
theories/PropTyping.v
theories/PropTypist.v
theories/Repeat.v
theories/RepeatProofs.v
theories/System.v
theories/TestSuite.v
theories/Tick.v
theories/Timed.v
