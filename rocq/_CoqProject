-Q theories Verif
theories/Base.v
theories/BaseFacts.v
theories/Teleinfo.v
theories/TeleinfoSpec.v
theories/Publish.v
theories/HistorySpec.v
theories/DecoderProofs.v
theories/AccessProofs.v
theories/GroupProofs.v
theories/CorruptProofs.v
theories/DumpProofs.v
theories/PublishProofs.v
theories/TeleinfoMain.v
theories/Samples.v
theories/SamplesFacts.v
theories/PropTeleinfo.v
theories/WattSpec.v
theories/WattProofs.v
theories/WattExact.v
theories/WattSamples.v
theories/PropWatt.v
theories/Config.v
theories/ConfigSpec.v
theories/EepromTool.v
theories/ToolSpec.v
theories/CrcProofs.v
theories/ConfigProofs.v
theories/ConfigMain.v
theories/ConfigHist.v
theories/ToolProofs.v
theories/ToolMain.v
theories/ConfigSamples.v
theories/ConfigFinal.v
theories/Utf8Spec.v
theories/Utf8Proofs.v
theories/PropConfig.v
theories/Json.v
theories/JsonFacts.v
theories/JsonBuild.v
theories/JsonBuildFacts.v
theories/Tic.v
theories/TicSpec.v
theories/PageProofs.v
theories/TemplateProofs.v
theories/NotifProofs.v
theories/NotifMain.v
theories/NotifExact.v
theories/RequestProofs.v
theories/TicSamples.v
theories/TicFinal.v
theories/PropTic.v
theories/Pages.v
theories/PagesSpec.v
theories/PagesProofs.v
theories/PagesSamples.v
theories/PropPages.v
theories/Sse.v
theories/SseSpec.v
theories/SseProofs.v
theories/SseFrame.v
theories/Cpu.v
theories/CpuSpec.v
theories/CpuProofs.v
theories/CpuExact.v
theories/PropDevice.v
theories/Erfs.v
theories/ErfsSpec.v
theories/ErfsProofs.v
theories/ErfsRead.v
theories/ErfsFinal.v
theories/ErfsSamples.v
theories/ErfsDir.v
theories/ErfsDirSpec.v
theories/ErfsDirProofs.v
theories/PropErfs.v
theories/Web.v
theories/Wifi.v
theories/Device.v
theories/WebSpec.v
theories/WebProofs.v
theories/DeviceProofs.v
theories/DeviceMain.v
theories/DevicePublic.v
theories/DeviceSafe.v
theories/DeviceFinal.v
theories/DevicePages.v
theories/WifiSpec.v
theories/WifiProofs.v
theories/WebSamples.v
theories/PropWeb.v
theories/Cli.v
theories/CliSpec.v
theories/CliProofs.v
theories/CliDumpProofs.v
theories/EraseProofs.v
theories/Simu.v
theories/SimuSpec.v
theories/SimuProofs.v
theories/PropCli.v
theories/Life.v
theories/LifeSpec.v
theories/LifeProofs.v
theories/LifeMain.v
theories/LifeFinal.v
theories/LifeSamples.v
theories/PropLife.v
theories/Form.v
theories/FormSpec.v
theories/FormProofs.v
theories/FormMain.v
theories/FormFinal.v
theories/FormSamples.v
theories/PropForm.v
theories/JsonExact.v
theories/ExactPages.v
theories/Site.v
theories/SiteSpec.v
theories/SiteProofs.v
theories/PropSite.v
theories/SlotSpec.v
theories/SlotProofs.v
theories/PauseProofs.v
theories/RequestSafe.v
theories/Prep.v
theories/PrepSpec.v
theories/PrepText.v
theories/PrepProofs.v
theories/PrepMain.v
theories/PrepSite.v
theories/PrepStatic.v
theories/PropPrep.v
theories/Clock.v
theories/ClockSpec.v
theories/ClockProofs.v
theories/ClockMain.v
theories/ClockPages.v
theories/ClockOrder.v
theories/PropClock.v
theories/Dash.v
theories/DashSpec.v
theories/DashProofs.v
theories/DashMain.v
theories/PropDash.v
theories/Collect.v
theories/CollectSpec.v
theories/CollectProofs.v
theories/PropCollect.v
theories/Led.v
theories/LedSpec.v
theories/LedProofs.v
theories/PropLed.v
theories/ShowSpec.v
theories/ShowProofs.v
theories/PropShow.v
theories/Amalg.v
theories/AmalgSpec.v
theories/AmalgProofs.v
theories/PropAmalg.v
theories/Console.v
theories/ConsoleSpec.v
theories/ConsoleProofs.v
theories/PropConsole.v
theories/Upgrade.v
theories/UpgradeSpec.v
theories/UpgradeProofs.v
theories/PropUpgrade.v
theories/NetList.v
theories/NetListSpec.v
theories/NetListProofs.v
theories/PropNetList.v
theories/TimeSetSpec.v
theories/TimeSetProofs.v
theories/PropTimeSet.v
theories/Tabs.v
theories/TabsSpec.v
theories/TabsProofs.v
theories/PropTabs.v
theories/Http.v
theories/HttpSpec.v
theories/HttpProofs.v
theories/HttpMain.v
theories/HttpSamples.v
theories/PropHttp.v
theories/Uart.v
theories/UartSpec.v
theories/UartProofs.v
theories/UartMain.v
theories/UartSamples.v
theories/PropUart.v
theories/Streams.v
theories/StreamsSpec.v
theories/StreamsProofs.v
theories/PropStreams.v
theories/Ota.v
theories/OtaSpec.v
theories/OtaProofs.v
theories/PropOta.v
theories/ChainSpec.v
theories/ChainProofs.v
theories/ChainMain.v
theories/ChainSamples.v
theories/PropChain.v
theories/ScreenSpec.v
theories/ScreenProofs.v
theories/ScreenSamples.v
theories/PropScreen.v
theories/SessionSpec.v
theories/SessionProofs.v
theories/SessionSamples.v
theories/PropSession.v
theories/RestartProofs.v
theories/RestartSamples.v
theories/PropRestart.v
theories/SystemSpec.v
theories/SystemProofs.v
theories/SystemSamples.v
theories/PropSystem.v
theories/LoginSpec.v
theories/LoginProofs.v
theories/LoginSamples.v
theories/LoginAny.v
theories/LoginAnySamples.v
theories/PropLogin.v
theories/Blink.v
theories/BlinkSpec.v
theories/BlinkProofs.v
theories/PropBlink.v
theories/BoundSpec.v
theories/BoundProofs.v
theories/BoundMain.v
theories/PropBound.v
theories/Unpack.v
theories/UnpackSpec.v
theories/UnpackProofs.v
theories/UnpackSamples.v
theories/PropUnpack.v
theories/FatalSpec.v
theories/FatalProofs.v
theories/FatalLife.v
theories/FatalSamples.v
theories/PropFatal.v
theories/SetNetSpec.v
theories/SetNetProofs.v
theories/SetNetSamples.v
theories/PropSetNet.v
theories/Srv.v
theories/SrvSpec.v
theories/SrvProofs.v
theories/SrvMain.v
theories/SrvFinal.v
theories/PropSrv.v
theories/FollowSpec.v
theories/FollowProofs.v
theories/FollowMain.v
theories/FollowUpdate.v
theories/FollowServices.v
theories/PropFollow.v
theories/MeddleSpec.v
theories/MeddleProofs.v
theories/MeddleMain.v
theories/MeddleSamples.v
theories/PropMeddle.v
theories/Terminal.v
theories/TerminalSpec.v
theories/TerminalProofs.v
theories/PropTerminal.v
theories/Flasher.v
theories/FlasherSpec.v
theories/FlasherProofs.v
theories/FlasherMain.v
theories/FlasherFinal.v
theories/FlasherRepair.v
theories/FlasherFail.v
theories/FlasherShort.v
theories/PropFlasher.v
theories/Startup.v
theories/StartupSpec.v
theories/StartupProofs.v
theories/StartupOta.v
theories/StartupSamples.v
theories/PropStartup.v
theories/OtaLed.v
theories/OtaLedSpec.v
theories/OtaLedProofs.v
theories/PropOtaLed.v
theories/Package.v
theories/PackageSpec.v
theories/PackageProofs.v
theories/PropPackage.v
theories/Proxy.v
theories/ProxySpec.v
theories/ProxyProofs.v
theories/PropProxy.v
theories/TimeShow.v
theories/TimeShowSpec.v
theories/TimeShowProofs.v
theories/PropTimeShow.v
