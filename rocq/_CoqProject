-Q theories Verif
theories/Py.v
theories/Num.v
theories/Utils.v
theories/Protocol.v
theories/Codes.v
theories/UasTable.v
theories/Decoders.v
theories/Command.v
theories/CommandTable.v
theories/Commands.v
theories/World.v
theories/Elm.v
theories/Obd.v
theories/Async.v
theories/SpecWire.v
theories/SpecBits.v
theories/SpecProto.v
theories/PyFacts.v
theories/WireFacts.v
theories/ProtocolFacts.v
theories/CanFacts.v
theories/ProtocolThms.v
theories/CanThms.v
theories/LegacyThms.v
theories/UtilsThms.v
theories/EcuMapThms.v
theories/Examples.v
theories/SpecCan.v
theories/CanExact.v
theories/CanOrder.v
theories/Properties_Protocol.v
theories/SpecCmd.v
theories/SpecMonitor.v
theories/CommandThms.v
theories/Properties_Utils.v
theories/Properties_Commands.v
theories/DecoderThms.v
theories/DecoderThms2.v
theories/DecoderThms3.v
theories/Properties_Decoders.v
theories/SpecElm.v
theories/ElmFacts.v
theories/ElmThms.v
theories/ChopThms.v
theories/Properties_Elm.v
theories/SpecObd.v
theories/ObdFacts.v
theories/ObdThms.v
theories/ObdThms2.v
theories/ObdThms3.v
theories/ObdThms4.v
theories/ObdThms5.v
theories/ObdThms6.v
theories/ObdThms7.v
theories/Properties_Obd.v
theories/SpecAsync.v
theories/AsyncFacts.v
theories/AsyncThms.v
theories/AsyncThms2.v
theories/AsyncThms3.v
theories/AsyncThms4.v
theories/AsyncThms5.v
theories/AsyncThms6.v
theories/AsyncThms7.v
theories/AsyncThms8.v
theories/AsyncThms9.v
theories/AsyncThms10.v
theories/Properties_Async.v
theories/SpecNum.v
theories/FloatFacts.v
theories/FloatRatio.v
theories/NumFacts.v
theories/UasThms.v
theories/SpecSensors.v
theories/SensorThms.v
theories/Properties_Numbers.v
theories/SpecVolt.v
theories/VoltThms.v
theories/Properties_Voltage.v
theories/Properties_Signed.v
theories/SpecE2E.v
theories/ObdThms8.v
theories/E2EThms.v
theories/E2EThms2.v
theories/E2EThms3.v
theories/E2EThms4.v
theories/E2EThms5.v
theories/E2EThms6.v
theories/Properties_EndToEnd.v
theories/Async2.v
theories/SpecAsync2.v
theories/AsyncCb.v
theories/AsyncCb2.v
theories/AsyncCb3.v
theories/AsyncCb4.v
theories/Properties_Callbacks.v
theories/Scan.v
theories/SpecScan.v
theories/ScanThms.v
theories/Properties_Scan.v
theories/SpecConnect.v
theories/ConnectThms.v
theories/ConnectThms2.v
theories/Properties_Connect.v
theories/ConformTable.v
theories/Conformance.v
theories/SpecPorts.v
theories/PortThms.v
theories/AsyncPorts.v
theories/Properties_Ports.v
theories/SpecLive.v
theories/AsyncLive.v
theories/Properties_Live.v
theories/Properties_Readings.v
theories/SpecMark.v
theories/Properties_Mark.v
theories/Fine.v
theories/SpecFine.v
theories/FineThms.v
theories/FineAsync.v
theories/FineAsync2.v
theories/FineAsync3.v
theories/Properties_Fine.v
theories/Look.v
theories/SpecLook.v
theories/LookThms.v
theories/LookThms2.v
theories/Properties_Look.v
theories/DocTables.v
theories/SpecDocs.v
theories/DocThms.v
theories/Properties_Docs.v
theories/SpecAdapter.v
theories/AdapterThms.v
theories/AdapterThms2.v
theories/AdapterThms3.v
theories/SpecAdapter2.v
theories/AdapterThms4.v
theories/AdapterThms5.v
theories/AdapterCheck.v
theories/Properties_Adapter.v
theories/AsyncHistory.v
theories/SpecAsyncCar.v
theories/AsyncCar.v
theories/Properties_AsyncCar.v
theories/SpecSleep.v
theories/SleepThms.v
theories/SleepThms2.v
theories/SleepThms3.v
theories/SleepCheck.v
theories/Properties_Sleep.v
theories/Repr.v
theories/SpecRepr.v
theories/ReprThms.v
theories/Properties_Repr.v
theories/SpecRaw.v
theories/RawThms.v
theories/Properties_Raw.v
theories/SpecSlow.v
theories/SlowThms.v
theories/SlowCheck.v
theories/CutThms.v
theories/CutThms2.v
theories/Properties_Slow.v
theories/SlowFast.v
theories/Properties_SlowFast.v
theories/Properties_Listing.v
theories/Properties_Cvn.v
theories/Properties_Listing6.v
theories/Properties_Listing1.v
theories/Properties_Index.v
theories/Print.v
theories/SpecPrint.v
theories/PrintThms.v
theories/Properties_Print.v
theories/SpecUas.v
theories/Properties_Uas.v
theories/SpecLive2.v
theories/AsyncCb5.v
theories/Properties_Live2.v
theories/SpecAsyncFast.v
theories/AsyncCarFast.v
theories/Properties_AsyncFast.v
theories/SpecAsyncCar2.v
theories/AsyncCarCb.v
theories/Properties_AsyncCar2.v
theories/SpecDashboard.v
theories/Properties_Dashboard.v
theories/Properties_Dashboard2.v
theories/SpecAsyncSlow.v
theories/AsyncSlow.v
theories/Properties_AsyncSlow.v
theories/Timed.v
theories/SpecTimed.v
theories/TimedThms.v
theories/Properties_Timed.v
theories/Properties_Limits.v
theories/Args.v
theories/SpecArgs.v
theories/ArgThms.v
theories/Properties_Args.v
theories/Properties_More.v
theories/Readers.v
theories/SpecReaders.v
theories/ReaderThms.v
theories/Properties_Readers.v
theories/SpecFormats.v
theories/Properties_Formats.v
theories/Properties_Ecus.v
theories/Assumptions.v
