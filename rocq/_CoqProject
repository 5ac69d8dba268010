-Q theories Verif
theories/Base.v
theories/MacAddress.v
theories/Uci.v
theories/AppConfig.v
theories/Codec.v
theories/Session.v
theories/Device.v
theories/Pica.v
theories/Transport.v
theories/BaseFacts.v
theories/TransportSpec.v
theories/TransportFacts.v
theories/PropsTransport.v
theories/MacSpec.v
theories/MacFacts.v
theories/PropsMac.v
theories/AppConfigSpec.v
theories/AppConfigFacts.v
theories/PropsAppConfig.v
theories/CodecSpec.v
theories/CodecFacts.v
theories/PropsCodec.v
theories/ContextSpec.v
theories/InvFacts.v
theories/StepFacts.v
theories/CommandFacts.v
theories/Demo.v
theories/GateFacts.v
theories/DeviceSpec.v
theories/DeviceFacts.v
theories/PropsDevice.v
theories/SessionSpec.v
theories/SessionFacts.v
theories/PropsSession.v
theories/MulticastSpec.v
theories/MulticastFacts.v
theories/EvolveFacts.v
theories/PropsMulticast.v
theories/HistorySpec.v
theories/PropsContext.v
theories/RangingSpec.v
theories/RangingFacts.v
theories/PropsRanging.v
theories/CrashSpec.v
theories/CrashFacts.v
theories/PropsCrash.v
theories/RoundFacts.v
theories/Sys.v
theories/EffectFacts.v
theories/SysSpec.v
theories/SysFacts.v
theories/ScheduleFacts.v
theories/DeliveryFacts.v
theories/SysDemo.v
theories/PropsSys.v
theories/PaceFacts.v
theories/PropsPace.v
theories/PyHost.v
theories/PyHostSpec.v
theories/PyHostFacts.v
theories/PropsPyHost.v
theories/Pcapng.v
theories/PcapngSpec.v
theories/PcapngFacts.v
theories/PropsPcapng.v
theories/Http.v
theories/HttpSpec.v
theories/HttpFacts.v
theories/HttpFacts2.v
theories/PropsHttp.v
theories/Page.v
theories/PageSpec.v
theories/PageFacts.v
theories/PropsPage.v
theories/Json.v
theories/JsonSpec.v
theories/JsonFacts.v
theories/JsonUnique.v
theories/JsonFaithful.v
theories/JsonRead.v
theories/JsonRead2.v
theories/JsonBody.v
theories/JsonSound.v
theories/JsonSound2.v
theories/JsonCut.v
theories/JsonWeb.v
theories/PropsJson.v
theories/Stream.v
theories/StreamSpec.v
theories/StreamFacts.v
theories/PropsStream.v
theories/PyReader.v
theories/PyReaderSpec.v
theories/PyReaderFacts.v
theories/PropsPyReader.v
theories/DialogueSpec.v
theories/DialogueFacts.v
theories/SetupFacts.v
theories/DialogueDemo.v
theories/PropsDialogue.v
theories/Position.v
theories/PositionSpec.v
theories/PositionFacts.v
theories/PropsPosition.v
theories/DirectionSpec.v
theories/DirectionFacts.v
theories/DirectionRotation.v
theories/DirectionExact.v
theories/PropsDirection.v
theories/SceneSpec.v
theories/SceneFacts.v
theories/PropsScene.v
theories/Script.v
theories/ScriptSpec.v
theories/ScriptFacts.v
theories/ScriptView.v
theories/ScriptRunFacts.v
theories/ScriptDemo.v
theories/PropsScript.v
theories/ScriptRunDemo.v
theories/PropsScriptRun.v
theories/TransferSpec.v
theories/TransferFacts.v
theories/TransferDemo.v
theories/PropsTransfer.v
theories/InBandSpec.v
theories/PropsInBand.v
theories/DefaultBin.v
theories/PropsDefault.v
theories/LiveSpec.v
theories/LiveFacts.v
theories/PropsLive.v
theories/LayoutSpec.v
theories/PropsLayout.v
theories/OpenApi.v
theories/OpenApiSpec.v
theories/OpenApiFacts.v
theories/PropsOpenApi.v
theories/CapsSpec.v
theories/PropsCaps.v
theories/Console.v
theories/ConsoleSpec.v
theories/ConsoleFacts.v
theories/PropsConsole.v
theories/ConsoleLine.v
theories/ConsoleLineSpec.v
theories/ConsoleLineFacts.v
theories/PropsConsoleLine.v
theories/Ui.v
theories/UiSpec.v
theories/UiFacts.v
theories/UiFacts2.v
theories/PropsUi.v
theories/ReadSpec.v
theories/ReadFacts.v
theories/PropsRead.v
theories/Draw.v
theories/DrawSpec.v
theories/DrawFacts.v
theories/DrawAhead.v
theories/PropsDraw.v
theories/SchemaSpec.v
theories/SchemaFacts.v
theories/PropsSchema.v
theories/IsolationSpec.v
theories/IsolationFacts.v
theories/PropsIsolation.v
theories/ControleeSpec.v
theories/ControleeFacts.v
theories/PropsControlee.v
theories/MeasureSpec.v
theories/MeasureFacts.v
theories/PropsMeasure.v
theories/AnswerSpec.v
theories/PropsAnswer.v
theories/PowerSpec.v
theories/PowerFacts.v
theories/PropsPower.v
theories/KeepSpec.v
theories/KeepFacts.v
theories/KeepDemo.v
theories/PropsKeep.v
