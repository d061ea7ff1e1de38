-Q theories Verif
theories/Base.v
theories/ListFacts.v
theories/Utf8.v
theories/Utf8Facts.v
theories/Escape.v
theories/Decode.v
theories/EscapeSpec.v
theories/EscapeFacts.v
theories/DecodeFacts.v
theories/Number.v
theories/Sgr.v
theories/Mouse.v
theories/Geom.v
theories/Colors.v
theories/NumberFacts.v
theories/SgrFacts.v
theories/SgrSpec.v
theories/SgrRound.v
theories/SgrTerm.v
theories/GeomFacts.v
theories/MouseFacts.v
theories/ColorsFacts.v
theories/SeqHeap.v
theories/SeqHeapFacts.v
theories/DecodeSpec.v
theories/AttrSpec.v
theories/SeqSpec.v
theories/SeqFacts.v
theories/AttrFacts.v
theories/Prop_Escape.v
theories/Prop_Sgr.v
theories/Prop_Mouse.v
theories/Prop_Geom.v
theories/Prop_Colors.v
theories/Grid.v
theories/GridSpec.v
theories/GridFacts.v
theories/DrawFacts.v
theories/GridMore.v
theories/Bitmap.v
theories/BitmapSpec.v
theories/BitmapFacts.v
theories/Prop_Grid.v
theories/Prop_Bitmap.v
theories/Buffer.v
theories/State.v
theories/OutSpec.v
theories/BufferFacts.v
theories/StateSpec.v
theories/StateFacts.v
theories/ScreenFacts.v
theories/VsFacts.v
theories/Prop_Screen.v
theories/TermSpec.v
theories/RenderSpec.v
theories/TermFacts.v
theories/Prop_Cursor.v
theories/BufSpec.v
theories/BufFacts.v
theories/VcSpec.v
theories/VcFacts.v
theories/Prop_Buffer.v
theories/Render.v
theories/DisplaySpec.v
theories/DisplayFacts.v
theories/DisplayGrid.v
theories/UpdateFacts.v
theories/DifferSpec.v
theories/DifferFacts.v
theories/RenderExamples.v
theories/Prop_Render.v
theories/File.v
theories/Output.v
theories/OutputSpec.v
theories/OutputFacts.v
theories/Prop_Output.v
theories/Input.v
theories/InputSpec.v
theories/InputFacts.v
theories/ReplayFacts.v
theories/ModeFacts.v
theories/Prop_Input.v
theories/Context.v
theories/Term.v
theories/TermCtxSpec.v
theories/TermCtxFacts.v
theories/Prop_Term.v
theories/Tty.v
theories/TtySpec.v
theories/Mode.v
theories/ModeSpec.v
theories/Signal.v
theories/SignalSpec.v
theories/SessionFacts.v
theories/Prop_Session.v
theories/Events.v
theories/EventsSpec.v
theories/EventsFacts.v
theories/Prop_Events.v
theories/EditLine.v
theories/EditLineSpec.v
theories/EditLineFacts.v
theories/Prop_EditLine.v
theories/LogSink.v
theories/LogSpec.v
theories/LogFacts.v
theories/Prop_Log.v
theories/Bg.v
theories/BgSpec.v
theories/BgFacts.v
theories/Prop_Bg.v
theories/Sized.v
theories/SizedSpec.v
theories/SizedFacts.v
theories/Playback.v
theories/PlaybackSpec.v
theories/PlaybackFacts.v
theories/Prop_Playback.v
theories/Terminfo.v
theories/TerminfoSpec.v
theories/TerminfoFacts.v
theories/Prop_Terminfo.v
theories/Tick.v
theories/TickSpec.v
theories/TickFacts.v
theories/Prop_Tick.v
theories/Diag.v
theories/DiagSpec.v
theories/DiagFacts.v
theories/Prop_Diag.v
theories/Loop.v
theories/LoopSpec.v
theories/LoopFacts.v
theories/Prop_Loop.v
theories/BitmapOutSpec.v
theories/StyleFacts.v
theories/BitmapOutFacts.v
theories/Prop_Style.v
theories/InReadFacts.v
theories/LogView.v
theories/LogViewSpec.v
theories/LogViewFacts.v
theories/Prop_LogView.v
theories/TermScreen.v
theories/TermScreenFacts.v
theories/Prop_TermScreen.v
theories/Outer.v
theories/OuterSpec.v
theories/OuterFacts.v
theories/Prop_Outer.v
theories/RerunSpec.v
theories/RerunFacts.v
theories/Prop_Rerun.v
theories/SgrItemSpec.v
theories/SgrItemFacts.v
theories/Prop_SgrItem.v
theories/To24.v
theories/To24Spec.v
theories/To24Facts.v
theories/Prop_To24.v
theories/GridText.v
theories/GridTextSpec.v
theories/GridTextFacts.v
theories/Prop_GridText.v
theories/Lolwut.v
theories/LolwutSpec.v
theories/LolwutFacts.v
theories/Prop_Lolwut.v
theories/Profile.v
theories/ProfileSpec.v
theories/ProfileFacts.v
theories/Prop_Profile.v
theories/ColorModels.v
theories/ColorModelsSpec.v
theories/ColorModelsFacts.v
theories/Prop_ColorModels.v
theories/DecodeCmd.v
theories/DecodeCmdSpec.v
theories/DecodeCmdFacts.v
theories/Prop_DecodeCmd.v
theories/Names.v
theories/NamesSpec.v
theories/NamesFacts.v
theories/Prop_Names.v
theories/Hud.v
theories/HudSpec.v
theories/HudFacts.v
theories/HudCtlFacts.v
theories/HudSelFacts.v
theories/HudVisFacts.v
theories/HudExamples.v
theories/Prop_Hud.v
theories/Prop_HudCtl.v
theories/HudTimeFacts.v
theories/WriterSpec.v
theories/Writers.v
theories/WritersFacts.v
theories/Prop_Writers.v
theories/TermBuiltins.v
theories/TermBuiltinsSpec.v
theories/TermBuiltinsFacts.v
theories/TermKeysFacts.v
theories/Prop_TermBuiltins.v
theories/Collector.v
theories/CollectorSpec.v
theories/CollectorFacts.v
theories/Prop_Collector.v
theories/Recorder.v
theories/RecorderSpec.v
theories/RecorderFacts.v
theories/Prop_Recorder.v
theories/Interact.v
theories/InteractSpec.v
theories/InteractFacts.v
theories/Prop_Interact.v
theories/HudAddFacts.v
theories/Demo.v
theories/DemoSpec.v
theories/DemoFacts.v
theories/Prop_Demo.v
theories/DrawSpec.v
theories/DrawMore.v
theories/HangSpec.v
theories/HangFacts.v
theories/Prop_Returns.v
theories/StuckSpec.v
theories/StuckFacts.v
theories/Prop_Stuck.v
theories/InputNotify.v
theories/NotifySpec.v
theories/NotifyFacts.v
theories/Prop_Notify.v
theories/Whole.v
theories/WholeSpec.v
theories/WholeFacts.v
theories/Prop_Whole.v
theories/Profilers.v
theories/ProfilersSpec.v
theories/ProfilersFacts.v
theories/Prop_Profilers.v
theories/AltTermSpec.v
theories/PlatScreen.v
theories/PlatScreenSpec.v
theories/AltTermFacts.v
theories/PlatScreenFacts.v
theories/Prop_PlatScreen.v
theories/SgrResetFacts.v
theories/Prop_SgrReset.v
theories/PlatRun.v
theories/PlatRunSpec.v
theories/PlatRunFacts.v
theories/Prop_PlatRun.v
theories/FrameText.v
theories/FrameTextSpec.v
theories/FrameTextFacts.v
theories/Prop_FrameText.v
theories/Schotter.v
theories/SchotterSpec.v
theories/SchotterFacts.v
theories/Prop_Schotter.v
theories/StateText.v
theories/StateTextSpec.v
theories/StateTextFacts.v
theories/Prop_StateText.v
theories/PointsFacts.v
theories/Prop_Points.v
theories/DecodeRun.v
theories/DecodeRunSpec.v
theories/DecodeRunFacts.v
theories/Prop_DecodeRun.v
theories/NewPlat.v
theories/NewPlatSpec.v
theories/NewPlatFacts.v
theories/Prop_NewPlat.v
theories/LolwutMain.v
theories/LolwutMainSpec.v
theories/LolwutMainFacts.v
theories/Prop_LolwutMain.v
theories/LolwutUI.v
theories/LolwutUISpec.v
theories/LolwutUIFacts.v
theories/Prop_LolwutUI.v
theories/Bufio.v
theories/BufioFacts.v
theories/Prop_Bufio.v
theories/SubFacts.v
theories/DecodeOut.v
theories/DecodeOutSpec.v
theories/DecodeOutFacts.v
theories/Prop_DecodeOut.v
theories/DecodeLoop.v
theories/DecodeLoopSpec.v
theories/DecodeLoopFacts.v
theories/Prop_DecodeLoop.v
theories/CursorTrackSpec.v
theories/CursorTrackFacts.v
theories/Prop_CursorTrack.v
theories/DiagLogFacts.v
theories/ScreenTrackSpec.v
theories/ScreenTrackFacts.v
theories/Prop_ScreenTrack.v
theories/Prop_VcApply.v
theories/PaletteText.v
theories/PaletteTextSpec.v
theories/PaletteTextFacts.v
theories/Prop_PaletteText.v
theories/Prop_WriteMore.v
theories/BitmapShowFacts.v
theories/Prop_BitmapShow.v
theories/HudRowsFacts.v
theories/Prop_HudRows.v
theories/HudFpsFacts.v
theories/Prop_HudFps.v
theories/HudTeleFacts.v
theories/Prop_HudTele.v
theories/HudTimeShowFacts.v
theories/Prop_HudTimeShow.v
theories/HudReplayFacts.v
theories/Prop_HudReplay.v
theories/HudProfFacts.v
theories/Prop_HudProf.v
