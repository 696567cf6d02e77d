-Q theories Verif
theories/Model/Base.v
theories/Model/Util.v
theories/Model/Group.v
theories/Model/BlockSync.v
theories/Model/Float.v
theories/Model/Tables.v
theories/Model/Json.v
theories/Model/Options.v
theories/Model/RdsString.v
theories/Model/Freq.v
theories/Model/Rft.v
theories/Model/Tmc.v
theories/Model/Station.v
theories/Model/Channel.v
theories/Model/Input.v
theories/Model/Dsp.v
theories/Model/Csv.v
theories/Spec/RdsCode.v
theories/Proofs/Tac.v
theories/Proofs/Syndrome.v
theories/Spec/RdsStream.v
theories/Spec/Reception.v
theories/Proofs/Ring.v
theories/Proofs/BlockSyncP.v
theories/Proofs/BlockSyncR.v
theories/Proofs/BlockSyncT.v
theories/Proofs/BlockSyncD.v
theories/Proofs/BlockSyncA.v
theories/Proofs/BlockSyncG.v
theories/Proofs/BlockSyncE.v
theories/Spec/Recovery.v
theories/Spec/Ucs2.v
theories/Spec/Memory.v
theories/Proofs/BlockSyncS.v
theories/Proofs/BlockSyncX.v
theories/Props/P_BlockSync.v
theories/Props/P_Recovery.v
theories/Proofs/AgainP.v
theories/Props/P_Again.v
theories/Proofs/LossyP.v
theories/Props/P_Lossy.v
theories/Proofs/NoEndP.v
theories/Props/P_NoEnd.v
theories/Proofs/PartsP.v
theories/Props/P_Parts.v
theories/Model/Usage.v
theories/Spec/Help.v
theories/Props/P_Help.v
theories/Proofs/AgainTextP.v
theories/Props/P_AgainText.v
theories/Props/P_Chunks.v
theories/Proofs/BesideP.v
theories/Props/P_Beside.v
theories/Props/P_ErtParts.v
theories/Spec/Numerals.v
theories/Proofs/Numerals.v
theories/Spec/Frequencies.v
theories/Proofs/FreqP.v
theories/Spec/Unicode.v
theories/Spec/JsonText.v
theories/Proofs/JsonP.v
theories/Proofs/Utf8P.v
theories/Proofs/Schema.v
theories/Proofs/StationP.v
theories/Proofs/FloatP.v
theories/Spec/Calendar.v
theories/Proofs/ClockP.v
theories/Proofs/BlerP.v
theories/Proofs/UpdateP.v
theories/Proofs/TextP.v
theories/Proofs/CleanP.v
theories/Spec/Session.v
theories/Spec/Host.v
theories/Proofs/SessionP.v
theories/Proofs/LineP.v
theories/Proofs/FrameP.v
theories/Spec/Identity.v
theories/Proofs/ChannelP.v
theories/Spec/Quality.v
theories/Proofs/LinesP.v
theories/Proofs/HistoryP.v
theories/Proofs/HostP.v
theories/Spec/Clock.v
theories/Proofs/ShowP.v
theories/Spec/Cases.v
theories/Props/P_Channel.v
theories/Spec/Base64.v
theories/Spec/Crc.v
theories/Proofs/FileP.v
theories/Spec/History.v
theories/Proofs/TraceP.v
theories/Proofs/KeysP.v
theories/Spec/Texts.v
theories/Spec/Apps.v
theories/Proofs/StringP.v
theories/Proofs/PsP.v
theories/Proofs/RtP.v
theories/Proofs/RtMixP.v
theories/Proofs/EndP.v
theories/Proofs/AfP.v
theories/Proofs/AfSoundP.v
theories/Proofs/PnP.v
theories/Proofs/LpsP.v
theories/Props/P_Text.v
theories/Props/P_Radiotext.v
theories/Props/P_Mixture.v
theories/Props/P_Names.v
theories/Props/P_Freq.v
theories/Proofs/AppsP.v
theories/Props/P_Apps.v
theories/Props/P_File.v
theories/Spec/Inputs.v
theories/Spec/Fields.v
theories/Proofs/InputP.v
theories/Proofs/RateP.v
theories/Proofs/DspP.v
theories/Proofs/GetP.v
theories/Proofs/FieldsP.v
theories/Proofs/HexP.v
theories/Spec/CommandLine.v
theories/Proofs/CommandP.v
theories/Props/P_Input.v
theories/Props/P_Fields.v
theories/Model/Main.v
theories/Spec/Program.v
theories/Spec/Demo.v
theories/Proofs/MainP.v
theories/Proofs/AudioP.v
theories/Props/P_Main.v
theories/Spec/Traffic.v
theories/Spec/Service.v
theories/Spec/Enhanced.v
theories/Spec/Biphase.v
theories/Spec/Demod.v
theories/Spec/Hearing.v
theories/Spec/Loss.v
theories/Proofs/TmcP.v
theories/Proofs/TmcMsgP.v
theories/Proofs/TmcTextP.v
theories/Proofs/TmcLineP.v
theories/Proofs/TmcHistP.v
theories/Proofs/TmcEndP.v
theories/Proofs/TmcRunP.v
theories/Proofs/TmcOnlyP.v
theories/Proofs/TmcSysP.v
theories/Proofs/ErtP.v
theories/Proofs/UcsP.v
theories/Proofs/MemoryP.v
theories/Proofs/ErtPlusP.v
theories/Proofs/ErtTagsP.v
theories/Proofs/FixedP.v
theories/Proofs/BiphaseP.v
theories/Proofs/DemodP.v
theories/Proofs/LossF.v
theories/Proofs/HearP.v
theories/Proofs/LossP.v
theories/Props/P_Tmc.v
theories/Props/P_Descr.v
theories/Props/P_Service.v
theories/Props/P_Enhanced.v
theories/Props/P_Ucs2.v
theories/Props/P_Memory.v
theories/Props/P_Biphase.v
theories/Props/P_Hearing.v
theories/Props/P_Loss.v
theories/Spec/Files.v
theories/Spec/Channels.v
theories/Spec/Networks.v
theories/Spec/Transparent.v
theories/Spec/Cut.v
theories/Spec/Plus.v
theories/Spec/Received.v
theories/Spec/Labels.v
theories/Proofs/TraceLP.v
theories/Proofs/FilesP.v
theories/Proofs/TypeCP.v
theories/Proofs/EonP.v
theories/Proofs/TdcP.v
theories/Proofs/PlusP.v
theories/Proofs/PlusTrueP.v
theories/Proofs/ReceivedP.v
theories/Proofs/LabelsP.v
theories/Proofs/DataP.v
theories/Props/P_Files.v
theories/Props/P_TypeC.v
theories/Props/P_Eon.v
theories/Props/P_Transparent.v
theories/Props/P_Plus.v
theories/Props/P_Received.v
theories/Props/P_Labels.v
theories/Spec/Recording.v
theories/Proofs/RecordP.v
theories/Props/P_Recording.v
theories/Spec/OnAir.v
theories/Proofs/AirP.v
theories/Props/P_OnAir.v
theories/Proofs/CutP.v
theories/Props/P_Cut.v
theories/Model/Streams.v
theories/Spec/Streams.v
theories/Proofs/StreamsP.v
theories/Props/P_Streams.v
theories/Spec/OptionSets.v
theories/Proofs/OptionsP.v
theories/Props/P_OptionSets.v
theories/Props/P_Command.v
theories/Spec/Noise.v
theories/Proofs/NoiseP.v
theories/Props/P_Noise.v
theories/Model/TmcFiles.v
theories/Model/EventData.v
theories/Spec/TableFiles.v
theories/Proofs/TableFilesP.v
theories/Proofs/EventsP.v
theories/Proofs/TableProgP.v
theories/Props/P_Tables.v
theories/Props/P_Events.v
theories/Props/P_ErtPlus.v
theories/Proofs/AgeP.v
theories/Spec/Times.v
theories/Proofs/TimesP.v
theories/Props/P_Times.v
theories/Spec/Ending.v
theories/Proofs/EndingP.v
theories/Proofs/EndProgP.v
theories/Props/P_Ending.v
theories/Spec/TimeText.v
theories/Proofs/TimeTextP.v
theories/Props/P_TimeText.v
theories/Proofs/PartialP.v
theories/Props/P_Partial.v
theories/Model/Getopt.v
theories/Model/Subcarrier.v
theories/Spec/Words.v
theories/Spec/Subcarriers.v
theories/Proofs/WordsP.v
theories/Proofs/FloatB.v
theories/Proofs/SubcarriersP.v
theories/Proofs/PacedP.v
theories/Proofs/PhaseP.v
theories/Proofs/GridP.v
theories/Props/P_Words.v
theories/Props/P_Subcarriers.v
theories/Spec/Heard.v
theories/Spec/HexText.v
theories/Spec/TunerText.v
theories/Proofs/HeardP.v
theories/Proofs/HeardAllP.v
theories/Proofs/HexTextP.v
theories/Proofs/TunerTextP.v
theories/Proofs/SourceP.v
theories/Props/P_Heard.v
theories/Props/P_HeardMore.v
theories/Props/P_HeardData.v
theories/Props/P_HeardAll.v
theories/Props/P_HexText.v
theories/Props/P_TunerText.v
theories/Props/P_Source.v
