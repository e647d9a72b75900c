-Q theories Verif

theories/PyBase.v
theories/IntBytes.v
theories/Utf8.v
theories/StructFmt.v
theories/Stream.v
theories/Text.v
theories/Repr.v
theories/Classes.v
theories/Key.v
theories/Crypto.v
theories/PrivateKeyList.v
theories/SpecWire.v
theories/SpecRepr.v
theories/SpecKey.v
theories/SpecText.v
theories/SpecCrypto.v
theories/SpecList.v
theories/ProofBase.v
theories/ProofRepr.v
theories/ProofInt.v
theories/ProofUtf8.v
theories/ProofWire.v
theories/ProofRecord.v
theories/ProofKey.v
theories/ProofLog.v
theories/ProofErr.v
theories/ProofText.v
theories/ProofCrypto.v
theories/ProofList.v
theories/Props_Stream.v
theories/Props_Key.v
theories/Props_Text.v
theories/Props_Crypto.v
theories/ProofRead.v
theories/Props_List.v
theories/Props_Armor.v
theories/Props_Parse.v
theories/Props_Round.v
theories/SpecCert.v
theories/ProofCert.v
theories/Props_Cert.v
theories/Props_Params.v
theories/Convert.v
theories/SpecConvert.v
theories/ProofConvert.v
theories/Props_Convert.v
theories/Props_Check.v
theories/Dates.v
theories/Props_Dates.v
theories/Props_Build.v
theories/Json.v
theories/SpecJson.v
theories/ProofJson.v
theories/Props_Json.v
theories/UserList.v
theories/SpecEdit.v
theories/Props_Edit.v
theories/Generate.v
theories/SpecGenerate.v
theories/Props_Generate.v
theories/Props_Flow.v
theories/Props_Sign.v
theories/Props_Store.v
theories/SpecDepth.v
theories/Props_Depth.v
theories/SpecWarn.v
theories/Props_Warn.v
theories/Heap.v
theories/SpecHeap.v
theories/ProofHeap.v
theories/Props_Heap.v
theories/SpecSecret.v
theories/ProofSecret.v
theories/Props_Secret.v
theories/SpecStruct.v
theories/ProofStruct.v
theories/Props_Struct.v
theories/SpecMain.v
theories/Props_Main.v
theories/Strict.v
theories/SpecStrict.v
theories/ProofStrict.v
theories/Props_Strict.v
theories/Suite.v
theories/StdTables.v
theories/Std.v
theories/SpecStd.v
theories/ProofStd.v
theories/ProofFermat.v
theories/Props_Std.v
theories/Props_Refuse.v
theories/JsonLimit.v
theories/SpecLimit.v
theories/Props_Limit.v
theories/Objects.v
theories/Library.v
theories/SpecObjects.v
theories/ProofObjects.v
theories/Props_Objects.v
theories/Cli.v
theories/SpecCli.v
theories/ProofCli.v
theories/Props_Cli.v
theories/SpecLayout.v
theories/Props_Layout.v
theories/SpecReuse.v
theories/Props_Reuse.v
theories/Props_Cbc.v
theories/Props_Prompt.v
theories/Interrupt.v
theories/Props_Interrupt.v
theories/Threads.v
theories/SpecThreads.v
theories/ProofThreads.v
theories/Props_Threads.v
theories/Shared.v
theories/SpecShared.v
theories/Props_Shared.v
theories/Compare.v
theories/SpecCompare.v
theories/Props_Compare.v
theories/Seek.v
theories/SpecSeek.v
theories/ProofSeek.v
theories/Props_Seek.v
theories/Mapping.v
theories/SpecMapping.v
theories/Props_Mapping.v
theories/Alias.v
theories/SpecAlias.v
theories/Props_Alias.v
theories/Work.v
theories/SpecWork.v
theories/ProofWork.v
theories/Props_Work.v
theories/SpecSize.v
theories/Props_Size.v
theories/Shown.v
theories/SpecShown.v
theories/Props_Shown.v
theories/SpecRaise.v
theories/Props_Raise.v
theories/SpecUnread.v
theories/Props_Unread.v
theories/SpecBase64.v
theories/Props_Base64.v
theories/SpecAccept.v
theories/Props_Accept.v
