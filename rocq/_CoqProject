-Q theories Verif
theories/Base.v
theories/BaseFacts.v
theories/Rar.v
theories/RarSpec.v
theories/ReadSpec.v
theories/SrrSpec.v
theories/Samples.v
theories/RarFacts.v
theories/NameFacts.v
theories/ReadFacts.v
theories/ReadAllFacts.v
theories/CodeSpec.v
theories/CodeFacts.v
theories/Path.v
theories/Crc.v
theories/PathSpec.v
theories/PathFacts.v
theories/TileSpec.v
theories/TermFacts.v
theories/Srr.v
theories/SrrFacts.v
theories/EditFacts.v
theories/WriteFacts.v
theories/FsSpec.v
theories/FsFacts.v
theories/SafeFacts.v
theories/Disk.v
theories/DiskSpec.v
theories/DiskFacts.v
theories/Store.v
theories/StoreFacts.v
theories/FsThms.v
theories/RecovSpec.v
theories/RecovFacts.v
theories/SetSpec.v
theories/RebuildFacts.v
theories/CreateFacts.v
theories/RebuildThms.v
theories/CrcSpec.v
theories/Combine.v
theories/Oso.v
theories/CrcFacts.v
theories/OsoSpec.v
theories/OsoFacts.v
theories/RecovThms.v
theories/VolName.v
theories/VolSpec.v
theories/VolFacts.v
theories/Stream.v
theories/StreamSpec.v
theories/StreamFacts.v
theories/StreamThms.v
theories/Sfv.v
theories/SfvSpec.v
theories/SfvFacts.v
theories/SfvSortFacts.v
theories/Props_Sfv.v
theories/Flags.v
theories/FlagsSpec.v
theories/FlagsFacts.v
theories/Props_Flags.v
theories/Ebml.v
theories/EbmlSpec.v
theories/EbmlFacts.v
theories/SrsRec.v
theories/SrsRecSpec.v
theories/SrsRecFacts.v
theories/Props_Srs.v
theories/Info.v
theories/InfoSpec.v
theories/InfoFacts.v
theories/InfoThms.v
theories/Props_Info.v
theories/MatchSpec.v
theories/MatchFacts.v
theories/Props_Match.v
theories/PartSpec.v
theories/PartFacts.v
theories/PartThms.v
theories/Props_Part.v
theories/Yenc.v
theories/YencSpec.v
theories/YencFacts.v
theories/Props_Yenc.v
theories/Msg.v
theories/MsgSpec.v
theories/MsgFacts.v
theories/Props_Msg.v
theories/Glob.v
theories/GlobSpec.v
theories/GlobFacts.v
theories/Props_Glob.v
theories/Rarexe.v
theories/RarexeSpec.v
theories/RarexeFacts.v
theories/Props_Rarexe.v
theories/Srs.v
theories/StrmSrs.v
theories/StrmSpec.v
theories/StrmFacts.v
theories/Props_Strm.v
theories/ListSpec.v
theories/ListFacts.v
theories/Props_List.v
theories/Mp3.v
theories/Mp3Spec.v
theories/Mp3Facts.v
theories/Props_Mp3.v
theories/Flac.v
theories/FlacSpec.v
theories/FlacFacts.v
theories/Props_Flac.v
theories/Mp4.v
theories/Mp4Spec.v
theories/Mp4Tables.v
theories/Mp4Read.v
theories/Mp4Facts.v
theories/Mp4Srs.v
theories/Mp4Main.v
theories/Mp4Ex.v
theories/Props_Mp4.v
theories/Avi.v
theories/AviSpec.v
theories/AviRead.v
theories/AviSrs.v
theories/AviOut.v
theories/AviExtract.v
theories/AviFind.v
theories/AviMain.v
theories/AviMore.v
theories/AviEnd.v
theories/AviEx.v
theories/Props_Avi.v
theories/Mkv.v
theories/MkvSpec.v
theories/MkvRead.v
theories/MkvSrs.v
theories/MkvLoad.v
theories/MkvOut.v
theories/MkvFind.v
theories/MkvSearch.v
theories/MkvExtract.v
theories/MkvMain.v
theories/MkvMore.v
theories/MkvEnd.v
theories/MkvEx.v
theories/Props_Mkv.v
theories/Wmv.v
theories/WmvSpec.v
theories/WmvPacket.v
theories/WmvRead.v
theories/WmvSrs.v
theories/WmvLoad.v
theories/WmvOut.v
theories/WmvFind.v
theories/WmvExtract.v
theories/WmvMain.v
theories/WmvMore.v
theories/WmvEnd.v
theories/WmvEx.v
theories/Props_Wmv.v
theories/Verify.v
theories/VerifySpec.v
theories/VerifyFacts.v
theories/VerifyEx.v
theories/Props_Verify.v
theories/Capital.v
theories/CapitalSpec.v
theories/CapitalFacts.v
theories/Props_Capital.v
theories/Fake.v
theories/FakeSpec.v
theories/FakeSim.v
theories/FakeFacts.v
theories/FakeEx.v
theories/Props_Fake.v
theories/MkvRetry.v
theories/MkvRetrySpec.v
theories/MkvRetryFacts.v
theories/MkvAgain.v
theories/MkvTried.v
theories/MkvRetryEx.v
theories/Props_MkvRetry.v
theories/Prog.v
theories/ProgSpec.v
theories/ProgFacts.v
theories/AviProg.v
theories/AviProgFacts.v
theories/StrmProg.v
theories/StrmProgFacts.v
theories/MovieType.v
theories/MovieSpec.v
theories/MovieFacts.v
theories/MovieEx.v
theories/Props_Movie.v
theories/MkvFits.v
theories/MkvProg.v
theories/MkvProgFacts.v
theories/WmvProg.v
theories/WmvProgFacts.v
theories/Mp4Prog.v
theories/Mp4ProgFacts.v
theories/FlacProg.v
theories/FlacProgFacts.v
theories/Mp3Prog.v
theories/Mp3ProgFacts.v
theories/ODict.v
theories/ODictSpec.v
theories/ODictFacts.v
theories/Props_ODict.v
theories/Nntp.v
theories/NntpSpec.v
theories/NntpFacts.v
theories/NntpEx.v
theories/Props_Nntp.v
theories/Retry.v
theories/RetrySpec.v
theories/RetryFacts.v
theories/RetryEx.v
theories/Props_Retry.v
theories/Cmd.v
theories/CmdSpec.v
theories/CmdFacts.v
theories/Props_Cmd.v
theories/Dirs.v
theories/DirsSpec.v
theories/DirsFacts.v
theories/DirsOrder.v
theories/DirsEx.v
theories/Props_Dirs.v
theories/Image.v
theories/ImageSpec.v
theories/ImageFacts.v
theories/Props_Image.v
theories/Select.v
theories/SelectSpec.v
theories/SelectFacts.v
theories/SelectEx.v
theories/Props_Select.v
theories/Wanted.v
theories/WantedSpec.v
theories/WantedFacts.v
theories/Props_Wanted.v
theories/Retag.v
theories/RetagSpec.v
theories/RetagFacts.v
theories/RetagEx.v
theories/Props_Retag.v
theories/Media.v
theories/MediaSpec.v
theories/MediaFacts.v
theories/Props_Media.v
theories/Stored.v
theories/StoredSpec.v
theories/StoredFacts.v
theories/Props_Stored.v
theories/Sorting.v
theories/SortingSpec.v
theories/SortingFacts.v
theories/SortingEx.v
theories/Props_Sorting.v
theories/SameSfv.v
theories/SameSfvSpec.v
theories/SameSfvFacts.v
theories/Props_SameSfv.v
theories/NzbFix.v
theories/NzbFixSpec.v
theories/NzbFixFacts.v
theories/Props_NzbFix.v
theories/Subs.v
theories/SubsSpec.v
theories/SubsFacts.v
theories/SubsEx.v
theories/Props_Subs.v
theories/NzbSplit.v
theories/NzbSplitSpec.v
theories/NzbSplitFacts.v
theories/NzbSplitEx.v
theories/Props_NzbSplit.v
theories/WorkDir.v
theories/WorkDirSpec.v
theories/WorkDirFacts.v
theories/WorkDirEx.v
theories/Props_WorkDir.v
theories/UsePrep.v
theories/UsePrepSpec.v
theories/UsePrepFacts.v
theories/UsePrepEx.v
theories/Props_UsePrep.v
theories/Collect.v
theories/CollectSpec.v
theories/CollectFacts.v
theories/CollectEx.v
theories/Props_Collect.v
theories/UsenetSrr.v
theories/UsenetSrrSpec.v
theories/UsenetSrrFacts.v
theories/UsenetSrrEx.v
theories/Props_UsenetSrr.v
theories/Preprar.v
theories/PreprarSpec.v
theories/PreprarFacts.v
theories/PreprarEx.v
theories/Props_Preprar.v
theories/NzbMove.v
theories/NzbMoveSpec.v
theories/NzbMoveFacts.v
theories/NzbMoveEx.v
theories/Props_NzbMove.v
theories/Bitflip.v
theories/BitflipSpec.v
theories/BitflipCrcFacts.v
theories/BitflipFacts.v
theories/BitflipEx.v
theories/Props_Bitflip.v
theories/Compr.v
theories/ComprSpec.v
theories/ComprFacts.v
theories/ComprEx.v
theories/Props_Compr.v
theories/Locate.v
theories/LocateSpec.v
theories/LocateFacts.v
theories/LocateEx.v
theories/Props_Locate.v
theories/Search.v
theories/SearchSpec.v
theories/SearchFacts.v
theories/SearchEx.v
theories/Props_Search.v
theories/Fix.v
theories/FixSpec.v
theories/FixFacts.v
theories/FixEx.v
theories/Props_Fix.v
theories/Vob.v
theories/VobSpec.v
theories/VobFacts.v
theories/VobEx.v
theories/Props_Vob.v
theories/Run.v
theories/RunSpec.v
theories/RunFacts.v
theories/RunEx.v
theories/Props_Run.v
theories/Listing.v
theories/ListingSpec.v
theories/ListingFacts.v
theories/ListingEx.v
theories/Props_Listing.v
theories/Entry.v
theories/EntrySpec.v
theories/EntryFacts.v
theories/EntryEx.v
theories/Props_Entry.v
theories/MkvFix.v
theories/MkvFixSpec.v
theories/MkvFixFacts.v
theories/MkvFixEx.v
theories/Props_MkvFix.v
theories/Fpcalc.v
theories/FpcalcSpec.v
theories/FpcalcFacts.v
theories/FpcalcEx.v
theories/Props_Fpcalc.v
theories/SampleNzb.v
theories/SampleNzbSpec.v
theories/SampleNzbFacts.v
theories/SampleNzbEx.v
theories/Props_SampleNzb.v
theories/NzbMerge.v
theories/NzbMergeSpec.v
theories/NzbMergeFacts.v
theories/NzbMergeEx.v
theories/Props_NzbMerge.v
theories/NzbRename.v
theories/NzbRenameSpec.v
theories/NzbRenameFacts.v
theories/NzbRenameEx.v
theories/Props_NzbRename.v
theories/MoveScene.v
theories/MoveSceneSpec.v
theories/MoveSceneFacts.v
theories/MoveSceneEx.v
theories/Props_MoveScene.v
theories/CountGroups.v
theories/CountGroupsSpec.v
theories/CountGroupsFacts.v
theories/CountGroupsEx.v
theories/Props_CountGroups.v
theories/NzbAge.v
theories/NzbAgeSpec.v
theories/NzbAgeFacts.v
theories/NzbAgeEx.v
theories/Props_NzbAge.v
theories/InfoListSpec.v
theories/InfoListFacts.v
theories/InfoListEx.v
theories/Props_InfoList.v
theories/ListCompare.v
theories/ListCompareSpec.v
theories/ListCompareFacts.v
theories/ListCompareEx.v
theories/Props_ListCompare.v
theories/Props_Vol.v
theories/Props_Sum.v
theories/Props_Fs.v
theories/Props_Rebuild.v
theories/Props_Reader.v
theories/Props_Edit.v
