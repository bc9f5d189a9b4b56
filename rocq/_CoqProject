-Q theories Verif
theories/Py.v
theories/PyFacts.v
theories/Regex.v
theories/Float64.v
theories/Float64Facts.v
theories/W3C.v
theories/RegexFacts.v
theories/W3CSpec.v
theories/W3CCal.v
theories/W3CFacts.v
theories/W3CParse.v
theories/W3CRound.v
theories/W3CLaws.v
theories/Prop_W3C.v
theories/Resource.v
theories/ResourceSpec.v
theories/ResourceFacts.v
theories/Prop_Resource.v
theories/Container.v
theories/ContainerSpec.v
theories/ContainerFacts.v
theories/ChangeAdd.v
theories/Prop_Container.v
theories/Capability.v
theories/CapabilitySpec.v
theories/CapabilityFacts.v
theories/Prop_Capability.v
theories/Url.v
theories/UrlSpec.v
theories/OsPath.v
theories/UrlAuthority.v
theories/UrlFacts.v
theories/Prop_Url.v
theories/Mapper.v
theories/MapperSpec.v
theories/MapperFacts.v
theories/MapperFacts2.v
theories/Prop_Mapper.v
theories/Xml.v
theories/XmlFacts.v
theories/Sitemap.v
theories/SitemapSpec.v
theories/SitemapFacts.v
theories/SitemapText.v
theories/SitemapLists.v
theories/SitemapAccept.v
theories/SitemapExamples.v
theories/SitemapProps.v
theories/Prop_Sitemap.v
theories/Opener.v
theories/OpenerFacts.v
theories/Prop_Opener.v
theories/ListIndex.v
theories/FileTime.v
theories/ListIndexSpec.v
theories/ListIndexFacts.v
theories/ListIndexWrite.v
theories/ListIndexRound.v
theories/ListIndexProps.v
theories/ListIndexExamples.v
theories/Prop_ListIndex.v
theories/Hashes.v
theories/HashesFacts.v
theories/Prop_Hashes.v
theories/PathSpec.v
theories/OsPathFacts.v
theories/Dump.v
theories/DumpSpec.v
theories/DumpFacts.v
theories/DumpWrite.v
theories/DumpProps.v
theories/DumpExamples.v
theories/Prop_Dump.v
theories/ClientState.v
theories/ClientStateSpec.v
theories/ClientStateFacts.v
theories/StateCut.v
theories/Prop_ClientState.v
theories/Disk.v
theories/DiskSpec.v
theories/DiskFacts.v
theories/Builder.v
theories/BuilderSpec.v
theories/BuilderFacts.v
theories/Prop_Builder.v
theories/DiskChange.v
theories/Client.v
theories/ClientSpec.v
theories/ClientLists.v
theories/ClientFacts.v
theories/ClientRuns.v
theories/ClientInc.v
theories/ClientCompare.v
theories/ClientPlaces.v
theories/ClientProps.v
theories/ClientDownload.v
theories/ClientChanges.v
theories/ClientExamples.v
theories/ClientThms.v
theories/Prop_Client.v
theories/ClientSync.v
theories/ClientReport.v
theories/ClientStatus.v
theories/ClientSyncEx.v
theories/Prop_ClientSync.v
theories/DiscoverySpec.v
theories/DiscoveryFacts.v
theories/DiscoveryEx.v
theories/Prop_Discovery.v
theories/ClientDirs.v
theories/ConvergeSpec.v
theories/ClientConverge.v
theories/ConvergeEx.v
theories/Prop_Converge.v
theories/ClientUtils.v
theories/ClientUtilsSpec.v
theories/ClientUtilsFacts.v
theories/Prop_ClientUtils.v
theories/Explorer.v
theories/ExplorerSpec.v
theories/ExplorerFacts.v
theories/ExplorerEx.v
theories/ExplorerNotes.v
theories/Prop_Explorer.v
theories/Build.v
theories/TimeLoss.v
theories/StoredSpec.v
theories/StoredFacts.v
theories/PublishSpec.v
theories/PublishFacts.v
theories/PublishChanges.v
theories/PublishApply.v
theories/PublishEx.v
theories/BuildSpec.v
theories/BuildDocs.v
theories/BuildFacts.v
theories/BuildOut.v
theories/XmlEnd.v
theories/BuildScript.v
theories/BuildChanges.v
theories/BuildParse.v
theories/BuildEx.v
theories/BuildRuns.v
theories/StoredEx.v
theories/Prop_Stored.v
theories/Prop_Publish.v
theories/BuildDone.v
theories/Prop_Build.v
theories/SucceedSpec.v
theories/ClientSucceed.v
theories/ClientBlocked.v
theories/SucceedEx.v
theories/Prop_Succeed.v
theories/MirrorSpec.v
theories/Mirror.v
theories/MirrorEx.v
theories/Prop_Mirror.v
theories/ClientTries.v
theories/Sync.v
theories/SyncSpec.v
theories/SyncFacts.v
theories/SyncEx.v
theories/Prop_Sync.v
theories/FollowSpec.v
theories/Follow.v
theories/FollowEx.v
theories/Prop_Follow.v
theories/Kill.v
theories/KillSpec.v
theories/KillFacts.v
theories/KillBase.v
theories/KillRepeat.v
theories/KillEx.v
theories/Prop_Kill.v
theories/Prop_StateCut.v
theories/StatusLine.v
theories/Prop_StatusLine.v
theories/XmlSpell.v
theories/XmlSpellFacts.v
theories/SitemapAlike.v
theories/XmlWritten.v
theories/SpellProps.v
theories/XmlSpellEx.v
theories/Prop_Spell.v
theories/DocKinds.v
theories/DocKindFacts.v
theories/DocKindEx.v
theories/Prop_DocKinds.v
theories/GenList.v
theories/GenFacts.v
theories/Prop_Gen.v
theories/XmlCut.v
theories/CutSpec.v
theories/CutFacts.v
theories/CutEx.v
theories/Prop_Cut.v
theories/ExplorerMain.v
theories/ExplorerMainFacts.v
theories/Prop_ExplorerMain.v
theories/StateRace.v
theories/StateRaceSpec.v
theories/StateRaceFacts.v
theories/Prop_StateRace.v
theories/XmlLexed.v
theories/XmlOnly.v
theories/XmlOnlyEx.v
theories/Prop_Only.v
theories/MeanwhileSpec.v
theories/MeanwhileFacts.v
theories/MeanwhileEx.v
theories/Prop_Meanwhile.v
theories/MixSpec.v
theories/MixFacts.v
theories/MixEx.v
theories/Prop_Mix.v
theories/Warc.v
theories/WarcFacts.v
theories/Prop_Warc.v
theories/Args.v
theories/ArgsSpec.v
theories/ArgsFacts.v
theories/ArgsRead.v
theories/ArgsScripts.v
theories/ArgsMain.v
theories/ArgsOther.v
theories/ArgsLaws.v
theories/ArgsEx.v
theories/Prop_Args.v
theories/Shared.v
theories/SharedSpec.v
theories/SharedFacts.v
theories/Prop_Shared.v
theories/Listing.v
theories/ListingSpec.v
theories/ListingFacts.v
theories/Prop_Listing.v
theories/Repr.v
theories/ReprSpec.v
theories/ReprFacts.v
theories/Prop_Repr.v
theories/ArgsRest.v
theories/Prop_Rest.v
theories/TextSpec.v
theories/TextFacts.v
theories/Prop_Text.v
theories/ShownSpec.v
theories/ShownFacts.v
theories/Prop_Shown.v
theories/VerboseSpec.v
theories/VerboseFacts.v
theories/VerboseEnd.v
theories/Prop_Verbose.v
