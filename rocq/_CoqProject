-Q theories Verif
theories/Model/Py.v
theories/Model/Version.v
theories/Spec/VersionSpec.v
theories/Proof/PyFacts.v
theories/Proof/VersionFacts.v
theories/Proof/VersionSyntax.v
theories/Proof/VersionAppend.v
theories/Proof/VersionMain.v
theories/Model/Lists.v
theories/Spec/ListsSpec.v
theories/Proof/ListsFacts.v
theories/Proof/ListsTop.v
theories/Prop/VersionProps.v
theories/Model/Dependency.v
theories/Spec/DependencySpec.v
theories/Proof/DependencyFacts.v
theories/Prop/DependencyProps.v
theories/Model/ItemByRepo.v
theories/Spec/ItemByRepoSpec.v
theories/Proof/ItemByRepoFacts.v
theories/Proof/ItemByRepoMain.v
theories/Prop/ItemByRepoProps.v
theories/Model/Txn.v
theories/Spec/TxnSpec.v
theories/Proof/TxnFacts.v
theories/Prop/TxnProps.v
theories/Model/Search.v
theories/Model/Package.v
theories/Model/ComponentDB.v
theories/Model/Databases.v
theories/Spec/DatabaseSpec.v
theories/Proof/DatabaseFacts.v
theories/Proof/RevDepFacts.v
theories/Proof/ComponentFacts.v
theories/Prop/DatabaseProps.v
theories/Model/SearchOps.v
theories/Spec/SearchSpec.v
theories/Proof/SearchFacts.v
theories/Proof/SearchSystem.v
theories/Prop/SearchProps.v
theories/Model/InstallDB.v
theories/Model/System.v
theories/Spec/SystemSpec.v
theories/Proof/InstallDBFacts.v
theories/Proof/SystemFacts.v
theories/Prop/SystemProps.v
theories/Model/Path.v
theories/Spec/PathSpec.v
theories/Proof/PathFacts.v
theories/Prop/PathProps.v
theories/Model/Fs.v
theories/Spec/FsSpec.v
theories/Proof/FsFacts.v
theories/Model/Graph.v
theories/Spec/GraphSpec.v
theories/Proof/GraphFacts.v
theories/Prop/GraphProps.v
theories/Model/Plan.v
theories/Model/Emerge.v
theories/Model/Contents.v
theories/Model/Draw.v
theories/Model/Index.v
theories/Model/Pack.v
theories/Model/Ops.v
theories/Model/Check.v
theories/Model/Rebuild.v
theories/Model/Build.v
theories/Model/Trace.v
theories/Model/Fetch.v
theories/Model/Xml.v
theories/Model/Schema.v
theories/Model/XmlFile.v
theories/Spec/PlanSpec.v
theories/Spec/EmergeSpec.v
theories/Spec/ContentsSpec.v
theories/Spec/DrawSpec.v
theories/Spec/IndexSpec.v
theories/Spec/PackSpec.v
theories/Spec/PkgFilesSpec.v
theories/Proof/PlanFacts.v
theories/Proof/UpgradeFacts.v
theories/Proof/PlanTop.v
theories/Proof/EmergeFacts.v
theories/Proof/ContentsFacts.v
theories/Proof/ContentsTop.v
theories/Proof/WildFacts.v
theories/Proof/PackFacts.v
theories/Proof/DrawFacts.v
theories/Proof/PkgFiles.v
theories/Proof/ConflictFiles.v
theories/Proof/IndexFacts.v
theories/Proof/IndexTop.v
theories/Prop/PlanProps.v
theories/Prop/EmergeProps.v
theories/Prop/ContentsProps.v
theories/Prop/PackProps.v
theories/Prop/DrawProps.v
theories/Prop/PkgFilesProps.v
theories/Prop/IndexProps.v
theories/Prop/OpsProps.v
theories/Prop/ReinstallProps.v
theories/Spec/OpsSpec.v
theories/Spec/CheckSpec.v
theories/Spec/RebuildSpec.v
theories/Spec/BuildSpec.v
theories/Spec/FetchSpec.v
theories/Spec/XmlSpec.v
theories/Spec/SpecFileSpec.v
theories/Proof/OpsFacts.v
theories/Proof/OpsTop.v
theories/Proof/OpsSteps.v
theories/Proof/Reinstall.v
theories/Proof/FsChecks.v
theories/Proof/Shop.v
theories/Proof/Conflicts.v
theories/Proof/RemoveFiles.v
theories/Prop/FsProps.v
theories/Proof/Consent.v
theories/Proof/Configure.v
theories/Proof/KeepConfig.v
theories/Proof/CheckFacts.v
theories/Proof/Frame.v
theories/Proof/PackTop.v
theories/Proof/RebuildFacts.v
theories/Proof/RebuildTop.v
theories/Proof/RebuildDb.v
theories/Proof/RebuildLoss.v
theories/Proof/BuildFacts.v
theories/Proof/BuildNumber.v
theories/Proof/TraceFacts.v
theories/Proof/FetchFacts.v
theories/Proof/XmlText.v
theories/Proof/XmlTree.v
theories/Proof/XmlRound.v
theories/Proof/XmlMain.v
theories/Proof/XmlRead.v
theories/Proof/XmlCheck.v
theories/Proof/SpecFileFacts.v
theories/Proof/XmlFileFacts.v
theories/Prop/KeepConfigProps.v
theories/Prop/CheckProps.v
theories/Prop/RebuildProps.v
theories/Prop/BuildProps.v
theories/Prop/FetchProps.v
theories/Prop/XmlProps.v
theories/Prop/SpecFileProps.v
theories/Model/Metadata.v
theories/Spec/MetadataSpec.v
theories/Proof/MetadataFacts.v
theories/Proof/MetadataTop.v
theories/Prop/MetadataProps.v
theories/Model/Size.v
theories/Spec/SizeSpec.v
theories/Proof/SizeFacts.v
theories/Prop/SizeProps.v
theories/Model/Config.v
theories/Spec/ConfigSpec.v
theories/Proof/ConfigFacts.v
theories/Prop/ConfigProps.v
theories/Model/Uri.v
theories/Spec/UriSpec.v
theories/Proof/UriFacts.v
theories/Prop/UriProps.v
theories/Model/Source.v
theories/Proof/SourceFacts.v
theories/Prop/SourceProps.v
theories/Model/Actions.v
theories/Spec/ActionsSpec.v
theories/Proof/ActionsPaths.v
theories/Proof/ActionsFacts.v
theories/Proof/ActionsTop.v
theories/Proof/ActionsExact.v
theories/Proof/ActionsMove.v
theories/Prop/ActionsProps.v
theories/Model/Security.v
theories/Spec/SecuritySpec.v
theories/Model/CommandLine.v
theories/Spec/CommandLineSpec.v
theories/Proof/CommandLineFacts.v
theories/Proof/CommandLineTop.v
theories/Proof/SecurityTop.v
theories/Proof/CommandLineRun.v
theories/Prop/CommandLineProps.v
theories/Model/Archive.v
theories/Spec/ArchiveSpec.v
theories/Proof/ArchiveFacts.v
theories/Proof/ArchiveTree.v
theories/Proof/ArchiveTrip.v
theories/Proof/ArchiveZip.v
theories/Proof/ArchiveZipTop.v
theories/Proof/ArchiveTop.v
theories/Proof/ArchiveTar.v
theories/Proof/ArchiveSafe.v
theories/Proof/ArchiveStay.v
theories/Model/Deliver.v
theories/Spec/DeliverSpec.v
theories/Proof/DeliverFacts.v
theories/Proof/DeliverTar.v
theories/Proof/DeliverTop.v
theories/Proof/DeliverZip.v
theories/Prop/ArchiveProps.v
theories/Prop/DeliverProps.v
theories/Prop/ConflictProps.v
theories/Prop/ConsentProps.v
theories/Prop/ConfigureProps.v
theories/Prop/ListsProps.v
theories/Prop/SecurityProps.v
theories/Model/Abandoned.v
theories/Model/BuildStart.v
theories/Spec/AbandonedSpec.v
theories/Spec/BuildStartSpec.v
theories/Proof/AbandonedFacts.v
theories/Proof/BuildStartFacts.v
theories/Prop/AbandonedProps.v
theories/Prop/BuildStartProps.v
theories/Model/Environ.v
theories/Spec/EnvironSpec.v
theories/Proof/EnvironFacts.v
theories/Prop/EnvironProps.v
theories/Model/Tools.v
theories/Spec/ToolsSpec.v
theories/Proof/ToolsFacts.v
theories/Prop/ToolsProps.v
theories/Model/Obtain.v
theories/Spec/ObtainSpec.v
theories/Proof/ObtainFacts.v
theories/Prop/ObtainProps.v
theories/Model/Publish.v
theories/Spec/PublishSpec.v
theories/Proof/PublishFacts.v
theories/Prop/PublishProps.v
theories/Model/UpdateRepo.v
theories/Spec/UpdateRepoSpec.v
theories/Proof/UpdateRepoFacts.v
theories/Prop/UpdateRepoProps.v
theories/Model/ArTimes.v
theories/Spec/ArTimesSpec.v
theories/Proof/ArTimesFacts.v
theories/Prop/ArTimesProps.v
theories/Model/RepoCommands.v
theories/Spec/RepoCommandsSpec.v
theories/Proof/RepoCommandsFacts.v
theories/Prop/RepoCommandsProps.v
theories/Model/Locks.v
theories/Spec/LocksSpec.v
theories/Proof/LocksFacts.v
theories/Prop/LocksProps.v
theories/Model/Strip.v
theories/Spec/StripSpec.v
theories/Proof/StripFacts.v
theories/Proof/StripWhole.v
theories/Prop/StripProps.v
theories/Model/Additional.v
theories/Spec/AdditionalSpec.v
theories/Proof/AdditionalFacts.v
theories/Prop/AdditionalProps.v
theories/Model/Patches.v
theories/Spec/PatchesSpec.v
theories/Proof/PatchesFacts.v
theories/Prop/PatchesProps.v
theories/Model/Comar.v
theories/Spec/ComarSpec.v
theories/Proof/ComarFacts.v
theories/Prop/ComarProps.v
theories/Model/RemoteSpec.v
theories/Spec/RemoteSpecSpec.v
theories/Proof/RemoteSpecFacts.v
theories/Prop/RemoteSpecProps.v
theories/Model/Proxy.v
theories/Spec/ProxySpec.v
theories/Proof/ProxyFacts.v
theories/Prop/ProxyProps.v
theories/Model/EmergeRun.v
theories/Spec/EmergeRunSpec.v
theories/Proof/EmergeRunFacts.v
theories/Prop/EmergeRunProps.v
theories/Model/Pipes.v
theories/Spec/PipesSpec.v
theories/Proof/PipesFacts.v
theories/Prop/PipesProps.v
theories/Model/SearchFile.v
theories/Spec/SearchFileSpec.v
theories/Proof/SearchFileFacts.v
theories/Prop/SearchFileProps.v
theories/Model/Documents.v
theories/Spec/DocumentsSpec.v
theories/Proof/DocumentsFacts.v
theories/Prop/DocumentsProps.v
theories/Model/Manual.v
theories/Spec/ManualSpec.v
theories/Proof/ManualFacts.v
theories/Proof/ManualNew.v
theories/Prop/ManualProps.v
theories/Model/Sed.v
theories/Spec/SedSpec.v
theories/Proof/SedFacts.v
theories/Prop/SedProps.v
theories/Model/Human.v
theories/Spec/HumanSpec.v
theories/Proof/HumanFacts.v
theories/Prop/HumanProps.v
theories/Model/Cache.v
theories/Spec/CacheSpec.v
theories/Proof/CacheFacts.v
theories/Prop/CacheProps.v
theories/Model/CleanLocks.v
theories/Spec/CleanLocksSpec.v
theories/Proof/CleanLocksFacts.v
theories/Prop/CleanLocksProps.v
