-Q theories Verif
theories/Model/Access.v
theories/Model/Ads.v
theories/Model/Anchor.v
theories/Model/Bootstrap.v
theories/Model/BootstrapOld.v
theories/Model/Cache.v
theories/Model/CacheChildren.v
theories/Model/CacheRchildren.v
theories/Model/CacheRoot.v
theories/Model/Command.v
theories/Model/Copy.v
theories/Model/CopyMeta.v
theories/Model/Cwd.v
theories/Model/Data.v
theories/Model/DataDir.v
theories/Model/EditRace.v
theories/Model/Etag.v
theories/Model/FetchRace.v
theories/Model/Fs.v
theories/Model/Git.v
theories/Model/GitQuery.v
theories/Model/LinkRace.v
theories/Model/Listing.v
theories/Model/LocalMeta.v
theories/Model/LocalSize.v
theories/Model/Meta.v
theories/Model/MetaEncode.v
theories/Model/MetaMapping.v
theories/Model/MetaSymlink.v
theories/Model/MetaUpdate.v
theories/Model/MetaXattr.v
theories/Model/Mime.v
theories/Model/MkdirCache.v
theories/Model/MkdirRemote.v
theories/Model/Package.v
theories/Model/PackageFolder.v
theories/Model/PackageMemo.v
theories/Model/PackageTags.v
theories/Model/PathOps.v
theories/Model/Pep440.v
theories/Model/Pretty.v
theories/Model/PurePath.v
theories/Model/Py.v
theories/Model/PyAds.v
theories/Model/Readlink.v
theories/Model/RefName.v
theories/Model/RelPath.v
theories/Model/RemoteInit.v
theories/Model/RemoteTree.v
theories/Model/RemoteUri.v
theories/Model/Repo.v
theories/Model/Rmdirtree.v
theories/Model/RmtreeOn.v
theories/Model/RmtreeRace.v
theories/Model/Setup.v
theories/Model/Shell.v
theories/Model/Sparse.v
theories/Model/SplitRoot.v
theories/Model/SshList.v
theories/Model/SshName.v
theories/Model/Stat.v
theories/Model/Swap.v
theories/Model/SwapRace.v
theories/Model/Sysid.v
theories/Model/SysidRace.v
theories/Model/Tee.v
theories/Model/Triangle.v
theories/Model/UpdateCache.v
theories/Model/Validate.v
theories/Model/Version.v
theories/Model/Zip.v
theories/Model/ZipMemo.v
theories/Model/ZipRead.v
theories/Proofs/AccessProofs.v
theories/Proofs/AdsPosix.v
theories/Proofs/AdsProofs.v
theories/Proofs/AnchorProofs.v
theories/Proofs/AttrCopy.v
theories/Proofs/AttrLemmas.v
theories/Proofs/AttrRead.v
theories/Proofs/BootstrapOldProofs.v
theories/Proofs/BootstrapProofs.v
theories/Proofs/CacheFinal.v
theories/Proofs/CacheLemmas.v
theories/Proofs/CacheMove.v
theories/Proofs/CacheOps.v
theories/Proofs/CacheProofs.v
theories/Proofs/CacheRootProofs.v
theories/Proofs/ChildrenProofs.v
theories/Proofs/CommandProofs.v
theories/Proofs/CopyMetaProofs.v
theories/Proofs/CopyProofs.v
theories/Proofs/CwdProofs.v
theories/Proofs/DataDirProofs.v
theories/Proofs/DataProofs.v
theories/Proofs/DeepProofs.v
theories/Proofs/EditRaceAlone.v
theories/Proofs/EditRaceCache.v
theories/Proofs/EditRaceCompared.v
theories/Proofs/EditRaceProofs.v
theories/Proofs/EtagProofs.v
theories/Proofs/EtagText.v
theories/Proofs/FetchLive.v
theories/Proofs/FetchProofs.v
theories/Proofs/FetchRaceCache.v
theories/Proofs/FetchRaceProofs.v
theories/Proofs/FileSizeProofs.v
theories/Proofs/FsLemmas.v
theories/Proofs/GitProofs.v
theories/Proofs/GitQueryProofs.v
theories/Proofs/GoodFs.v
theories/Proofs/Hoare.v
theories/Proofs/LinkProofs.v
theories/Proofs/LinkRaceCache.v
theories/Proofs/LinkRaceMoved.v
theories/Proofs/LinkRaceProofs.v
theories/Proofs/ListProofs.v
theories/Proofs/LocalMetaProofs.v
theories/Proofs/LocalSizeProofs.v
theories/Proofs/LoopProofs.v
theories/Proofs/MergeProofs.v
theories/Proofs/MergeTwice.v
theories/Proofs/MetaEqProofs.v
theories/Proofs/MetaEqRead.v
theories/Proofs/MetaLinkMore.v
theories/Proofs/MetaMapProofs.v
theories/Proofs/MetaSymlinkProofs.v
theories/Proofs/MetaSymlinkRenamed.v
theories/Proofs/MetaXattrProofs.v
theories/Proofs/MimeProofs.v
theories/Proofs/MkdirCacheLive.v
theories/Proofs/MkdirCacheProofs.v
theories/Proofs/MkdirRemoteLive.v
theories/Proofs/MkdirRemoteProofs.v
theories/Proofs/MoveLemmas.v
theories/Proofs/OnlyProofs.v
theories/Proofs/PackageFolderProofs.v
theories/Proofs/PackageMemoProofs.v
theories/Proofs/PackageProofs.v
theories/Proofs/PackageTagsProofs.v
theories/Proofs/PathLemmas.v
theories/Proofs/Pep440Proofs.v
theories/Proofs/PrettyProofs.v
theories/Proofs/PyAdsProofs.v
theories/Proofs/PyLemmas.v
theories/Proofs/RchildrenProofs.v
theories/Proofs/ReadMetaProofs.v
theories/Proofs/ReadlinkProofs.v
theories/Proofs/RefNameProofs.v
theories/Proofs/RelPathProofs.v
theories/Proofs/RemoteInitProofs.v
theories/Proofs/RemoteProofs.v
theories/Proofs/RemoteUriProofs.v
theories/Proofs/RepoCacheProofs.v
theories/Proofs/RepoProofs.v
theories/Proofs/RmdirtreeProofs.v
theories/Proofs/RmtreeOnProofs.v
theories/Proofs/RmtreeProofs.v
theories/Proofs/RmtreeRaceProofs.v
theories/Proofs/RunLemmas.v
theories/Proofs/SetupProofs.v
theories/Proofs/ShellProofs.v
theories/Proofs/SlotLemmas.v
theories/Proofs/SparseProofs.v
theories/Proofs/SplitRootProofs.v
theories/Proofs/SshListProofs.v
theories/Proofs/SshNameProofs.v
theories/Proofs/StatProofs.v
theories/Proofs/SwapLive.v
theories/Proofs/SwapProofs.v
theories/Proofs/SwapRaceAlone.v
theories/Proofs/SwapRaceProofs.v
theories/Proofs/SysidAlone.v
theories/Proofs/SysidProofs.v
theories/Proofs/SysidRaceProofs.v
theories/Proofs/TeeProofs.v
theories/Proofs/TrashProofs.v
theories/Proofs/TriangleExact.v
theories/Proofs/TriangleProofs.v
theories/Proofs/UpdateCacheProofs.v
theories/Proofs/UpdateLive.v
theories/Proofs/UpdateProofs.v
theories/Proofs/ValidateProofs.v
theories/Proofs/VersionProofs.v
theories/Proofs/ZipMemoProofs.v
theories/Proofs/ZipProofs.v
theories/Proofs/ZipReadProofs.v
theories/Props/AccessProps.v
theories/Props/AdsProps.v
theories/Props/AnchorProps.v
theories/Props/BootstrapOldProps.v
theories/Props/BootstrapProps.v
theories/Props/CacheProps.v
theories/Props/CacheRchildrenProps.v
theories/Props/CacheRootProps.v
theories/Props/ChildrenProps.v
theories/Props/CommandProps.v
theories/Props/CopyMetaProps.v
theories/Props/CopyProps.v
theories/Props/CwdProps.v
theories/Props/DataDirProps.v
theories/Props/DataProps.v
theories/Props/DeepProps.v
theories/Props/EditRaceProps.v
theories/Props/EtagProps.v
theories/Props/FetchLiveProps.v
theories/Props/FetchRaceProps.v
theories/Props/FileSizeProps.v
theories/Props/GitProps.v
theories/Props/GitQueryProps.v
theories/Props/LimitProps.v
theories/Props/LinkRaceProps.v
theories/Props/ListProps.v
theories/Props/LocalMetaProps.v
theories/Props/LocalSizeProps.v
theories/Props/LoopProps.v
theories/Props/MergeProps.v
theories/Props/MetaMapProps.v
theories/Props/MetaSymlinkProps.v
theories/Props/MetaXattrProps.v
theories/Props/MimeProps.v
theories/Props/MkdirCacheProps.v
theories/Props/MkdirRemoteProps.v
theories/Props/PackageFolderProps.v
theories/Props/PackageMemoProps.v
theories/Props/PackageProps.v
theories/Props/PackageTagsProps.v
theories/Props/Pep440Props.v
theories/Props/PrettyProps.v
theories/Props/PyAdsProps.v
theories/Props/ReadMetaProps.v
theories/Props/ReadlinkProps.v
theories/Props/RefNameProps.v
theories/Props/RelPathProps.v
theories/Props/RemoteInitProps.v
theories/Props/RemoteProps.v
theories/Props/RemoteUriProps.v
theories/Props/RepoCacheProps.v
theories/Props/RepoProps.v
theories/Props/RmdirtreeProps.v
theories/Props/RmtreeOnProps.v
theories/Props/RmtreeProps.v
theories/Props/RmtreeRaceProps.v
theories/Props/SetupProps.v
theories/Props/ShellProps.v
theories/Props/SparseProps.v
theories/Props/SplitRootProps.v
theories/Props/SshListProps.v
theories/Props/SshNameProps.v
theories/Props/StatProps.v
theories/Props/SwapProps.v
theories/Props/SwapRaceProps.v
theories/Props/SysidProps.v
theories/Props/SysidRaceProps.v
theories/Props/TeeProps.v
theories/Props/TriangleProps.v
theories/Props/UpdateCacheProps.v
theories/Props/UpdateProps.v
theories/Props/ValidateProps.v
theories/Props/VersionProps.v
theories/Props/ZipMemoProps.v
theories/Props/ZipProps.v
theories/Props/ZipReadProps.v
theories/Spec/AccessSpec.v
theories/Spec/AdsSpec.v
theories/Spec/AnchorSpec.v
theories/Spec/BootstrapOldSpec.v
theories/Spec/BootstrapSpec.v
theories/Spec/CacheChildrenSpec.v
theories/Spec/CacheRchildrenSpec.v
theories/Spec/CacheRootSpec.v
theories/Spec/CacheSpec.v
theories/Spec/CommandSpec.v
theories/Spec/CopyMetaSpec.v
theories/Spec/CopySpec.v
theories/Spec/CwdSpec.v
theories/Spec/DataDirSpec.v
theories/Spec/DataSpec.v
theories/Spec/DeepSpec.v
theories/Spec/EditRaceSpec.v
theories/Spec/EtagSpec.v
theories/Spec/FetchRaceSpec.v
theories/Spec/FetchSpec.v
theories/Spec/FileSizeSpec.v
theories/Spec/FsSpec.v
theories/Spec/GitQuerySpec.v
theories/Spec/GitSpec.v
theories/Spec/LinkRaceSpec.v
theories/Spec/ListSpec.v
theories/Spec/LocalMetaSpec.v
theories/Spec/LocalSizeSpec.v
theories/Spec/LoopSpec.v
theories/Spec/MergeSpec.v
theories/Spec/MetaEqSpec.v
theories/Spec/MetaMapSpec.v
theories/Spec/MetaSpec.v
theories/Spec/MimeSpec.v
theories/Spec/MkdirCacheSpec.v
theories/Spec/MkdirRemoteSpec.v
theories/Spec/PackageFolderSpec.v
theories/Spec/PackageMemoSpec.v
theories/Spec/PackageSpec.v
theories/Spec/PackageTagsSpec.v
theories/Spec/PrettySpec.v
theories/Spec/PyAdsSpec.v
theories/Spec/ReadMetaSpec.v
theories/Spec/ReadlinkSpec.v
theories/Spec/RefNameSpec.v
theories/Spec/RelPathSpec.v
theories/Spec/RemoteInitSpec.v
theories/Spec/RemoteSpec.v
theories/Spec/RemoteUriSpec.v
theories/Spec/RepoCacheSpec.v
theories/Spec/RepoSpec.v
theories/Spec/RmdirtreeSpec.v
theories/Spec/RmtreeOnSpec.v
theories/Spec/RmtreeRaceSpec.v
theories/Spec/RmtreeSpec.v
theories/Spec/SetupSpec.v
theories/Spec/ShellSpec.v
theories/Spec/SparseSpec.v
theories/Spec/SplitRootSpec.v
theories/Spec/SshListSpec.v
theories/Spec/SshNameSpec.v
theories/Spec/StatSpec.v
theories/Spec/SwapRaceSpec.v
theories/Spec/SwapSpec.v
theories/Spec/SysidAloneSpec.v
theories/Spec/SysidRaceSpec.v
theories/Spec/SysidSpec.v
theories/Spec/TeeSpec.v
theories/Spec/TriangleSpec.v
theories/Spec/ValidateSpec.v
theories/Spec/VersionSpec.v
theories/Spec/XattrSpec.v
theories/Spec/ZipMemoSpec.v
theories/Spec/ZipReadSpec.v
theories/Spec/ZipSpec.v
