{"id": "C01", "title": "Streaming etag does not depend on how the data was cut up", "statement": "Feeding a file to `etag(chunksize)` through any sequence of update calls and then calling digest gives (md5 of the concatenated md5s of the consecutive chunksize blocks of the whole file, number of blocks). Repeating digest at the end gives the same answer again. Taking digests on the way is harmless when each one falls on a block boundary.", "quantifier": "Every positive chunksize, every byte sequence, every way of splitting it into updates (including empty ones), every placement of digests at block boundaries, every number of final digest calls; the hash is an arbitrary function.", "why_tests_cant": "The number of ways to split a stream is exponential in its length; tests fix one or two splits and one chunk size.", "anchors": ["augpathlib/utils.py: etag.update", "augpathlib/utils.py: etag.digest", "augpathlib/core.py: LocalPath.etag"]}
{"id": "C02", "title": "An early digest does not disturb the final etag", "statement": "Calling digest part way through a stream, then continuing to update, gives in the end the same etag as if the early digest had not been taken (the code has a dedicated restart branch for this).", "quantifier": "Every chunksize, data and position of the early digest.", "why_tests_cant": "The interesting positions are those inside a block, combined with every possible continuation; no finite test table covers them.", "anchors": ["augpathlib/utils.py: etag.update", "augpathlib/utils.py: etag.digest"]}
{"id": "C03", "title": "A non-positive chunk size makes the etag hang", "statement": "`update` on an etag object built with a chunksize of zero or less never returns, whatever data is passed; with a positive chunksize it always returns.", "quantifier": "Every chunksize and every data.", "why_tests_cant": "Non-termination cannot be observed by a test, and termination for all inputs cannot be established by one.", "anchors": ["augpathlib/utils.py: etag.update"]}
{"id": "C04", "title": "Reading a file in chunks yields exactly the file", "statement": "Iterating over `data` yields non-empty chunks whose concatenation is the file content; every chunk but the last has the full chunk size. Hence `checksum` equals the hash of the content for every chunk size.", "quantifier": "Every content, every positive chunk size, an arbitrary streaming hash.", "why_tests_cant": "Holds for all lengths relative to the chunk size, including all boundary cases.", "anchors": ["augpathlib/core.py: LocalPath._data", "augpathlib/core.py: LocalPath.data", "augpathlib/core.py: AugmentedPath.checksum"]}
{"id": "C05", "title": "Byte range reads return the requested bytes", "statement": "`_data(*ranges)` yields, for each (start, end) range in order, the bytes of that range of the file and nothing else, for any combination of bounded and open-ended ranges.", "quantifier": "Every content, every list of ranges, every chunk size.", "why_tests_cant": "The loop variables of one range leak into the next, so correctness of a range depends on the whole history of ranges before it.", "anchors": ["augpathlib/core.py: LocalPath._data"]}
{"id": "C06", "title": "Symlink metadata round trip", "statement": "Encoding a PathMeta as a symlink target and decoding it with the same version returns a PathMeta with the same id, size, checksum, etag, chunksize, multi, parent_id, old_id, gid, user_id, mode, name, errors and the written created/updated stamps, for precisely the class of values in which no string uses the reserved characters '|' and '!', none equals '#', and the listed side conditions hold.", "quantifier": "Every metadata value of the stated class, every combination of present and absent fields, with and without a local name.", "why_tests_cant": "The codec is a product of 16 optional fields with in-band escaping; tests use one sample per field.", "anchors": ["augpathlib/meta.py: _PathMetaAsSymlink.encode", "augpathlib/meta.py: _PathMetaAsSymlink.decode", "augpathlib/meta.py: _PathMetaAsSymlink.as_symlink", "augpathlib/meta.py: _PathMetaAsSymlink.from_parts"]}
{"id": "C07", "title": "Escaping of ids in symlink metadata is exact", "statement": "A string id either is refused by the encoder or comes back unchanged from the decoder. (Exact domain: the ids that survive are characterised by an if-and-only-if, the others are shown to be silently changed.)", "quantifier": "Every string.", "why_tests_cant": "The escape characters only collide for particular combinations of '/', '|', '.', '!' and '#'; the claim is about all strings.", "anchors": ["augpathlib/meta.py: _PathMetaAsSymlink.encode", "augpathlib/meta.py: _PathMetaAsSymlink.decode"]}
{"id": "C08", "title": "Field values cannot break the layout of the symlink", "statement": "Whatever the string values of a PathMeta are (errors aside), the encoded text for each field contains neither the field separator '.' nor the path separator '/', so a target always splits back into the same number of components and fields: a value can never be read as part of another field.", "quantifier": "Every metadata value that the encoder accepts.", "why_tests_cant": "An injection property over all strings.", "anchors": ["augpathlib/meta.py: _PathMetaAsSymlink.encode", "augpathlib/meta.py: _PathMetaAsSymlink.as_symlink"]}
{"id": "C09", "title": "Every published symlink metadata version can still be read", "statement": "A symlink written in any version listed in the versions table is decoded by assigning each field to its position in that version's table; fields the version did not have come back as absent and extra trailing fields are ignored.", "quantifier": "Every version in the table, every list of raw field values.", "why_tests_cant": "Backward compatibility over all historical on-disk data; the test-suite only writes the newest version.", "anchors": ["augpathlib/meta.py: _PathMetaAsSymlink.versions", "augpathlib/meta.py: _PathMetaAsSymlink.from_parts"]}
{"id": "C10", "title": "A metadata symlink never resolves to anything", "statement": "A symlink whose target starts with its own name (how cache metadata is stored) never exists, is never a file and never a directory when followed, whatever else is in the file system.", "quantifier": "Every file system state, every link name and every remaining target.", "why_tests_cant": "Quantifies over all surrounding directory trees, including those made to confuse the lookup.", "anchors": ["augpathlib/meta.py: _PathMetaAsSymlink.as_symlink", "augpathlib/core.py: AugmentedPath.exists", "augpathlib/core.py: AugmentedPath.is_broken_symlink"]}
{"id": "C11", "title": "Xattr metadata round trip", "statement": "Writing a PathMeta to extended attributes and reading it back with the same prefix returns the same fields: absent fields stay absent, present non-empty ones come back equal (timestamps as the written text).", "quantifier": "Every metadata value of the stated class, every prefix.", "why_tests_cant": "Product of 16 optional fields, all unicode strings and all byte strings.", "anchors": ["augpathlib/meta.py: _PathMetaAsXattrs.as_xattrs", "augpathlib/meta.py: _PathMetaAsXattrs.from_xattrs", "augpathlib/meta.py: _PathMetaAsXattrs.decode"]}
{"id": "C12", "title": "Xattrs under other prefixes are ignored", "statement": "Reading metadata with a prefix gives the same answer whatever other attributes, under other prefixes, the file carries.", "quantifier": "Every set of foreign attributes in every order.", "why_tests_cant": "Non-interference with arbitrary foreign attributes.", "anchors": ["augpathlib/meta.py: _PathMetaAsXattrs.from_xattrs", "augpathlib/meta.py: _PathMetaAsXattrs.deprefix"]}
{"id": "C13", "title": "Merging metadata keeps what is known", "statement": "Updating stored metadata with new metadata never discards a known value unless the file changed: if no identifying field changed, each field of the result is the new value when the new value is present and non-empty, and the old value otherwise.", "quantifier": "Every pair of metadata values.", "why_tests_cant": "Pointwise over 17 fields of arbitrary value, all combinations of presence.", "anchors": ["augpathlib/caches.py: PrimaryCache._update_meta"]}
{"id": "C14", "title": "The changed flag of a metadata merge is exact", "statement": "The merge reports the file as different exactly when one of created, updated, size, checksum and file_id is present on both sides and differs; in that case a field absent from the new metadata is dropped instead of being carried over (old_id excepted), and a change of id is recorded in old_id.", "quantifier": "Every pair of metadata values.", "why_tests_cant": "Same.", "anchors": ["augpathlib/caches.py: PrimaryCache._update_meta"]}
{"id": "C15", "title": "A changed file does not inherit validation errors", "statement": "When the merge decides that the remote file is a different one, the merged metadata does not carry errors (such as checksum-mismatch) recorded for the previous content.", "quantifier": "Every pair of metadata values.", "why_tests_cant": "History dependent: it needs an earlier failed validation followed by a remote change.", "anchors": ["augpathlib/caches.py: PrimaryCache._update_meta", "augpathlib/caches.py: CachePath.fetch"]}
{"id": "C16", "title": "Metadata comparison by content is exact", "statement": "content_different answers by checksums alone when both sides have one; otherwise it answers by size and by whether the other side is newer, and it cannot answer (raises) only when sizes agree and a timestamp is missing.", "quantifier": "Every pair of metadata values.", "why_tests_cant": "All combinations of missing values.", "anchors": ["augpathlib/meta.py: PathMeta.content_different"]}
{"id": "C17", "title": "Metadata equality and truth value", "statement": "A PathMeta is true exactly when some public field carries information. Equality of two PathMetas agrees with equality of their fields when both were built from the same kind of timestamps.", "quantifier": "Every pair of metadata values.", "why_tests_cant": "Equality is computed from instance dictionaries whose content depends on the history of attribute accesses.", "anchors": ["augpathlib/meta.py: PathMeta.__bool__", "augpathlib/meta.py: PathMeta.__eq__"]}
{"id": "C18", "title": "Relative paths lead to their target", "statement": "`p.relative_path_from(q)` resolved at the directory that contains q (or at q itself when q is an ancestor of p) gives p.", "quantifier": "Every pair of paths of the same kind without '..' components.", "why_tests_cant": "All depths and all common prefixes.", "anchors": ["augpathlib/core.py: AugmentedPath.relative_path_from", "augpathlib/core.py: AugmentedPath.relative_path_to", "augpathlib/core.py: AugmentedPath.commonpath"]}
{"id": "C19", "title": "rmtree touches nothing outside the tree", "statement": "rmtree changes nothing outside the subtree it is called on, never follows a symbolic link out of it, and when it returns without ignoring errors the subtree is gone.", "quantifier": "Every file system, every directory listing order, every schedule of failing system calls, and every intermediate state.", "why_tests_cant": "All trees, all symlinks, all fault schedules and all crash points.", "anchors": ["augpathlib/core.py: AugmentedPath.rmtree"]}
{"id": "C20", "title": "rmtree refuses dangerous targets", "statement": "Without DANGERZONE=True (the exact value True) rmtree leaves the file system unchanged and raises for relative paths, the root, top level directories, home directories and the current directory.", "quantifier": "Every path, every file system, every value of the DANGERZONE argument.", "why_tests_cant": "A safety property over all paths.", "anchors": ["augpathlib/core.py: AugmentedPath.rmtree"]}
{"id": "C21", "title": "rmtree never destroys the current directory", "statement": "Without DANGERZONE, removing a tree that contains the current directory leaves the current directory and its content in place.", "quantifier": "Every tree, listing order and position of the current directory.", "why_tests_cant": "Depends on the listing order and on every nesting.", "anchors": ["augpathlib/core.py: AugmentedPath.rmtree"]}
{"id": "C22", "title": "rmdirtree removes exactly the empty directory trees", "statement": "rmdirtree removes a directory exactly when there is no non-directory anywhere below it; all files, links and the directories that lead to them stay.", "quantifier": "Every tree and every listing order.", "why_tests_cant": "The bookkeeping set of removed paths is shared by the whole walk; all shapes matter.", "anchors": ["augpathlib/core.py: AugmentedPath.rmdirtree"]}
{"id": "C23", "title": "swap_carefree exchanges two entries and never loses one", "statement": "When two absolute, resolved paths exist and neither contains the other, swap_carefree exchanges them and leaves the rest unchanged if it returns, and it returns if no system call fails; whatever calls fail, at every crash point both entries still exist somewhere, whole.", "quantifier": "Every file system, every pair of paths, every crash point.", "why_tests_cant": "Crash points and fault schedules.", "anchors": ["augpathlib/core.py: AugmentedPath.swap_carefree"]}
{"id": "C24", "title": "A failed swap_carefree changes nothing", "statement": "If swap_carefree raises, both paths are as they were before.", "quantifier": "Every file system, every failing system call.", "why_tests_cant": "All fault schedules.", "anchors": ["augpathlib/core.py: AugmentedPath.swap_carefree"]}
{"id": "C25", "title": "copy_to never overwrites silently and copies everything", "statement": "Without force, copying onto an existing path or symlink raises and changes nothing. Otherwise the target has the content of the source afterwards and the source is unchanged.", "quantifier": "Every content, every pair of paths.", "why_tests_cant": "All contents including empty ones, aliasing of source and target.", "anchors": ["augpathlib/core.py: LocalPath.copy_to", "augpathlib/core.py: LocalPath._write_chunks", "augpathlib/core.py: AugmentedPath.copy_outto"]}
{"id": "C26", "title": "Restoring a file when an update fails", "statement": "When refreshing the metadata of a locally present file fails after the file was moved to the trash, the original file (content and attributes) is back in place after the exception; at every crash point the content is at the original path or in the trash.", "quantifier": "Every file content, every failing step, every crash point.", "why_tests_cant": "All fault schedules.", "anchors": ["augpathlib/caches.py: PrimaryCache._meta_updater", "augpathlib/caches.py: CachePath.crumple"]}
{"id": "C27", "title": "The trash keeps every version", "statement": "Moving a file to the trash never destroys another trashed file.", "quantifier": "Every history of trashing operations, every set of ids.", "why_tests_cant": "Depends on collisions among all ids and on repeated use.", "anchors": ["augpathlib/caches.py: CachePath.crumple", "augpathlib/utils.py: fs_safe_id"]}
{"id": "C28", "title": "Local changes are not overwritten", "statement": "Updating the metadata of a cached file whose local content differs from what the cache recorded raises LocalChangesError and leaves the file untouched.", "quantifier": "Every content and every metadata.", "why_tests_cant": "All contents and histories of metadata reads.", "anchors": ["augpathlib/caches.py: PrimaryCache._meta_updater", "augpathlib/core.py: LocalPath.content_different"]}
{"id": "C29", "title": "A successful fetch is validated", "statement": "If fetch returns normally after writing, the local file has the size recorded in the metadata, and either its checksum equals the recorded one or the stored metadata now records checksum-mismatch.", "quantifier": "Every remote content, every metadata, every failing step.", "why_tests_cant": "All contents and fault schedules.", "anchors": ["augpathlib/caches.py: CachePath.fetch"]}
{"id": "C30", "title": "fetch does not lose metadata", "statement": "At every crash point during fetch the metadata of the file is still stored with the path.", "quantifier": "Every crash point.", "why_tests_cant": "Crash points.", "anchors": ["augpathlib/caches.py: CachePath.fetch"]}
{"id": "C31", "title": "Moving a cached file loses nothing", "statement": "After move, whatever happens during the rename, the moved file is at the old or at the new path with its content and attributes.", "quantifier": "Every file system and every failing step.", "why_tests_cant": "Fault schedules.", "anchors": ["augpathlib/caches.py: CachePath.move"]}
{"id": "C32", "title": "Directory stack discipline", "statement": "A balanced sequence of pushd and popd returns to the directory it started from with the same stack; popd(N) removes the entry with N entries on top of it and goes there, raises IndexError when the stack is too short and does nothing when it is empty.", "quantifier": "Every history of pushd/popd calls.", "why_tests_cant": "All histories.", "anchors": ["augpathlib/core.py: AugmentedPath.pushd", "augpathlib/core.py: AugmentedPath.popd"]}
{"id": "C33", "title": "Using a path as a context restores the working directory", "statement": "Leaving a `with path:` block that was entered on a directory returns to the directory from which the block was entered, for every nesting of blocks over distinct path objects and however the block is left.", "quantifier": "Every nesting, every set of objects.", "why_tests_cant": "All nestings and re-entrant uses.", "anchors": ["augpathlib/core.py: AugmentedPath.__enter__", "augpathlib/core.py: AugmentedPath.__exit__", "augpathlib/caches.py: _CachePath.__enter__"]}
{"id": "C34", "title": "Sparse marking is inherited", "statement": "A path is sparse exactly when the path itself or one of its ancestors below the root carries the sparse mark.", "quantifier": "Every tree of marks and every depth.", "why_tests_cant": "All depths and placements.", "anchors": ["augpathlib/core.py: EatPath._sparse_root", "augpathlib/core.py: AugmentedPath.is_sparse"]}
{"id": "C35", "title": "The next version is newer", "statement": "Whenever next_version returns, the version it returns is strictly greater than its input in the PEP 440 order.", "quantifier": "Every version (epoch, release of any length, pre, post, dev, local), every requested phase and release component.", "why_tests_cant": "Infinite version space and a lexicographic order with special cases for missing parts.", "anchors": ["augpathlib/package.py: next_version", "augpathlib/package.py: cons_next", "augpathlib/package.py: logic", "augpathlib/package.py: vinc"]}
{"id": "C36", "title": "The next version is in the requested phase", "statement": "The version returned by next_version for a requested phase is in that phase, keeps the epoch, and moves the release number only by one step in the requested component.", "quantifier": "Same.", "why_tests_cant": "Same.", "anchors": ["augpathlib/package.py: next_version", "augpathlib/package.py: current_state"]}
{"id": "C37", "title": "Remote access check follows the permission bits", "statement": "access(mode) is true exactly when the bit for that mode is set for a class (owner, group, other) the user belongs to.", "quantifier": "Every st_mode, uid, gid and group set.", "why_tests_cant": "All 2^12 modes times identities; bit arithmetic with shifts.", "anchors": ["augpathlib/remotes.py: SshRemote.access"]}
{"id": "C38", "title": "Stat output is parsed into the fields that were printed", "statement": "Parsing the text printed by stat for a file gives back its name, inode, size, times, owner, group and mode.", "quantifier": "Every name without two consecutive blanks and every numeric value.", "why_tests_cant": "All names and numbers; separators occur in-band.", "anchors": ["augpathlib/utils.py: StatResult.__init__"]}
{"id": "C39", "title": "Directories inside a zip form a tree", "statement": "For every set of zip entries, the internal paths are closed under parent, each existing path other than the root is a child of exactly its parent, and rchildren is the set of all proper descendants.", "quantifier": "Every set of entry names.", "why_tests_cant": "All entry sets, including implied directories.", "anchors": ["augpathlib/zip.py: ZipInternalPath._new", "augpathlib/zip.py: ZipInternalPath.children", "augpathlib/zip.py: ZipInternalPath.rchildren"]}
{"id": "C40", "title": "The working directory of a path is its innermost repository", "statement": "working_dir is the nearest ancestor-or-self that contains .git, and None exactly when there is none.", "quantifier": "Every tree and path.", "why_tests_cant": "All depths and nestings.", "anchors": ["augpathlib/repo.py: RepoHelper.working_dir"]}
{"id": "C41", "title": "Committing one file leaves the others and the stash alone", "statement": "commit on a path commits that path only; other local changes are still there afterwards and stashes the user had made before are still on the stash.", "quantifier": "Every working tree, index and stash stack.", "why_tests_cant": "Depends on the whole history of user stashes.", "anchors": ["augpathlib/repo.py: RepoHelper.commit"]}
{"id": "C42", "title": "Using a git reference as a context restores the working tree", "statement": "Entering and leaving a reference context restores branch, local changes and the older stashes; changes made inside are kept on the stash.", "quantifier": "Every repository state and every body.", "why_tests_cant": "All histories.", "anchors": ["augpathlib/repo_patch.py: Reference.__enter__", "augpathlib/repo_patch.py: Reference.__exit__"]}
{"id": "C43", "title": "Safe ids are safe", "statement": "fs_safe_id returns a string of the same length without forbidden characters, leaves safe strings alone, and is idempotent.", "quantifier": "Every string.", "why_tests_cant": "All strings.", "anchors": ["augpathlib/utils.py: fs_safe_id"]}
{"id": "C44", "title": "A metadata diff shows every field", "statement": "The side by side diff of two metadata values shows every field present on either side.", "quantifier": "Every pair of metadata values.", "why_tests_cant": "All combinations of present fields.", "anchors": ["augpathlib/meta.py: _PathMetaAsPretty.as_pretty_diff"]}
{"id": "C45", "title": "Local metadata is fresh", "statement": "meta of a local file describes its current content, for every history of writes and metadata reads in which each write changes the ctime or mtime.", "quantifier": "Every history of writes and reads.", "why_tests_cant": "The memo depends on the whole history of accesses.", "anchors": ["augpathlib/core.py: LocalPath._meta_maker"]}
{"id": "C46", "title": "Symlink cache metadata never goes back in time", "statement": "Setting metadata on a symlink cache that already has metadata for another id replaces it only by newer metadata, and keeps the replaced link in the trash.", "quantifier": "Every pair of stored and new metadata.", "why_tests_cant": "Decision table over optional timestamps, sizes and ids.", "anchors": ["augpathlib/caches.py: SymlinkCache.meta"]}
{"id": "C47", "title": "Remote paths are relative to the anchor", "statement": "The parts of a remote path are the names on the way from the anchor to it, so that joining them below the anchor leads to it.", "quantifier": "Every remote hierarchy and depth.", "why_tests_cant": "All depths; names may repeat on the way.", "anchors": ["augpathlib/remotes.py: RemotePath._parts_relative_to", "augpathlib/remotes.py: RemotePath.parents"]}
{"id": "C48", "title": "Bootstrapping honours skip and only", "statement": "Bootstrapping never creates local entries for an id in skip, or for one not in only when only is given, and the anchor is never skipped.", "quantifier": "Every remote tree and every skip/only list.", "why_tests_cant": "All trees.", "anchors": ["augpathlib/caches.py: CachePath._bootstrap", "augpathlib/caches.py: CachePath._bootstrap_recursive"]}
{"id": "C49", "title": "Setting metadata on a file replaces what was there", "statement": "After a cache writes new metadata into the extended attributes of a file that already carries some, reading the file gives the new metadata and nothing of the old.", "quantifier": "All pairs of old and new metadata, all prefixes, all unrelated attributes and listing orders.", "why_tests_cant": "Tests set metadata on fresh files or with the same fields; the loss shows only for particular pairs of field sets.", "anchors": ["augpathlib/core.py: XattrHelper.setxattrs", "augpathlib/caches.py: EatCache.meta", "augpathlib/meta.py: _PathMetaAsXattrs"]}
{"id": "C50", "title": "The remote access check agrees with the system", "statement": "For a user other than root, access(mode) of an ssh remote answers what the POSIX permission check answers: the owner is judged by the owner bits, a member of the group by the group bits, everybody else by the other bits.", "quantifier": "Every st_mode, owner, group, user and group set.", "why_tests_cant": "Tests use files whose bits are weaker for wider classes, where both rules agree.", "anchors": ["augpathlib/remotes.py: SshRemote.access"]}
{"id": "C51", "title": "Remote commands name the path", "statement": "The commands that an ssh remote sends for stat, checksum and data are, to a POSIX shell, the named program applied to exactly the path of the remote.", "quantifier": "Every path.", "why_tests_cant": "Every character can occur in a path and three different ways of quoting are used; tests use tame paths.", "anchors": ["augpathlib/remotes.py: SshRemote._stat_cmd, checksum, data"]}
{"id": "C52", "title": "A path into a zip file is resolved to the zip file that holds it", "statement": "zip_path of a path is the innermost zip file at or above it, or None; joining it with zip_relative_path gives the path back; exists and rchildren answer what the entries of that zip file say, and outside of zip files what the disk says.", "quantifier": "Every path, every assignment of zip files to paths and every list of entries.", "why_tests_cant": "All nestings of archives and names.", "anchors": ["augpathlib/zip.py: ZipHelper.zip_path", "augpathlib/zip.py: ZipHelper.zip_relative_path", "augpathlib/zip.py: ZipHelper.exists", "augpathlib/zip.py: ZipHelper.rchildren"]}
{"id": "C53", "title": "init never makes a repository inside another", "statement": "init on a path at or below a directory with a repository raises and changes nothing; elsewhere it calls git for that path and remembers it only when git succeeded. repo_relative_path joined to the working directory gives the path back.", "quantifier": "Every file system, path, remote and content of the repository cache.", "why_tests_cant": "All nestings, relative paths and cache contents.", "anchors": ["augpathlib/repo.py: RepoHelper.init", "augpathlib/repo.py: RepoHelper.repo", "augpathlib/repo.py: RepoHelper.repo_relative_path"]}
{"id": "C54", "title": "Recursive listings are complete and stay inside", "statement": "rchildren of a path yields every entry below the directory exactly once, directories before what is in them, never goes through symbolic links, and at the anchor leaves out exactly the entries named in cache_ignore with everything in them; a listing that could not be completed raises.", "quantifier": "All directory trees, paths, links, anchors and read failures.", "why_tests_cant": "Trees, names and failures are unbounded; tests list a few fixed trees.", "anchors": ["augpathlib/core.py: LocalPath.children", "augpathlib/core.py: LocalPath.rchildren"]}
{"id": "C55", "title": "The root of a cached tree is found", "statement": "find_cache_root of a path returns the top of the cached tree the path is in: from the nearest cached directory at or above the path up to the last one whose parent has no cache; None when nothing above has a cache; the answer depends only on the path and the state.", "quantifier": "All cache classes, placements of cache metadata, paths and links.", "why_tests_cant": "Placements of metadata above a path are unbounded and the order of a set of paths changes between runs.", "anchors": ["augpathlib/core.py: LocalPath.find_cache_root"]}
{"id": "C56", "title": "Ignored paths are told from others", "statement": "skip_cache is True exactly for paths without a cache that are inside an entry of the anchor (or of the root of their tree) named in cache_ignore, False for all other paths, and agrees with what children leaves out.", "quantifier": "All cache classes, placements of metadata, anchors and paths.", "why_tests_cant": "Paths, names and placements are unbounded.", "anchors": ["augpathlib/core.py: LocalPath.skip_cache", "augpathlib/core.py: LocalPath.children"]}
{"id": "C57", "title": "Making the data directory only adds", "statement": "local_data_dir_init only ever adds: nothing that was there is lost, except an empty objects directory that is replaced by the requested link. When it returns, the data directory, the objects and the trash are directories, the objects being the link to the given place if one was given. Running it again succeeds and changes nothing.", "quantifier": "All file systems, anchors, link targets, trash paths, current directories, and failing system calls at any point.", "why_tests_cant": "File systems and the places where a call can fail are unbounded.", "anchors": ["augpathlib/caches.py: CachePath.local_data_dir_init", "augpathlib/caches.py: CachePath.local_objects_dir"]}
{"id": "C58", "title": "The anchors of the remote class and of the cache class agree", "statement": "After any call of dropAnchor, smartAnchor, anchorToCache, anchorTo, anchorClassHere or cache_init the remote class and the cache class are anchored at the same directory or not at all, and the id stored there is that of the root. An anchored class moves only by weighAnchor. A call that raises changes neither the anchors nor the file system. dropAnchor does not take a directory with anything in it.", "quantifier": "All states of the classes, file systems, ids, names of the root, paths, and failing system calls at any point.", "why_tests_cant": "States of the classes, file systems and sequences of calls are unbounded.", "anchors": ["augpathlib/remotes.py: RemotePath.dropAnchor", "augpathlib/remotes.py: RemotePath.smartAnchor", "augpathlib/remotes.py: RemotePath.anchorToCache", "augpathlib/remotes.py: RemotePath.anchorTo", "augpathlib/caches.py: CachePath.anchorClassHere", "augpathlib/core.py: LocalPath.cache_init"]}
{"id": "C59", "title": "Deduplicating two caches keeps the newer one", "statement": "For two caches of one remote object dedupe returns the newer one: the one whose metadata was updated later, then the one whose local file changed later, then the one that has a size. It is the same one whichever of the two is asked. Caches of different objects are refused.", "quantifier": "All pairs of caches: ids, metadata, local times.", "why_tests_cant": "The order has three levels with values that may be missing; pairs are unbounded and both directions must agree.", "anchors": ["augpathlib/caches.py: CachePath.dedupe"]}
{"id": "C60", "title": "validate_file tells whether a file agrees with its metadata", "statement": "validate_file on a file checks it against the etag of its metadata, else against the checksum, else against the size: when it returns without a complaint, the etag or checksum is that of the content; a checksum that does not match is recorded in the metadata as an error; nothing else is changed.", "quantifier": "All file systems, files, metadata, hash functions, block sizes, and failing system calls at any point.", "why_tests_cant": "Contents, metadata and hash functions are unbounded, as are the points at which a call may fail.", "anchors": ["augpathlib/caches.py: CachePath.validate_file", "augpathlib/core.py: LocalPath.etag", "augpathlib/core.py: LocalPath.checksum"]}
{"id": "C61", "title": "update_cache brings a cache up to date without losing content", "statement": "update_cache gives the cache of a remote its new metadata and content and moves it where the remote now is: at every moment the old content is at the old or the new path or in the trash; when it returns after a change of name or parent the file is at the new path; a second cache, or one of another name or parent, is refused; when it raises, nothing has changed.", "quantifier": "All file systems, caches, names, remotes, metadata, targets, and failing system calls at any point.", "why_tests_cant": "It chains updating, fetching, trashing and moving; the states between and the points of failure are unbounded.", "anchors": ["augpathlib/remotes.py: RemotePath.update_cache", "augpathlib/remotes.py: RemotePath._parent_changed", "augpathlib/caches.py: CachePath.refresh"]}
{"id": "C62", "title": "Listing a directory over ssh gives its entries, all with their own stat and checksum", "statement": "children of a remote directory over ssh gives every entry of the directory and no other, under its name, with its own stat and, when it is a file, its own checksum; is_dir is true of directories only and is_file of regular files only, and of all of them.", "quantifier": "All directories, names, stats, digests, commands.", "why_tests_cant": "The answer is read back from the text of a terminal; which names and contents can be read back depends on every character of every entry.", "anchors": ["augpathlib/remotes.py: SshRemote._ssh", "augpathlib/remotes.py: SshRemote.children", "augpathlib/remotes.py: SshRemote.is_dir", "augpathlib/remotes.py: SshRemote.is_file"]}
{"id": "C63", "title": "The local directories above a remote are made, each with its own metadata", "statement": "mkdir_cache makes the directories above a remote that are missing below the anchor, each with the metadata of its remote, and does nothing to what is there. After it returns, each of the directories above has the metadata of its remote.", "quantifier": "All remotes, trees, links, failures at any call.", "why_tests_cant": "It depends on every tree that may be there, and on a failure after every single call.", "anchors": ["augpathlib/core.py: LocalPath.mkdir_cache", "augpathlib/caches.py: CachePath.__init__", "augpathlib/caches.py: PrimaryCache._meta_setter"]}
{"id": "C64", "title": "Going over the children of a cache touches only the children and the trash and loses no local content", "statement": "cache.children brings every child that the remote lists up to date: it touches nothing but the children, which are directly below the directory, and the trash; the content of every local file is at its path or in the trash at every moment; when it ends without an error every child that was not there is, as a directory or a link.", "quantifier": "All directories, trees, lists of children, answers of remotes, failures at any call.", "why_tests_cant": "It depends on every combination of the children, of what is there, and on a failure after every single call.", "anchors": ["augpathlib/caches.py: CachePath.__truediv__", "augpathlib/caches.py: CachePath._make_child", "augpathlib/caches.py: PrimaryCache.children", "augpathlib/remotes.py: RemotePath._cache_setter"]}
{"id": "C65", "title": "What an update returns is true of the file", "statement": "Updating a cached file with fetching returns whether the remote's metadata tells of another file; when it returns True the file has the content of the remote, when it returns False it has its own; and merging the same metadata once more tells of no change and leaves the metadata as it is.", "quantifier": "All files, metadata, answers of the remote, failures at any call.", "why_tests_cant": "It depends on every combination of the fields of the stored and of the new metadata, and on a failure after every single call.", "anchors": ["augpathlib/caches.py: PrimaryCache._meta_updater", "augpathlib/caches.py: PrimaryCache._update_meta", "augpathlib/caches.py: CachePath.fetch"]}
{"id": "C66", "title": "The address of a path on GitHub names the path", "statement": "For every repository whose remote is on GitHub, by whatever url it was cloned, remote_uri_human and remote_uri_machine give the address of owner, repository, ref and the path in the repository; a client reads these from it again; arg_org and arg_repo are the owner and the repository; clone_path is directly below, under the name of the repository.", "quantifier": "All owners, repositories, urls, refs, paths in the repository.", "why_tests_cant": "It depends on every name and on every form of url that git accepts.", "anchors": ["augpathlib/repo.py: RepoHelper._remote_helper", "augpathlib/repo.py: RepoHelper._remote_uri", "augpathlib/repo.py: RepoHelper.clone_path", "augpathlib/package.py: PackagePath.arg_org"]}
{"id": "C67", "title": "The next version of a package is newer than everything released", "statement": "Whatever PyPI tells of the releases of a package, the version version_next gives is newer than each of them and than PyPI's latest version; there is one whenever next_version has one for the latest; bump never finds that its version is already released.", "quantifier": "All answers of PyPI, in all orders, including failed requests; all versions, phases and components.", "why_tests_cant": "It depends on the order of all versions and on every list of releases; PyPI's answers cannot be enumerated.", "anchors": ["augpathlib/package.py: PackagePath.version_next", "augpathlib/package.py: PackagePath.version_latest_released", "augpathlib/package.py: PackagePath.version_latest_pypi", "augpathlib/package.py: PackagePath.pypi_json", "augpathlib/package.py: PackagePath.bump"]}
{"id": "C68", "title": "A package sees its own releases", "statement": "version_latest_github and version_tag give the version of the package's own latest release, whatever other packages of the repository are called and tagged; commits_since_last_release gives the commits to files of the release after that tag, all of them and no others, and all commits before the first release.", "quantifier": "All names of packages, tags, histories in a line, lines of the log.", "why_tests_cant": "It depends on every name another package could have and on every history.", "anchors": ["augpathlib/package.py: PackagePath.version_latest_github", "augpathlib/package.py: PackagePath.tag_latest_github", "augpathlib/package.py: PackagePath.tag", "augpathlib/package.py: PackagePath.version_tag", "augpathlib/package.py: PackagePath.commits_since_last_release"]}
{"id": "C69", "title": "The folder of a package is the nearest directory with a setup.py", "statement": "PackagePath.folder is the path itself or the innermost directory above it that has a setup.py, and fails exactly if there is none; it depends only on the place the path leads to. The tags of a package have the prefix of its name exactly if its folder is not the top of the repository, and arg_folder is the folder as seen from above the repository.", "quantifier": "All trees of files, all paths, all working directories.", "why_tests_cant": "It is about every arrangement of repositories, links and nested packages.", "anchors": ["augpathlib/package.py: PackagePath.folder", "augpathlib/package.py: PackagePath.setup_file", "augpathlib/package.py: PackagePath.tag_prefix", "augpathlib/package.py: PackagePath.arg_folder"]}
{"id": "C70", "title": "The name of what is checked out leads back to it", "statement": "If currentRefName gives a name, then getRef of this name is a reference to the commit that is checked out; a name that counts back from another reference is never given.", "quantifier": "All sets of references, all lines git could answer with.", "why_tests_cant": "It needs every kind of reference and every clash of names.", "anchors": ["augpathlib/repo_patch.py: _Repo.getRef", "augpathlib/repo_patch.py: _Repo.currentRefName"]}
{"id": "C71", "title": "The human form of a size is close to it and in order", "statement": "FileSize.hr shows a size to within half of the unit, in the largest unit that is not larger than the size, with fewer than 1024 of it; what it shows for a larger size is never less; it shows '??' exactly for negative sizes and fails only for sizes no double holds.", "quantifier": "All integers, without a bound.", "why_tests_cant": "Rounding goes wrong at a few sizes among all of them, on the edges of units and of doubles.", "anchors": ["augpathlib/utils.py: FileSize.hr"]}
{"id": "C72", "title": "What broke off can be completed", "statement": "Fetching a file whose metadata describe what the remote sends succeeds where nothing fails, gives exactly that content, keeps the attributes and touches nothing else; and however an earlier fetch or update was interrupted, at any moment, doing it again completes it.", "quantifier": "All file systems, contents, metadata, limits, chunkings; all interruptions of the first attempt at any system call, whatever its remote sent before breaking off.", "why_tests_cant": "The first attempt can end after any system call with any part of any data written; a test interrupts at a few places at best.", "anchors": ["augpathlib/caches.py: fetch, _meta_updater, crumple", "augpathlib/core.py: data setter"]}
{"id": "C73", "title": "A directory is made on both sides or on neither", "statement": "mkdir_remote makes one remote directory for every part missing below the nearest directory with cached metadata, each in the remote of the directory above it, and a local directory for each that has the metadata of its remote; nothing else changes on either side; where it cannot it raises and nothing was made.", "quantifier": "All file systems, paths, contents of the remote, answers of the remote, parents=True and False; for what may change also all failures at any system call.", "why_tests_cant": "What is made depends on which directories exist, which have metadata and what the remote answers on the way; a call that fails in the middle leaves the two sides different.", "anchors": ["augpathlib/core.py: mkdir_remote, cache_init", "augpathlib/caches.py: remote, _meta_updater"]}
{"id": "C74", "title": "What git says of changes is said of the path", "statement": "has_uncommitted_changes(), modified() and indexed() give the change of the path from HEAD to the working tree, from the index to the working tree and from HEAD to the index, and None when there is none; diff(ref, ref_orig) gives the change from ref_orig to ref. For a directory it is the first change of what is in it. Other paths are never told of.", "quantifier": "All states of the repository, all paths, files and directories, all references, all ways wildmatch may answer.", "why_tests_cant": "Three trees, the way the path is taken by git, and the direction all matter; a test has one path with a plain name in one state.", "anchors": ["augpathlib/repo.py: _do_diff, diff, modified, indexed, has_uncommitted_changes, add_index, commit_from_working_tree"]}
{"id": "C75", "title": "show returns the file as it was", "statement": "show(ref) returns the bytes that the path has in the commit, show('') those in the index, show(None) those in the working tree; where the path is not there it raises.", "quantifier": "All contents, in any encoding, all paths, references and states.", "why_tests_cant": "The bytes pass through a decoding with errors escaped and a stripping of the output; a test has one content without a newline at its end.", "anchors": ["augpathlib/repo.py: show"]}
{"id": "C76", "title": "The commits of a path are those that changed it", "statement": "commits() gives exactly the commits of the history in which the path, or something in it, changed, the newest first and at most max_count; latest_commit() gives the last of them, after which the path did not change, and raises NoCommitsForFile when no commit ever had it.", "quantifier": "All histories that are a line, all paths and references.", "why_tests_cant": "Which commits count depends on the whole history and on the path being a directory, added, removed and added again.", "anchors": ["augpathlib/repo.py: latest_commit, commits"]}
{"id": "C77", "title": "The identifier of a machine is one, and stays", "statement": "Importing the package takes the identifier of the machine from /etc/machine-id, or from /var/tmp/machine-id, and makes the latter only when neither gives one; nothing else is changed, also when something fails in between. Every program that asks gets the same identifier from then on. It is safe in a file name, and two paths have the same id only if they are the same path on the same machine. Taking the identifier of another machine over ssh changes nothing here.", "quantifier": "All file systems, with links and directories in the way, all failures of system calls at all moments, all digests, all paths.", "why_tests_cant": "A machine has one set of these files; the interesting states (neither file, an empty one left by an interrupted run, a link, one that may not be read) are those a test machine is not in, and the module runs this once, when it is imported.", "anchors": ["augpathlib/utils.py: sysidpath, _raw_id, _bind_sysid_", "augpathlib/core.py: LocalPath.id, LocalPath._bind_sysid", "augpathlib/remotes.py: SshRemote.anchorToCache"]}
{"id": "C78", "title": "A copy made with its metadata has the content and the metadata of the source", "statement": "copy_to(target, copy_cache_meta=True), and copy_from on the other side, leave at the target the content of the source and metadata that reads as that of the source, and change nothing else, also when something fails in between; a target that is there is refused without force, with nothing changed.", "quantifier": "All file systems, paths, contents, metadata, attributes already at the target, all failures of system calls at all moments.", "why_tests_cant": "The two parts are made by two calls, and the interesting states are those between them; the metadata goes through the encoding of every field, with attributes of other programs around it.", "anchors": ["augpathlib/core.py: LocalPath.copy_to, LocalPath.copy_from, LocalPath.data (setter)", "augpathlib/core.py: LocalPath.cache_init", "augpathlib/meta.py: _PathMetaAsXattrs"]}
{"id": "C79", "title": "Files written in a chain of generators get all of what the consumer gets, or an error is raised", "statement": "A chain of _data_setter generators over the data of a file writes each of its files with the chunks that pass through: the consumer gets the content of the source in order, every file gets after its beginning (what it had, with append) exactly what the consumer took, nothing else changes, and a file that did not get it is reported by an exception.", "quantifier": "All file systems, all numbers of files in the chain, truncated or appended to, all contents, chunk sizes and buffer sizes, all failures of system calls at all moments, consumers that take all or stop after any number of chunks.", "why_tests_cant": "Writes are buffered, so an error shows up when a file is closed, and generators are closed at moments no test controls; the interleaving of chain length, chunk size, buffer size and the moment of a failure cannot be enumerated.", "anchors": ["augpathlib/core.py: LocalPath._data_setter", "augpathlib/core.py: LocalPath.data"]}
{"id": "C80", "title": "Whoever reads an entry of a zip file gets the entry", "statement": "data of a path inside a zip file gives the content of the entry in chunks, in order and complete, and so does a file from open, whoever else opens, reads and closes what in the archive; a failure is an exception, never data that is wrong or short; files are closed when their reader is done.", "quantifier": "All archives, contents, chunk sizes, all interleavings of any number of generators of data, files given out by open, reads, closes and p.close(), all failures of opening and reading.", "why_tests_cant": "Path objects inside an archive are shared, and what open remembers on them is too; whether one reader disturbs another depends on the interleaving of their calls.", "anchors": ["augpathlib/zip.py: ZipInternalPath.data, ZipInternalPath.open, ZipInternalPath.close", "augpathlib/zip.py: ZipInternalPath.__new__"]}
{"id": "C81", "title": "Attributes are the same dictionary on Windows and on posix", "statement": "The attributes of a file (setxattr, getxattr, delxattr, xattrs) are a dictionary beside its content: what was set is read back, other keys and other files do not change, writing the content keeps them; and the same calls give the same answers on Windows, where they are streams, as on posix.", "quantifier": "All sequences of calls, keys and values, all files with any attributes, all contents written, any order in which streams are found, any table of upper case letters of the volume.", "why_tests_cant": "The tests use a few fixed keys on one platform at a time, and no test can run both; names that collide, or that are listed though they belong to something else, are found only by looking at all pairs of names.", "anchors": ["augpathlib/core.py: ADSHelper", "augpathlib/core.py: XattrHelper", "augpathlib/core.py: LocalPath._write_chunks_ntfs, LocalPath._write_chunks_posix"]}
{"id": "C82", "title": "The repository remembered for a path is the one that is there", "statement": "repo gives an object for the repository that is there now: never one that was made for a repository since removed, whatever was opened, made, cloned or removed before and whatever failed. rmtree of a path makes what is remembered for it forgotten, and nothing else, also when it refuses.", "quantifier": "All histories of calls of repo, init, clone_from, rmtree and of anything else, with any failures, on any file system; all paths asked for.", "why_tests_cant": "The table of objects is shared by the whole process and by all paths, so that the answer depends on the history; the tests open each repository once.", "anchors": ["augpathlib/repo.py: _repos", "augpathlib/repo.py: RepoHelper.repo", "augpathlib/repo.py: RepoHelper.init", "augpathlib/repo.py: RepoHelper.clone_from", "augpathlib/repo.py: RepoPath.rmtree"]}
{"id": "C83", "title": "The identifier of an ssh remote names one path on one host", "statement": "Two ssh remotes have the same id, and compare equal, exactly when they are the same path on the same host; a remote made from an id has that id; parents are the directories above, and equal remotes have equal parents.", "quantifier": "All hosts, anchors and paths, relative and absolute, all texts given.", "why_tests_cant": "There is one host and one anchor in the tests; that no two of all paths share an identifier, or that none is read as another, is about all pairs of texts.", "anchors": ["augpathlib/remotes.py: SshRemote.__new__, init, id, rpath, parent", "augpathlib/remotes.py: RemotePath.__eq__, parents"]}
{"id": "C84", "title": "Recursive bootstrapping ends, and refreshes each local directory that the remote no longer has", "statement": "A recursive bootstrap ends whatever directories there are locally; before it makes anything, each local directory that has cached metadata and that the remote does not have is refreshed, exactly once, no other directory is, and a directory comes before those below it.", "quantifier": "All sets of local directories and of remote directories, whichever of them have a cache, and all orders in which sets are traversed.", "why_tests_cant": "The loop runs until a set is empty, in an order that the interpreter chooses; that it ends for each pair of trees, and misses none, is about all of them.", "anchors": ["augpathlib/caches.py: _bootstrap_recursive, the loop over old_local"]}
{"id": "C85", "title": "The size of a local path is that of the file it leads to", "statement": "`size` gives the number of bytes of the file the path leads to, following links, and raises OSError when it leads to nothing; it changes nothing. No failing system call makes it give the size of something else.", "quantifier": "All trees with links, all names that are UTF-8 and not taken for options, all schedules of failing calls.", "why_tests_cant": "When stat(2) fails another program is run and its output parsed; the combinations of links, names and failures are unbounded.", "anchors": ["augpathlib/core.py: LocalPath.size, _stat", "augpathlib/utils.py: StatResult"]}
{"id": "C86", "title": "Replacing pathlib's splitroot changes only paths in the registry", "statement": "On Windows the package replaces the function by which pathlib cuts a path into drive, root and rest, for all paths of the process. Each path that is not in the registry is cut as before; a path in the registry has the registry drive as its drive and is absolute, however the drive is written; drive, separators and rest are the text.", "quantifier": "All texts.", "why_tests_cant": "The function is replaced globally, so that every path of every library is concerned; tests run it on a few texts, and mostly not on Windows.", "anchors": ["augpathlib/core.py: splitroot, AugmentedPathWindows._registry_drives"]}
{"id": "C87", "title": "The stream object is a dictionary that lists what is on disk", "statement": "However an ADS object is used, its list holds exactly the names of the streams of its file, each once; adding a name answers True and stores the content if the name is new, and False leaving the stream as it is otherwise; deleting answers whether the stream was there and takes it away; reading gives what was added. The content of the file and all other files stay as they are.", "quantifier": "All disks, all files and directories, all sequences of calls.", "why_tests_cant": "Tests run one short sequence on names chosen by the tester; the list and the disk come apart only over sequences, or with names that a volume reads in its own way.", "anchors": ["augpathlib/pyads.py: ADS.init_streams, add_stream_from_file, add_stream_from_string, delete_stream, get_stream_content"]}
{"id": "C88", "title": "The type of a path is the type of its name", "statement": "`mimetype` of a directory is inode/directory; of everything else `mimetype` and `encoding` are what the standard library says of the last part of the path (or what the user's table of suffixes says), whatever the directories, whatever else is there and whether the path is relative or absolute; the file system is not changed.", "quantifier": "All file systems, all paths, all tables of types.", "why_tests_cant": "The type comes about by resolving links, quoting the path as a URI and cutting suffixes off the quoted text; tests try a few ordinary names.", "anchors": ["augpathlib/core.py: AugmentedPath.mimetype, AugmentedPath.encoding"]}
{"id": "C89", "title": "The local path, its cache and its remote lead back to each other", "statement": "`local.cache`, `cache.remote`, `remote.cache` and `cache.local` connect the objects of one path: the cache and the remote of a path with metadata have the id that is on disk, following the references around gives the same path again, a path without metadata has no cache, and asking again gives the same object, whatever was called before and on which objects.", "quantifier": "All sequences of calls that make and connect local paths, caches, copies and helper caches, and remotes, and of changes to the metadata by others.", "why_tests_cant": "Ids and references are remembered in five places on three kinds of objects; staleness shows only in particular orders of calls on several objects for one path.", "anchors": ["augpathlib/core.py: LocalPath.cache, remote, cache_init", "augpathlib/caches.py: _CachePath.__new__, remote, local, id; CachePath.__init__; PrimaryCache._meta_setter", "augpathlib/remotes.py: RemotePath.__init__, cache, _cache_setter, local"]}
{"id": "C90", "title": "The cache of a remote whose directories are not here is made with them", "statement": "`remote.cache_init(parents=True)` gives the cache of the remote below the anchor and makes the directories that are missing above it, each with the metadata of its remote; without `parents` a missing directory above is a FileNotFoundError and nothing is changed.", "quantifier": "All trees, anchors, depths of the remote below the anchor, numbers of missing directories, and metadata.", "why_tests_cant": "The function calls itself for the directory above and goes on after that; what it does depends on how many directories are missing, and a test with one missing directory passes where two never can.", "anchors": ["augpathlib/remotes.py: RemotePath.cache_init, _cache_setter", "augpathlib/core.py: LocalPath.cache_init", "augpathlib/caches.py: _CachePath.__truediv__, _bootstrap_prepare_filesystem, PrimaryCache._meta_updater, _meta_setter"]}
{"id": "C91", "title": "All that is below the remote of a cache comes to be here by iterating over it", "statement": "Iterating over `cache.rchildren` to its end gives, for each thing the remote lists below the cache, its cache at the same names below the cache; after it each directory is here as a directory and each file as a link, with the metadata of its remote, and nothing else is different.", "quantifier": "All trees, caches, lists of names the remote gives, kinds and metadata.", "why_tests_cant": "Each step depends on what the steps before made and on the order in which the remote lists; a test has one listing in one order.", "anchors": ["augpathlib/caches.py: PrimaryCache.rchildren, _CachePath._make_child, _bootstrap_prepare_filesystem, PrimaryCache._meta_updater, _meta_setter", "augpathlib/remotes.py: RemotePath._cache_setter"]}
{"id": "C92", "title": "rmtree with onerror tells of all it could not remove", "statement": "`p.rmtree(onerror=f)` removes what it can below the absolute path, changes nothing else, and calls `f` for each thing that could not be removed with the function that would remove it, its path and the error; it raises only its refusals. When `f` was not called all is gone.", "quantifier": "All trees, paths, callbacks that only look on, and calls that fail at any point with any error number or an interrupt.", "why_tests_cant": "Which calls fail, at what depth and in what order, decides what is left and what the callback is told; a test makes one call fail.", "anchors": ["augpathlib/core.py: AugmentedPath.rmtree"]}
{"id": "C93", "title": "Metadata as a database entry, as a mapping, and its copies", "statement": "Reading a database entry written from a PathMeta gives metadata with the same values. `dict(m)`, `{**m}` and `m[k]` give the value of each field of `m`, KeyError for names that are not its attributes. `copy.copy(m)` and `copy.deepcopy(m)` have the values of `m`.", "quantifier": "All metadata, prefixes, keys, date parsers and every pickle format that gives back the dictionaries it was given.", "why_tests_cant": "Which fields have values and what their texts are decides what is stored and what positional arguments a copy is made from; a test has one record.", "anchors": ["augpathlib/meta.py: PathMeta.as_metastore, from_metastore, keys, __iter__, __getitem__, __reduce__"]}
{"id": "C94", "title": "What a link says, and following it by hand", "statement": "`p.readlink(raw=True)` is the exact text of the link p leads to and an OSError of anything else. `p.parent / p.readlink()` opens exactly what p opens.", "quantifier": "All trees, current directories, paths (through other links, with `..`), texts of links and calls that fail.", "why_tests_cant": "Where a text leads depends on the links above it, on dots and slashes in it and on the current directory; a test has one tree.", "anchors": ["augpathlib/core.py: AugmentedPath.readlink"]}
{"id": "C95", "title": "Programs that ask for the identifier of the machine at the same time", "statement": "Any number of programs that import the package at the same time on one machine get the same identifier, the one that later programs get; none gets that of an unfinished file.", "quantifier": "Any number of programs, every order in which their system calls take turns (also programs that stop half way), contents of both files, and uuids.", "why_tests_cant": "The outcome depends on how the calls of several programs interleave; a test sees one order.", "anchors": ["augpathlib/utils.py: sysidpath, _raw_id"]}
{"id": "C96", "title": "The metadata of a path is read from where it is kept", "statement": "The meta of a cached path is that of the path itself: what the attributes of the file or directory say, or the text of the link where there is no file, and None where nothing is kept; reading it changes nothing; what was read can be set again.", "quantifier": "All configurations, paths (also relative and through links), file systems, current directories, and schedules of system calls that fail.", "why_tests_cant": "Which of the three kinds of cache answers depends on what the path leads to through any chain of links and on which of its calls fail; tests look at a file, a directory and one kind of link.", "anchors": ["augpathlib/caches.py: EatCache.meta, SymlinkCache.meta, PrimaryCache.meta, PrimaryCache._meta_setter"]}
{"id": "C97", "title": "A limit of sizes is kept when fetching", "statement": "fetch with a limit in megabytes fetches exactly the files whose recorded size is below it: below the limit it does what fetch without a limit does, at the limit and above it, or where no size is recorded, it changes nothing at any moment and raises nothing.", "quantifier": "All configurations, paths, file systems, metadata, limits, and schedules of system calls that fail.", "why_tests_cant": "Tests would need files of many sizes around each limit and metadata of every form; the comparison goes through a rounded quotient.", "anchors": ["augpathlib/caches.py: RemotePath cache fetch (867-930)", "augpathlib/utils.py: FileSize.mb"]}
{"id": "C98", "title": "The release command is read as it is meant", "statement": "The text that PackagePath.command gives is read by a shell as the words build-release, owner, repository, folder below the directory of the repository, package name and next version, each as one word.", "quantifier": "All repositories with urls that are understood, package folders, package names, versions and file systems without failing calls.", "why_tests_cant": "Names of folders and packages are arbitrary texts; a shell gives meaning to many characters and their positions.", "anchors": ["augpathlib/package.py: PackagePath.command, arg_org, arg_repo, arg_folder, arg_packagename"]}
{"id": "C99", "title": "A version that is written is read back", "statement": "next_version builds its result by writing a version as a text and reading it again: this loses nothing. The text of every version that can be read is read as that version, the next version of any version that was read is read from its own text, and versions that differ in any part are written differently.", "quantifier": "All texts, all versions with any epoch, number of release components, phases and local part, and all phases asked for.", "why_tests_cant": "The grammar has many optional parts whose texts run into each other; that no two versions share a text is a statement about all pairs.", "anchors": ["augpathlib/package.py: next_version", "augpathlib/package.py: PackagePath.version, version_latest, pypi_version"]}
{"id": "C100", "title": "Running a setup.py leaves the process as it was", "statement": "Reading a package by running its setup.py runs the file of the innermost package around the path, in that package's directory; whether it returns or raises, afterwards the current directory, the level of the root logger and setuptools.setup are those of before, and the caller is given the result or exception of the file (with setup_use_kwargs: the arguments of the last call of setup that it made itself).", "quantifier": "All paths, file systems, and setup.py files that do anything to files, the current directory and the logger, call setup any number of times and run other setup.py files in the same way, nested to any depth.", "why_tests_cant": "A setup.py is an arbitrary program; tests run a few, and from a directory where relative paths happen to lead to the same place.", "anchors": ["augpathlib/package.py: PackagePath.setupfu, load_run_setup, setup_file, folder"]}
{"id": "C101", "title": "Zip paths answer as if asked for the first time", "statement": "What exists and rchildren of a path in or outside of zip files answer does not depend on what was asked before, of this path object or of others: it is the answer a new process would give.", "quantifier": "All paths, archives and contents, and all sequences of questions to any number of path objects in one process, between which the disk may change as long as the archives do not.", "why_tests_cant": "Answers are remembered per path object and per process, also half-way through a failing call; a test asks each object once or twice in one order.", "anchors": ["augpathlib/zip.py: ZipHelper.exists, rchildren, zip_path, _zip_path, _zip_relative, _zipcache"]}
{"id": "C102", "title": "A package path asks once for what it has been told", "statement": "Once an attribute of a package path (setup_dist, setup_kwargs, arg_packagename, module, module_init_file, pypi_json, github_json) has given an answer, every later reading of it gives the same answer and neither runs setup.py nor asks a server. Until then each reading asks again, once, and gives what this question was answered: neither failures nor None are remembered. module is the directory of the name that the first useful run of setup.py gave, if that name is among the packages.", "quantifier": "All sequences of readings of the attributes of one path object, all answers of setup.py, PyPI and GitHub, which may be different each time.", "why_tests_cant": "It is about all orders of readings and servers that change their answers; tests have no servers, and run setup.py in one process where its result is the same each time.", "anchors": ["augpathlib/package.py: setup_dist, setup_kwargs, pypi_json, github_json, module, module_init_file, arg_packagename, _sk"]}
{"id": "C103", "title": "Programs that set the metadata of one link at the same time", "statement": "When several programs set the metadata of one path that is a link (or nothing), then in every order of their system calls the path only ever has the metadata it had or metadata that one of them set and was told so; what is in the trash was there before or was at the path; no name vanishes from the trash; and when all are done the path has metadata: that of a program that got through, or the old if none did. If they run one after the other and no two identifiers have the same name in the trash, nothing that was ever at the path is lost.", "quantifier": "All numbers of programs, all orders of their system calls, all metadata, all states of the path and the trash.", "why_tests_cant": "It is about every interleaving of the calls of several programs; a test shows one.", "anchors": ["augpathlib/caches.py: SymlinkCache.meta setter, CachePath.crumple, CachePath.id, _trashed_path"]}
{"id": "C104", "title": "Programs that exchange the same two paths at the same time", "statement": "When several programs call swap_carefree on the same two paths, either way round and with or without renameat2, then in every order of their system calls both things stay somewhere, each once: at a path or in a temporary directory. When all return, the paths are as after that many exchanges and no temporary directory is left. At every moment something is at both paths.", "quantifier": "All numbers of programs, all orders of their system calls, all contents, both directions, renameat2 available to any of them.", "why_tests_cant": "It is about every interleaving of the calls of several programs; a test shows one.", "anchors": ["augpathlib/core.py: AugmentedPath.swap_carefree, swap", "augpathlib/swap.py: swap_linux"]}
{"id": "C105", "title": "Programs that fetch the same file at the same time", "statement": "When several programs fetch the file that one link stands for, then in every order of their steps: when all that began have returned, the file is there with all of its data and with metadata. At every moment the file that is there has no more bytes than the data, and each is that of the data or zero. One after the other all return. A program whose remote gives all data returns, what one has fetched stays, and the metadata of a file that is whole does not say that its checksum does not match.", "quantifier": "All numbers of programs, all orders of their steps, all data and all ways it is cut up for each of them, remotes that break off anywhere.", "why_tests_cant": "It is about every interleaving of several programs; the source (caches.py:874-884, 901) suspects such races from logs and could not settle it.", "anchors": ["augpathlib/caches.py: _CachePath.fetch, PrimaryCache.meta, _meta_setter", "augpathlib/core.py: LocalPath.data setter, _write_chunks_posix"]}
{"id": "C106", "title": "A file that is edited while it is updated", "statement": "While _meta_updater brings a cached file to the content of its remote, somebody saves the file at any moments, in place or by renaming a new file over it. What was saved last is at every moment at the path or in the trash, and at the path when the update raised. What is at the path when the update moves it to the trash, also when it was saved after the comparison with the recorded checksum, stays in the trash or is put back. It is moved only after its content was found to be the recorded one or that of the remote; with other content the update raises and leaves it.", "quantifier": "All contents, all chunkings and failures of the remote, all orders of the steps of the update and the saves of any number of editors, an exception at any step.", "why_tests_cant": "It is about every interleaving of the update with somebody else's saves, with failures in between.", "anchors": ["augpathlib/caches.py: PrimaryCache._meta_updater, _CachePath.crumple, fetch", "augpathlib/core.py: LocalPath.content_different"]}
{"id": "C107", "title": "A tree that others change while it is removed", "statement": "While rmtree removes a tree, others change that tree at any moments. rmtree changes nothing outside of the tree, and when it returns without ignoring errors nothing is left at the path, also not what was put there meanwhile.", "quantifier": "All file systems, trees and paths without links above the tree, everything others do to the tree before each system call of rmtree, every failure of the calls.", "why_tests_cant": "It is about every interleaving of the calls of rmtree with what other programs do to the tree.", "anchors": ["augpathlib/core.py: AugmentedPath.rmtree"]}
