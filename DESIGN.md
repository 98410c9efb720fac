# Formal model of augpathlib: design

The target is the Python package in `/repo/augpathlib`, read as text. The
model is written in Rocq (Coq 8.16.1) under `rocq/theories` and uses the Coq
standard library only.

## 1. Method

* The model is a shallow embedding.  Each Python function becomes a total
  Gallina function that follows the branches of the source in order.
  Exceptions are values (`res A := Ok a | Err e`), and unbounded loops take
  fuel and return an explicit out-of-fuel value.
* Operating system behaviour is an explicit state (`FS.v`): a tree of
  directories, files with content and extended attributes, and symbolic links.
  Lookups follow links with a bound of 40 expansions, as Linux does.
* File system functions run in a state/exception monad over a world that
  records every intermediate file system (for crash points) and consults a
  fault oracle before each system call (for failing calls).  Theorems that
  mention crashes or faults quantify over the oracle and over all recorded
  states.
* Listing order is the order of the entries in the tree, so quantifying over
  trees quantifies over listing orders.
* Hash functions, date parsing, remote servers are parameters (Section
  variables), never axioms.

Layout: `Model/` holds definitions with citations, `Spec/` holds the
independent specifications, `Proofs/` holds lemmas, `Props/` holds only the
final theorems (each closed by `exact`), their `Print Assumptions` and an
`Example` that meets the hypotheses.

When a natural property is false of the code we prove the strongest guarded
version and a theorem `..._refuted` with a concrete witness.

## 2. Plan per property

| id | modelled | proof |
|----|----------|-------|
| C01-C03 | `etag` object as state machine, hash abstract | invariant on (parts, remainder), induction on updates; divergence for all fuel |
| C04, C05 | `_data` generator loop, ranges with leaking loop variables | induction on remaining content |
| C06-C09 | symlink codec: encode, decode, as_symlink, from_parts, version table | lemmas on split/join/replace; per-field round trips |
| C10 | kernel path walk | invariant on number of link expansions |
| C11, C12 | xattr codec, UTF-8, prefix filter | per-field round trip, list induction |
| C13-C15 | `_update_meta` on an association of fields | field-wise reasoning |
| C16, C17 | content_different, `__eq__`, `__bool__`, the stamps that reading leaves in the dictionary of the object, extra values | case analysis; the dictionary of an object with extra values is that of the one without, and one entry more |
| C18 | pure paths | list prefix lemmas |
| C19-C22 | rmtree, rmdirtree over trees | nested induction on trees |
| C23, C24 | swap_carefree fallback | symbolic execution, crash history |
| C25 | copy_to, _write_chunks | symbolic execution, induction on chunks |
| C26-C28 | crumple, _meta_updater | symbolic execution with faults |
| C29, C30 | fetch | symbolic execution with faults |
| C31 | move | symbolic execution with faults |
| C32, C33 | cwd stack, context manager | induction on histories |
| C34 | sparse lookup over ancestors | induction on depth |
| C35, C36 | version arithmetic, PEP 440 key as spec | case analysis, lexicographic order lemmas |
| C37 | permission bits on N | bit-level reasoning with `N.testbit` |
| C38 | stat text parser | split/join lemmas |
| C39 | zip entry set closure | list induction |
| C40 | working_dir | induction on depth |
| C41, C42 | git state with stash stack | case analysis |
| C43 | fs_safe_id | list induction |
| C44 | pretty diff merge | counterexample, guarded theorem |
| C45 | memo state machine | induction on histories |
| C46 | symlink cache setter decision | case analysis |
| C47 | remote parent chain | induction on depth |
| C48 | bootstrap filter | induction on remote trees |
| C49 | xattr writer over existing attributes | overlay of the two metadata; exact iff; refuted otherwise |
| C50 | permission bits against the POSIX class rule | bit-level reasoning; refuted for modes giving wider classes more |
| C51 | command texts of ssh remotes against a POSIX word reader | counting argument over the reader's states; exact sets of paths |
| C52 | `ZipHelper`: `zip_path` over the parts of a path, with `is_zipfile`, the contents and the disk as oracles | induction over the parts from the root; `_refuted` for `exists` outside of archives |
| C53 | `init`, `repo`, `repo_relative_path` over the file system, git calls as oracles | on top of C40; the stale-cache branch shown unreachable while what is remembered is there |
| C54 | `children`, `rchildren` with pathlib's `rglob('*')` over the file system | induction on the depth of the tree; the anchor's branch entry by entry |
| C55 | `find_cache_root` over an arbitrary cache class, with the set of variants in any order | induction over the way up; the last cached directory is the answer |
| C56 | `skip_cache` over an arbitrary cache class | direct, from `relative_to`; witnesses for the rest |
| C57 | `local_data_dir_init` over the file system with failing calls | invariant over every state of the run; exact runs in the good cases; witnesses for the rest |
| C58 | the class variables beside the file system; all calls that read or set them | per call, by cases; single calls from any state, so also sequences; witnesses for the rest |
| C59 | `dedupe` on what it reads of the two caches: ids, metadata, times of the local files | by cases on the comparisons; the witness of a tie |
| C60 | `validate_file` over the file system of C26; logged messages are its result | reading without change, from C29; C04 for the etag; witnesses for the rest |
| C61 | `update_cache` and `refresh` over `_meta_updater`, `move` and `crumple` of C26, C27 and C31; name, parent id, metadata and target of the remote are arbitrary | the runs of `_meta_updater` and `move`, from arbitrary worlds, composed; witnesses for the rest |
| C62 | `_ssh`, `is_dir`, `is_file` and `children` as functions of what is on the terminal before the prompt; what stat and the checksum programs print, with their escapes, in the specification | the lines are told apart by the separators, which no readable line has; the reading of one line is C38 |
| C63 | the parents as a list of paths with what each says of its metadata, `mkdir_cache` over the file system with links and faults | that paths lead where they led when directories are added; one invariant over all calls; without faults each new directory has the attributes of C11 |
| C64 | `cache / remote` and `children` as a loop over children with arbitrary answers, over `_meta_updater` of Cache | one step from any state for files, directories, links and nothing (C26, C29 and C30 with what they leave alone); induction over the list |
| C65 | `_meta_updater` and `fetch` of Cache, `_update_meta` of MetaUpdate | triples over the steps of an update that ends without an error; case analysis over the fields for merging twice |
| C66 | `urlparse`, `with_suffix`, `_remote_helper`, `_remote_uri`, `remote_uri_api`, `clone_path`, `arg_org`, `arg_repo` over what git tells | computation of the cuts for arbitrary names; what is read back by the model of `urlparse`, not by the way it was put together |
| C67 | `pypi_json` with its memory over an arbitrary sequence of answers, `version_latest_pypi`, `version_latest_released` (a stable sort), `version_next`, `bump` up to its breakpoint | the last of the sorted releases is a maximum in PEP 440's order; with C35 the next version is above it; cases of the answers |
| C68 | `tag_latest_github`, `version_latest_github`, `tag`, `version_tag`, `commits_since_last_release` over a line of commits with tags | induction over the lists of tags and commits; the commits after a release are an inductive relation that does not search for tags |
| C69 | `folder`, `setup_file`, `tag_prefix`, `arg_folder` over the file system; `innermost` is a relation on prefixes of the path that does not search | induction over the parents of the path; `working_dir` from C56; resolved paths from their place |
| C70 | `getRef`, `currentRefName` over the references and the line of `git name-rev`; the answer of git is a separate function of the reference | case analysis on the kind of reference, lemmas on words and on cutting at a slash |
| C71 | `FileSize.hr` as modelled for metadata (Meta): conversion to a double, division and rounding half to even over N; reading the text is a separate relation | rounding is monotone and exact on multiples; doubles are a fixed point of the conversion; induction over the units |
| C72 | `fetch`, the setter of `data`, `_meta_setter`, `_meta_updater` as in C28-C30; `other_end` gives the first attempt another remote; crash states are the `states` of a run | direct run without faults from a file or a link (FetchLive); C30's crash states keep the fields a fetch needs, so the run lemma applies to each; witnesses for links, updates and empty files |
| C73 | `mkdir_remote`, `cache_init` with metadata, `CachePath.remote`; `_mkdir_child` and `exists` of the remote are parameters that may depend on all that was made before; the log of what was made is the state of the remote | invariant on both sides at every moment with any failing call; run without faults by induction on the missing parts; witnesses where it is false |
| C74 | `_do_diff`, `diff`, `modified`, `indexed`, `has_uncommitted_changes`, `add_index`, `commit_from_working_tree` on the git state of C41; `git diff` between working tree, index and commits with GitPython's treatment of index objects; pathspecs, with wildmatch and magic as variables | entries of a diff are complete and true, the first is least in the order of paths; witnesses and failures for all states where it is false |
| C75 | `show`; `git show ref:path` with stages; GitPython strips one newline of the output; UTF-8 with `surrogateescape` both ways | decoding and encoding with escapes is the identity on all bytes; the rest by cases |
| C76 | `commits`, `latest_commit`; `git rev-list -- path` on a line of commits | induction on the history |
| C77 | `sysidpath`, `_raw_id`, `_bind_sysid_` for this machine and for SshRemote, `urlsafe_b64encode`, `LocalPath.id` on the file system with faults; access(2), the size of directories and the digest are variables | a file written at one place keeps where all other paths lead; base64 by groups of three bytes |
| C78 | `copy_to`, `copy_from`, the setter of `data` with and without a cache, `cache_init` on the file system with faults, and attributes with encodings | a program logic over all states of the target; fields read, written and read again are the same, by cases on the encodings; a run for the liveness |
| C79 | generators with `next` and `close`, `_data_setter` with the buffer of its file, chains of them, consumers, on the file system with faults | an invariant of an open chain (what is in a file and in its buffer is what was given), by induction on the chain and on the chunks |
| C80 | a machine whose events are the calls of all users of an archive, with `__fd` shared by equal paths | an invariant over the trace: what each reader was given is the beginning of its entry and its file is at that position, and nobody else owns the file; a second one for a reader that is alone |
| C81 | `ADSHelper` on a small model of NTFS streams whose upper case table, legal names and order are parameters; `XattrHelper` on the posix file system | each call refines a step of an abstract store (content and a partial function on texts), on both sides; histories of the same store give the same answers |
| C82 | `repo`, `init`, `clone_from`, `RepoPath.rmtree` with the table `_repos`; an object is its directory and the moment it was made, the file system keeps its history | invariant over reachable states: a remembered object is of a repository that has been there since, or is not there now; `rmtree` only prunes, in each state and after each failure |
| C83 | `SshRemote.__new__`, `init`, `id`, `parent`, `parents`, `__eq__` on paths and texts, for python before 3.12 | the text of a path determines it (C17's lemmas), a host has no colon; `parents` by induction on the components |
| C84 | the loop over `old_local` on sets of paths; the order of a set is any permutation, passes are fuel | one pass refreshes exactly the cached ones and leaves exactly those whose text begins with no text refreshed, which no later pass changes |
| C85 | `size` and `_stat` on the tree; the program stat is an oracle that prints the line of C38 for the thing itself, in quotes | the stripped line is the line of C38 with the quotes at the beginning of the name lost, then C38's parser lemmas |
| C86 | `splitroot` on texts by index, and pathlib's function (3.11) written separately as the specification | case analysis on the long prefix, shares, colons and separators; the text is put together again by lemmas on `find` |
| C87 | the object as the path and the list of names over the disk of C81; the specification is a map of names and a map of what lies in the current directory | invariant that the list and the streams hold the same names without repetition, kept by each call; induction on the calls |
| C88 | `mimetype`, `encoding` with quoting and the lookup of the standard library; the table of types is arbitrary; the specification looks up the name itself | quoting commutes with cutting the suffix; directories before the name do not matter; runs by cases on where the path leads |
| C89 | the objects as a heap with the references and ids they remember, the metadata on disk as a map from paths to ids; the specification speaks of paths and of the map only | an invariant of the heap kept by every call that puts no id in the place of another; traces computed for the rest |
| C90 | `cache_init` over the file system of Fs with the caches of Cache; the remote is an oracle from names below the anchor to metadata and kind; the specification says which directories are there and what is recorded with them | runs computed for all trees without failing calls, by induction on the depth |
| C91 | `rchildren` as a fold over what the remote lists, each with the metadata update of Cache over the file system of Fs; the remote is an oracle from names to metadata and kind; the specification says what stands at which place and what is recorded with it | runs computed for a new directory and a new link, then by induction on the list with what was listed before; with failing calls and with things here already by an invariant of every state, each step changing only its place and its names in the trash (Hoare triples of Proofs/OnlyProofs.v and those of C64), carried along the list |
| C92 | `rmtree` with a callback as a run that gives the calls made beside the result; the variable `path` as an optional value, so that its use before it is set is UnboundLocalError; the specification speaks of places in the tree, states of the run and the paths told | induction on the nesting, with the run without callback as reference when no call was made |
| C93 | `as_metastore` and `from_metastore` over any pair of functions for pickle; the instance dictionary gives the keys; `__reduce__` followed by what Python's copy module does with it, a call with the keys by position | C11 for the entries; case analysis of the instance dictionary; the second positional argument of a copy is always the name of a field, which is no number |
| C94 | `readlink` over the tree of Fs; the specification says what a path opens and with what it refuses | lookup of a path splits at any of its names, with the links that are left; dots in a text make no difference but at its end; fewer links give the same or ELOOP |
| C95 | `sysidpath` and the checksum of the file as a program counter with one system call per turn, over a shared file; a run is a list of whose turn it is | an invariant of all programs and the file, by induction over the turns; a program alone is compared with the model over a file system (C77) |
| C96 | the three getters as in the other properties (`eat_meta`, `symlink_meta`, `cache_meta`), against what opening the path opens and what is there without following | each test of the path is decided by where the path leads; the cases are put together call by call, with failing calls |
| C97 | `fetch` as in C26, C72; the comparison of `FileSize.mb` with the limit through conversion to a double | the test on the size is decided from the recorded size alone; both sides run the same calls before it |
| C98 | `command` from owner and repository (C66), folder (C69), the name setup.py gives and the text of the version as `packaging` writes it; the shell is that of C51 | a text of words with one blank between them is read as these words exactly if each can stand without quotes, by counting characters |
| C99 | the grammar of PEP 440 as `packaging` reads it (Model/Pep440.v), and its writing of a version (Model/Command.v) | each part of a text is read up to where the next part begins, since no part begins with a character that could belong to the one before; `next_version` keeps what makes a version one that can be written |
| C100 | `setupfu` and `_run_setup` with programs that nest; the runner of distutils is arbitrary; `with` is that of C33, the folder that of C69 | the folder of an absolute path does not depend on the current directory; runs that are over are never written to again, by induction over the program |
| C101 | `ZipHelper` with what each path object and the class remember, in histories of questions and changes of the disk | an invariant of what is remembered (it is what the disk says now), kept by every question; `_refuted` by witnesses for archives that change and for those that cannot be opened |
| C102 | the attributes with what the object remembers and the questions it asks, where answers come in a stream | an invariant of histories: what was answered is known and is read without a question, the numbers of questions so far; runs of setup.py by a second invariant (all runs so far were useless, or the first useful one is remembered) |
| C103 | the setter and crumple call by call, and any number of programs that take turns | invariants of all lists of turns: where what is at the path and in the trash comes from; nothing has happened yet, or a link was made, or one is about to be made; a run of a program alone as one function |
| C104 | `swap_carefree` and `swap` call by call, and any number of programs that take turns | an invariant of all lists of turns: who has what belongs at which path, and the parity of the exchanges made; the run of one program compared with the model of C23 |
| C105 | `fetch` in steps that change the disk by at most one call, files by number with open descriptors, and any number of programs that take turns | an invariant of all lists of turns: who unlinked last is on the way to open the file, and who cut it last has written its beginning; witnesses for the rest; the run of one program compared with the model of C29 |
| C106 | `_meta_updater` in steps, with the steps of C105 for the fetch, saves by others and an exception at any step as events | an invariant of all lists of events: before the move the last save is at the path, after it the moved file is in the trash and nothing writes to it; witnesses for saves in between; the undisturbed run compared with the model of C26 |
| C107 | `rmtree` with an arbitrary change of the file system by others before each of its system calls | an invariant of the run: outside the tree nothing differs, and where there was no link there is none later, so a path that was tested leads where it says; a witness where others make links; equal to the model of C19 when others do nothing |

## 3. Trusted base

### 3.1 Kernel and axioms

* Coq 8.16.1's kernel, with its virtual machine (`vm_compute` is used in examples,
  in witnesses and in a few finite case checks).
* `Print Assumptions` stands under every property theorem in `Props/` and prints
  **"Closed under the global context"** for each of them: no axiom, of the standard
  library or other, is used by any theorem named in `MANIFEST.json`.  The build
  prints this for all of them (`make 2>&1 | grep -c Closed`).
* No axiom, parameter, admitted proof, functor, module type or plugin is in the
  development.  Everything external is a `Variable` of a section that is closed, so
  each theorem quantifies over it, or an argument of the function.

### 3.2 What stands for the world outside

None of this is checked against a running system; it was written from the documentation
and the sources.

| what | where | meaning and simplification |
|------|-------|----------------------------|
| Python values | `Model/Py.v` | strings are lists of code points, bytes lists of bytes; `split`, `join`, `replace`, `int()`, `hex`, UTF-8 with surrogateescape; dictionaries are association lists.  Numbers of more than 4300 digits, which Python 3.11 does not convert to text or from it, are converted here.  Floats appear only as exact decimals (`float()` of `stat`'s output, C38). |
| pathlib | `Model/PurePath.v` | parsing, joining, parents, `relative_to`, `commonpath` of `PurePosixPath` of Python 3.11. Drives and Windows are out. |
| file system | `Model/Fs.v` | a tree with files (content, extended attributes), directories and links.  No hard links, times, permissions, devices, special files, no other processes.  A failing call has no effect.  A schedule of faults (`w_fault`) may make any call fail with any errno; theorems quantify over it. `honest` schedules do not claim ENOENT, ENOTDIR or ELOOP falsely: stated in each theorem that needs it. |
| crash points | `w_hist` | every state after a call is recorded, "at every state" means all of them.  Writes of a chunk are one call; Python's buffering and the kernel's page cache are not modelled. |
| temporary names | argument | `tempfile` gives any list of names (C23, C24). |
| hashes | variables | any function of the bytes (`md5` in C01-C03, `H` indexed by algorithm elsewhere); where collisions matter the theorem says so.  Digests are never empty. |
| dates | variable `dateparse` | any function; hypotheses such as `gives_dates` say what is needed.  `legacy_stamp` for the old binary form of times. |
| remotes | records | the same during a call; what they answer is arbitrary data. |
| ssh, shell | `Model/Shell.v` | a POSIX word reader (quotes, backslash, `$`, backquote as markers of expansion); no history expansion, no terminal control characters.  `repr()` uses an arbitrary table of printable characters. |
| git | `Model/Git.v` | references with lists of commits, index, working tree, stash; `stash push`, `stash --all`, `checkout`, `commit`, `stash pop` without `--index`.  No modes, links, submodules, ignored files as a separate kind, hooks other than a failing commit; contents merge by an arbitrary function; a stash that does not apply leaves nothing behind.  `git diff`, `diff-tree`, `rev-list`, `show` on lines of commits without renames and modes, and what GitPython makes of its arguments and of the output (`Model/GitQuery.v`); wildmatch, pathspec magic and the parsing of revisions are arbitrary. GitPython's `Repo`, `init`, `clone`, `close` are arbitrary (`Model/Repo.v`) and say the `working_dir` of the object; opening a repository that is there by a path without `..` and `$` is assumed to work and to keep the path (C53), opening and closing are assumed to change no files (C82). |
| zip files | variables | `is_zipfile`, the list of entries, and the disk are arbitrary; the archive does not change. |
| home directory | variable `home_of` | any function (C40, C53). |
| PyPI, GitHub | variables | the answers to the requests in their order are arbitrary (C67, C68); of them only versions and names of tags. |
| history of a package | `Model/PackageTags.v` | a line of commits with tags; `git describe --match`, `git log tag..HEAD -- files`; `..HEAD` is empty. |
| `urllib.parse` | `Model/RemoteUri.v` | `urlparse` of Python 3.11; query and fragment are dropped, hosts in brackets and outside ASCII are not checked. |
| `packaging.Version` | `Model/Version.v` | its named tuple; `Version(str(v))` is `v`, which C99 proves of the grammar in `Model/Pep440.v` (texts of ASCII).  The order is PEP 440's key, in `Spec`. |
| clock | `Model/LocalMeta.v` | `stat` times are arbitrary integers. |
| NTFS | `Model/Ads.v` | files with named streams; names are found by the table `up` of the volume, which streams are legal and in which order they are found are arbitrary; opening a stream to write makes its file, opening a file to write drops its streams, `..` is taken out of a path as text, listing what is not there finds nothing (C81). |
| pyxattr | `Model/Sparse.v`, `Model/Ads.v` | `namespace` and a dot before the name; the `errno` module of Python on Linux (no `ENOATTR`). |
| access(2), size of directories | variables `readable`, `dirsize` | any answers, the same during a call (C77). |

### 3.3 Modelled code

Each definition cites the lines it follows.  Simplifications are stated in the head of
the file and at the definition.

| file in `augpathlib/` | modelled (functions; model file) |
|------|------|
| `core.py` | `XattrHelper` and the sparse marks (Sparse); `exists`, `is_file`, `is_dir`, `is_symlink`, `is_broken_symlink`, `rmtree`, `rename` (PathOps); `commonpath`, `to_relative`, `relative_path_to/_from` (RelPath); `swap_carefree`, `swap` (Swap); `rmdirtree` in both versions (Rmdirtree); `chdir`, `pushd`, `popd`, context manager (Cwd); `checksum`, `_data`, `data`, `etag` (Data); `copy_to`, `copy_outto`, `_write_chunks`, `data` setter (Copy); `content_different` (Cache); `_meta_maker` (LocalMeta); `children`, `rchildren` of local paths (Listing); `find_cache_root`, `skip_cache` (CacheRoot); `cache_init` (Anchor); `mkdir_cache` (MkdirCache); `mkdir_remote`, `cache_init` with metadata (MkdirRemote); `LocalPath.id` (Sysid); `copy_to`, `copy_from` with metadata, the setter of `data` (CopyMeta); `_data_setter`, `data` as a generator (Tee); `ADSHelper`, `_write_chunks_ntfs` (Ads); `LocalPath.size`, `LocalPath._stat` (LocalSize); `splitroot`, `_registry_drives` (SplitRoot); `mimetype`, `encoding` (Mime); `LocalPath.cache`, `remote`, `cache_init` as references between objects (Triangle); `AugmentedPath.rmtree` with `onerror` (RmtreeOn); `AugmentedPath.readlink` (Readlink); `swap_carefree` and `swap` call by call with several programs (SwapRace); `rmtree` with others who change the tree (RmtreeRace) |
| `caches.py` | `__enter__` (Cwd); `trash`, `_trashed_path`, `crumple`, `local_object_cache_path`, `_instance_cypher`, `id`, `fetch`, `move`, `EatCache`, `SymlinkCache`, `PrimaryCache` getters and setters, `_update_meta`, `_meta_updater`, `SshCache` (Cache, MetaUpdate); `bootstrap`, `_bootstrap`, `_bootstrap_recursive`, `_bootstrap_prepare_filesystem` (Bootstrap); `is_sparse` (Sparse); `local_data_dir`, `local_objects_dir`, `local_data_dir_init` (DataDir); `anchorClassHere`, `weighAnchor` (Anchor); `dedupe`, `validate_file` (Validate); `refresh` (UpdateCache); `__truediv__` of a remote, `_make_child`, `PrimaryCache.children` (CacheChildren); the loop over `old_local` in `_bootstrap_recursive` (BootstrapOld); `_CachePath.__new__`, `remote`, `local`, `id`, `CachePath.__init__` as references between objects (Triangle); `PrimaryCache.rchildren` to its end (CacheRchildren); `SymlinkCache.meta` setter and `crumple` call by call with several programs (LinkRace); `fetch` in steps with several programs (FetchRace); `_meta_updater` in steps with somebody who saves (EditRace) |
| `remotes.py` | `access` (Access); `stat` texts (Stat); the commands of `data`, `checksum`, `_stat_cmd` (Shell); `_parts_relative_to`, `parts`, `parent`, `parents`, ssh `parent`, `id`, `rpath` (RemoteTree); `anchorToCache`, `anchorTo`, `_get_local_root_path`, `dropAnchor`, `smartAnchor`, `weighAnchor` (Anchor); `_parent_changed`, `update_cache` (UpdateCache); `_cache_setter` (CacheChildren); `_ssh`, `is_dir`, `is_file`, `children` over ssh (SshList); `SshRemote.__new__`, `SshRemote.init` (the name), `id`, `SshRemote.parent`, `parents`, `__eq__` (SshName); `RemotePath.__init__`, `cache`, `_cache_setter`, `local` as references between objects (Triangle); `RemotePath.cache_init` (RemoteInit) |
| `meta.py` | all of `PathMeta`, the symlink, xattr and encoder classes, `rows` and the diff of the pretty printers (Meta, MetaEncode, MetaSymlink, MetaXattr, Pretty); `as_metastore`, `from_metastore`, `keys`, `__iter__`, `__getitem__`, `__reduce__` (MetaMapping) |
| `utils.py` | `fs_safe_id` (Access), `FileSize` (Meta, MetaEncode), `StatResult` (Stat), `etag` (Etag); `sysidpath`, `_raw_id`, `_bind_sysid_` (Sysid); `sysidpath`, `_raw_id` call by call, for programs that take turns (SysidRace) |
| `swap.py` | `swap_linux` with renameat2 as one call; its error number -1 is EIO here (Swap) |
| `pyads.py` | `ADS` (PyAds) |
| `zip.py` | paths, `exists`, children, `zip_path` (Zip); `data`, `open`, `close` of an entry as events in any order (ZipRead); what paths and the class remember (ZipMemo) |
| `repo.py`, `repo_patch.py` | `init`, `repo`, `working_dir`, `repo_relative_path` (Repo); `commit`, the context of a reference (Git); `getRef`, `currentRefName` (RefName); `clone_path`, `_remote_helper`, `_remote_uri`, `remote_uri_api`, `remote_uri_human`, `remote_uri_machine` (RemoteUri); `diff`, `_do_diff`, `modified`, `indexed`, `has_uncommitted_changes`, `add_index`, `commit_from_working_tree`, `show`, `commits`, `latest_commit` (GitQuery); `clone_from`, `RepoPath.rmtree` (Repo) |
| `package.py` | `vinc`, `current_state`, `logic`, `cons_next`, `next_version` (Version); `arg_org`, `arg_repo` (RemoteUri); `folder`, `setup_file`, `tag_prefix`, `arg_folder` (PackageFolder); `pypi_json`, `version_latest_pypi`, `version_latest_released`, `version_next`, `bump` up to its breakpoint (Package); `tag_latest_github`, `version_latest_github`, `tag`, `version_tag`, `commits_since_last_release` (PackageTags); `command`, `arg_rest` (Command); `parse_version`, of `packaging` (Pep440); `load_run_setup`, `setupfu` (Setup); `setup_dist`, `setup_kwargs`, `pypi_json`, `github_json`, `module`, `module_init_file` as attributes that are remembered (PackageMemo) |

### 3.4 Code that is not modelled

* Windows: `XopenWindowsHelper`, `machine_guid`; the structures and handles of
  `pyads`.
* Wrappers around other programs and libraries: magic, `xopen`, `access` of
  local paths, GitHub and PyPI
  requests, the contents of `setup.py` (C100 has any program), pexpect sessions, terminal tables,
  loggers.
* Class plumbing: flavours, `__new__`, `_new`, `setup`, pickling of paths and of `PathMeta` itself, `repr`.  Bound classes
  share their anchors (`Model/Anchor.v`); the api of the remote is arbitrary.
* `refresh` of remotes: in the theorems on caches it is a parameter confined to the path;
  the remotes of the package meet this (C61).  `recover_meta`.
* `SqliteCache` stores nothing; `ReflectiveCache` only returns the metadata of the file.

## 4. What the proofs found in the code

Statements that are false of the code have a theorem `..._refuted`.  In short:

* etag: a `digest` inside a block leaves a stray part, so that the final etag counts one part too many (C02);
* `PathMeta.__eq__` goes through `__dict__`, and reading `created` or `updated` that was given as text adds an entry to it: metadata whose stamps were read raises AttributeError when compared with equal metadata whose stamps were not (C17); two texts of one moment make metadata unequal although all that can be read is the same; the same with extra values on the left alone;
  a range of exactly one chunk raises UnboundLocalError, or is cut to the length of the range before (C05).
* symlink metadata: the id `#` and ids with `|` or `!` are silently changed (C07); the version `meta` cannot be
  read (C09).
* xattrs: names that are not UTF-8 break reading (C12); fields missing in the new metadata keep the
  old value (C49).
* merging: a change of id overwrites `old_id`, unknown fields are dropped (C13); errors of the old file pass to the new (C15);
  `content_different` raises when only one time has a zone (C16).
* `rmtree` guards compare texts (C20, C21); `swap_carefree` strands or leaks (C24) and the
  relative `renameat2` exchanges other entries (C23); `swap` raises for names that are not UTF-8 (C24).
* copying an empty file raises, onto itself cuts it (C25).
* the trash replaces entries whose ids are equal once made safe (C27); local content with the checksum
  of the new metadata is replaced (C28); the class's algorithm is used instead of the metadata's (C29);
  the link is removed before its file is there (C30); `move` swallows failing renames (C31).
* a failed `pushd` leaves its entry (C32); `with cache:` of what is no directory raises TypeError (C33); `is_sparse` of relative paths and of caches, and
  of paths with nothing there: `getxattr` looks up `errno.ENOATTR`, which Python has not on Linux, so that every
  error other than ENODATA becomes an AttributeError (C34).
* `stat` texts: names ending in a blank, negative times (C38); commands of ssh remotes are not quoted for
  all names (C51); `access` is not POSIX's class rule (C50).
* zip: `exists` raises outside of archives (C52); `working_dir` is wrong for `~` and `..` (C40); the branch of
  `init` for a stale cache is not reached while the directories of the remembered objects are there; a repository made through
  a link, or found by a path with `..`, has another `working_dir` than its path, and `repo_relative_path` raises (C53).
* `commit` may commit and drop an older stash (C41); a reference context may restore the wrong stash, and a tag
  leaves everything stashed (C42).
* the memo of local metadata survives a failed read and gives old metadata for new content (C45).
* `_bootstrap_recursive` ignores `only` and `skip` (C48); the parts of a remote with a cache start with the
  anchor's own name (C47).
* at the anchor `.git.bak` is hidden like `.git`, links to directories are followed, also back to what is hidden, and
  unreadable directories are left out of `rchildren` in silence (C54).
* `find_cache_root` gives the outermost cached directory, of another project if there is one further up, nothing at all
  if `/` has metadata, and with a link on the way an answer that depends on the order of a set (C55).
* `skip_cache` is True of every path that has a cache, raises TypeError outside a project, and does not agree with
  `children` on names such as `.git.bak` (C56).
* `local_data_dir_init` makes no trash where the link is there already; a relative place for the objects is read from
  two directories, so that the second run raises; the place need not exist (C57).
* `smartAnchor` takes any directory with the name of the root and a cache, whatever its id, and does not anchor the
  cache class; before python 3.12 `anchorClassHere` moves an anchor that is there and then raises; `dropAnchor` on a file
  raises after it has written metadata on the file (C58).  `setup` of the path classes uses an undefined `self`.
* `dedupe` of two caches with the same times keeps whichever is asked, even with different sizes; it removes nothing,
  `pretend` or not; metadata without a time raises a TypeError (C59).
* `validate_file` cannot record a checksum that does not match: `meta` has no setter, so it raises an AttributeError; an
  etag that does not match is only logged; in a class whose algorithm is not blake2b, files whose blake2b checksum is
  right are refused (C60).
* `update_cache` fetches the new content before it moves: where another file's link has the new name it raises with the
  cache already changed (C61).  `refresh` of a cache passes arguments that the remotes of the package do not take: always
  a TypeError.
* `children` of an ssh remote fails for every directory without an entry that is not hidden, the empty ones among them, for one file with a
  backslash in its name, and for paths of more than about 80 characters; `is_file` is false of every empty file, of which
  stat says "regular empty file" (C62).
* `mkdir_cache` gives metadata to directories it makes only, so that one interrupted after making a directory, or one where the directory was there
  without metadata, leaves it without; calling again does not help (C63).
* Going over the children of a cache loses the content of a local file where two children have ids that are the same once `:` became `-`:
  both go to the same name in the trash (C64).  A remote name such as `../o` updates a file outside of the directory (C64).
* The address of a path on GitHub drops what is after the last dot of the name of a repository where the url does not end in `.git`; `ssh://git@github.com/...` raises;
  `git@github.company.org` is taken for GitHub; names are not quoted; the clone of a local clone is given the branch of the other one (C66).
* `version_next` raises an AssertionError as soon as a pre-release is the newest release after a final one, for every phase asked for, since PyPI's version is then not the newest;
  when PyPI does not answer it gives the version in setup.py, which may be released or older, and `bump` can reach the branch that should never be hit (C67).
* For a package in a folder a tag of another one is taken for its own if it has the name in it (GitHub) or begins with the name and a dash (history): the version is wrong or unreadable and commits are missing;
  tags like `v1.0` are not seen; before the first release `commits_since_last_release` is always empty (C68).
* `tag_prefix` depends on how the path is written: a relative path through a link to the top of the repository says that there is a prefix, the absolute one that there is none; a repository
  without `setup.py` below a directory that has one is taken for that package and `arg_folder` is `.` (C69).
* On the commit of an annotated tag `currentRefName` gives `2.0^0`, on one of a remote branch `remotes/origin/b`, neither of which `getRef` knows; behind a tag it gives `3.0~2` although such names are
  left out on purpose for branches; a branch with the name of the tag is found instead of the tag; on a branch without a slash it gives None, on one with a slash its name (C70).
* `FileSize.hr` of 1048575 is `1024K`, not `1M` (C71).
* An update interrupted after the old file went to the trash is never made good: the next update with the same metadata returns False and leaves no file, an empty file or a cut one (C72_update_refuted).
* A fetch of a link interrupted between unlink and the first attribute loses the metadata (C72_link_refuted).
* An empty file cannot be fetched: `next` on the remote's data raises StopIteration (C72_empty_refuted).
* `mkdir_remote(parents=True)` with no cached directory above returns None and makes nothing (C73_silent_refuted); with a file in the way it makes the remote directory and raises, and again each time it is called (C73_file_refuted); where the remote was deleted it makes a new one but keeps the id of the old (C73_stale_refuted); without an anchor the local directory gets no metadata (C73_no_anchor_refuted).
* `indexed()` and every `diff` to the index raise in all states, since GitPython does not take an index object there (C74_indexed_refuted, C74_to_index_refuted); `diff(ref)` is told from `ref` to the working tree, not from it as documented (C74_back_refuted); new files have no uncommitted changes (C74_untracked_refuted); a file called `a*` gets the change of another (C74_pattern_refuted), one called `:c` none (C74_colon_refuted); for a removed file asking raises (C74_gone_refuted).
* `show(ref)` loses the newline at the end of every file that has one (C75_newline_refuted); `show('')` of a file called `0:a` returns the file `a` (C75_stage_refuted).
* `latest_commit` of a file called `a*` is a commit of another file (C76_pattern_refuted); before the first commit ValueError is raised (C76_unborn_refuted).
* Taking the identifier of another machine that has neither file writes a new one on this machine, over its own (C77_remote_refuted): `open(failover)` of utils.py:82 is the local one. A directory `/etc/machine-id` (as container engines make for a missing mount) makes the import fail with TypeError (C77_directory_refuted); an own file that may not be read is overwritten each time (C77_unreadable_refuted); `/etc/machine-id` appearing later changes all ids (C77_appears_refuted); relative paths have the same id in all directories (C77_relative_refuted).
* `copy_to(..., copy_cache_meta=True)` overwrites first and asks afterwards: from a source without metadata the copy is there when AttributeError is raised (C78_no_meta_refuted); forced over a file with metadata it leaves the content of one file with the metadata of another (C78_mixed_refuted); forced over a link it writes through it before it raises (C78_link_refuted). Attributes that are no fields are not copied (C78_attribute_refuted).
* `_data_setter` loses errors: when the consumer stops, the files that are not the last of the chain are closed by the garbage collection of their generators, and an error of the last write is dropped (C79_silent_refuted: two chunks taken, none in the log, no exception). From an empty source it raises RuntimeError and makes no file (C79_empty_refuted). A consumer that stops leaves a cut file where a whole one was (C79_cut_refuted).
* `ZipInternalPath.data` closes what the shared path object opened last: when one reader is done the file of another reader of the same entry is closed, and that one gets ValueError in the middle (C80_two_readers_refuted); so does one who used `open` (C80_file_refuted). Reading a directory or an entry that cannot be opened raises BaseException('TODO') in place of the error (C80_base_exception_refuted).
* attributes on Windows (C81): keys that differ in case are one; setting one on a path with nothing there makes an empty file, and `xattrs` of it is `{}` where posix raises; the namespace is compared without its dot, so that `user2.k` is listed as `.k`; bytes keys can be set but not read; relative names of one letter raise ValueError; a key with `/../` writes another file; `_streamname` always raises TypeError; `delxattr(fail=True)` raises different exceptions on the two.
* `init` of a relative path remembers the object under the relative path, `repo` asks under the absolute one, so that after the directory above a repository was removed and the repository was made again by a relative path, `repo` gives the object of the removed one (C82_refuted).
* names of ssh remotes (C83): with an anchor that is relative to the home, a remote made from its id is another one; the text of a relative path that begins with `host:` loses that; the root is its own parent; equal remotes can have different parents; comparing with a text that is not empty raises AttributeError; remotes define `__eq__` without `__hash__` and cannot be keys.
* bootstrapping (C84): a local directory that has no cached metadata, is not on the remote, and whose path does not begin with the text of one that is gone, makes the recursive bootstrap run forever; `old` and `old-notes` are taken for one below the other.
* sizes (C85): a link that leads nowhere has a size, the length of its text; when the first call fails, a link to a file has the size of the link; with two blanks in the name ValueError is raised instead of OSError.
* drives (C86): paths in the registry are never absolute, as the colon is left in the rest; `Hklm:` is not known while `hklm:` and `HKLM:` are, so that texts that differ in case only are different paths; a separator is lost when two follow the long prefix (so does pathlib).
* stream objects (C87): a file added from another directory is stored under its last part and listed under all of its name, so that the listed name can be neither read nor deleted; deleting with another spelling takes the stream away, answers False and leaves the name in the list.
* types (C88): a suffix with a character that URIs quote, such as `.c++`, is never found; a link has the type of its own name when its path is absolute and of its target's when it is relative; the encoding of a relative broken link, as which caches are stored, is by its target.
* objects (C89): an id that was read is not read again, so two objects for one path disagree after one of them sets another id; a cache that gets another id keeps its old remote; a local path keeps its cache after the metadata is gone; when `_cache_setter` fails, or refuses a cache that is not primary, the cache still leads to the remote, but the remote not to the cache; before the first anchor a relative path gets a new remote each time, or NoCachedMetadataError when the working directory has no metadata.
* `remote.cache_init(parents=True)` (C90): when two or more directories are missing it never succeeds; each call makes the topmost missing one, with its metadata, and then raises CacheExistsError, as the call for the directory above has stored the metadata that `parent_cache.local.cache_init(parent.meta)` refuses to find; with n missing the n-th call succeeds. For a file in one missing directory, the directory is made without metadata.
* `cache.rchildren` (C91): when the remote lists a directory before the directory it is in, the iteration ends with FileNotFoundError, with what was listed before it made; a file listed before its directory makes that directory without metadata.
* `rmtree(onerror=f)` (C92): for a link that leads to a directory, or a directory that cannot be listed, UnboundLocalError is raised and `f` is not called, since `path` has no value yet; when a link in a directory cannot be removed the rest of the directory is left and `f` is not told of it, and is given rmdir for the link if it leads to a directory; KeyboardInterrupt is handed to `f` and is then over.
* `PathMeta` as a mapping (C93): `m[k]` reads the attribute and returns None, so `dict(m)` is None throughout, and lacks `created` and `updated`. `__reduce__` returns a dictionary where a tuple of arguments is wanted: `copy.copy(m)` is ValueError as soon as a field is known, and of a blank `m` it is metadata named 'errors'; `pickle.dumps(m)` is PicklingError.
* `readlink()` (C94) drops a slash or dot at the end of the text, so a link to `f/` where f is a file refuses to open while the path it gives opens.
* The first programs on a machine without /etc/machine-id (C95) may get different identifiers, and the identifier of an empty file, when one opens the file while another is between writing and reading it.
* A link that leads to something (C96) has the metadata of what it leads to; setting it raises TypeError, so that it cannot be updated.
* Without a file id the limit of `fetch` does not count (C97): `refresh` is called without it. A file of exactly the limit is neither fetched nor reported, and one without a size neither.
* `PackagePath.command` does not quote (C98): a folder with a blank becomes two arguments, and one called `$(...)` is run by the shell.
* `PackagePath.setupfu` looks at a relative path again after it has gone to the folder of the package (C100): from `/r` the path `sub` runs `/r/sub/sub/setup.py` in `/r/sub` if there is one, which is the failure its FIXME describes.
* A path named `x.zip` that does not exist answers `exists()` with FileNotFoundError twice and with AttributeError from then on, even when the archive has been made meanwhile; an archive that is replaced is seen as it was when first opened, by new path objects too (C101).
* A GitHub answer 403 whose body is not JSON makes `github_json` raise, where None is meant: the body is decoded for the log. With `setup_use_kwargs` set after the import, `setup_dist` remembers a triple and `arg_packagename` is AttributeError for the life of the object, whatever setup.py would say later (C102).
* A program that has read the identifier of the old link when another replaces it moves the other's link into the trash under the old identifier: the old metadata is then lost, and older metadata replaces newer though it would have been refused (C103).
* Without renameat2 (relative paths to files among others) two programs that exchange the same paths may both raise and leave nothing at either path, or one returns and the target is gone: what was there is in a temporary directory of the one that raised (C104).
* Two programs that fetch the same file: one may raise NoCachedMetadataError in the window between making the file and setting its metadata, as caches.py:874-884 suspects; one that saw the link may unlink what the other fetched and leave an empty file when its remote fails, which explains the empty files of line 901; a whole file may be marked 'checksum-mismatch'; and ValueError is raised for a file that is fine (C105).
* What somebody saves while an update fetches is lost: the fetch overwrites it and the update returns; or the remote fails and the old file is renamed over it.  A save between the comparison and the move is not lost, it is in the trash (C106).
* `rmtree` can be led out of its tree: when a directory is replaced by a symbolic link between the test in core.py:669 and the listing in 680, what the link leads to is removed.  Where nobody makes links in the tree this cannot happen (C107).

## 5. Testing of the theorems

`seeded/LOG.jsonl` has one line per wrong program tried: an edit of a model definition, the
claim it breaks, and the theorems that no longer hold.  Where a theorem survived although
its claim was false, it was tightened and the line names it, or a note says why the edit changes no
claim.  21 edits were left open: the theorems do not notice them, or only an example or a lemma does,
and nothing was tightened.  Their lines say so in `note`.
