# Formal model of examachine/pisi in Rocq (Coq 8.16.1)

This document is the plan and the trusted-base statement.  It was written before the
proofs and is kept up to date with them.

## How the development is organised

* `rocq/theories/Model/*.v`: executable Gallina model, one file per pisi module.  Only
  definitions.  Every definition cites the file and lines in /repo it models and names
  every simplification.
* `rocq/theories/Spec/*.v`: the small, separate vocabulary the properties are stated in
  (e.g. "is a path in the graph", "is the lexicographic order"); does not use the
  model's helper functions, only its data types and the entry point being specified.
* `rocq/theories/Proof/*.v`: lemmas.
* `rocq/theories/Prop/*.v`: the property theorems only, each closed by `exact lemma`,
  followed by `Print Assumptions`, with a concrete non-trivial `Example` beside it.

Naming: `C07_...` theorems belong to property C07.  A theorem that settles only part of
a property ends in `_partial`; a theorem showing the English property false of the
(faithful) model ends in `_refuted` and carries a concrete witness.

## Modelling conventions

* Python exceptions are values: `res A := Ok a | Err e`.  Each exception class used for
  control flow has its own constructor (`pisi.Error`, `ValueError`, `KeyError`, ...).
* Byte strings are Coq `string`s.  pisi is Python 2 code: `int < str` always holds, and
  `str` comparison is by byte.
* Sets and dicts whose iteration order is arbitrary are represented either by `gmap`
  (when the code does not iterate) or by lists taken in an arbitrary order: the theorems
  quantify over the list, hence over every iteration order.
* `while` loops whose termination is not structural take fuel and return
  `Err EFuel` on exhaustion; the theorems show that the fuel supplied by the entry point
  is always enough (so `EFuel` is never returned).
* User answers (`ui.confirm`), SHA-1, the file system's contents, `glob`, COMAR scripts
  and the remote server are explicit parameters or oracles of the model functions.
* Berkeley DB: a database is a finite map; a transaction is the pair of the committed
  map and the working map; commit/abort choose one.  pisi opens its environment without
  locking, and reads inside a transaction see the transaction's own writes; that is what
  the model does.  On-disk recovery after a crash is assumed to restore the last
  committed state (this is Berkeley DB's contract, not pisi code).

## Plan per property

| id | modelled | proof idea |
|----|----------|-----------|
| C01 | `Version`, `VersionItem`, `compare` | total order on items, lexicographic lifting with 0 padding |
| C02 | same | separate recursive specification of the order on infinite 0-extended sequences |
| C03 | `VersionItem.__init__`, `Version.__init__`, `multisplit`, `int()` on bytes | grammar as an inductive/boolean specification; equivalence |
| C04 | heap of version objects with in-place padding | simulation: heap after any history equals fresh heap up to trailing zeros |
| C05 | `Dependency.satisfies` | case analysis on the six optional bounds; interval convexity from C01 |
| C06 | `installed_satisfies_dep`, `repo_satisfies_dep`, `installable` over the databases | unfolding to database lookups |
| C07, C08 | `Digraph` with explicit vertex/adjacency order and white/grey/black DFS | DFS invariant (grey path, black closed), white-path argument |
| C09 | parent chain in `dfs_visit` | witness for refutation; positive part: list is a path ending at a grey vertex |
| C10-C12 | `plan_install_pkg_names`, `PGraph.add_dep` | loop invariant of the work-list, plus C07 |
| C13-C15 | `plan_remove`, `remove` | same; witness for C14 |
| C16 | `plan_upgrade` | loop invariants for both closures |
| C17 | `configure_pending` over `InstallDB` | topological order; refutation by history |
| C18 | `calculate_conflicts`, `check_conflicts`, for names and for package files | set reasoning |
| C19-C21 | `remove`, `install_pkg_names`, `install_pkg_files`, `upgrade_pkg_names` control flow | case analysis; witnesses |
| C22-C25 | `ItemByRepoDB` | finite maps |
| C26 | `RepoDB` with transactions | invariant over call sequences |
| C27 | `repo_str`, `str_repo` | string reasoning |
| C28, C29 | `InstallDB` | invariant over histories |
| C30 | `PackageDB` reverse dependencies | invariant over histories; witnesses |
| C31 | `FilesDB`, `remove_db`, `update_databases` | invariant over histories; witness |
| C32-C34 | file system as finite map of nodes, `remove_file`, `extract_install` | case analysis and induction over the file list |
| C35, C36 | steps of `Install.install` with committed/working state; `txn_proc` | prefix induction over the step list |
| C37, C38 | `is_upgradable`, `upgrade_pkg_names` selection, `check_reinstall` | decision tables against a specification |
| C39 | `ComponentDB` | invariant over histories |
| C40-C43 | `InvertedIndex`, `tokenize`, `preprocess` | refinement to a relation; string induction |
| C44, C45 | `util/path.py`, `util/fun.py`, `util/pkg.py` | string/list induction |
| C46 | `clean_duplicates` | fold invariant |
| C47 | `check_dbversion` | decision table using C01 |
| C48 | `autoxml` as a schema interpreter over DOM trees | induction over schemas |
| C49, C50 | `Fetcher.fetch`, `File.download` | crash-point induction; hash as oracle |
| C51 | `build_until` with crash points | invariant over histories |
| C52 | `calc_build_no` | sorting lemma |
| C53, C54 | `Install.check_relations` | case analysis on the database state |
| C55 | `check` | file system as finite map |
| C56 | `plan_emerge`, as it stands and with its missing name supplied | work-list invariant, C07, C10 |
| C57 | `SpecFile.read_hook`: `merge_tags`, `override_tags`, over the schema interpreter of C48 | case analysis per tag, induction over the packages |
| C58, C59 | search API over the databases | refinement to the set of matching packages |
| C60 | install database against package database | invariant over histories |
| C61 | install, then check | composition of the unpacking lemmas with C55 |
| C62 | `rebuild_db` over the database directory | state after each step; witness |
| C63, C64 | `gen_files_xml`, `check_path_collision`, `get_file_hashes`, `get_file_type` over a tree | induction over the tree with the shared exclusion list; witnesses |
| C65, C66 | `package_graph`, `write_graphviz`, `id_str` | the closure argument of C10 with labels as an extra invariant; text of the file; witnesses |
| C67 | `install_pkg_files`, `read_files`, `file_graph` | the graph is exactly the needs among the files, so the sort gives the order; loop invariant "those done are present as in their file, the rest is as before"; witness under two iteration orders |
| C68 | Model/Index.v: os.walk over a tree, Index.index and the add_ functions, the address computed at installation | the walk is flattened to a list of paths; a fold invariant gives the lists exactly; path lemmas of C44 give the addresses; two refutations |
| C69 | Model/Index.v `published`, update_db of Model/Databases.v | update_db leaves under each name the last package listed; refuted for the newest by a directory with two builds |
| C70 | Model/Pack.v `build_package`, install_package | the members and the list of a built package are exactly what belongs (C63's characterisation); installed places by following one place through all the phases of an installation |
| C71 | install_package, `unpack_zip`, `unpack_tar` | an invariant of the file system kept at every crash point; both formats do the same step by step when nothing of another kind is in the way |
| C72 | Model/Metadata.v over the schema interpreter of C48 and C57: `fetch_component`, `from_spec`, `gen_metadata_xml`, the name of the file | each member of the metadata is traced to the element of the spec it comes from; complete objects encode (C48), so the conditions are exact; three refutations |
| C73 | Model/Size.v: `dir_size`, the sum of gen_metadata_xml, over the tree of C63 | double counting: the sum over the paths found is exchanged with the sum over all files of the tree; three refutations |
| C74 | Model/Config.v: ConfigParser's reading line by line, the lookup of `ConfigurationSection`, the users of the settings | the text of each kind of line is inverted; the state of the parser after a file is related to the last assignment by induction over the lines; refutations by computation |
| C75 | Model/Uri.v: Python 2.7.18's `urlparse` with the default scheme, `URI.set_uri`, the mirrors file line by line; Model/Fetch.v for the downloads | the parser is inverted on each form of address; the table of mirrors is related to the listing by induction over the lines; downloads by C49's invariant, one good mirror by induction over the mirrors; refutations for every name of the bad shape |
| C76 | Model/Source.v: `is_cached`, `fetch`, `unpack`, what `Archive` opens; SHA-1, lzma and the network are parameters | case analysis, with C49's invariant over all interrupted fetches; refutations for every lzma archive and every name of the bad shape |
| C77 | Model/Actions.v: the functions of pisitools over a file system with links, resolved one name at a time; patterns and the success of `install` are parameters | every state of every run is compared with the first (a rule for sequences of file operations); exact final states for single files; refuted by a link to an absolute directory |
| C78 | Model/CommandLine.v: the option tables of all commands, optparse as far as they use it, PreParser and PisiCLI, and what install, remove, upgrade and configure-pending make of the values | a grammar of command lines in the specification; the parser is proved equivalent to it for every table without ambiguous names, and the tables are checked; refuted by values taken for commands and by two commands that never start |
| C79 | Model/Archive.v: packing and unpacking with zipfile and tarfile over a file system with links and permission bits; the order of os.listdir, the umask and the current directory are parameters | a tree is packed to a list of members described by induction on its depth; unpacking that list adds one place after another, for any kind of archive whose members add their place; refuted for setgid bits, white space and members that lead outside; an invariant of every step (what is beneath the target may change, links on the ways of members do not appear) keeps the rest inside |
| C80 | Model/Deliver.v: the two ways build and install pack and unpack the files of a package, over Model/Archive.v; the system holds any files before | an invariant of unpacking one member after the other: what is done is in place, what is to come is as it was, new directories are the only other change; refuted for the old format, which drops permission bits and cannot put files into "/" |
| C81 | Model/Lists.v: list-installed, list-available, list-components, list-sources, list-repo, list-pending and the list of upgrades, as the lines they print | the printed names are the sorted roll of a set (uniqueness of sorted lists), each line is what the records say; refuted for list-available of one repository |
| C82 | Model/Lists.v: info for components, package files and names | exact results by cases; refuted for package names (pisi.api has no info_name) |
| C83 | Model/Security.v: upgrade --security, with the variable that the list comprehension of upgrade.py 109 leaves behind | which packages are selected is characterised exactly; what is handed on is the text of a history entry, which no repository offers, so that the run fails after the plan; refuted for every state in which an update is due |
| C84 | Model/BuildStart.v: `check_build_dependencies`, `patch_exists` and the order of `Builder.build`, in front of the steps of C51 | the outcome of the check is characterised exactly over the databases of C18; refuted: installing what is missing, tools of several repositories, --until |
| C85 | Model/Abandoned.v: `get_abandoned_files` over the tree and patterns of C63 | induction over the tree; the report is compared with the file lists of C63 |
| C86 | Model/Environ.v: both copies of the environment of a process that runs many builds, action scripts as programs over them | every trace is explained by the fresh variables; invariant over all histories; refuted: exported variables, scons.install, failed builds |
| C87 | helpers of action scripts as programs over a list of effects, the answers of the outside being parameters that depend on the effects so far | closure of "stops at a failing command" under sequence; each helper compared with a table of documented commands up to blanks; reasons of failure by cases; refuted by autotools.compile, pythonmodules.install and gnuconfig_update |
| C88 | Opening a package of a repository gives what the repository holds: fetching with partial files, deltas, the file kept from before; stops anywhere | invariant over traces (as C49), case analysis of one run with deltas; refuted as stated: no remote package opens at all (ImportError), files kept from before are not checked, a stop during xdelta leaves a part of a file |
| C89 | Publishing a file: what is written, packed and summed can be downloaded and gives the text; at any moment of any number of stopped publications a checked download gives a published text or fails | invariant over traces of the site (each file is a beginning of something published), then case analysis of one download; the server does not change during one download |
| C90 | update-repo: files and databases of a machine, download (C31), signature and the one transaction (C42); every stop by traces. | all-or-nothing by quietness of all but the last step; content by the visitor of C89; refuted as stated (stop between download and databases; missing signature; rejected index reused by rebuild-db) |
| C91 | archives as sequences of members with fields of fixed width; the rewriting goes by lines, with the slices of Python; exact result for all archives whose data have no blank-backquote, refuted otherwise |
| C92 | model: cli/repo.py commands over UpdateRepo.v and Databases.v, clean_dir as removal of everything below a place; proof: entrywise isolation of update_db (six databases), induction over the list of names, path lemmas for plain names; three refutations |
| C93 | model: processes, open files and flock(2) as a transition system, scripts of sessions as init/finalize perform them; proof: invariant over all event sequences (lock file never unlinked, each open file opened by one instance, phase of each instance), exact condition of refusal; three refutations by schedules |
| C94 | model: files by path, the shell splitting unquoted names at blanks, strip/objcopy/sed/file as parameters, strip_directory as a fold over any walk; proof: what becomes of each file and of its debug file, by induction over the walk with disjointness of the places written; NoStrip places written as usual compared with a path that begins with two slashes, hence without effect; refutations for NoStrip, blanks in names, the static and the debug package |
| C95 | model: files by path with contents and modes, additional files stored package after package into one install directory, each package then taken from it; proof: induction over the additional files (the last one for a place gives the contents, the last one with a permission the mode), over the packages, and a comparison of two runs; refutations for targets without a slash, paths not covered, packaging again |
| C96 | the loop over the patches with the files kept, the source tree and the working directory as state; patch, gzip and bzip2 as parameters, the shell as far as blanks and < go; induction over the list with an invariant on what is kept; determinism of one patch for the iff; blanks and the directory after a failure refuted | Patches.v |
| C97 | COMAR as any function from the requests so far to replies and whether it hangs up; the unread replies are kept; post_install and pre_remove shown to be one loop over a list of requests; induction over it with the invariant that nothing is unread; determinism of answers for the iff | Comar.v |
| C98 | the fetcher over a map of files as in C33; the five fetching methods shown to be one loop over the pairs (address, place); every place shown to be the one the build looks at, from the address arithmetic of C68; the loop by induction | RemoteSpec.v |
| C99 | the connections a fetch makes as a list of (address, proxy); what the libraries use by themselves is a parameter; case analysis on the protocol with the address parser of C75; an exact criterion for when the setting is used | Proxy.v |
| C100 | what was done as a list of events, builds and installations as any functions of it; the loop by induction, with a relation for complete and one for stuck work; addresses from the parser of C75, the repository from C22 | EmergeRun.v |
| C101 | sequences as lists; byte order stated without a comparison function; uniqueness of sorted permutations and of runs gives iff theorems | Pipes.v |
| C102 | the command over the files database of every reachable system; symbolic links followed in the file system of Fs.v; fnmatch with brackets and ranges, against a grammar of patterns; induction over links, patterns and arguments | SearchFile.v |
| C103 | `Model/Documents.v` (dohtml, doexes) on top of `Model/Actions.v`; `Spec/DocumentsSpec.v` says which files the sources stand for and what a directory filled with them looks like; by induction over the lists of sources, matches and walked files, with an invariant of the states on the way. Refuted: pages of the same name in two directories, CVS directories inside a directory, doexes. |
| C104 | Model/Manual.v adds newdoc and newman to doman of Model/Actions.v; doman is run page by page against an invariant on the made directories and placed pages | refuted as stated (section taken from the directory's name, newdoc's copy looked for elsewhere, a page copied to itself); doman exact, newman and newdoc for one file |
| C105 | Model/Sed.v: fileinput's unlink, rename, write and unlink around the lines of Model/Pipes.v, with re.sub as a parameter; each step is computed on the tree and the copy is shown to come and go | refuted as stated (missing files, a file in the copy's place, links, directories, bad patterns); exact for regular files |
| C106 | Model/Human.v: the loop of human_readable_size on the two kinds of numbers of Python 2, and the sum over the packages; by cases on the unit, with rationals for floats | refuted as stated (whole division in the first step, missing sizes); exact for floats, exact loss for whole numbers |
| C107 | Model/Cache.v: delete_cache with the directories of the configuration, over the paths of Model/Actions.v; each step computed on the tree, all states on the way kept, and places apart shown to stay | refuted as stated (links, directories made on the way); exact for directories apart from each other |
| C108 | Model/CleanLocks.v: clean_locks with os.walk; by induction on the depth, with the invariant that only things that are no directories have gone, which keeps what links lead to | refuted as stated (the wrong directory); exact |

No property in the list is considered inexpressible.

## What is modelled, file by file

| model file | pisi code | left out or simplified |
|---|---|---|
| `Version.v` | `version.py` | nothing (in-place padding is modelled for C04) |
| `Dependency.v` | `data/dependency.py` | printing |
| `ItemByRepo.v` | `db/itembyrepo.py` | pickling; shelves are finite maps |
| `Package.v` | `data/metadata.py`, `data/specfile.py` records | fields nobody else looks at |
| `ComponentDB.v` | `data/component.py` 105-209 | - |
| `Databases.v` | `db/repo.py`, `db/package.py`, `db/source.py`, `data/index.py` update_db, `op/repo.py` | downloading the index is C50 |
| `Search.v`, `SearchOps.v` | `search/*`, `op/search.py` | text as bytes; bytes above 127 are plain letters |
| `InstallDB.v` | `db/install.py`, `db/files.py` | time stamps |
| `System.v` | database effects of `op/install.py`, `op/remove.py` | - |
| `Txn.v` | `txn_proc` of `db/dbshelve.py` and `context.py` | Berkeley DB by its contract (undo log, durable commit) |
| `Graph.v` | `data/graph.py`, `data/pgraph.py` | graphviz output, edge/vertex data nobody reads |
| `Plan.v`, `Emerge.v` | planning in `op/install.py`, `op/remove.py`, `op/upgrade.py`, `op/configurepending.py`, `op/emerge.py`, `op/graph.py` | set iteration order is an oracle; in `Emerge.v` the conflict check |
| `Path.v` | `util/path.py`, `util/fun.py`, `util/pkg.py` | `human_readable_*` are in `Human.v`; not modelled: `commonprefix` (it raises TypeError, and nothing calls it) |
| `Fs.v` | the `os` calls pisi makes, `util/fs.py` 38-49, 201-211, `op/remove.py` 93-130, `archive.py` 225-285 | owners, modes, full disks; links resolved one level, absolute targets |
| `Ops.v` | `op/install.py`, `op/remove.py`, `op/upgrade.py`, `op/conflict.py`, `op/configurepending.py`, `op/upgradepisi.py` | downloads, COMAR scripts and the user are oracles; messages |
| `Check.v` | `op/check.py`, `op/info.py` 31-68, `cli/check.py` | messages about single files |
| `Rebuild.v` | `db/lockeddbshelve.py`, `op/rebuilddb.py` | the contents of single databases; signals |
| `Build.v` | the resumable steps and `calc_build_no` of `op/build.py` | action scripts are opaque steps that may stop anywhere; archive formats |
| `Contents.v` | `op/build.py` 51-93, 593-639, `util/fs.py` 109-195 | paths through links, rewriting of `.a` files, static and debug packages, `[...]` in wild cards |
| `Pack.v` | `op/build.py` 759-838, `archive.py` 132-150, 183-206 | the bytes of the archives, hard links, sizes and modes, static and debug packages |
| `Index.v` | `data/index.py` 85-103, 115-165, `op/index.py` | XML text |
| `Draw.v` | `op/graph.py`, `data/graph.py` 134-166, `data/pgraph.py` 81-83, `cli/graph.py` 80-83 | opening the output file |
| `Trace.v`, `Fetch.v` | `fetcher.py`, `file.py` download | bytes on the wire, time-outs (a transfer may stop anywhere), signatures, compression formats as oracles |
| `Xml.v`, `Schema.v`, `XmlFile.v` | `exml/autoxml.py`, `exml/xmlextpiks.py`, `exml/xmlfilepiks.py`, the classes of `data/specfile.py`, `metadata.py`, `files.py`, `component.py`, `index.py` | XML text itself (documents are trees); int and long are one type; initial values of members that decoding overwrites |
| `Metadata.v` | `op/build.py` 290-308, 559-592, 776-794, `data/metadata.py` 54-56, 77-105 | static and debug packages |
| `Size.v` | `util/fs.py` 58-80, `op/build.py` 573-584, 621 | as `Contents.v`; sizes are numbers of characters |
| `Config.v` | `configfile.py` 62-163, `config.py` 46-100, Python 2.7's `ConfigParser` (`_read`, `items`), `archive.py` 154-157, `fetcher.py` 288-294, `op/build.py` 854 | `%(name)s` substitution left out |
| `Uri.v` | `uri.py` 25-93, `mirrors.py` 24-51, Python 2.7.18's `urlparse.urlparse` | query, fragment and parameters are cut off but not kept; byte strings |
| `Source.v` | `sourcearchive.py` 36-77, `archive.py` 47-103 and 303-330 (which file is opened), `util/fs.py` 197-211 | the contents of archives are not taken apart; file names need no quoting in the shell |
| `Actions.v` | `actionsapi/pisitools.py` and `pisitoolsfunctions.py`: dobin, dodir, dodoc, doexe, doinfo, dolib, doman, domove, rename, dosym, insinto, remove, removeDir; `actionsapi/shelltools.py`: makedirs, unlink, unlinkDir, copy, copytree, move | permissions and owners are left out; file names need no quoting in the shell; a path resolves through at most 40 links |
| `CommandLine.v` | `cli/command.py`, `cli/pisicli.py`, `cli/commands.py`, the option tables in `cli/*.py`; `run` of install, remove, upgrade, configure-pending | optparse of Python 2.7 for options with one long and at most one short name; integers of `--at` and os.path.realpath are parameters; texts shown are left out; the runs of the other commands, upgrade --security and the update of repositories are parameters |
| `Archive.v` | `archive.py`: ArchiveBase, ArchiveBinary, ArchiveTar, ArchiveZip; `data/package.py`: extract and its kin; `util/fs.py`: check_dir, clean_dir; of Python 2.7 `zipfile` (write, writestr, read), `tarfile` (add, extract), `os.path.normpath` | the bytes of an archive, compression, times and owners; hard links, devices and fifos in archives; the process runs as root |
| `Deliver.v` | `op/build.py` 799-836 (files put into a package), `data/package.py` 119-125 (files taken out of it) | compression and the temporary file install.tar are left out; the paths are those of files.xml; debug packages are left out |
| `Lists.v` | `cli/listcmd.py`, `op/listops.py`, `cli/repo.py` 139-145, `cli/info.py` 57-107, `op/info.py` 32-40, `db/install.py` 51-57, `exml/autoxml.py` 148-159 | a command is the lines it prints; full descriptions (unicode of a package, source, component) and dates are parameters; names are bytes; info --xml and --files are left out |
| `Security.v` | `op/upgrade.py` 80-169 with --security, `data/specfile.py` 89-105 | the histories are a parameter; updates with the same text count once; Python 2 scoping of list comprehensions |
| `BuildStart.v` | `op/build.py` 185-208, 373-393, 421-479 | the outcomes of compiling the script and of fetching are parameters; messages |
| `Abandoned.v` | `op/build.py` 347-371 | names through links, as in `Contents.v` |
| `Environ.v` | `actionsapi/variables.py`, `op/build.py` 156-170, 185-242, 372-419, 859-867, 872-946, `actionsapi/scons.py` 43-45, `config.py` 63-65 | commands are an exit status; other effects of scripts are in `Actions.v` and the other models; settings that are not strings |
| `Tools.v` | actionsapi/autotools.py, kde.py, perlmodules.py, pythonmodules.py, scons.py, libtools.py (gnuconfig_update, preplib, libtoolize), get.py 54-56, 162-185 |
| `Obtain.v` | data/package.py 38-92, util/pkg.py 88-90: which file is opened for a package |
| `Publish.v` | file.py 147-207 in mode File.write: text, bzip2, checksums, signatures |
| `UpdateRepo.v` | op/repo.py 53-97, data/index.py 53-84, file.py 209-217 |
| `ArTimes.v` | util/fs.py 90-104 |
| `RepoCommands.v` | cli/repo.py 52-68, 85-94, 116-126, op/repo.py 33-48, util/fs.py 45-49 |
| `Locks.v` | db/lockeddbshelve.py 70-75, 79-102, 107-172 (locks), api.py 86-97, 106-131, op/rebuilddb.py 148-165 (their order); reading and the contents of databases are left out |
| `Strip.v` | util/fs.py 266-341 (stripping), op/build.py 159-173, 498-559, 724-742 (its use, static and debug packages); of what a shell makes of a command line only the splitting at blanks |
| `Additional.v` | op/build.py 746-759 (additional files), util/fs.py 82-86, data/specfile.py 53-57; which files a package takes is a parameter, links are left out |
| `Patches.v` | op/build.py apply_patches, util/fs.py uncompress and do_patch, util/process.py run_batch | other shell characters, output, directories |
| `Comar.v` | comariface.py: make_com, wait_for_result, post_install, pre_remove; whether COMAR can be reached and comes back within five seconds are parameters | comar.Link itself, messages, time |
| `RemoteSpec.v` | op/build.py: Builder.download, fetch_actionsfile, fetch_patches, fetch_comarfiles, fetch_additionalFiles, fetch_files, specdir; file.py: File.download; fetcher.py: fetch_url as a parameter for what the server has |
| `Proxy.v` | fetcher.py: _get_proxies, the connections of fetchRemoteFile and _test_range_support; configfile.py: the three settings |
| `EmergeRun.v` | op/emerge.py: emerge; op/build.py: build, Builder.from_name; op/install.py: install_pkg_files with --ignore-dependency; the builds and installations are parameters |
| `Pipes.v` | actionsapi/coreutils.py: cat, grep, tr, printto, join, enum, sort, uniq; regular expressions are a parameter |
| `SearchFile.v` | cli/search.py 76-135: search-file; db/files.py 61-76; fnmatch.fnmatch (translate and the character classes of sre_parse), os.path.realpath. Simplified: `..` is taken off before links are followed; lines printed before an exception are not kept |
| `Documents.v` | pisi/actionsapi/pisitools.py 66-91: doexes, dohtml; os.walk and glob of patterns are parameters |
| `Manual.v` | pisi/actionsapi/pisitools.py 226-239: newdoc, newman; shutil.copy onto itself raises; glob and install are parameters |
| `Sed.v` | pisi/actionsapi/pisitools.py 181-196: dosed; fileinput with inplace; re.sub is a parameter. Simplified: what is written appears at once |
| `Human.v` | pisi/util/fun.py 81-92: human_readable_size and _rate; install.py 530-531, upgrade.py 146-147: the total. Simplified: floats are rationals |
| `Cache.v` | pisi/api.py 138-141: delete_cache; config.py 82-85, 93-97, 102-112; util/fs.py 45-49: clean_dir. Simplified: rmtree is one step; access rights are a parameter |
| `CleanLocks.v` | pisi/cli/clean.py 41-44, util/fs.py 348-354: clean_locks with os.walk. Simplified: "." is the path of the current directory |

Not modelled at all: the other commands of `cli/` (except the loop of `cli/check.py`), `ui.py`, the rest of `actionsapi/`
(what the build tools do),
`comariface.py` (COMAR is an oracle), the bytes of archive files (the members in them are modelled), the other two XML back ends, `oo.py`, `util/process.py`, `util/term.py`.

## Trusted base

* Coq 8.16.1's kernel (and `coqchk` for the independent re-check), the Coq standard library and std++ as
  libraries of definitions and lemmas.
* `Print Assumptions` is run under every property theorem; the answer is
  "Closed under the global context" for every one of them: no theorem rests on an axiom.
* The only axioms in the loaded libraries are the seven of the standard library's `Coq.ssr.ssrunder`
  (`Under_rel.Under_rel` and its companions, opaque fields of a sealed module that comes with ssreflect's `under`).  No theorem here depends on them.
* The reading of the Python source by the model (nothing is extracted or executed), in
  particular Python 2 semantics of comparison, `str` methods and set iteration.
* The oracles: the theorems hold for every SHA-1 function, every answer of the user, every listing
  and iteration order, every outcome of a COMAR script or download, as quantified in each statement.
* The behaviour of the libraries pisi calls, as described in the comments of the model: Berkeley DB's
  transactions and recovery, piksemel's DOM, `os`, `glob`, `urlgrabber`'s resuming, tar members unpacked in order.
