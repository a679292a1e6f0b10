{"id": "C01", "title": "Version comparison is a total preorder", "statement": "For any version strings that Version accepts, compare is reflexive (0 on itself), antisymmetric in sign (compare(a,b) = -compare(b,a)), transitive, and <, <=, >, >=, == all agree with it, so any list of releases can be ordered consistently.", "quantifier": "all triples of accepted version strings, any number of components, any component values", "why_tests_cant": "Order laws are about all pairs and triples of strings; transitivity failures hide in odd combinations (keyword suffix vs letter suffix vs missing component) that a table of examples does not enumerate.", "anchors": ["pisi/version.py:VersionItem", "pisi/version.py:Version.compare"]}
{"id": "C02", "title": "Version comparison is the documented lexicographic order, with missing components read as 0", "statement": "compare(a,b) is decided by the first component where a and b differ, comparing first the keyword class alpha<beta<pre<rc<m<(plain)<p and then the value (numbers numerically, a trailing letter above every number); a version that runs out of components behaves as if it continued with 0. In particular appending '.0' never changes any comparison, v_rcN < v < v_pN for every v and N, and 2.10 > 2.9.", "quantifier": "all accepted version strings, all component lists", "why_tests_cant": "The rule must hold at every component position and for every keyword/value pair; tests fix positions and values.", "anchors": ["pisi/version.py:keywords", "pisi/version.py:VersionItem", "pisi/version.py:Version.compare"]}
{"id": "C03", "title": "Version parsing accepts exactly a fixed grammar", "statement": "Version(s) succeeds exactly when every piece of s between '.', '-' and '_' is a number, a keyword followed by a number, or one of these or a single letter followed by one final letter (number = whatever Python's int accepts); the components are exactly those the pieces denote, in order; otherwise it raises ValueError. It never silently drops or invents a component, whatever order the keyword table is iterated in.", "quantifier": "all strings", "why_tests_cant": "The set of rejected strings is infinite and its boundary (single-letter piece, keyword with no number, empty piece) is where the parser's special cases meet.", "anchors": ["pisi/version.py:VersionItem.__init__", "pisi/version.py:Version.__init__", "pisi/util/fun.py:multisplit"]}
{"id": "C04", "title": "Comparing versions has no observable memory", "statement": "Version objects are padded in place by comparison, yet any later comparison between any of the objects gives the same answer as on freshly parsed versions, whatever comparisons happened before.", "quantifier": "all finite histories of comparisons over any set of shared Version objects", "why_tests_cant": "Needs every history of mutations, not one comparison.", "anchors": ["pisi/version.py:Version.compare", "pisi/data/dependency.py:Dependency.satisfies"]}
{"id": "C05", "title": "A dependency's version window means what it says", "statement": "Dependency.satisfies(name, version, release) is true exactly when every given constraint holds (version ==, versionFrom <=, versionTo >=, and the same three for release), constraints not given impose nothing, and a version between two satisfying versions also satisfies a from/to dependency.", "quantifier": "all dependencies, all package versions and releases", "why_tests_cant": "Six optional bounds times all versions; interval behaviour is a universally quantified statement.", "anchors": ["pisi/data/dependency.py:Dependency.satisfies"]}
{"id": "C06", "title": "Installed/repository dependency satisfaction", "statement": "installed_satisfies_dep is true exactly when the named package is installed and the installed version/release is inside the window; repo_satisfies_dep is true exactly when the package is visible in a repository and the one pisi would install is inside the window; installable() is true exactly when each runtime dependency is satisfied by an installed package.", "quantifier": "all database states, all dependencies", "why_tests_cant": "Ranges over all database contents.", "anchors": ["pisi/data/dependency.py:installed_satisfies_dep", "pisi/data/dependency.py:repo_satisfies_dep", "pisi/data/dependency.py:installable"]}
{"id": "C07", "title": "Topological sort is a complete, correctly ordered enumeration", "statement": "When topological_sort returns, the list contains every vertex exactly once and every edge goes from an earlier to a later element, whatever order the sets are iterated in.", "quantifier": "all finite directed graphs, all vertex and adjacency iteration orders", "why_tests_cant": "Set iteration order is arbitrary in Python; a test observes one order of one graph.", "anchors": ["pisi/data/graph.py:Digraph.topological_sort", "pisi/data/graph.py:Digraph.dfs"]}
{"id": "C08", "title": "Cycle detection is exact", "statement": "cycle_free() is false, and dfs/topological_sort raise CycleException, exactly when the graph has a directed cycle; the search always terminates.", "quantifier": "all finite directed graphs, all iteration orders", "why_tests_cant": "Both directions quantify over all graphs; missing one cycle shape means non-termination or a wrong plan.", "anchors": ["pisi/data/graph.py:Digraph.dfs", "pisi/data/graph.py:Digraph.dfs_visit", "pisi/data/graph.py:Digraph.cycle_free"]}
{"id": "C09", "title": "The reported cycle is a cycle", "statement": "The vertex list carried by CycleException is a directed cycle of the graph.", "quantifier": "all cyclic graphs, all iteration orders", "why_tests_cant": "Depends on the DFS root chosen by set order.", "anchors": ["pisi/data/graph.py:CycleException", "pisi/data/graph.py:Digraph.dfs_visit"]}
{"id": "C10", "title": "Install plans are closed and ordered", "statement": "When planning an install of package names succeeds, the plan contains every requested package, it contains each dependency of a planned package that is not already satisfied by an installed package, it has no duplicates, and every package comes after its unsatisfied dependencies.", "quantifier": "all repositories, installed systems and request sets; all set iteration orders", "why_tests_cant": "Closure and order are statements over all dependency graphs.", "anchors": ["pisi/op/install.py:plan_install_pkg_names", "pisi/data/pgraph.py:PGraph.add_dep"]}
{"id": "C11", "title": "Install plans are minimal", "statement": "Every package in an install plan is either requested or needed: it is reachable from a requested package through dependencies that are unsatisfied on the current system.", "quantifier": "all repositories, installed systems and request sets", "why_tests_cant": "No finite set of scenarios shows that nothing extra can ever be pulled in.", "anchors": ["pisi/op/install.py:plan_install_pkg_names"]}
{"id": "C12", "title": "Planning terminates and fails only for stated reasons", "statement": "Planning an install terminates for every finite repository, cyclic or not, and fails only with 'package not found' for a needed name that no repository provides, with a version string that cannot be parsed, with a dependency cycle among needed packages, or with a refused conflict.", "quantifier": "all repositories and request sets", "why_tests_cant": "Termination over all inputs cannot be tested.", "anchors": ["pisi/op/install.py:plan_install_pkg_names", "pisi/data/graph.py:Digraph.dfs"]}
{"id": "C13", "title": "Remove plans take every dependent with them", "statement": "When planning a removal, every installed package that (according to the reverse-dependency index) has a currently satisfied dependency on a package being removed is itself in the plan, and nothing else is: each planned package is requested or reachable by such reverse dependencies.", "quantifier": "all installed systems and request sets", "why_tests_cant": "Closure over arbitrary graphs.", "anchors": ["pisi/op/remove.py:plan_remove"]}
{"id": "C14", "title": "Packages are removed before what they depend on", "statement": "In a removal plan, a package is removed before any package it depends on.", "quantifier": "all installed systems, request sets and set iteration orders", "why_tests_cant": "Failure needs a particular graph shape (diamond or two related requests) together with a particular set iteration order.", "anchors": ["pisi/op/remove.py:plan_remove"]}
{"id": "C15", "title": "Removal never breaks the dependencies of what stays", "statement": "If every installed package's runtime dependencies are satisfied and the reverse-dependency index lists every dependency, then after a successful remove every remaining installed package's dependencies are still satisfied.", "quantifier": "all dependency-consistent systems and all request sets", "why_tests_cant": "System-wide invariant over all states.", "anchors": ["pisi/op/remove.py:plan_remove", "pisi/op/remove.py:remove", "pisi/db/package.py:get_rev_deps"]}
{"id": "C16", "title": "Upgrade plans keep dependencies satisfiable", "statement": "When planning an upgrade succeeds, every dependency of an upgraded package that the installed system does not satisfy is satisfied by the repository package in the plan, and every installed dependent whose dependency would be broken by an upgraded package is itself upgraded to a version whose dependency accepts it.", "quantifier": "all repositories, installed systems, upgrade sets", "why_tests_cant": "Closure over forward and reverse dependencies for all graphs.", "anchors": ["pisi/op/upgrade.py:plan_upgrade"]}
{"id": "C17", "title": "Pending configuration runs in dependency order and clears itself", "statement": "configure_pending runs the configuration script of every pending installed package after those of its pending dependencies, and afterwards nothing is pending; it works for every state the package operations can produce.", "quantifier": "all histories of install, remove, purge and configure operations", "why_tests_cant": "Needs all histories of the two install tables.", "anchors": ["pisi/op/configurepending.py:configure_pending", "pisi/db/install.py:InstallDB"]}
{"id": "C18", "title": "Conflicting packages never coexist after a plan is accepted", "statement": "If planning accepts a set of packages then no two packages in the set conflict with each other, and every installed package conflicting with one of them is removed first or the operation is refused.", "quantifier": "all systems, plans and user answers", "why_tests_cant": "All combinations of conflict declarations and installed states.", "anchors": ["pisi/op/conflict.py:calculate_conflicts", "pisi/op/conflict.py:check_conflicts", "pisi/op/install.py:Install.check_relations"]}
{"id": "C19", "title": "The safety switch protects system.base", "statement": "Unless bypass_safety is given, remove never uninstalls a package that belongs to the system.base component.", "quantifier": "all systems and request sets", "why_tests_cant": "Indirect removal through dependencies needs particular graph shapes.", "anchors": ["pisi/op/remove.py:remove", "pisi/op/remove.py:plan_remove"]}
{"id": "C20", "title": "Extra packages are never touched without confirmation", "statement": "install, upgrade and remove ask for confirmation before acting on any package the user did not name, and do nothing if the user declines.", "quantifier": "all systems, request sets and user answers", "why_tests_cant": "The bug surface is set aliasing and counting over all requests.", "anchors": ["pisi/op/install.py:install_pkg_names", "pisi/op/remove.py:remove", "pisi/op/upgrade.py:upgrade_pkg_names"]}
{"id": "C21", "title": "A dry run changes nothing", "statement": "With dry_run set, install, remove and upgrade leave the installed packages, databases and files as they were.", "quantifier": "all systems, request sets, options", "why_tests_cant": "Every code path under every option combination.", "anchors": ["pisi/op/install.py:install_pkg_files", "pisi/op/install.py:install_pkg_names", "pisi/op/remove.py:remove", "pisi/op/upgrade.py:upgrade_pkg_names"]}
{"id": "C22", "title": "Repository priority", "statement": "A package looked up in the repositories is the one from the first repository in the user's repository order that carries it, and lookup fails exactly when no listed repository carries it.", "quantifier": "all repository lists and database contents", "why_tests_cant": "All orders and contents.", "anchors": ["pisi/db/itembyrepo.py:ItemByRepoDB.get_item_repo", "pisi/db/itembyrepo.py:ItemByRepoDB.which_repo", "pisi/db/package.py:PackageDB.get_package"]}
{"id": "C23", "title": "has_package and get_package agree", "statement": "has_package(name, where) is true exactly when get_package(name, where) would succeed, for installed, third-party, repository and any-place lookups, in every state reachable by the public operations.", "quantifier": "all histories of database operations", "why_tests_cant": "Two independently written functions must agree in all reachable states.", "anchors": ["pisi/db/itembyrepo.py:ItemByRepoDB.has_key", "pisi/db/itembyrepo.py:ItemByRepoDB.get_item_repo", "pisi/db/itembyrepo.py:ItemByRepoDB.not_just_tracking"]}
{"id": "C24", "title": "Adding and removing an item affects that item only", "statement": "After add_item(n,x,repo), looking n up in repo gives x and every other (name, repo) is unchanged; after remove_item, that entry is gone and every other is unchanged; names with no entries left do not linger.", "quantifier": "all histories of add/remove over all names and repos", "why_tests_cant": "Frame conditions quantify over all other keys.", "anchors": ["pisi/db/itembyrepo.py:ItemByRepoDB.add_item", "pisi/db/itembyrepo.py:ItemByRepoDB.remove_item_repo"]}
{"id": "C25", "title": "Removing a repository removes exactly its packages", "statement": "After removing a repository nothing recorded for it is visible by any lookup, and everything recorded for other repositories, third-party and installed packages is unchanged.", "quantifier": "all database contents", "why_tests_cant": "Whole-database frame condition.", "anchors": ["pisi/db/itembyrepo.py:ItemByRepoDB.remove_repo", "pisi/db/repo.py:RepoDB.remove_repo"]}
{"id": "C26", "title": "The repository list is consistent in every history", "statement": "After any sequence of add_repo/remove_repo calls, successful or failing, the ordered list has no duplicates and has_repo is true exactly for its members; add_repo inserts at the requested position keeping the relative order of the others; a failing call changes nothing.", "quantifier": "all finite call sequences with any arguments", "why_tests_cant": "Invariant over histories including failing calls.", "anchors": ["pisi/db/repo.py:RepoDB.add_repo", "pisi/db/repo.py:RepoDB.remove_repo", "pisi/db/dbshelve.py:DBShelf.txn_proc"]}
{"id": "C27", "title": "Repository names in the database are unambiguous", "statement": "Two different repository identities (installed, third-party, or a named repository) are never stored under the same key, and a stored key decodes to the identity it was stored under.", "quantifier": "all repository names", "why_tests_cant": "Injectivity over all strings.", "anchors": ["pisi/db/itembyrepo.py:repo_str", "pisi/db/itembyrepo.py:str_repo"]}
{"id": "C28", "title": "Install database lifecycle", "statement": "A package cannot be recorded installed twice without a removal in between; is_installed, is_removed and list_installed agree in every history; get_version returns what the last install recorded.", "quantifier": "all histories of install/remove/purge/clear_pending", "why_tests_cant": "Invariant over histories.", "anchors": ["pisi/db/install.py:InstallDB"]}
{"id": "C29", "title": "The pending list is exactly the installed packages awaiting configuration", "statement": "list_pending returns exactly the packages installed with configuration postponed and not configured since, in every history.", "quantifier": "all histories of install/remove/purge/clear_pending", "why_tests_cant": "Two tables must stay in step in every history.", "anchors": ["pisi/db/install.py:InstallDB.list_pending", "pisi/db/install.py:InstallDB.remove", "pisi/db/install.py:InstallDB.purge", "pisi/db/install.py:InstallDB.clear_pending"]}
{"id": "C30", "title": "The reverse-dependency index is the inverse of the dependency relation", "statement": "In every history of package additions and removals, get_rev_deps(x, where) lists (p, d) exactly when package p recorded in that place has a dependency d on x.", "quantifier": "all histories of add_package/remove_package, including upgrades", "why_tests_cant": "Index maintenance must be right in every history.", "anchors": ["pisi/db/package.py:PackageDB.add_package", "pisi/db/package.py:PackageDB.remove_package", "pisi/db/package.py:PackageDB.get_rev_deps"]}
{"id": "C31", "title": "The files database knows the owner of every installed file", "statement": "In every history of installs, upgrades and removals, a path listed by an installed package is attributed to a package that lists it, and removed packages own nothing.", "quantifier": "all histories", "why_tests_cant": "Shared and moved files across histories.", "anchors": ["pisi/db/files.py:FilesDB.add_files", "pisi/db/files.py:FilesDB.remove_files", "pisi/op/remove.py:Remove.remove_db", "pisi/op/install.py:Install.update_databases"]}
{"id": "C32", "title": "Removing a package deletes only its own files and never user-changed configuration", "statement": "Removing a package never deletes a file marked permanent, a configuration file whose content differs from the packaged one, a file another installed package owns, or a directory that is not empty; every other file of the package is deleted.", "quantifier": "all file systems, file lists and ownership tables", "why_tests_cant": "All file system states.", "anchors": ["pisi/op/remove.py:Remove.remove_file"]}
{"id": "C33", "title": "User-changed configuration survives reinstall and upgrade", "statement": "After a reinstall or upgrade, a configuration file the user had changed has the user's content, and the packaged version is available with suffix .newconfig.", "quantifier": "all file systems and package contents", "why_tests_cant": "All contents and all file lists.", "anchors": ["pisi/op/install.py:Install.extract_install"]}
{"id": "C34", "title": "Upgrading removes files the new version no longer ships", "statement": "After an upgrade, files of the old version that the new version does not list are removed from the system.", "quantifier": "all old/new file lists", "why_tests_cant": "All file lists.", "anchors": ["pisi/op/install.py:Install.extract_install", "pisi/op/remove.py:Remove.remove_file"]}
{"id": "C35", "title": "A crash during install leaves the databases all-old or all-new", "statement": "Whatever point the process dies at during the installation of a package, after recovery the install, files and installed-package databases are either all as before or all as after the installation.", "quantifier": "all crash points, all packages and states", "why_tests_cant": "All crash points.", "anchors": ["pisi/op/install.py:Install.install", "pisi/op/install.py:Install.update_databases", "pisi/op/install.py:Install.check_relations"]}
{"id": "C36", "title": "A failing database procedure has no effect", "statement": "A procedure run through a shelf's txn_proc either completes and is committed or raises and leaves the database as it was; nested procedures given an outer transaction take effect only if the outer one commits.", "quantifier": "all procedures, all failure points, all nestings", "why_tests_cant": "All failure points.", "anchors": ["pisi/db/dbshelve.py:DBShelf.txn_proc", "pisi/context.py:txn_proc"]}
{"id": "C37", "title": "Upgrades are offered exactly when the repository is newer", "statement": "A package is selected for upgrade exactly when it is installed, available in a repository, and the repository build number is greater (or, when either side has no build number or build numbers are ignored, its release is greater).", "quantifier": "all installed/repository versions, options", "why_tests_cant": "All combinations of optional build numbers and release strings.", "anchors": ["pisi/op/upgrade.py:is_upgradable", "pisi/op/upgrade.py:upgrade_pkg_names", "pisi/op/listops.py:list_upgradable"]}
{"id": "C38", "title": "Reinstall, upgrade and downgrade are classified correctly", "statement": "When a package is already installed, installing it again is treated as a reinstall exactly when it is the same build (or release), as an upgrade when newer and as a downgrade when older, and a reinstall or downgrade proceeds only after the user confirms when asking is requested.", "quantifier": "all installed/new version, release, build combinations, user answers and options", "why_tests_cant": "A decision table over unbounded values.", "anchors": ["pisi/op/install.py:Install.check_reinstall"]}
{"id": "C39", "title": "Components list exactly their packages", "statement": "In every history of package additions and removals, a component's package list for a place contains p exactly when p is recorded there as part of that component; the union component contains the union over repositories; component names given to package operations expand to exactly those packages.", "quantifier": "all histories", "why_tests_cant": "History invariant.", "anchors": ["pisi/data/component.py:ComponentDB.add_package", "pisi/data/component.py:ComponentDB.remove_package", "pisi/data/component.py:ComponentDB.get_union_comp", "pisi/op/component.py:expand_components"]}
{"id": "C40", "title": "Search returns exactly the matching documents", "statement": "After any sequence of add_doc/remove_doc, query(terms) returns exactly the documents that contain every term in some listed repository.", "quantifier": "all histories and queries", "why_tests_cant": "Index refinement over histories.", "anchors": ["pisi/search/invertedindex.py:InvertedIndex.add_doc", "pisi/search/invertedindex.py:InvertedIndex.remove_doc", "pisi/search/invertedindex.py:InvertedIndex.query"]}
{"id": "C41", "title": "Search results exist", "statement": "Every package a search returns is available in some repository or installed, also after repositories are updated or removed.", "quantifier": "all histories of add_repo/update_repo/remove_repo", "why_tests_cant": "History property across two indexes.", "anchors": ["pisi/db/package.py:PackageDB.remove_repo", "pisi/data/index.py:Index.update_db", "pisi/search/__init__.py"]}
{"id": "C42", "title": "Search is case-insensitive", "statement": "Tokens differing only in case are the same term after preprocessing, in English and Turkish.", "quantifier": "all strings", "why_tests_cant": "All strings.", "anchors": ["pisi/search/preprocess.py:lower", "pisi/search/preprocess.py:preprocess"]}
{"id": "C43", "title": "Tokenising loses no word characters", "statement": "The tokens of a text are non-empty, contain no separator, and concatenated in order are the text with separators removed; token boundaries occur exactly at separators.", "quantifier": "all strings", "why_tests_cant": "All strings.", "anchors": ["pisi/search/tokenize.py:tokenize"]}
{"id": "C44", "title": "Path helpers obey their contracts", "statement": "splitpath/makepath, join_path, subpath, removepathprefix, prefix/suffix and remove_prefix/remove_suffix satisfy: joining relative to a root then removing the root prefix gives the path back; prefix/suffix are decided exactly; removing what is present and re-adding gives the original.", "quantifier": "all strings and path lists", "why_tests_cant": "All strings.", "anchors": ["pisi/util/path.py", "pisi/util/fun.py"]}
{"id": "C45", "title": "Package file names can be parsed back", "statement": "For a package whose name parts after the first do not start with a digit and whose version starts with a digit, parse_package_name of the generated file name returns the name and the version-release[-build] string; is_package_name recognises it.", "quantifier": "all names, versions, releases and build numbers", "why_tests_cant": "All strings.", "anchors": ["pisi/util/pkg.py:package_name", "pisi/util/pkg.py:parse_package_name", "pisi/util/pkg.py:is_package_name"]}
{"id": "C46", "title": "Database rebuild keeps the newest copy of each package", "statement": "clean_duplicates leaves exactly one directory per package name, the one with the greatest version, and deletes every other.", "quantifier": "all directory listings", "why_tests_cant": "All listings and orders.", "anchors": ["pisi/op/rebuilddb.py:clean_duplicates"]}
{"id": "C47", "title": "Database version check", "statement": "A database stamped with a version newer than the program refuses to open, an older one asks for a rebuild, an equal or missing stamp opens, and only writers stamp.", "quantifier": "all stamps and modes", "why_tests_cant": "All version strings.", "anchors": ["pisi/db/lockeddbshelve.py:check_dbversion"]}
{"id": "C48", "title": "XML encoding and decoding are inverse", "statement": "For every object of every class described by the XML schema language, decoding what encode produced gives back an equal object with no errors.", "quantifier": "all schemas, all well-formed objects", "why_tests_cant": "All schemas and nesting depths.", "anchors": ["pisi/exml/autoxml.py", "pisi/exml/xmlextpiks.py"]}
{"id": "C49", "title": "A fetched file is never partial", "statement": "At every crash point of a fetch, the destination file either does not exist / has its old content or has the complete new content; a fetch that succeeds leaves the complete content whatever partial download preceded it.", "quantifier": "all contents, crash points, retries", "why_tests_cant": "All crash points and retry histories.", "anchors": ["pisi/fetcher.py:Fetcher.fetch", "pisi/fetcher.py:Fetcher.fetchLocalFile", "pisi/fetcher.py:Fetcher.fetchRemoteFile"]}
{"id": "C50", "title": "Checksummed downloads are verified", "statement": "When a checksum is requested, File.download returns only files whose SHA-1 equals the published one, and reports 'already have' only if the local copy has that SHA-1.", "quantifier": "all file contents, all local states", "why_tests_cant": "All contents.", "anchors": ["pisi/file.py:File.download"]}
{"id": "C51", "title": "Resumed builds never skip a step", "statement": "Running build_until any number of times, with crashes at any point in between, every step's work (unpack, patch, setup, build, install) has been done in order on the current source tree before a later step runs.", "quantifier": "all sequences of targets and crash points", "why_tests_cant": "All crash points and resume histories.", "anchors": ["pisi/op/build.py:build_until", "pisi/op/build.py:Builder.set_state", "pisi/op/build.py:Builder.unpack_source_archive"]}
{"id": "C52", "title": "Build numbers change exactly when contents change", "statement": "The new build number is one more than the greatest previous build number when the set of (path, hash) pairs differs from that build's, equal to it when they are the same, and 1 when there is none.", "quantifier": "all old builds, all file lists in any order", "why_tests_cant": "All lists and permutations.", "anchors": ["pisi/op/build.py:Builder.calc_build_no"]}
{"id": "C53", "title": "Installing never leaves a package with unsatisfied dependencies", "statement": "With dependency checking on, a package is recorded as installed only when each of its runtime dependencies is satisfied by an installed package at that moment.", "quantifier": "all systems and request sets", "why_tests_cant": "All systems.", "anchors": ["pisi/op/install.py:Install.check_relations", "pisi/op/install.py:Install.install"]}
{"id": "C54", "title": "File conflicts are refused", "statement": "Unless file conflicts are ignored, a package listing a non-directory file that the files database attributes to another package is not installed and nothing changes.", "quantifier": "all systems and packages", "why_tests_cant": "All file tables.", "anchors": ["pisi/op/install.py:Install.check_relations"]}
{"id": "C55", "title": "Integrity check finds exactly the changed files", "statement": "check reports exactly the non-config files whose current hash differs from the recorded one or that are missing.", "quantifier": "all file systems and packages", "why_tests_cant": "All file systems.", "anchors": ["pisi/op/check.py:check"]}
{"id": "C56", "title": "Emerge plans are closed and ordered", "statement": "When planning an emerge succeeds the source plan contains the requested sources and every source needed to satisfy their dependencies, ordered after them, and each binary dependency that a repository can satisfy is in the install plan.", "quantifier": "all repositories and request sets", "why_tests_cant": "All graphs.", "anchors": ["pisi/op/emerge.py:plan_emerge"]}
{"id": "C57", "title": "Spec tag inheritance", "statement": "After reading a spec, each package has its own tag values where given and the source's where not, and inherited lists are combined without loss.", "quantifier": "all specs", "why_tests_cant": "All tag combinations.", "anchors": ["pisi/data/specfile.py:SpecFile.merge_tags", "pisi/data/specfile.py:SpecFile.override_tags"]}
{"id": "C58", "title": "Searching never fails", "statement": "search_package(query) returns a set of names for every query text and every language of the user, in every reachable database state.", "quantifier": "all query texts, languages and database histories", "why_tests_cant": "All languages and histories.", "anchors": ["pisi/op/search.py:search_package", "pisi/search/__init__.py:init", "pisi/exml/autoxml.py:LocalText.get_lang", "pisi/api.py:init"]}
{"id": "C59", "title": "Search finds every matching package", "statement": "A package recorded in a searched place whose summary (or description) in the user's language has all the words of the query is returned; a name search returns exactly the packages of listed repositories whose name contains the text.", "quantifier": "all database histories, query texts and packages", "why_tests_cant": "Index completeness over histories.", "anchors": ["pisi/op/search.py:search_package", "pisi/op/search.py:search_package_names", "pisi/db/package.py:PackageDB.add_package", "pisi/search/invertedindex.py:InvertedIndex.add_doc"]}
{"id": "C60", "title": "The package database and the install database agree", "statement": "In every history of installs, upgrades, removals, configurations and repository commands, a package is recorded as installed exactly when the package database holds its installed record, under its own name and with the version, release and build the install database reports.", "quantifier": "all histories of system operations", "why_tests_cant": "Two databases updated by separate code must stay in step over every history.", "anchors": ["pisi/op/install.py:Install.update_databases", "pisi/op/remove.py:Remove.remove_db", "pisi/db/install.py:InstallDB", "pisi/db/package.py:PackageDB"]}
{"id": "C61", "title": "A freshly installed package verifies", "statement": "Right after a successful installation of a package whose file list agrees with its archive, checking its package file against the installed files reports no corrupt file, whatever was on the disk before and whatever configuration files the user had changed.", "quantifier": "all packages, file systems and installed systems", "why_tests_cant": "All package contents, previous contents of the disk and overlapping paths.", "anchors": ["pisi/op/install.py:AtomicInstall.extract_install", "pisi/op/check.py:check"]}
{"id": "C62", "title": "Rebuilding the databases forgets nothing", "statement": "Running rebuild-db on a machine with installed packages either leaves the databases as they were or ends with every package that has a directory recorded as installed; a rebuild that is refused changes no database.", "quantifier": "all database directories, stamps, locks, package directories and listing orders", "why_tests_cant": "All combinations of stamps, directories and crash points.", "anchors": ["pisi/op/rebuilddb.py:rebuild_db", "pisi/op/rebuilddb.py:destroy", "pisi/op/rebuilddb.py:reload_packages", "pisi/db/lockeddbshelve.py:init_dbenv"]}
{"id": "C63", "title": "Every produced file goes into exactly one package", "statement": "When a source is built, every file, link and empty directory it installed at or below a path listed by one of its packages is listed in the files.xml of exactly one package, the one that lists the nearest path.", "quantifier": "every installed tree, every set of packages with any lists of paths", "why_tests_cant": "depends on how the path lists of all packages interact with every name in the tree; tests use a few fixed trees", "anchors": ["pisi/op/build.py:gen_files_xml", "pisi/op/build.py:check_path_collision", "pisi/util/fs.py:get_file_hashes"]}
{"id": "C64", "title": "A packaged file has the type of the nearest listed path", "statement": "Each file of a package gets the file type and permanence of the path of its package that covers it most closely.", "quantifier": "every installed tree, file and list of paths", "why_tests_cant": "the choice is made by comparing texts of all listed paths with all names of files", "anchors": ["pisi/op/build.py:get_file_type", "pisi/op/build.py:gen_files_xml"]}
{"id": "C65", "title": "The graph command draws exactly the dependencies", "statement": "The file written by the graph command contains exactly one box for every package named or depended upon, directly or indirectly, labelled with the name, version and release found where the command was told to look, exactly one arrow for every dependency between them (with ignore_installed: every dependency that the installed system does not satisfy), and nothing else; the command fails only if one of these packages is not found there, has no name, or has a dependency that cannot be compared with what is installed.", "quantifier": "all histories of the databases, all places to look in, all lists of distinct package names, all orders of iteration over sets", "why_tests_cant": "The closure, the shape of the dependency graph and the order of iteration are unbounded; a test sees one graph in one order.", "anchors": ["pisi/op/graph.py:package_graph", "pisi/data/pgraph.py:PGraph", "pisi/data/graph.py:Digraph.write_graphviz", "pisi/cli/graph.py:Graph.run"]}
{"id": "C66", "title": "Every package has its own box in the drawing", "statement": "In the drawing of the graph command different packages are different boxes, and what is drawn depends only on which packages are named, not on how often.", "quantifier": "all package names, all lists of package names", "why_tests_cant": "Holds or fails depending on the characters of all names drawn together.", "anchors": ["pisi/data/graph.py:Digraph.id_str", "pisi/data/graph.py:Digraph.add_vertex", "pisi/op/graph.py:package_graph"]}
{"id": "C67", "title": "Package files given together are installed in the order they need each other, and end up with what they need", "statement": "Installing package files together installs what each of them holds (the last file of a name counts), every package after those among them whose version satisfies one of its dependencies, whatever the order on the command line; when it succeeds the dependencies of all of them are met; and if every dependency is satisfied by one of the files or by an installed package, none of them is refused for a missing dependency.", "quantifier": "all systems, lists of package files, dependency graphs among them and set iteration orders", "why_tests_cant": "The order comes out of a topological sort over a set: every graph of dependencies between the files, every iteration order of the sets and every combination with installed versions would have to be tried.", "anchors": ["pisi/op/install.py:install_pkg_files", "pisi/op/install.py:Install.check_relations", "pisi/data/pgraph.py:PGraph", "pisi/data/graph.py:Digraph.topological_sort"]}
{"id": "C68", "title": "An index lists exactly what is in the directories, under addresses that lead back", "statement": "When the index command succeeds, the index names a package if and only if a file whose name ends in .pisi lies in one of the directories given (the current one if none is; only at the top with --non-recursive) and its metadata has no errors, likewise a component for each component.xml and a source for each pspec.xml (none with --skip-sources). Each is named by its path relative to its directory, or by its absolute path with --absolute-uris; it fails exactly when a file it looks at cannot be read. An index kept in the one directory it describes names every package once, and the address a client computes from it is the path of that package's file.", "quantifier": "every directory tree, list of directories and options", "why_tests_cant": "Directory trees are unbounded in depth and size; tests use one or two files", "anchors": ["pisi/data/index.py:Index.index", "pisi/data/index.py:Index.add_package", "pisi/data/index.py:Index.add_spec", "pisi/op/index.py:index", "pisi/op/install.py:install_pkg_names", "pisi/uri.py:URI.set_uri"]}
{"id": "C69", "title": "A repository offers the newest of what was indexed", "statement": "After a repository is updated from an index made of some directories, asking it for a name yields a package if and only if a package of that name lies in the directories, and it yields the newest of them.", "quantifier": "every directory tree, index, database history and name", "why_tests_cant": "depends on the whole history of the databases and on the order in which the files are listed", "anchors": ["pisi/data/index.py:Index.index", "pisi/data/index.py:Index.update_db", "pisi/db/package.py:PackageDB.add_package"]}
{"id": "C70", "title": "What a build produced is what an installation yields", "statement": "If building a source writes a package file, then installing that file puts each file, link and empty directory the build produced for this package at its place below the destination directory, with the content or target it had, and verifying the package against the system reports nothing. Building fails only if a file falls under a path without a type.", "quantifier": "every tree a build can produce, every list of packages with explicit unambiguous paths, every order a dictionary can be iterated in, both package formats, every prior file system and every destination directory", "why_tests_cant": "the number of trees, path lists, dictionary orders and prior file systems is unbounded; a test sees one of each", "anchors": ["pisi/op/build.py:Builder.build_packages", "pisi/op/build.py:Builder.gen_files_xml", "pisi/data/package.py:Package.extract_install", "pisi/archive.py:ArchiveZip", "pisi/archive.py:ArchiveTar"]}
{"id": "C71", "title": "Installing touches only the package's own places", "statement": "Whatever the outcome of installing a package, and wherever it is cut short, nothing in the file system differs except at the places of the package's files and of the files put beside its configuration files, and new directories leading to them; and for packages as they are built it makes no difference whether they are in format 1.0 or 1.1.", "quantifier": "every package with relative paths, every prior file system, every crash point, both package formats", "why_tests_cant": "the property is about all the paths a package does not own, at every crash point; a test can look at a few", "anchors": ["pisi/op/install.py:Install.install", "pisi/op/install.py:Install.extract_install", "pisi/data/package.py:Package.extract_install", "pisi/archive.py:ArchiveZip.unpack_file_cond", "pisi/archive.py:ArchiveTar.unpack_dir"]}
{"id": "C72", "title": "A built package describes itself as its spec does", "statement": "Whoever reads the metadata.xml of a package that was built finds for that package what the spec says (its own values where given, the source's or the directory's component where not), the whole history, the distribution, the format, the size and the build number; every package of a spec that can be read is built; and its file is named after the name, version, release and build number that the package has when it is installed.", "quantifier": "every spec, package of the spec, configuration, size, build number and iteration order", "why_tests_cant": "a test has a few specs; the claim ranges over every combination of given and missing elements, through merging, overriding, writing and reading back", "anchors": ["pisi/op/build.py:Builder.gen_metadata_xml", "pisi/op/build.py:Builder.fetch_component", "pisi/op/build.py:Builder.build_packages", "pisi/data/metadata.py:MetaData.from_spec", "pisi/data/specfile.py:SpecFile.override_tags"]}
{"id": "C73", "title": "The installed size is the size of the package's files", "statement": "The installed size in the metadata of a built package is the sum of the sizes in its files.xml, and each of those is the size of that file (for a link: the length of the text it holds).", "quantifier": "every tree of built files, every list of paths with or without wild cards, any number of packages of the source", "why_tests_cant": "the two sizes are computed by different walks over the tree, with different rules for links, overlapping paths and other packages' paths; a test sees a few trees", "anchors": ["pisi/op/build.py:Builder.gen_metadata_xml", "pisi/op/build.py:Builder.gen_files_xml", "pisi/util/fs.py:dir_size"]}
{"id": "C74", "title": "Settings given in the configuration file are the ones that take effect", "statement": "For every configuration file made of section headers, 'key = value' or 'key: value' entries, comments and blank lines, reading succeeds, and every setting asked for is the last value given in its section (or the one in [DEFAULT]), or the built-in default if none is given; switches, compression level, bandwidth limit, destination and data directories act accordingly, and a switch set to false is off.", "quantifier": "all files (any number of lines, sections repeated in any order, any spacing), all keys, all environments and options", "why_tests_cant": "The files users write cannot be enumerated: repeated sections, capitals, spacing, comments and missing keys combine without bound.", "anchors": ["pisi/configfile.py:ConfigurationFile", "pisi/configfile.py:ConfigurationSection.__getattr__", "pisi/config.py:Config", "pisi/fetcher.py:_get_bandwith_limit", "pisi/archive.py:ArchiveTar.close", "pisi/op/build.py:854"]}
{"id": "C75", "title": "Addresses and mirrors mean what they say", "statement": "An address s://h/p is on that server with that path, its file name is what follows the last slash; a path on this machine is that local file; the mirrors of a name are those listed for it in mirrors.conf, in order; a download from mirrors:// yields the file the mirrors hold, one working mirror suffices, and a name without mirrors is reported as such.", "quantifier": "all addresses, paths and file names, all mirrors files (any number of lines, any spacing), all servers, networks and histories of interrupted downloads", "why_tests_cant": "addresses and mirrors files are arbitrary texts, and the mirrors fail independently and at any moment", "anchors": ["pisi/uri.py:URI.set_uri", "pisi/mirrors.py:Mirrors", "pisi/fetcher.py:Fetcher.fetchFromMirror"]}
{"id": "C76", "title": "A source archive is unpacked only if it is the one the spec means, and is fetched only if needed", "statement": "Unpacking the source happens only with an archive of a known type whose SHA-1 is that of the spec, and anything else is refused without touching a file; a good archive in the archives directory is used without the network; otherwise it is fetched, and after a fetch that succeeds the unpacking does, if the published archive is the one meant; a source that was built can be built again without the network.", "quantifier": "all addresses, archives, types, checksums, contents of the archives directory, networks and histories of interrupted fetches", "why_tests_cant": "crash points of the fetch, damaged or stale files and file names combine without bound", "anchors": ["pisi/sourcearchive.py:SourceArchive", "pisi/archive.py:Archive", "pisi/archive.py:ArchiveTar.unpack_dir", "pisi/util/fs.py:check_file_hash"]}
{"id": "C77", "title": "Action scripts change only the install directory, and do what they are documented to do", "statement": "Every call of dobin, dodir, dodoc, doexe, doinfo, dolib, doman, domove, rename, dosym, insinto, remove or removeDir changes nothing outside the install directory, whether it succeeds or fails halfway; a call that reports success has put, linked, renamed or removed exactly what it names.", "quantifier": "all file systems, install directories, sources, destinations, patterns, and every intermediate state of every call", "why_tests_cant": "a test sees a few trees without links in the way; the claim is about every tree, every pattern and every point at which a call can stop", "anchors": ["pisi/actionsapi/pisitools.py: dobin", "pisi/actionsapi/pisitools.py: dodir", "pisi/actionsapi/pisitools.py: dodoc", "pisi/actionsapi/pisitools.py: doinfo", "pisi/actionsapi/pisitools.py: dolib", "pisi/actionsapi/pisitools.py: doman", "pisi/actionsapi/pisitools.py: domove", "pisi/actionsapi/pisitools.py: rename", "pisi/actionsapi/pisitools.py: dosym", "pisi/actionsapi/pisitools.py: insinto", "pisi/actionsapi/pisitools.py: remove", "pisi/actionsapi/pisitools.py: removeDir", "pisi/actionsapi/pisitoolsfunctions.py: executable_insinto", "pisi/actionsapi/pisitoolsfunctions.py: readable_insinto", "pisi/actionsapi/pisitoolsfunctions.py: lib_insinto", "pisi/actionsapi/shelltools.py: makedirs", "pisi/actionsapi/shelltools.py: copy", "pisi/actionsapi/shelltools.py: copytree", "pisi/actionsapi/shelltools.py: move", "pisi/actionsapi/shelltools.py: unlink", "pisi/actionsapi/shelltools.py: unlinkDir"]}
{"id": "C78", "title": "A command line means what it says", "statement": "Whatever options surround it, pisi runs the documented command that the user names, for the packages that the user names; each option, in any of its spellings, has exactly its documented effect on the operation, a later value replaces an earlier one, and an option that is not given has none; with --dry-run nothing changes, with --yes-all nobody is asked; a line that cannot be read so is refused and changes nothing.", "quantifier": "all command lines (lists of strings of any length) and all states of the system", "why_tests_cant": "there are infinitely many spellings and orders of options, abbreviations and values; a test tries a few", "anchors": ["pisi/cli/command.py: Command", "pisi/cli/command.py: autocommand", "pisi/cli/pisicli.py: PisiCLI", "pisi/cli/pisicli.py: PreParser", "pisi/cli/commands.py", "pisi/cli/packageop.py: PackageOp", "pisi/cli/install.py: Install", "pisi/cli/remove.py: Remove", "pisi/cli/upgrade.py: Upgrade", "pisi/cli/configurepending.py: ConfigurePending", "pisi/cli/search.py: Search", "pisi/cli/listcmd.py: ListUpgrades", "pisi/cli/__init__.py: CLI.confirm"]}
{"id": "C79", "title": "Archives give back what was put in, where they are told to", "statement": "What is packed with Archive or Package (files, links and directories of any depth) and unpacked into a new directory is there with its contents, link targets and permissions, and nothing else is; extracting a directory, a list of files or the contents of a directory gives exactly those; a target that exists is refused, or emptied first if that is asked for; unpacking changes nothing outside the target directory.", "quantifier": "all trees of files, directories and links, all permissions, all orders in which directories are listed, all archives, all targets and states of the file system", "why_tests_cant": "trees, names, permission bits and states of the target cannot be enumerated; an archive from elsewhere can hold any names in any order", "anchors": ["pisi/archive.py: ArchiveBase.unpack", "pisi/archive.py: ArchiveTar.unpack_dir", "pisi/archive.py: ArchiveTar.add_to_archive", "pisi/archive.py: ArchiveZip.add_to_archive", "pisi/archive.py: ArchiveZip.unpack_file_cond", "pisi/archive.py: ArchiveZip.unpack_files", "pisi/archive.py: ArchiveZip.unpack_dir", "pisi/archive.py: ArchiveZip.unpack_dir_flat", "pisi/data/package.py: Package.extract", "pisi/data/package.py: Package.extract_install", "pisi/util/fs.py: check_dir"]}
{"id": "C80", "title": "What was built is what is put on the system", "statement": "When a package has been built and is installed, every path of its file list is at its place under the destination directory, with the content or link target and the permission bits it had when built; it replaces a file or link that was there; directories missing on the way are created with the permissions the umask leaves, and nothing else on the system changes. This holds for both package formats and for any destination, the root directory included.", "quantifier": "all directories a package was built in, all lists of files, links and empty directories in it, all orders of directory listings, all contents of the system before, all destinations, umasks and current directories", "why_tests_cant": "the permission bits, the paths already there and the destinations cannot be enumerated; a test installs few files into an empty directory", "anchors": ["pisi/op/build.py:build_packages", "pisi/archive.py:ArchiveTar.unpack_dir", "pisi/archive.py:ArchiveZip.unpack_file_cond", "pisi/data/package.py:Package.extract_dir_flat", "pisi/util/fs.py:check_dir"]}
{"id": "C81", "title": "Listings tell the truth", "statement": "list-installed prints exactly the installed packages, list-available REPO exactly the packages of that repository with what that repository says about them, list-components, list-sources, list-repo and list-pending exactly what is recorded; each name once, in order of name, and the packages listed as upgradable are exactly the installed ones for which a repository has a newer release.", "quantifier": "every state of the system reachable by commands, every option, language and list of repositories", "why_tests_cant": "the lists come from several databases that must agree; whether an entry is missing or listed twice depends on the whole history of installs, removals and repository updates", "anchors": ["pisi/cli/listcmd.py", "pisi/op/listops.py", "pisi/cli/repo.py:ListRepo"]}
{"id": "C82", "title": "info shows what it was asked about", "statement": "pisi info NAME shows the description of the component, package file, or package with that name, and says so if there is none; several names are shown one after the other.", "quantifier": "every state of the system, every list of arguments", "why_tests_cant": "the answer depends on three databases and on what else has the same name", "anchors": ["pisi/cli/info.py", "pisi/op/info.py"]}
{"id": "C83", "title": "upgrade --security installs the security updates", "statement": "pisi upgrade --security upgrades exactly those of the packages asked for (all installed ones by default) whose history in the repository has a security update later than the installed release; with nothing due it does nothing.", "quantifier": "every state of the system, every list of packages, all histories, options, answers and orders of iteration", "why_tests_cant": "which packages are due depends on all releases in all histories; the defect only shows when the selection is used", "anchors": ["pisi/op/upgrade.py:upgrade_pkg_names", "pisi/cli/upgrade.py", "pisi/data/specfile.py:Update"]}
{"id": "C84", "title": "A build starts only when it can", "statement": "build unpacks, patches and runs nothing unless the action script can be compiled, every patch file is there, every build dependency is met by an installed package and the packages of system.devel are installed; what is missing is installed first if the user agrees, and --ignore-dependency, --bypass-safety and --no-install do what they say.", "quantifier": "all systems, specifications, options, answers and orders of iteration", "why_tests_cant": "All combinations of dependencies, repositories and installed packages.", "anchors": ["pisi/op/build.py:Builder.build", "pisi/op/build.py:Builder.check_build_dependencies", "pisi/op/build.py:Builder.patch_exists", "pisi/op/build.py:build_until"]}
{"id": "C85", "title": "Abandoned files are reported exactly", "statement": "With --show-abandoned-files a build reports exactly the files of the installation directory that are in none of the packages.", "quantifier": "all installation directories and all lists of paths with wild cards", "why_tests_cant": "All directory trees and path lists.", "anchors": ["pisi/op/build.py:Builder.get_abandoned_files", "pisi/op/build.py:Builder.gen_files_xml"]}
{"id": "C86", "title": "Every build has an environment of its own", "statement": "However many packages are built in one process, and however those builds ended, a build reads the variables of its own package and configuration and nothing else of earlier builds, its commands see the same variables, it installs into its own install directory, and a finished build leaves the working directory and the environment as they were.", "quantifier": "all configurations, initial environments, histories of builds and re-initialisations, action scripts (as programs that read, export, run commands, change directory, fail and branch on what they saw), and stages", "why_tests_cant": "Interference between builds depends on the whole history of the process, on which of two copies of the environment a step changes, and on what arbitrary scripts do; a test sees one pair of builds.", "anchors": ["pisi/actionsapi/variables.py: exportFlags", "Env", "initVariables", "pisi/op/build.py: Builder.set_environment_vars", "Builder.compile_action_script", "Builder.run_action_function", "Builder.build_packages", "pisi/actionsapi/scons.py: install", "pisi/actionsapi/shelltools.py: export", "pisi/config.py: Config.__init__", "pisi/util/process.py: run_logged"]}
{"id": "C87", "title": "A failing step fails the build", "statement": "The helpers an action script calls to configure, make and install a package (autotools, kde, perlmodules, pythonmodules, scons, libtools) run the documented command and no other. If that command fails the helper raises, so that the action and with it the build stop there, and nothing is run afterwards; if a helper returns, its command succeeded. A helper fails only for a known reason: a file it works on is missing, its command failed, a file could not be replaced, no compiler is on the path.", "quantifier": "every script of calls, with every argument, every answer of the outside (exit statuses, files that are there) at every moment, and every place of the failure", "why_tests_cant": "The number of scripts, arguments and outcomes of commands is unbounded; a test sees the failures it provokes itself, with the commands of one machine.", "anchors": ["actionsapi/autotools.py:configure", "actionsapi/autotools.py:compile", "actionsapi/autotools.py:install", "actionsapi/kde.py:configure", "actionsapi/perlmodules.py:install", "actionsapi/pythonmodules.py:install", "actionsapi/scons.py:make", "actionsapi/libtools.py:gnuconfig_update", "actionsapi/get.py:getBinutilsInfo", "actionsapi/shelltools.py:system"]}
{"id": "C88", "title": "Opening a package of a repository gives what the repository holds", "statement": "Opening a package by its address (as install and upgrade do) gives exactly the file the repository holds under that address, whether it is fetched whole, completed from a partial download, made from a delta and the package installed now, or kept from an earlier run; whatever happens, no part of a package is ever taken for the package, and no other file changes. A local package is opened in place.", "quantifier": "every address, server contents, mirror list, network behaviour, set of files on disk, installed version, delta and xdelta outcome, number of earlier attempts and point at which each stopped", "why_tests_cant": "a test opens one package on one network; the claim needs every interruption of every earlier attempt, every leftover file and every delta", "anchors": ["pisi/data/package.py:Package.__init__", "pisi/util/pkg.py:generate_pisi_file", "pisi/fetcher.py:fetch_url"]}
{"id": "C89", "title": "What is published can be downloaded, whole or not at all", "statement": "A text written to a local address (as the index of a repository is) with its checksum, plain or packed, can be downloaded from the server that shows the directory, and the download gives exactly the text. At every moment, while publishing goes on and after publications stopped anywhere, a download with checksum gives one of the texts published at that address or fails; it never gives a part of a text or a mixture, provided SHA-1 tells the published files from beginnings of them. Nothing is written to an address on a server.", "quantifier": "every text, address, option (packed or not, signed or not), number of publications and point at which each stopped, amount on the disk at any moment, and every visit with any network", "why_tests_cant": "a test publishes once and reads once; the claim is about every moment of every interrupted history of publications as seen by visitors", "anchors": ["pisi/file.py:File.__init__", "pisi/file.py:File.close", "pisi/file.py:File.download", "pisi/exml/xmlfilepiks.py:XmlFile.writexml"]}
{"id": "C90", "title": "Updating a repository brings the published index into the databases, all of it or nothing", "statement": "update-repo either leaves the package databases as they were or puts in the whole index the repository publishes; a failed or interrupted run changes nothing. After a successful run the databases describe the index that is published now. An index whose signature is missing or rejected never comes into the databases.", "quantifier": "all repositories, indexes, machines, states of the network and of the site, points at which a run may stop, and earlier runs", "why_tests_cant": "a test updates once from a good server; the claim is about every stop, every failing download and every history of earlier runs, of which the harmful one is a stop between the download and the databases", "anchors": ["pisi/op/repo.py:update_repo", "pisi/op/repo.py:rebuild_repo", "pisi/data/index.py:Index.read_uri_of_repo", "pisi/file.py:File.check_signature", "pisi/context.py:txn_proc"]}
{"id": "C91", "title": "Archives of object code are packaged as they were, but for the times in them", "statement": "When the files of a package are listed, every archive of object code (.a) keeps its members, their names, owners, sizes and contents; only the time of each member is overwritten, so two builds of the same objects at different times give the same file and digest, doing it twice changes nothing more, and a file that is not such an archive is not touched.", "quantifier": "every sequence of members, every content of a file", "why_tests_cant": "The content of members is arbitrary binary data; only a proof over all contents tells which are damaged by a rewriting that goes by lines.", "anchors": ["pisi/util/fs.py:clean_ar_timestamps", "pisi/util/fs.py:is_ar_file", "pisi/util/fs.py:get_file_hashes"]}
{"id": "C92", "title": "Commands on repositories touch exactly the repositories they name", "statement": "pisi update-repo changes nothing, in any database, of a repository it was not asked to update, nor of installed and third-party packages, wherever it stops; it updates the named repositories (all of them without names) in turn and every repository that can be updated is updated. add-repo adds exactly the named repository at the asked position, or nothing at all if it fails. remove-repo takes exactly the named repositories out of the list, the databases and the directory of indexes, and touches no other file.", "quantifier": "every history of the databases, every list of names (known, unknown, repeated), position and answer, every server, network and file system, every point at which a command stops", "why_tests_cant": "isolation is over every combination of repositories, indexes and stopping points", "anchors": ["pisi/cli/repo.py", "pisi/op/repo.py:add_repo", "pisi/op/repo.py:remove_repo", "pisi/op/repo.py:update_repo", "pisi/util/fs.py:clean_dir"]}
{"id": "C93", "title": "One instance at a time changes the databases", "statement": "In every interleaving of any number of pisi instances and of the processes they start, with any of them killed at any moment, at most one instance is at work on the databases; only that one changes a database. A second one is refused, and a refused command has changed nothing; once no instance is at work, a new one is not refused.", "quantifier": "every number of instances, every interleaving of their actions, every moment of being killed, every process they start", "why_tests_cant": "the property is about schedules and crash points", "anchors": ["pisi/db/lockeddbshelve.py:lock_dbenv", "pisi/db/lockeddbshelve.py:init_dbenv", "pisi/db/lockeddbshelve.py:LockedDBShelf", "pisi/api.py:init", "pisi/api.py:finalize", "pisi/op/rebuilddb.py:rebuild_db"]}
{"id": "C94", "title": "What was installed is stripped, except what NoStrip names, and nothing else", "statement": "When packages are made, each program and library in the install directory is stripped with the options for its kind, after its debug information went to the debug directory if that is asked for; libtool archives lose the paths of the build directory; files in a place named by NoStrip in the action script keep their contents; files elsewhere on the system are not touched; and static and debug packages are made when asked for.", "quantifier": "every directory content and order of walking it, every NoStrip list, every behaviour of strip, objcopy, sed and file", "why_tests_cant": "names of files and NoStrip lists are arbitrary strings, and what happens to a file must not depend on the others present", "anchors": ["pisi/util/fs.py:strip_directory", "pisi/util/fs.py:strip_file", "pisi/op/build.py:strip_install_dir", "pisi/op/build.py:generate_static_package_object", "pisi/op/build.py:generate_debug_package_object"]}
{"id": "C95", "title": "Additional files are in the package, as the specification gives them", "statement": "A package made from a specification holds, at each place it takes, the last additional file given for that place by it or a package before it, with the permission given, and otherwise what the build produced; every additional file of a package is in it; the packages are made in turn up to the first failure; and packaging the same build once more gives the same packages.", "quantifier": "every list of packages with additional files, targets and permissions, every install directory and way of stripping", "why_tests_cant": "the packages share one directory that each of them changes: every combination of targets, orders and covered paths would have to be tried", "anchors": ["pisi/op/build.py:build_packages", "pisi/util/fs.py:copy_file", "pisi/data/specfile.py:AdditionalFile"]}
{"id": "C96", "title": "Patches of a source", "statement": "Building applies every patch of the source once, in the order of the specification, with its level (0 unless given) and target, after unpacking it if it is packed; the first that is missing, cannot be unpacked or is refused fails the build and none after it is applied; nothing else is changed and the process is in the directory it was in.", "quantifier": "every list of patches with any names, levels, targets and packings, every content of the files directory, every source tree and every behaviour of patch", "why_tests_cant": "the patches, their texts and what each leaves to the next are unbounded in number, and names go through a shell", "anchors": ["pisi/op/build.py:apply_patches", "pisi/util/fs.py:uncompress", "pisi/util/fs.py:do_patch", "pisi/util/process.py:run_batch"]}
{"id": "C97", "title": "Configuring with COMAR", "statement": "Configuring a package registers its scripts with COMAR in order, then has the handlers told, then has its own post-install script run if it provides System.Package; removal runs its pre-remove script, tells the handlers, unregisters. Each request is made only after COMAR answered that all before it succeeded; the call returns normally exactly if all succeeded (a group of scripts: if none failed), or comar itself was being configured, cut the link in the last step and came back; otherwise it raises Error. Whatever COMAR sends, the requests made are a beginning of that sequence.", "quantifier": "every package and list of scripts, every COMAR: any replies and closing of the link as a function of all requests so far", "why_tests_cant": "the replies are chosen by another process, in any number and order, and a reply left unread would be taken for the answer to the next request", "anchors": ["pisi/comariface.py:post_install", "pisi/comariface.py:pre_remove", "pisi/comariface.py:wait_for_result", "pisi/comariface.py:make_com"]}
{"id": "C98", "title": "Building from a specification on a server", "statement": "Building from the address of a specification on a server fetches the action script, every patch, every script for COMAR and every additional file the specification names to the places where the build looks for them, with exactly what the server has; no other file changes. It fails, and fails with a fetch error, just if one of these is missing on the server.", "quantifier": "Every specification, every address, every content of the server and every state of the temporary directory", "why_tests_cant": "A test uses one specification and one server; whether every named file ends up where the build looks depends on the names (directories, '#', '?'), on emptiness, and on repeated names", "anchors": ["pisi/op/build.py:Builder.fetch_files", "pisi/op/build.py:Builder.fetch_actionsfile", "pisi/op/build.py:Builder.fetch_patches", "pisi/op/build.py:Builder.fetch_comarfiles", "pisi/op/build.py:Builder.fetch_additionalFiles", "pisi/op/build.py:Builder.download", "pisi/file.py:File.download"]}
{"id": "C99", "title": "Transfers go through the configured proxy", "statement": "If a proxy is configured for the protocol of an address (http, https or ftp), every connection made to fetch the address goes through that proxy; if none is configured, none of pisi's settings are used; settings for other protocols never matter.", "quantifier": "Every address, every three settings, every configuration file, with and without a part left by an earlier attempt", "why_tests_cant": "A test sees one address and one proxy; the decision depends on the two protocols, on how the proxy is written and on what earlier attempts left behind", "anchors": ["pisi/fetcher.py:Fetcher._get_proxies", "pisi/fetcher.py:Fetcher.fetchRemoteFile", "pisi/fetcher.py:Fetcher._test_range_support", "pisi/configfile.py:GeneralDefaults"]}
{"id": "C100", "title": "Emerging builds what was asked for and installs what the builds gave", "statement": "emerge builds each source asked for (a name, or the sources of a component) exactly once, from the address given by the first repository that has it, and installs every package of a build before the next source is built. The first failure ends it, with everything before it in place; a dry run does nothing; after pisi itself a restart is asked for.", "quantifier": "Every system reached by any history, every request, every order in which a set is gone through, every behaviour of builds and installations depending on all that was done before", "why_tests_cant": "A test emerges one source; order of sets, components in several repositories, failures at any point and combinations with pisi itself multiply", "anchors": ["pisi/op/emerge.py:emerge", "pisi/op/emerge.py:plan_emerge", "pisi/op/build.py:build", "pisi/op/build.py:Builder.from_name", "pisi/op/component.py:expand_src_components", "pisi/op/install.py:install_pkg_files"]}
{"id": "C101", "title": "Pipes in action scripts do what the programs of the same names do", "statement": "cat gives the lines of a file and loses nothing; grep gives the matching ones in order; sort gives the same lines ordered by their bytes; uniq gives one of each run; sort | uniq gives every line exactly once, in order; printing what cat read gives the file.", "quantifier": "Every file content and every sequence of lines, every pattern", "why_tests_cant": "A test sees a few lines; order, repetition and the missing newline at the end must be right for all contents", "anchors": ["pisi/actionsapi/coreutils.py:cat", "pisi/actionsapi/coreutils.py:grep", "pisi/actionsapi/coreutils.py:sort", "pisi/actionsapi/coreutils.py:uniq", "pisi/actionsapi/coreutils.py:printto", "pisi/actionsapi/coreutils.py:terminator"]}
{"id": "C102", "title": "search-file tells whose file it is", "statement": "For each path given, search-file names the installed package that has a file at that place, with its type and checksum, or says that none has. Links are followed, relative paths start from the current directory. With --fuzzy the path is a pattern with *, ?, [a-z] and [!a-z], and every owned place that fits is told once. A link that a package installed is found as well, and no pattern ends the command.", "quantifier": "Every history of installations, upgrades and removals, every file system with links, every list of arguments and every pattern", "why_tests_cant": "A test asks about a few files of one system; the answer must be right for every history and every chain of links, and for every pattern", "anchors": ["pisi/cli/search.py:SearchFile", "pisi/db/files.py:match_files", "pisi/db/files.py:get_file"]}
{"id": "C103", "title": "Action scripts put all the files they name in their place", "statement": "dobin, dosbin, doexe, dodoc, doinfo, insinto and dohtml, for any number of patterns with any number of matches, put in the directory meant (made if need be) each file that matched under its own name, and change nothing else; dohtml takes the pages and pictures, also those in the directories matched, except in directories named CVS; doexes does so for a list", "quantifier": "every set of sources and patterns, every state of the files, every tree of pages", "why_tests_cant": "a test builds one package; the claim is about every list of patterns, every set of matching files and every tree of documentation", "anchors": ["pisi/actionsapi/pisitools.py:dohtml", "pisi/actionsapi/pisitools.py:dodoc", "pisi/actionsapi/pisitools.py:dobin", "pisi/actionsapi/pisitools.py:doinfo", "pisi/actionsapi/pisitools.py:doexes", "pisi/actionsapi/pisitoolsfunctions.py:executable_insinto", "pisi/actionsapi/pisitoolsfunctions.py:readable_insinto"]}
{"id": "C104", "title": "Manual pages go to their sections, and renamed documentation to its new name", "statement": "doman puts every page its arguments match into usr/share/man/man followed by the section after the last dot of the page's own name, under the page's own name, makes the directories that are missing, changes nothing else, and refuses pages without a section. newman and newdoc put one file, under the name asked for, into its section or into the package's documentation directory, and leave a copy under that name in the current directory.", "quantifier": "all install and current directories, file trees, lists of arguments, patterns and matches, all names", "why_tests_cant": "the matches, names, sections, directories already there, links and repeated names are unbounded; tests try a page or two", "anchors": ["pisi/actionsapi/pisitools.py:doman", "pisi/actionsapi/pisitools.py:newman", "pisi/actionsapi/pisitools.py:newdoc", "pisi/actionsapi/pisitoolsfunctions.py:readable_insinto", "pisi/actionsapi/shelltools.py:copy"]}
{"id": "C105", "title": "Editing files in place changes those files and nothing else", "statement": "dosed replaces the pattern in every line of every file its argument matches, leaves everything else in the file system as it was, and is an error, with nothing changed, when the file is not there, is a directory or when the pattern is not a regular expression.", "quantifier": "all file trees, current directories, patterns and matches, all texts and line ends, all replacements", "why_tests_cant": "texts, numbers of lines, matches, links and names already in use are unbounded; a test edits a file or two", "anchors": ["pisi/actionsapi/pisitools.py:dosed", "pisi/actionsapi/shelltools.py:can_access_file"]}
{"id": "C106", "title": "Sizes and rates are shown as they are, in a fitting unit", "statement": "The total size shown before an installation or upgrade is the sum of the sizes of the packages, and a size or rate shown with its unit is the real one, to the figures printed, with the unit chosen so that the number is at most 1000 unless it is in gigabytes. More is never shown as less.", "quantifier": "all whole numbers of bytes, all rates, all lists of packages and their sizes", "why_tests_cant": "sizes are unbounded and the places where the unit changes are where it goes wrong; tests try a few sizes", "anchors": ["pisi/util/fun.py:human_readable_size", "pisi/util/fun.py:human_readable_rate", "pisi/op/install.py:install_pkg_names", "pisi/op/upgrade.py:upgrade_pkg_names"]}
{"id": "C107", "title": "delete-cache empties the caches and nothing else", "statement": "delete-cache removes all that is in the directories of packages, of archives and of temporary files, wherever these directories are, and changes nothing else in the file system, however far it gets.", "quantifier": "all file trees, current and destination directories, configured directories, users, writable or not, and all points at which it may be stopped", "why_tests_cant": "the trees, links in and around the caches and configured places are unbounded; a test has one cache", "anchors": ["pisi/api.py:delete_cache", "pisi/config.py:tmp_dir", "pisi/config.py:subdir", "pisi/util/fs.py:clean_dir", "pisi/util/fs.py:check_dir"]}
{"id": "C108", "title": "clean removes the stale locks of the database", "statement": "pisi clean deletes the locks in the database directory that nobody uses, and nothing else, wherever it is called.", "quantifier": "all file trees, current directories, depths, names and links, and all points at which it may be stopped", "why_tests_cant": "trees, names and current directories are unbounded; a test has one directory", "anchors": ["pisi/cli/clean.py:Clean", "pisi/util/fs.py:clean_locks"]}
