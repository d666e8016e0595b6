{"id": "C01", "title": "An install records exactly what it installed and touches no other record", "statement": "When adding a package succeeds without force, the package database afterwards holds the new package with exactly the files of the archive that the rules let through, and the record (files, version, flags) of every other package is unchanged.", "quantifier": "every database, archive, rules file and file system", "why_tests_cant": "The record must be right for every archive content and every pre-existing database; tests only sample a few.", "anchors": ["src/pkgadd.cxx:pkgadd::run", "src/pkgdbh.cxx:pkgdbh::addPackageFilesRefsToDB"]}
{"id": "C02", "title": "No two packages own the same regular file", "statement": "Starting from an empty database, after any sequence of adds, forced adds, upgrades and removals executed one after another, no path other than a directory is listed by two different packages.", "quantifier": "every finite history of add / forced add / upgrade / remove operations, with any archives", "why_tests_cant": "An invariant over all histories; a test exercises one history.", "anchors": ["src/pkgadd.cxx:pkgadd::run", "src/pkgdbh.cxx:getConflictsFilesList", "src/pkgdbh.cxx:removePackageFilesRefsFromDB"]}
{"id": "C03", "title": "The reported conflict list is exactly the set of conflicting files", "statement": "The conflicts reported for an archive are exactly the non-directory files of the archive that are owned by another installed package or already present in the target file system, minus those owned by the installed version of the same package; directories are never reported.", "quantifier": "every database, file system and archive file list", "why_tests_cant": "Set-theoretic characterisation in both directions over unbounded inputs.", "anchors": ["src/pkgdbh.cxx:pkgdbh::getConflictsFilesList"]}
{"id": "C04", "title": "A refused install changes nothing", "statement": "If adding a package is refused (already installed, not installed on upgrade, conflicts without force, bad rules, failed script), no database record has been changed, and no file of the target root has been changed except by the package's own .PRE script, the place that script is run from, and the stray top-level metadata names that opening the database cleans. One exception: a forced upgrade refused for an invalid rule pattern may already have taken conflicting files from other packages.", "quantifier": "every database, file system, archive, options", "why_tests_cant": "All refusing paths for all inputs.", "anchors": ["src/pkgadd.cxx:pkgadd::run"], "refuted_ideal": "If adding a package is refused (already installed, not installed on upgrade, conflicts without force, bad rules), no file of the target root and no database record has been changed."}
{"id": "C05", "title": "Removing a package never deletes another package's file", "statement": "After removing a package without removal scripts, whose paths are spelled as other packages spell them: every file that any other installed package lists is still there with its content, every path listed only by the removed package is gone unless it is a non-empty directory, every path not listed by the package is untouched, and no other record is changed. If two packages spell one path differently ('lib', 'lib/') the comparison misses it and the other's path may go.", "quantifier": "every database and file system", "why_tests_cant": "Ranges over all overlaps of file lists and all file system shapes.", "anchors": ["src/pkgrm.cxx:pkgrm::run", "src/pkgdbh.cxx:removePackageFiles"], "refuted_ideal": "After removing a package, every file that any other installed package lists is still there with its content, every file listed only by the removed package is gone unless it is a non-empty directory, and every path not listed by the package is untouched."}
{"id": "C06", "title": "Removal processes a directory's contents before the directory", "statement": "A directory listed only by the removed package, all of whose remaining entries are also listed only by that package, is itself deleted: the order in which files are deleted always puts the contents before the directory.", "quantifier": "every file list and every directory nesting depth", "why_tests_cant": "Depends on the lexicographic order of arbitrary names.", "anchors": ["src/pkgdbh.cxx:removePackageFiles"]}
{"id": "C07", "title": "An upgrade keeps files protected by the rules", "statement": "When a package is upgraded, every file of the new archive that the INSTALL rules let through, that an UPGRADE NO rule protects and that exists on disk keeps its content; the archive's version goes to the rejected area exactly when it is not identical (or empty) with identical permissions. A file that is both kept out by an INSTALL NO rule and protected by UPGRADE NO is deleted by the upgrade.", "quantifier": "every old/new file list, rules list and file system", "why_tests_cant": "Interaction of rules, keep list and removal over unbounded inputs.", "anchors": ["src/pkgadd.cxx:getKeepFileList", "src/pkgdbh.cxx:installArchivePackage"], "refuted_ideal": "When a package is upgraded, every file of the new archive that an UPGRADE NO rule protects and that exists on disk keeps its content; the archive's version goes to the rejected area unless it is identical (or empty) with identical permissions."}
{"id": "C08", "title": "An upgrade removes the files the new version dropped", "statement": "After an upgrade, files listed by the old version, not by the new one and not by any other package are gone (directories: if empty); files of other packages are untouched.", "quantifier": "every old/new version pair and database", "why_tests_cant": "All pairs of file lists.", "anchors": ["src/pkgadd.cxx:pkgadd::run", "src/pkgdbh.cxx:removePackageFiles"]}
{"id": "C09", "title": "The last matching rule decides", "statement": "Whether a file is installed (resp. upgraded) is decided by the last rule of the rules file whose event matches and whose pattern matches the file name; with no such rule the file is installed (upgraded). The archive's file list is partitioned into installed and not-installed files.", "quantifier": "every rules list and file list, any pattern-matching relation", "why_tests_cant": "All rule orders and overlaps.", "anchors": ["src/pkgadd.cxx:applyInstallRules", "src/pkgadd.cxx:getKeepFileList", "src/pkgadd.cxx:getInstallRulesList"]}
{"id": "C10", "title": "Rules file parsing accepts exactly the documented lines", "statement": "A rules file is accepted iff every non-empty non-comment line has exactly three blank-separated fields, a known event and an action YES or NO; the rules come out in file order with their fields.", "quantifier": "every sequence of lines", "why_tests_cant": "All malformed lines.", "anchors": ["src/pkgdbh.cxx:readRulesFile"]}
{"id": "C11", "title": "Database record round trip", "statement": "The list of files written for a package is read back as the same list when the database is next loaded, provided the names are non-empty and contain no newline.", "quantifier": "every file list", "why_tests_cant": "Codec round trip over all inputs.", "anchors": ["src/pkgdbh.cxx:addPackageFilesRefsToDB", "src/pkgdbh.cxx:buildDatabase", "src/file_utils.cxx:parseFile"]}
{"id": "C12", "title": "Rewriting a package's file list is atomic", "statement": "If the machine stops at any point while a package's file list is being rewritten, the list read afterwards is either the old or the new one, never a mixture or a truncation.", "quantifier": "every crash point and every old/new list", "why_tests_cant": "Crash points cannot be enumerated by unit tests.", "anchors": ["src/pkgdbh.cxx:addPackageFilesRefsToDB", "src/pkgdbh.cxx:removePackageFilesRefsFromDB"]}
{"id": "C13", "title": "When the database stays loadable after a crash", "statement": "If the process is killed during an install, an upgrade or a removal, or the machine stops during a removal, the database can be loaded afterwards if and only if the point is outside a window: for an install or upgrade, between the creation of the record directory and the renaming of the list of files; for a removal, between the deletion of the list of files and that of the record directory. If the machine stops inside the window of an install the database cannot be loaded either; after a complete install it may fail to load, because META is not synced.", "quantifier": "every crash point of every install / upgrade / remove", "why_tests_cant": "Crash points.", "anchors": ["src/pkgdbh.cxx:moveMetaFilesPackage", "src/pkgdbh.cxx:addPackageFilesRefsToDB", "src/pkgdbh.cxx:removePackageFilesRefsFromDB", "src/pkgdbh.cxx:getListOfPackageNames"], "refuted_ideal": "If the machine stops at any point of an install, upgrade or removal, the package database can be loaded afterwards."}
{"id": "C14", "title": "Exclusive database lock", "statement": "At any moment at most one process holds the database lock exclusively, and then nobody holds it shared; a lock is released when its holder is done, and a process that cannot get it fails instead of proceeding.", "quantifier": "every interleaving of any number of processes", "why_tests_cant": "All schedules.", "anchors": ["src/lock.cxx:lock"]}
{"id": "C15", "title": "Concurrent installs are serialised", "statement": "An add without force fails, whatever any number of other processes do before, between and after, if, when it reads the database, another package records a file it would install, or if, when it makes its check, such a file is on the disk and not its own package's. In particular, of two adds of packages sharing a file, one that begins when the other has finished fails. Exception: two adds that both make their check before either has unpacked can both succeed and both record the file (the check is made before the lock is taken).", "quantifier": "every number of processes and programs, every schedule, kills included, every archive, rules file and database", "why_tests_cant": "All schedules.", "anchors": ["src/pkgadd.cxx:pkgadd::run", "src/lock.cxx:lock"], "refuted_ideal": "Two concurrent adds of packages sharing a file cannot both succeed in owning it (without force)."}
{"id": "C16", "title": "An already installed package is not installed again", "statement": "Adding (without upgrade) a package whose name is already in the database is refused; upgrading a package that is not in the database is refused.", "quantifier": "every database, also within one session after earlier operations", "why_tests_cant": "History dependent.", "anchors": ["src/pkgadd.cxx:pkgadd::run", "src/pkgdbh.cxx:checkPackageNameExist"]}
{"id": "C17", "title": "META fields survive the database", "statement": "Loading the database yields for each package the version, release (modulo 65536), url, description, dependencies with their build dates, aliases, size (modulo 2^32), group, set, collection and dependency flag written in its META lines. A date is the decimal number written, signed or not, unless it starts with 0: then it is read as an octal or hexadecimal number. A dependency line of nine characters after the tag is all name, with date 0; if a line is shorter, loading is refused: it is never read out of range.", "quantifier": "every META content", "why_tests_cant": "All line contents, including malformed ones.", "anchors": ["src/pkgdbh.cxx:buildDatabase"], "refuted_ideal": "Loading the database yields for each package the version, release, url, description, dependencies with their build dates, aliases, size, group, set, collection and dependency flag written in its META lines; a line that is too short to hold the build date is never read out of range."}
{"id": "C18", "title": "Exactly when a package is recorded as automatic", "statement": "After a successful install or upgrade without scripts, the package is recorded as automatic exactly if its archive's META says so, or it was installed as a dependency of the request, or it was upgraded and was automatic before, or the uninitialised flag of the program happened to be set. So a package installed as a dependency stays automatic, and a manual package stays manual unless its upgrade is pulled in by another request.", "quantifier": "every META content, database, file system, options, any number of upgrades", "why_tests_cant": "History dependent.", "anchors": ["src/pkgadd.cxx:pkgadd::run", "src/pkgdbh.cxx:moveMetaFilesPackage", "src/pkgdbh.cxx:checkDependency"], "refuted_ideal": "A package installed as a dependency is recorded as automatic; upgrading it keeps it automatic; upgrading a manually installed package keeps it manual."}
{"id": "C19", "title": "Removing obsolete packages spares everything a manually installed package needs", "statement": "'cards remove' without argument, when it succeeds, removes exactly the obsolete packages: the installed packages that no manually installed package needs, directly or indirectly by package name, and the installed packages named NAME.GROUP (a configured group) after one of those; whatever the outcome it touches no other package, so everything a manually installed package needs stays, unless it is needed only by an alias or is such a group package.", "quantifier": "every database (no hidden or nameless entries) and dependency graph, cyclic or not, every configuration of groups, rules and scripts, every outcome", "why_tests_cant": "All graphs.", "anchors": ["src/remove.cxx:remove", "src/pkgrm.cxx:getDirectDependencies"], "refuted_ideal": "'cards remove' without argument proposes only automatic packages on which no manually installed package depends directly or indirectly."}
{"id": "C20", "title": "A package in use is not removed", "statement": "'cards remove ARGS' is refused as 'in use', with the database unchanged, exactly when one of the arguments is 'base' or is the name of something an installed package states as a dependency. An argument that designates a package in use in another way - by an alias, by its collection, group or set - is not refused.", "quantifier": "every database and every way of naming the package, aliases included", "why_tests_cant": "All databases and names.", "anchors": ["src/remove.cxx:remove"], "refuted_ideal": "'cards remove NAME' fails and removes nothing when NAME designates an installed package on which another installed package depends."}
{"id": "C21", "title": "Base packages are not removed", "statement": "Without the explicit flag, a successful 'cards remove' removes an installed package of the base collection only in these ways: an argument is an alias of it; it is named NAME.GROUP after a chosen package; no manually installed package that stays needs it; or it is named NAME.GROUP after a package removed for that reason. In every other case - in particular when it is named by its own name, or by its collection, group or set - it is untouched.", "quantifier": "every database (no hidden or nameless entries), argument list and configuration", "why_tests_cant": "All databases and names.", "anchors": ["src/remove.cxx:remove"], "refuted_ideal": "Without the explicit flag, no package of the base collection is ever removed by 'cards remove'."}
{"id": "C22", "title": "Dependencies come before dependents in the install list", "statement": "Provided the index states the dependencies that the archives state, in the list of packages to install every package comes after all of its not-yet-installed dependencies, and there is no duplicate. (The index drops the dependency lines of short names, so for those the order can be wrong.)", "quantifier": "every acyclic repository and request sequence", "why_tests_cant": "All graphs.", "anchors": ["src/pkgrepo.cxx:generateDependencies"], "refuted_ideal": "In the list of packages to install, every package comes after all of its not-yet-installed dependencies, and there is no duplicate."}
{"id": "C23", "title": "Exactly when dependency resolution terminates", "statement": "With an index that states what the archives state and all wanted packages available, computing the install list terminates exactly if no wanted package needs itself, directly or through others; otherwise the work list grows for ever.", "quantifier": "every repository graph", "why_tests_cant": "Non-termination cannot be observed by a test.", "anchors": ["src/pkgrepo.cxx:generateDependencies"], "refuted_ideal": "Computing the install list terminates for every repository."}
{"id": "C24", "title": "The install list is closed under missing dependencies and minimal", "statement": "The install list contains exactly the requested package and the packages reachable from it through dependencies that are not already installed in that build.", "quantifier": "every acyclic repository graph and installed set", "why_tests_cant": "Both inclusions over all graphs.", "anchors": ["src/pkgrepo.cxx:generateDependencies"]}
{"id": "C25", "title": "Build levels respect dependencies", "statement": "The computation of levels terminates for every ports tree. For a port from which no cycle can be reached, the level is strictly greater than that of each port it depends on, is one more than the level of one of them, and is 0 only if there is none. A port from which a cycle can be reached has level 0. (A dependency is looked up by the part of its name before the first dot, so a port with a dot in its name is nobody's dependency.)", "quantifier": "every ports tree", "why_tests_cant": "All graphs.", "anchors": ["src/pkgfile.cxx:generate_level"], "refuted_ideal": "The level computed for a port is strictly greater than the level of each port it depends on, and the computation terminates."}
{"id": "C26", "title": "The dependency listing is the reachability closure", "statement": "'cards depends' ends on every ports tree and lists exactly the port itself and those names written, directly or not, in dependency lines below it that have a lower level. When no cycle can be reached from it and dependencies name ports without dots, these are exactly the reachable ports; when a cycle can be reached, only the port itself.", "quantifier": "every ports tree", "why_tests_cant": "All graphs.", "anchors": ["src/depends.cxx:depends::list", "src/pkgfile.cxx"], "refuted_ideal": "'cards depends' lists exactly the ports reachable from the argument by dependencies, terminating on cyclic graphs."}
{"id": "C27", "title": "Repository index round trip", "statement": "Parsing the repository indexes produced by the generator, of any list of collections whose records are regular, yields every package with every field its record states; of packages of one name the last; a field its record does not state holds what the last earlier record that states it says, since the program does not reset its record.", "quantifier": "every list of packages", "why_tests_cant": "Codec over all inputs.", "anchors": ["src/repo.cxx", "src/pkgrepo.cxx:parse"], "refuted_ideal": "Parsing a repository index produced by the generator yields every package with its fields."}
{"id": "C28", "title": "What is handed to the installer was verified", "statement": "With a url in the configuration, and packages whose files and names are distinct, every package put into the list to install has, in the depot, an archive whose hash, together with the signature in the index, verifies under the public key of its collection. (The hash of the index decides only about downloads: an archive that is in the depot and agrees with it is not downloaded, one that does not is downloaded once, a missing one is downloaded, and once more if what came does not agree. Without a url nothing is checked.)", "quantifier": "every index content, every download outcome, any signature scheme", "why_tests_cant": "Adversarial inputs.", "anchors": ["src/pkgrepo.cxx:checkHash", "src/pkgrepo.cxx:checkSign", "src/install.cxx"], "refuted_ideal": "When a signed collection is used, a binary whose hash differs from the index or whose signature does not verify is never handed to the installer."}
{"id": "C29", "title": "Hexadecimal encoding round trip", "statement": "Decoding the hexadecimal form of a byte string yields the byte string. Any text is accepted exactly if it is a sequence of pairs of two hexadecimal digits, of one digit and another character, or of a blank or sign and a digit, and then gives their bytes; a byte is written behind the buffer exactly if a single further digit follows such a sequence; every other text is refused.", "quantifier": "every byte string and every text", "why_tests_cant": "All inputs including malformed.", "anchors": ["src/pkgrepo.cxx:hexaToChar", "src/repo.cxx"], "refuted_ideal": "Decoding the hexadecimal form of a byte string yields the byte string; malformed hexadecimal text is rejected without writing outside the buffer."}
{"id": "C30", "title": "Configuration parsing", "statement": "Directories are read in file order with their url and depot; the first depot and url are the default for directories that give none; locales and groups are collected in order, the last log directory and key path count; comments and unknown keys are ignored.", "quantifier": "every configuration file", "why_tests_cant": "All line sequences.", "anchors": ["src/conf.cxx:parseConfig"]}
{"id": "C31", "title": "Trimming white space", "statement": "The trimmed string has no leading or trailing white space, is a contiguous part of the input, trimming is idempotent and a blank string becomes empty.", "quantifier": "every byte string", "why_tests_cant": "All inputs.", "anchors": ["src/string_utils.cxx:stripWhiteSpace"]}
{"id": "C32", "title": "Splitting on a delimiter", "statement": "Tokens are non-empty, contain no delimiter, appear in order, and together are the input minus delimiters; splitting the join of such tokens gives them back. The two splitting functions agree. The value of a key in a text is the one given by the last line that gives it one: a line that is not empty and starts neither with # nor with the delimiter gives the trimmed text before its first delimiter the trimmed text after it as value (without delimiter, the trimmed line an empty value); if no line does, the value is empty.", "quantifier": "every byte string and delimiter", "why_tests_cant": "All inputs.", "anchors": ["src/string_utils.cxx:parseDelimitedVectorList", "src/string_utils.cxx:parseDelimitedSetList"], "refuted_ideal": "Tokens are non-empty, contain no delimiter, appear in order, and together are the input minus delimiters; splitting the join of such tokens gives them back. The two splitting functions agree."}
{"id": "C33", "title": "Replace-all terminates and replaces everything", "statement": "If replacing all occurrences of a text ends, no occurrence is left. It ends, and replaces exactly the occurrences there were, when the old text is one character that the new one does not contain (the only calls in the program); it ends when the new text is shorter than the old one; it never ends when the new text contains the old one and there is an occurrence.", "quantifier": "every triple of strings", "why_tests_cant": "Non-termination.", "anchors": ["src/string_utils.cxx:replaceAll"], "refuted_ideal": "Replacing all occurrences of a text terminates for every input and leaves no occurrence."}
{"id": "C34", "title": "Number formatting and its buffer", "statement": "Formatting any 32-bit number gives its decimal digits and stays in its buffer. Formatting a 64-bit unsigned number gives its decimal digits, from which it can be read back, and stays in its buffer, exactly if it has at most 19 digits; with 20 digits it writes behind it.", "quantifier": "every 64-bit value", "why_tests_cant": "2^64 inputs.", "anchors": ["src/string_utils.cxx:ultos", "src/string_utils.cxx:itos"], "refuted_ideal": "Formatting any 64-bit unsigned number as text writes only inside its buffer and gives the decimal digits, from which the number can be read back."}
{"id": "C35", "title": "Mode strings are faithful", "statement": "The ten-character mode string shows the file type and each permission bit of every mode at its place, so two modes with different permissions or different known types never print alike. Changing the case of a text changes exactly its 26 letters, and the comparison of beginnings ignores exactly the case.", "quantifier": "every mode_t", "why_tests_cant": "All inputs.", "anchors": ["src/string_utils.cxx:mtos"], "refuted_ideal": "The ten-character mode string determines the permission bits and the file type of every mode; two modes with different permissions or different known types never print alike."}
{"id": "C36", "title": "Path clean-up", "statement": "The cleaned path contains no two adjacent slashes, differs from the input only by removed slashes, names the same components, and cleaning is idempotent.", "quantifier": "every path", "why_tests_cant": "All inputs.", "anchors": ["src/file_utils.cxx:trimFileName"]}
{"id": "C37", "title": "Reading a text file line by line", "statement": "A text file is read in pieces that end after a newline, after the buffer size or at the end of the file; of each piece everything before its first NUL except the last character is one line. So every line of a newline-terminated text file without NUL whose lines fit in the buffer is read back whole and in order (or sorted, each once, when it is read into a set); a piece that begins with NUL makes the program write before its buffer.", "quantifier": "every file content", "why_tests_cant": "All inputs, including long and unterminated lines.", "anchors": ["src/file_utils.cxx:parseFile"], "refuted_ideal": "Every line of a newline-terminated text file is read back whole and in order."}
{"id": "C38", "title": "File comparison is exact", "statement": "Two regular files compare equal iff their contents are byte for byte the same; two links iff their targets are; two devices of one kind iff they lie on the same file system, even if they are different devices; a missing file, a directory, a socket or a FIFO is equal to nothing. Permission comparison holds iff type, mode, owner and group agree.", "quantifier": "every pair of files", "why_tests_cant": "All contents and sizes around the buffer boundary.", "anchors": ["src/file_utils.cxx:checkFilesEqual", "src/file_utils.cxx:checkPermissionsEqual"], "refuted_ideal": "Two regular files compare equal iff their contents are byte for byte the same; two links iff their targets are; permission comparison holds iff mode, owner and group agree."}
{"id": "C39", "title": "Removing a file only prunes emptied directories", "statement": "For all arguments, removing a file deletes that file and then only directories that are ancestors of it and empty, and ends. When the base directory is given without trailing slash and the file is below it, only ancestors below the base go, and all emptied ones do; with a trailing slash on the base, the base itself can go.", "quantifier": "every tree and path", "why_tests_cant": "All trees.", "anchors": ["src/file_utils.cxx:removeFile"], "refuted_ideal": "Removing a file below the base directory deletes that file and then only directories that are ancestors of the file, below the base, and empty."}
{"id": "C40", "title": "The growable array behaves like a sequence", "statement": "A sequence of reservations and pushes (fewer than 2^32) on the growable array stays inside its storage exactly if no push meets a full array that has no element or at least 2^31; then its size is the number of values pushed and the i-th element is the i-th of them.", "quantifier": "every operation sequence", "why_tests_cant": "All histories.", "anchors": ["src/vector.cxx:vector"], "refuted_ideal": "After any sequence of operations on the growable array, the i-th element is the i-th value pushed, and no operation reads or writes outside its storage."}
{"id": "C41", "title": "The string class behaves like a sequence of characters", "statement": "No sequence of assignments, reservations and accesses of the string class leaves its storage. Reading it gives exactly the last text assigned that was not empty (cut at a NUL), unless a later reservation of n places with 8 n not above its length has cut it, in which case, as in a new string, reading runs over cells never written or outside.", "quantifier": "every operation sequence", "why_tests_cant": "All histories.", "anchors": ["src/string.cxx:string"], "refuted_ideal": "After any sequence of assignments and reservations the string holds exactly the characters last assigned, zero-terminated, and never accesses outside its storage."}
{"id": "C42", "title": "Command line parsing", "statement": "The command is the first argument that is no option; option values, the argument count rule of the command and mandatory options are enforced: a command line is accepted iff it satisfies them.", "quantifier": "every argument vector", "why_tests_cant": "All argument vectors.", "anchors": ["src/argument_parser.cxx:parse"]}
{"id": "C43", "title": "Exit status of external programs", "statement": "A script run by the tool is reported as failed exactly if it terminated normally with a status other than 0; one killed by a signal, or that could not be started or waited for, is reported as successful.", "quantifier": "every wait status", "why_tests_cant": "All statuses, signals, fork failure.", "anchors": ["src/process.cxx:execute"], "refuted_ideal": "A script run by the tool is reported as successful only if it terminated normally with status 0."}
{"id": "C44", "title": "Upgrade classification is a partition", "statement": "Comparing installed packages with the repositories puts every installed package in exactly one of: up to date, to update, to remove/not available; the counters add up.", "quantifier": "every database and repository list", "why_tests_cant": "All inputs.", "anchors": ["src/diff.cxx", "src/upgrade.cxx"]}
{"id": "C45", "title": "Scanning an index never reads beyond the mapped file", "statement": "Listing the packages never reads outside the mapped indexes exactly if every index, up to the first that is empty or missing, ends with a newline. Then one entry is reported for each empty line, in order, holding for each field the last line with that tag read so far in that index; an index that is empty or missing makes the listing empty. So each record of a generated index that states its four fields is reported with them. Listing the sets shows each name on a set line once, sorted, and nothing if an index is empty or missing.", "quantifier": "every file content", "why_tests_cant": "Memory safety on all contents.", "anchors": ["src/list.cxx", "src/search.cxx"], "refuted_ideal": "Listing the packages of an index never reads outside the mapped file and reports every record."}
{"id": "C46", "title": "Status flags are independent", "statement": "Setting or clearing one status flag of a cache entry leaves all other flags as they were.", "quantifier": "every flag word and flag", "why_tests_cant": "All words.", "anchors": ["src/cache.cxx"]}
{"id": "C47", "title": "Only real packages are accepted as archives", "statement": "An archive is accepted exactly if it has META and MTREE members that state something, a first name line that is not empty, a first architecture line that names the machine or 'any' (unless another root is used), a release that is a number if there is one, and no dependency line shorter than nine characters. Reading a member leaves its buffer exactly if the member is empty.", "quantifier": "every archive content", "why_tests_cant": "All archives, empty members included.", "anchors": ["src/archive.cxx"], "refuted_ideal": "An archive is accepted only if it has non-empty META and MTREE members and a name line; reading a member of any size stays in its buffer."}
{"id": "C48", "title": "An install in another root stays in that root", "statement": "Any sequence of adding and removing packages with an alternative root, whether they succeed or stop, creates, changes and deletes nothing outside that root except six metadata names at the top of the real file system (/.META, /.MTREE, ...), which are deleted.", "quantifier": "every operation and root", "why_tests_cant": "All paths.", "anchors": ["src/file_utils.cxx:cleanupMetaFiles", "src/pkgdbh.cxx:moveMetaFilesPackage", "src/pkgadd.cxx", "src/pkgrm.cxx"], "refuted_ideal": "Adding or removing a package with an alternative root never creates, changes or deletes a path outside that root."}
{"id": "C49", "title": "Purge deletes exactly the package files of downloadable collections", "statement": "Purging deletes exactly the visible files inside the directories of collections that have a url; a local collection that does not lie inside one of those directories is untouched.", "quantifier": "every configuration and file system", "why_tests_cant": "All inputs.", "anchors": ["src/conf.cxx:purge", "src/sync.cxx:purge"]}
{"id": "C50", "title": "Post-install triggers", "statement": "For every file of a package, the last rule of the list with a post-install event whose pattern matches it decides: a trigger is scheduled for that event if it says YES. If none matches and the INSTALL rules let the file through, the event of the first rule of the list with a post-install event is scheduled, or ldconfig if the list has no such rule. Nothing else is scheduled.", "quantifier": "every rules list and file list", "why_tests_cant": "All rule lists.", "anchors": ["src/pkgadd.cxx:applyPostInstallRules", "src/pkgadd.cxx:postRun"], "refuted_ideal": "A post-install trigger (ldconfig, info, mime...) is scheduled iff some installed file matches a YES rule of that event."}
{"id": "C51", "title": "An install without force never changes another package's files", "statement": "When adding or upgrading a package succeeds without force and without scripts, every regular file that another package lists, and that this one spells alike or not at all, keeps its content, mode and owner, provided the archive does not put a directory in the place of the file.", "quantifier": "every database, file system, archive and rules file", "why_tests_cant": "All combinations of file lists, spellings and path types.", "anchors": ["src/pkgadd.cxx:pkgadd::run", "src/pkgdbh.cxx:getConflictsFilesList", "src/pkgdbh.cxx:installArchivePackage"], "refuted_ideal": "When adding or upgrading a package succeeds without force, every regular file that another package lists keeps its content, mode and owner."}
{"id": "C52", "title": "What is recorded is what was unpacked", "statement": "After a successful add or upgrade without scripts of an archive with distinct plain paths, every non-directory of the archive that the rules let through and do not protect, and whose place is not a directory nor below a file, is on disk with the content, mode and owner of the archive. (Otherwise the file is recorded although it could not be unpacked.)", "quantifier": "every archive, file system, database and rules file", "why_tests_cant": "All archives and states of the target root.", "anchors": ["src/pkgdbh.cxx:installArchivePackage", "src/pkgadd.cxx:pkgadd::run"], "refuted_ideal": "After a successful add or upgrade, every non-directory of the archive that the rules let through and do not protect is on disk with the content, mode and owner of the archive."}
{"id": "C53", "title": "The database is written only under the exclusive lock", "statement": "Whatever adds, upgrades, removals and queries run at the same time, every change of the package database is made by a process that holds the database lock exclusively at that moment.", "quantifier": "every number of processes, every schedule, kills and refusals included", "why_tests_cant": "A test runs a few schedules; the claim is about every interleaving of any number of processes, including processes killed or refused in the middle.", "anchors": ["src/lock.cxx:lock", "src/pkgadd.cxx:run", "src/pkgrm.cxx:run", "src/create.cxx"]}
{"id": "C54", "title": "Searching the indexes", "statement": "Searching reports exactly those entries of the listing (one for each record, in order) whose collection or name contains the expression put in lower case, or whose description, URL, packager or version contains it whatever the case, and that have no language; with --names, exactly those whose name contains the expression in lower case. A name with an upper case letter is therefore not found by that letter, and an URL, packager or version that a record does not state is that of the record before. An index that is empty or missing hides those behind it.", "quantifier": "every index content and expression", "why_tests_cant": "All index contents, all orders of records.", "anchors": ["src/search.cxx:parse", "src/search.cxx:list"], "refuted_ideal": "Searching reports exactly the packages of the indexes whose collection, name, description, URL, packager or version contains the expression, whatever the case of the letters; language packages are left out; with --names, exactly those whose name contains it."}
{"id": "C55", "title": "What leaves a running install alone", "statement": "While one process installs a package, any number of processes that query the database under the shared lock, in any schedule, kills and refusals included, do not change its outcome: it succeeds, and leaves files and records, as if it ran alone. A query that takes no lock, or another add or remove that has merely started, can make it fail with its files in place and unrecorded.", "quantifier": "every number of querying or starting processes, every schedule, kills and refusals included", "why_tests_cant": "The harmful window is between unpacking and moving one metadata file; a test does not hit it, and the positive claim is about all interleavings.", "anchors": ["src/pkginfo.cxx:run", "src/pkgdbh.cxx:buildDatabase", "src/file_utils.cxx:cleanupMetaFiles", "src/lock.cxx:lock"], "refuted_ideal": "While one process installs a package, other processes that only query the database, or that have merely started and not yet obtained the lock, do not change the outcome of the install: it succeeds or fails, and leaves files and records, exactly as if it ran alone."}
{"id": "C56", "title": "Owner of a file", "statement": "Asking for the owners of a pattern lists exactly the files recorded by installed packages whose absolute path matches the pattern, each once with its package and collection, in package order, in aligned columns; a pattern that does not compile is refused.", "quantifier": "every database and pattern", "why_tests_cant": "All databases and patterns; the listing must be complete as well as correct.", "anchors": ["src/pkginfo.cxx:run (-o)", "src/pkgdbh.cxx:buildDatabase"]}
{"id": "C57", "title": "Files and details of a package", "statement": "Asking for the files of an installed package, by its name or an alias, gives the files recorded for a package of that name or alias, and is refused exactly for unknown names. Details and build date asked by the name of a package, when no other package answers to it, are those recorded. Exceptions: an alias of a package sorting later hides an installed package of that name; by an alias the details show an automatic package as chosen and without dependencies, the build date is uninitialised and the libraries are none.", "quantifier": "every database and name or alias", "why_tests_cant": "All alias tables; the wrong answers need particular names.", "anchors": ["src/pkginfo.cxx:run (-l, -d, -b)", "src/pkgdbh.cxx:buildDatabase"], "refuted_ideal": "Asking for the files, details or build date of an installed package, by its name or an alias, gives those recorded for that package; an unknown name is refused."}
{"id": "C58", "title": "List and number of installed packages", "statement": "The list of installed packages shows every installed package exactly once with its recorded collection, version and release (without the automatic ones in the short form), in name order, and the number is how many are installed.", "quantifier": "every database", "why_tests_cant": "All databases.", "anchors": ["src/pkginfo.cxx:run (-i, -n)"]}
{"id": "C59", "title": "Queries change nothing", "statement": "A query leaves the database as it is and changes no file except left-over package metadata files at the top of the file system; the same question asked again has the same answer.", "quantifier": "every world and query", "why_tests_cant": "All worlds and all queries.", "anchors": ["src/pkginfo.cxx:run", "src/file_utils.cxx:cleanupMetaFiles"]}
{"id": "C60", "title": "Runtime dependencies of a package", "statement": "The runtime dependencies reported for an installed package are, in order and once each, exactly the installed packages that record a file in whose path a slash followed by the name of a library its files need occurs; this is the library itself when library names occur in recorded paths only as last components, but libz.so.10 is taken for libz.so.1.", "quantifier": "every database and library content", "why_tests_cant": "All databases; the wrong attributions need library names that begin alike.", "anchors": ["src/pkginfo.cxx:run (-L, -R)"], "refuted_ideal": "The runtime dependencies reported for an installed package are exactly the installed packages that record a file of the name of a library its files need."}
{"id": "C61", "title": "Libraries named by a binary", "statement": "For a well-formed 64-bit ELF file whose dynamic string table is the first string table, is not described by the last section header and begins in the first half of the file, the libraries reported are exactly the names of its needed-library and soname entries that do not end in a dot; if it begins in the second half none is reported; a file that is not ELF reports none. Other files can give wrong names (another string table first) or undefined behaviour: reads outside the buffers (no closing entry, 32-bit files) or from a closed file (every file that begins as ELF and ends inside its header).", "quantifier": "every file content", "why_tests_cant": "All byte sequences.", "anchors": ["src/runtime_dependencies_utils.cxx:getRuntimeLibrariesList", "src/file_utils.cxx:getDatas"], "refuted_ideal": "For an ELF file the libraries reported are exactly the names of its needed-library and soname entries; any other file reports none; no file, however malformed, makes the tool read outside its buffers."}
{"id": "C62", "title": "Synchronising the indexes", "statement": "A successful 'cards sync' leaves each collection that has a URL with the key the server offers and with each index its server offers decompressed, and changes nothing else; a failed one leaves the indexes as they were; an interruption at any moment leaves each index old, new or a beginning of the new one, and nothing else changed. Exceptions: an answer of which nothing arrives leaves the file as it was; an index that does not decompress is passed over and the sync succeeds with the new key and the old index; a failed sync may leave the new key, or the part of it that was received, with the old index; an interruption can leave a cut index.", "quantifier": "every configuration, server, previous content and moment of interruption", "why_tests_cant": "Any sequence of server answers and any interruption point within any of the writes.", "anchors": ["src/sync.cxx:run", "src/sync.cxx:uncompress", "src/dwl.cxx:get", "src/dwl.cxx:writeToStream"], "refuted_ideal": "A successful 'cards sync' leaves each collection that has a URL with the key and the two indexes its server offers and changes nothing else; a failed one leaves the key and the indexes as they were; an interruption at any moment leaves each index either old or new."}
{"id": "C63", "title": "Files of a package in the depot", "statement": "With an index for every configured collection, and no file beginning with '@': 'cards files -b n' lists exactly the files of the first archive of package n in the order of the collections, and nothing for a package no collection has; the file map read for building packages attributes to every package exactly the files of all its archives. For the latter, collections without an index are passed over; for the former a missing index is an access through a null pointer.", "quantifier": "every depot (any number of collections, archives and files) and every package name", "why_tests_cant": "All index contents; the wrong answers need several versions, missing indexes or names that look like headings.", "anchors": ["src/files.cxx:parse", "src/pkgrepo.cxx:parseFiles"], "refuted_ideal": "'cards files -b n' lists exactly the files of the archive of package n that the indexes of the configured collections describe, taken from the first collection that has it, and nothing for a package no collection has; the file map read for building packages attributes to every package exactly the files of its archives."}
{"id": "C64", "title": "Searching the depot for a file", "statement": "With an index for every configured collection, no file beginning with '@', and an expression that does not match '/' alone, 'cards query -b expr' reports exactly the pairs (archive, file) of the configured collections whose file, written with a leading '/', matches the expression.", "quantifier": "every depot and every regular expression (any predicate on names)", "why_tests_cant": "All indexes and all expressions.", "anchors": ["src/query.cxx:parse"], "refuted_ideal": "'cards query -b expr' reports exactly the pairs (archive, file) of the configured collections whose file, written with a leading '/', matches the expression."}
{"id": "C65", "title": "What the recipes say", "statement": "After reading any list of recipes, each well-formed or unreadable, there is exactly one port for each name; it carries the fields (version, release, description, ...) and exactly the dependencies of the last recipe of that name, on one line or several; a field it does not state is that of the last earlier recipe that does, and an unreadable recipe carries what the one before left.", "quantifier": "every list of recipes with any number of lines, fields and lists", "why_tests_cant": "All texts and orders of recipes; the wrong values come from what was read before.", "anchors": ["src/pkgfile.cxx:parse"], "refuted_ideal": "After reading the recipes of a collection, each port carries the fields (version, release, description, ...) its own recipe states and exactly the dependencies listed in its run, build and similar lists, on one line or several, and no other port exists."}
{"id": "C66", "title": "No shared files with builds in the mix", "statement": "After any sequence of installs, upgrades, removals and 'cards create' commands (with or without --no-meta, stopped by an error or not) starting from an empty database, no non-directory path is listed by two installed packages.", "quantifier": "every sequence of commands, every archive, script result, rule file and build result", "why_tests_cant": "All histories that mix the two writers of the database.", "anchors": ["src/create.cxx:run", "src/create.cxx:base", "src/pkgadd.cxx:run"]}
{"id": "C67", "title": "Clearing the system before a build", "statement": "Before it builds a port, 'cards create' removes exactly the packages that belong neither to the set chroot nor to the set devel: their records and every file only they own disappear (a directory if the cleared packages list it and it is left empty); the records and files of the packages of the two sets and every file that belongs to no package stay as they were. Exceptions: an emptied directory that a cleared package owning files in it does not list can stay behind; with --no-meta the records of the packages whose files are deleted stay.", "quantifier": "every database and file tree, with or without --no-meta", "why_tests_cant": "All databases and overlaps of file lists; a wrong selection destroys the build system.", "anchors": ["src/create.cxx:base", "src/pkgdbh.cxx:removePackageFiles"], "refuted_ideal": "Before it builds a port, 'cards create' removes exactly the packages that belong neither to the set chroot nor to the set devel: their records and every file they own disappear (directories only when empty and unowned), the records and files of the packages of the two sets and every file that belongs to no package stay as they were."}
{"id": "C68", "title": "--no-meta leaves the database alone", "statement": "'cards create --no-meta' changes a record of the package database only if one of the archives it made is of that package, and none if none of these packages is installed, whatever else it clears, adds or runs and wherever it fails. Exception: when an archive made is of an installed package, the record of the installed version is deleted and none is written, while the new files are in place.", "quantifier": "every sequence of build steps, every database, archive, script and failure", "why_tests_cant": "All histories and all failures.", "anchors": ["src/create.cxx:run", "src/create.cxx:base"], "refuted_ideal": "'cards create --no-meta' neither adds, changes nor removes a record of the package database."}
{"id": "C69", "title": "What was built is installed as 'cards install' would", "statement": "The archives a build makes, and the archive of a dependency, leave the same file system and database as installing (or upgrading to) them with the package tools does, and succeed exactly when that does; a dependency already installed is left alone. Exception: when a package is both put in as a dependency and made in the same command, the files of the old version that the new one lacks are left to nobody.", "quantifier": "every archive, database, file tree and rule file", "why_tests_cant": "Equality of two programs on all states.", "anchors": ["src/create.cxx:run", "src/create.cxx:buildBinary", "src/create.cxx:installDependencies", "src/pkgadd.cxx:run"], "refuted_ideal": "The archives a build makes, and the archives of its dependencies, leave the same file system and database as installing (or upgrading to) them with the package tools."}
{"id": "C70", "title": "Build dependencies are installed in order", "statement": "Before a port from which no cycle can be reached, and below which dependencies name ports without dots, is built, exactly the wanted packages (main packages and those of the configured groups) of the ports it needs directly or indirectly are added, those of a port after those of every port it needs itself, none twice. When a cycle can be reached nothing is added.", "quantifier": "every ports tree (any size and depth), every repository and configuration of groups", "why_tests_cant": "All graphs of dependencies.", "anchors": ["src/create.cxx:list", "src/create.cxx:installDependencies", "src/pkgrepo.cxx:getListOfPackagesFromGroup"], "refuted_ideal": "Before a port is built, exactly the wanted packages (main packages and those of the configured groups) of the ports it needs directly or indirectly are added, those of a port after those of every port it needs itself, none twice."}
{"id": "C71", "title": "Levels and build order of a collection", "statement": "'cards level' ends and shows every port exactly once with its level, levels ascending, then a warning for exactly the dependencies that designate no port; a collection is built in an order that holds each of its ports once and every port after the ports of the collection it depends on, directly or through ports of any collection (ports that reach no cycle of dependencies).", "quantifier": "every ports tree, with or without cycles, and every collection", "why_tests_cant": "All graphs of dependencies; the loops end only because the levels have no gap.", "anchors": ["src/level.cxx:print", "src/pkgfile.cxx:getListOfPackagesFromCollection", "src/pkgfile.cxx:confirmDependencies"]}
{"id": "C72", "title": "The tree of dependencies", "statement": "'cards deptree p' ends; every line shows a name at the depth of a chain of dependencies that leads to it. If no port reached names itself among its dependencies, every direct and indirect dependency is shown, under each name all its dependencies one step deeper, each dependency of each port once; a port that names itself loses the dependencies that sort behind it.", "quantifier": "every ports tree, with or without cycles", "why_tests_cant": "All graphs; termination on cycles.", "anchors": ["src/deptree.cxx:print"], "refuted_ideal": "'cards deptree p' ends; every line shows a name at the depth of a chain of dependencies that leads to it; every direct and indirect dependency is shown, under each name all its dependencies one step deeper, each dependency of each port once."}
{"id": "C73", "title": "Who depends on a port", "statement": "'cards dependent p' shows exactly the ports whose recipe writes that very name; these are the ports that depend on p when recipes name ports without dots.", "quantifier": "every ports tree", "why_tests_cant": "All trees and spellings of dependencies.", "anchors": ["src/dependent.cxx:list"], "refuted_ideal": "'cards dependent p' shows exactly the ports that depend on p."}
{"id": "C74", "title": "What a collection build builds", "statement": "'cards create <collection>' builds exactly the ports whose package is not in the repository, whose archive is missing, or whose version or release differs from the recipe; if every build does its work, afterwards all are up to date; with --dry nothing is built. A port that is up to date is reported exactly if a library its package needs is not provided by a dependency, the installed system, the package or a port of a lower level. Exception: of a port with a library package only the first library of that package is looked at, and it is reported whenever that package needs none.", "quantifier": "every repository, ports tree, set of installed files and result of builds", "why_tests_cant": "All states of repository and recipes, all effects of the builds before.", "anchors": ["src/create.cxx:buildCollection", "src/pkgdbh.cxx:checkFileNameExist"], "refuted_ideal": "'cards create <collection>' builds exactly the ports whose package is not in the repository, whose archive is missing, or whose version or release differs from the recipe, so that afterwards all are up to date; of the others it reports those that use a shared library nothing provides."}
{"id": "C75", "title": "Obsolete archives", "statement": "A collection build first deletes from the depot exactly the archives of the main packages of the collection that no port makes any more, and with --dry none. Exception: the archives of their groups (old.lib, old.man) stay.", "quantifier": "every repository and file tree", "why_tests_cant": "All indexes and trees: a wrong choice deletes good archives.", "anchors": ["src/create.cxx:checkBinaries", "src/file_utils.cxx:removeFile"], "refuted_ideal": "A collection build first deletes from the depot exactly the archives of the packages of the collection that no port makes any more, and with --dry none."}
{"id": "C76", "title": "'cards install' end to end", "statement": "If 'cards install' succeeds, every requested package, every dependency of a package newly installed or replaced, and every matching group package is installed, from the archive that the signature of the index certifies and with exactly the files of that archive the rules accept; nothing installed before is lost, other packages are unchanged, and (root '/', no scripts) dependencies recorded in the database stay satisfied and what came only as a dependency is marked automatic, as is a requested package that another requested one needs. If it stops, at most the package being replaced is lost, and what is new has its dependencies. The dependencies of a requested package that is already current are not looked at.", "quantifier": "every repository, depot, server, database, file system, rules file and request (names, sets, collections, groups)", "why_tests_cant": "All dependency graphs, all installed states and all points where one of the installations fails.", "anchors": ["src/install.cxx:install", "src/install.cxx:getLocalePackagesList", "src/pkgrepo.cxx:generateDependencies", "src/pkgdbh.cxx", "src/pkgadd.cxx:run"], "refuted_ideal": "If 'cards install' succeeds, every requested package, every dependency that was not there and every matching group package is installed, from the archive that the signature of the index certifies and with exactly the files of that archive the rules accept; nothing installed before is lost, other packages are unchanged, dependencies recorded in the database stay satisfied, and what came only as a dependency is marked automatic. If it stops, at most the package being replaced is lost, and what is new has its dependencies."}
{"id": "C77", "title": "'cards upgrade' end to end", "statement": "If 'cards upgrade' succeeds, every installed package for which the repository offers another build, the group packages configured for installed packages, and every dependency of these that was not there are installed, from the archive that the signature of the index certifies and with only files of that archive the rules accept; packages installed as dependencies that the repository no longer has are gone, with every file that no remaining package lists, even if another package needs them; nothing else is lost or changed, and (root '/', no scripts) the automatic mark of every package is kept, what is new is recorded as asked for, and a recorded dependency is unsatisfied afterwards only if it named a package removed in this way. Without configured groups, upgrading again then does nothing. If it stops, nothing obsolete has been removed and at most the package being replaced is lost.", "quantifier": "every repository, depot, server, database, file system, rules file and list of configured groups", "why_tests_cant": "All dependency graphs, all installed states and all points where one of the installations fails; two runs in a row.", "anchors": ["src/upgrade.cxx:upgrade", "src/upgrade.cxx:upgradePackages", "src/diff.cxx", "src/pkgrepo.cxx:generateDependencies", "src/pkgdbh.cxx"], "refuted_ideal": "If 'cards upgrade' succeeds, every installed package for which the repository offers another build, the group packages configured for installed packages, and every dependency of these that was not there are installed, from the archive that the signature of the index certifies and with exactly the files of that archive the rules accept; packages installed as dependencies that the repository no longer has are gone; nothing else is lost or changed, the automatic mark of every package is kept, and a recorded dependency is unsatisfied afterwards only if it named a package removed in this way. Upgrading again then does nothing. If it stops, nothing obsolete has been removed and at most the package being replaced is lost."}
{"id": "C78", "title": "When 'cards upgrade' stops to ask", "statement": "Without --proceed 'cards upgrade' changes nothing if fewer than four of five installed packages are current, and goes on otherwise; the percentage printed is that of the packages which are not current, rounded up, except that it is one more at exactly 53 % and 59 % of current packages. With an empty database a NaN is converted to an integer, which is undefined.", "quantifier": "every number of installed and of current packages (up to 2^22 for the decision, 2^16 for the percentage), and every database and repository with these numbers", "why_tests_cant": "The decision is taken in binary32 floating point with two roundings; whether it agrees with the exact quotient has to hold for each of the 2^43 pairs of numbers.", "anchors": ["src/diff.cxx:ratio", "src/upgrade.cxx:upgrade"], "refuted_ideal": "Without --proceed 'cards upgrade' changes nothing if fewer than four of five installed packages are current, and goes on otherwise; the percentage printed is that of the packages which are not current, rounded up."}
{"id": "C79", "title": "Announced amounts", "statement": "The amounts announced before an upgrade are: the sum of the sizes of the archives of the packages to be upgraded, the sum of the installed sizes of their new builds, and the sum of the installed sizes of the packages that will be replaced; packages that will be removed count as nothing.", "quantifier": "every database and repository whose sizes fit the fields (32 bits per package, 64 in total)", "why_tests_cant": "All databases, repositories and orders of the packages.", "anchors": ["src/diff.cxx:downloadSize", "src/diff.cxx:AddSize", "src/diff.cxx:RemoveSize", "src/diff.cxx:amountInfo"], "refuted_ideal": "The amounts announced before an upgrade are: the sum of the sizes of the archives of the packages to be upgraded, the sum of the installed sizes of their new builds, and the sum of the installed sizes of the packages that will be replaced or removed."}
{"id": "C80", "title": "The log of a build", "statement": "The log of a build holds what the build wrote, in the order it was written, and the terminal shows the same (up to a NUL); it is complete if cards has once seen the build alive or if more was written than a pipe holds, and otherwise complete or empty. The command goes on, after a bounded number of steps, when the build and every process it left behind holding the pipe have ended.", "quantifier": "every output of the build, every interleaving of the build, the processes it leaves behind and the reader, every pipe capacity", "why_tests_cant": "The result depends on the schedule of three processes around waitpid and read; a test sees one interleaving.", "anchors": ["src/process.cxx:execLog", "src/process.cxx:execShellLog", "src/create.cxx:buildBinary"], "refuted_ideal": "The log of a build holds everything the build wrote, in the order it was written, the terminal shows the same, and the command goes on as soon as the build has ended."}
{"id": "C81", "title": "Maintenance programs at the end", "statement": "When packages were added, exactly the maintenance programs the rules ask for (ldconfig, install-info, font and icon caches ...) are run at the end, each with the names of the files it is for, cut at blanks, from the root the tool works on and only if present there; ldconfig is run at most once; when a package is only removed nothing is run. They are also run when the install is refused for a conflict.", "quantifier": "every sequence of archives, rules file, root, database and file system", "why_tests_cant": "All rule lists, file lists and roots; the number of runs of ldconfig has to be bounded for transactions of any length.", "anchors": ["src/pkgdbh.cxx:runLastPostInstall", "src/pkgadd.cxx:applyInstallRules", "src/process.cxx:execute", "src/define.h"], "refuted_ideal": "When packages were added, the maintenance programs the rules ask for (ldconfig, install-info, font and icon caches ...) are run at the end, each with the names of the files it is for, from the root the tool works on and only if present there; ldconfig is run at most once; when nothing was installed or a package was only removed nothing is run."}
{"id": "C82", "title": "Footprint", "statement": "The footprint of a readable archive has one line per entry, in order, which shows type, permissions, owner, group, name and the link target, the device numbers or the emptiness; two archives have the same footprint exactly when all of this agrees, for names that leave a line readable (no newline, no ' ->', not ending in ' (EMPTY)'); hard links show the mode of the file they share, wherever it is in the archive; an empty archive and one whose file contents cannot be read are refused. Exceptions: other names can make lines ambiguous; an archive that breaks or warns at a header looks complete up to there; a hard link to a file outside the archive shows no mode.", "quantifier": "every archive (list of entries of any kind, any position of read errors) and every user and group table", "why_tests_cant": "That no two different archives share a footprint is a statement about all pairs of archives; a test compares a few.", "anchors": ["src/pkgdbh.cxx:getFootprintPackage", "src/string_utils.cxx:mtos", "src/pkginfo.cxx:run"], "refuted_ideal": "The footprint of an archive has one line per entry, in order, which shows type, permissions, owner, group, name and the link target, the device numbers or the emptiness; two archives have the same footprint exactly when all of this agrees; hard links show the mode of the file they share, wherever it is in the archive; an archive that cannot be read is reported."}
{"id": "C83", "title": "Sizes as shown", "statement": "A size is shown in bytes below 1024 and otherwise in K, M or G, the unit being the largest that is not larger than the size, at most half of a hundredth of the unit off (from 2^53 bytes on, 1024 bytes more), a value halfway between two hundredths going to the even one; a larger size never shows as a smaller amount. Exceptions: a size just below a unit shows as 1024.00 of the smaller one; the progress of a download of more than 2 G shows an absurd number.", "quantifier": "every size that fits an unsigned long (64 bits)", "why_tests_cant": "The rounding and the order have to hold for each of 2^53 values and each pair of them.", "anchors": ["src/string_utils.cxx:sizeHumanRead", "src/dwl.cxx:updateProgress", "src/define.h"], "refuted_ideal": "A size is shown in bytes below 1024 and otherwise in K, M or G, the unit being the largest that is not larger than the size, rounded to hundredths; a larger size never shows as a smaller amount; the progress of a download shows the number of bytes received."}
{"id": "C84", "title": "Command lines of the tools", "statement": "pkgadd, pkgrm and pkginfo accept exactly the command lines their help describes, refuse every other one before anything is touched, and do what the line says: the root is the path of -r, the flags are those given, and a single query is answered about its own argument. Known exceptions: pkginfo with several queries answers about the last argument and may drop a query; and pkginfo starts with two counters never set.", "quantifier": "all command lines (any words, any number, any order), all tool names, all users, all starting values of the two unset counters", "why_tests_cant": "the set of command lines is infinite, and the unset counters depend on what memory held before", "anchors": ["src/tools.cxx:main", "src/pkginfo.cxx:pkginfo::parseArguments", "src/pkginfo.cxx:pkginfo::run", "src/pkgadd.cxx:pkgadd::parseArguments", "src/pkgdbh.cxx:pkgdbh::parseArguments", "src/system_utils.cxx:assertArgument"]}
{"id": "C85", "title": "Publishing a collection", "statement": "'cards repo' with a private key, if it completes (exactly when the index files can be written and every file below the collection's directory is an archive with name, META and file list that can be signed), writes for each chosen collection indexes that list every file below the collection's directory with its META, its files, its hash and a signature by that key, and changes nothing else; clients that fetch the index and the public key accept exactly those archives when their names differ and their META lines are well formed. Without a private key it changes nothing and reports a package if and only if some signature is wrong. A publication that dies leaves the archives untouched, the served indexes old or a beginning of the new, and can be repeated. Exceptions: a stray file cuts the index; archives in sub-directories are listed under a name nobody can fetch; the check stops at the first wrong signature; a collection that cannot be opened silently ends the run; a compressed index that cannot be written stays the old one although the run ends as a complete one; the count printed is of the old index; the served index is overwritten in place.", "quantifier": "every content of the depot, every configuration, argument, outcome of opening the files, and every crash point", "why_tests_cant": "The indexes must be right for every set of archives and every crash point, and the round trip crosses two machines, three formats and two cryptographic functions.", "anchors": ["src/repo.cxx:repo::repo", "src/repo.cxx:compress", "src/file_utils.cxx:findRecursiveFile", "src/pkgrepo.cxx:generateHash", "src/pkgrepo.cxx:generateSign", "src/pkgrepo.cxx:checkSign"], "refuted_ideal": "'cards repo' with a private key writes, for each chosen collection, indexes that list every archive below the collection's directory with its META, its files, its hash and a signature by that key, and changes nothing else; clients that fetch the index and the public key accept exactly those archives. Without a private key it changes nothing and reports a package if and only if some signature is wrong. A publication that dies leaves the archives untouched and can be repeated."}
{"id": "C86", "title": "The key pair of a publisher", "statement": "'cards keys' refuses to run as root, and when it succeeds (exactly if both files can be written) leaves a new private key that only its owner can read and the matching public key, and touches no other file; while it runs or after a crash only the listed stages can be seen, and nobody else can read the new private key at any moment if the umask, or the permissions of an existing key file, hide the file from the start. Exceptions: otherwise the private key lies readable for everybody until its permissions are set, and a crash leaves it so; an existing pair is overwritten without a question, and when the public key cannot be written the old private key is lost.", "quantifier": "every file system state, umask, outcome of opening the files, and every moment or crash point of the run", "why_tests_cant": "The exposure exists only between two system calls, and depends on the umask and on the file that was there before.", "anchors": ["src/pkgrepo.cxx:generateKeys", "src/cards.cxx:main"], "refuted_ideal": "'cards keys' refuses to run as root, leaves a new private key that only its owner can read and the matching public key, touches no other file, and at no moment, even if it dies, can anybody else read the new private key."}
{"id": "C87", "title": "--root and --conf decide which system a command works on, and only root may change it", "statement": "With --root=R, install, remove and upgrade work on the database below R, without it on the one of the running system; a --conf file is taken below R; upgrade changes the system only without --check, --size, --ready and --download-only; the indexes are fetched again first exactly when root runs sync, diff or upgrade; everybody but root is refused by the commands that change the system, and keys and repo refuse root. (False for upgrade unless R ends in a slash: it reads the directory Rvar/lib/pkg/DB. What is already installed is always looked up in the running system, so install --root omits dependencies that the running system has. Without --conf the configuration is the running system's; create ignores --root.)", "quantifier": "every command line, root directory, configuration file name and user", "why_tests_cant": "All spellings of roots and all option combinations.", "anchors": ["src/cards.cxx:main", "src/install.cxx:parseArguments", "src/remove.cxx:remove", "src/upgrade.cxx:upgrade", "src/pkgrepo.cxx:pkgrepo", "src/pkgdbh.cxx:pkgdbh", "src/create.cxx:parseArguments"], "refuted_ideal": "With --root=R, install, remove and upgrade work on the database below R, without it on the one of the running system; a --conf file is taken below R; everybody but root is refused by the commands that change the system, and keys and repo refuse root. (False for upgrade unless R ends in a slash: it reads the directory Rvar/lib/pkg/DB. What is already installed is always looked up in the running system, so install --root omits dependencies that the running system has. Without --conf the configuration is the running system's; create ignores --root.)"}
{"id": "C88", "title": "A page of the web site gets a table of contents with one working link per heading", "statement": "Given an article, the page shown starts with the lines before its first heading; then, if there is a heading below h1, a table with exactly one link per heading in page order, numbered 1, 2, ..., and then the remaining lines unchanged except that each heading carries the anchor of its link. An article without such headings is shown unchanged. (The lists of the table are all closed exactly if the last heading is an h2. A line such as <hr>, or with a heading not closed on it, disappears; a link text stops at the first closing tag in the heading.)", "quantifier": "every article, heading level, attribute and heading text", "why_tests_cant": "All articles.", "anchors": ["src/webcards.cxx:parseHTMLDelimitedList"]}
{"id": "C89", "title": "The web page obeys the request's arguments and nothing else", "statement": "For a query that gives each of page, search, searchpkg, system, branch and type at most once, joined by &, each has exactly the value given, or its default (index, none, none, all, systemd, pkg) if it is absent. (False if a value contains another argument's name followed by =: search=homepage=x asks for page x.)", "quantifier": "every query", "why_tests_cant": "All queries.", "anchors": ["src/webcards.cxx:parseArguments"]}
{"id": "C90", "title": "The package search of the web site shows exactly the packages that match", "statement": "With indexes that are complete and well formed, a search shows one row for each package, of the branch and system asked for, whose collection, name or description contains the text (or whose collection is the text), no other row, and the right count. (False: package names with capitals cannot be found by name; aliases are not searched; only the first word counts; a missing index hides all collections after it; of packages with one name in two collections of a branch only one is shown; an index without a final newline makes the program read outside of the file.)", "quantifier": "every set of indexes and every query", "why_tests_cant": "All indexes, package data and queries.", "anchors": ["src/webcards.cxx:getFormatedBinaryPackageList", "src/webrepo.cxx:parsePackageList"]}
{"id": "C91", "title": "The web site shows the article asked for and nothing outside its content directory", "statement": "page=NAME shows the file of content/ whose name before the first dot is NAME, with its table of contents, or a page saying it does not exist; no request shows a file outside content/; search=TEXT shows exactly the lines of the articles containing TEXT, ignoring case. (False: what the visitor wrote is put in the page unescaped, so a link can add markup.)", "quantifier": "every content directory and every page or text asked for", "why_tests_cant": "All requests, including hostile ones.", "anchors": ["src/webcards.cxx:getContent", "src/webcards.cxx:main"]}
{"id": "C92", "title": "The report of cards diff lists exactly what is out of date", "statement": "cards diff prints 'Your system is up to date.' exactly if every installed package is in the repositories and not older than there; otherwise it prints the number of packages and of unchanged ones, and four lists - out of date with installed and available version in readable columns, rebuilt, obsolete, unmaintained - each with its count and exactly the packages of its class in the order of their names. (False: it says up to date although the upgrade will install packages of a configured group; it always announces 0 new dependencies.)", "quantifier": "every database, repository index and package data", "why_tests_cant": "All systems and repositories.", "anchors": ["src/diff.cxx:diff::showInfo", "src/diff.cxx:diff::amountInfo", "src/diff.cxx:diff::size"]}
{"id": "C93", "title": "The order of the directories decides which of several packages of one name is used", "statement": "When several of the configured collections offer a package (or a port) of the same name, cards uses the one of the directory listed LAST in cards.conf: its file, hash, signature, size, lists, dependencies and collection. (cards.conf(5) and the comments of the default configuration say the opposite: \"directories listed first have precedence\".)", "quantifier": "every list of collections (readable or not), every list of packages in each generated index, every list of recipes, every name", "why_tests_cant": "which one wins depends on how the lists of all collections are folded together, including the collections that cannot be read; a test tries one pair", "anchors": ["src/pkgrepo.cxx: pkgrepo::parse", "src/pkgfile.cxx: pkgfile::parse", "src/conf.cxx: conf::parseConfig", "man/cards.conf.5.in", "src/cards.conf.in"], "refuted_ideal": "When several of the configured collections offer a package (or a port) of the same name, cards uses the one of the directory listed first in cards.conf, as cards.conf(5) and the comments of the default configuration say: \"directories listed first have precedence\"."}
{"id": "C94", "title": "What 'cards remove' removes, exactly", "statement": "A successful `cards remove ARGS` removes from the database exactly these packages and leaves the entry of every other one as it was: (1) the packages the arguments choose - by collection or group, by name or alias (of several packages answering to it, the last in the order of names), or, for the first argument only and only when it is no collection or group, by set - and the installed group packages (NAME.GROUP for a configured group) of those; (2) then every installed package that no manually installed package that stays needs, directly or through packages that stay, and the group packages of those. A failed call touches no package outside that list. It is refused before anything is done exactly if an argument is 'base' or is the name of a dependency of an installed package; without arguments and without removal scripts it succeeds exactly if no group-package name of a left-over package is a mere alias. A removal by argument may be reported as failed after it was carried out (an uninitialised flag is read), but then too no other package is touched.", "quantifier": "every database without hidden or nameless entries and hidden files in entries, every list of arguments, configured groups, force flag, configuration file, removal script, value of the uninitialised flag and outcome", "why_tests_cant": "the removed set is a least fixed point over an arbitrary dependency graph combined with four ways of naming a package; tests only see a few graphs", "anchors": ["src/remove.cxx:7-134", "src/pkgrm.cxx:59-87", "src/pkgdbh.cxx: buildDatabase, removePackageFilesRefsFromDB, checkPackageNameExist"]}
{"id": "C95", "title": "What install and upgrade leave in the file system", "statement": "After a successful 'cards install' or 'cards upgrade' of any number of packages (no scripts, root '/'): every file that an installed or upgraded package lists holds what its certified archive holds for that name, unless the rules protect it; every file that a package which was neither installed, upgraded nor removed still lists is exactly what it was; and a file that no package lists afterwards was there before with no package listing it - what only the old versions or the removed obsolete packages listed is gone.", "quantifier": "every repository with genuine signatures, every set of requests, groups and rules, every consistent system state, every file name outside the tool's own area; archives as the build tools make them", "why_tests_cant": "the packages of one command are added one after the other and each step may delete, reject or overwrite files of the earlier ones: that the end state is right must hold for every dependency closure, every overlap between old and new versions and every set of obsolete packages", "anchors": ["src/install.cxx: install::install", "src/upgrade.cxx: upgrade::upgradePackages", "src/pkgadd.cxx: pkgadd::run", "src/pkgdbh.cxx: installArchivePackage, removePackageFiles, removePackageFilesRefsFromDB"]}
{"id": "C96", "title": "'cards create NAME' builds the port in exactly the environment its recipe asks for and installs what was made", "statement": "When pkgmk is run for a port (no cycle among the ports it needs, dependencies without a group suffix), the packages installed are exactly: those of the sets chroot and devel that were installed, with their records as they were; the packages of those sets added at the start that were not; and the wanted packages (the main one and those of the configured groups) of every port the port needs, directly or indirectly, except one that is not installed but whose name is an alias of an installed package. Every other package is cleared away. The records of the packages put in list exactly the files of their archives that the install rules let through. If the environment cannot be made ready pkgmk is not run and the command fails with the same error; if pkgmk fails the command fails and the database is that of the environment. If the command succeeds, every package the repository has for the port after the build is installed from that archive, and no other record has changed since pkgmk was started.", "quantifier": "all installed databases, file systems, ports trees, repository contents, archives, rule files, group settings, starting lists and all behaviours of pkgmk (exit status, file system and repository left)", "why_tests_cant": "the environment depends on the whole database, on the closure of the dependencies over the ports tree and on the order in which packages are added, cleared and put in; a test builds one port on one system", "anchors": ["src/create.cxx: create::create, create::core, create::base, create::installDependencies, create::buildBinary, create::run", "src/pkgrepo.cxx: pkgrepo::getListOfPackagesFromGroup"]}
{"id": "C97", "title": "'cards create COLLECTION' builds every due port with all it needs installed, and with nothing else left over from the builds before", "statement": "When a collection is built, pkgmk is run only for ports of the collection that are due, at most once each, in the order of the collection; each run finds the repository as the run before left it, no run follows one that failed, and if the command succeeds every run succeeded and every port not run was found not due. Whenever pkgmk is run, every wanted package the repository of that moment has for a port the one being built needs, directly or indirectly, is installed (except one that was not installed but whose name was an alias of an installed package when the command was started), with exactly the files of an archive of it that the install rules let through unless it belongs to the sets chroot and devel, and every other installed package belongs to those sets: nothing of the ports built before stays. If every successful run of pkgmk leaves an archive of its port, keeps the others, and ports not due and the needed ports of other collections are in the repository, then every port is built with all the ports it needs installed.", "quantifier": "all installed databases, file systems, ports trees, collections, repository contents, archives, rule files, group settings, starting lists, choices of due ports and all behaviours of pkgmk over the whole sequence of builds", "why_tests_cant": "the environment of each build depends on everything installed, cleared, built and put in by the builds before it, for any length of the collection and any outcome of each; a test builds one small collection once", "anchors": ["src/create.cxx: create::create, core, buildCollection, buildBinary, base, list, installDependencies, checkBinaries", "src/pkgfile.cxx: getListOfPackagesFromCollection", "src/pkgrepo.cxx: getListOfPackagesFromGroup, parseFiles"]}
{"id": "C98", "title": "What pkgadd says about single files", "statement": "In a successful run of pkgadd (no scripts) a file of the archive is said to be ignored exactly if the INSTALL rules keep it out. For a file that is neither ignored nor protected, 'could not install' is said exactly if the file that is there afterwards is not the archive's (content, type, mode, owner): no file is left out silently. For a protected regular file that exists, exactly one of three things happens: the copy could not be written to the rejected area and that is said; or the archive's version is alike, nothing is said and no copy is left; or it differs, 'rejecting' is said and the copy is in the rejected area. 'rejecting' is never said without an upgrade and an UPGRADE NO rule. Every entry gets at most one line, in the order of the archive, and a refused run says none of this. The run succeeds even if files could not be installed, and the package's record lists those files as if they were there.", "quantifier": "every archive with different paths (nothing below a file, nothing in the rejected area), rules, options, database and file system", "why_tests_cant": "which line is written depends on everything unpacked before, on what lies on the way to the file and on the rules; tests see a few layouts only", "anchors": ["src/pkgdbh.cxx: pkgdbh::installArchivePackage", "src/pkgadd.cxx: pkgadd::run"]}
{"id": "C99", "title": "What pkgrm says about what it removes", "statement": "A successful removal (no scripts) announces the name, the recorded version, release and collection of the package and, as the number of files, exactly how many names only this package lists. 'could not remove' is written for exactly those of these names that are still there afterwards, in reverse alphabetical order, and each of them is a directory in which something is left: nothing is left behind silently and nothing deleted is reported. The deletions of an upgrade pass such directories over and write nothing. The progress figures never divide by zero, never exceed 100, never decrease and end at 100.", "quantifier": "every database and file system, every package whose listed names are plainly spelled and whose META has one line for each of the three items", "why_tests_cant": "what is left depends on what other packages and users put into the directories and on the order of the deletions", "anchors": ["src/pkgdbh.cxx: pkgdbh::removePackageFiles, pkgdbh::progressInfo, pkgdbh::getSingleItem", "src/pkgrm.cxx: pkgrm::run"]}
{"id": "C100", "title": "What 'cards info -b' shows of a package", "statement": "For every name that the configured collections offer (indexes written by the index generator, every record with a name, a release in range and 10-digit dates), 'cards info -b NAME' prints exactly one report, on the last package of that name in the order of the configuration: name, aliases, description, archive name, group, categories, collection, sets, address, license, version, release, build date, hash, signature, sizes, maintainer, packager, contributors and architecture as the meta data of that package say, the address and folder of the last collection that offers it, and the dependencies whose names have at least four characters in alphabetical order; aliases, group, categories, sets and dependencies get no line when there are none. A name nobody offers prints nothing. Exceptions: a single-valued field that the package does not state (except group) is shown as the last package read before it stated it, and an archive of 2 GiB or more is shown with a wrong size (read as a signed 32-bit number).", "quantifier": "all configurations and all contents of the indexes, all names", "why_tests_cant": "The report depends on every record read before the one reported (the reader reuses one record); only a proof over all indexes shows which fields can be foreign and that all others cannot.", "anchors": ["src/info.cxx:24-27", "src/pkgrepo.cxx:273-382 getBinaryPackageInfo", "src/pkgrepo.cxx:389-546 parse", "src/repo.cxx:73-121"]}
{"id": "C101", "title": "What a name given to 'cards install' stands for", "statement": "With indexes written by the index generator, a name x given to 'cards install' (and not a file) or to 'cards info -S' stands for the members of the set x: the names whose last offered package states the set x and no group; if there are none, for the members of the collection x: the names whose last offered package is of that collection, with no group and no language; if there are none either, for the package x alone. 'cards info -S x' prints exactly these members, one per line, in alphabetical order. 'cards install' is refused before anything is changed exactly if some argument has no members and is not offered as a package; when it succeeds, every member of every argument is installed or was known under that name before, and every argument without members is installed. Exception: a package whose name is also the name of a set (or collection) with members cannot be asked for by name: the command succeeds without installing it.", "quantifier": "all index contents, all lists of arguments, all databases and answers of the servers", "why_tests_cant": "What a name stands for depends on all packages of all collections; unit tests fix one index.", "anchors": ["src/install.cxx:15-69", "src/info.cxx:12-23", "src/pkgrepo.cxx:679-709 getListOfPackagesFromSet, getListOfPackagesFromCollection"]}
{"id": "C102", "title": "flcards: table, menus and Go follow the user's choices", "statement": "In every session of the graphical client (clicks, menu choices or dismissals, searches, header clicks, Go and Sync, as root or not, the system changing at any time in between, threads run to their end before the next event): the table has exactly one row for each package of the index that contains the search text in its name, collection, description or version, showing its fields and whether it is chosen for installation, chosen for removal, installed or neither; clicking a row offers exactly one menu entry (Cancel for a chosen package, otherwise Remove if it is installed and Install if it is not); the information pane describes the row last picked or looked at; Go can be pressed exactly when something is chosen; pressed by root it removes exactly the packages whose latest choice is Remove and then, if that succeeded, installs exactly those whose latest choice is Install, and the list is read again with no choice left; for anybody else nothing is done and the choices stay. (Exception: a Sync by root drops all choices, but leaves Go active; pressing it before another choice is made is undefined behaviour, and nothing else is.)", "quantifier": "every sequence of user events, every index and set of installed packages at each moment, every outcome of the removals and installations", "why_tests_cant": "the state is built up by unbounded interactive sessions while the system may change underneath", "anchors": ["fltk/table_package.cxx: refreshTable, OnEvent", "fltk/table_base.cxx: event_callback2, setFilter, OnJobListChange, OnRefreshPackageFinished", "fltk/cards_wrapper.cxx: refreshJobList, m_DoJobList_Thread, m_RefreshPackageList_Thread, m_Sync_Thread", "fltk/mainWindow.cxx: onWindowEvent, OnJobListChange, OnPackageInfo", "src/cache.cxx: setStatus, unsetStatus"]}
{"id": "C103", "title": "flcards: sorting the table by a column", "statement": "A click on a column header only permutes the rows and leaves them in the order of that column: the comparison is a strict weak order for every column and direction (so sorting is well defined); texts that are empty or start with a character below '0' come first, then those that start with a digit, then the others; texts are in byte order, but those that start with a digit are in decreasing order of the integer they start with; the second, fourth, ... click on the same header gives the opposite order. (Exceptions: texts that start with the same integer, such as the versions 1.9 and 1.10, stand in any order; choosing, searching, a job or a Sync put the rows back in the order of the index although the arrow of the sorted column stays.)", "quantifier": "every table, column and sequence of events", "why_tests_cant": "a comparison that is not a strict weak order makes std::sort undefined for some table; it must be checked for all triples of texts", "anchors": ["fltk/table_base.cxx: sort_table_column::operator(), sort_column, event_callback2", "fltk/table_package.cxx: refreshTable"]}
{"id": "C104", "title": "The log of flcards: every message once, in order, up to fifty waiting", "statement": "In the graphical client flcards, what a subscriber of the log is told is determined by the schedule of the threads: a message logged by the thread that created the logger is passed to every subscriber at once; the messages logged by other threads wait, and at each turn of the main loop the last fifty of them since the turn before are passed on, each once and in the order in which they were logged. So a subscriber that stays subscribed is told all messages of the other threads exactly once and in order, at the latest with the next turn of the loop, as long as at most fifty come in between two turns. Each is passed on as one line: the name of its level, a colon, the text. Who is not subscribed is told nothing, and subscribing twice changes nothing. Exceptions, which are proved too: beyond fifty waiting messages the oldest are lost (errors among them); a message of the creating thread overtakes those that wait; and flcards as it stands neither starts the loop nor subscribes its window, so that no message, not even the error of a failed job, is ever shown.", "quantifier": "every schedule (any interleaving, of any length, of messages from the creating and other threads, subscriptions, unsubscriptions and turns of the loop), every subscriber, every message text and level", "why_tests_cant": "It ranges over all interleavings of the worker threads with the main loop and over any number of messages; a test sees one interleaving.", "anchors": ["fltk/cards_log.cxx: cards_logger::log, loopCallback, subscribe, unSubscribe, sendToSubscribers", "fltk/flcards.cxx: MainLoop", "src/define.h: MAX_BUFFER"], "refuted_ideal": "In the graphical client flcards, what a subscriber of the log is told is determined by the schedule of the threads: a message logged by the thread that created the logger is passed to every subscriber at once; the messages logged by other threads wait, and at each turn of the main loop the last fifty of them since the turn before are passed on, each once and in the order in which they were logged. So a subscriber that stays subscribed is told all messages of the other threads exactly once and in order, at the latest with the next turn of the loop, as long as at most fifty come in between two turns. Who is not subscribed is told nothing, and subscribing twice changes nothing. Exceptions, which are proved too: beyond fifty waiting messages the oldest are lost (errors among them); a message of the creating thread overtakes those that wait; and flcards as it stands neither starts the loop nor subscribes its window, so that no message, not even the error of a failed job, is ever shown."}
{"id": "C105", "title": "flcards: jobs exclude one another, end and close their box; a patient user is safe", "statement": "In the graphical client flcards, for every sequence of user actions (Sync, Go, choosing, looking at a row, searching, closing) and every interleaving of them with the steps of the threads they start: two jobs that change the system (fetching the index, removing and installing) are never under way together; while one is, the modal progress box is open, no other action is taken and the program does not end; the box closes with the end of its job and with nothing else; every thread ends after at most thirteen of its own steps; pressing Sync or an active Go starts the job if no job says that it is running, which is so whenever all threads have ended. For a user who acts only when all threads have ended (in particular one who waits until no box is open, no job says that it is running and every started thread has begun), and who does not press Go between a Sync (by root) and the next choice, no deleted object is ever read, no box is ever left open, and every press is accepted. (Exceptions for an impatient user, proved: a press while the list is being read, e.g. right after the start or after a Sync, or while a row is being looked up, is refused, but its box stays open for ever and nothing else is possible; a click while the list is being rebuilt reads a deleted package; a job that has been started but has not yet begun does not keep another one from starting, and one deletes what the other reads.)", "quantifier": "every schedule: any number of user actions of any kind and of steps of any of the started threads in any order, as root or not", "why_tests_cant": "It is about all interleavings of the window with up to several worker threads; a test sees the interleavings the machine happens to produce.", "anchors": ["fltk/cards_wrapper.cxx: sync, doJobList, refreshPackageList, getPackageInfo, m_IsThreadFree, m_Sync_Thread, m_DoJobList_Thread, m_RefreshPackageList_Thread, m_GetPackageInfo_Thread, m_ClearPackagesList", "fltk/mainWindow.cxx: onWindowEvent", "fltk/progressbox.cxx", "fltk/table_package.cxx: OnEvent"], "refuted_ideal": "In the graphical client flcards, for every sequence of user actions (Sync, Go, choosing, looking at a row, searching, closing) and every interleaving of them with the steps of the threads they start: two jobs that change the system (fetching the index, removing and installing) are never under way together; while one is, the modal progress box is open, no other action is taken and the program does not end; the box closes with the end of its job and with nothing else; every thread ends after at most thirteen of its own steps; pressing Sync or an active Go starts the job if no job says that it is running, which is so whenever all threads have ended. For a user who acts only when all threads have ended, and who does not press Go between a Sync (by root) and the next choice, no deleted object is ever read, no box is ever left open, and every press is accepted. (Exceptions for an impatient user, proved: a press while the list is being read, e.g. right after the start or after a Sync, or while a row is being looked up, is refused, but its box stays open for ever and nothing else is possible; a click while the list is being rebuilt reads a deleted package; a job that has been started but has not yet begun does not keep another one from starting, and one deletes what the other reads.)"}
{"id": "C106", "title": "What 'Go !' does to the system", "statement": "'Go !' in flcards hands over exactly the packages whose latest choice is 'Remove' and 'Install'. First the packages to remove leave the database, in order, up to the first that is not installed, where it stops; no other record changes. Of the files exactly those go that the removed packages alone list; every other path stays as it is. Only if all removals succeed are the packages to install, with the dependencies that are missing or not current, installed (always forced). After success what was to be installed is there, everything else that was installed still is, nothing came that was neither chosen nor needed, and a package chosen for removal is gone - except when a package to install needs it: then it is back. Unlike 'cards remove', flcards removes a package that others need without a question, and runs no removal scripts.", "quantifier": "every database, file system, repository, depot, server, rules file and choice, and every use of the window before", "why_tests_cant": "The outcome depends on the choices, the database, the dependency graph and the point where an operation fails; all combinations must be covered.", "anchors": ["fltk/cards_client.cxx: cards_client::RemovePackages, cards_client::InstallPackages", "fltk/cards_wrapper.cxx: m_DoJobList_Thread", "src/pkgdbh.cxx: removePackageFilesRefsFromDB, removePackageFiles"]}
{"id": "C107", "title": "Progress is a percentage and never kills the program", "statement": "While a command opens the database or removes a package, the numbers it shows are percentages: from 0 to 100, never falling, ending with 100; no count of packages and files a machine can hold makes the computation fail. While an archive is installed they never fall and the last is 100; they stay within 100 exactly if the archive has not more entries (less one) than 101/100 of the lines of its list of files - an archive of pkgmk always has at least two more, so that a package of up to 100 files shows more than 100 percent. flcards computes its own: with 1 to 99 installed packages it divides by zero and dies at the first package it reads, before anything is removed or installed; with none, or 100 or more, it never does, but its numbers exceed 100 and are not reset between packages.", "quantifier": "every number of installed packages, every sequence of removals and installations with any numbers of files, every earlier use", "why_tests_cant": "The numbers depend on counts without bound and on a counter shared by all operations of the process; a test sees a few of them.", "anchors": ["src/pkgdbh.cxx: progressInfo, buildDatabase, installArchivePackage, removePackageFiles", "fltk/cards_client.cxx: cards_client::progressInfo", "fltk/progressbox.cxx: OnProgressInfo"]}
{"id": "C108", "title": "One library object that lives on: what it reads again, what it keeps, and from when", "statement": "A program uses one database object over a long time while other programs change the database. A query for a field, for the sets, the categories or the size of a package answers from the record as it is on the disk at that moment, whatever the object did before: the least line of the letter (all of them for sets and categories). The names and their number are those of the first call that looked at them while something was installed, and stay so for ever; before that they are those of the moment. The packages are loaded once: afterwards a text is found in a file name exactly when it occurs in the list, as it was at the load, of a package of that first look; a name is known exactly when it is such a package or was an alias of one at the load, or was once asked for its files; the list of a package is that of the package the name stood for at the load, as it is on the disk now. A new object loads exactly what the other commands load, and single fields agree with the loaded record as long as they have one line. Exceptions, stated as theorems: a package removed by another program is still named, without a version, and makes a later load fail; a load that fails half way (a list is missing, a dependency line is too short) is reported once and then silently taken for complete: files are found in the packages before the one that failed, these and that one are known, the later ones are not; after a load without the lists no file is ever found, even when told to load them; with two lines of a field the query gives the least and the record the greatest; asking for the files of an unknown name throws and makes the name known.", "quantifier": "every sequence of calls on one object, every state of the database at every call, every package, letter and text", "why_tests_cant": "The answers depend on the whole history of calls and on what other programs did to the database between any two of them.", "anchors": ["src/pkgdbh.cxx: pkgdbh::getSetOfPackagesNames", "src/pkgdbh.cxx: pkgdbh::getSingleItem", "src/pkgdbh.cxx: pkgdbh::getSetOfItems", "src/pkgdbh.cxx: pkgdbh::getSetOfFiles", "src/pkgdbh.cxx: pkgdbh::buildDatabase", "src/pkgdbh.cxx: pkgdbh::checkFileNameExist", "src/pkgdbh.cxx: pkgdbh::getNumberOfPackages"]}
{"id": "C109", "title": "The directories made for a depot or a log, and the log file", "statement": "When a download or a build makes the directory it needs, exactly the missing directories of that path are made (mode 0755), as far as nothing that is not a directory stands in the way; everything that was there stays as it was, doing it again changes nothing, and after a crash in between the next call makes the rest. The directory is there afterwards if and only if nothing else stood in the way. Opening the log of a build succeeds exactly when the way is free, the name of the directory has more than one character and no directory has the log's name; then the log is an empty file (a link of that name is replaced, not followed) and nothing else has changed but the directories made. Exceptions: the answer of the operation says only whether the name has more than one character, so it is yes although an obstacle prevented the making, and no for the root directory; a name of 4096 characters or more is written over the end of the buffer.", "quantifier": "every file system, every path name, every log directory and package name, every crash point between two directories", "why_tests_cant": "the loop runs over every character of an arbitrary path and meets an arbitrary tree; tests see a few paths", "anchors": ["src/file_utils.cxx:createRecursiveDirs", "src/dwl.cxx:dwl::dwl", "src/create.cxx:create::buildBinary"]}
{"id": "C110", "title": "What an archive object says, whatever it was asked before", "statement": "An archive object can be made exactly of an archive whose META and MTREE have lines and which has a name. From then on every question is answered from those lines alone, the same whatever was asked before and however often: a field is the first line of its letter or empty, the release the integer of the first r line, 0 without one and an exception when it is not one, the sets exactly the values of the lines of their letter, the dependencies exactly the R lines and the package itself, the dated dependencies exactly what the R lines state and the package with its build date (or an exception, every time, if an R line is too short), the files those not beginning with a dot. Exceptions: the printed dependencies include the package itself once the list of dependencies has been asked for; the readable build date is always that of the beginning of 1970; an archive whose META or MTREE is empty has no defined outcome.", "quantifier": "every archive, every sequence of questions", "why_tests_cant": "an object keeps five lists between calls; a test fixes one order of calls and one archive", "anchors": ["src/archive.cxx:archive::*", "src/archive.h:archive"]}
{"id": "C111", "title": "What a repository object says, whatever it was asked before", "statement": "An object that asks about the packages of the collections answers, as long as it lives, from the indexes as they were when it was made or last refreshed, not from those on disk now: every package offered there is answered for with the file, place, hash, signature, version, numbers, libraries, dependencies, report, set, collection and group that its index states, whatever was asked in between; the list of files of a package is what parseFiles() has read since. refresh() and the constructor succeed when every record can be read and throw at the first that cannot; the packages read up to there are then the ones offered. An object made before anything was downloaded reads the indexes at the first question that finds them. Exceptions: asking about a name that nothing offers makes that name exist (with no details, and with the archive '/' for its group), and on an object whose indexes were not there yet it also stops the indexes from being read until refresh(); the list of binaries keeps the lines of every list given before, also of packages that are gone; the report on an unknown name repeats the last report given.", "quantifier": "every configuration of collections, every content of the indexes that genrepo writes (also cut short by a broken record) at every call, every sequence of questions", "why_tests_cant": "the object caches a map that most questions add to; a test fixes one order of questions and one content of the indexes", "anchors": ["src/pkgrepo.cxx:pkgrepo::parse, parseFiles, refresh, getters, getBinaryPackageList, getBinaryPackageInfo, getListOfPackagesFrom*", "src/pkgrepo.h:pkgrepo"]}
{"id": "C112", "title": "An object over the ports keeps answering from the recipes of its first look", "statement": "An object that asks about the ports answers, as long as it lives, from the recipes as they were when it first found a port, not from those on disk now: every port is answered for with the place, version, release, dependencies, level and warnings that the recipes of that moment give, whatever was asked in between, and the order given for a collection holds each of its ports once, dependencies first. As long as there are no ports, questions without a name leave it ready to read them later; the first question that finds ports is answered from them. Exceptions: asking about the version, place, release or level of a name that is not a port makes that name exist (empty, level 0), and on an object that had no ports yet it stops the recipes from ever being read; the list given for a collection starts with all the lists given before; the place of a name is never empty, so create's own test for a missing port cannot fail.", "quantifier": "all configurations; all directories and recipes, changing at any moment between two questions; all sequences of questions of the eight named getters, the list of ports and the warnings; all names, known or not", "why_tests_cant": "The object holds state across questions (the map, the accumulated list), so what one question answers depends on all that were asked before and on the recipes of an earlier moment; a test fixes one sequence and one tree.", "anchors": ["src/pkgfile.cxx: parse, getListOfPackages, badDependencies, getDependencies, checkPackageNameExist, getPortVersion, getPortDir, getPortRelease, getLevel, getListOfPackagesFromCollection, checkCollectionNameExist", "src/pkgfile.h: pkgfile, port", "src/create.cxx: build, buildCollection, buildBinary"]}
{"id": "C113", "title": "What a download leaves on disk, however the bytes arrive and wherever it stops", "statement": "A download that returns has received the whole transfer: if the file could be opened and the device had room for it, the file holds exactly the bytes received, in order, with the server's date, however they were cut into pieces and whenever the C library passed them on. A download that throws, or a process killed at any moment of it, leaves the file of before when no piece arrived or the file could not be opened, and otherwise a beginning of what was received. A list of downloads is fetched one after the other; the first that throws ends it, the earlier ones are complete and the later ones untouched. The name asked for and stored is the one given with '.zst', except the key. What 'cards sync' and the installation of a package see of a download is just this. Exceptions: a device that is full only when the last bytes are passed on is not noticed: the download returns and the file is cut; a transfer without a single byte leaves the file of before; a broken transfer has already destroyed the file of before.", "quantifier": "all sequences of pieces, empty ones included; all amounts the C library passes on after each; all capacities of the device; all ends of the transfer; all moments of a kill; all lists of files", "why_tests_cant": "How the bytes are cut into pieces, when the buffer is passed on, when the device is full and when the process dies are choices of the network, the C library and the machine; a test sees a few of them.", "anchors": ["src/dwl.cxx: dwl, get, initFileToDownload, writeToStream", "src/dwl.h: dwl"]}
{"id": "C114", "title": "The record of the web site's searches under many requests at once", "statement": "Each request with a search for a package adds one line, its time and its arguments, at the end of the record: requests that come one after the other are all recorded, whole and in order, and other requests leave no line. However many requests run at once and whoever of them is killed at whatever moment, what was recorded before they began stays in front unchanged, every byte behind it belongs to a line of one of them, and, when the lines fit in the stream's buffer, one of the lines stands there whole if anything was written. Without the file nothing is recorded and no file is made. Exceptions: of two searches at once one can be lost, or its end can stand in the record as a line of its own; a time after January 2038 is recorded as a negative number; showing a page is not recorded.", "quantifier": "all lists of requests; all schedules of their steps and all moments of a kill; all earlier contents; all sizes of the buffer", "why_tests_cant": "The steps of requests that run at once interleave in ways no test chooses, and any of them may be killed at any step.", "anchors": ["src/webcards.cxx: visitOfPage, main"]}
{"id": "C115", "title": "Repeating an installation that was killed while it unpacked its archive", "statement": "A first installation without scripts that would succeed is killed at any moment while it unpacks its archive, in the middle of a file included. The database is unchanged and nothing has changed on disk but the places of the entries that the rules let through (a file missing, or with part of its content; a directory), new default directories above them, and stray meta names. Repeated as it was, the installation is refused, with exactly the listed files that are there, or, if none is, succeeds; repeated with --force it succeeds; and when it succeeds the database, and every path but those of the package's own meta files, is what the uninterrupted installation would have made of it. Exception: an upgrade killed after it removed the old record can be repeated neither as an upgrade nor without --force, and with it overwrites the files that the upgrade rules protect.", "quantifier": "all databases, rules, file systems in which nothing of another sort stands in the way, archives with distinct plain paths, and moments of the kill", "why_tests_cant": "The kill can fall between any two entries and inside any file of any archive; a test samples a few.", "anchors": ["src/pkgadd.cxx: run", "src/pkgdbh.cxx: installArchivePackage, getConflictsFilesList, removePackageFilesRefsFromDB"]}
{"id": "C116", "title": "Repeating a removal that was killed", "statement": "If pkgrm is killed while it deletes a package's files, or while it deletes the record before the list of files in it is gone, then the database still loads, the package still counts as installed with the same list of files, every other record is unchanged, and only paths that no other package lists are gone (and stray meta files of the root). Removing the package again, however often that is killed too in the same way, ends with the database and the file system (stray meta files aside) that the uninterrupted removal would have left. This holds for a package without removal scripts whose paths are plainly spelled. Once the list of files is deleted and until the directory of the record is, no package can be added or removed at all.", "quantifier": "every database, file system, package and point at which the process is killed, and every number of kills", "why_tests_cant": "The points of interruption are as many as the files of the package and the states of the system they may be in; a test tries a few.", "anchors": ["src/pkgrm.cxx:pkgrm::run", "src/pkgdbh.cxx:removePackageFiles", "src/pkgdbh.cxx:removePackageFilesRefsFromDB"]}
{"id": "C117", "title": "Repeating an upgrade that was killed while it deleted the old files", "statement": "If pkgadd -u is killed while it deletes the files of the version it replaces, and before it touches that version's record, then only files that the package alone lists and the rules do not keep are gone; and running the same upgrade again succeeds with exactly the database, and at every path exactly the file, that the uninterrupted upgrade would have left. This holds for an upgrade without -f and without scripts, of a package whose paths are plainly spelled, over a root without stray meta files. Killed a little later, when the META of the old record is deleted and its list of files is not yet, the repeated upgrade succeeds too, but a package installed as a dependency loses that mark.", "quantifier": "every database, file system, archive and rules for which the upgrade succeeds, and every point of the deletion at which the process is killed", "why_tests_cant": "The points of interruption are as many as the files of the package, and every later step of the upgrade has to be the same over a file system that differs in any subset of them.", "anchors": ["src/pkgadd.cxx:pkgadd::run", "src/pkgdbh.cxx:removePackageFiles", "src/pkgdbh.cxx:removePackageFilesRefsFromDB"]}
{"id": "C118", "title": "One command for several packages, or several commands one after the other", "statement": "Installing packages with one command is the same as installing the first of them with one command and the others with a second one: the same outcome, success or the same error, and the same database and file system at the end, including which packages count as installed automatically. This holds on the system itself (root /), without scripts, when the first command succeeds, leaves no stray meta file and a database that can be read, when its packages are plainly written, and when the packages of the second command are not among those of the first and are not other names that the first ones answer to.", "quantifier": "every database, file system, rules, list of packages and every place to cut it in two, with or without -f", "why_tests_cant": "It compares the memory a process has built up over any number of packages with the one a new process reads from disk, for every later list of packages.", "anchors": ["src/install.cxx:install::run", "src/pkgadd.cxx:pkgadd::run", "src/pkgdbh.cxx:getListOfPackagesNames"]}
{"id": "C119", "title": "Removing two packages in either order", "statement": "When two packages are removed one after the other with pkgrm, the order makes no difference: if one order succeeds, so does the other, with the same database and the same file at every path. What is gone then is exactly what only these two packages list, except directories in which something else exists. This holds without removal scripts, over a root without stray meta files, when the two packages write the paths they share in the same way, and each lists with a file every directory the file is in. A package that does not list the directory of its file makes a difference: removed last, it leaves that directory behind.", "quantifier": "every database, file system and pair of installed packages, whatever they share with each other and with other packages", "why_tests_cant": "It compares two runs over all databases and all trees, nested directories shared in any way included.", "anchors": ["src/pkgrm.cxx:pkgrm::run", "src/pkgdbh.cxx:removePackageFiles", "src/pkgdbh.cxx:removePackageFilesRefsFromDB"]}
{"id": "C120", "title": "The order of the packages of one command", "statement": "When one install command is given several packages, the order in which they are given makes no difference to what it records: if the command succeeds in both orders, every package has the same META record, automatic mark included, and the same list of files either way. A file which a package lists in the end and which only that package can have put there is also the same in both orders: it is what its archive holds. This is for a command without scripts and without -f, on the root /, with plainly written archives of different packages. That both orders succeed cannot be left out: when a file moves from one package to another, the command ends with a conflict unless its old owner comes first.", "quantifier": "every database and file system, list of archives, permutation of it and upgrade configuration file", "why_tests_cant": "It compares the runs of all permutations of a list of any length, from every state.", "anchors": ["src/install.cxx:install::run", "src/pkgadd.cxx:pkgadd::run", "src/pkgdbh.cxx:moveMetaFilesPackage"]}
