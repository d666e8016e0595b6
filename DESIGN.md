# Formal model of NuTyX/cards in Rocq (Coq 8.16.1)

## 1. Shape of the development

`rocq/theories/` contains, per area:

* `*Model.v` (also `Graph.v`, `GenDeps.v`, `RemoveCmd.v`) – executable Gallina transcription of the C++; every definition cites
  file:lines in /repo. Undefined behaviour, exceptions and endless loops are explicit outcomes.
* `*Spec.v` – the small vocabulary the theorem statements use (what a token list is, what "below" means for paths, which names a package
  lists on disk ...). It does not call the model's algorithms.
* `*Proofs.v`, `*Ops.v`, `*Run.v`, ... – lemmas.
* `*Props.v` – the property theorems, named `Cnn_...`, each with an `Example` or a concrete instance meeting its hypotheses.

Conventions: `std::string` = `list ascii`; `std::set<std::string>` = strictly sorted list in unsigned byte order (the order of
`std::string::operator<`); `std::map` = association list sorted by key; loops whose termination is not structural take fuel and return an
explicit "out of fuel" value, and a theorem shows how much is enough (or that none is). `_refuted` theorems state that the property as
worded is FALSE of the code, with a concrete witness; beside each there is a theorem giving the condition under which it holds. `_partial`
theorems prove part of a property; the note in `MANIFEST.json` says what is missing.

**Statements with exceptions.** Several properties were first written as the ideal a user would like, and turned out to be false of the code.
Where the code's behaviour is now known exactly, `statement` in `properties.jsonl` is that exact behaviour, exceptions included, the ideal is
kept in the field `refuted_ideal`, the `_refuted` theorems (which disprove the ideal, not the statement) stay, and the status is `proved`.
Where only a sufficient condition is proved, the ideal stays the statement and the status stays `partial`.

## 2. Properties, model and proof

| id | files | modelled | proof |
|----|-------|----------|-------|
| C01-C08, C16, C18, C51, C52 | DbModel, DbLoad, DbOps, DbRun, DbInv, DbSpec, DbFacts, DbProps, EngineFs, EngineRoot, EngineWay, RemoveProps, AddRun, AddProps, UpgradeProps, DbExamples, UpgradeExamples | pkgdbh (load, add/remove refs, conflicts, strip, extraction, meta files), pkgadd::run, pkgrm::run, sessions and histories of sessions | invariants and frame conditions by induction over file lists / histories |
| C09, C10, C50 | Rules* | rules file parser, selection, post-install pairs; the regular expression engine is an oracle | induction on the rule list |
| C11, C17, C47 | Meta* | META lines, numbers of the C library, archive reading | case analysis, round trip by induction |
| C12, C13 | Crash* | the system calls of the database writer, file contents not yet synced, a crash after any prefix | induction over prefixes and over what reaches the disk |
| C14, C15, C53 | Lock*, Conc* | processes, lock objects with scopes, flock table, kill; pkgadd, pkgrm, pkginfo, create as processes on one disk | invariant over all schedules; witnesses |
| C19-C21 | Graph, RemoveCmd* | cards remove | depth-first closure = reachability, for every graph |
| C22-C24 | GenDeps*, ReadExact | generateDependencies work list | measure on acyclic graphs; invariant of the work list; divergence proved by induction on fuel for cycles |
| C25, C26 | Ports* | levels of ports, cards depends | rank, rounds invariant |
| C27 | Index* | index generator and parser | round trip by induction over packages and lines |
| C28, C29 | Hex*, Fetch* | download/verify; hash and signature functions are arbitrary | case analysis for arbitrary oracles, codec |
| C30, C49 | ConfModel, ConfProps, PurgeProps, ConfExamples | configuration files, purge | induction over lines and over the tree |
| C31-C35 | Str* | string_utils, mode strings | induction |
| C36-C39 | Fs* | file_utils, dirname, remove, fgets; libarchive extraction on an abstract tree | induction over strings, chunks, ancestors |
| C40, C41 | Cont* | cards::vector, cards::string with explicit memory blocks | invariant over operation sequences |
| C42 | Arg* | argument parser and the table of the command cards | declarative grammar (ArgSpec), sound and complete |
| C43, C46 | Proc* | wait status, status bits | arithmetic, bitwise extensionality |
| C44 | Diff* | diff and the lists of upgrade | partition by induction over packages |
| C55 | ConcModel, DisturbProps | the install split at the unpack/move windows, other processes cleaning up | simulation of the running install by the install alone, over all schedules |
| C56–C60 | Query* | pkginfo queries on the loaded database | loaded records characterised by the database on disk |
| C61 | Elf* | ELF reader at byte level | layout lemmas, induction over the entries |
| C62 | Sync* | the downloads and decompressions of sync as a list of file writes, death inside any of them | frames per path, induction over the actions |
| C63, C64 | Files* | the file indexes (.FILES) as text, `cards files -b`, `cards query -b`, parseFiles | depots described as archives, written out, read back; induction over the lines |
| C65 | Recipe* | the reader of recipes (pkgfile::parse), with its variables kept from one recipe to the next | recipes described by items, rendered to text, read back |
| C66–C69 | Create* | the engine of `cards create` (base, run) as steps on world and memory; what pkgmk does is a function | C02's invariant per step; equality with pkgadd's run |
| C70 | CreateOrder | list of build dependencies by level | levels of C25, induction over the levels |
| C71–C73 | PortsLists | listings of the ports tree (level, deptree, dependent), build order of a collection | levels have no gap (C25); depth-first search with its output as invariant |
| C74, C75 | Rebuild* | verdict on each port from indexes, recipes and database; deletion of archives | existential readings of the searches; induction over the collection; C39 |
| C76 | ManyRun, ManyMeta, Install* | the whole of `cards install`: database, resolution with verified downloads, the installations | C22/C24/C28 joined with C01/C02 by induction over the list of archives |
| C77 | UpCmdModel, UpCmdProps, UpCmdMore, UpCmdExamples | 'cards upgrade' without download options: lists (C44), resolution (C22), installations and removals as one session | the lists characterised by membership (due, obsolete), the resolution by reachability, then ManyRun/ManyMeta over the list of archives and a removal invariant; idempotence from C77_meta and the stored build dates |
| C78 | RatioModel, RatioProps, RatioUp | diff::ratio in IEEE binary32 (Flocq's definition), the stop of upgrade.cxx:36-53 | monotonicity of rounding reduces every pair of numbers to a computed bound; 101 percentages by vm_compute |
| C79 | DiffAmounts | the amounts of struct m_package, downloadSize, AddSize, RemoveSize | the loop over the map equals a sum over any list of the names of the class |
| C80 | Log* | process::execLog/execShellLog: child, background process and reader around a pipe | small-step relation; invariants over every schedule, a measure for the end |
| C81 | Trigger* | runLastPostInstall and the set it works on, process::execute's cutting of arguments | the engine's post-install list (C50) pushed through the ordered set and the switch; induction over the transaction |
| C82 | Foot* | getFootprintPackage over what libarchive reports | every readable entry determines what is seen of it; rendering is injective (splitting at tabs, slashes, ' ->', decimals) |
| C83 | Size* | sizeHumanRead: conversion to double, %5.2f, and its use for the progress of a download | integer arithmetic of rounding to even; reading back the text; monotonicity across the units |
| C84 | ToolModel, ToolProps | the three command line parsers, the dispatch of pkginfo::run, tools.cxx main | a grammar of words, the parser agrees with it by induction on the line; unambiguity; counting of queries |
| C85 | RepoModel, RepoProps | repo.cxx, file_utils.cxx:289-344, archive.cxx:5-26, pkgrepo.cxx:782-995 over a map from path to content; hash, signature, zstd and libarchive are functions | induction over the sorted file list; round trip through C27 and C29; crash relation |
| C86 | KeysModel, KeysProps | pkgrepo.cxx:62-127, cards.cxx:185-193 as a list of system calls over files with permissions | exhaustive analysis of the observable states, for all contents, umasks and cuts |
| C87 | CmdModel, CmdProps | options --root and --conf, uid checks of cards.cxx and the command constructors | C42 for the parsing, component algebra for the paths |
| C88 | WebModel, WebToc | parseHTMLDelimitedList (webcards.cxx:10-109) line by line | inductive specification of numbered headings, induction on lines, counting of list tags |
| C89 | WebModel, WebProps | parseArguments (webcards.cxx:121-162) on the sorted set of tokens | tokens of a join, first occurrence of a mark |
| C90 | WebModel, WebSearch | webrepo.cxx:7-114 (memchr loop, depot kinds) and getFormatedBinaryPackageList | records of the indexes (ScanProps), the map by branch, system and name |
| C91 | WebModel, WebSearch | getContent, main (webcards.cxx:251-265, 385-566): the content cell | C89 for the arguments, map of articles |
| C92 | ReportModel, ReportProps, ReportMore | showInfo, amountInfo (diff.cxx:111-281) as lines of text | a reader of paragraphs under headings, counting of gaps between words, C44 for the classes |
| C93 | OrderProps | precedence of the configured collections, for binaries and recipes | corollaries of C27_exact and C65_exact |
| C94 | RemoveCmd, RemoveExact | the set of packages removed by `cards remove` | selection loop related to the four ways of naming, second phase to reachability in the database without the first set; both inclusions |
| C04, C15, C17, C18, C29, C37, C40, C41, C45, C47, C54, C68 (second part) | AddRefused, ConcExact, MetaExact, TextExact, ContExact, ScanExact, OpenExact, CreateMore | what holds for every input, without the well-formedness hypotheses of the first theorems | independent readers of the same texts, agreement by induction; for C15 a frame over the other processes' steps |
| C95 | ManyFiles, TransFiles, TransOrphans, TransExamples | the file system after the whole sequence of additions (install.cxx 73-98, upgrade.cxx 136-159) | induction over the archives handed over, per step the file system of add_run (add_fs), then over the obsolete packages |
| C96 | BuildModel, BuildProps | create.cxx constructor, core, base, installDependencies, buildBinary composed, pkgmk arbitrary | induction over the archives put in with the database invariant and the agreement of memory and disk; C70 for the list, C67's clearing loop |
| C97 | BuildModel, BuildMore | the loop of buildCollection over buildBinary, as a sequence of calls of pkgmk with the repository and the system of each | invariant over the loop: the database agrees with the memory, names taken at the start, packages of the sets and where they came from; order of C71 for the dependencies |
| C98 | SaidModel, SaidProps | the lines of installArchivePackage for every entry | the entry of the file is isolated in the archive; the other entries stay away from its path and from its copy |
| C99 | RmSaidModel, RmSaidProps | the announcement, the failure lines and the percentages of removePackageFiles | the loop goes from the longest names to the shortest: what is stuck stays stuck, because nothing below it comes later |
| C100 | InfoModel, InfoProps | the report of `cards info -b`, with the folder and address each record was read at | the reader invariant of C27 plus sortedness of the lists of every record; the report compared field by field |
| C101 | InfoModel, InfoMembers | sets, collections and names as arguments of `cards install` and `cards info -S` | the records of the index are faithful (C27), its keys unique; C76 for the effect |
| C102 | GuiModel, GuiProps, GuiExamples | the client's table, status bits, menus, job list, buttons, one event at a time; objects as pointers of a generation | invariant tying the state to a view computed from what the user saw |
| C103 | GuiModel, GuiSort, GuiExamples | the comparison of the rows and the direction of the clicks | case analysis on the groups of texts; induction over sessions |
| C104 | LoggerModel, LoggerProps | cards_log.cxx: log, loopCallback, subscribe, unSubscribe, with fltk/flcards.cxx's loop | induction over schedules from the end: the queue is the last fifty waiting messages, the subscribers those with the last word Sub |
| C105 | ThreadModel, ThreadProps, ThreadPatient, ThreadExamples | the threads of cards_wrapper.cxx as instruction lists, m_job_running, the modal box, deleted lists | invariant over all interleavings; for a patient user each thread carries the weakest precondition of the rest of its program |
| C106 | ClientModel, ClientProps, ClientGui | RemovePackages and InstallPackages of flcards over the engine model | induction over the removals with the database invariant; the installation by C76; the choices by C102 |
| C107 | ProgressModel, ProgressProps | the two progressInfo functions and the calls the engine makes | induction over the calls; arithmetic of the quotients |
| C108 | ObjModel, ObjProps, ObjExamples | one pkgdbh object over a history of calls, the disk given at every call: names, fields, load, file and name queries | invariant over the history (names frozen, packages frozen), induction on the load loop |
| C109 | MkdirModel, MkdirProps | createRecursiveDirs character by character (the prefixes tried), mkdir, unlink and open of the log | invariant: the tree is the old one with the free missing prefixes; chain of prefixes; crash = firstn |
| C110 | ArcModel, ArcProps | one archive object over any sequence of its public questions | invariant over the sequence (the lists hold only what the lines say), uniqueness of sorted sets |
| C111 | RepoObjModel, RepoObjProps, RepoObjMore, RepoObjGroup, RepoObjEmpty, RepoObjExamples | one package-repository object over any sequence of its public questions, the indexes of each call given by a world | invariant over the sequence (the map is that of the last reading plus blank records for the names asked), on the exact reading of C27/C93/C100 |
| C112 | PortObjModel, PortObjProps, PortObjExamples | one pkgfile object: the map of ports with its lazy reading, operator[] that adds, the accumulated list, all public questions, in worlds that change between the calls | a relation between the object and the recipes of its first look, kept by every question; names added have level 0 and leave the order of every named collection as it is; the answers by C25, C65, C71 |
| C113 | DwlModel, DwlProps, DwlLink | one download at the level of the pieces handed over by libcurl: the stream opened at the first, its buffer, a full device, the end of the transfer; a list of downloads | the file and the bytes held back together are always a beginning of what was received; induction over the pieces and over the list |
| C114 | VisitModel, VisitProps | the requests as processes over one file: look for the end, write there in one or several pieces, die at any step | an invariant over every schedule: the old content in front, every other byte from a line |
| C115 | RepeatProps | the file systems an installation goes through, entry by entry and inside an entry; the same command again | two runs side by side from different starts: they differ only where an entry is still to come |
| C116 | RmAgain | removal killed at any file deletion (fold of the deleting loop over a prefix) or record deletion (system calls of CrashModel) | exact result of the deleting loop, independent of order: a listed path goes iff all below it is listed; so any subset already gone gives the same end; induction over the kills |
| C117 | FsExt, UpAgain | upgrade killed at any file deletion of the old version (fold of the deleting loop over a prefix, with the keep list) | any subset of the names already gone gives the same file system at the end of the loop; the rest of the run is a congruence for pointwise equality of file systems; no new conflict since less is there |
| C118 | ManySplit, ManyCase | the Many session over u++v against Many over u, then over v on its result (memory reloaded from disk) | relation between memories preserved by every step of add_run, remove_refs, move_meta; run_keeps and run_frame give it at the cut |
| C119 | RmOrder, RmOrderCase | two Remove sessions in sequence against the same two the other way round | for one removal: gone iff listed alone with nothing else below; composed twice this is a condition symmetrical in the two packages |
| C120 | ManyOrder, ManyOrderCase | one Many session with l against one with a permutation of l | the results of C76 and C95 for one package of a list do not mention its place in the list |
| C45, C54 | Scan* | mmap scanner of list and search | induction over the bytes |
| C48 | RootProps | the engine with another root | step relation "fine and same outside" over every phase, induction over histories |

Properties added while the model grew (C50 and above) are listed with their files in `MANIFEST.json`.

## 3. Trusted base

* Coq's kernel (8.16.1), and `coqc`'s parser and printer for reading the statements.
* `Print Assumptions` of every property theorem except those of C78 says "Closed under the global context": no axiom is used, neither ours
  nor the standard library's. The theorems of C78 reason about floating point through Flocq's real numbers and list
  `ClassicalDedekindReals.sig_not_dec`, `ClassicalDedekindReals.sig_forall_dec`, `FunctionalExtensionality.functional_extensionality_dep` and
  `Classical_Prop.classic`, all of the standard library. The checker that walks all loaded modules lists also `Coq.ssr.ssrunder.Under_rel.*` and `Coq.Reals.Rdefinitions.RbaseSymbolsImpl.*`,
  `RinvImpl.*`: sealed module fields of the standard library, which have definitions and are not axioms.
* The transcription: that the Gallina definitions say what the C++ does. This is by reading, recorded in the comments.
* Models of what is not in the repository, each stated in the comment where it is defined: POSIX calls on a tree of nodes
  (lstat, unlink, rmdir, rename, fsync, flock, waitpid), fgets/sscanf/strtok/strtoul/stoi, std::set and std::map, libarchive's extraction
  with the flags used, std::string operations.
* Oracles, universally quantified in the theorems: regcomp/regexec, package scripts, SHA-512, PEM and EVP verification, decompression,
  the answers of the server, the values of uninitialised members, the schedule, the crash point.

## 4. What is modelled and what is not

Modelled (C++ file: part): string_utils.cxx (all the functions the tools use); file_utils.cxx (trimFileName, checkFileExist/Empty/FilesEqual/
PermissionsEqual, cleanupMetaFiles, removeFile, parseFile, findRecursiveFile as used by purge); pkgdbh.cxx (load, refs, conflicts, rules,
scripts, extraction, triggers' scheduling); pkgadd.cxx, pkgrm.cxx (all of run); archive.cxx (reading, checks, fields);
pkgrepo.cxx (index parsing, dependencies, download, hash, signature); repo.cxx (index generation); lock.cxx; process.cxx (status);
cache.cxx (flags); vector.cxx, string.cxx; argument_parser.cxx, cards_argument_parser.cxx (table); conf.cxx; diff.cxx (classes, counters, ratio, amounts), upgrade.cxx (all but downloads only);
install.cxx (all but the printing); remove.cxx; pkgfile.cxx (levels), depends.cxx; list.cxx, search.cxx; pkginfo.cxx (run); runtime_dependencies_utils.cxx, getDatas; sync.cxx, dwl.cxx (which file is written when, and from which pieces); files.cxx, query.cxx (-b), pkgrepo.cxx (parseFiles); pkgfile.cxx (parse); create.cxx (base, run, list, installDependencies, checkBinaries, buildCollection); level.cxx, deptree.cxx, dependent.cxx;
webcards.cxx, webrepo.cxx (arguments, table of contents, search, the content cell of the page, the record of searches; mysql.cxx is not used by any modelled path: its caller is commented out at webcards.cxx:447).

fltk (the graphical front end flcards): cards_wrapper.cxx (package list, job list, the four thread bodies, their start and end; C102, C105), table_base.cxx and table_package.cxx (rows,
sorting, menus, events), mainWindow.cxx (events, buttons), cards_log.cxx (C104), cards_client.cxx (C106, C107), the opening and closing of progressbox.cxx. Not modelled: drawing, layout, icons,
preferences; dead code (install_selected, remove_selected, clearJobList: no button calls them). The menus of table_package.cxx:173-238 are arrays of inner blocks whose items are read after
the block has ended (formally undefined on every pick); the model takes their memory as intact.

Not modelled: printing other than the reports of C56-C60, C83 and C92, colours, translations, progress bars (their numbers: C107) and log files; libcurl (only the outcome of a download); compression formats;
pkgmk (its effect in `cards create` is an arbitrary function of the file system); dates and sizes in pkginfo -d; real time.

Simplifications that matter (each repeated in the comment of the definition):

* Paths are resolved component-wise; symbolic links are nodes but are not followed as directories; ".." is an ordinary name; hard links
  have no shared identity; the process is root and I/O fails only in the modelled ways.
* The database directory is a map of its own (package -> file -> content): archives do not ship files below it and package names contain no '/'.
* A script is a function of the file system, does not touch the database, and returns success or failure.
* `--root` is an absolute existing directory, spelled with a final slash as install and pkgadd do.
* In the concurrent model the actions between lock operations are atomic.
* Values of uninitialised variables are one arbitrary parameter, not a fresh choice per read.

## 5. What the proofs found in the code (each has a `_refuted` theorem or an Example)

Engine: a .PRE script runs and an UPGRADE pattern may fail after files were already touched (C04); one path under two spellings escapes
ownership (C05); INSTALL NO + UPGRADE NO deletes the file (C07); m_dependency is never initialised (C18); an extraction failure is recorded
as an installed file (C52); a directory of another package may be replaced (C51); cleanupMetaFiles and moveMetaFilesPackage delete
"/.MTREE" etc. of the host whatever the root, and leave the ones in the root behind (C48); `upgrade --root /mnt` lacks the final slash.

Crash and concurrency: META is moved before the list of files exists and is not synced (C13); the conflict test uses a database loaded
before the lock is taken (C15); `cards create` holds its lock for one statement only (C53); a lock refused leaves signals ignored.

Removal: alias, collection, group and empty arguments bypass the in-use and base checks (C19-C21); operator[] on the alias table creates
ghost records.

Resolution: endless loop on cyclic dependencies (C23); dependency lines of fewer than 15 characters dropped from the index (C22, C27);
fields of the previous record survive into the next (C27, C45, C54); sizes from 2 GiB on become huge (C27); blank META lines split a record.

Verification: none without a global "url" line; an archive whose META has another name bypasses it; a wrong hash with a valid signature is
accepted; archives given by path are never checked; a signature of odd length writes behind its buffer; non-hexadecimal text is
accepted (C28, C29).

Utilities: replaceAll is endless when the new text contains the old one (C33); ultos overruns its buffer from 20 digits on (C34); long lines
are cut and the last character of an unterminated file is lost (C37); device nodes are compared by st_dev (C38); removeFile climbs above a
base with a trailing slash (C39); vector with capacity 0 or from 2^31 elements (C40); string: empty text, shrinking, uninitialised (C41);
a script killed by a signal and a failing fork count as success (C43); a `dir` line without slash lets purge work in the depot itself, and
a local collection nested in a downloadable one is purged (C49); triggers are scheduled by the wrong rule (C50); levels of ports on a cycle
are all 0 (C25, C26); an index without final newline is read outside, one empty index silences `cards list` (C45); search misses names in
upper case (C54); `upgrade --check` says yes when there is nothing to upgrade (C44, Example).

Queries: `pkginfo -n` and tools that are only starting break a running install (C55); an alias hides an installed package and `-d`, `-b`, `-L`,
`-R` by alias answer from an empty record (C57); libz.so.10 counts as libz.so.1 (C60); the ELF reader looks names up in the first string
table, gives up when it lies in the second half of the file, reads behind the dynamic segment misreads 32-bit files and crashes on an ELF file cut in its header (C61).

Sync: indexes are rewritten in place, so an interruption leaves a cut index; one that cannot be decompressed is passed over and the command
succeeds; the new key is kept when the rest fails (C62).

Indexes of files and recipes: `query -b` reports "/" for the blank line behind every archive; a file beginning with '@' is taken for a heading; a
missing .FILES is read through a null pointer; only the first of two versions is shown (C63, C64). A recipe inherits the fields it does not
state from the recipe before; words of comments become dependencies; a list left open swallows the next recipe; tabs do not separate;
an unreadable recipe gets the values of the one before (C65).

Builds: `cards create` leaves empty directories behind when it clears the system (C67); with --no-meta it keeps records of deleted packages and
loses the record of an installed package it builds again (C67, C68); a package added and built in one command is not recognised as
installed (C69); a port on a cycle is built without its dependencies, and `b.lib` pulls in nothing that b needs (C70); `cards deptree` stops
at a port that names itself (C72), `cards dependent b` misses the users of b.lib (C73); of a library package only the first library is
checked and one without libraries is always reported (C74); archives of groups of vanished ports stay (C75).

Install: `cards install a b` with a needing b records b as automatic (so a later removal of a takes it away); an up-to-date package whose
dependency is missing is reinstalled without it (C76).

- C77: upgrade never calls setDependency(), so a dependency that a new build brings in is recorded as manual and 'cards remove' never takes it away; the removal of obsolete automatic packages (upgrade.cxx:153-159) does not look whether a package outside the repository needs them; the group package of a dependency brought in by the upgrade comes only with the next one. `--root /mnt` is used without the trailing slash install.cxx adds (l.14-15).

- C78: diff::ratio() prints one percent too many when exactly 53 % or 59 % of the packages are current, and converts NaN to int with an empty database (undefined).

- C79: RemoveSize() adds installed_space of obsolete packages, but that member is only filled for packages to be upgraded (diff.cxx:51): the amount removed is announced without them.

- C80: execShellLog polls waitpid before the first read: a build that ends at once (a missing recipe, a syntax error) leaves an empty log and shows nothing on the terminal; a process left in the background by the build keeps `cards create` waiting for ever although the build has ended.

- C81: the programs are run by the destructor, so also after an install that was refused with a conflict; arguments are cut at blanks, so a file name with a blank becomes two arguments; programs without a file argument (gdk-pixbuf-query-loaders, gio-querymodules) are run once per matching file.

- C82: both loops of getFootprintPackage end at the first header that is not ARCHIVE_OK, so a damaged archive, or one that makes libarchive warn, gives a shortened footprint and exit status 0.

- C83: updateProgress casts the bytes received to int before converting to unsigned long: beyond 2 G the progress shows 17179869182.79 G; 1048575 bytes show as 1024.00 K.

- C84: the constructor pkginfo() (pkginfo.cxx:26-41), the one the tool uses, does not initialise m_runtimelibs_mode and m_number_mode; `pkginfo -i` is then refused as "too many options", or answers with a number, depending on the heap. `pkginfo -l foo -d bar` lists the files of bar; `pkginfo -o x -d y` ignores -o. `pkginfo -l -h` prints the help.

- C85: 'cards repo' stops at the first file of the collection that is no archive, leaving .REPO and .FILES cut (stray file); archives in sub-directories are indexed under their bare name, which no client can fetch; the check mode stops at the first wrong signature and prints "All N packages checked"; a collection whose index cannot be opened ends the run with exit code 0; "All N packages signed" counts the old index; the compressed indexes are overwritten in place.

- C86: the private key is written with the permissions the umask gives (0644 usually) and only then changed to 0600; an existing key pair is overwritten without a question, the private key first.

- C87: `cards upgrade --root=/mnt` reads `/mntvar/lib/pkg/DB/` (upgrade.cxx:15 appends no slash) while it locks `/mnt/var/lib/pkg/DB`; `cards install --root=/mnt` looks dependencies up in the running system; `cards create --root` is accepted and ignored.

- C88: in webcards every line containing `<h` but no closing tag (`<hr>`, a heading continued on the next line) disappears from the page; heading texts with inner tags are cut in the table; if the last heading is not an h2 the `<ul>` of the table are not closed.

- C89: webcards looks for `page=` anywhere in a token: `search=homepage=x` shows page x; of `page=b&page=a` the page is b (sorted set, not the order written).

- C90: the needle is put in lower case but names and collections are not: `Perl` is not found by name; a depot whose index cannot be opened ends the reading of all further ones; an index not ended by a newline is read past its end (webrepo.cxx).

- C91: webcards writes the page name it was asked for back without escaping (`?page=<script>…`).

- C92: `cards diff` says the system is up to date although `cards upgrade` will add packages of the configured groups, and its line `Added packages (new dependencies)` is always 0 (m_packagesNew is never incremented).

- C93: cards.conf(5) promises that the directory listed first has precedence; both readers overwrite an earlier entry of the same name, so the directory listed last wins.

- C94: with arguments, a removal may be reported as failed ('not installed') after it was carried out, when the uninitialised `automatic` flag of the record that pkgdbh.cxx:912 re-creates by operator[] happens to be set.

- C95: no counterexample; the exceptions are the rules, scripts and two archives with the same path.

- C96: clearing a package outside the sets leaves its aliases in memory: a package the port needs whose name is such an alias is then taken for installed and pkgmk runs without it (C96_alias_refuted). A package of the sets that needs a package outside them is left without it (C96_needed_cleared_refuted). A build that leaves no archive for the port succeeds (C96_nothing_made). The check getPortDir(..).empty() before pkgmk never fires.

- C97: a name that was an alias of an installed package outside the sets when the command was started stays taken for every build of the collection: the real package of that name is never put in (C97_alias_refuted).

- C98: pkgadd reports success and records files that it could not install; only a line on the error output tells.

- C99: pkgrm writes 'could not remove' for every shared or still used directory that only it lists, an upgrade does not; the obsolete packages of 'cards upgrade' are announced without version, since their record is deleted first (upgrade.cxx:153-159).

- C100: `cards info -b` shows, for a package without a URL (or licence, packager …) line, the one of the package read just before it; archives of 2 GiB and more are shown with a size near 2^64.

- C101: a package that has the name of a set cannot be installed by name: `cards install NAME` succeeds and installs the members of the set only.

- C102: choosing a package, then Sync, then Go dereferences deleted objects (the job list is not rebuilt when the list of packages is).

- C103: numbers are sorted the wrong way round relative to texts, and only by their integer part.

- C104: the queue of messages of other threads is cut to the last 50 (cards_log.cxx:95-98), so an error logged early in a burst is never shown; and a message of the main thread is shown before those that wait.

- C105: a Sync or Go pressed while another thread is running is refused, but its modal box is opened all the same, and only the end of a job closes it: flcards hangs (e.g. Sync pressed while the first list is being loaded). The box of a Sync closes before the list is read again, so that a click in between reads deleted objects. m_job_running is set by the started thread, not by the starter. A job that fails, or is refused for want of root, says so only in the log, which nobody sees (C104).

- C106: flcards removes a package other installed packages need without refusing or asking (C106_in_use_refuted; 'cards remove' refuses, C20), runs no removal scripts, and its list of base packages (cards_client.cxx:79) is never filled or read. A package removed and needed by one installed in the same 'Go !' is back afterwards (C106_back_refuted).

- C107: cards_client.cxx:107 divides by getNumberOfPackages() / 100, which is 0 for 1 to 99 installed packages: every 'Go !' of flcards on such a system dies (SIGFPE) before doing anything. The terminal shows more than 100% while installing a package of up to 100 files, because the entries .META and .MTREE are counted but not in the list (C107_terminal_over_refuted). progressbox.cxx:80-89 is never called (the event of dwl.h:50 has another name).

- C108: a long-lived pkgdbh object keeps the first non-empty set of names for ever (pkgdbh.cxx:310-315, 396) and takes a load that failed after the first package for a complete one (m_DB_Empty, l.472 and 646); getSetOfFiles of an unknown name inserts it into the alias table (l.409), so checkPackageNameExist answers true afterwards.

- C109: createRecursiveDirs (file_utils.cxx:261-287) answers true whenever the name has more than one character, whatever mkdir did, and false for "/" (a log directory "/" is refused); a path of 4096 characters or more overflows its buffer (strcpy l.266).

- C110: archive::builddate (archive.cxx:349-363) tests the text it is about to fill instead of the line, so the date is always 1970; printDeps prints a list that listofDependencies has added the package to (archive.cxx:150-155, 202).

- C111: m_listOfPackages[name] in almost every getter of pkgrepo inserts the name it is asked for (pkgrepo.cxx:711-780, 1025-1041): checkBinaryExist then says it exists, and parse() never reads again once the map is not empty (l.391-392); getBinaryPackageList never clears its set (l.256-272); getBinaryPackageInfo returns the text of the previous call for an unknown name (l.273-383); refresh() that throws leaves a part of the packages (l.384-388).

- C112: a second getListOfPackagesFromCollection() returns the first list again in front of its own; asking an object for the version, place, release or level of a name before there are ports makes that name the only port it will ever know; getPortDir() is never empty, so 'cards create' never says that a port is missing but that it cannot change into the directory.

- C113: the result of fclose() is not looked at, so a device that fills up on the last buffer gives a cut file and no error; an empty file cannot be downloaded over an old one; the old file is gone as soon as the first byte of the new one arrives.

- C114: the record of searches is opened "r+" and written at the end found earlier, not appended (O_APPEND): searches at the same time overwrite each other.

- C115: an upgrade removes the old record before it unpacks the new archive; killed in between, `pkgadd -u` no longer knows the package, and `pkgadd -f` overwrites the protected configuration files.

- C116: a removal killed after the list of files of the record is deleted leaves a database with which every command fails (see C13); before that point repeating the removal completes it.

- C117: an upgrade killed between the deletion of the old record's META and of its list of files can be repeated, but a package installed as a dependency is then no longer marked so.

- C118: a package is looked up under the other names installed packages answer to, but only those read from disk: `cards install bar foobar`, bar answering to foobar, installs both, while `cards install bar` and then `cards install foobar` ends with an error and installs nothing. Upgrading an automatically installed package twice in one command takes its automatic mark away; in two commands it keeps it.

- C119: a directory listed by one package and holding a file of another that does not list it is left behind if its owner is removed first: no later removal takes it.

- C120: install a b ends with a conflict where install b a succeeds, if a takes over a file of the installed b.

## 6. Testing the theorems against wrong programs

`tools/seed.py` applies an edit to a scratch copy of the model, rebuilds, admits (in the scratch copy) every lemma that breaks and finally
asks Print Assumptions which property theorems rest on a broken lemma. Results are in `seeded/LOG.jsonl`.
